(** Model of kmlbase::NetCache (src/kml/base/net_cache.h). *)
From Verif Require Import Common StrMap.
Local Open Scope N_scope.

Section Cache.
  (** CacheItem is a template parameter; a CacheItemPtr may be NULL ([None]). *)
  Variable item : Type.
  (** NetFetcher::FetchUrl (h:125): [None] is a failed fetch.  Modelled as a pure function. *)
  Variable fetch_url : str -> option str.
  (** CacheItem::CreateFromString (h:129); may return NULL. *)
  Variable create : str -> option item.
  (** max_size_ (h:208). *)
  Variable max_size : N.

  Definition ptr := option item.
  Definition entry := (ptr * N)%type.
  (** cache_map_ and cache_count_ (h:209-210).  Simplification: the 64-bit counter does not wrap. *)
  Record cache := { cmap : smap entry; count : N }.
  Definition empty_cache : cache := {| cmap := []; count := 0 |}.

  (** h:140-149 LookUp. *)
  Definition look_up (url : str) (c : cache) : ptr :=
    match mget url (cmap c) with Some (i, _) => i | None => None end.
  (** h:205-207 Size. *)
  Definition size (c : cache) : N := N.of_nat (length (cmap c)).
  (** h:186-202 RemoveOldest. *)
  Definition oldest (first : str * entry) (m : smap entry) : str * entry :=
    fold_left (fun o kv => if snd (snd kv) <? snd (snd o) then kv else o) m first.
  Definition remove_oldest (c : cache) : bool * cache :=
    match cmap c with
    | [] => (false, c)
    | first :: _ => (true, {| cmap := mdel (fst (oldest first (cmap c))) (cmap c); count := count c |})
    end.
  (** h:156-169 Save. *)
  Definition save (url : str) (i : ptr) (c : cache) : bool * cache :=
    match look_up url c with
    | Some _ => (false, c)
    | None =>
        let c := if size c =? max_size then snd (remove_oldest c) else c in
        (true, {| cmap := mset url (i, count c) (cmap c); count := count c + 1 |})
    end.
  (** h:174-181 Delete. *)
  Definition delete (url : str) (c : cache) : bool * cache :=
    match look_up url c with
    | Some _ => (true, {| cmap := mdel url (cmap c); count := count c |})
    | None => (false, c)
    end.
  (** h:117-133 Fetch; the extra flag tells whether the fetcher was asked. *)
  Definition fetch (url : str) (c : cache) : (ptr * bool) * cache :=
    match look_up url c with
    | Some i => ((Some i, false), c)
    | None =>
        match fetch_url url with
        | None => ((None, true), c)
        | Some data =>
            let i := create data in
            let '(ok, c) := save url i c in
            ((if ok then i else None, true), c)
        end
    end.
End Cache.
