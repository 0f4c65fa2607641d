(** Property theorems about the network cache (C11). *)
From Verif Require Import Common StrMap NetCacheModel NetCacheProofs.
Local Open Scope N_scope.

(** C11. For every fetcher, capacity and sequence of fetch, look-up, save, delete and evict calls the
    cache returns what a queue of saved entries (oldest first) returns, has the queue's size, and
    looks up what the queue holds. *)
Theorem net_cache_is_fifo_queue : forall (item : Type) fetch_url create max_size (os : list (cop item)),
  fst (crun item fetch_url create max_size (empty_cache item) os) = fst (qrun item fetch_url create max_size [] os) /\
  size item (snd (crun item fetch_url create max_size (empty_cache item) os)) =
    N.of_nat (length (snd (qrun item fetch_url create max_size [] os))) /\
  forall u, look_up item u (snd (crun item fetch_url create max_size (empty_cache item) os)) =
    qfind item u (snd (qrun item fetch_url create max_size [] os)).
Proof. exact cache_refines_queue. Qed.
Print Assumptions net_cache_is_fifo_queue.

(** C11. With a positive capacity the cache never holds more entries than that. *)
Theorem net_cache_bounded : forall (item : Type) fetch_url create max_size (os : list (cop item)), 0 < max_size ->
  size item (snd (crun item fetch_url create max_size (empty_cache item) os)) <= max_size.
Proof. exact cache_bounded. Qed.
Print Assumptions net_cache_bounded.

(** C11. An accepted save is returned by the next look-up. *)
Theorem net_cache_save_visible : forall (item : Type) fetch_url create max_size (os : list (cop item)) u i,
  let c := snd (crun item fetch_url create max_size (empty_cache item) os) in
  fst (save item max_size u i c) = true -> look_up item u (snd (save item max_size u i c)) = i.
Proof. exact reach_save_visible. Qed.
Print Assumptions net_cache_save_visible.

(** C11. Fetching again right after a fetch that returned an item returns the same item, does not
    ask the network and leaves the cache alone. *)
Theorem net_cache_refetch_is_hit : forall (item : Type) fetch_url create max_size (c : cache item) u i a,
  msorted (cmap item c) -> fst (fetch item fetch_url create max_size u c) = (Some i, a) ->
  fetch item fetch_url create max_size u (snd (fetch item fetch_url create max_size u c)) =
    ((Some i, false), snd (fetch item fetch_url create max_size u c)).
Proof. exact fetch_fetch. Qed.
Print Assumptions net_cache_refetch_is_hit.

(** Non-vacuity: a run with capacity 2 in which the third save evicts the first entry. *)
Example net_cache_run : let f := fun u : str => Some u in
  fst (crun str f f 2 (empty_cache str) [CFetch (S_ "b"); CFetch (S_ "a"); CFetch (S_ "c"); CLook (S_ "b"); CLook (S_ "a")]) =
  [RFetch (Some (S_ "b")) true; RFetch (Some (S_ "a")) true; RFetch (Some (S_ "c")) true; RItem None; RItem (Some (S_ "a"))].
Proof. reflexivity. Qed.
Example net_cache_sorted_nonvacuous : msorted (cmap str (empty_cache str)) /\
  fst (fetch str (fun u => Some u) (fun u => Some u) 2 (S_ "b") (empty_cache str)) = (Some (S_ "b"), true).
Proof. split; [constructor|reflexivity]. Qed.

(** C11. Refuted for capacity 0: the cache can reach every size. *)
Theorem net_cache_zero_capacity_refuted : forall n, exists os,
  size unit (snd (crun unit (fun _ => None) (fun _ => None) 0 (empty_cache unit) os)) = N.of_nat n.
Proof. exact zero_capacity_unbounded. Qed.
Print Assumptions net_cache_zero_capacity_refuted.

(** C11. Refuted: fetching a URL that already has a (NULL) entry evicts another entry although
    nothing new is stored. *)
Theorem net_cache_null_item_refuted : exists (fetch_url create : str -> option str) os u v,
  let c := snd (crun str fetch_url create 2 (empty_cache str) os) in
  size str c = 2 /\ mget u (cmap str c) <> None /\ look_up str v c <> None /\ u <> v /\
  look_up str v (snd (fetch str fetch_url create 2 u c)) = None.
Proof. exact null_item_evicts. Qed.
Print Assumptions net_cache_null_item_refuted.
