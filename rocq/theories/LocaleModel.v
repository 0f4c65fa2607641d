(** The locale of numbers: base/localec.cc, the streams of base/string_util.h and regionator/regionator.cc. *)
From Verif Require Import Common.
Local Open Scope N_scope.

(** The locale of a thread: the one of the process or one made by newlocale (POSIX; localec.cc:45-48). *)
Inductive handle := Process | Made (n : N).
(** The decimal point of the process, the locale in use, the locales made and not freed with their decimal points, and the next one (what localec.cc:45-64 works on). *)
Record locales := { process_point : ascii; now : handle; alive : list (N * ascii); next : N }.
(** The decimal point of a locale; None if it is not there, when any use of it is undefined (POSIX; localec.cc:48, 63). *)
Definition point_of (s : locales) (h : handle) : option ascii :=
  match h with Process => Some (process_point s) | Made n => match List.find (fun e => fst e =? n) (alive s) with Some e => Some (snd e) | None => None end end.
(** newlocale (localec.cc:46): 0, None here, when there is no memory for it. *)
Definition newlocale (memory : bool) (c : ascii) (s : locales) : option handle * locales :=
  if memory then (Some (Made (next s)), {| process_point := process_point s; now := now s; alive := (next s, c) :: alive s; next := next s + 1 |}) else (None, s).
(** uselocale (localec.cc:48, 63): gives the locale that was in use; 0 leaves it in use. *)
Definition uselocale (h : option handle) (s : locales) : res (handle * locales) :=
  match h with
  | None => Ok (now s, s)
  | Some h => match point_of s h with
              | Some _ => Ok (now s, {| process_point := process_point s; now := h; alive := alive s; next := next s |})
              | None => UB
              end
  end.
(** freelocale (localec.cc:64): only for a locale that was made and not freed. *)
Definition freelocale (h : handle) (s : locales) : res locales :=
  match h with
  | Process => UB
  | Made n => match point_of s h with
              | Some _ => Ok {| process_point := process_point s; now := now s; alive := List.filter (fun e => negb (fst e =? n)) (alive s); next := next s |}
              | None => UB
              end
  end.
(** LocaleC::LocaleC (localec.cc:31-51, not Windows): previous_locale. *)
Definition locale_c (memory : bool) (s : locales) : res (handle * locales) :=
  let '(h, s1) := newlocale memory "."%char s in uselocale h s1.
(** LocaleC::~LocaleC (localec.cc:53-66, not Windows); previous_locale is never NULL here. *)
Definition locale_c_end (previous : handle) (s : locales) : res locales :=
  do (h, s1) <- uselocale (Some previous) s; freelocale h s1.
(** Programs with LocaleC objects on the stack (the use that localec.h:41-59 is made for): using the decimal point, a block with a LocaleC, one after the other. *)
Inductive prog := Use | Guard (p : prog) | Seq (p q : prog).
(** Running them: the decimal points that were used (localec.cc:31-66 at the beginning and the end of the block). *)
Fixpoint run (p : prog) (s : locales) : res (list ascii * locales) :=
  match p with
  | Use => match point_of s (now s) with Some c => Ok ([c], s) | None => UB end
  | Guard p => do (previous, s1) <- locale_c true s; do (l, s2) <- run p s1; do s3 <- locale_c_end previous s2; Ok (l, s3)
  | Seq p q => do (l1, s1) <- run p s; do (l2, s2) <- run q s1; Ok (l1 ++ l2, s2)
  end.

(** An integer written to a stream (std::num_put): the digits, with the separator of the locale of the stream before each group of three, if it has
    one (string_util.h:92-95, regionator.cc:72-74). *)
Fixpoint grouped (sep : option ascii) (digits : str) : str :=
  match digits with
  | [] => []
  | d :: ds => match sep with
               | Some c => if (length ds mod 3 =? 0)%nat && negb (length ds =? 0)%nat then d :: c :: grouped sep ds else d :: grouped sep ds
               | None => d :: grouped sep ds
               end
  end.
(** ToString of an integer (string_util.h:91-96): the stream has the classic locale, whatever that of the program is. *)
Definition to_string_int (global : option ascii) (digits : str) : str := let imbued : option ascii := None in grouped imbued digits.
(** Regionator::RegionFilename (regionator.cc:72-74) for a region that is not the root: the stream has the locale of the program. *)
Definition region_file (global : option ascii) (digits : str) : str := grouped global digits ++ S_ ".kml".
