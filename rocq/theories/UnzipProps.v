(** Property theorems about reading ZIP archives (C100, C101). *)
From Verif Require Import Common StringsModel PathModel KmzModel KmzProps UnzipModel UnzipProofs UnzipProofs2.
Local Open Scope N_scope.

(** Nothing behind the start of the end record looks like the start of an end record. *)
Definition last_record (d comment : str) : Prop :=
  forall q, len d - 22 - len comment < q -> ~ at_ d q (le 4 101010256).

Lemma record_pos d front cd n size off comment : d = front ++ cd ++ ending n size off comment ->
  len d - 22 - len comment = len front + len cd.
Proof. intros ->. unfold ending. rewrite !len_app, !len_le. lia. Qed.

(** C100. The table of contents of a well-formed archive are the names of its entries in order. *)
Theorem archive_listed : forall d es comment, is_zip d es comment -> es <> [] -> len d <= 2147483647 ->
  len comment <= 65513 -> last_record d comment ->
  (forall e, In e es -> len (e_name e) < 1024 /\ ~ In "000"%char (e_name e)) ->
  zip_toc d = Ok (map e_name es).
Proof.
  intros d es comment (front & off & Hd & H1 & H2 & H3 & H4 & H5 & H6) Hne Hlen Hc Hl Hnm.
  eapply zip_toc_at; try eassumption. intros q Hq. rewrite end_magic_le. apply Hl.
  now rewrite (record_pos d _ _ _ _ _ _ Hd).
Qed.
Print Assumptions archive_listed.
(** C100. Such data is opened exactly if it starts with the signature of a local header. *)
Theorem archive_opened : forall d es comment, is_zip d es comment -> es <> [] -> len d <= 2147483647 ->
  len comment <= 65513 -> last_record d comment ->
  (forall e, In e es -> len (e_name e) < 1024 /\ ~ In "000"%char (e_name e)) ->
  zip_open d = Ok (if prefixb (le 4 67324752) d then Some (map e_name es) else None).
Proof.
  intros. unfold zip_open. rewrite (archive_listed d es comment) by assumption. cbn [bind].
  replace (is_zip_data d) with (prefixb (le 4 67324752) d); [now destruct (prefixb _ d)|].
  unfold is_zip_data. change (le 4 67324752) with zip_magic.
  destruct d as [|a [|b [|c [|e d]]]]; try reflexivity; cbn [prefixb firstn eqs zip_magic app];
    rewrite ?andb_false_r, ?andb_true_r; reflexivity.
Qed.
Print Assumptions archive_opened.

(** The data of an entry: stored, or what zlib makes of it. *)
Definition holds {zst} (R : zst -> str -> str -> Prop) (z_init : zst) (e : entry) : Prop :=
  (e_method e = 0 /\ e_raw e = e_data e) \/ (e_method e = 8 /\ R z_init (e_raw e) (e_data e)).

(** The names are compared as on the platform: exactly, or without regard to the case of
    letters. *)
Definition platform_same (exact : bool) (a b : str) : bool :=
  if exact then eqs a b else eqs (map upper a) (map upper b).

(** C100. Reading a listed name gives the data of the first entry of that name, if there is any and not
    too much of it. *)
Theorem archive_entry_read : forall zst (z_init : zst) z_step R, inflates zst z_step R ->
  forall exact d es comment max p, is_zip d es comment -> len d <= 2147483647 ->
  len comment <= 65513 -> last_record d comment ->
  (forall e, In e es -> len (e_name e) < 256 /\ ~ In "000"%char (e_name e) /\ holds R z_init e) ->
  zip_get zst z_init z_step exact d (map e_name es) max p =
  Ok (if in_dec str_dec p (map e_name es) then
        match List.find (fun e => platform_same exact (e_name e) p) es with
        | Some e => if (len (e_data e) =? 0) || (max <? len (e_data e)) then None else Some (e_data e)
        | None => None
        end
      else None).
Proof.
  intros zst z_init z_step R HR exact d es comment max p (front & off & Hd & H1 & H2 & H3 & H4 & H5 & H6) Hlen Hc Hl Hes.
  unfold zip_get.
  assert (Ht : is_in_toc p (map e_name es) = if in_dec str_dec p (map e_name es) then true else false).
  { unfold is_in_toc. destruct (in_dec str_dec p (map e_name es)) as [Hi|Hi].
    - apply existsb_exists. exists p. split; [assumption|apply eqs_refl].
    - destruct (existsb _ _) eqn:E; [|reflexivity]. apply existsb_exists in E as (x & Hx & Ex).
      apply eqs_spec in Ex. subst. contradiction. }
  rewrite Ht. destruct (in_dec str_dec p (map e_name es)) as [Hi|Hi]; [|reflexivity].
  assert (Hne : es <> []) by (intros ->; contradiction).
  assert (Hl' : forall q, len front + len (List.concat (map central es)) < q -> ~ at_ d q end_magic).
  { intros q Hq. rewrite end_magic_le. apply Hl. now rewrite (record_pos d _ _ _ _ _ _ Hd). }
  rewrite (attach_at d es front comment off Hd H1 H2 H3 H4 H6 Hlen H5 Hc Hl' Hne). cbn [bind].
  assert (Hex : exists e rest, es = e :: rest) by (clear - Hne; destruct es; [congruence|eauto]).
  destruct Hex as (e0 & rest & E0).
  assert (Hlp : len p < 256).
  { apply in_map_iff in Hi as (e & <- & He). now apply Hes. }
  unfold locate_file. destruct (N.leb_spec 256 (len p)); [lia|].
  rewrite (first_at d es front comment off Hd H1 H2 H3 H4 H6 Hlen H5 Hc Hl' e0 rest E0).
  pose proof (es_le_d d es front comment off Hd H1 H2 H3 H4 H6 Hlen H5 Hc Hl') as Hld.
  pose proof (locate_at d es front comment off Hd H1 H2 H3 H4 H6 Hlen H5 Hc Hl' exact p
    (fun e He => conj (proj1 (Hes e He)) (proj1 (proj2 (Hes e He)))) rest [] e0 (S (length d)) E0
    ltac:(rewrite E0 in Hld; simpl in Hld; lia)) as Hloc.
  rewrite <- E0 in Hloc. unfold same in Hloc. unfold platform_same.
  destruct (List.find _ es) as [e|] eqn:Ef; [|now rewrite Hloc].
  destruct Hloc as (c & -> & Hci). cbn [bind].
  apply List.find_some in Ef as [He _]. destruct (Hes e He) as (_ & _ & Hh).
  destruct (local_at d es front comment off H1 H2 H3 H4 H6 Hlen H5 Hc Hl' e He ltac:(destruct Hh as [[-> _]|[-> _]]; auto)) as (pos & Hpos & Hraw).
  rewrite Hci, Hpos. cbn [fi_usize info_of fi_csize fi_method].
  destruct ((len (e_data e) =? 0) || (max <? len (e_data e))) eqn:Eb; [reflexivity|].
  destruct Hh as [[Hm Hr]|[Hm Hr]].
  - rewrite Hm, Hr in *.
    rewrite (read_stored zst z_init z_step d Hlen _ pos (e_data e) z_init [] [] Hraw) by (change (len []) with 0; lia).
    cbn [bind app]. now rewrite N.eqb_refl.
  - rewrite Hm.
    rewrite (read_deflated zst z_init z_step R d HR Hlen _ 8 pos (e_raw e) z_init [] (e_data e) [] ltac:(lia) Hraw Hr) by (change (len []) with 0; lia).
    cbn [bind app]. now rewrite N.eqb_refl.
Qed.
Print Assumptions archive_entry_read.

(** C100. So on a platform with exact names the archive is the list of its names with their data, as
    the theorems about archives (C54, C68, C69) take it. *)
Theorem archive_is_list : forall zst (z_init : zst) z_step R, inflates zst z_step R ->
  forall d es comment max p, is_zip d es comment -> es <> [] -> len d <= 2147483647 ->
  len comment <= 65513 -> last_record d comment ->
  (forall e, In e es -> len (e_name e) < 256 /\ ~ In "000"%char (e_name e) /\ holds R z_init e) ->
  let a := map (fun e => (e_name e, e_data e)) es in
  zip_toc d = Ok (map fst a) /\ zip_get zst z_init z_step true d (map fst a) max p = Ok (read_file max a p).
Proof.
  intros zst z_init z_step R HR d es comment max p Hz Hne Hlen Hc Hl Hes a.
  assert (Ha : map fst a = map e_name es) by (unfold a; rewrite map_map; reflexivity).
  rewrite Ha. split.
  - apply (archive_listed d es comment); try assumption. intros e He. destruct (Hes e He) as (? & ? & _). split; [lia|assumption].
  - rewrite (archive_entry_read zst z_init z_step R HR true d es comment) by assumption. f_equal.
    rewrite read_file_spec.
    assert (Hloc : locate a p = option_map e_data (List.find (fun e => platform_same true (e_name e) p) es)).
    { unfold locate, a. clear. induction es as [|e es IH]; [reflexivity|]. cbn [map List.find fst platform_same].
      destruct (eqs (e_name e) p); [reflexivity|exact IH]. }
    rewrite Hloc. destruct (List.find _ es) as [e|] eqn:E; cbn [option_map].
    + apply List.find_some in E as [He Es]. apply eqs_spec in Es.
      destruct (in_dec str_dec p (map e_name es)) as [_|Hn]; [reflexivity|].
      elim Hn. rewrite <- Es. now apply in_map.
    + now destruct (in_dec str_dec p (map e_name es)).
Qed.
Print Assumptions archive_is_list.

(** ** Every list of files has an archive *)
(** A writer of stored entries: name, data and checksum field. *)
Definition stored_entry (off : N) (f : str * str * N) : entry :=
  let '(name, data, crc) := f in
  Entry name data data 0 crc off 20 20 0 0 0 0 0 [] [] 20 0 0 crc (len data) (len data) [].
Fixpoint place (off : N) (fs : list (str * str * N)) : list entry :=
  match fs with
  | [] => []
  | f :: fs' => let e := stored_entry off f in e :: place (off + len (local_ e)) fs'
  end.
Definition zip_of (fs : list (str * str * N)) (comment : str) : str :=
  let es := place 0 fs in
  let cd := List.concat (map central es) in
  List.concat (map local_ es) ++ cd ++
  ending (N.of_nat (length es)) (len cd) (len (List.concat (map local_ es))) comment.

Lemma place_at fs : forall front back e, In e (place (len front) fs) ->
  at_ (front ++ List.concat (map local_ (place (len front) fs)) ++ back) (e_off e) (local_ e).
Proof.
  induction fs as [|f fs IH]; intros front back e He; [destruct He|]. cbn [place] in *. cbv zeta in *.
  cbn [map List.concat]. destruct He as [<-|He].
  - exists front, (List.concat (map local_ (place (len front + len (local_ (stored_entry (len front) f))) fs)) ++ back).
    split; [now rewrite <- app_assoc|]. destruct f as [[? ?] ?]. reflexivity.
  - rewrite <- len_app in *. specialize (IH (front ++ local_ (stored_entry (len front) f)) back e He).
    rewrite <- !app_assoc in *. exact IH.
Qed.
Lemma place_in fs : forall off e, In e (place off fs) -> exists f o, In f fs /\ e = stored_entry o f /\
  off <= o /\ o + len (local_ e) <= off + len (List.concat (map local_ (place off fs))).
Proof.
  induction fs as [|f fs IH]; intros off e He; [destruct He|]. cbn [place] in *. cbv zeta in *. cbn [map List.concat].
  rewrite len_app. destruct He as [<-|He].
  - exists f, off. split; [now left|]. split; [reflexivity|]. split; lia.
  - destruct (IH _ _ He) as (g & o & H1 & H2 & H3 & H4). exists g, o. split; [now right|]. split; [assumption|]. split; lia.
Qed.
Lemma place_length fs : forall off, length (place off fs) = length fs.
Proof. induction fs; intros off; simpl; auto. Qed.

(** C100. Every list of files whose names are shorter than 64 kB has such an archive, as long as it
    all stays below 2 GB. *)
Theorem archive_exists : forall fs comment, len (zip_of fs comment) <= 2147483647 -> len comment < 65536 ->
  N.of_nat (length fs) < 65536 -> (forall f, In f fs -> len (fst (fst f)) < 65536 /\ snd f < 4294967296) ->
  is_zip (zip_of fs comment) (place 0 fs) comment.
Proof.
  intros fs comment Hlen Hc Hn Hf. unfold zip_of in *. cbv zeta in *.
  set (es := place 0 fs) in *. set (cd := List.concat (map central es)) in *. set (front := List.concat (map local_ es)) in *.
  exists front, (len front). rewrite !len_app in Hlen. rewrite N.sub_diag. fold cd.
  split; [reflexivity|]. split; [lia|]. split; [lia|]. split; [lia|].
  split; [unfold es; rewrite place_length; assumption|]. split; [assumption|].
  intros e He. destruct (place_in fs 0 e He) as (f & o & H1 & H2 & H3 & H4).
  destruct (Hf f H1) as [Hf1 Hf2]. fold es in H4. fold front in H4.
  split.
  - destruct f as [[name data] crc]. simpl in Hf1, Hf2. subst e.
    unfold local_ in H4. cbn [stored_entry e_name e_raw e_lextra] in H4. rewrite !len_app, !len_le in H4.
    constructor; cbn [stored_entry e_method e_crc e_raw e_data e_name e_extra e_comment e_off e_lflag e_lcrc e_lcsize e_lusize e_lextra];
      change (len []) with 0 in *; try lia.
  - exact (place_at fs [] (cd ++ ending (N.of_nat (length es)) (len cd) (len front) comment) e He).
Qed.
Print Assumptions archive_exists.

(** A decompressor for the examples: it copies. *)
Definition copy_step (s : unit) (a : str) (n : N) : unit * str * str * Z :=
  (tt, firstn (N.to_nat n) a, skipn (N.to_nat n) a, 0%Z).
Lemma copy_inflates : inflates unit copy_step (fun _ z o => z = o).
Proof.
  intros s a rest o n <- Ho Hn Ha. unfold copy_step.
  exists tt, (firstn (N.to_nat n) a), (skipn (N.to_nat n) a), 0%Z, (firstn (N.to_nat n) a), (skipn (N.to_nat n) a ++ rest).
  split; [reflexivity|]. split; [now rewrite firstn_skipn|]. split; [now rewrite app_assoc, firstn_skipn|].
  split; [unfold len; rewrite firstn_length; lia|]. split; [reflexivity|]. left. split; [reflexivity|]. left.
  destruct Ha as [Ha| ->].
  - destruct a; [congruence|]. destruct (N.to_nat n) eqn:E; [lia|]. discriminate.
  - rewrite app_nil_r in Ho. destruct a; [congruence|]. destruct (N.to_nat n) eqn:E; [lia|]. discriminate.
Qed.

(** CRC-32 (APPNOTE 4.4.7), bit by bit. *)
Definition crc_bit (c : N) : N := if N.odd c then N.lxor (N.div2 c) 3988292384 else N.div2 c.
Definition crc_byte (c : N) (b : ascii) : N := Nat.iter 8 crc_bit (N.lxor c (N_of_ascii b)).
Definition crc32 (s : str) : N := N.lxor (fold_left crc_byte s 4294967295) 4294967295.
Example crc32_check : crc32 (S_"123456789") = 3421780262 (* 0xcbf43926 *).
Proof. vm_compute. reflexivity. Qed.

Module SmallZip.
  Definition kml : str := S_"<kml/>".
  Definition files := [(S_"doc.kml", kml, crc32 kml); (S_"images/a.png", S_"PNG", crc32 (S_"PNG"))].
  Definition d := zip_of files (S_"comment").
  Example small_listed : zip_open d = Ok (Some [S_"doc.kml"; S_"images/a.png"]).
  Proof. vm_compute. reflexivity. Qed.
  Example small_read : zip_get unit tt copy_step true d [S_"doc.kml"; S_"images/a.png"] 2147483647 (S_"images/a.png") = Ok (Some (S_"PNG")).
  Proof. vm_compute. reflexivity. Qed.
  Fixpoint positions (n : nat) : list N := match n with O => [] | S k => N.of_nat k :: positions k end.
  Lemma in_positions n q : q < N.of_nat n -> In q (positions n).
  Proof.
    induction n as [|n IH]; intros H; [lia|]. simpl. destruct (N.eq_dec (N.of_nat n) q); [now left|]. right. apply IH. lia.
  Qed.
  (** The hypotheses of the theorems hold of it. *)
  Example small_zip : is_zip d (place 0 files) (S_"comment") /\ len d <= 2147483647 /\ last_record d (S_"comment") /\
    (forall e, In e (place 0 files) -> len (e_name e) < 256 /\ ~ In "000"%char (e_name e) /\
       holds (fun (_ : unit) z o => z = o) tt e).
  Proof.
    split; [|split; [|split]].
    - apply archive_exists; [vm_compute; discriminate|reflexivity|reflexivity|].
      intros f [<-|[<-|[]]]; split; vm_compute; reflexivity.
    - vm_compute. discriminate.
    - intros q Hq Ha. assert (Hq2 : q + 4 <= len d) by (apply at_len in Ha; exact Ha).
      rewrite <- end_magic_le in Ha. apply at_prefix in Ha as [Ha _].
      assert (Hall : forallb (fun q => negb ((len d - 22 - len (S_"comment") <? q) && prefixb end_magic (skipn (N.to_nat q) d))) (positions (length d)) = true)
        by (vm_compute; reflexivity).
      rewrite forallb_forall in Hall. 
      assert (Hin : In q (positions (length d))) by (apply in_positions; clear - Hq2; unfold len in Hq2; lia).
      specialize (Hall q Hin).
      cbv beta in Hall. rewrite Ha in Hall. apply N.ltb_lt in Hq. rewrite Hq in Hall. discriminate.
    - intros e [<-|[<-|[]]]; (split; [vm_compute; reflexivity|split; [|left; split; reflexivity]]);
        intros Hi; vm_compute in Hi; repeat destruct Hi as [Hi|Hi]; try discriminate; destruct Hi.
  Qed.
End SmallZip.

(** C100. Data is only taken from behind a local header which agrees with the directory: it has the signature, the
    method of the directory, which is stored or deflated, the length of the name, and, unless its flags say
    that a descriptor follows the data, the checksum and both sizes. *)
Theorem archive_local_header : forall d u fi pos, local_data d u fi = Some pos ->
  let p := fi_offset fi + u_before u in
  get_long d p = Some 67324752 /\
  get_short d (p + 8) = Some (fi_method fi) /\ (fi_method fi = 0 \/ fi_method fi = 8) /\
  get_short d (p + 26) = Some (fi_name fi) /\
  (exists flags, get_short d (p + 6) = Some flags /\ (N.testbit flags 3 = false ->
     get_long d (p + 14) = Some (fi_crc fi) /\ get_long d (p + 18) = Some (fi_csize fi) /\ get_long d (p + 22) = Some (fi_usize fi))) /\
  (exists x, get_short d (p + 28) = Some x /\ pos = p + 30 + fi_name fi + x).
Proof.
  intros d u fi pos H p. unfold local_data in H. fold p in H. cbv zeta in H.
  destruct (get_long d p) as [magic|]; [|discriminate H].
  destruct (get_short d (p + 6)) as [flags|]; [|discriminate H].
  destruct (get_short d (p + 8)) as [m|]; [|discriminate H].
  destruct (get_long d (p + 14)) as [crc|]; [|discriminate H].
  destruct (get_long d (p + 18)) as [cs|]; [|discriminate H].
  destruct (get_long d (p + 22)) as [us|]; [|discriminate H].
  destruct (get_short d (p + 26)) as [n|]; [|discriminate H].
  destruct (get_short d (p + 28)) as [x|]; [|discriminate H].
  match type of H with (if ?c then _ else _) = _ => destruct c eqn:E; [|discriminate H] end.
  injection H as <-. repeat (apply andb_true_iff in E as [E ?H]). rewrite !orb_true_iff, !N.eqb_eq in *. subst.
  split; [reflexivity|]. split; [reflexivity|]. split; [assumption|]. split; [reflexivity|]. split.
  - exists flags. split; [reflexivity|]. intros Hf. rewrite Hf in *.
    repeat match goal with H : _ \/ false = true |- _ => destruct H as [H|H]; [|discriminate H] end. now subst.
  - exists x. split; reflexivity.
Qed.
Print Assumptions archive_local_header.
(** C100. Refuted: the checksum is not looked at. Damaged data is returned as if it were whole. *)
Theorem archive_checksum_refuted : exists d es e,
  is_zip d es [] /\ In e es /\ e_crc e <> crc32 (e_data e) /\
  zip_get unit tt copy_step true d (map e_name es) 2147483647 (e_name e) = Ok (Some (e_data e)).
Proof.
  exists (zip_of [(S_"doc.kml", S_"<kml/>", 5)] []), (place 0 [(S_"doc.kml", S_"<kml/>", 5)]), (stored_entry 0 (S_"doc.kml", S_"<kml/>", 5)).
  split; [|split; [|split]].
  - apply archive_exists; [vm_compute; discriminate|reflexivity|reflexivity|].
    intros f [<-|[]]; split; vm_compute; reflexivity.
  - now left.
  - vm_compute. discriminate.
  - vm_compute. reflexivity.
Qed.
Print Assumptions archive_checksum_refuted.
(** C100. Refuted: an entry whose name has 256 bytes or more is listed but cannot be read. *)
Theorem archive_long_name_refuted : exists d es e,
  is_zip d es [] /\ In e es /\ e_data e = S_"<kml/>" /\ zip_toc d = Ok (map e_name es) /\
  zip_get unit tt copy_step true d (map e_name es) 2147483647 (e_name e) = Ok None.
Proof.
  pose (f := (repeat "a"%char 256, S_"<kml/>", crc32 (S_"<kml/>"))).
  exists (zip_of [f] []), (place 0 [f]), (stored_entry 0 f).
  split; [|split; [|split; [|split]]].
  - apply archive_exists; [vm_compute; discriminate|reflexivity|reflexivity|].
    intros g [<-|[]]; split; vm_compute; reflexivity.
  - now left.
  - reflexivity.
  - vm_compute. reflexivity.
  - vm_compute. reflexivity.
Qed.
Print Assumptions archive_long_name_refuted.
(** C100. Refuted: the format allows comments of up to 65535 bytes, but with one of more than 65513 the
    archive seems empty. *)
Theorem archive_long_comment_refuted : exists d es comment,
  is_zip d es comment /\ es <> [] /\ len comment = 65514 /\ zip_toc d = Ok [].
Proof.
  pose (f := (S_"doc.kml", S_"<kml/>", crc32 (S_"<kml/>"))). pose (c := repeat "x"%char (N.to_nat 65514)).
  exists (zip_of [f] c), (place 0 [f]), c.
  split; [|split; [|split]].
  - apply archive_exists; [vm_compute; discriminate|vm_compute; reflexivity|reflexivity|].
    intros g [<-|[]]; split; vm_compute; reflexivity.
  - discriminate.
  - vm_compute. reflexivity.
  - vm_compute. reflexivity.
Qed.
Print Assumptions archive_long_comment_refuted.
(** C100. Refuted: a comment that itself looks like an end record hides the entries. *)
Theorem archive_comment_record_refuted : exists d es comment,
  is_zip d es comment /\ es <> [] /\ len comment = 22 /\ zip_toc d = Ok [].
Proof.
  pose (f := (S_"doc.kml", S_"<kml/>", crc32 (S_"<kml/>"))).
  exists (zip_of [f] (ending 0 0 0 [])), (place 0 [f]), (ending 0 0 0 []).
  split; [|split; [|split]].
  - apply archive_exists; [vm_compute; discriminate|vm_compute; reflexivity|reflexivity|].
    intros g [<-|[]]; split; vm_compute; reflexivity.
  - discriminate.
  - vm_compute. reflexivity.
  - vm_compute. reflexivity.
Qed.
Print Assumptions archive_comment_record_refuted.
(** C100. Refuted on platforms that do not define the macro unix: of two names that differ in case only the
    first is read for both. *)
Theorem archive_case_refuted : exists d es,
  is_zip d es [] /\ map (fun e => (e_name e, e_data e)) es = [(S_"A.png", S_"1"); (S_"a.png", S_"2")] /\
  zip_get unit tt copy_step false d (map e_name es) 2147483647 (S_"a.png") = Ok (Some (S_"1")).
Proof.
  pose (fs := [(S_"A.png", S_"1", crc32 (S_"1")); (S_"a.png", S_"2", crc32 (S_"2"))]).
  exists (zip_of fs []), (place 0 fs).
  split; [|split].
  - apply archive_exists; [vm_compute; discriminate|vm_compute; reflexivity|reflexivity|].
    intros g [<-|[<-|[]]]; split; vm_compute; reflexivity.
  - reflexivity.
  - vm_compute. reflexivity.
Qed.
Print Assumptions archive_case_refuted.

(** ** Damaged archives *)
Lemma at_join d p s t : at_ d p s -> at_ d (p + len s) t -> at_ d p (s ++ t).
Proof.
  intros (a & b & -> & Ha) (a' & b' & E & Ha').
  assert (Ea : a' = a ++ s).
  { assert (L : length a' = length (a ++ s)) by (rewrite app_length; unfold len in *; lia).
    assert (F : firstn (length a') (a ++ s ++ b) = a') by (rewrite E, firstn_app, firstn_all, Nat.sub_diag; simpl; apply app_nil_r).
    rewrite <- F, L, app_assoc, firstn_app, firstn_all, Nat.sub_diag. simpl. apply app_nil_r. }
  subst a'. rewrite <- app_assoc in E. apply app_inv_head, app_inv_head in E. subst b.
  exists a, b'. rewrite <- app_assoc. now split.
Qed.
Lemma get_byte_inv d p v : get_byte d p = Some v -> at_ d p (le 1 v) /\ v < 256.
Proof.
  unfold get_byte. destruct (mem_read_part d p 1) as [E|E]; [rewrite E; discriminate|].
  destruct (mem_read d p 1) as [|c [|]]; try discriminate. intros H. inversion H; subst; clear H.
  assert (L : N_of_ascii c < 256) by apply N_ascii_bounded. split; [|assumption].
  cbn [le]. rewrite N.mod_small by assumption. now rewrite ascii_N_embedding.
Qed.
Lemma get_short_inv d p v : get_short d p = Some v -> at_ d p (le 2 v) /\ v < 65536.
Proof.
  unfold get_short. destruct (get_byte d p) as [a|] eqn:Ea; [|discriminate]. destruct (get_byte d (p + 1)) as [b|] eqn:Eb; [|discriminate].
  intros H. inversion H; subst; clear H. apply get_byte_inv in Ea as [Ha La]. apply get_byte_inv in Eb as [Hb Lb].
  split; [|lia]. pose proof (at_join _ _ _ _ Ha Hb) as J. cbn [le app] in *.
  replace ((a + 256 * b) mod 256) with (a mod 256) by lia.
  replace ((a + 256 * b) / 256 mod 256) with (b mod 256) by lia. exact J.
Qed.
Lemma get_long_inv d p v : get_long d p = Some v -> at_ d p (le 4 v) /\ v < 4294967296.
Proof.
  unfold get_long. destruct (get_short d p) as [a|] eqn:Ea; [|discriminate]. destruct (get_short d (p + 2)) as [b|] eqn:Eb; [|discriminate].
  intros H. inversion H; subst; clear H. apply get_short_inv in Ea as [Ha La]. apply get_short_inv in Eb as [Hb Lb].
  split; [|lia]. rewrite le_split.
  replace ((a + 65536 * b) mod 65536) with a by lia.
  replace ((a + 65536 * b) / 65536) with b by lia. exact (at_join _ _ _ _ Ha Hb).
Qed.
Lemma get_info_inv d p fi : get_info d p = Some fi ->
  at_ d p (le 4 33639248) /\ at_ d (p + 28) (le 2 (fi_name fi)) /\ p + 46 <= len d.
Proof.
  unfold get_info.
  destruct (get_long d p) eqn:E1; [|discriminate].
  destruct (get_short d (p + 10)); [|discriminate]. destruct (get_long d (p + 16)); [|discriminate].
  destruct (get_long d (p + 20)); [|discriminate]. destruct (get_long d (p + 24)); [|discriminate].
  destruct (get_short d (p + 28)) eqn:E2; [|discriminate].
  destruct (get_short d (p + 30)); [|discriminate]. destruct (get_short d (p + 32)); [|discriminate].
  destruct (get_long d (p + 42)) eqn:E3; [|discriminate].
  destruct (N.eqb_spec n 33639248); [|discriminate]. intros H. inversion H; subst; clear H.
  apply get_long_inv in E1 as [E1 _]. apply get_short_inv in E2 as [E2 _].
  pose proof (get_long_in d (p + 42)). rewrite E3 in H. specialize (H ltac:(discriminate)).
  split; [assumption|]. split; [assumption|lia].
Qed.

(** An item of a directory whose name has 1024 bytes or more, the first 1024 of them without a NUL. *)
Definition overlong_name (d : str) : Prop := exists p n s,
  at_ d p (le 4 33639248) /\ at_ d (p + 28) (le 2 n) /\ 1024 <= n /\
  at_ d (p + 46) s /\ len s = 1024 /\ ~ In "000"%char s.

Lemma toc_name d p fi : get_info d p = Some fi ->
  (exists nm, (match get_name d p 1024 fi with None => Ok [] | Some (b, t) => do s <- c_string b t; Ok [s] end) = Ok nm /\ (length nm <= 1)%nat) \/
  ((match get_name d p 1024 fi with None => Ok [] | Some (b, t) => do s <- c_string b t; Ok [s] end) = UB /\ overlong_name d).
Proof.
  intros Hi. apply get_info_inv in Hi as (Hm & Hn & _). unfold get_name.
  destruct (N.eqb_spec (fi_name fi) 0); [left; eexists; split; [reflexivity|simpl; lia]|].
  destruct (N.ltb_spec (fi_name fi) 1024) as [L|L].
  - destruct (_ =? _); [left; eexists; split; [reflexivity|simpl; lia]|left; eexists; split; [reflexivity|simpl; lia]].
  - destruct (N.eqb_spec (len (mem_read d (p + 46) 1024)) 1024) as [E|E]; [|left; eexists; split; [reflexivity|simpl; lia]].
    unfold c_string. cbn [orb]. destruct (existsb _ _) eqn:Ex; [left; eexists; split; [reflexivity|simpl; lia]|].
    right. split; [reflexivity|]. exists p, (fi_name fi), (mem_read d (p + 46) 1024).
    split; [assumption|]. split; [assumption|]. split; [assumption|]. split.
    + destruct (mem_read_part d (p + 46) 1024) as [Z|Z]; [rewrite Z in E; discriminate E|exact Z].
    + split; [assumption|]. intros Hin. apply Bool.not_true_iff_false in Ex. apply Ex. apply existsb_exists.
      exists "000"%char. split; [assumption|apply aeq_refl].
Qed.

Lemma toc_total d u : forall fuel c, get_info d (c_pos c + u_before u) = Some (c_info c) ->
  len d < c_pos c + u_before u + N.of_nat fuel ->
  (exists t, toc_loop fuel d u c = Ok t /\ 46 * N.of_nat (length t) + (c_pos c + u_before u) <= len d) \/ (toc_loop fuel d u c = UB /\ overlong_name d).
Proof.
  induction fuel as [|fuel IH]; intros c Hc Hf.
  { apply get_info_inv in Hc as (_ & _ & Hc). lia. }
  cbn [toc_loop]. pose proof (get_info_inv _ _ _ Hc) as (_ & _ & Hlen).
  destruct (toc_name _ _ _ Hc) as [(nm & E & Hnm)|[E Ho]]; rewrite E; cbn [bind]; [|right; auto].
  destruct (go_next d u c) as [c'|] eqn:Eg.
  - unfold go_next in Eg. destruct (_ && _) in Eg; [discriminate|].
    destruct (get_info d _) as [fi'|] eqn:Ei in Eg; [|discriminate]. inversion Eg; subst c'; clear Eg.
    destruct (IH (Cursor (c_num c + 1) (c_pos c + 46 + fi_name (c_info c) + fi_extra (c_info c) + fi_comment (c_info c)) fi')) as [(t & Et & Hl)|[Et Ho]].
    + exact Ei.
    + cbn [c_pos]. lia.
    + left. rewrite Et. cbn [bind]. eexists; split; [reflexivity|]. rewrite app_length. cbn [c_pos] in Hl. lia.
    + right. rewrite Et. auto.
  - left. eexists; split; [reflexivity|]. lia.
Qed.

Lemma attach_total d : exists u, attach d = Ok u.
Proof. unfold attach. destruct (search_total d) as (c & -> & _). cbn [bind]. eauto. Qed.

(** C101. Opening any data ends, and its table of contents has no more names than fit into it, unless there is
    an item with an overlong name. *)
Theorem damaged_open : forall d,
  (exists t, zip_toc d = Ok t /\ 46 * N.of_nat (length t) <= len d) \/ (zip_toc d = UB /\ overlong_name d).
Proof.
  intros d. unfold zip_toc. destruct (attach_total d) as ([u|] & ->); cbn [bind].
  - unfold go_first. destruct (get_info d _) as [fi|] eqn:E; [|left; exists []; split; [reflexivity|simpl; lia]].
    destruct (toc_total d u (S (length d)) (Cursor 0 (u_offset u) fi)) as [(t & Et & Hl)|H].
    + exact E.
    + cbn [c_pos]. unfold len. lia.
    + left. exists t. split; [assumption|]. cbn [c_pos] in Hl. lia.
    + right. exact H.
  - left. exists []. split; [reflexivity|simpl; lia].
Qed.
Print Assumptions damaged_open.
(** C101. Refuted with such a name: the constructor reads past the end of its buffer. *)
Theorem damaged_open_refuted : exists d, is_zip_data d = true /\ zip_open d = UB.
Proof.
  exists (zip_of [(repeat "a"%char (N.to_nat 1024), S_"x", 0)] []). split; vm_compute; reflexivity.
Qed.
Print Assumptions damaged_open_refuted.
Example overlong_witness : overlong_name (zip_of [(repeat "a"%char (N.to_nat 1024), S_"x", 0)] []).
Proof.
  destruct (damaged_open (zip_of [(repeat "a"%char (N.to_nat 1024), S_"x", 0)] [])) as [(t & E & _)|[_ H]]; [|exact H].
  exfalso. revert E. vm_compute. discriminate.
Qed.

(** What is asked of zlib: a call that returns Z_OK uses input or makes output, and does not make
    more output than there is room for. *)
Definition progresses {zst} (z_step : zst -> str -> N -> zst * str * str * Z) : Prop :=
  forall s a n s' o a', z_step s a n = (s', o, a', 0%Z) -> len a' <= len a /\ len o <= n /\ (len a' < len a \/ 0 < len o).

Lemma locate_total cs d u p : forall fuel c, get_info d (c_pos c + u_before u) = Some (c_info c) ->
  len d < c_pos c + u_before u + N.of_nat fuel -> exists r, locate_loop fuel cs d u p c = Ok r.
Proof.
  induction fuel as [|fuel IH]; intros c Hc Hf.
  { apply get_info_inv in Hc as (_ & _ & Hc). lia. }
  cbn [locate_loop]. destruct (get_name _ _ _ _) as [[b t]|]; [|eauto]. destruct (same_name cs b p); [eauto|].
  destruct (go_next d u c) as [c'|] eqn:Eg; [|eauto].
  unfold go_next in Eg. destruct (_ && _) in Eg; [discriminate|].
  destruct (get_info d _) as [fi'|] eqn:Ei in Eg; [|discriminate]. inversion Eg; subst c'; clear Eg.
  apply IH; [exact Ei|cbn [c_pos]; lia].
Qed.
Lemma read_total zst z_step (Hz : @progresses zst z_step) m d : forall fuel pos rest st avail need out,
  (N.to_nat (need + rest + len avail) < fuel)%nat -> exists r, read_loop zst z_step fuel m d pos rest st avail need out = Ok r.
Proof.
  induction fuel as [|fuel IH]; intros pos rest st avail need out Hf; [lia|]. cbn [read_loop].
  destruct (N.eqb_spec need 0); [eauto|].
  assert (Step : forall pos' rest' a, (0 < len a \/ rest' = 0) -> (N.to_nat (need + rest' + len a) <= fuel)%nat -> exists r,
    (if m =? 0 then
      if (len a =? 0) && (rest' =? 0) then Ok (Some out)
      else let n := if need <? len a then need else len a in
        read_loop zst z_step fuel m d pos' rest' st (skipn (N.to_nat n) a) (need - n) (out ++ firstn (N.to_nat n) a)
    else let '(st', o, avail', code) := z_step st a need in
      if (code =? 1)%Z then Ok (Some (out ++ o))
      else if (code =? 0)%Z then read_loop zst z_step fuel m d pos' rest' st' avail' (need - len o) (out ++ o)
      else Ok None) = Ok r).
  { intros pos' rest' a Ha Hf'. destruct (m =? 0).
    - destruct (N.eqb_spec (len a) 0) as [E|E]; cbn [andb].
      + destruct Ha as [Ha|Ha]; [lia|]. rewrite Ha. cbn [N.eqb]. eauto.
      + cbv zeta. apply IH. unfold len in *. rewrite skipn_length.
        destruct (N.ltb_spec need (N.of_nat (length a))); lia.
    - destruct (z_step st a need) as [[[st' o] avail'] code] eqn:Es.
      destruct (Z.eqb_spec code 1); [eauto|]. destruct (Z.eqb_spec code 0) as [->|]; [|eauto].
      destruct (Hz _ _ _ _ _ _ Es) as (H1 & H2 & H3). apply IH. lia. }
  destruct ((len avail =? 0) && (0 <? rest)) eqn:E; [|apply Step; lia].
  set (k := if rest <? 16384 then rest else 16384).
  assert (Hk : k <= rest /\ 0 < k) by (unfold k; destruct (N.ltb_spec rest 16384); lia).
  destruct (N.eqb_spec (len (mem_read d pos k)) k) as [Ek|]; [|eauto]. apply Step; lia.
Qed.

(** C101. Asking an opened archive for a file ends whatever the data, and what it gives is not empty and
    not above the limit. *)
Theorem damaged_read : forall zst (z_init : zst) z_step, progresses z_step ->
  forall exact d toc max p, exists r, zip_get zst z_init z_step exact d toc max p = Ok r /\
  forall b, r = Some b -> In p toc /\ 1 <= len b <= max.
Proof.
  intros zst z_init z_step Hz exact d toc max p. unfold zip_get.
  destruct (is_in_toc p toc) eqn:Et; [|exists None; split; [reflexivity|discriminate]].
  assert (Hin : In p toc).
  { unfold is_in_toc in Et. apply existsb_exists in Et as (x & Hx & E). apply eqs_spec in E. now subst. }
  destruct (attach_total d) as ([u|] & ->); cbn [bind]; [|exists None; split; [reflexivity|discriminate]].
  assert (Hl : exists c, locate_file exact d u p = Ok c).
  { unfold locate_file. destruct (256 <=? len p); [eauto|]. unfold go_first.
    destruct (get_info d _) as [fi|] eqn:E; [|eauto]. apply locate_total; [exact E|cbn [c_pos]; unfold len; lia]. }
  destruct Hl as ([c|] & ->); cbn [bind]; [|exists None; split; [reflexivity|discriminate]].
  destruct (local_data d u (c_info c)) as [pos|]; [|exists None; split; [reflexivity|discriminate]].
  destruct (N.eqb_spec (fi_usize (c_info c)) 0) as [|H0]; [exists None; split; [reflexivity|discriminate]|].
  destruct (N.ltb_spec max (fi_usize (c_info c))) as [|H1]; [exists None; split; [reflexivity|discriminate]|].
  cbn [orb].
  destruct (read_total zst z_step Hz (fi_method (c_info c)) d (S (N.to_nat (fi_usize (c_info c) + fi_csize (c_info c)))) pos
    (fi_csize (c_info c)) z_init [] (fi_usize (c_info c)) [] ltac:(change (len []) with 0; lia)) as ([b|] & ->); cbn [bind].
  - destruct (N.eqb_spec (len b) (fi_usize (c_info c))) as [E|E].
    + eexists; split; [reflexivity|]. intros b' Hb. inversion Hb; subst b'. split; [assumption|lia].
    + exists None; split; [reflexivity|discriminate].
  - exists None; split; [reflexivity|discriminate].
Qed.
Print Assumptions damaged_read.
(** C101. Reading from memory never leaves the data: every read gives a part of it, as much as was asked for or as
    much as there is. *)
Theorem memory_read_inside : forall d p n, n < 2147483648 -> p < 2147483647 ->
  (p + n <= len d -> exists s, mem_read d p n = s /\ at_ d p s /\ len s = n) /\
  (len d < p + n -> p <= len d -> exists s, mem_read d p n = s /\ at_ d p s /\ p + len s = len d) /\
  (len d < p -> mem_read d p n = []).
Proof.
  intros d p n _ Hp. assert (Hz : zip_max <=? p = false) by (apply N.leb_gt; exact Hp).
  assert (Hat : forall k, p + k <= len d -> at_ d p (firstn (N.to_nat k) (skipn (N.to_nat p) d)) /\ len (firstn (N.to_nat k) (skipn (N.to_nat p) d)) = k).
  { intros k Hk. split.
    - exists (firstn (N.to_nat p) d), (skipn (N.to_nat k) (skipn (N.to_nat p) d)).
      split; [now rewrite (firstn_skipn (N.to_nat k)), firstn_skipn|]. unfold len in *. rewrite firstn_length. lia.
    - unfold len in *. rewrite firstn_length, skipn_length. lia. }
  split; [|split].
  - intros H. eexists; split; [reflexivity|]. rewrite mem_read_in by assumption. now apply Hat.
  - intros H1 H2. eexists; split; [reflexivity|]. unfold mem_read. rewrite Hz.
    destruct (N.ltb_spec (len d) (p + n)); [|lia]. cbv zeta.
    destruct (N.eqb_spec (len d - p) 0) as [E|E].
    + split; [|unfold len at 1; simpl; lia]. exists d, []. split; [now rewrite !app_nil_r|lia].
    + destruct (Hat (len d - p) ltac:(lia)) as [A B]. split; [exact A|]. rewrite B. lia.
  - intros H. unfold mem_read. rewrite Hz. destruct (N.ltb_spec (len d) (p + n)); [|lia]. cbv zeta.
    replace (len d - p) with 0 by lia. reflexivity.
Qed.
Print Assumptions memory_read_inside.
Example progress_witness : progresses (fun (s : unit) a n => if (len a =? 0) || (n =? 0) then (tt, @nil ascii, a, (-5)%Z) else copy_step s a n).
Proof.
  intros s a n s' o a'. destruct (N.eqb_spec (len a) 0); cbn [orb]; [discriminate|]. destruct (N.eqb_spec n 0); [discriminate|].
  unfold copy_step. intros H. inversion H; subst; clear H. unfold len in *. rewrite skipn_length, firstn_length. lia.
Qed.
(** C101. Data whose end record is that of one of several parts, or tells of a directory that cannot be in the data, has no entries. *)
Theorem archive_parts_empty : forall front disk disk_cd n n_cd size off comment,
  let d := front ++ le 4 101010256 ++ le 2 disk ++ le 2 disk_cd ++ le 2 n ++ le 2 n_cd ++ le 4 size ++ le 4 off ++ le 2 (len comment) ++ comment in
  disk < 65536 -> disk_cd < 65536 -> n < 65536 -> n_cd < 65536 -> size < 4294967296 -> off < 4294967296 -> front <> [] -> len comment <= 65513 -> len d <= 2147483647 ->
  last_record d comment -> disk <> 0 \/ disk_cd <> 0 \/ n <> n_cd \/ len front < off + size -> zip_toc d = Ok [].
Proof.
  intros front disk disk_cd n n_cd size off comment d H1 H2 H3 H4 H5 H6 Hf Hc Hlen Hl Hbad. unfold zip_toc, attach.
  assert (H : at_ d (len front) (le 4 101010256 ++ le 2 disk ++ le 2 disk_cd ++ le 2 n ++ le 2 n_cd ++ le 4 size ++ le 4 off ++ le 2 (len comment) ++ comment)).
  { exists front, []. rewrite app_nil_r. now split. }
  assert (P : len d = len front + 22 + len comment) by (unfold d; rewrite !len_app, !len_le; lia).
  assert (F0 : 0 < len front) by (destruct front; [congruence|unfold len; cbn [length]; lia]).
  rewrite (search_found d (len front)).
  - cbn [bind]. destruct (N.eqb_spec (len front) 0); [lia|]. set (c := len front) in *.
    fld (c + 4) H. fld (c + 6) H. fld (c + 8) H. fld (c + 10) H. fld (c + 12) H. fld (c + 16) H. fld (c + 20) H.
    apply at_l in H. erewrite !get_long_at, !get_short_at by (eassumption || lia).
    destruct (N.eqb_spec n_cd n); cbn [negb orb]; [|reflexivity]. destruct (N.eqb_spec disk_cd 0); cbn [negb orb]; [|reflexivity].
    destruct (N.eqb_spec disk 0); cbn [negb orb]; [|reflexivity]. destruct (N.ltb_spec c (off + size)); [reflexivity|]. exfalso. lia.
  - rewrite end_magic_le. exact (at_l _ _ _ _ H).
  - exact F0.
  - lia.
  - exact Hlen.
  - intros q Hq. rewrite end_magic_le. apply Hl. lia.
Qed.
Print Assumptions archive_parts_empty.
Example archive_parts_sample : zip_toc (S_ "x" ++ le 4 101010256 ++ le 2 1 ++ le 2 0 ++ le 2 1 ++ le 2 1 ++ le 4 1 ++ le 4 0 ++ le 2 0) = Ok [].
Proof. vm_compute. reflexivity. Qed.

(** C100. The names compared without regard to case differ at most in the case of ASCII letters. *)
Theorem upper_same : forall a b, upper a = upper b <-> a = b \/ (code a + 32 = code b /\ 65 <= code a <= 90) \/ (code b + 32 = code a /\ 65 <= code b <= 90).
Proof.
  assert (K : forall c, code (upper c) = if (97 <=? code c) && (code c <=? 122) then code c - 32 else code c).
  { intros c. unfold upper, code. cbv zeta. destruct ((97 <=? N_of_ascii c) && (N_of_ascii c <=? 122)) eqn:E; [|reflexivity]. apply N_ascii_embedding. lia. }
  assert (Inj : forall a b, code a = code b -> a = b) by (intros a b H; rewrite <- (ascii_N_embedding a), <- (ascii_N_embedding b); unfold code in H; now rewrite H).
  intros a b. split.
  - intros H. apply (f_equal code) in H. rewrite !K in H. destruct ((97 <=? code a) && (code a <=? 122)) eqn:Ea, ((97 <=? code b) && (code b <=? 122)) eqn:Eb.
    + left. apply Inj. lia.
    + right. right. lia.
    + right. left. lia.
    + left. now apply Inj.
  - intros [->|[[H1 H2]|[H1 H2]]]; [reflexivity| |]; apply Inj; rewrite !K.
    + destruct ((97 <=? code a) && (code a <=? 122)) eqn:Ea, ((97 <=? code b) && (code b <=? 122)) eqn:Eb; lia.
    + destruct ((97 <=? code a) && (code a <=? 122)) eqn:Ea, ((97 <=? code b) && (code b <=? 122)) eqn:Eb; lia.
Qed.
Print Assumptions upper_same.

Lemma aeq_byte c x : aeq c (ascii_of_N (x mod 256)) = true -> x mod 256 = N_of_ascii c.
Proof. intros H. apply aeq_spec in H. rewrite H. symmetry. apply byte_le. Qed.
Lemma magic_at c1 c2 c3 c4 r : prefixb end_magic (c1 :: c2 :: c3 :: c4 :: r) = true -> aeq "P" c1 = true /\ aeq "K" c2 = true /\ aeq "005" c3 = true /\ aeq "006" c4 = true.
Proof. change end_magic with ["P"; "K"; "005"; "006"]%char. cbn [prefixb]. rewrite !andb_true_iff. tauto. Qed.
Lemma ending_clean n size off i : n < 19280 -> size < 88821760 -> off < 88821760 -> (0 < i)%nat -> prefixb end_magic (skipn i (ending n size off [])) = false.
Proof.
  intros Hn Hs Ho Hi. destruct (prefixb end_magic (skipn i (ending n size off []))) eqn:E; [exfalso|reflexivity].
  unfold ending in E. change (len []) with 0 in E. rewrite end_magic_le in E. rewrite <- end_magic_le in E at 1. cbn [le app] in E.
  do 19 (destruct i as [|i]; [try lia; cbn [skipn] in E; apply magic_at in E; destruct E as (E1 & E2 & E3 & E4);
    try (vm_compute in E1; discriminate); try (vm_compute in E2; discriminate); try (vm_compute in E3; discriminate); try (vm_compute in E4; discriminate);
    apply aeq_byte in E1, E2, E3, E4; change (N_of_ascii "P") with 80 in E1; change (N_of_ascii "K") with 75 in E2; change (N_of_ascii "005") with 5 in E3; change (N_of_ascii "006") with 6 in E4; lia|]).
  cbn [skipn] in E. destruct i as [|[|[|i]]]; cbn [skipn] in E; change end_magic with ["P"; "K"; "005"; "006"]%char in E; cbn [prefixb] in E; rewrite ?andb_false_r in E; try discriminate.
  destruct i; discriminate.
Qed.
(** C100. An archive without a comment, of less than 19280 entries and 88821760 bytes, has nothing in its end record that
    looks like the start of one: the condition of the theorems above is met. *)
Theorem small_archive : forall d es, is_zip d es [] -> N.of_nat (length es) < 19280 -> len d < 88821760 -> last_record d [].
Proof.
  intros d es (front & off & Hd & H1 & H2 & H3 & H4 & H5 & H6) Hn Hl q Hq Ha. pose proof (record_pos _ _ _ _ _ _ _ Hd) as Hp. rewrite Hp in Hq. rewrite <- end_magic_le in Ha. apply at_prefix in Ha. destruct Ha as [Ha _].
  set (cd := List.concat (map central es)) in *. assert (Hl' : len d = len front + len cd + 22) by (rewrite Hd; unfold ending; rewrite !len_app, !len_le; change (len []) with 0; lia).
  rewrite Hd, app_assoc in Ha. rewrite skipn_app in Ha. replace (skipn (N.to_nat q) (front ++ cd)) with (@nil ascii) in Ha by (symmetry; apply skipn_all2; rewrite app_length; unfold len in *; lia).
  cbn [app] in Ha. rewrite ending_clean in Ha; [discriminate|lia|lia|lia|]. rewrite app_length. unfold len in *. lia.
Qed.
Print Assumptions small_archive.

Lemma no_long d p : len d < p + 4 -> get_long d p = None.
Proof. intros H. destruct (get_long d p) eqn:E; [|reflexivity]. assert (K : get_long d p <> None) by congruence. apply get_long_in in K. lia. Qed.
Lemma no_short d p : len d < p + 2 -> get_short d p = None.
Proof. intros H. destruct (get_short d p) eqn:E; [|reflexivity]. assert (K : get_short d p <> None) by congruence. apply get_short_in in K. lia. Qed.
(** C100. Refuted without it: a well-formed archive whose directory begins at byte 101010256 has the signature of an end
    record in its end record, and nothing is found in it. *)
Theorem archive_position_refuted : exists d es, is_zip d es [] /\ len d = 101010325 /\ map e_name es = [S_ "a"] /\ (forall e, In e es -> e_method e = 0 /\ e_raw e = e_data e) /\ zip_toc d = Ok [].
Proof.
  remember (repeat "a"%char (N.to_nat 101010225)) as data eqn:Edata. assert (Ld : len data = 101010225) by (subst; unfold len; rewrite repeat_length; lia). clear Edata.
  pose (fs := [(S_ "a", data, 0)]). assert (E : zip_of fs [] = local_ (stored_entry 0 (S_ "a", data, 0)) ++ central (stored_entry 0 (S_ "a", data, 0)) ++ ending 1 47 101010256 []).
  { unfold zip_of, fs. cbn [place map List.concat length]. rewrite !app_nil_r. f_equal. f_equal. f_equal.
    unfold local_. cbn [stored_entry e_name e_raw e_lextra]. rewrite !len_app, !len_le, Ld. reflexivity. }
  assert (L : len (local_ (stored_entry 0 (S_ "a", data, 0))) = 101010256) by (unfold local_; cbn [stored_entry e_name e_raw e_lextra]; rewrite !len_app, !len_le, Ld; reflexivity).
  assert (Lz : len (zip_of fs []) = 101010325) by (rewrite E, !len_app, L; unfold ending; rewrite !len_app, !len_le; reflexivity).
  assert (Z : is_zip (zip_of fs []) (place 0 fs) []).
  { apply archive_exists; [rewrite Lz; lia|reflexivity|reflexivity|]. intros f [<-|[]]. split; reflexivity. }
  exists (zip_of fs []), (place 0 fs). split; [exact Z|]. split; [exact Lz|]. split; [reflexivity|]. split; [intros e [<-|[]]; split; reflexivity|].
  assert (A : at_ (zip_of fs []) 101010319 end_magic).
  { rewrite E. exists (local_ (stored_entry 0 (S_ "a", data, 0)) ++ central (stored_entry 0 (S_ "a", data, 0)) ++ le 4 101010256 ++ le 2 0 ++ le 2 0 ++ le 2 1 ++ le 2 1 ++ le 4 47), (le 2 0). split.
    - rewrite <- !app_assoc. reflexivity.
    - rewrite !len_app, L, !len_le. reflexivity. }
  assert (S : search_central (zip_of fs []) = Ok 101010319).
  { apply search_found; auto; try lia; try (rewrite Lz; unfold zip_max; lia). intros q Hq Hq'. pose proof (at_len _ _ _ Hq') as K. rewrite Lz in K. change (len end_magic) with 4 in K.
    apply at_prefix in Hq'. destruct Hq' as [Hq' _]. rewrite E, app_assoc, skipn_app in Hq'. 
    assert (C : length (central (stored_entry 0 (S_ "a", data, 0))) = 47%nat) by reflexivity. unfold len in L.
    rewrite skipn_all2 in Hq' by (rewrite app_length, C; lia).
    cbn [app] in Hq'. rewrite app_length, C in Hq'.
    remember (length (local_ (stored_entry 0 (S_ "a", data, 0)))) as w eqn:Ew. assert (D : (N.to_nat q - (w + 47) = 17 \/ N.to_nat q - (w + 47) = 18)%nat) by lia.
    destruct D as [D|D]; rewrite D in Hq'; vm_compute in Hq'; discriminate. }
  unfold zip_toc, attach. rewrite S. cbn [bind]. change (101010319 =? 0) with false. cbn iota. rewrite (no_long (zip_of fs []) (101010319 + 12)) by (rewrite Lz; lia).
  destruct (get_long (zip_of fs []) 101010319), (get_short (zip_of fs []) (101010319 + 4)), (get_short (zip_of fs []) (101010319 + 6)), (get_short (zip_of fs []) (101010319 + 8)), (get_short (zip_of fs []) (101010319 + 10)); reflexivity.
Qed.
Print Assumptions archive_position_refuted.
