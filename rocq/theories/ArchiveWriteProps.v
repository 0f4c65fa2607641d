(** What the archive writer writes is what the archive reader reads (C100, C118, C122). *)
From Verif Require Import Common StringsModel PathModel KmzModel KmzProps UnzipModel UnzipProofs UnzipProofs2 UnzipProps LinkCheckProps.
Local Open Scope N_scope.

(** ** Specification: what minizip writes *)
Section Written.
  Variable compress : str -> str.
  (** zip_file.cc 220-240 AddEntry: zipOpenNewFileInZip without date, extra fields and comment, deflated. The version that made
      it is 0, the one needed 2.0; checksum and sizes are in the local header too, as the file written to can be positioned in. *)
  Definition deflated_entry (off : N) (f : str * str) : entry :=
    Entry (fst f) (compress (snd f)) (snd f) 8 (crc32 (snd f)) off 0 20 0 0 0 0 0 [] [] 20 0 0 (crc32 (snd f)) (len (compress (snd f))) (len (snd f)) [].
  (** One after the other, from position [off] on. *)
  Fixpoint deflated (off : N) (fs : list (str * str)) : list entry :=
    match fs with
    | [] => []
    | f :: fs' => let e := deflated_entry off f in e :: deflated (off + len (local_ e)) fs'
    end.
  (** zip_file.cc 47-51: zipClose writes the directory and the end record, without a comment. *)
  Definition written_zip (fs : list (str * str)) : str :=
    let es := deflated 0 fs in
    let cd := List.concat (map central es) in
    List.concat (map local_ es) ++ cd ++ ending (N.of_nat (length es)) (len cd) (len (List.concat (map local_ es))) [].

  (** ** Proofs *)
  Lemma deflated_at fs : forall front back e, In e (deflated (len front) fs) ->
    at_ (front ++ List.concat (map local_ (deflated (len front) fs)) ++ back) (e_off e) (local_ e).
  Proof.
    induction fs as [|f fs IH]; intros front back e He; [destruct He|]. cbn [deflated] in *. cbv zeta in *. cbn [map List.concat]. destruct He as [<-|He].
    - exists front, (List.concat (map local_ (deflated (len front + len (local_ (deflated_entry (len front) f))) fs)) ++ back).
      split; [now rewrite <- app_assoc|]. reflexivity.
    - rewrite <- len_app in *. specialize (IH (front ++ local_ (deflated_entry (len front) f)) back e He). rewrite <- !app_assoc in *. exact IH.
  Qed.
  Lemma deflated_in fs : forall off e, In e (deflated off fs) -> exists f o, In f fs /\ e = deflated_entry o f /\
    off <= o /\ o + len (local_ e) <= off + len (List.concat (map local_ (deflated off fs))).
  Proof.
    induction fs as [|f fs IH]; intros off e He; [destruct He|]. cbn [deflated] in *. cbv zeta in *. cbn [map List.concat]. rewrite len_app. destruct He as [<-|He].
    - exists f, off. split; [now left|]. split; [reflexivity|]. split; lia.
    - destruct (IH _ _ He) as (g & o & H1 & H2 & H3 & H4). exists g, o. split; [now right|]. split; [assumption|]. split; lia.
  Qed.
  Lemma deflated_files fs : forall off, map (fun e => (e_name e, e_data e)) (deflated off fs) = fs.
  Proof. induction fs as [|[n d] fs IH]; intros off; [reflexivity|]. cbn [deflated map deflated_entry e_name e_data fst snd]. now rewrite IH. Qed.
  Lemma deflated_length fs off : length (deflated off fs) = length fs.
  Proof. rewrite <- (deflated_files fs off) at 2. now rewrite map_length. Qed.
End Written.

Lemma lxor_small n a b : a < 2 ^ n -> b < 2 ^ n -> N.lxor a b < 2 ^ n.
Proof.
  intros Ha Hb. destruct (N.eq_dec (N.lxor a b) 0) as [->|Hn]; [apply N.neq_0_lt_0, N.pow_nonzero; discriminate|].
  apply N.log2_lt_pow2; [lia|]. pose proof (N.log2_lxor a b) as H. destruct (N.eq_dec a 0) as [->|Na]; [rewrite N.lxor_0_l in *|].
  - apply N.log2_lt_pow2; lia.
  - destruct (N.eq_dec b 0) as [->|Nb]; [rewrite N.lxor_0_r in *; apply N.log2_lt_pow2; lia|]. apply N.log2_lt_pow2 in Ha, Hb; lia.
Qed.
Lemma crc32_small s : crc32 s < 4294967296.
Proof.
  change 4294967296 with (2 ^ 32). unfold crc32. apply lxor_small; [|reflexivity]. assert (H : forall c, c < 2 ^ 32 -> crc_bit c < 2 ^ 32).
  { intros c Hc. unfold crc_bit. assert (N.div2 c < 2 ^ 32) by (rewrite N.div2_div; apply N.div_lt_upper_bound; lia). destruct (N.odd c); [|assumption]. now apply lxor_small. }
  assert (H8 : forall k c, c < 2 ^ 32 -> Nat.iter k crc_bit c < 2 ^ 32) by (induction k as [|k IHk]; intros c Hc; [exact Hc|]; change (crc_bit (Nat.iter k crc_bit c) < 2 ^ 32); auto).
  enough (forall c, c < 2 ^ 32 -> fold_left crc_byte s c < 2 ^ 32) by (apply H0; reflexivity). induction s as [|b s IH]; intros c Hc; [exact Hc|]. cbn [fold_left]. apply IH. unfold crc_byte. apply H8.
  apply lxor_small; [exact Hc|]. eapply N.lt_trans; [apply N_ascii_bounded|reflexivity].
Qed.

(** C100, C122. What is written is an archive as the ZIP format says, with these files in this order, as long as it all stays below 2 GB. *)
Theorem written_is_zip : forall compress fs, len (written_zip compress fs) <= 2147483647 -> N.of_nat (length fs) < 65536 ->
  (forall f, In f fs -> len (fst f) < 65536 /\ len (snd f) < 4294967296) -> is_zip (written_zip compress fs) (deflated compress 0 fs) [].
Proof.
  intros compress fs Hlen Hn Hf. unfold written_zip in *. cbv zeta in *.
  set (es := deflated compress 0 fs) in *. set (cd := List.concat (map central es)) in *. set (front := List.concat (map local_ es)) in *.
  exists front, (len front). rewrite !len_app in Hlen. rewrite N.sub_diag. fold cd.
  split; [reflexivity|]. split; [lia|]. split; [lia|]. split; [lia|]. split; [unfold es; rewrite deflated_length; assumption|]. split; [reflexivity|].
  intros e He. destruct (deflated_in compress fs 0 e He) as (f & o & H1 & H2 & H3 & H4). destruct (Hf f H1) as [Hf1 Hf2]. fold es in H4. fold front in H4. split.
  - subst e. unfold local_ in H4. cbn [deflated_entry e_name e_raw e_lextra] in H4. rewrite !len_app, !len_le in H4. pose proof (crc32_small (snd f)) as Hcrc.
    constructor; cbn [deflated_entry e_method e_crc e_raw e_data e_name e_extra e_comment e_off e_lflag e_lcrc e_lcsize e_lusize e_lextra]; change (len []) with 0 in *; try lia.
  - exact (deflated_at compress fs [] (cd ++ ending (N.of_nat (length es)) (len cd) (len front) []) e He).
Qed.
Print Assumptions written_is_zip.

(** C122. An archive that is written and then opened is the list of the files added to it: their names in order, and for each name the data
    of the first file added under it, if it is not empty and not larger than allowed. All of it less than 88821760 bytes and 19280 files. *)
Theorem written_is_read : forall zst (z_init : zst) z_step R compress, inflates zst z_step R -> (forall s, R z_init (compress s) s) ->
  forall fs max p, fs <> [] -> len (written_zip compress fs) < 88821760 -> N.of_nat (length fs) < 19280 ->
  (forall f, In f fs -> len (fst f) < 256 /\ ~ In "000"%char (fst f) /\ len (snd f) < 4294967296) ->
  is_zip_data (written_zip compress fs) = true /\ zip_toc (written_zip compress fs) = Ok (map fst fs) /\
  zip_get zst z_init z_step true (written_zip compress fs) (map fst fs) max p = Ok (read_file max fs p).
Proof.
  intros zst z_init z_step R compress HR Hc fs max p Hne Hlen Hn Hf.
  assert (Hz : is_zip (written_zip compress fs) (deflated compress 0 fs) []).
  { apply written_is_zip; [lia|lia|]. intros f Hi. destruct (Hf f Hi) as (H1 & _ & H3). split; [lia|exact H3]. }
  split; [destruct fs; [congruence|reflexivity]|].
  pose proof (archive_is_list zst z_init z_step R HR (written_zip compress fs) (deflated compress 0 fs) [] max p Hz) as H. cbv zeta in H. rewrite deflated_files in H. apply H; clear H.
  - destruct fs; [congruence|discriminate].
  - lia.
  - vm_compute. discriminate.
  - apply (small_archive _ _ Hz); [rewrite deflated_length; exact Hn|exact Hlen].
  - intros e He. destruct (deflated_in compress fs 0 e He) as (f & o & H1 & -> & _). destruct (Hf f H1) as (F1 & F2 & _). cbn [deflated_entry e_name e_data e_raw]. split; [exact F1|]. split; [exact F2|].
    right. split; [reflexivity|apply Hc].
Qed.
Print Assumptions written_is_read.

(** C118, C122. KmzFile::CreateFromElement and back: an archive made of a document and the files it links to has the document as its default file, and gives each
    linked file that was packed as it was on the disk. *)
Theorem written_kmz : forall zst (z_init : zst) z_step R compress, inflates zst z_step R -> (forall s, R z_init (compress s) s) ->
  forall normalize read kml links max, let fs := kmz_create normalize read kml links in let d := written_zip compress fs in
  len d < 88821760 -> N.of_nat (length links) < 19279 -> kml <> [] -> len kml <= max -> len kml < 4294967296 ->
  (forall f, In f (candidates normalize links) -> len f < 256 /\ ~ In "000"%char f /\ forall x, read f = Some x -> len x < 4294967296) ->
  zip_toc d = Ok (map fst fs) /\ find_first_of (S_ ".kml") (map fst fs) = Some (S_ "doc.kml") /\
  zip_get zst z_init z_step true d (map fst fs) max (S_ "doc.kml") = Ok (Some kml) /\
  forall p x, In (p, x) fs -> p <> S_ "doc.kml" -> x <> [] -> len x <= max ->
    read p = Some x /\ zip_get zst z_init z_step true d (map fst fs) max p = Ok (Some x).
Proof.
  intros zst z_init z_step R compress HR Hc normalize read kml links max fs d Hlen Hn Hk Hm Hk4 Hf. assert (P : fs = (S_"doc.kml", kml) :: entries read (first_occurrences [] (candidates normalize links))) by apply kmz_packed.
  destruct (kmz_files_once normalize read kml links) as (files & F1 & F2 & F3). fold fs in F1.
  assert (Hfiles : files = entries read (first_occurrences [] (candidates normalize links))) by congruence.
  assert (Hsub : forall l seen n, In n (first_occurrences seen l) -> In n l).
  { induction l as [|y l IH]; intros seen n; cbn [first_occurrences]; [intros []|]. destruct (existsb (eqs y) seen); [intros H; right; eauto|]. intros [->|H]; [now left | right; eauto]. }
  assert (Hlf : forall l seen, (length (first_occurrences seen l) <= length l)%nat).
  { induction l as [|y l IH]; intros seen; cbn [first_occurrences length]; [lia|]. destruct (existsb (eqs y) seen); [specialize (IH seen)|cbn [length]; specialize (IH (y :: seen))]; lia. }
  assert (Hle : forall l, (length (entries read l) <= length l)%nat).
  { unfold entries. induction l as [|y l IH]; cbn [flat_map length]; [lia|]. rewrite app_length. destruct (add_entry_accepts y); [destruct (read y)|]; cbn; lia. }
  assert (HA : forall p, zip_toc d = Ok (map fst fs) /\ zip_get zst z_init z_step true d (map fst fs) max p = Ok (read_file max fs p)).
  { intros p. apply (written_is_read zst z_init z_step R compress HR Hc); [rewrite F1; discriminate|exact Hlen| |].
    - pose proof (candidates_length normalize links). rewrite F1, Hfiles. cbn [length]. pose proof (Hle (first_occurrences [] (candidates normalize links))). pose proof (Hlf (candidates normalize links) []). lia.
    - intros f Hi. rewrite F1 in Hi. destruct Hi as [<-|Hi]; [cbn [fst snd]; split; [reflexivity|split; [cbn; intuition discriminate|exact Hk4]]|].
      destruct f as [n x]. destruct (F3 n x Hi) as [R1 _]. rewrite Hfiles in Hi. unfold entries in Hi. apply in_flat_map in Hi. destruct Hi as (m & Hm1 & Hm2). apply Hsub in Hm1.
      destruct (add_entry_accepts m); [|destruct Hm2]. destruct (read m) as [y|] eqn:Er; cbn in Hm2; [|destruct Hm2]. destruct Hm2 as [[= <- <-]|[]]. destruct (Hf m Hm1) as (G1 & G2 & G3). cbn [fst snd]. auto. }
  destruct (HA (S_ "doc.kml")) as [T G]. split; [exact T|]. pose proof (kmz_document normalize read kml links max Hk Hm) as K. fold fs in K. unfold read_kml in K.
  destruct (find_first_of (S_ ".kml") (map fst fs)) as [q|]; [|discriminate]. destruct (read_file max fs q) as [y|] eqn:Ey; [|discriminate]. injection K as -> ->.
  split; [reflexivity|]. split; [etransitivity; [exact G|exact (f_equal Ok Ey)]|]. intros p x Hi Hp Hx Hxm. destruct (HA p) as [_ Gp]. rewrite Gp, read_file_spec. rewrite F1 in Hi. destruct Hi as [Hi|Hi]; [congruence|].
  split; [now apply F3|]. rewrite F1. unfold locate. cbn [List.find fst]. replace (eqs (S_ "doc.kml") p) with false by (symmetry; apply eqs_neq; congruence). fold (locate files p).
  rewrite (locate_in files p x F2 Hi). destruct x as [|c x]; [congruence|]. unfold len in Hxm. destruct (N.eqb_spec (N.of_nat (length (c :: x))) 0) as [E|_]; [cbn [length] in E; lia|].
  destruct (N.ltb_spec max (N.of_nat (length (c :: x)))); [lia|reflexivity].
Qed.
Print Assumptions written_kmz.

(** A decompressor for the example: it copies; and an archive of two files. *)
Definition two : list (str * str) := kmz_create (fun p => Some p) (fun p => if eqs p (S_ "a/i.png") then Some (S_ "PNG") else None) (S_ "<kml/>") [S_ "a/i.png"; S_ "b.png"].
Example written_sample : two = [(S_ "doc.kml", S_ "<kml/>"); (S_ "a/i.png", S_ "PNG")] /\ inflates unit copy_step (fun _ z o => z = o) /\
  zip_toc (written_zip (fun s => s) two) = Ok [S_ "doc.kml"; S_ "a/i.png"] /\
  zip_get unit tt copy_step true (written_zip (fun s => s) two) [S_ "doc.kml"; S_ "a/i.png"] 1000 (S_ "a/i.png") = Ok (Some (S_ "PNG")).
Proof. split; [reflexivity|]. split; [exact copy_inflates|]. split; vm_compute; reflexivity. Qed.
