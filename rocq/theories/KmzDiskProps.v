(** Archives written to the disk and opened from it (C118, C122, C123). *)
From Verif Require Import Common StringsModel PathModel KmzModel KmzProps UnzipModel UnzipProofs UnzipProofs2 UnzipProps LinkCheckProps ArchiveWriteProps DeflateRfc DeflateProps DiskModel DiskProps KmzDiskModel.
Local Open Scope N_scope.

Lemma zip_starts compress fs : fs <> [] -> is_zip_data (written_zip compress fs) = true.
Proof. destruct fs; [congruence|reflexivity]. Qed.
(** C118, C122, C123. An archive made of a document and the files it links to, on a disk with room for it: the file is opened under every name
    it has, its default file is the document, each file packed is given as it was on the disk, and nothing else on the disk has changed. *)
Theorem kmz_on_disk : forall place compress normalize d base kml links path d', (forall s, inflate (compress s) = Some (s, [])) ->
  create_kmz place (written_zip compress) normalize d base kml links path = (true, d') ->
  exists i d1, place (c_name path) = Some i /\ (forall j, j <> i -> at_ d1 j = at_ d j) /\
    let fs := kmz_create normalize (disk_read place d1 base) kml links in let z := written_zip compress fs in
    (forall j, j <> i -> at_ d' j = at_ d j) /\
    (forall max, (length z <= room d + size (at_ d i))%nat -> len z < 88821760 -> N.of_nat (length links) < 19279 -> kml <> [] -> len kml <= max -> len kml < 4294967296 ->
     (forall f, In f (candidates normalize links) -> len f < 256 /\ ~ In "000"%char f /\ forall x, disk_read place d1 base f = Some x -> len x < 4294967296) ->
     (forall path', path' <> [] -> place (c_name path') = Some i -> open_from_file place d' path' = Ok (Some (z, map fst fs))) /\
     find_first_of (S_ ".kml") (map fst fs) = Some (S_ "doc.kml") /\
     zip_get zstream (Gathering []) z_step true z (map fst fs) max (S_ "doc.kml") = Ok (Some kml) /\
     forall p x, In (p, x) fs -> p <> S_ "doc.kml" -> x <> [] -> len x <= max ->
       (place (c_name (join_paths base p)) <> Some i -> DiskModel.read_file place d (join_paths base p) (Some []) = Ok (true, Some x)) /\
       zip_get zstream (Gathering []) z_step true z (map fst fs) max p = Ok (Some x)).
Proof.
  intros place compress normalize d base kml links path d' Hc H. unfold create_kmz in H. destruct (write_file place d [] path) as [[|] d1] eqn:W1; [|discriminate].
  pose proof (write_file_spec place d [] path) as S1. destruct (place (c_name path)) as [i|] eqn:Ep; [|congruence]. exists i, d1. split; [reflexivity|].
  destruct (_ || _) eqn:Eo in S1; [congruence|]. destruct S1 as (d1' & m & A1 & A2 & A3 & A4 & A5 & _). rewrite W1 in A1. injection A1 as <-. split; [exact A4|]. cbv zeta.
  set (fs := kmz_create normalize (disk_read place d1 base) kml links) in *. set (z := written_zip compress fs) in *.
  pose proof (write_file_spec place d1 z path) as S2. rewrite Ep, A3 in S2. destruct path as [|c0 path]; [discriminate|]. cbn [orb] in S2. destruct S2 as (d2 & m2 & B1 & B2 & B3 & B4 & B5 & _). rewrite B1 in H. cbn [snd] in H. injection H as _ <-.
  split; [intros j Hj; now rewrite B4, A4 by exact Hj|]. intros max Hroom Hlen Hn Hk Hm Hk4 Hf.
  destruct (written_kmz zstream (Gathering []) z_step makes compress rfc1951_inflates Hc normalize (disk_read place d1 base) kml links max Hlen Hn Hk Hm Hk4 Hf) as (K1 & K2 & K3 & K4). fold fs in K1, K2, K3, K4. fold z in K1, K3, K4.
  rewrite A3, firstn_nil in A5. cbn [size app length] in A5. cbn [size app length] in B3. rewrite firstn_nil in B3. cbn [length] in B3. rewrite firstn_all2 in B3 by lia.
  split.
  - intros path' Hp Hi. unfold open_from_file, exists_. rewrite read_file_spec. unfold found. rewrite Hi, B3. destruct path' as [|c1 path']; [congruence|]. cbn [bind]. unfold zip_open.
    assert (Z : is_zip_data z = true). { apply zip_starts. unfold fs. destruct (kmz_files_once normalize (disk_read place d1 base) kml links) as (files & F1 & _). rewrite F1. discriminate. }
    rewrite Hi, B3. cbn [bind]. rewrite Z, K1. reflexivity.
  - split; [exact K2|]. split; [exact K3|]. intros p x Hin Hp Hx Hxm. destruct (K4 p x Hin Hp Hx Hxm) as [R1 R2]. split; [|exact R2]. intros Hpl. unfold disk_read in R1. rewrite read_file_spec in *.
    assert (F : found place d1 (join_paths base p) = found place d (join_paths base p)). { unfold found. destruct (place (c_name (join_paths base p))) as [j|]; [|reflexivity]. apply A4. congruence. }
    destruct (join_paths base p) as [|c1 q]; [discriminate|]. rewrite F in R1. destruct (found place d (c1 :: q)) as [[m0 y [|l0 l]|]|]; inversion R1; subst; reflexivity.
Qed.
Print Assumptions kmz_on_disk.
(** C123. If no archive is made the disk is as before. *)
Theorem kmz_not_made : forall place zip normalize d base kml links path d', create_kmz place zip normalize d base kml links path = (false, d') -> d' = d.
Proof.
  intros place zip normalize d base kml links path d' H. unfold create_kmz in H. destruct (write_file place d [] path) as [[|] d1] eqn:W1.
  - pose proof (write_file_spec place d [] path) as S1. destruct (place (c_name path)) as [i|] eqn:Ep; [|congruence]. destruct (_ || _) eqn:Eo in S1; [congruence|]. destruct S1 as (d1' & m & A1 & A2 & A3 & A4 & A5 & _). rewrite W1 in A1. injection A1 as <-.
    set (z := zip _) in H. pose proof (write_file_spec place d1 z path) as S2. rewrite Ep, A3 in S2. destruct path as [|c0 path]; [discriminate|]. cbn [orb] in S2. destruct S2 as (d2 & m2 & B1 & B2 & B3 & _). rewrite B1 in H. cbn [snd] in H. unfold exists_, found in H. rewrite Ep, B3 in H. discriminate.
  - injection H as <-. unfold write_file in W1. destruct path; [congruence|]. destruct (place _) as [i|]; [|congruence]. destruct (at_ d i) as [[| ]|]; congruence.
Qed.
Print Assumptions kmz_not_made.
(** C101, C123. Opening what is not a file, or not an archive, gives no archive. *)
Theorem open_from_file_none : forall place d path, found place d path = None \/ found place d path = Some Directory \/
  (exists m x l, found place d path = Some (Regular m x l) /\ is_zip_data x = false) -> open_from_file place d path = Ok None.
Proof.
  intros place d path [H|[H|(m & x & l & H & Hz)]]; unfold open_from_file, exists_; rewrite H; try reflexivity. rewrite read_file_spec. destruct path as [|c path]; [reflexivity|]. rewrite H. unfold zip_open.
  destruct l as [|l0 l]; cbn [bind]; [now rewrite Hz|]. assert (E : is_zip_data (whole_blocks x) = false).
  { unfold whole_blocks. set (q := (length x / buffer_size)%nat). destruct q as [|q'] eqn:Eq; [reflexivity|]. unfold is_zip_data in *. rewrite firstn_firstn. rewrite Nat.min_l; [exact Hz|]. unfold buffer_size. lia. }
  now rewrite E.
Qed.
Print Assumptions open_from_file_none.

(** A document with a picture, a link to a directory and one to nothing. *)
Definition linked : list str := [S_ "b"; S_ "dir"; S_ "nothing"].
Definition disk1 (r : nat) : disk := {| at_ := fun i => match i with 2 => Some (Regular 420 (S_ "PNG") []) | 3 => Some Directory | _ => None end; room := r; mask := 18 |}.
Definition made1 (r : nat) : bool * disk := create_kmz place0 (written_zip deflate_stored) (fun p => Some p) (disk1 r) [] (S_ "<kml/>") linked (S_ "a").
Definition toc_of (r : res (option (str * list str))) : option (list str) := match r with Ok (Some (_, t)) => Some t | _ => None end.
Example kmz_on_disk_sample : fst (made1 1000) = true /\ toc_of (open_from_file place0 (snd (made1 1000)) (S_ "./a")) = Some [S_ "doc.kml"; S_ "b"; S_ "dir"] /\
  match open_from_file place0 (snd (made1 1000)) (S_ "a") with Ok (Some (z, t)) => (zip_get zstream (Gathering []) z_step true z t 1000 (S_ "doc.kml"), zip_get zstream (Gathering []) z_step true z t 1000 (S_ "b")) | _ => (Fuel, Fuel) end = (Ok (Some (S_ "<kml/>")), Ok (Some (S_ "PNG"))).
Proof. repeat split; vm_compute; reflexivity. Qed.
(** C123. A link to a directory is packed, as an empty file, which cannot be read from the archive. *)
Theorem directory_packed_refuted : found place0 (disk1 1000) (S_ "dir") = Some Directory /\
  match open_from_file place0 (snd (made1 1000)) (S_ "a") with Ok (Some (z, t)) => is_in_toc (S_ "dir") t = true /\ zip_get zstream (Gathering []) z_step true z t 1000 (S_ "dir") = Ok None | _ => False end.
Proof. split; [reflexivity|]. vm_compute. split; reflexivity. Qed.
Print Assumptions directory_packed_refuted.
(** C122, C123. On a disk that gets full CreateFromElement and WriteKmz say true, and what is left is an archive without files. *)
Theorem kmz_full_disk_refuted : fst (made1 100) = true /\ toc_of (open_from_file place0 (snd (made1 100)) (S_ "a")) = Some [].
Proof. split; vm_compute; reflexivity. Qed.
Print Assumptions kmz_full_disk_refuted.
