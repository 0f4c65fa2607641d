(** Archives made from files on the disk (C118, C122). *)
From Verif Require Import Common StrMap StringsModel PathModel KmzModel KmzProps UnzipModel UnzipProofs UnzipProofs2 UnzipProps ArchiveWriteProps.
From Verif Require Import XsdTables XsdModel XmlSpec XmlSpecProofs SerializerModel SerializerProofs CoordModel CoordProofs HandlerModel HandlerSpec HandlerProps.
From Verif Require Import DomTables DomModel DomSpec DomProofs DomProofs2 DomParsed DomProps IdProofs IdProps NamespaceModel NamespaceProps SaveProps NumberDomProps.
From Verif Require Import ArchiveSaveProps DeflateRfc DeflateProps DiskModel DiskProps KmzDiskModel KmzDiskProps KmzFileModel.
Local Open Scope N_scope.

(** C118, C122. A KML file on the disk is packed with the files it links to: the archive is opened from the disk, and its default file is read as the
    element that the KML file is read as, with all numbers.  Conditions on the sizes as in kmz_on_disk. *)
Theorem kml_file_packed : forall s t o ty a ks place compress normalize parse links d kml_path path m,
  xml_tree (without_declaration s) = Some t -> regular t -> no_xmlns_xmlns t = true -> SaveProps.load E64 s = Ok (Some o) ->
  DomParsed.plain E64 Type_Unknown o = true -> ser o = IElem ty a ks -> readable (ser o) = true ->
  regular (XElem (tag_name ty) a (content CoordProofs.lf (S_ "  ") 0 ks)) ->
  (forall x, inflate (compress x) = Some (x, [])) -> parse s = SaveProps.load E64 s ->
  kml_path <> [] -> path <> [] -> found place d kml_path = Some (Regular m s []) ->
  exists w r, write_pretty o = Ok w /\ SaveProps.load E64 w = Ok (Some o) /\
    create_from_kml_filepath place (written_zip compress) normalize parse write_pretty links d kml_path path = Ok r /\
    (fst r = false -> snd r = d) /\
    (fst r = true -> exists i d1, place (c_name path) = Some i /\ (forall j, j <> i -> at_ (snd r) j = at_ d j) /\ (forall j, j <> i -> at_ d1 j = at_ d j) /\
       let base := fst (split_file_path kml_path) in let fs := kmz_create normalize (disk_read place d1 base) w (links w) in let z := written_zip compress fs in
       forall max, (length z <= room d + size (at_ d i))%nat -> len z < 88821760 -> N.of_nat (length (links w)) < 19279 -> len w <= max -> len w < 4294967296 ->
       (forall f, In f (candidates normalize (links w)) -> len f < 256 /\ ~ In "000"%char f /\ forall x, disk_read place d1 base f = Some x -> len x < 4294967296) ->
       open_from_file place (snd r) path = Ok (Some (z, map fst fs)) /\ find_first_of (S_ ".kml") (map fst fs) = Some (S_ "doc.kml") /\
       zip_get zstream (Gathering []) z_step true z (map fst fs) max (S_ "doc.kml") = Ok (Some w)).
Proof.
  intros s t o ty a ks place compress normalize parse links d kml_path path m Ht Hr Hx Hl Hp Hs Hre Hreg Hc Hpa Hk Hpath Hf.
  destruct (read_pretty_read E64 _ t o ty a ks numbers_are_stable Ht Hr Hx Hl Hp Hs Hre Hreg) as (w & W1 & W2).
  assert (Hw : w <> []) by (intros ->; vm_compute in W2; discriminate).
  assert (Hlw : SaveProps.load E64 w = Ok (Some o)).
  { unfold SaveProps.load. assert (without_declaration w = w) as ->; [|exact W2]. unfold without_declaration. destruct (prefixb (S_ "<?xml") w) eqn:P; [|reflexivity]. exfalso. apply prefixb_spec in P as (v & ->). clear - W2. vm_compute in W2. discriminate. }
  set (base := fst (split_file_path kml_path)). exists w, (create_kmz place (written_zip compress) normalize d base w (links w) path).
  split; [exact W1|]. split; [exact Hlw|]. split.
  { unfold create_from_kml_filepath. destruct path as [|c0 path]; [congruence|]. destruct kml_path as [|c1 kml_path]; [congruence|]. rewrite read_file_spec, Hf. cbn [bind]. rewrite Hpa, Hl. cbn [bind]. rewrite W1. reflexivity. }
  destruct (create_kmz place (written_zip compress) normalize d base w (links w) path) as [ok d'] eqn:Ec. cbn [fst snd]. split; [intros ->; now apply kmz_not_made in Ec|]. intros ->.
  destruct (kmz_on_disk place compress normalize d base w (links w) path d' Hc Ec) as (i & d1 & K1 & K2 & K3 & K4). exists i, d1.
  split; [exact K1|]. split; [exact K3|]. split; [exact K2|]. cbv zeta. intros max H1 H2 H3 H4 H5 H6. destruct (K4 max H1 H2 H3 Hw H4 H5 H6) as (L1 & L2 & L3 & _). split; [now apply L1|]. split; [exact L2|exact L3].
Qed.
Print Assumptions kml_file_packed.
(** C118, C122. Reading the file fails, or a path is empty: false, and the disk is as before. *)
Theorem kml_file_not_packed : forall place zip normalize parse write links d kml_path path, kml_path = [] \/ path = [] \/ found place d kml_path = None ->
  create_from_kml_filepath place zip normalize parse write links d kml_path path = Ok (false, d).
Proof.
  intros place zip normalize parse write links d kml_path path H. unfold create_from_kml_filepath. destruct path as [|c0 path]; [reflexivity|]. destruct kml_path as [|c1 kml_path]; [reflexivity|]. destruct H as [H|[H|H]]; try discriminate. rewrite read_file_spec, H. reflexivity.
Qed.
Print Assumptions kml_file_not_packed.
(** C118, C122. A file that is not KML is not refused: the null pointer is used. *)
Theorem bad_file_packed_refuted : forall zip normalize links, found place0 (disk0 9) (S_ "a") = Some (Regular 420 (S_ "old") []) /\ SaveProps.load E64 (S_ "old") = Ok None /\
  create_from_kml_filepath place0 zip normalize (SaveProps.load E64) write_pretty links (disk0 9) (S_ "a") (S_ "b") = UB.
Proof. intros zip normalize links. split; [reflexivity|]. split; vm_compute; reflexivity. Qed.
Print Assumptions bad_file_packed_refuted.
(** The hypotheses on the document are those of element_written (sample64_hypotheses); a file with such a document, packed. *)
Definition disk2 : disk := {| at_ := fun i => match i with 2 => Some (Regular 420 sample64 []) | _ => None end; room := 5000; mask := 18 |}.
Example kml_file_packed_sample : found place0 disk2 (S_ "b") = Some (Regular 420 sample64 []) /\
  match create_from_kml_filepath place0 (written_zip deflate_stored) (fun p => Some p) (SaveProps.load E64) write_pretty (fun _ => []) disk2 (S_ "b") (S_ "a") with
  | Ok (true, d') => match open_from_file place0 d' (S_ "./a") with
                     | Ok (Some (z, toc)) => match zip_get zstream (Gathering []) z_step true z toc 100000 (S_ "doc.kml") with Ok (Some w) => SaveProps.load E64 w = SaveProps.load E64 sample64 | _ => False end
                     | _ => False
                     end
  | _ => False
  end.
Proof. split; [reflexivity|]. vm_compute. reflexivity. Qed.
