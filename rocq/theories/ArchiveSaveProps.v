(** Elements saved into an archive as bytes and read again (C118), with the numbers of NumberModel.v. *)
From Verif Require Import Common StrMap StringsModel PathModel KmzModel KmzProps UnzipModel UnzipProofs UnzipProofs2 UnzipProps ArchiveWriteProps.
From Verif Require Import XsdTables XsdModel XmlSpec XmlSpecProofs SerializerModel SerializerProofs CoordModel CoordProofs HandlerModel HandlerSpec HandlerProps.
From Verif Require Import DomTables DomModel DomSpec DomProofs DomProofs2 DomParsed DomProps IdProofs IdProps NamespaceModel NamespaceProps SaveProps NumberDomProps.
Local Open Scope N_scope.

Lemma written_archive_of : forall zst (z_init : zst) (R : zst -> str -> str -> Prop) compress fs, (forall s, R z_init (compress s) s) ->
  len (written_zip compress fs) < 88821760 -> N.of_nat (length fs) < 19280 ->
  (forall f, In f fs -> len (fst f) < 256 /\ ~ In "000"%char (fst f) /\ len (snd f) < 4294967296) -> SaveProps.archive_of z_init R (written_zip compress fs) fs.
Proof.
  intros zst z_init R compress fs Hc Hlen Hn Hf.
  assert (Hz : is_zip (written_zip compress fs) (deflated compress 0 fs) []).
  { apply written_is_zip; [lia|lia|]. intros f Hi. destruct (Hf f Hi) as (H1 & _ & H3). split; [lia|exact H3]. }
  exists (deflated compress 0 fs), []. split; [exact Hz|]. split; [lia|]. split; [vm_compute; discriminate|]. split; [apply (small_archive _ _ Hz); [rewrite deflated_length; exact Hn|exact Hlen]|].
  split; [|apply deflated_files]. intros e He. destruct (deflated_in compress fs 0 e He) as (f & o & H1 & -> & _). destruct (Hf f H1) as (F1 & F2 & _). cbn [deflated_entry e_name e_data e_raw].
  split; [exact F1|]. split; [exact F2|]. right. split; [reflexivity|apply Hc].
Qed.
(** C118, C122. So elements that were read from a text, made into an archive together with the files they link to, are what is read from the default file of that
    archive: with the numbers as doubles and the bytes as minizip writes them. *)
Theorem element_written : forall s t o ty a ks,
  xml_tree (without_declaration s) = Some t -> regular t -> no_xmlns_xmlns t = true -> SaveProps.load E64 s = Ok (Some o) ->
  DomParsed.plain E64 Type_Unknown o = true -> ser o = IElem ty a ks -> readable (ser o) = true ->
  regular (XElem (tag_name ty) a (content lf (S_ "  ") 0 ks)) ->
  exists w, write_pretty o = Ok w /\
    forall zst (z_init : zst) z_step R compress normalize read links max, inflates zst z_step R -> (forall s, R z_init (compress s) s) ->
    let fs := kmz_create normalize read w links in let d := written_zip compress fs in
    len d < 88821760 -> N.of_nat (length fs) < 19280 -> (forall f, In f fs -> len (fst f) < 256 /\ ~ In "000"%char (fst f) /\ len (snd f) < 4294967296) -> len w <= max ->
    exists toc, zip_toc d = Ok toc /\ find_first_of (S_ ".kml") toc = Some (S_ "doc.kml") /\
      zip_get zst z_init z_step true d toc max (S_ "doc.kml") = Ok (Some w) /\ SaveProps.load E64 w = Ok (Some o).
Proof.
  intros s t o ty a ks Ht Hr Hx Hl Hp Hs Hre Hreg. destruct (SaveProps.element_in_archive E64 s t o ty a ks numbers_are_stable Ht Hr Hx Hl Hp Hs Hre Hreg) as (w & W1 & W2).
  exists w. split; [exact W1|]. intros zst z_init z_step R compress normalize read links max HR Hc fs d Hlen Hn Hf Hm.
  apply (W2 zst z_init z_step R normalize read links d max HR); [|exact Hm]. now apply written_archive_of.
Qed.
Print Assumptions element_written.
(** A document with numbers, through such an archive; its other conditions are in sample64_hypotheses. *)
Example element_written_sample :
  match SaveProps.load E64 sample64 with
  | Ok (Some o) => match write_pretty o with
                   | Ok w => let d := written_zip (fun s => s) (kmz_create (fun p => Some p) (fun _ => Some (S_ "x")) w [S_ "a.png"]) in
                             match zip_toc d with
                             | Ok toc => match zip_get unit tt copy_step true d toc 100000 (S_ "doc.kml") with
                                         | Ok (Some w') => match SaveProps.load E64 w' with Ok (Some o') => eqs w' w && (len d <? 88821760) | _ => false end
                                         | _ => false
                                         end
                             | _ => false
                             end
                   | _ => false
                   end
  | _ => false
  end = true.
Proof. vm_compute. reflexivity. Qed.
