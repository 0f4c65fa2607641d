(** Properties of cloning. *)
From Verif Require Import Common StrMap StringsModel ColorModel AttributesModel XsdTables XsdModel XmlSpec XmlSpecProofs.
From Verif Require Import SerializerModel SerializerProofs CoordModel CoordProofs HandlerModel HandlerSpec HandlerProps.
From Verif Require Import DomTables DomModel DomSpec DomProofs DomProofs2 DomParsed DomVisit.
From Verif Require Import DomProps.
From Verif Require Import CloneModel CloneProofs.
Local Open Scope N_scope.

(** C37. The clone of an element that was read from a text is equal to it, so it is written the same (for
    [cloneable] elements; that no node is shared holds by construction, elements being values here). *)
Theorem clone_parsed : forall E s t o, numbers_stable E -> xml_tree s = Some t -> regular t -> no_xmlns_xmlns t = true ->
  read_kml E s = Ok (Some o) -> is_simple (oty o) = false -> cloneable E o = true ->
  clone E o = Done o.
Proof.
  intros E s t o HE Ht Hr Hx Ho Hs Hc. apply clone_equal; auto. exact (parsed_wf E HE s t o Ht Hr Hx Ho).
Qed.
Print Assumptions clone_parsed.
Theorem clone_correct : forall E o, wf E o = true -> is_simple (oty o) = false -> cloneable E o = true -> clone E o = Done o.
Proof. exact (fun E o H1 H2 H3 => clone_equal E o H1 H3 H2). Qed.
Print Assumptions clone_correct.
Example clone_sample : exists o, read_kml E0 sample = Ok (Some o) /\ is_simple (oty o) = false /\ cloneable E0 o = true /\ clone E0 o = Done o.
Proof.
  destruct (read_kml E0 sample) as [[o|]| | |] eqn:Eo; try (vm_compute in Eo; discriminate).
  exists o. split; auto. vm_compute in Eo. inversion Eo; subst o. vm_compute. auto.
Qed.
Definition cloned (s : str) : option (option str * cres (option str)) :=
  match read_kml E0 s with
  | Ok (Some o) => Some (match write_raw o with Ok w => Some w | _ => None end,
      cbind (clone E0 o) (fun c => Done (match write_raw c with Ok w => Some w | _ => None end)))
  | _ => None
  end.
(** A simple element cannot be cloned. *)
Theorem clone_simple_refuted : exists o, read_kml E0 (S_ "<name>a</name>") = Ok (Some o) /\ clone E0 o = Undefined.
Proof. eexists. split; [vm_compute; reflexivity|]. vm_compute. reflexivity. Qed.
Print Assumptions clone_simple_refuted.
(** An element misplaced inside of a SimpleData with text becomes its own child. *)
Theorem clone_misplaced_refuted : exists o, read_kml E0 (S_ "<SimpleData name=""a"">t<Point/></SimpleData>") = Ok (Some o) /\ clone E0 o = Cyclic.
Proof. eexists. split; [vm_compute; reflexivity|]. vm_compute. reflexivity. Qed.
Print Assumptions clone_misplaced_refuted.
(** The clone of a SimpleData with empty text has no text and is written differently. *)
Theorem clone_empty_text_refuted : exists w1 w2, cloned (S_ "<SimpleData name=""a""></SimpleData>") = Some (Some w1, Done (Some w2)) /\ w1 <> w2.
Proof. do 2 eexists. split; [vm_compute; reflexivity|]. discriminate. Qed.
Print Assumptions clone_empty_text_refuted.
(** CDATA marks in a link are taken off the clone. *)
Theorem clone_link_refuted : exists w1 w2, cloned (S_ "<Icon><href>&lt;![CDATA[&lt;![CDATA[a]]&gt;]]&gt;</href></Icon>") = Some (Some w1, Done (Some w2)) /\ w1 <> w2.
Proof. do 2 eexists. split; [vm_compute; reflexivity|]. discriminate. Qed.
Print Assumptions clone_link_refuted.
