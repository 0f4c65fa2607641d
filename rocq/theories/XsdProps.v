(** Property theorems about the element and enumeration tables (C17, C18, C55). *)
From Verif Require Import Common StrMap XsdTables XsdModel XsdProofs.
Local Open Scope N_scope.

(** C17. The id of a tag name is the number of the table entry with that name, or Unknown exactly if
    there is none. *)
Theorem element_id_correct : forall s,
  (exists i, 0 < i < Type_Invalid /\ entry_name i = s /\ element_id s = i) \/
  (element_id s = Type_Unknown /\ forall i, 0 < i < Type_Invalid -> entry_name i <> s).
Proof. exact element_id_spec. Qed.
Print Assumptions element_id_correct.
(** C17. No two ids share a name. *)
Theorem element_names_distinct : forall i j, i < Type_Invalid -> j < Type_Invalid ->
  entry_name i = entry_name j -> i = j.
Proof. exact entry_name_inj. Qed.
Print Assumptions element_names_distinct.
(** C17. Id to name to id, and name to id to name, are identities (except for the icon of an icon style). *)
Theorem element_id_name_id : forall i, 0 < i < Type_Invalid -> i <> Type_IconStyleIcon ->
  element_id (element_name (Z.of_N i)) = i.
Proof. exact name_id_round_trip. Qed.
Print Assumptions element_id_name_id.
Theorem element_name_id_name : forall s, element_id s <> Type_Unknown -> s <> S_ "IconStyleIcon" ->
  element_name (Z.of_N (element_id s)) = s.
Proof. exact id_name_round_trip. Qed.
Print Assumptions element_name_id_name.
(** C17. Names and kinds are defined exactly for the valid ids, for every integer. *)
Theorem element_name_total : forall id, (element_name id = [] <-> ~ (0 < id < Z.of_N Type_Invalid)%Z) /\
  (element_type id = XSD_UNKNOWN <-> ~ (0 < id < Z.of_N Type_Invalid)%Z).
Proof. exact (fun id => conj (element_name_empty id) (element_type_total id)). Qed.
Print Assumptions element_name_total.
(** C17. Refuted for IconStyleIcon: it is written as "Icon", which reads back as another type, and the
    internal name "IconStyleIcon" is accepted as a tag. *)
Theorem element_name_icon_refuted : element_name (Z.of_N Type_IconStyleIcon) = S_ "Icon" /\
  element_id (S_ "Icon") = Type_Icon /\ Type_Icon <> Type_IconStyleIcon /\
  element_id (S_ "IconStyleIcon") = Type_IconStyleIcon.
Proof. exact icon_wart. Qed.
Print Assumptions element_name_icon_refuted.
Example element_table_nonvacuous : element_id (S_ "Placemark") = Type_Placemark /\ element_id (S_ "placemark") = Type_Unknown /\
  element_type (Z.of_N Type_Placemark) = XSD_COMPLEX /\ element_type (Z.of_N Type_name) = XSD_SIMPLE.
Proof. vm_compute. auto. Qed.

(** C18. Every value of every enumeration is written as a text that reads back as that value. *)
Theorem enum_value_round_trip : forall t vals i, enum_values t = Some vals -> (0 <= i < Z.of_nat (length vals))%Z ->
  exists s, enum_value t i = Ok s /\ enum_id t s = i.
Proof. exact enum_round_trip. Qed.
Print Assumptions enum_value_round_trip.
(** C18. Every accepted text is written back as itself; other texts are rejected. *)
Theorem enum_accepted_text : forall t s, (enum_id t s <> (-1)%Z -> enum_value t (enum_id t s) = Ok s) /\
  (enum_id t s = (-1)%Z <-> forall vals, enum_values t = Some vals -> ~ In s vals).
Proof. exact (fun t s => conj (enum_text_round_trip t s) (enum_rejects t s)). Qed.
Print Assumptions enum_accepted_text.
(** C18. Refuted for values outside of the enumeration, which the setters accept: writing them is undefined. *)
Theorem enum_value_out_of_range_refuted : forall t vals i, enum_values t = Some vals ->
  (Z.of_nat (length vals) <= i)%Z -> enum_value t i = UB.
Proof. exact enum_value_oob. Qed.
Print Assumptions enum_value_out_of_range_refuted.
Example enum_nonvacuous : exists vals, enum_values Type_altitudeMode = Some vals /\ length vals = 3%nat /\
  enum_id Type_altitudeMode (S_ "absolute") = 2%Z.
Proof. eexists. vm_compute. repeat split. Qed.

(** C55. The debug name of a type is its enumerator for the types before gx:MultiTrack. *)
Theorem type_string_correct_below : forall t, t < 197 -> dom_type_to_string t = Ok (nth (N.to_nat t) dom_types []).
Proof. exact type_string_ok. Qed.
Print Assumptions type_string_correct_below.
(** C55. Refuted from there on: every later type gets another type's name or reads past the table. *)
Theorem type_string_wrong_refuted : forall t, 197 <= t <= Type_Invalid ->
  dom_type_to_string t <> Ok (nth (N.to_nat t) dom_types []).
Proof. exact type_string_wrong. Qed.
Print Assumptions type_string_wrong_refuted.
Theorem type_string_out_of_bounds_refuted : forall t, 210 <= t -> dom_type_to_string t = UB.
Proof. exact type_string_oob. Qed.
Print Assumptions type_string_out_of_bounds_refuted.
Example type_string_nonvacuous : Type_GxMultiTrack = 197 /\ Type_GxAltitudeMode = 208 /\ Type_GxCoord = 211.
Proof. repeat split. Qed.
