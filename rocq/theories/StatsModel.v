(** Model of kmldom::StatsSerializer (src/kml/dom/stats_serializer.h) on the elements of DomModel.v. *)
From Verif Require Import Common XsdTables SerializerModel DomTables DomModel FindModel.
Local Open Scope N_scope.

(** stats_serializer.h:86-91 the counters; the one of the members of groups is not modelled, that of the contents has no getter. *)
Record stats := { begin_count : nat; end_count : nat; field_count : nat; element_count : nat; content_count : nat }.
Definition stats0 : stats := {| begin_count := 0; end_count := 0; field_count := 0; element_count := 0; content_count := 0 |}.
(** SaveColor is called for these children (balloonstyle.cc:78,81, colorstyle.cc:62, liststyle.cc:139, overlay.cc:71), and StatsSerializer
    inherits the function that does nothing (serializer.h:94). *)
Definition color_type (ty : N) : bool := (ty =? Type_color) || (ty =? Type_bgColor) || (ty =? Type_textColor).
(** stats_serializer.h:50-61; SaveVec3 is SaveContent (serializer.cc:96-103). *)
Definition stats_call (s : stats) (c : call) : stats :=
  match c with
  | CBegin _ _ => {| begin_count := S (begin_count s); end_count := end_count s; field_count := field_count s; element_count := element_count s; content_count := content_count s |}
  | CEnd => {| begin_count := begin_count s; end_count := S (end_count s); field_count := field_count s; element_count := element_count s; content_count := content_count s |}
  | CField ty _ => if color_type ty then s else
      {| begin_count := begin_count s; end_count := end_count s; field_count := S (field_count s); element_count := element_count s; content_count := content_count s |}
  | CContent _ _ | CVec3 _ _ _ =>
      {| begin_count := begin_count s; end_count := end_count s; field_count := field_count s; element_count := element_count s; content_count := S (content_count s) |}
  | CColor _ _ | CIndent => s
  end.
(** Serialize of an element with a new StatsSerializer; SaveElement (stats_serializer.h:62-69) is called with the elements of FindModel. *)
Definition stats_of (o : obj) : stats :=
  let s := fold_left stats_call (calls (ser o)) stats0 in
  {| begin_count := begin_count s; end_count := end_count s; field_count := field_count s;
     element_count := length (get_child_elements o true); content_count := content_count s |}.
