(** Properties of merging elements. *)
From Verif Require Import Common StrMap StringsModel ColorModel AttributesModel AttributesProofs XsdTables XsdModel XmlSpec XmlSpecProofs.
From Verif Require Import SerializerModel SerializerProofs CoordModel CoordProofs HandlerModel HandlerSpec HandlerProps.
From Verif Require Import DomTables DomModel DomSpec DomProofs DomProofs2 DomParsed DomVisit.
From Verif Require Import DomProps CloneModel CloneProofs MergeModel MergeProofs.
Local Open Scope N_scope.

(** The value of the field [f], the attribute [k], the coordinates of the element found by going from
    child to child as [p] says (types of elements, the first child of each type). *)
Definition value (p : list N) (f : N) (o : obj) : option str :=
  match at_path p o with Some x => option_map char_data (child f x) | None => None end.
Definition attribute (p : list N) (k : str) (o : obj) : option str :=
  match at_path p o with Some x => view (oka x) k | None => None end.
Definition tuples (p : list N) (o : obj) : option (list (str * str * str)) :=
  match at_path p o with Some x => Some (ovec x) | None => None end.
Definition over {A} (a b : option A) : option A := match a with Some v => Some v | None => b end.
Lemma at_path_app p q o : at_path (p ++ q) o = match at_path p o with Some x => at_path q x | None => None end.
Proof. revert o. induction p as [|ty p IH]; intros o; [reflexivity|]. cbn [app at_path]. destruct (child ty o); auto. Qed.
Lemma value_path p f o : value p f o = option_map char_data (at_path (p ++ [f]) o).
Proof. unfold value. rewrite at_path_app. destruct (at_path p o); [|reflexivity]. cbn [at_path]. now destruct (child f o0). Qed.
Lemma path_type p f o x : at_path (p ++ [f]) o = Some x -> oty x = f.
Proof.
  rewrite at_path_app. destruct (at_path p o) as [y|]; [|discriminate]. cbn [at_path]. destruct (child f y) as [c|] eqn:Ec; [|discriminate].
  intros H. inversion H; subst. now apply child_in in Ec.
Qed.

(** C31. For a source and a target made from distinct kinds of children ([mergeable]): the merge is
    defined, and at every depth every value and attribute is that of the source if the source has one,
    else that of the target; coordinates of the source replace those of the target. *)
Theorem merge_correct : forall E s t, numbers_stable E -> good E s -> good E t -> mergeable s t = true ->
  exists r, merge E s t = Some r /\ oty r = oty t /\
    (forall p f, is_simple f = true -> value p f r = over (value p f s) (value p f t)) /\
    (forall p k, attribute p k r = over (attribute p k s) (attribute p k t)) /\
    (forall p, tuples (p ++ [Type_coordinates]) r = over (tuples (p ++ [Type_coordinates]) s) (tuples (p ++ [Type_coordinates]) t)).
Proof.
  intros E s t HE Hs Ht Hm. destruct (merge_one E HE s t Hs Ht Hm) as (r & Hr & Hmd). exists r. split; auto. split; [exact (md_type _ _ _ _ Hmd)|].
  repeat split.
  - intros p f Hf. rewrite !value_path. pose proof (merge_path E HE (p ++ [f]) s t r Hs Ht Hm Hr) as H.
    destruct (at_path (p ++ [f]) s) as [x|] eqn:Ex; cbn [option_map over].
    + destruct (at_path (p ++ [f]) t) as [y|].
      * destruct H as (z & Hz & H). apply path_type in Ex. rewrite Ex, Hf in H. subst. now rewrite Hz.
      * now rewrite H.
    + now rewrite H.
  - intros p k. unfold attribute. pose proof (merge_path E HE p s t r Hs Ht Hm Hr) as H.
    destruct (at_path p s) as [x|] eqn:Ex; cbn [over].
    + destruct (at_path p t) as [y|] eqn:Ey.
      * destruct H as (z & Hz & H). rewrite Hz. destruct (is_simple (oty x)) eqn:Esx.
        -- subst z. destruct (view (oka x) k) eqn:Evx; [reflexivity|]. cbn [over].
           destruct (list_eq_dec N.eq_dec p []) as [->|Hne].
           { cbn [at_path] in Ex. inversion Ex; subst. pose proof (proj2 (proj2 Hs)). congruence. }
           destruct (exists_last Hne) as (q & f & ->). pose proof (path_type _ _ _ _ Ex) as T1. pose proof (path_type _ _ _ _ Ey) as T2.
           rewrite at_path_app in Ey. destruct (at_path q t) as [w|] eqn:Ew; [|discriminate]. cbn [at_path] in Ey. destruct (child f w) as [c|] eqn:Ec; [|discriminate].
           inversion Ey; subst c. apply child_in in Ec as (_ & l & Hl & Hy).
           assert (Hw : wf E y = true /\ cloneable E y = true).
           { assert (G : forall q o w, good E o -> at_path q o = Some w -> forall l c, In l (oslots w) -> In c l -> wf E c = true /\ cloneable E c = true).
             { clear. induction q as [|ty q IH]; intros o w Ho Hw l c Hl Hc; cbn [at_path] in Hw.
               - inversion Hw; subst. exact (good_in E w l c Ho Hl Hc).
               - destruct (child ty o) as [d|] eqn:Ed; [|discriminate]. apply child_in in Ed as (Hty & l' & Hl' & Hd). destruct (is_simple (oty d)) eqn:Es.
                 + destruct (good_in E o l' d Ho Hl' Hd) as [W1 W2]. pose proof (wf_field E d W1 W2 Es) as Hf.
                   assert (w = d \/ at_path q d = None) as [->|Hn].
                   { destruct q; [left; cbn in Hw; congruence|right]. cbn [at_path]. unfold child. now rewrite Hf. }
                   * rewrite Hf in Hl. destruct Hl.
                   * congruence.
                 + exact (IH d w (good_child E o l' d Ho Hl' Hd Es) Hw l c Hl Hc). }
             exact (G q t w Ht Ew l y Hl Hy). }
           rewrite (wf_field E y (proj1 Hw) (proj2 Hw)); [reflexivity|]. now rewrite T2, <- T1.
        -- destruct H as (_ & _ & _ & H). now rewrite (md_atts _ _ _ _ H k).
      * rewrite H. now destruct (view (oka x) k).
    + now rewrite H.
  - intros p. unfold tuples. pose proof (merge_path E HE (p ++ [Type_coordinates]) s t r Hs Ht Hm Hr) as H.
    destruct (at_path (p ++ [Type_coordinates]) s) as [x|] eqn:Ex; cbn [over].
    + destruct (at_path (p ++ [Type_coordinates]) t) as [y|] eqn:Ey.
      * destruct H as (z & Hz & H). rewrite Hz. pose proof (path_type _ _ _ _ Ex) as T1. pose proof (path_type _ _ _ _ Ey) as T2. rewrite T1 in H.
        change (is_simple Type_coordinates) with false in H. destruct H as (_ & _ & _ & H). rewrite (md_vec _ _ _ _ H), T2. reflexivity.
      * now rewrite H.
    + now rewrite H.
Qed.
Print Assumptions merge_correct.
(** Merging an element into a copy of itself changes no value. *)
Theorem merge_same : forall E s, numbers_stable E -> good E s -> distinct s = true ->
  exists r, merge E s s = Some r /\ oty r = oty s /\
    (forall p f, is_simple f = true -> value p f r = value p f s) /\ (forall p k, attribute p k r = attribute p k s) /\
    (forall p, tuples (p ++ [Type_coordinates]) r = tuples (p ++ [Type_coordinates]) s).
Proof.
  intros E s HE Hs Hd. destruct (merge_correct E s s HE Hs Hs (distinct_self E s Hs Hd)) as (r & H1 & H2 & H3 & H4 & H5).
  exists r. repeat split; auto; intros.
  - rewrite H3 by auto. now destruct (value p f s).
  - rewrite H4. now destruct (attribute p k s).
  - rewrite H5. now destruct (tuples (p ++ [Type_coordinates]) s).
Qed.
Print Assumptions merge_same.
Definition read (s : str) : option obj := match read_kml E0 s with Ok (Some o) => Some o | _ => None end.
Definition merge_text (a b : str) : option str :=
  match read a, read b with
  | Some s, Some t => match merge E0 s t with Some r => match write_raw r with Ok w => Some w | _ => None end | None => None end
  | _, _ => None
  end.
Definition goodb (E : env) (o : obj) : bool := wf E o && cloneable E o && negb (is_simple (oty o)).
Lemma goodb_good E o : goodb E o = true -> good E o.
Proof. unfold goodb. rewrite !andb_true_iff, negb_true_iff. intros ((H1 & H2) & H3). repeat split; auto. Qed.
(** The hypotheses hold of ordinary styles and placemarks. *)
Example merge_sample : exists s t, 
  read (S_ "<Placemark id=""a""><name>s</name><Style id=""q""><LineStyle><color>ff0000ff</color></LineStyle></Style><Point><coordinates>1,2,3</coordinates></Point></Placemark>") = Some s /\
  read (S_ "<Placemark id=""b""><name>t</name><visibility>0</visibility><Style><LineStyle><color>ff00ffff</color><width>4</width></LineStyle><PolyStyle><fill>0</fill></PolyStyle></Style><Point><extrude>1</extrude><coordinates>4,5,6</coordinates></Point></Placemark>") = Some t /\
  goodb E0 s && goodb E0 t && mergeable s t && distinct s = true /\
  merge_text (S_ "<Placemark id=""a""><name>s</name><Style id=""q""><LineStyle><color>ff0000ff</color></LineStyle></Style><Point><coordinates>1,2,3</coordinates></Point></Placemark>")
    (S_ "<Placemark id=""b""><name>t</name><visibility>0</visibility><Style><LineStyle><color>ff00ffff</color><width>4</width></LineStyle><PolyStyle><fill>0</fill></PolyStyle></Style><Point><extrude>1</extrude><coordinates>4,5,6</coordinates></Point></Placemark>")
  = Some (S_ "<Placemark id=""a""><name>s</name><visibility>0</visibility><Style id=""q""><LineStyle><color>ff0000ff</color><width>4</width></LineStyle><PolyStyle><fill>0</fill></PolyStyle></Style><Point><extrude>1</extrude><coordinates>1,2,3
</coordinates></Point></Placemark>").
Proof.
  match goal with |- exists s t, read ?a = _ /\ read ?b = _ /\ _ => destruct (read a) as [s|] eqn:Es; [|vm_compute in Es; discriminate]; destruct (read b) as [t|] eqn:Et; [|vm_compute in Et; discriminate] end.
  exists s, t. split; [reflexivity|]. split; [reflexivity|]. split.
  - vm_compute in Es. vm_compute in Et. inversion Es. inversion Et. vm_compute. reflexivity.
  - vm_compute. reflexivity.
Qed.
(** The text of a Snippet is not merged. *)
Theorem merge_text_refuted :
  merge_text (S_ "<Placemark><Snippet>new</Snippet></Placemark>") (S_ "<Placemark><Snippet>old</Snippet></Placemark>")
  = Some (S_ "<Placemark><Snippet>old</Snippet></Placemark>").
Proof. vm_compute. reflexivity. Qed.
Print Assumptions merge_text_refuted.
(** Two children of one type are both merged into the first child of that type of the target. *)
Theorem merge_pairs_refuted :
  merge_text (S_ "<StyleMap><Pair><key>normal</key><styleUrl>#n</styleUrl></Pair><Pair><key>highlight</key><styleUrl>#h</styleUrl></Pair></StyleMap>")
    (S_ "<StyleMap><Pair><key>normal</key><styleUrl>#a</styleUrl></Pair><Pair><key>highlight</key><styleUrl>#b</styleUrl></Pair></StyleMap>")
  = Some (S_ "<StyleMap><Pair><key>highlight</key><styleUrl>#h</styleUrl></Pair><Pair><key>highlight</key><styleUrl>#b</styleUrl></Pair></StyleMap>").
Proof. vm_compute. reflexivity. Qed.
Print Assumptions merge_pairs_refuted.
(** Points of a track are added to those of the target: merging a track into a copy of itself doubles it. *)
Theorem merge_track_refuted :
  merge_text (S_ "<gx:Track><when>a</when><gx:coord>1 2 3</gx:coord></gx:Track>") (S_ "<gx:Track><when>a</when><gx:coord>1 2 3</gx:coord></gx:Track>")
  <> Some (S_ "<gx:Track><when>a</when><gx:coord>1 2 3</gx:coord></gx:Track>") /\
  merge_text (S_ "<gx:Track><when>a</when></gx:Track>") (S_ "<gx:Track><when>a</when></gx:Track>")
  = Some (S_ "<gx:Track><when>a</when><when>a</when></gx:Track>").
Proof. split; [vm_compute; discriminate|]. vm_compute. reflexivity. Qed.
Print Assumptions merge_track_refuted.
