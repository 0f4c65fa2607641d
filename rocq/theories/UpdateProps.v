(** Properties of updates. *)
From Verif Require Import Common StrMap StringsModel ColorModel AttributesModel AttributesProofs XsdTables XsdModel XmlSpec XmlSpecProofs.
From Verif Require Import SerializerModel SerializerProofs CoordModel CoordProofs HandlerModel HandlerSpec HandlerProps.
From Verif Require Import DomTables DomModel DomSpec DomProofs DomProofs2 DomParsed DomProps CloneModel CloneProofs MergeModel MergeProofs MergeProps.
From Verif Require Import FileProofs IdModel IdProofs IdProps UpdateModel UpdateProofs.
Local Open Scope N_scope.

(** The map of a file gives for every id the one element with it. *)
Definition knows (m : list (str * address)) (o : obj) : Prop := forall id p, mget id m = Some p <-> id_at o p = Some id.
Definition opened (o : obj) (m : list (str * address)) : file := (o, map (fun e => (fst e, Here (snd e))) m).
Lemma mget_opened m id : mget id (map (fun e : str * address => (fst e, Here (snd e))) m) = option_map Here (mget id m).
Proof. induction m as [|[k v] m IH]; [reflexivity|]. cbn [map mget fst snd]. destruct (eqs id k); [reflexivity|exact IH]. Qed.

(** Elements which were read are [kml_ok]. *)
Lemma wf_at E p : forall o x, wf E o = true -> at_address o p = Some x -> wf E x = true.
Proof.
  induction p as [|[i j] p IH]; intros o x Hw Hx; cbn [at_address] in Hx; [congruence|].
  destruct (nth_error (nth i (lists o) []) j) as [c|] eqn:Ec; [|discriminate]. apply (IH c x); [|exact Hx]. pose proof (nth_lists_lt o i j c Ec) as Hi.
  apply nth_error_In in Ec. destruct o as [ty ka ea tx vec sl mis unk]. unfold lists in *. cbn [oslots omis] in *. cbn [wf] in Hw. rewrite app_length in Hi. cbn [length] in Hi.
  assert (Hb : forallb (forallb (wf E)) sl = true /\ forallb (wf E) mis = true).
  { destruct (is_simple ty); rewrite !andb_true_iff in Hw.
    - destruct Hw as [[_ Hw] Hm]. split; [|exact Hm]. apply nilb_eq in Hw. now rewrite Hw.
    - tauto. }
  destruct Hb as [Hsl Hmis]. destruct (Nat.lt_ge_cases i (length sl)) as [H|H].
  - rewrite app_nth1 in Ec by auto. rewrite forallb_forall in Hsl. specialize (Hsl _ (nth_In sl [] H)). rewrite forallb_forall in Hsl. now apply Hsl.
  - rewrite app_nth2 in Ec by auto. replace (i - length sl)%nat with 0%nat in Ec by lia. cbn [nth] in Ec. rewrite forallb_forall in Hmis. now apply Hmis.
Qed.
Lemma wf_kml E o : wf E o = true -> kml_ok o.
Proof.
  intros Hw q Hq. unfold type_of in Hq. destruct (at_address o q) as [y|] eqn:Ey; [|discriminate]. cbn [option_map] in Hq. inversion Hq as [Ht]. clear Hq.
  pose proof (wf_at E q o y Hw Ey) as Hy. assert (Hs : slots_wf E Type_kml 0 (c_slots (cls Type_kml)) (oslots y) = true).
  { destruct y as [ty ka ea tx vec sl mis unk]. cbn [oty oslots] in *. subst ty. cbn [wf] in Hy. change (is_simple Type_kml) with false in Hy. cbn [andb] in Hy. rewrite !andb_true_iff in Hy. tauto. }
  pose proof (slots_wf_length _ _ _ _ _ Hs) as Hl. change (length (c_slots (cls Type_kml))) with 2%nat in Hl.
  assert (Hn0 : exists s, nth_error (c_slots (cls Type_kml)) 0 = Some s /\ s_kind s = KChild) by (eexists; split; vm_compute; reflexivity).
  assert (Hn1 : exists s, nth_error (c_slots (cls Type_kml)) 1 = Some s /\ s_kind s = KChild) by (eexists; split; vm_compute; reflexivity).
  destruct Hn0 as (s0 & Hn0 & Hk0), Hn1 as (s1 & Hn1 & Hk1). pose proof (slots_wf_nth _ _ _ _ _ _ _ Hs Hn0) as W0. pose proof (slots_wf_nth _ _ _ _ _ _ _ Hs Hn1) as W1. cbn [Nat.add] in W0, W1.
  unfold slot_wf in W0, W1. rewrite Hk0 in W0. rewrite Hk1 in W1. apply andb_true_iff in W0 as [_ W0], W1 as [W1 _]. apply Nat.leb_le in W0.
  repeat split.
  - intros j. unfold type_of. rewrite (at_child _ _ y) by (auto; lia). destruct (nth_error (nth 0 (oslots y) []) (S j)) eqn:En; [|reflexivity]. assert (S j < length (nth 0 (oslots y) []))%nat by (apply nth_error_Some; congruence). lia.
  - intros j t Ht'. unfold type_of in Ht'. rewrite (at_child _ _ y) in Ht' by (auto; lia). destruct (nth_error (nth 1 (oslots y) []) j) as [c|] eqn:En; [|discriminate]. cbn [option_map] in Ht'. inversion Ht'; subst t.
    apply nth_error_In in En. rewrite forallb_forall in W1. specialize (W1 _ En). destruct (is_a (oty c) Type_Feature) eqn:Ef; [|reflexivity]. exfalso.
    assert (Hf : exists s, find_slot (oty c) (c_slots (cls Type_kml)) 0 = Some (0%nat, s)); [|destruct Hf as (s & Hf); rewrite Hf in W1; discriminate].
    assert (Hc : exists s r, c_slots (cls Type_kml) = s :: r /\ forall ty, takes ty s = is_a ty Type_Feature) by (do 2 eexists; split; [vm_compute; reflexivity|intros; apply orb_false_r]).
    destruct Hc as (s & r & -> & Hc). cbn [find_slot]. rewrite Hc, Ef. eauto.
  - intros y' Hy'. congruence.
Qed.

(** C36. Deleting by ids, in a file which was read and whose ids are distinct: nothing undefined happens; an element is
    still there (found by [g] at its new place, saying the same as before) unless it is, or is in, a feature with one of the
    ids in a container or in kml; parents and the order of children are kept. *)
Theorem delete_correct : forall E o m id_map l, wf E o = true -> knows m o ->
  exists o' m' g, process_delete id_map l (opened o m) = Ok (o', m') /\
    (forall r, says o' r = says o (g r)) /\ orderly g /\
    (forall p, (exists r, g r = p) <->
       ~ exists c id d r, In c l /\ target_id id_map c = Some id /\ id_at o d = Some id /\ deletable o d /\ p = d ++ r).
Proof.
  intros E o m id_map l Hw Hk.
  assert (Hc : consistent (opened o m)).
  { unfold opened. constructor; cbn [fst snd].
    - intros id p H. rewrite mget_opened in H. destruct (mget id m) eqn:Em; [|discriminate]. cbn [option_map] in H. inversion H; subst. now apply Hk.
    - intros id p H. rewrite mget_opened. apply Hk in H. rewrite H. now right.
    - intros id H. rewrite mget_opened in H. destruct (mget id m); discriminate.
    - intros id q H. rewrite mget_opened in H. destruct (mget id m); discriminate.
    - exact (wf_kml E o Hw). }
  assert (Hkn : forall id p, In id (flat_map (fun c => match target_id id_map c with Some id => [id] | None => [] end) l) -> id_at (fst (opened o m)) p = Some id -> mget id (snd (opened o m)) <> None).
  { intros id p _ Hp. unfold opened. cbn [fst snd] in *. rewrite mget_opened. apply Hk in Hp. rewrite Hp. discriminate. }
  assert (Hp : forall f, process_delete id_map l f = delete_all (flat_map (fun c => match target_id id_map c with Some id => [id] | None => [] end) l) f).
  { clear. induction l as [|c l IH]; intros f; [reflexivity|]. cbn [process_delete flat_map]. destruct (target_id id_map c) as [id|]; cbn [app delete_all bind]; [|apply IH]. destruct (delete_by_id id f); cbn [bind]; auto. }
  rewrite Hp. destruct (delete_all_spec (flat_map (fun c => match target_id id_map c with Some id => [id] | None => [] end) l) _ Hc Hkn) as ([o' m'] & g & H1 & _ & H3 & H4 & H5). exists o', m', g. split; [exact H1|]. split; [exact H4|]. split; [exact H3|].
  intros p. rewrite H5. cbn [fst opened]. assert (Hd : doomed o (flat_map (fun c => match target_id id_map c with Some id => [id] | None => [] end) l) p <->
    exists c id d r, In c l /\ target_id id_map c = Some id /\ id_at o d = Some id /\ deletable o d /\ p = d ++ r); [|tauto]. unfold doomed. split.
  - intros (id & d & r & Hin & H). apply in_flat_map in Hin as (c & Hc1 & Hc2). destruct (target_id id_map c) as [i|] eqn:Et; [|destruct Hc2]. destruct Hc2 as [<-|[]]. exists c, i, d, r. tauto.
  - intros (c & id & d & r & Hin & Ht & H). exists id, d, r. split; [|exact H]. apply in_flat_map. exists c. rewrite Ht. split; [exact Hin|now left].
Qed.
Print Assumptions delete_correct.

(** All addresses of a tree; [knows] can be decided. *)
Fixpoint addresses (o : obj) : list address :=
  let 'Obj _ _ _ _ _ sl mis _ := o in
  [] :: flat_map (fun e => IdModel.steps (fst e) (snd e)) (numbered (map (map addresses) sl ++ [map addresses mis])).
Lemma addresses_all p : forall o x, at_address o p = Some x -> In p (addresses o).
Proof.
  induction p as [|[i j] p IH]; intros o x Hx; destruct o as [ty ka ea tx vec sl mis unk]; cbn [addresses]; [now left|]. right. cbn [at_address] in Hx.
  destruct (nth_error (nth i (lists (Obj ty ka ea tx vec sl mis unk)) []) j) as [c|] eqn:Ec; [|discriminate]. pose proof (nth_lists_lt _ _ _ _ Ec) as Hi. unfold lists in *. cbn [oslots omis] in *.
  apply in_flat_map. exists (i, map addresses (nth i (sl ++ [mis]) [])). split.
  - apply numbered_nth. change ([map addresses mis]) with (map (map addresses) [mis]). rewrite <- map_app, nth_error_map. rewrite (nth_error_nth' _ [] Hi). reflexivity.
  - cbn [fst snd]. apply in_steps. exists j, (addresses c), p. split; [|split; [exact (IH c x Hx)|reflexivity]]. rewrite nth_error_map, Ec. reflexivity.
Qed.
Definition addr_eqb (p q : address) : bool := if addr_dec p q then true else false.
Definition knowsb (m : list (str * address)) (o : obj) : bool :=
  forallb (fun e => match id_at o (snd e) with Some id => eqs id (fst e) | None => false end) m &&
  forallb (fun p => match id_at o p with Some id => match mget id m with Some q => addr_eqb q p | None => false end | None => true end) (addresses o).
Lemma knowsb_knows m o : knowsb m o = true -> knows m o.
Proof.
  unfold knowsb. rewrite andb_true_iff, !forallb_forall. intros [H1 H2] id p. split.
  - intros H. apply mget_in in H. specialize (H1 _ H). cbn [fst snd] in H1. destruct (id_at o p) as [i|]; [|discriminate]. apply eqs_spec in H1. congruence.
  - intros H. assert (Hin : In p (addresses o)). { unfold id_at in H. destruct (at_address o p) as [x|] eqn:Ex; [|discriminate]. exact (addresses_all p o x Ex). }
    specialize (H2 _ Hin). rewrite H in H2. destruct (mget id m) as [q|]; [|discriminate]. unfold addr_eqb in H2. destruct (addr_dec q p); [congruence|discriminate].
Qed.
Definition nested : obj := doc_obj (S_ "<kml><Document id=""d""><Folder id=""f""><Placemark id=""a""/><Placemark id=""b""><name>x</name></Placemark></Folder><Placemark id=""c""/></Document></kml>").
Definition targets (s : str) : list obj := match doc_obj s with Obj _ _ _ _ _ sl _ _ => concat sl end.
Definition text_of (o : obj) : option str := match write_raw o with Ok w => Some w | _ => None end.
Definition after_delete (o : obj) (s : str) : res (option str) := do f <- process_delete None (targets s) (opened o (map_ids o)); Ok (text_of (fst f)).
(** The hypotheses hold, and this is what is left after deleting a placemark in a folder and one in the document. *)
Example delete_sample : wf E0 nested = true /\ knows (map_ids nested) nested /\
  after_delete nested (S_ "<Delete><Placemark targetId=""a""/><Placemark targetId=""c""/><Placemark targetId=""none""/></Delete>")
  = Ok (Some (S_ "<kml><Document id=""d""><Folder id=""f""><Placemark id=""b""><name>x</name></Placemark></Folder></Document></kml>")).
Proof. split; [vm_compute; reflexivity|]. split; [apply knowsb_knows; vm_compute; reflexivity|]. vm_compute. reflexivity. Qed.

(** C36. With equal ids the first child with the id is removed though the last one was addressed; deleting a child of the one
    removed is then undefined. *)
Definition equal_ids : obj := doc_obj (S_ "<Document><Folder id=""a""><Placemark id=""b""/></Folder><Placemark id=""a""/></Document>").
Theorem delete_equal_ids_refuted :
  option_map (fun p => type_of equal_ids p) (mget (S_ "a") (map_ids equal_ids)) = Some (Some Type_Placemark) /\
  after_delete equal_ids (S_ "<Delete><Placemark targetId=""a""/></Delete>") = Ok (Some (S_ "<Document><Placemark id=""a""/></Document>")) /\
  after_delete equal_ids (S_ "<Delete><Placemark targetId=""a""/><Placemark targetId=""b""/></Delete>") = UB.
Proof. split; [vm_compute; reflexivity|]. split; vm_compute; reflexivity. Qed.
Print Assumptions delete_equal_ids_refuted.
(** C36. A feature in a place where no feature is expected stays. *)
Theorem delete_misplaced_refuted : exists o id p, wf E0 o = true /\ knows [(id, p)] o /\ type_of o p = Some Type_Placemark /\
  exists w, text_of o = Some w /\ (do f <- process_delete None (targets (S_ "<Delete><Placemark targetId=""x""/></Delete>")) (opened o [(id, p)]); Ok (text_of (fst f))) = Ok (Some w) /\ id = S_ "x".
Proof.
  exists (doc_obj (S_ "<Placemark><Placemark id=""x""/></Placemark>")), (S_ "x"). exists [(18%nat, 0%nat)]. split; [vm_compute; reflexivity|]. split; [apply knowsb_knows; vm_compute; reflexivity|]. split; [vm_compute; reflexivity|].
  eexists. split; [vm_compute; reflexivity|]. split; [vm_compute; reflexivity|reflexivity].
Qed.
Print Assumptions delete_misplaced_refuted.

(** C81. A change of the object [t] with the target id: it has the values, attributes and coordinates of [s] where [s] has
    them and its own elsewhere, and no targetId; elements which are not in [t] say what they said. *)
Lemma child_clear f r : child f (clear_targetid r) = child f r. Proof. now destruct r. Qed.
Lemma path_clear ty p r : at_path (ty :: p) (clear_targetid r) = at_path (ty :: p) r. Proof. cbn [at_path]. now rewrite child_clear. Qed.
Lemma at_change_self p f : forall o x, at_address o p = Some x -> at_address (change_at p f o) p = Some (f x).
Proof. intros o x H. pose proof (at_change_below p f o x [] H) as G. rewrite app_nil_r in G. exact G. Qed.
Theorem change_correct : forall E o m id_map s id p t, numbers_stable E ->
  target_id id_map s = Some id -> mget id m = Some p -> at_address o p = Some t -> good E s -> good E t -> mergeable s t = true ->
  exists o' r, change_object E id_map s (opened o m) = Some o' /\ at_address o' p = Some r /\ oty r = oty t /\
    (forall w f, is_simple f = true -> value w f r = over (value w f s) (value w f t)) /\
    (forall w k, attribute w k r = if eqs k (S_ "targetId") && match w with [] => true | _ => false end then None else over (attribute w k s) (attribute w k t)) /\
    (forall w, tuples (w ++ [Type_coordinates]) r = over (tuples (w ++ [Type_coordinates]) s) (tuples (w ++ [Type_coordinates]) t)) /\
    (forall q, under p q = None -> says o' q = says o q).
Proof.
  intros E o m id_map s id p t HE Hid Hm Ht Hs Hgt Hmg. destruct (merge_correct E s t HE Hs Hgt Hmg) as (r & Hr & Hty & Hv & Ha & Hc).
  exists (change_at p (fun _ => clear_targetid r) o), (clear_targetid r). split.
  { unfold change_object, opened. cbn [fst snd]. rewrite Hid, mget_opened, Hm. cbn [option_map]. now rewrite Ht, Hr. }
  split; [now apply (at_change_self p (fun _ => clear_targetid r) o t)|]. split; [now destruct r|]. split.
  { intros w f Hf. rewrite <- Hv by exact Hf. destruct w as [|ty w]; unfold value; [cbn [at_path]; now rewrite child_clear|now rewrite path_clear]. }
  split.
  { intros w k. destruct w as [|ty w].
    - rewrite andb_true_r. rewrite <- Ha. unfold attribute. cbn [at_path]. unfold clear_targetid. destruct r as [rt ka ea tx vec sl mis unk]. cbn [set_ka oka]. unfold view, find_value. generalize (S_ "targetId") as K. intros K. now rewrite mget_mdel.
    - rewrite andb_false_r. rewrite <- Ha. unfold attribute. now rewrite path_clear. }
  split.
  { intros w. rewrite <- Hc. destruct w as [|ty w]; unfold tuples; cbn [app]; now rewrite path_clear. }
  intros q Hq. now apply says_change_other.
Qed.
Print Assumptions change_correct.
(** Nothing happens without a target id, without a new name for it, or with an unknown one. *)
Theorem change_unknown : forall E o m id_map s, match target_id id_map s with Some id => mget id m = None | None => True end -> change_object E id_map s (opened o m) = Some o.
Proof.
  intros E o m id_map s H. unfold change_object, opened. cbn [fst snd]. destruct (target_id id_map s) as [id|]; [|reflexivity]. now rewrite mget_opened, H.
Qed.
Print Assumptions change_unknown.
(** C81. The id asked for is the targetId, or what the given map has for it; an id not in the map is not looked for. *)
Theorem target_id_spec : forall id_map s id, target_id id_map s = Some id <->
  is_a (oty s) Type_Object = true /\ exists t, find_value (S_ "targetId") (oka s) = Some t /\
    match id_map with None => id = t | Some m => mget t m = Some id end.
Proof.
  intros id_map s id. unfold target_id, target_of. destruct (is_a (oty s) Type_Object).
  2:{ split; [discriminate|intros [H _]; discriminate]. }
  destruct (find_value (S_ "targetId") (oka s)) as [t|].
  2:{ split; [discriminate|intros [_ (t & H & _)]; discriminate]. }
  split.
  - intros H. split; [reflexivity|]. exists t. split; [reflexivity|]. destruct id_map; [exact H|congruence].
  - intros [_ (t' & H & H')]. assert (t' = t) by congruence. subst t'. destruct id_map; [exact H'|congruence].
Qed.
Print Assumptions target_id_spec.
Theorem update_not_in_map : forall E o m ids s t, find_value (S_ "targetId") (oka s) = Some t -> mget t ids = None ->
  change_object E (Some ids) s (opened o m) = Some o /\ create_in E (Some ids) s (opened o m) = Some (opened o m) /\
  process_delete (Some ids) [s] (opened o m) = Ok (opened o m).
Proof.
  intros E o m ids s t Ht Hm.
  assert (N : target_id (Some ids) s = None).
  { destruct (target_id (Some ids) s) as [id|] eqn:Hid; [|reflexivity]. apply target_id_spec in Hid as [_ (t' & H1 & H2)]. congruence. }
  split; [|split].
  - unfold change_object. now rewrite N.
  - unfold create_in. now rewrite N.
  - cbn [process_delete]. now rewrite N.
Qed.
Print Assumptions update_not_in_map.
Definition after_change (o : obj) (s : str) : option (option str) := option_map text_of (change_object E0 None (doc_obj s) (opened o (map_ids o))).
Example change_sample :
  goodb E0 (doc_obj (S_ "<Placemark targetId=""b""><name>new</name><visibility>0</visibility></Placemark>")) = true /\
  after_change nested (S_ "<Placemark targetId=""b""><name>new</name><visibility>0</visibility></Placemark>")
  = Some (Some (S_ "<kml><Document id=""d""><Folder id=""f""><Placemark id=""a""/><Placemark id=""b""><name>new</name><visibility>0</visibility></Placemark></Folder><Placemark id=""c""/></Document></kml>")).
Proof. split; vm_compute; reflexivity. Qed.

(** C82. Creating in the container [t] with the target id: it has its own features and then those of [s], all else of it and
    all other elements are as they were. *)
Lemma copy_all_good E l : Forall (good E) l -> copy_all E l = Some l.
Proof. induction 1 as [|c l (H1 & H2 & H3) Hl IH]; [reflexivity|]. cbn [copy_all]. now rewrite (clone_equal E c H1 H2 H3), IH. Qed.
Theorem create_correct : forall E o m id_map s id p t i, 
  target_id id_map s = Some id -> mget id m = Some p -> at_address o p = Some t -> is_a (oty t) Type_Container = true ->
  index_of_key Type_Feature (c_slots (cls (oty t))) 0 = Some i -> (i < length (oslots t))%nat -> Forall (good E) (features s) ->
  exists o' t', create_in E id_map s (opened o m) = Some (o', snd (opened o m)) /\ at_address o' p = Some t' /\ self t' = self t /\ omis t' = omis t /\
    features t' = features t ++ features s /\ (forall k, k <> i -> nth k (oslots t') [] = nth k (oslots t) []) /\
    (forall q, under p q = None -> says o' q = says o q).
Proof.
  intros E o m id_map s id p t i Hid Hm Ht Hc Hi Hl Hg. exists (change_at p (add_features (features s)) o), (add_features (features s) t). split.
  { unfold create_in, opened. cbn [fst snd]. rewrite Hid, mget_opened, Hm. cbn [option_map]. rewrite Ht, Hc. now rewrite (copy_all_good E _ Hg). }
  split; [now apply at_change_self|]. unfold add_features, features at 2 3, slot_of. rewrite Hi. destruct t as [ty ka ea tx vec sl mis unk]. cbn [set_slots oty oslots omis] in *. 
  split; [unfold self; cbn [oty oka oea otext ovec ounk oslots]; now rewrite update_length'|]. split; [reflexivity|]. split.
  { unfold features, slot_of. cbn [oty oslots]. rewrite Hi. rewrite update_nth by exact Hl. now rewrite Nat.eqb_refl. }
  split; [|intros q Hq; now apply says_change_other]. intros k Hk. rewrite update_nth by exact Hl. destruct (Nat.eqb_spec k i); [congruence|reflexivity].
Qed.
Print Assumptions create_correct.

Definition after_create (o : obj) (s : str) : option (option str) := option_map (fun f => text_of (fst f)) (create_in E0 None (doc_obj s) (opened o (map_ids o))).
Example create_sample :
  forallb (goodb E0) (features (doc_obj (S_ "<Folder targetId=""f""><Placemark id=""n""><name>new</name></Placemark></Folder>"))) = true /\
  after_create nested (S_ "<Folder targetId=""f""><Placemark id=""n""><name>new</name></Placemark></Folder>")
  = Some (Some (S_ "<kml><Document id=""d""><Folder id=""f""><Placemark id=""a""/><Placemark id=""b""><name>x</name></Placemark><Placemark id=""n""><name>new</name></Placemark></Folder><Placemark id=""c""/></Document></kml>")).
Proof. split; vm_compute; reflexivity. Qed.
(** C82. A feature made by an update is not known by its id: a later operation on it does nothing. *)
Theorem created_unknown_refuted :
  exists f', create_in E0 None (doc_obj (S_ "<Folder targetId=""f""><Placemark id=""n""/></Folder>")) (opened nested (map_ids nested)) = Some f' /\
    existsb (fun p => match id_at (fst f') p with Some i => eqs i (S_ "n") | None => false end) (saved (fst f')) = true /\
    process_delete None (targets (S_ "<Delete><Placemark targetId=""n""/></Delete>")) f' = Ok f' /\
    change_object E0 None (doc_obj (S_ "<Placemark targetId=""n""><name>z</name></Placemark>")) f' = Some (fst f').
Proof. eexists. split; [vm_compute; reflexivity|]. split; [vm_compute; reflexivity|]. split; vm_compute; reflexivity. Qed.
Print Assumptions created_unknown_refuted.
