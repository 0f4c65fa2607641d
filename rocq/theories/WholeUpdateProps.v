(** Properties of whole updates. *)
From Verif Require Import Common StrMap StringsModel ColorModel AttributesModel AttributesProofs XsdTables XsdModel XmlSpec XmlSpecProofs.
From Verif Require Import SerializerModel SerializerProofs CoordModel CoordProofs HandlerModel HandlerSpec HandlerProps.
From Verif Require Import DomTables DomModel DomSpec DomProofs DomProofs2 DomParsed DomProps CloneModel CloneProofs MergeModel MergeProofs MergeProps.
From Verif Require Import FileProofs IdModel IdProofs IdProps UpdateModel UpdateProofs UpdateProps WholeUpdateModel WholeUpdateProofs.
Local Open Scope N_scope.

(** What an update asks for, in order. *)
Inductive action := AChange (s : obj) | ACreate (s : obj) | ADelete (s : obj).
Definition source (a : action) : obj := match a with AChange s | ACreate s | ADelete s => s end.
Definition asked (op : obj) : list action :=
  if oty op =? Type_Change then map AChange (array Type_Object op)
  else if oty op =? Type_Create then map ACreate (array Type_Container op)
  else if oty op =? Type_Delete then map ADelete (array Type_Feature op)
  else [].
Definition actions (u : obj) : list action := flat_map asked (array Type_Create u).
(** One action on the document as it is: on the object with the id, if there is one. *)
Section Acts.
  Variable E : env.
  Definition changed (s : obj) (p : address) (t : obj) (o o' : obj) : Prop :=
    exists r, at_address o' p = Some r /\ oty r = oty t /\
      (forall w f, is_simple f = true -> value w f r = over (value w f s) (value w f t)) /\
      (forall w k, attribute w k r = if eqs k (S_ "targetId") && match w with [] => true | _ => false end then None else over (attribute w k s) (attribute w k t)) /\
      (forall w, tuples (w ++ [Type_coordinates]) r = over (tuples (w ++ [Type_coordinates]) s) (tuples (w ++ [Type_coordinates]) t)) /\
      (forall q, under p q = None -> says o' q = says o q).
  Definition created (s : obj) (p : address) (t : obj) (o o' : obj) : Prop :=
    exists t' i, at_address o' p = Some t' /\ self t' = self t /\ omis t' = omis t /\ slot_of Type_Feature t = Some i /\
      nth i (oslots t') [] = nth i (oslots t) [] ++ features s /\ (forall k, k <> i -> nth k (oslots t') [] = nth k (oslots t) []) /\
      (forall q, under p q = None -> says o' q = says o q).
  Definition deleted (p : address) (o o' : obj) : Prop :=
    exists g, orderly g /\ (forall r, says o' r = says o (g r)) /\ forall q, (exists r, g r = q) <-> under p q = None.
  Definition acts (id_map : option (list (str * str))) (a : action) (o o' : obj) : Prop :=
    match target_id id_map (source a) with
    | None => o' = o
    | Some id =>
        ((forall p, id_at o p <> Some id) /\ o' = o) \/
        exists p t, id_at o p = Some id /\ at_address o p = Some t /\
          match a with
          | AChange s => changed s p t o o'
          | ACreate s => if (oty t =? Type_Document) || (oty t =? Type_Folder) then created s p t o o' else o' = o
          | ADelete s => (deletable o p /\ deleted p o o') \/ (~ deletable o p /\ o' = o)
          end
    end.
  Fixpoint in_turn (id_map : option (list (str * str))) (l : list action) (o o' : obj) : Prop :=
    match l with [] => o' = o | a :: r => exists o1, acts id_map a o o1 /\ in_turn id_map r o1 o' end.
  (** The changes bring no ids; the ids of features made are new and not asked for; no kml is brought in. *)
  Definition fair (id_map : option (list (str * str))) (o : obj) (l : list action) (a : action) : Prop :=
    match a with
    | AChange s => good E s /\ idless s /\ kmlless s
    | ACreate s => forall c, In c (features s) -> good E c /\ kmlless c /\
        forall q id, id_at c q = Some id -> (forall p, id_at o p <> Some id) /\ forall a', In a' l -> target_id id_map (source a') <> Some id
    | ADelete _ => True
    end.
End Acts.

(** The model, action by action. *)
Definition one (E : env) (id_map : option (list (str * str))) (a : action) : file -> outcome :=
  match a with AChange s => change_one E id_map s | ACreate s => create_one E id_map s | ADelete s => delete_one id_map s end.
Lemma each_map {A B} (g : A -> B) k l : forall f, each k (map g l) f = each (fun a => k (g a)) l f.
Proof. induction l as [|a l IH]; intros f; [reflexivity|]. cbn [map each]. destruct (k (g a) f); cbn [after]; auto. Qed.
Lemma each_app {A} (k : A -> file -> outcome) l r : forall f, each k (l ++ r) f = after (each k l f) (each k r).
Proof. induction l as [|a l IH]; intros f; [reflexivity|]. cbn [app each]. destruct (k a f); cbn [after]; auto. Qed.
Lemma process_actions E id_map u f : process_update E id_map u f = each (one E id_map) (actions u) f.
Proof.
  unfold process_update, actions. revert f. induction (array Type_Create u) as [|op l IH]; intros f; [reflexivity|]. cbn [each flat_map]. rewrite each_app.
  assert (H : operation E id_map op f = each (one E id_map) (asked op) f).
  { unfold operation, asked. destruct (oty op =? Type_Change); [now rewrite each_map|]. destruct (oty op =? Type_Create); [now rewrite each_map|]. destruct (oty op =? Type_Delete); [now rewrite each_map|]. reflexivity. }
  rewrite H. destruct (each (one E id_map) (asked op) f); cbn [after]; auto.
Qed.

(** Containers have all their lists. *)
Definition is_container (ty : N) : bool := (ty =? Type_Document) || (ty =? Type_Folder).
Definition short_of (x : obj) : option unit := if is_container (oty x) && negb (length (oslots x) =? length (c_slots (cls (oty x))))%nat then Some tt else None.
Lemma container_slot ty : is_container ty = true -> is_simple ty = false /\ is_a ty Type_Container = true /\ exists i s, index_of_key Type_Feature (c_slots (cls ty)) 0 = Some i /\ nth_error (c_slots (cls ty)) i = Some s.
Proof. unfold is_container. rewrite orb_true_iff, !N.eqb_eq. intros [->| ->]; (split; [vm_compute; reflexivity|]; split; [vm_compute; reflexivity|]; do 2 eexists; split; vm_compute; reflexivity). Qed.
Lemma not_container ty : is_container ty = false -> is_a ty Type_Container = true -> c_slots (cls ty) = [].
Proof.
  intros H1 H. assert (Hb : ty = Type_Container \/ In ty (map fst bases)).
  { unfold is_a in H. apply orb_true_iff in H as [H|H]; [left; now apply N.eqb_eq|right]. destruct (lookup ty bases) as [l|] eqn:El; [|discriminate]. apply lookup_in in El. now apply (in_map fst) in El. }
  destruct Hb as [->|Hb]; [vm_compute; reflexivity|]. exfalso.
  assert (Hall : forallb (fun t => negb (is_a t Type_Container) || is_container t) (map fst bases) = true) by (vm_compute; reflexivity).
  rewrite forallb_forall in Hall. specialize (Hall ty Hb). rewrite H, H1 in Hall. discriminate.
Qed.
Lemma short_says o o' q q' : says o' q' = says o q -> look_at short_of o' q' = look_at short_of o q.
Proof.
  unfold says, look_at. destruct (at_address o q) as [x|], (at_address o' q') as [x'|]; cbn [option_map]; intros H; try discriminate; [|reflexivity].
  unfold self in H. injection H as H1 _ _ _ _ _ H2. unfold short_of. now rewrite H1, H2.
Qed.
Lemma good_fits E o : wf E o = true -> unseen short_of o.
Proof.
  intros Hw q. unfold look_at. destruct (at_address o q) as [x|] eqn:Ex; [|reflexivity]. pose proof (wf_at E q o x Hw Ex) as Hx. unfold short_of. destruct (is_container (oty x)) eqn:Ec; [|reflexivity]. cbn [andb].
  destruct (container_slot _ Ec) as (Hs & _). destruct x as [ty ka ea tx vec sl mis unk]. cbn [oty oslots] in *. cbn [wf] in Hx. rewrite Hs in Hx. rewrite !andb_true_iff in Hx. destruct Hx as (((((_ & _) & Hsl) & _) & _) & _).
  apply slots_wf_length in Hsl. rewrite Hsl, Nat.eqb_refl. reflexivity.
Qed.
Lemma merge_fits E s t r : numbers_stable E -> good E s -> good E t -> mergeable s t = true -> merge E s t = Some r -> unseen short_of r.
Proof.
  intros HE Hs Ht Hm Hr q. transitivity (look_at short_of t q); [|exact (good_fits E t (proj1 Ht) q)]. revert q. apply (merge_look E HE short_of) with (s := s); auto.
  - intros o H. unfold short_of. destruct (is_container (oty o)) eqn:Ec; [|reflexivity]. apply container_slot in Ec as (Ec & _). congruence.
  - clear. intros s t r Hty H Hn. unfold short_of in *. rewrite (md_type _ _ _ _ H), (md_len _ _ _ _ H). destruct (is_container (oty t)) eqn:Ec; [|reflexivity]. reflexivity.
  - exact (good_fits E s (proj1 Hs)).
Qed.
Lemma fits_change p f o t : at_address o p = Some t -> unseen short_of o -> unseen short_of (f t) -> unseen short_of (change_at p f o).
Proof.
  intros Ht Ho Hf q. destruct (under p q) as [r|] eqn:Eu.
  - apply under_spec in Eu. subst q. unfold look_at. rewrite (at_change_below p f o t r Ht). apply Hf.
  - rewrite (short_says o _ q q); [apply Ho|]. now apply says_change_other.
Qed.

(** ** The invariant *)
Record kept (o0 : obj) (C : str -> Prop) (f : file) : Prop := {
  k_cons : consistent f; k_one : one_kml (fst f); k_fit : unseen short_of (fst f);
  k_keys : forall id, mget id (snd f) = None <-> forall p, id_at o0 p <> Some id;
  k_ids : forall p id, id_at (fst f) p = Some id -> mget id (snd f) <> None \/ C id }.
Lemma kept_absent o0 C f id : kept o0 C f -> ~ C id -> (forall p, mget id (snd f) <> Some (Here p)) -> forall p, id_at (fst f) p <> Some id.
Proof. intros K HC Hm p Hp. destruct (k_ids _ _ _ K p id Hp) as [H|H]; [|tauto]. apply (c_complete f (k_cons _ _ _ K)) in Hp as [Hp|Hp]; [tauto|]. exact (Hm p Hp). Qed.
Lemma target_object o0 C f id p : kept o0 C f -> mget id (snd f) = Some (Here p) -> id_at (fst f) p = Some id /\ exists t, at_address (fst f) p = Some t /\ is_a (oty t) Type_Object = true /\ kmlless t.
Proof.
  intros K Hm. pose proof (c_sound f (k_cons _ _ _ K) id p Hm) as Hid. split; [exact Hid|]. pose proof Hid as H. unfold id_at in H. destruct (at_address (fst f) p) as [t|] eqn:Et; [|discriminate]. exists t. split; [reflexivity|].
  unfold id_of in H. destruct (is_a (oty t) Type_Object) eqn:Eo; [|discriminate]. split; [reflexivity|]. apply kmlless_types. intros q Hq. pose proof Hq as Hq'. rewrite <- (type_at_app _ _ _ _ Et) in Hq'. apply (k_one _ _ _ K) in Hq'. apply app_eq_nil in Hq' as [-> ->].
  unfold type_of in Hq. cbn [at_address option_map] in Hq. injection Hq as Hq. rewrite Hq in Eo. discriminate.
Qed.
Lemma id_clear t q : id_at (clear_targetid t) q = id_at t q.
Proof.
  destruct q as [|[i j] q].
  - unfold id_at. cbn [at_address]. destruct t as [ty ka ea tx vec sl mis unk]. unfold id_of, clear_targetid. cbn [set_ka oty oka]. destruct (is_a ty Type_Object); [|reflexivity]. unfold find_value. rewrite mget_mdel. reflexivity.
  - unfold id_at. cbn [at_address]. destruct t as [ty ka ea tx vec sl mis unk]. reflexivity.
Qed.
Lemma clear_unseen {A} (look : obj -> option A) t : (forall o ka, look (set_ka o ka) = look o) -> unseen look t -> unseen look (clear_targetid t).
Proof.
  intros Hk Hu [|[i j] q].
  - unfold look_at. cbn [at_address]. unfold clear_targetid. rewrite Hk. exact (Hu []).
  - specialize (Hu ((i, j) :: q)). unfold look_at in *. cbn [at_address] in *. destruct t as [ty ka ea tx vec sl mis unk]. exact Hu.
Qed.

Section Steps.
  Variable E : env.
  Hypothesis HE : numbers_stable E.
  Variable id_map : option (list (str * str)).
  Variable o0 : obj.
  Variable C : str -> Prop.
  Definition good_step (a : action) (f : file) (r : outcome) : Prop :=
    match r with
    | Done f' => kept o0 C f' /\ acts id_map a (fst f) (fst f')
    | Undefined => False
    | Outside => exists s, a = AChange s
    end.
  Lemma step_none a f : kept o0 C f -> target_id id_map (source a) = None -> good_step a f (Done f).
  Proof. intros K H. split; [exact K|]. unfold acts. now rewrite H. Qed.
  Lemma step_absent a f id : kept o0 C f -> target_id id_map (source a) = Some id -> ~ C id -> (forall p, mget id (snd f) <> Some (Here p)) -> good_step a f (Done f).
  Proof. intros K H HC Hm. split; [exact K|]. unfold acts. rewrite H. left. split; [|reflexivity]. now apply (kept_absent o0 C f id). Qed.
  Lemma change_step s f : kept o0 C f -> good E s -> idless s -> kmlless s -> (forall id, target_id id_map s = Some id -> ~ C id) -> good_step (AChange s) f (change_one E id_map s f).
  Proof.
    intros K Hs Hi Hk HC. unfold change_one. destruct (target_id id_map s) as [id|] eqn:Hid; [|now apply step_none].
    destruct (mget id (snd f)) as [[p|q| |]|] eqn:Hm; try (apply (step_absent (AChange s) f id); auto; intros p; congruence).
    destruct (target_object o0 C f id p K Hm) as (Hp & t & Ht & Hob & Hkt). rewrite Ht. destruct (goodb E t && mergeable s t) eqn:Eg; [|exists s; reflexivity].
    apply andb_true_iff in Eg as [Eg Hmg]. apply goodb_good in Eg. destruct f as [o m]. cbn [fst snd] in *.
    destruct (change_correct E o [(id, p)] id_map s id p t HE Hid ltac:(cbn [mget]; now rewrite eqs_refl) Ht Hs Eg Hmg) as (o' & r & Ho' & Hr & Hty & Hv & Ha & Hc & Hsay).
    unfold change_object in *. cbn [fst snd opened map mget] in *. rewrite Hid, eqs_refl in Ho'. rewrite Hid, Hm. rewrite Ht in *. destruct (merge E s t) as [t'|] eqn:Em; [|discriminate]. injection Ho' as Ho'. rewrite Ho'.
    assert (Hr' : r = clear_targetid t'). { rewrite <- Ho' in Hr. rewrite (at_change_self p _ o t Ht) in Hr. congruence. }
    pose proof (merge_ids E s t t' HE Hs Eg Hmg Hi Em) as Hids. pose proof (merge_kml E s t t' HE Hs Eg Hmg Hk Hkt Em) as Hkm. pose proof (merge_fits E s t t' HE Hs Eg Hmg Em) as Hft.
    destruct (change_consistent o m p t (fun _ => clear_targetid t') (k_cons _ _ _ K) (k_one _ _ _ K) Ht Hob) as (C1 & C2).
    { now rewrite <- Hr'. }
    { intros q i Hq. right. now rewrite id_clear, Hids in Hq. }
    { intros q i Hq. now rewrite id_clear, Hids. }
    { apply clear_unseen; [now intros []|exact Hkm]. }
    rewrite Ho' in C1, C2. split.
    - constructor; cbn [fst snd]; auto.
      + rewrite <- Ho'. apply (fits_change p _ o t Ht (k_fit _ _ _ K)). apply clear_unseen; [now intros []|exact Hft].
      + exact (k_keys _ _ _ K).
      + intros q i Hq. rewrite <- Ho' in Hq. destruct (under p q) as [w|] eqn:Eu.
        * apply under_spec in Eu. subst q. rewrite (id_change_below _ _ _ _ _ Ht), id_clear, Hids, <- (id_at_app _ _ _ _ Ht) in Hq. exact (k_ids _ _ _ K _ _ Hq).
        * rewrite id_change_other in Hq by exact Eu. exact (k_ids _ _ _ K _ _ Hq).
    - unfold acts. cbn [source fst]. rewrite Hid. right. exists p, t. split; [exact Hp|]. split; [exact Ht|]. exists r. split; [exact Hr|]. split; [exact Hty|]. split; [exact Hv|]. split; [exact Ha|]. split; [exact Hc|exact Hsay].
  Qed.
  (** Looking at a container with more features. *)
  Lemma add_look {A} (look : obj -> option A) l t i : (forall o v, length v = length (oslots o) -> look (set_slots o v) = look o) -> slot_of Type_Feature t = Some i -> (i < length (oslots t))%nat ->
    forall q, look_at look (add_features l t) q = look_at look t q \/
      (look_at look t q = None /\ exists c r, In c l /\ look_at look (add_features l t) q = look_at look c r).
  Proof.
    intros Hl Hi Hlt q. unfold add_features. rewrite Hi. destruct q as [|[k j] q].
    - left. unfold look_at. cbn [at_address]. apply Hl. apply update_length'.
    - rewrite !look_child, lists_slots by apply update_length'. destruct (Nat.ltb_spec k (length (oslots t))) as [Hk|Hk]; [|now left].
      rewrite update_nth by exact Hlt. rewrite lists_nth by exact Hk. destruct (Nat.eqb_spec k i) as [->|Hn]; [|now left].
      destruct (Nat.lt_ge_cases j (length (nth i (oslots t) []))) as [Hj|Hj]; [left; now rewrite nth_error_app1 by exact Hj|].
      rewrite nth_error_app2 by exact Hj. rewrite (proj2 (nth_error_None _ _) Hj). destruct (nth_error l _) as [c|] eqn:Ec; [|now left]. right. split; [reflexivity|]. exists c, q. apply nth_error_In in Ec. auto.
  Qed.
  Lemma change_same p : forall o, change_at p (fun y => y) o = o.
  Proof.
    induction p as [|[i j] p IH]; intros o; [reflexivity|]. cbn [change_at]. destruct (nth_error (nth i (lists o) []) j) as [c|] eqn:Ec; [|reflexivity].
    rewrite IH. assert (G : forall (A : Type) k (l : list A) v, nth_error l k = Some v -> set_nth k v l = l).
    { clear. intros A k l v. revert k. induction l as [|x l IH]; intros [|k] H; cbn [set_nth nth_error] in *; try discriminate; [congruence|]. now rewrite IH. }
    rewrite (G _ j _ c Ec). rewrite G by (apply nth_error_nth'; exact (nth_lists_lt o i j c Ec)). destruct o as [ty ka ea tx vec sl mis unk]. unfold set_lists, lists. cbn [oslots omis set_slots set_mis].
    rewrite firstn_app, Nat.sub_diag, firstn_all. cbn [firstn]. rewrite app_nil_r, app_nth2, Nat.sub_diag by lia. reflexivity.
  Qed.
  Lemma change_ext p f g : (forall y, f y = g y) -> forall o, change_at p f o = change_at p g o.
  Proof. intros H. induction p as [|[i j] p IH]; intros o; [apply H|]. cbn [change_at]. destruct (nth_error (nth i (lists o) []) j); [|reflexivity]. now rewrite IH. Qed.
  Lemma change_at_this p f g t : forall o, at_address o p = Some t -> f t = g t -> change_at p f o = change_at p g o.
  Proof.
    induction p as [|[i j] p IH]; intros o Ht H; cbn [at_address change_at] in *; [congruence|]. destruct (nth_error (nth i (lists o) []) j) as [c|]; [|reflexivity]. now rewrite (IH c Ht H).
  Qed.
  Lemma create_step s f : kept o0 C f ->
    (forall c, In c (features s) -> good E c /\ kmlless c /\ forall q id, id_at c q = Some id -> (forall p, id_at o0 p <> Some id) /\ C id) ->
    (forall id, target_id id_map s = Some id -> ~ C id) -> good_step (ACreate s) f (create_one E id_map s f).
  Proof.
    intros K Hs HC. unfold create_one, create_in. destruct (target_id id_map s) as [id|] eqn:Hid; [|now apply step_none].
    destruct (mget id (snd f)) as [[p|q| |]|] eqn:Hm; try (apply (step_absent (ACreate s) f id); auto; intros p; congruence).
    destruct (target_object o0 C f id p K Hm) as (Hp & t & Ht & Hob & Hkt). rewrite Ht. destruct f as [o m]. cbn [fst snd] in *.
    assert (Hsame : is_container (oty t) = false -> good_step (ACreate s) (o, m) (Done (o, m))).
    { intros Hn. split; [exact K|]. unfold acts. cbn [source fst]. rewrite Hid. right. exists p, t. split; [exact Hp|]. split; [exact Ht|]. unfold is_container in Hn. now rewrite Hn. }
    destruct (is_a (oty t) Type_Container) eqn:Ec.
    2:{ apply Hsame. destruct (is_container (oty t)) eqn:E'; [|reflexivity]. apply container_slot in E' as (_ & E' & _). congruence. }
    assert (Hgl : Forall (good E) (features s)) by (apply Forall_forall; intros c Hc; apply Hs; exact Hc).
    rewrite (copy_all_good E _ Hgl). destruct (is_container (oty t)) eqn:E'.
    2:{ rewrite (change_at_this p (add_features (features s)) (fun y => y) t o Ht), change_same; [now apply Hsame|]. unfold add_features, slot_of. rewrite (not_container _ E' Ec). reflexivity. }
    destruct (container_slot _ E') as (_ & _ & i & sl & Hi & Hn).
    assert (Hlen : length (oslots t) = length (c_slots (cls (oty t)))).
    { pose proof (k_fit _ _ _ K p) as Hf. unfold look_at in Hf. cbn [fst] in Hf. rewrite Ht in Hf. unfold short_of in Hf. rewrite E' in Hf. cbn [andb] in Hf. destruct (Nat.eqb_spec (length (oslots t)) (length (c_slots (cls (oty t))))); [assumption|discriminate]. }
    assert (Hlt : (i < length (oslots t))%nat) by (rewrite Hlen; apply nth_error_Some; congruence).
    destruct (create_correct E o [(id, p)] id_map s id p t i Hid ltac:(cbn [mget]; now rewrite eqs_refl) Ht Ec Hi Hlt Hgl) as (o' & t' & Ho' & Ht' & H1 & H2 & H3 & H4 & H5).
    unfold create_in in Ho'. cbn [fst snd opened map mget] in Ho'. rewrite Hid, eqs_refl, Ht, Ec, (copy_all_good E _ Hgl) in Ho'. injection Ho' as Ho'. rewrite Ho'.
    assert (Hnew : forall q i', id_at (add_features (features s) t) q = Some i' -> id_at t q = Some i' \/ (mget i' m = None /\ C i')).
    { intros q i' Hq. destruct (add_look id_of (features s) t i) with (q := q) as [H|(Hno & c & r & Hc & H)]; auto.
      - intros ob v _. now destruct ob.
      - left. change (look_at id_of t q = Some i'). rewrite <- H. exact Hq.
      - right. destruct (Hs c Hc) as (_ & _ & Hids). destruct (Hids r i') as [Hf Hcr]; [change (look_at id_of c r = Some i'); rewrite <- H; exact Hq|]. split; [|exact Hcr]. now apply (k_keys _ _ _ K). }
    assert (Hold : forall q i', id_at t q = Some i' -> id_at (add_features (features s) t) q = Some i').
    { intros q i' Hq. destruct (add_look id_of (features s) t i) with (q := q) as [H|(Hno & _)]; auto.
      - intros ob v _. now destruct ob.
      - change (look_at id_of (add_features (features s) t) q = Some i'). rewrite H. exact Hq.
      - change (look_at id_of t q = Some i') in Hq. congruence. }
    destruct (change_consistent o m p t (add_features (features s)) (k_cons _ _ _ K) (k_one _ _ _ K) Ht Hob) as (C1 & C2).
    { unfold add_features, slot_of. rewrite Hi. apply set_slots_ty. }
    { intros q i' Hq. apply Hnew in Hq. tauto. }
    { exact Hold. }
    { intros q. destruct (add_look kml_of (features s) t i) with (q := q) as [H|(Hno & c & r & Hc & H)]; auto.
      - intros ob v _. now destruct ob.
      - rewrite H. apply Hkt.
      - rewrite H. now apply (Hs c Hc). }
    rewrite Ho' in C1, C2. split.
    - constructor; cbn [fst snd]; auto.
      + rewrite <- Ho'. apply (fits_change p _ o t Ht (k_fit _ _ _ K)). intros q. destruct (add_look short_of (features s) t i) with (q := q) as [H|(Hno & c & r & Hc & H)]; auto.
        * intros ob v Hv. unfold short_of. rewrite set_slots_ty, set_slots_slots, Hv. reflexivity.
        * rewrite H. pose proof (k_fit _ _ _ K (p ++ q)) as Hf. unfold look_at in *. cbn [fst] in Hf. rewrite at_app, Ht in Hf. exact Hf.
        * rewrite H. apply (good_fits E c). apply (Hs c Hc).
      + exact (k_keys _ _ _ K).
      + intros q i' Hq. rewrite <- Ho' in Hq. destruct (under p q) as [w|] eqn:Eu.
        * apply under_spec in Eu. subst q. rewrite (id_change_below _ _ _ _ _ Ht) in Hq. apply Hnew in Hq as [Hq|[_ Hq]]; [|now right]. rewrite <- (id_at_app _ _ _ _ Ht) in Hq. exact (k_ids _ _ _ K _ _ Hq).
        * rewrite id_change_other in Hq by exact Eu. exact (k_ids _ _ _ K _ _ Hq).
    - unfold acts. cbn [source fst]. rewrite Hid. right. exists p, t. split; [exact Hp|]. split; [exact Ht|]. unfold is_container in E'. rewrite E'. exists t', i. split; [exact Ht'|]. split; [exact H1|]. split; [exact H2|]. split; [exact Hi|].
      split; [|split; [exact H4|exact H5]]. unfold features in H3. unfold slot_of in H3. assert (Htt : oty t' = oty t) by (unfold self in H1; now injection H1). rewrite Htt, Hi in H3. exact H3.
  Qed.
  Lemma orderly_nil g r : orderly g -> g r = [] -> r = [].
  Proof. intros (_ & h & H & _) Hr. destruct r as [|[i j] r _] using rev_ind; [reflexivity|]. rewrite H in Hr. apply app_eq_nil in Hr as [_ Hr]. discriminate. Qed.
  Lemma deletable_dec o p : deletable o p \/ ~ deletable o p.
  Proof.
    destruct p as [|[i j] p _] using rev_ind; [right; intros (q & i & j & _ & _ & Hq & _); destruct q; discriminate|].
    destruct (at_address o p) as [y|] eqn:Ey.
    2:{ right. intros (q0 & i0 & j0 & y & x & Hp & Hy & _). apply app_inj_tail in Hp as [<- _]. congruence. }
    destruct (at_address o (p ++ [(i, j)])) as [x|] eqn:Ex; [|right; intros (q0 & i0 & j0 & y0 & x & _ & _ & _ & _ & _ & Hx & _); congruence].
    destruct ((i <? length (oslots y))%nat && match index_of_key Type_Feature (c_slots (cls (oty y))) 0 with Some i1 => (i1 =? i)%nat | None => false end && (is_a (oty y) Type_Container || (oty y =? Type_kml)) && is_a (oty x) Type_Feature) eqn:Eb.
    - left. rewrite !andb_true_iff, orb_true_iff, Nat.ltb_lt, N.eqb_eq in Eb. destruct Eb as (((B1 & B2) & B3) & B4). destruct (index_of_key Type_Feature (c_slots (cls (oty y))) 0) as [i1|] eqn:Ei; [|discriminate]. apply Nat.eqb_eq in B2. subst i1.
      exists p, i, j, y, x. repeat split; auto.
    - right. intros (q0 & i0 & j0 & y0 & x0 & Hp & Hy & Hl & Hs & Ht & Hx & Hf). apply app_inj_tail in Hp as [<- Hp]. injection Hp as <- <-. assert (y0 = y) by congruence. assert (x0 = x) by congruence. subst.
      rewrite Hs, Nat.eqb_refl, Hf in Eb. apply Nat.ltb_lt in Hl. rewrite Hl in Eb. cbn [andb] in Eb. destruct Ht as [Ht|Ht]; rewrite Ht in Eb; [discriminate|]. rewrite N.eqb_refl, orb_true_r in Eb. discriminate.
  Qed.
  Lemma delete_step s f : kept o0 C f -> (forall id, target_id id_map s = Some id -> ~ C id) -> good_step (ADelete s) f (delete_one id_map s f).
  Proof.
    intros K HC. unfold delete_one. cbn [process_delete]. destruct (target_id id_map s) as [id|] eqn:Hid; [|cbn [bind]; now apply step_none].
    assert (Hkeep : (forall p, mget id (snd f) = Some (Here p) -> ~ deletable (fst f) p) -> good_step (ADelete s) f (match (do f' <- delete_by_id id f; Ok f') with Ok f' => Done f' | _ => Undefined end)).
    { intros Hn. rewrite (delete_keeps f id (k_cons _ _ _ K) Hn). cbn [bind]. destruct (mget id (snd f)) as [[p|q| |]|] eqn:Hm; try (apply (step_absent (ADelete s) f id); auto; intros p0; congruence).
      destruct (target_object o0 C f id p K Hm) as (Hp & t & Ht & _). split; [exact K|]. unfold acts. cbn [source]. rewrite Hid. right. exists p, t. split; [exact Hp|]. split; [exact Ht|]. right. split; [now apply Hn|reflexivity]. }
    destruct (mget id (snd f)) as [[p|q| |]|] eqn:Hm; try (apply Hkeep; intros p0; congruence).
    destruct (deletable_dec (fst f) p) as [Hd|Hd]; [|apply Hkeep; intros p0 Hp0; congruence]. clear Hkeep.
    assert (Hq : exists q i j, p = q ++ [(i, j)]) by (destruct Hd as (q & i & j & _ & _ & Hq & _); eauto). destruct Hq as (q & i & j & ->).
    destruct (delete_deletes f id q i j (k_cons _ _ _ K) Hm Hd) as (-> & y & Hy & Hi & Hk). cbn [bind]. pose proof (take_out_consistent f q i j y id (k_cons _ _ _ K) Hy Hi Hm Hk) as Hc1.
    destruct (target_object o0 C f id _ K Hm) as (Hp & t & Ht & _).
    assert (Hsay : forall r, says (fst (take_out q i j f)) r = says (fst f) (shift q i j r)) by (intros r; unfold take_out; cbn [fst]; now apply says_take_out with (y := y)).
    split.
    - constructor; auto.
      + intros r Hr. rewrite type_says, Hsay, <- type_says in Hr. apply (k_one _ _ _ K) in Hr. now apply (orderly_nil (shift q i j)); [apply shift_orderly|].
      + intros r. rewrite (short_says (fst f) _ (shift q i j r) r (Hsay r)). apply (k_fit _ _ _ K).
      + intros id0. rewrite <- (k_keys _ _ _ K). unfold take_out. cbn [snd]. rewrite mget_map. destruct (mget id0 (snd f)); cbn [option_map]; [split; discriminate|tauto].
      + intros r id0 Hr. rewrite id_says, Hsay, <- id_says in Hr. destruct (k_ids _ _ _ K _ _ Hr) as [H|H]; [left|now right]. unfold take_out. cbn [snd]. rewrite mget_map. destruct (mget id0 (snd f)); [discriminate|congruence].
    - unfold acts. cbn [source]. rewrite Hid. right. exists (q ++ [(i, j)]), t. split; [exact Hp|]. split; [exact Ht|]. left. split; [exact Hd|]. exists (shift q i j). split; [apply shift_orderly|]. split; [exact Hsay|]. intros r. apply shift_image.
  Qed.
End Steps.

(** C102. The operations of an update, in a file which was read and whose ids are distinct, act in turn, each on the object
    which has the id in the document as the operations before it left it; nothing undefined happens.  (Outside: a Change
    of a shape the models do not follow.) *)
Theorem update_in_turn : forall E o m id_map u, numbers_stable E -> wf E o = true -> knows m o -> one_kml o ->
  Forall (fair E id_map o (actions u)) (actions u) ->
  match process_update E id_map u (opened o m) with
  | Done f => in_turn id_map (actions u) o (fst f)
  | Undefined => False
  | Outside => exists s, In (AChange s) (actions u)
  end.
Proof.
  intros E o m id_map u HE Hw Hkn Hone Hfair. rewrite process_actions.
  set (C := fun id => exists s c q, In (ACreate s) (actions u) /\ In c (features s) /\ id_at c q = Some id).
  assert (K0 : kept o C (opened o m)).
  { constructor; unfold opened; cbn [fst snd]; auto.
    - constructor; cbn [fst snd].
      + intros id p H. rewrite mget_opened in H. destruct (mget id m) eqn:Em; [|discriminate]. cbn [option_map] in H. inversion H; subst. now apply Hkn.
      + intros id p H. rewrite mget_opened. apply Hkn in H. rewrite H. now right.
      + intros id H. rewrite mget_opened in H. destruct (mget id m); discriminate.
      + intros id q H. rewrite mget_opened in H. destruct (mget id m); discriminate.
      + exact (wf_kml E o Hw).
    - exact (good_fits E o Hw).
    - intros id. rewrite mget_opened. split.
      + intros H p Hp. apply Hkn in Hp. rewrite Hp in H. discriminate.
      + intros H. destruct (mget id m) as [p|] eqn:Em; [|reflexivity]. exfalso. apply (H p). now apply Hkn.
    - intros p id Hp. left. rewrite mget_opened. apply Hkn in Hp. rewrite Hp. discriminate. }
  assert (HC : forall a id, In a (actions u) -> target_id id_map (source a) = Some id -> ~ C id).
  { intros a id Ha Hid (s & c & q & Hs & Hc & Hq). rewrite Forall_forall in Hfair. specialize (Hfair _ Hs c Hc) as (_ & _ & H). destruct (H q id Hq) as [_ H']. exact (H' a Ha Hid). }
  assert (G : forall l f, (forall a, In a l -> In a (actions u)) -> kept o C f ->
    match each (one E id_map) l f with
    | Done f' => in_turn id_map l (fst f) (fst f')
    | Undefined => False
    | Outside => exists s, In (AChange s) (actions u)
    end).
  { induction l as [|a l IH]; intros f Hl K; [reflexivity|]. cbn [each]. assert (Ha : In a (actions u)) by (apply Hl; now left). rewrite Forall_forall in Hfair. pose proof (Hfair a Ha) as Hf.
    assert (Hstep : good_step id_map o C a f (one E id_map a f)).
    { destruct a as [s|s|s]; cbn [one].
      - destruct Hf as (F1 & F2 & F3). apply change_step; auto. intros id Hid. exact (HC (AChange s) id Ha Hid).
      - apply create_step; auto.
        + intros c Hc. destruct (Hf c Hc) as (F1 & F2 & F3). split; [exact F1|]. split; [exact F2|]. intros q id Hq. split; [now apply (F3 q id Hq)|]. exists s, c, q. auto.
        + intros id Hid. exact (HC (ACreate s) id Ha Hid).
      - apply delete_step; auto. intros id Hid. exact (HC (ADelete s) id Ha Hid). }
    destruct (one E id_map a f) as [f1| |]; cbn [after good_step] in *.
    - destruct Hstep as [K1 Hacts]. specialize (IH f1 (fun b Hb => Hl b (or_intror Hb)) K1). destruct (each (one E id_map) l f1) as [f'| |]; auto. cbn [in_turn]. exists (fst f1). auto.
    - exact Hstep.
    - destruct Hstep as (s & ->). eauto. }
  exact (G (actions u) (opened o m) (fun a Ha => Ha) K0).
Qed.
Print Assumptions update_in_turn.
(** What is left of a document after an update, as text. *)
Definition update_of (s : str) : obj := doc_obj s.
Definition after_update (o : obj) (s : str) : option (option str) :=
  match process_update E0 None (update_of s) (opened o (map_ids o)) with Done f => Some (text_of (fst f)) | _ => None end.
Definition unseenb {A} (look : obj -> option A) (o : obj) : bool := forallb (fun q => match look_at look o q with None => true | Some _ => false end) (addresses o).
Lemma unseenb_unseen {A} (look : obj -> option A) o : unseenb look o = true -> unseen look o.
Proof.
  intros H q. unfold look_at. destruct (at_address o q) as [x|] eqn:Ex; [|reflexivity]. unfold unseenb in H. rewrite forallb_forall in H. specialize (H q (addresses_all q o x Ex)). unfold look_at in H. rewrite Ex in H. now destruct (look x).
Qed.
Definition one_kmlb (o : obj) : bool := forallb (fun q => match q with [] => true | _ => match type_of o q with Some ty => negb (ty =? Type_kml) | None => true end end) (addresses o).
Lemma one_kmlb_one o : one_kmlb o = true -> one_kml o.
Proof.
  intros H q Hq. unfold one_kmlb in H. rewrite forallb_forall in H. assert (Hin : In q (addresses o)). { unfold type_of in Hq. destruct (at_address o q) as [x|] eqn:Ex; [|discriminate]. exact (addresses_all q o x Ex). }
  specialize (H q Hin). destruct q; [reflexivity|]. rewrite Hq in H. discriminate.
Qed.
Definition fairb (E : env) (id_map : option (list (str * str))) (o : obj) (l : list action) (a : action) : bool :=
  match a with
  | AChange s => goodb E s && unseenb id_of s && unseenb kml_of s
  | ACreate s => forallb (fun c => goodb E c && unseenb kml_of c &&
      forallb (fun q => match id_at c q with
                        | Some id => forallb (fun p => match id_at o p with Some i => negb (eqs i id) | None => true end) (addresses o) &&
                                     forallb (fun a' => match target_id id_map (source a') with Some i => negb (eqs i id) | None => true end) l
                        | None => true
                        end) (addresses c)) (features s)
  | ADelete _ => true
  end.
Lemma fairb_fair E id_map o l a : fairb E id_map o l a = true -> fair E id_map o l a.
Proof.
  destruct a as [s|s|s]; cbn [fairb fair]; [| |auto].
  - rewrite !andb_true_iff. intros ((H1 & H2) & H3). split; [now apply goodb_good|]. split; now apply unseenb_unseen.
  - intros H c Hc. rewrite forallb_forall in H. specialize (H c Hc). rewrite !andb_true_iff in H. destruct H as ((H1 & H2) & H3). split; [now apply goodb_good|]. split; [now apply unseenb_unseen|].
    intros q id Hq. rewrite forallb_forall in H3. assert (Hin : In q (addresses c)). { unfold id_at in Hq. destruct (at_address c q) as [x|] eqn:Ex; [|discriminate]. exact (addresses_all q c x Ex). }
    specialize (H3 q Hin). rewrite Hq in H3. apply andb_true_iff in H3 as [H3 H4]. rewrite forallb_forall in H3, H4. split.
    + intros p Hp. assert (Hip : In p (addresses o)). { unfold id_at in Hp. destruct (at_address o p) as [x|] eqn:Ex; [|discriminate]. exact (addresses_all p o x Ex). }
      specialize (H3 p Hip). rewrite Hp, eqs_refl in H3. discriminate.
    + intros a' Ha' Ht. specialize (H4 a' Ha'). rewrite Ht, eqs_refl in H4. discriminate.
Qed.
Lemma all_fair E id_map o l l' : forallb (fairb E id_map o l) l' = true -> Forall (fair E id_map o l) l'.
Proof. intros H. apply Forall_forall. intros a Ha. apply fairb_fair. rewrite forallb_forall in H. exact (H a Ha). Qed.
Definition sample_update : str := S_ "<Update><Delete><Placemark targetId=""a""/></Delete><Create><Folder targetId=""f""><Placemark id=""n""/></Folder></Create><Change><Placemark targetId=""b""><name>y</name></Placemark><Placemark targetId=""a""><name>z</name></Placemark></Change><Delete><Folder targetId=""f""/><Placemark targetId=""c""/></Delete></Update>".
Definition first_part : str := S_ "<Update><Delete><Placemark targetId=""a""/></Delete><Create><Folder targetId=""f""><Placemark id=""n""/></Folder></Create><Change><Placemark targetId=""b""><name>y</name></Placemark><Placemark targetId=""a""><name>z</name></Placemark></Change></Update>".
(** The hypotheses hold; what is left before and after the last Delete. *)
Example update_sample : wf E0 nested = true /\ knows (map_ids nested) nested /\ one_kml nested /\
  Forall (fair E0 None nested (actions (update_of sample_update))) (actions (update_of sample_update)) /\ length (actions (update_of sample_update)) = 6%nat /\
  after_update nested first_part = Some (Some (S_ "<kml><Document id=""d""><Folder id=""f""><Placemark id=""b""><name>y</name></Placemark><Placemark id=""n""/></Folder><Placemark id=""c""/></Document></kml>")) /\
  after_update nested sample_update = Some (Some (S_ "<kml><Document id=""d""/></kml>")).
Proof.
  split; [vm_compute; reflexivity|]. split; [apply knowsb_knows; vm_compute; reflexivity|]. split; [apply one_kmlb_one; vm_compute; reflexivity|]. split.
  { apply all_fair. vm_compute. reflexivity. }
  split; [vm_compute; reflexivity|]. split; vm_compute; reflexivity.
Qed.
(** C102. An object whose id was changed is still known by the id it had, and a Delete of it does nothing by either id;
    another Change by the old id still reaches it. *)
Theorem update_changed_id_refuted :
  after_update nested (S_ "<Update><Change><Placemark targetId=""c"" id=""e""/></Change><Delete><Placemark targetId=""c""/><Placemark targetId=""e""/></Delete><Change><Placemark targetId=""c""><name>y</name></Placemark></Change></Update>")
  = Some (Some (S_ "<kml><Document id=""d""><Folder id=""f""><Placemark id=""a""/><Placemark id=""b""><name>x</name></Placemark></Folder><Placemark id=""e""><name>y</name></Placemark></Document></kml>")).
Proof. vm_compute. reflexivity. Qed.
Print Assumptions update_changed_id_refuted.
(** C102. What an update makes cannot be reached by its later operations. *)
Theorem update_created_refuted :
  after_update nested (S_ "<Update><Create><Folder targetId=""f""><Placemark id=""n""/></Folder></Create><Delete><Placemark targetId=""n""/></Delete></Update>")
  = Some (Some (S_ "<kml><Document id=""d""><Folder id=""f""><Placemark id=""a""/><Placemark id=""b""><name>x</name></Placemark><Placemark id=""n""/></Folder><Placemark id=""c""/></Document></kml>")).
Proof. vm_compute. reflexivity. Qed.
Print Assumptions update_created_refuted.
