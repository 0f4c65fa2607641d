(** Proofs about what is collected while a document is parsed. *)
From Verif Require Import Common StrMap AttributesModel XsdTables XsdModel XmlSpec XmlSpecProofs HandlerModel HandlerSpec HandlerProofs HandlerProofs2 HandlerProofs3 HandlerProps.
From Verif Require Import DomTables FileModel.
Local Open Scope N_scope.

(** The elements of a parsed tree in document order, and each element but the root with the type of its
    parent, children before their parents. *)
Fixpoint elements (n : node) : list (N * option attrs) :=
  let 'Node ty a _ log := n in (ty, a) :: flat_map (fun e => match e with LChild c => elements c | _ => [] end) log.
Fixpoint below (n : node) : list (N * node) :=
  let 'Node ty _ _ log := n in flat_map (fun e => match e with LChild c => below c ++ [(ty, c)] | _ => [] end) log.
Definition entry_elements (e : entry) : list (N * option attrs) := match e with LChild c => elements c | _ => [] end.
Definition entry_below (p : N) (e : entry) : list (N * node) := match e with LChild c => below c ++ [(p, c)] | _ => [] end.
Definition added (l : list note) : list (N * node) := flat_map (fun n => match n with NAdd p c => [(p, c)] | _ => [] end) l.

Lemma new_elements_app a b : new_elements (a ++ b) = new_elements a ++ new_elements b.
Proof. apply flat_map_app. Qed.
Lemma added_app a b : added (a ++ b) = added a ++ added b.
Proof. apply flat_map_app. Qed.
Lemma flat_ext {A B} (f g : A -> list B) l : Forall (fun x => f x = g x) l -> flat_map f l = flat_map g l.
Proof. induction 1 as [|x l H Hl IH]; [reflexivity|]. cbn [flat_map]. now rewrite H, IH. Qed.
Lemma flat_flat {A B C} (f : A -> list B) (g : B -> list C) l : flat_map g (flat_map f l) = flat_map (fun x => flat_map g (f x)) l.
Proof. induction l as [|x l IH]; [reflexivity|]. cbn [flat_map]. now rewrite flat_map_app, IH. Qed.
Lemma self_entry_nothing {B} (g : entry -> list B) ty s : (forall x, g (LSelf x) = []) -> flat_map g (self_entry ty s) = [].
Proof. intros H. unfold self_entry. destruct (self_parsed ty); [cbn [flat_map]; now rewrite H|reflexivity]. Qed.
Lemma notes_new t : forall p, new_elements (notes keep_all p t) = flat_map entry_elements (received keep_all p t).
Proof.
  induction t as [n a ks IH|c] using xml_ind2; intros p; [|reflexivity]. cbn [notes received]. destruct (known_type p n) as [ty|]; [|reflexivity].
  cbn [keep_all]. cbn [flat_map entry_elements]. rewrite app_nil_r. change (NNew ty (node_atts n a) :: ?l) with ([NNew ty (node_atts n a)] ++ l).
  rewrite !new_elements_app. cbn [new_elements flat_map app]. destruct (ty =? Type_description).
  - reflexivity.
  - rewrite app_nil_r. cbn [elements]. f_equal. change (fun e : entry => match e with LChild c => elements c | _ => [] end) with entry_elements.
    rewrite flat_map_app, self_entry_nothing, app_nil_r by reflexivity. unfold new_elements. rewrite !flat_flat. apply flat_ext.
    apply Forall_forall. intros k Hk. rewrite Forall_forall in IH. exact (IH k Hk ty).
Qed.
Lemma notes_added t : forall p, added (notes keep_all p t) = flat_map (entry_below p) (received keep_all p t).
Proof.
  induction t as [n a ks IH|c] using xml_ind2; intros p; [|reflexivity]. cbn [notes received]. destruct (known_type p n) as [ty|]; [|reflexivity].
  cbn [keep_all]. cbn [flat_map entry_below]. rewrite app_nil_r. change (NNew ty (node_atts n a) :: ?l) with ([NNew ty (node_atts n a)] ++ l).
  rewrite !added_app. cbn [added flat_map app]. destruct (ty =? Type_description).
  - reflexivity.
  - f_equal. cbn [below]. change (fun e : entry => match e with LChild c => below c ++ [(ty, c)] | _ => [] end) with (entry_below ty).
    rewrite flat_map_app, self_entry_nothing, app_nil_r by reflexivity. unfold added. rewrite !flat_flat. apply flat_ext.
    apply Forall_forall. intros k Hk. rewrite Forall_forall in IH. exact (IH k Hk ty).
Qed.
Lemma all_notes_new t root : tree keep_all t = Some root -> new_elements (all_notes keep_all t) = elements root.
Proof.
  destruct t as [n a ks|c]; [|discriminate]. cbn [tree all_notes]. destruct (known_type Type_Unknown n) as [ty|]; [|discriminate]. intros H. inversion H; subst root.
  change (NNew ty (node_atts n a) :: ?l) with ([NNew ty (node_atts n a)] ++ l). rewrite new_elements_app. cbn [new_elements flat_map app].
  destruct (ty =? Type_description); [reflexivity|]. cbn [elements]. f_equal. change (fun e : entry => match e with LChild c => elements c | _ => [] end) with entry_elements.
  rewrite flat_map_app, self_entry_nothing, app_nil_r by reflexivity. unfold new_elements. rewrite !flat_flat. apply flat_ext.
  apply Forall_forall. intros k Hk. exact (notes_new k ty).
Qed.
Lemma all_notes_added t root : tree keep_all t = Some root -> added (all_notes keep_all t) = below root.
Proof.
  destruct t as [n a ks|c]; [|discriminate]. cbn [tree all_notes]. destruct (known_type Type_Unknown n) as [ty|]; [|discriminate]. intros H. inversion H; subst root.
  change (NNew ty (node_atts n a) :: ?l) with ([NNew ty (node_atts n a)] ++ l). rewrite added_app. cbn [added flat_map app].
  destruct (ty =? Type_description); [reflexivity|]. cbn [below]. change (fun e : entry => match e with LChild c => below c ++ [(ty, c)] | _ => [] end) with (entry_below ty).
  rewrite flat_map_app, self_entry_nothing, app_nil_r by reflexivity. unfold added. rewrite !flat_flat. apply flat_ext.
  apply Forall_forall. intros k Hk. exact (notes_added k ty).
Qed.

(** Accepting observers hear everything. *)
Lemma notes_of_accepting (l : list note) i n : (i < n)%nat ->
  flat_map (fun x : nat * note => if (fst x =? i)%nat then [snd x] else []) (flat_map (fun m => map (fun j => (j, m)) (seq 0 n)) l) = l.
Proof.
  intros Hi. rewrite flat_flat. induction l as [|m l IH]; [reflexivity|]. cbn [flat_map]. rewrite IH. change (m :: l) with ([m] ++ l). f_equal.
  assert (G : forall k s, flat_map (fun x : nat * note => if (fst x =? i)%nat then [snd x] else []) (map (fun j => (j, m)) (seq s k)) = if ((s <=? i) && (i <? s + k))%nat then [m] else []).
  { induction k as [|k IHk]; intros s; cbn [seq map flat_map fst snd].
    - replace (i <? s + 0)%nat with (negb (s <=? i)%nat). now destruct (s <=? i)%nat. rewrite Nat.add_0_r. destruct (Nat.leb_spec s i), (Nat.ltb_spec i s); lia || reflexivity.
    - rewrite IHk. destruct (Nat.eqb_spec s i).
      + subst. replace (S i <=? i)%nat with false by (symmetry; apply Nat.leb_gt; lia). cbn [andb app]. rewrite Nat.leb_refl. replace (i <? i + S k)%nat with true by (symmetry; apply Nat.ltb_lt; lia). reflexivity.
      + cbn [app]. replace (S s + k)%nat with (s + S k)%nat by lia. destruct (Nat.leb_spec (S s) i), (Nat.leb_spec s i); try lia; reflexivity. }
  rewrite G. cbn [Nat.leb andb]. replace (i <? 0 + n)%nat with true by (symmetry; apply Nat.ltb_lt; lia). reflexivity.
Qed.
Lemma parse_with_accepting obs t : accepting obs -> regular t -> exists f, parse_with obs t = Ok (tree keep_all t, f) /\
  forall i, (i < length obs)%nat -> f i = all_notes keep_all t.
Proof.
  intros Ha Hr. destruct (notifications_in_order obs t Ha Hr) as (h & He & Ht). unfold parse_with. rewrite He. cbn [bind]. exists (fun i => notes_of i (trace h)). split.
  - destruct (parse_regular_trace obs t Hr) as (h' & He' & Hp & _). assert (h' = h) by congruence. subst. rewrite Hp, (accepting_tree obs t Ha). reflexivity.
  - intros i Hi. unfold notes_of. rewrite Ht. now apply notes_of_accepting.
Qed.
Lemma file_observers_lax : accepting (file_observers false).
Proof.
  repeat constructor; intros tr n.
  - destruct n as [ty a| |]; try reflexivity. cbn [id_observer]. destruct (object_id ty a) as [id|]; [|reflexivity]. now destruct (mget id (object_id_map 0 tr)).
  - destruct n as [| |p c]; try reflexivity. cbn [style_observer]. destruct (is_shared p c); [|reflexivity]. now destruct (object_id (nty c) (natts c)).
Qed.

(** ** Last one wins *)
Lemma id_map_sorted l : forall k m, msorted m -> msorted (id_map_from k l m).
Proof. induction l as [|[ty a] l IH]; intros k m H; cbn [id_map_from]; auto. apply IH. destruct (object_id ty a); auto. now apply mset_sorted. Qed.
Lemma id_map_get l : forall k m id, msorted m ->
  match mget id (id_map_from k l m) with
  | Some j => (exists i, j = (k + i)%nat /\ (exists e, nth_error l i = Some e /\ object_id (fst e) (snd e) = Some id) /\
                 forall i' e', (i < i')%nat -> nth_error l i' = Some e' -> object_id (fst e') (snd e') <> Some id)
              \/ (mget id m = Some j /\ forall i e, nth_error l i = Some e -> object_id (fst e) (snd e) <> Some id)
  | None => mget id m = None /\ forall i e, nth_error l i = Some e -> object_id (fst e) (snd e) <> Some id
  end.
Proof.
  induction l as [|[ty a] l IH]; intros k m id Hm; cbn [id_map_from].
  - assert (N : forall i e, nth_error (@nil (N * option attrs)) i = Some e -> object_id (fst e) (snd e) <> Some id) by (intros [|i] e H; discriminate).
    destruct (mget id m) as [j|] eqn:E; [right|]; auto.
  - set (m' := match object_id ty a with Some i => mset i k m | None => m end).
    change (id_map_from (S k) l _) with (id_map_from (S k) l m').
    assert (Hm' : msorted m') by (unfold m'; destruct (object_id ty a); auto; now apply mset_sorted).
    assert (Hg : mget id m' = if match object_id ty a with Some i => eqs id i | None => false end then Some k else mget id m).
    { unfold m'. destruct (object_id ty a) as [i|]; [|reflexivity]. now rewrite mget_mset. }
    specialize (IH (S k) m' id Hm'). revert IH. destruct (mget id (id_map_from (S k) l m')) as [j|].
    + intros IH. destruct IH as [(i & Hj & (e & He & Hid) & Hl)|(Hj & Hl)].
      * left. exists (S i). split; [lia|]. split; [exists e; auto|]. intros [|i'] e' Hlt He'; [lia|]. apply (Hl i' e'); [lia|exact He'].
      * rewrite Hg in Hj. destruct (object_id ty a) as [i0|] eqn:Eo.
        -- destruct (eqs id i0) eqn:Ei.
           ++ apply eqs_spec in Ei. subst i0. inversion Hj; subst j. left. exists 0%nat. split; [lia|]. split; [exists (ty, a); auto|].
              intros [|i'] e' Hlt He'; [lia|]. exact (Hl i' e' He').
           ++ right. split; auto. intros [|i] e He; [|exact (Hl i e He)]. inversion He; subst. cbn [fst snd]. rewrite Eo. intros H. inversion H; subst. rewrite eqs_refl in Ei. discriminate.
        -- right. split; auto. intros [|i] e He; [|exact (Hl i e He)]. inversion He; subst. cbn [fst snd]. rewrite Eo. discriminate.
    + intros IH. destruct IH as (Hj & Hl). rewrite Hg in Hj. destruct (object_id ty a) as [i0|] eqn:Eo.
      * destruct (eqs id i0) eqn:Ei; [discriminate|]. split; auto. intros [|i] e He; [|exact (Hl i e He)]. inversion He; subst. cbn [fst snd]. rewrite Eo.
        intros H. inversion H; subst. rewrite eqs_refl in Ei. discriminate.
      * split; auto. intros [|i] e He; [|exact (Hl i e He)]. inversion He; subst. cbn [fst snd]. rewrite Eo. discriminate.
Qed.
(** Assigning in order and looking up finds the last value. *)
Definition last_of {A} (f : A -> bool) (l : list A) : option A := List.find f (rev l).
Lemma fold_map_last {A V} (key : A -> option str) (val : A -> V) (l : list A) : forall (m : list (str * V)) k, msorted m ->
  mget k (fold_left (fun m x => match key x with Some i => mset i (val x) m | None => m end) l m) =
  match last_of (fun x => match key x with Some i => eqs i k | None => false end) l with Some x => Some (val x) | None => mget k m end.
Proof.
  assert (Hfa : forall (f : A -> bool) a b, List.find f (a ++ b) = match List.find f a with Some x => Some x | None => List.find f b end).
  { intros f a b. induction a as [|x a IHa]; [reflexivity|]. cbn [app List.find]. now destruct (f x). }
  induction l as [|x l IH]; intros m k Hm; [reflexivity|]. cbn [fold_left]. rewrite IH.
  - unfold last_of. cbn [rev]. rewrite Hfa. destruct (List.find _ (rev l)); [reflexivity|]. cbn [List.find]. destruct (key x) as [i|]; [|reflexivity].
    rewrite mget_mset by exact Hm. destruct (eqs i k) eqn:E1, (eqs k i) eqn:E2; auto.
    + apply eqs_spec in E1. subst. rewrite eqs_refl in E2. discriminate.
    + apply eqs_spec in E2. subst. rewrite eqs_refl in E1. discriminate.
  - destruct (key x); auto. now apply mset_sorted.
Qed.

(** ** Strict parsing *)
Definition ids (l : list (N * option attrs)) : list str := flat_map (fun e => match object_id (fst e) (snd e) with Some i => [i] | None => [] end) l.
Lemma ids_app a b : ids (a ++ b) = ids a ++ ids b.
Proof. apply flat_map_app. Qed.
Lemma id_map_in l id : (exists j, mget id (id_map_from 0 l []) = Some j) <-> In id (ids l).
Proof.
  pose proof (id_map_get l 0 [] id msorted_nil) as H. unfold ids. rewrite in_flat_map. split.
  - intros (j & Hj). rewrite Hj in H. destruct H as [(i & _ & (e & He & Hid) & _)|(H & _)]; [|discriminate]. exists e. apply nth_error_In in He. rewrite Hid. split; auto. now left.
  - intros (e & He & Hin). destruct (mget id (id_map_from 0 l [])) as [j|]; [eauto|]. destruct H as [_ H]. apply In_nth_error in He as (i & Hi). specialize (H i e Hi).
    destruct (object_id (fst e) (snd e)); [|destruct Hin]. destruct Hin as [->|[]]. congruence.
Qed.
Section Strict.
  Definition sobs : list observer := [id_observer 0 true].
  Definition seen (tr : list (nat * note)) : list (N * option attrs) := new_elements (notes_of 0 tr).
  Lemma seen_cons n tr : seen ((0%nat, n) :: tr) = seen tr ++ match n with NNew ty a => [(ty, a)] | _ => [] end.
  Proof.
    unfold seen, notes_of. cbn [rev]. rewrite flat_map_app. cbn [flat_map fst snd Nat.eqb]. rewrite !app_nil_r. rewrite new_elements_app. destruct n; reflexivity.
  Qed.
  Lemma strict_call n tr : call_observers sobs 0 n tr = (id_observer 0 true tr n, (0%nat, n) :: tr).
  Proof. cbn [sobs call_observers]. now destruct (id_observer 0 true tr n). Qed.
  Lemma strict_new ty a tr : id_observer 0 true tr (NNew ty a) = true <-> (forall id, object_id ty a = Some id -> ~ In id (ids (seen tr))).
  Proof.
    cbn [id_observer]. destruct (object_id ty a) as [id|]; [|split; [discriminate|auto]]. unfold object_id_map. fold (seen tr).
    pose proof (id_map_in (seen tr) id) as H. destruct (mget id (id_map_from 0 (seen tr) [])) as [j|]; cbn [negb].
    - split; [discriminate|]. intros H'. exfalso. apply (H' id eq_refl). apply H. eauto.
    - split; [|auto]. intros _ id' Hid Hin. inversion Hid; subst. apply H in Hin as (j & Hj). discriminate.
  Qed.
  Lemma nodup_cons_snoc l (e : N * option attrs) : NoDup (ids l) -> NoDup (ids (l ++ [e])) <-> forall id, object_id (fst e) (snd e) = Some id -> ~ In id (ids l).
  Proof.
    intros Hn. rewrite ids_app. unfold ids at 2. cbn [flat_map]. rewrite app_nil_r. destruct (object_id (fst e) (snd e)) as [id|].
    - split.
      + intros H id' Hid Hin. inversion Hid; subst. apply NoDup_remove_2 in H. rewrite app_nil_r in H. auto.
      + intros H. assert (Hx : ~ In id (ids l)) by auto. clear H. induction (ids l) as [|x t IH]; cbn [app]; [constructor; [auto|constructor]|].
        inversion Hn; subst. constructor; [|apply IH; auto; intros Hc; apply Hx; now right]. rewrite in_app_iff. intros [Hc|[Hc|[]]]; [auto|]. subst. apply Hx. now left.
    - rewrite app_nil_r. split; [discriminate|auto].
  Qed.
  Lemma nodup_prefix {A} (a b : list A) : NoDup (a ++ b) -> NoDup a.
  Proof. induction a as [|x a IH]; intros H; [constructor|]. cbn [app] in H. inversion H; subst. constructor; auto. intros Hin. apply H2. apply in_or_app. now left. Qed.
  Definition fine (s s' : kst) (l : list (N * option attrs)) : Prop :=
    (NoDup (ids (seen (ktr s) ++ l)) -> krun s' = true /\ seen (ktr s') = seen (ktr s) ++ l) /\
    (~ NoDup (ids (seen (ktr s) ++ l)) -> krun s' = false).
  Lemma nodup_dec (l : list str) : NoDup l \/ ~ NoDup l.
  Proof.
    induction l as [|x l IH]; [left; constructor|]. destruct IH as [IH|IH].
    - destruct (in_dec (list_eq_dec Ascii.ascii_dec) x l) as [H|H]; [right; intros Hn; inversion Hn; auto|left; now constructor].
    - right. intros Hn. inversion Hn. auto.
  Qed.
  Lemma fine_fold ty ks : Forall (fun k => forall p s, krun s = true -> NoDup (ids (seen (ktr s))) -> fine s (observed sobs p k s) (new_elements (notes keep_all p k))) ks ->
    forall s, krun s = true -> NoDup (ids (seen (ktr s))) -> fine s (fold_left (fun s k => observed sobs ty k s) ks s) (new_elements (flat_map (notes keep_all ty) ks)).
  Proof.
    induction 1 as [|k ks Hk Hks IH]; intros s Hr Hn; cbn [fold_left flat_map].
    - split.
      + cbn [new_elements flat_map]. rewrite app_nil_r. auto.
      + cbn [new_elements flat_map]. rewrite app_nil_r. intros H. contradiction.
    - rewrite new_elements_app. destruct (Hk ty s Hr Hn) as [K1 K2]. destruct (nodup_dec (ids (seen (ktr s) ++ new_elements (notes keep_all ty k)))) as [Hd|Hd].
      + destruct (K1 Hd) as [R1 R2]. rewrite <- R2 in Hd. destruct (IH _ R1 Hd) as [I1 I2]. unfold fine. rewrite app_assoc, <- R2. auto.
      + rewrite observed_fold_stop by auto. split.
        * intros H. exfalso. apply Hd. rewrite app_assoc, ids_app in H. exact (nodup_prefix _ _ H).
        * auto.
  Qed.
  Lemma strict_child t : forall p s, krun s = true -> NoDup (ids (seen (ktr s))) -> fine s (observed sobs p t s) (new_elements (notes keep_all p t)).
  Proof.
    induction t as [n a ks IH|c] using xml_ind2; intros p s Hr Hn.
    2: { cbn [observed notes new_elements flat_map]. rewrite Hr. cbn [negb krun ktr]. split; cbn [krun ktr]; rewrite app_nil_r; [auto|intros H; contradiction]. }
    cbn [observed]. rewrite Hr. cbn [negb]. cbn [notes]. destruct (known_type p n) as [ty|].
    2: { split; cbn [krun ktr new_elements flat_map]; rewrite app_nil_r; [auto|intros H; contradiction]. }
    rewrite strict_call. set (e := (ty, node_atts n a)). set (tr1 := (0%nat, NNew ty (node_atts n a)) :: ktr s).
    assert (Hs1 : seen tr1 = seen (ktr s) ++ [e]) by (unfold tr1; now rewrite seen_cons).
    change (NNew ty (node_atts n a) :: ?l) with ([NNew ty (node_atts n a)] ++ l). rewrite !new_elements_app. cbn [new_elements flat_map app]. rewrite app_nil_r.
    change ((ty, node_atts n a)) with e. 
    destruct (id_observer 0 true (ktr s) (NNew ty (node_atts n a))) eqn:Eo.
    - assert (Hd1 : NoDup (ids (seen tr1))) by (rewrite Hs1; apply nodup_cons_snoc; auto; apply strict_new; exact Eo).
      destruct (ty =? Type_description) eqn:Et.
      + cbn [krun ktr ktext klog]. rewrite strict_call. cbn [id_observer]. rewrite strict_call. cbn [id_observer].
        split; cbn [krun ktr].
        * intros _. split; auto. rewrite !seen_cons, !app_nil_r. cbn [flat_map]. exact Hs1.
        * intros H. exfalso. apply H. rewrite Hs1 in Hd1. exact Hd1.
      + set (s1 := {| klog := []; ktext := []; ktr := tr1; krun := true |}).
        destruct (fine_fold ty ks IH s1 eq_refl Hd1) as [F1 F2]. change (ktr s1) with tr1 in F1, F2. rewrite Hs1, <- app_assoc in F1, F2. cbn [app] in F1, F2.
        destruct (nodup_dec (ids (seen (ktr s) ++ e :: new_elements (flat_map (notes keep_all ty) ks)))) as [Hd|Hd].
        * destruct (F1 Hd) as [R1 R2]. rewrite R1. rewrite strict_call. cbn [id_observer]. rewrite strict_call. cbn [id_observer].
          split; cbn [krun ktr]; [|intros H; exfalso; exact (H Hd)]. intros _. split; auto. rewrite !seen_cons, !app_nil_r. exact R2.
        * rewrite (F2 Hd). split; cbn [krun ktr]; [|auto]. intros H. exfalso. exact (Hd H).
    - assert (Hd1 : ~ NoDup (ids (seen (ktr s) ++ [e]))).
      { intros H. pose proof (proj1 (nodup_cons_snoc (seen (ktr s)) e Hn) H) as H'. apply (proj2 (strict_new ty (node_atts n a) (ktr s))) in H'. congruence. }
      assert (Hdx : forall l, ~ NoDup (ids (seen (ktr s) ++ e :: l))).
      { intros l H. apply Hd1. rewrite ids_app in *. change (e :: l) with ([e] ++ l) in H. rewrite ids_app, app_assoc in H. exact (nodup_prefix _ _ H). }
      destruct (ty =? Type_description).
      + cbn [krun]. split; cbn [krun]; [|auto]. intros H. exfalso. exact (Hdx _ H).
      + rewrite observed_fold_stop by reflexivity. cbn [krun]. split; cbn [krun]; [|auto]. intros H. exfalso. exact (Hdx _ H).
  Qed.
  Lemma strict_doc t root : tree keep_all t = Some root ->
    (NoDup (ids (elements root)) -> exists r, fst (observed_doc sobs t) = Some r) /\ (~ NoDup (ids (elements root)) -> fst (observed_doc sobs t) = None).
  Proof.
    intros Ht. rewrite <- (all_notes_new t root Ht). destruct t as [n a ks|c]; [|discriminate]. cbn [tree] in Ht. cbn [observed_doc all_notes].
    destruct (known_type Type_Unknown n) as [ty|]; [|discriminate]. rewrite strict_call. set (e := (ty, node_atts n a)).
    change (NNew ty (node_atts n a) :: ?l) with ([NNew ty (node_atts n a)] ++ l). rewrite !new_elements_app. cbn [new_elements flat_map app].
    change ((ty, node_atts n a)) with e.
    assert (Eo : id_observer 0 true [] (NNew ty (node_atts n a)) = true) by (apply strict_new; intros id _ []).
    rewrite Eo. set (tr1 := [(0%nat, NNew ty (node_atts n a))]).
    assert (Hd1 : NoDup (ids (seen tr1))).
    { unfold tr1. rewrite seen_cons. apply (nodup_cons_snoc [] (ty, node_atts n a)); [constructor|]. intros id _ []. }
    destruct (ty =? Type_description) eqn:Et.
    - cbn [krun fst]. split; [eauto|]. intros H. exfalso. apply H. unfold tr1 in Hd1. rewrite seen_cons in Hd1. exact Hd1.
    - assert (HF : Forall (fun k => forall p s, krun s = true -> NoDup (ids (seen (ktr s))) -> fine s (observed sobs p k s) (new_elements (notes keep_all p k))) ks)
        by (apply Forall_forall; intros k _; apply strict_child).
      destruct (fine_fold ty ks HF {| klog := []; ktext := []; ktr := tr1; krun := true |} eq_refl Hd1) as [F1 F2]. cbn [ktr] in F1, F2.
      assert (Hs1 : seen tr1 = [e]) by (unfold tr1; now rewrite seen_cons). rewrite Hs1 in F1, F2. cbn [app] in F1, F2. split.
      + intros H. destruct (F1 H) as [R1 _]. rewrite R1. cbn [fst]. eauto.
      + intros H. rewrite (F2 H). reflexivity.
  Qed.
End Strict.
