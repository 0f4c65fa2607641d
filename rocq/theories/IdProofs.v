(** Proofs about mapping, clearing and renaming ids. *)
From Verif Require Import Common StrMap AttributesModel XsdTables XsdModel HandlerModel DomTables DomModel DomProofs DomVisit IdModel FileProofs.
Local Open Scope N_scope.

(** ** Addresses *)
Definition addr_dec : forall p q : address, {p = q} + {p <> q}.
Proof. apply list_eq_dec. intros [a b] [c d]. destruct (Nat.eq_dec a c), (Nat.eq_dec b d); [left; congruence|right; congruence..]. Defined.
Lemma set_nth_length {A} i (v : A) l : length (set_nth i v l) = length l.
Proof. revert i. induction l as [|x l IH]; intros [|i]; cbn [set_nth length]; auto. Qed.
Lemma set_nth_same {A} i (v d : A) l : (i < length l)%nat -> nth i (set_nth i v l) d = v.
Proof. revert i. induction l as [|x l IH]; intros [|i] H; cbn [length] in H; try lia; cbn [set_nth nth]; auto. apply IH. lia. Qed.
Lemma set_nth_other {A} i k (v d : A) l : i <> k -> nth k (set_nth i v l) d = nth k l d.
Proof. revert i k. induction l as [|x l IH]; intros [|i] [|k] H; cbn [set_nth nth]; auto; try congruence. all: apply IH; lia. Qed.
Lemma set_nth_error {A} i k (v : A) l : nth_error (set_nth i v l) k = if Nat.eq_dec i k then (if (i <? length l)%nat then Some v else None) else nth_error l k.
Proof.
  revert i k. induction l as [|x l IH]; intros i k.
  - replace (set_nth i v (@nil A)) with (@nil A) by (now destruct i). cbn [length]. destruct (Nat.eq_dec i k); destruct k; try reflexivity; destruct i; reflexivity.
  - destruct i as [|i], k as [|k]; cbn [set_nth nth_error length]; try reflexivity. rewrite IH. destruct (Nat.eq_dec i k), (Nat.eq_dec (S i) (S k)); try lia; reflexivity.
Qed.
Lemma lists_set_lists o ls : length ls = length (lists o) -> lists (set_lists o ls) = ls.
Proof.
  destruct o as [ty ka ea tx vec sl mis unk]. unfold lists, set_lists. cbn [oslots omis set_slots set_mis]. rewrite app_length. cbn [length]. intros H.
  rewrite <- (firstn_skipn (length sl) ls) at 3. f_equal.
  assert (Hs : length (skipn (length sl) ls) = 1%nat) by (rewrite skipn_length; lia).
  rewrite <- (firstn_skipn (length sl) ls) at 1. rewrite app_nth2; rewrite firstn_length_le by lia; [|lia]. rewrite Nat.sub_diag. destruct (skipn (length sl) ls) as [|x [|y r]]; cbn in Hs; try lia. reflexivity.
Qed.
(** What an element says of itself, apart from its children: their numbers only. *)
Definition own (o : obj) := (oty o, oka o, oea o, otext o, ovec o, ounk o, map (@length obj) (lists o)).
Definition info (o : obj) (p : address) := option_map own (at_address o p).
Definition on_ka (g : attrs -> attrs) (x : N * attrs * elem_attrs * option str * list (str * str * str) * list str * list nat) :=
  let '(ty, ka, ea, tx, vec, unk, sh) := x in (ty, g ka, ea, tx, vec, unk, sh).
Definition change_ka (g : attrs -> attrs) (o : obj) : obj := set_ka o (g (oka o)).
Lemma lists_change_ka g o : lists (change_ka g o) = lists o.
Proof. now destruct o. Qed.
Lemma own_change_ka g o : own (change_ka g o) = on_ka g (own o).
Proof. now destruct o. Qed.
Lemma map_length_set i (l : list obj) (ls : list (list obj)) : length l = length (nth i ls []) -> map (@length obj) (set_nth i l ls) = map (@length obj) ls.
Proof. revert i. induction ls as [|x ls IH]; intros [|i] H; cbn [set_nth map nth] in *; auto; [now rewrite H|]. f_equal. now apply IH. Qed.
Lemma own_set_lists o i j c : own (set_lists o (set_nth i (set_nth j c (nth i (lists o) [])) (lists o))) = own o.
Proof.
  assert (H : map (@length obj) (lists (set_lists o (set_nth i (set_nth j c (nth i (lists o) [])) (lists o)))) = map (@length obj) (lists o)).
  { rewrite lists_set_lists by apply set_nth_length. apply map_length_set. apply set_nth_length. }
  unfold own. rewrite H. destruct o. reflexivity.
Qed.
Lemma nth_lists_lt o i j c : nth_error (nth i (lists o) []) j = Some c -> (i < length (lists o))%nat.
Proof. intros H. destruct (Nat.lt_ge_cases i (length (lists o))); auto. rewrite nth_overflow in H by auto. destruct j; discriminate. Qed.
Lemma info_change g p : forall o q, info (change_at p (change_ka g) o) q = if addr_dec p q then option_map (on_ka g) (info o q) else info o q.
Proof.
  unfold info. induction p as [|[i j] p IH]; intros o q.
  - cbn [change_at]. destruct q as [|[i' j'] q].
    + cbn [at_address option_map]. rewrite own_change_ka. destruct (addr_dec [] []); [reflexivity|congruence].
    + cbn [at_address]. rewrite lists_change_ka. destruct (addr_dec [] ((i', j') :: q)); [discriminate|reflexivity].
  - cbn [change_at]. destruct (nth_error (nth i (lists o) []) j) as [c|] eqn:Ec.
    + destruct q as [|[i' j'] q].
      * cbn [at_address option_map]. rewrite own_set_lists. destruct (addr_dec ((i, j) :: p) []); [discriminate|reflexivity].
      * cbn [at_address]. rewrite lists_set_lists by apply set_nth_length. destruct (Nat.eq_dec i i') as [<-|Hi].
        -- rewrite set_nth_same by exact (nth_lists_lt o i j c Ec). rewrite set_nth_error. destruct (Nat.eq_dec j j') as [<-|Hj].
           ++ assert (Hlt : (j <? length (nth i (lists o) []))%nat = true) by (apply Nat.ltb_lt; apply nth_error_Some; congruence).
              rewrite Hlt, Ec, IH. destruct (addr_dec p q), (addr_dec ((i, j) :: p) ((i, j) :: q)); congruence || reflexivity.
           ++ destruct (addr_dec ((i, j) :: p) ((i, j') :: q)); [congruence|reflexivity].
        -- rewrite set_nth_other by exact Hi. destruct (addr_dec ((i, j) :: p) ((i', j') :: q)); [congruence|reflexivity].
    + destruct (addr_dec ((i, j) :: p) q) as [<-|]; [|reflexivity]. cbn [at_address]. now rewrite Ec.
Qed.

(** ** The elements MapIds sees *)
Fixpoint reach (o : obj) (p : address) : bool :=
  match p with
  | [] => true
  | (i, j) :: r =>
      match nth_error (nth i (lists o) []) j with
      | Some c => reach c r && (if (i <? length (oslots o))%nat
                                then existsb (fun k => match index_of_key k (c_slots (cls (oty o))) 0 with Some i' => (i =? i')%nat | None => false end) (c_ser (cls (oty o)))
                                else match r with [] => false | _ => true end)
      | None => false
      end
  end.
Lemma numbered_nth {A} (l : list A) j x : In (j, x) (numbered l) <-> nth_error l j = Some x.
Proof. exact (number_nth l j x). Qed.
Lemma in_steps i l p : In p (steps i l) <-> exists j ps q, nth_error l j = Some ps /\ In q ps /\ p = (i, j) :: q.
Proof.
  unfold steps. rewrite in_flat_map. split.
  - intros ([j ps] & Hn & Hm). apply in_map_iff in Hm as (q & <- & Hq). apply numbered_nth in Hn. eauto 6.
  - intros (j & ps & q & Hn & Hq & ->). exists (j, ps). split; [now apply numbered_nth|]. cbn [fst snd]. now apply in_map.
Qed.
Lemma in_tl {A} (x : A) l : In x (tl l) -> In x l.
Proof. destruct l; [auto|]. now right. Qed.
Lemma nth_map_default {A B} (f : A -> B) (l : list (list A)) i : nth i (map (map f) l) [] = map f (nth i l []).
Proof. change (@nil B) with (map f []) at 1. apply map_nth. Qed.
Lemma saved_head o : exists r, saved o = [] :: r.
Proof. destruct o. cbn [saved]. eauto. Qed.
Lemma nodup_steps i l : (forall ps, In ps l -> NoDup ps) -> NoDup (steps i l).
Proof.
  intros H. unfold steps. apply nodup_flat.
  - exact (number_nodup l).
  - intros [j ps] Hn. apply numbered_nth in Hn. apply nth_error_In in Hn. cbn [fst snd]. apply FinFun.Injective_map_NoDup; [|now apply H]. intros a b Hab. now inversion Hab.
  - intros [j ps] [j' ps'] z Hx Hy Hzx Hzy. cbn [fst snd] in *. apply in_map_iff in Hzx as (q & <- & _). apply in_map_iff in Hzy as (q' & Hq & _). inversion Hq. subst j'.
    apply numbered_nth in Hx, Hy. congruence.
Qed.
Lemma ser_nodup ty : NoDup (c_ser (cls ty)).
Proof. apply nodupN_spec. apply (class_forall (fun c => nodupN (c_ser c))); vm_compute; reflexivity. Qed.
Section ObjInd.
  Variable P : obj -> Prop.
  Hypothesis H : forall ty ka ea tx vec sl mis unk, Forall (Forall P) sl -> Forall P mis -> P (Obj ty ka ea tx vec sl mis unk).
  Fixpoint obj_all (o : obj) : P o :=
    let 'Obj ty ka ea tx vec sl mis unk := o in
    H ty ka ea tx vec sl mis unk
      ((fix go (sl : list (list obj)) : Forall (Forall P) sl :=
          match sl with
          | [] => Forall_nil _
          | l :: r => Forall_cons l ((fix go2 (l : list obj) : Forall P l := match l with [] => Forall_nil _ | c :: l' => Forall_cons c (obj_all c) (go2 l') end) l) (go r)
          end) sl)
      ((fix go2 (l : list obj) : Forall P l := match l with [] => Forall_nil _ | c :: l' => Forall_cons c (obj_all c) (go2 l') end) mis).
End ObjInd.
Lemma saved_in o : forall p, In p (saved o) <-> reach o p = true.
Proof.
  induction o as [ty ka ea tx vec sl mis unk Hsl Hmis] using obj_all. intros p. cbn [saved]. rewrite Forall_forall in Hmis. rewrite Forall_forall in Hsl.
  destruct p as [|[i j] p]; [cbn [reach]; split; [reflexivity|now left]|]. cbn [reach]. unfold lists. cbn [oslots omis oty]. cbn [In]. rewrite in_app_iff, in_flat_map.
  split.
  - intros [H|[H|H]]; [discriminate| |].
    + destruct H as (k & Hk & Hin). destruct (index_of_key k (c_slots (cls ty)) 0) as [i'|] eqn:Ei; [|destruct Hin]. apply in_steps in Hin as (j' & ps & q & Hn & Hq & Heq).
      inversion Heq; subst i' j' q; clear Heq. rewrite nth_map_default in Hn. rewrite nth_error_map in Hn. destruct (nth_error (nth i sl []) j) as [c|] eqn:Ec; [|discriminate]. inversion Hn; subst ps.
      assert (Hlt : (i < length sl)%nat). { destruct (Nat.lt_ge_cases i (length sl)); auto. rewrite nth_overflow in Ec by auto. destruct j; discriminate. }
      rewrite app_nth1 by exact Hlt. rewrite Ec. assert (Hc : In c (nth i sl [])) by (eapply nth_error_In; eauto).
      assert (Hl : In (nth i sl []) sl) by (now apply nth_In). specialize (Hsl _ Hl). rewrite Forall_forall in Hsl. apply andb_true_iff. split; [now apply Hsl|].
      apply Nat.ltb_lt in Hlt. rewrite Hlt. apply existsb_exists. exists k. rewrite Ei. split; auto. apply Nat.eqb_refl.
    + apply in_steps in H as (j' & ps & q & Hn & Hq & Heq). inversion Heq; subst i j' q; clear Heq. rewrite nth_error_map in Hn. destruct (nth_error mis j) as [c|] eqn:Ec; [|discriminate].
      inversion Hn; subst ps. rewrite app_nth2, Nat.sub_diag by lia. cbn [nth]. rewrite Ec. rewrite Nat.ltb_irrefl.
      assert (Hc : In c mis) by (eapply nth_error_In; eauto). apply andb_true_iff. split; [apply Hmis; auto; now apply in_tl|].
      destruct p; [|reflexivity]. destruct c. cbn [saved tl] in Hq. exfalso. apply in_app_iff in Hq as [Hq|Hq].
      * apply in_flat_map in Hq as (k & _ & Hq). destruct (index_of_key k _ 0); [|destruct Hq]. apply in_steps in Hq as (? & ? & ? & _ & _ & Hq). discriminate.
      * apply in_steps in Hq as (? & ? & ? & _ & _ & Hq). discriminate.
  - destruct (nth_error (nth i (sl ++ [mis]) []) j) as [c|] eqn:Ec; [|discriminate]. intros H. apply andb_true_iff in H as [Hr Hk]. right.
    destruct (i <? length sl)%nat eqn:Elt.
    + left. apply Nat.ltb_lt in Elt. rewrite app_nth1 in Ec by exact Elt. apply existsb_exists in Hk as (k & Hk & Hi). exists k. split; auto.
      destruct (index_of_key k (c_slots (cls ty)) 0) as [i'|]; [|discriminate]. apply Nat.eqb_eq in Hi. subst i'. apply in_steps. exists j, (saved c), p. rewrite nth_map_default, nth_error_map, Ec.
      split; [reflexivity|]. split; [|reflexivity]. assert (Hc : In c (nth i sl [])) by (eapply nth_error_In; eauto).
      assert (Hl : In (nth i sl []) sl) by (now apply nth_In). specialize (Hsl _ Hl). rewrite Forall_forall in Hsl. now apply Hsl.
    + right. apply Nat.ltb_ge in Elt. rewrite app_nth2 in Ec by exact Elt. destruct (i - length sl)%nat as [|n] eqn:En.
      2: { cbn [nth] in Ec. destruct n; destruct j; discriminate. }
      cbn [nth] in Ec. assert (i = length sl) by lia. subst i. apply in_steps. exists j, (tl (saved c)), p. rewrite nth_error_map, Ec. split; [reflexivity|]. split; [|reflexivity].
      assert (Hc : In c mis) by (eapply nth_error_In; eauto). apply Hmis in Hr; auto. destruct (saved_head c) as (r & E). rewrite E in *. destruct p; [discriminate|]. destruct Hr as [Hr|Hr]; [discriminate|]. exact Hr.
Qed.
Lemma saved_nodup o : NoDup (saved o).
Proof.
  induction o as [ty ka ea tx vec sl mis unk Hsl Hmis] using obj_all. cbn [saved]. constructor.
  - rewrite in_app_iff, in_flat_map. intros [(k & _ & H)|H].
    + destruct (index_of_key k _ 0); [|destruct H]. apply in_steps in H as (? & ? & ? & _ & _ & H). discriminate.
    + apply in_steps in H as (? & ? & ? & _ & _ & H). discriminate.
  - rewrite Forall_forall in Hmis. rewrite Forall_forall in Hsl.
    assert (H1 : NoDup (flat_map (fun k => match index_of_key k (c_slots (cls ty)) 0 with Some i => steps i (nth i (map (map saved) sl) []) | None => [] end) (c_ser (cls ty)))).
    { apply nodup_flat.
      - apply ser_nodup.
      - intros k _. destruct (index_of_key k (c_slots (cls ty)) 0) as [i|]; [|constructor]. apply nodup_steps. intros ps Hps. rewrite nth_map_default in Hps. apply in_map_iff in Hps as (c & <- & Hc).
        destruct (Nat.lt_ge_cases i (length sl)) as [Hlt|Hge]; [|rewrite nth_overflow in Hc by auto; destruct Hc].
        assert (Hl : In (nth i sl []) sl) by (now apply nth_In). specialize (Hsl _ Hl). rewrite Forall_forall in Hsl. now apply Hsl.
      - intros k1 k2 z _ _ H1 H2. destruct (index_of_key k1 (c_slots (cls ty)) 0) as [i1|] eqn:E1; [|destruct H1]. destruct (index_of_key k2 (c_slots (cls ty)) 0) as [i2|] eqn:E2; [|destruct H2].
        apply in_steps in H1 as (? & ? & ? & _ & _ & ->), H2 as (? & ? & ? & _ & _ & H2). inversion H2. subst i2. eapply index_of_key_inj; eauto. }
    assert (H2 : NoDup (steps (length sl) (map (fun c => tl (saved c)) mis))).
    { apply nodup_steps. intros ps Hps. apply in_map_iff in Hps as (c & <- & Hc). specialize (Hmis c Hc). destruct (saved_head c) as (r & E). rewrite E in *. now inversion Hmis. }
    assert (H3 : forall z, In z (flat_map (fun k => match index_of_key k (c_slots (cls ty)) 0 with Some i => steps i (nth i (map (map saved) sl) []) | None => [] end) (c_ser (cls ty))) -> ~ In z (steps (length sl) (map (fun c => tl (saved c)) mis))).
    { intros z Hz Hz'. apply in_flat_map in Hz as (k & _ & Hz). destruct (index_of_key k (c_slots (cls ty)) 0) as [i|]; [|destruct Hz].
      apply in_steps in Hz as (j & ps & q & Hn & _ & ->). apply in_steps in Hz' as (? & ? & ? & _ & _ & Hz'). inversion Hz'. subst i. rewrite nth_overflow in Hn by (now rewrite map_length). destruct j; discriminate. }
    revert H1 H3. generalize (flat_map (fun k => match index_of_key k (c_slots (cls ty)) 0 with Some i => steps i (nth i (map (map saved) sl) []) | None => [] end) (c_ser (cls ty))) as a.
    intros a Ha Hd. induction Ha as [|x a Hx Ha IH]; [exact H2|]. cbn [app]. constructor.
    + rewrite in_app_iff. intros [H|H]; [auto|]. apply (Hd x); [now left|exact H].
    + apply IH. intros z Hz. apply Hd. now right.
Qed.

(** ** The map *)
Lemma map_ids_sorted_from o l : forall m, msorted m -> msorted (fold_left (map_step o) l m).
Proof. induction l as [|p l IH]; intros m Hm; [exact Hm|]. cbn [fold_left]. apply IH. unfold map_step. destruct (id_at o p); auto. now apply mset_sorted. Qed.
Lemma map_ids_sorted o : msorted (map_ids o).
Proof. apply map_ids_sorted_from. apply msorted_nil. Qed.
Lemma map_ids_last o id : mget id (map_ids o) = last_of (fun p => match id_at o p with Some i => eqs i id | None => false end) (saved o).
Proof.
  pose proof (fold_map_last (id_at o) (fun p => p) (saved o) [] id msorted_nil) as H. cbn [mget] in H. unfold map_ids. etransitivity; [exact H|].
  now destruct (last_of _ _).
Qed.
Lemma last_of_some {A} (f : A -> bool) l x : last_of f l = Some x -> exists l1 l2, l = l1 ++ x :: l2 /\ f x = true /\ forall y, In y l2 -> f y = false.
Proof.
  unfold last_of. intros H. assert (G : forall l, List.find f l = Some x -> exists l1 l2, l = l1 ++ x :: l2 /\ f x = true /\ forall y, In y l1 -> f y = false).
  { clear. induction l as [|y l IH]; [discriminate|]. cbn [List.find]. destruct (f y) eqn:E.
    - intros H. inversion H; subst. exists [], l. split; auto. split; auto. intros z [].
    - intros H. destruct (IH H) as (l1 & l2 & -> & Hx & Hl). exists (y :: l1), l2. split; auto. split; auto. intros z [<-|Hz]; auto. }
  destruct (G _ H) as (l1 & l2 & Hl & Hx & Hn). exists (rev l2), (rev l1). split; [|split; auto].
  - rewrite <- (rev_involutive l), Hl, rev_app_distr. cbn [rev]. now rewrite <- app_assoc.
  - intros y Hy. apply Hn. now apply in_rev.
Qed.
Lemma last_of_none {A} (f : A -> bool) l : last_of f l = None -> forall x, In x l -> f x = false.
Proof. unfold last_of. intros H x Hx. apply (List.find_none _ _ H). now apply in_rev in Hx. Qed.
Lemma last_of_split {A} (f : A -> bool) l1 x l2 : f x = true -> (forall y, In y l2 -> f y = false) -> last_of f (l1 ++ x :: l2) = Some x.
Proof.
  intros Hx Hl. unfold last_of. rewrite rev_app_distr. cbn [rev]. rewrite <- app_assoc. cbn [app].
  assert (G : forall l, (forall y, In y l -> f y = false) -> List.find f (l ++ x :: rev l1) = Some x).
  { induction l as [|y l IH]; intros H; cbn [app List.find]; [now rewrite Hx|]. rewrite (H y) by now left. apply IH. intros z Hz. apply H. now right. }
  apply G. intros y Hy. apply Hl. now apply in_rev.
Qed.
(** The element MapIds keeps for its id. *)
Definition wins (o : obj) (p : address) : Prop :=
  exists id l1 l2, id_at o p = Some id /\ saved o = l1 ++ p :: l2 /\ forall q, In q l2 -> id_at o q <> Some id.
Lemma wins_map o p id : id_at o p = Some id -> (wins o p <-> mget id (map_ids o) = Some p).
Proof.
  intros Hid. rewrite map_ids_last. split.
  - intros (id' & l1 & l2 & Hid' & Hs & Hl). assert (id' = id) by congruence. subst id'. rewrite Hs. apply last_of_split.
    + rewrite Hid. apply eqs_refl.
    + intros q Hq. specialize (Hl q Hq). destruct (id_at o q) as [i|]; [|reflexivity]. destruct (eqs i id) eqn:Ei; auto. apply eqs_spec in Ei. congruence.
  - intros H. apply last_of_some in H as (l1 & l2 & Hs & _ & Hl). exists id, l1, l2. split; auto. split; auto. intros q Hq Hc. specialize (Hl q Hq). rewrite Hc, eqs_refl in Hl. discriminate.
Qed.
Lemma in_map_ids o id p : In (id, p) (map_ids o) <-> id_at o p = Some id /\ wins o p.
Proof.
  split.
  - intros H. apply in_mget in H; [|apply map_ids_sorted]. assert (Hid : id_at o p = Some id).
    { rewrite map_ids_last in H. apply last_of_some in H as (l1 & l2 & _ & Hx & _). destruct (id_at o p) as [i|]; [|discriminate]. apply eqs_spec in Hx. congruence. }
    split; [exact Hid|]. now apply (wins_map o p id Hid).
  - intros [Hid Hw]. apply mget_in. now apply (wins_map o p id Hid).
Qed.
Lemma wins_dec o p : {wins o p} + {~ wins o p}.
Proof.
  destruct (id_at o p) as [id|] eqn:E.
  - destruct (mget id (map_ids o)) as [q|] eqn:Eq.
    + destruct (addr_dec q p) as [->|Hn]; [left; now apply (wins_map o p id E)|]. right. intros Hw. apply (wins_map o p id E) in Hw. congruence.
    + right. intros Hw. apply (wins_map o p id E) in Hw. congruence.
  - right. intros (id & ? & ? & Hid & _). congruence.
Qed.

(** ** Clearing *)
Lemma clear_fold m : forall o q, info (fold_left (fun o e => change_at (snd e) clear_id o) m o) q =
  if in_dec addr_dec q (map (@snd str address) m) then option_map (on_ka (mdel (S_ "id"))) (info o q) else info o q.
Proof.
  induction m as [|[id p] m IH]; intros o q; [reflexivity|]. cbn [fold_left snd map]. rewrite IH. change clear_id with (change_ka (mdel (S_ "id"))). rewrite info_change.
  destruct (in_dec addr_dec q (map (@snd str address) m)) as [H|H], (in_dec addr_dec q (p :: map (@snd str address) m)) as [H'|H'], (addr_dec p q) as [He|He]; try reflexivity.
  all: try (exfalso; apply H'; now right). 
  - destruct (info o q) as [[[[[[[? ka] ?] ?] ?] ?] ?]|]; cbn [option_map on_ka]; [|reflexivity]. f_equal. do 5 f_equal. f_equal. 
    assert (G : forall k (m : list (str * str)), mdel k (mdel k m) = mdel k m).
    { clear. intros k m. induction m as [|[a b] m IHm]; [reflexivity|]. unfold mdel in *. cbn [filter fst]. destruct (eqs k a) eqn:E; cbn [negb]; [exact IHm|]. cbn [filter fst]. rewrite E. cbn [negb]. now rewrite IHm. }
    apply G.
  - exfalso. destruct H' as [H'|H']; auto.
  - exfalso. apply H'. now left.
Qed.
Definition get_info_id (x : N * attrs * elem_attrs * option str * list (str * str * str) * list str * list nat) : option str :=
  let '(ty, ka, _, _, _, _, _) := x in if is_a ty Type_Object then find_value (S_ "id") ka else None.
Lemma id_info o p : id_at o p = match info o p with Some x => get_info_id x | None => None end.
Proof. unfold id_at, info. destruct (at_address o p) as [x|]; [|reflexivity]. destruct x. reflexivity. Qed.
Lemma clear_in o q : In q (map snd (map_ids o)) <-> wins o q.
Proof.
  rewrite in_map_iff. split.
  - intros ([id p] & Hp & Hin). cbn [snd] in Hp. subst p. now apply in_map_ids in Hin.
  - intros Hw. assert (Hid := Hw). destruct Hid as (id & _ & _ & Hid & _). exists (id, q). split; [reflexivity|]. now apply in_map_ids.
Qed.
Lemma clear_ids_info o q : info (clear_ids o) q = if wins_dec o q then option_map (on_ka (mdel (S_ "id"))) (info o q) else info o q.
Proof.
  unfold clear_ids. rewrite clear_fold. pose proof (clear_in o q) as H. destruct (in_dec addr_dec q (map snd (map_ids o))), (wins_dec o q); tauto || reflexivity.
Qed.

(** ** Renaming *)
Definition new_ka (id_map : list (str * str)) (id : str) : attrs -> attrs :=
  match mget id id_map with None => mdel (S_ "id") | Some v => mset (S_ "id") v end.
Fixpoint entry_at (q : address) (m : list (str * address)) : option str :=
  match m with [] => None | (id, p) :: r => if addr_dec p q then Some id else entry_at q r end.
Lemma entry_at_in q m id : entry_at q m = Some id -> In (id, q) m.
Proof. induction m as [|[i p] m IH]; [discriminate|]. cbn [entry_at]. destruct (addr_dec p q) as [->|]; [intros H; inversion H; now left|right; auto]. Qed.
Lemma entry_at_none q m : entry_at q m = None <-> ~ In q (map snd m).
Proof.
  induction m as [|[i p] m IH]; cbn [entry_at map snd In]; [tauto|]. destruct (addr_dec p q) as [->|H]; [split; [discriminate|intros H; exfalso; apply H; now left]|]. rewrite IH. tauto.
Qed.
Lemma remap_fold id_map m : forall o n out, NoDup (map snd m) -> (forall id p, In (id, p) m -> id_at o p = Some id) ->
  let '(o', n', out') := fold_left (remap_step id_map) m (o, n, out) in
  (forall q, info o' q = match entry_at q m with Some id => option_map (on_ka (new_ka id_map id)) (info o q) | None => info o q end) /\
  n' = (n + length (filter (fun e => match mget (fst e) id_map with None => true | Some _ => false end) m))%nat /\
  out' = fold_left (fun out e => match mget (fst e) id_map with Some v => mset v (snd e) out | None => out end) m out.
Proof.
  induction m as [|[id p] m IH]; intros o n out Hn Hid.
  - cbn [fold_left entry_at filter length]. split; [reflexivity|]. split; [lia|reflexivity].
  - cbn [fold_left]. cbn [map snd] in Hn. inversion Hn as [|? ? Hp Hm]; subst.
    assert (Hstep : remap_step id_map (o, n, out) (id, p) = (change_at p (change_ka (new_ka id_map id)) o, (n + match mget id id_map with None => 1 | Some _ => 0 end)%nat,
      match mget id id_map with Some v => mset v p out | None => out end)).
    { unfold remap_step. cbn [snd]. rewrite (Hid id p) by now left. unfold new_ka. destruct (mget id id_map); [rewrite Nat.add_0_r|rewrite Nat.add_1_r]; reflexivity. }
    rewrite Hstep. clear Hstep. set (o1 := change_at p (change_ka (new_ka id_map id)) o).
    assert (Hinfo : forall q, q <> p -> info o1 q = info o q).
    { intros q Hq. unfold o1. rewrite info_change. destruct (addr_dec p q); [congruence|reflexivity]. }
    specialize (IH o1 (n + match mget id id_map with None => 1 | Some _ => 0 end)%nat (match mget id id_map with Some v => mset v p out | None => out end) Hm).
    assert (Hid1 : forall id0 p0, In (id0, p0) m -> id_at o1 p0 = Some id0).
    { intros id0 p0 Hin. rewrite id_info, Hinfo, <- id_info; [apply Hid; now right|]. intros ->. apply Hp. apply in_map_iff. exists (id0, p). auto. }
    specialize (IH Hid1). match type of IH with context [fold_left (remap_step id_map) m ?s] => match goal with |- context [fold_left (remap_step id_map) m ?s'] => change s' with s end; revert IH; destruct (fold_left (remap_step id_map) m s) as [[o' n'] out'] end. intros (I1 & I2 & I3). split; [|split].
    + intros q. rewrite I1. cbn [entry_at]. destruct (addr_dec p q) as [<-|Hq].
      * assert (E : entry_at p m = None) by (now apply entry_at_none). rewrite E. unfold o1. rewrite info_change. destruct (addr_dec p p); [reflexivity|congruence].
      * destruct (entry_at q m); rewrite Hinfo by congruence; reflexivity.
    + rewrite I2. cbn [filter fst]. destruct (mget id id_map); cbn [length]; lia.
    + rewrite I3. reflexivity.
Qed.
Lemma map_ids_nodup o : NoDup (map snd (map_ids o)).
Proof.
  assert (H : forall id p, In (id, p) (map_ids o) -> id_at o p = Some id) by (intros id p Hin; now apply in_map_ids in Hin).
  assert (Hk : NoDup (map fst (map_ids o))) by (apply msorted_nodup; apply map_ids_sorted).
  induction (map_ids o) as [|[id p] m IH]; [constructor|]. cbn [map fst snd] in *. inversion Hk; subst. constructor.
  - intros Hin. apply in_map_iff in Hin as ([id' p'] & Hp & Hin). cbn [snd] in Hp. subst p'. assert (id' = id).
    { pose proof (H id p (or_introl eq_refl)). pose proof (H id' p (or_intror Hin)). congruence. } subst. apply H2. apply in_map_iff. exists (id, p). auto.
  - apply IH; auto. intros id' p' Hin. apply H. now right.
Qed.

(** ** Duplicates *)
Lemma dup_fold o l : forall m d, msorted m ->
  let r := fold_left (dup_step o) l (m, d) in fst r = fold_left (map_step o) l m /\
  (snd r = d <-> NoDup (flat_map (fun p => match id_at o p with Some i => [i] | None => [] end) l) /\ forall p id, In p l -> id_at o p = Some id -> mget id m = None) /\
  exists e, snd r = d ++ e.
Proof.
  induction l as [|p l IH]; intros m d Hm; cbv zeta.
  - cbn [fold_left flat_map]. split; [reflexivity|]. split; [|exists []; now rewrite app_nil_r]. split; [intros _; split; [constructor|intros p id []]|reflexivity].
  - cbn [fold_left flat_map]. unfold dup_step at 2 4 6, map_step at 2. cbn [fst snd]. destruct (id_at o p) as [id|] eqn:Ei.
    2: { cbn [app]. specialize (IH m d Hm). cbv zeta in IH. destruct IH as (I1 & I2 & I3). split; [exact I1|]. split; [|exact I3]. rewrite I2. split; intros [H1 H2]; split; auto.
         - intros q id [<-|Hq] Hid; [congruence|]. exact (H2 q id Hq Hid).
         - intros q id Hq Hid. apply (H2 q id); auto. now right. }
    set (d' := d ++ match mget id m with Some q => [q] | None => [] end). assert (Hm' : msorted (mset id p m)) by (now apply mset_sorted).
    specialize (IH (mset id p m) d' Hm'). cbv zeta in IH. destruct IH as (I1 & I2 & e & I3). split; [exact I1|]. split.
    + cbn [app]. split.
      * intros H. assert (Hd : d' = d /\ e = []).
        { rewrite I3 in H. unfold d' in *. rewrite <- app_assoc in H. assert (Hx : match mget id m with Some q => [q] | None => [] end ++ e = []) by (apply (app_inv_head d); now rewrite app_nil_r).
          apply app_eq_nil in Hx as [Hx ->]. rewrite Hx, app_nil_r. auto. }
        destruct Hd as [Hd ->]. rewrite app_nil_r in I3. apply I2 in I3 as [J1 J2]. assert (Hid : mget id m = None).
        { unfold d' in Hd. destruct (mget id m) as [q|]; [|reflexivity]. assert (Hx : [q] = []) by (apply (app_inv_head d); now rewrite app_nil_r). discriminate. }
        split.
        -- constructor; [|exact J1]. intros Hin. apply in_flat_map in Hin as (q & Hq & Hi). destruct (id_at o q) as [i|] eqn:Eq; [|destruct Hi]. destruct Hi as [->|[]].
           pose proof (J2 q id Hq Eq) as Hc. rewrite mget_mset, eqs_refl in Hc by exact Hm. discriminate.
        -- intros q i [<-|Hq] Hi; [congruence|]. pose proof (J2 q i Hq Hi) as Hc. rewrite mget_mset in Hc by exact Hm. destruct (eqs i id); [discriminate|exact Hc].
      * intros [H1 H2]. inversion H1; subst. assert (Hid : mget id m = None) by (apply (H2 p id); [now left|exact Ei]). unfold d' in *. rewrite Hid, app_nil_r in *. apply I2. split; [assumption|].
        intros q i Hq Hi. rewrite mget_mset by exact Hm. destruct (eqs i id) eqn:Eq; [|apply (H2 q i); auto; now right]. apply eqs_spec in Eq. subst i. exfalso. apply H3. apply in_flat_map. exists q. rewrite Hi. split; auto. now left.
    + exists (match mget id m with Some q => [q] | None => [] end ++ e). rewrite I3. unfold d'. now rewrite app_assoc.
Qed.
