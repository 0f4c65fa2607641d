(** Proofs about updates. *)
From Verif Require Import Common StrMap AttributesModel XsdTables XsdModel HandlerModel DomTables DomModel DomProofs CloneModel CloneProofs MergeModel MergeProofs IdModel IdProofs UpdateModel.
Local Open Scope N_scope.

(** ** Addresses *)
Lemma under_spec q p r : under q p = Some r <-> p = q ++ r.
Proof.
  revert p. induction q as [|[i j] q IH]; intros p.
  - cbn [under app]. split; [intros H; inversion H; auto|intros ->; auto].
  - destruct p as [|[i' j'] p]; cbn [under app]; [split; discriminate|]. destruct (Nat.eqb_spec i i'), (Nat.eqb_spec j j'); cbn [andb].
    + subst. rewrite IH. split; [intros ->; auto|intros H; inversion H; auto].
    + split; [discriminate|intros H; inversion H; congruence].
    + split; [discriminate|intros H; inversion H; congruence].
    + split; [discriminate|intros H; inversion H; congruence].
Qed.
Lemma under_app q r : under q (q ++ r) = Some r.
Proof. now apply under_spec. Qed.
Lemma at_app o p r : at_address o (p ++ r) = match at_address o p with Some x => at_address x r | None => None end.
Proof. revert o. induction p as [|[i j] p IH]; intros o; [reflexivity|]. cbn [app at_address]. destruct (nth_error (nth i (lists o) []) j); auto. Qed.
Lemma at_change_below p : forall f o x r, at_address o p = Some x -> at_address (change_at p f o) (p ++ r) = at_address (f x) r.
Proof.
  induction p as [|[i j] p IH]; intros f o x r Hx; cbn [at_address] in Hx.
  - inversion Hx; subst. reflexivity.
  - cbn [change_at app at_address]. destruct (nth_error (nth i (lists o) []) j) as [c|] eqn:Ec; [|discriminate]. rewrite lists_set_lists by apply set_nth_length.
    rewrite set_nth_same by exact (nth_lists_lt o i j c Ec). rewrite set_nth_error. destruct (Nat.eq_dec j j); [|congruence].
    assert (Hlt : (j <? length (nth i (lists o) []))%nat = true) by (apply Nat.ltb_lt; apply nth_error_Some; congruence). rewrite Hlt. now apply IH.
Qed.
(** What an element says of itself; its children have their own addresses. *)
Definition self (x : obj) := (oty x, oka x, oea x, otext x, ovec x, ounk x, length (oslots x)).
Definition says (o : obj) (p : address) := option_map self (at_address o p).
Lemma self_set_lists o ls : length ls = length (lists o) -> self (set_lists o ls) = self o.
Proof.
  intros H. unfold self. destruct o as [ty ka ea tx vec sl mis unk]. unfold lists in H. cbn [oslots omis] in H. rewrite app_length in H. cbn [length] in H.
  unfold set_lists. cbn [oslots set_slots set_mis oty oka oea otext ovec ounk]. rewrite firstn_length_le by lia. reflexivity.
Qed.
Lemma says_change_other p : forall f o q, under p q = None -> says (change_at p f o) q = says o q.
Proof.
  unfold says. induction p as [|[i j] p IH]; intros f o q Hu; [discriminate|]. cbn [change_at]. destruct (nth_error (nth i (lists o) []) j) as [c|] eqn:Ec; [|reflexivity].
  destruct q as [|[i' j'] q].
  - cbn [at_address option_map]. now rewrite self_set_lists by apply set_nth_length.
  - cbn [under] in Hu. cbn [at_address]. rewrite lists_set_lists by apply set_nth_length. destruct (Nat.eq_dec i i') as [<-|Hi].
    + rewrite set_nth_same by exact (nth_lists_lt o i j c Ec). rewrite set_nth_error. destruct (Nat.eq_dec j j') as [<-|Hj]; [|reflexivity].
      rewrite !Nat.eqb_refl in Hu. cbn [andb] in Hu. assert (Hlt : (j <? length (nth i (lists o) []))%nat = true) by (apply Nat.ltb_lt; apply nth_error_Some; congruence).
      rewrite Hlt, Ec. now apply IH.
    + now rewrite set_nth_other by exact Hi.
Qed.
Lemma change_missing p : forall f o, at_address o p = None -> change_at p f o = o.
Proof.
  induction p as [|[i j] p IH]; intros f o H; [discriminate|]. cbn [change_at at_address] in *. destruct (nth_error (nth i (lists o) []) j) as [c|] eqn:Ec; [|reflexivity].
  rewrite IH by exact H. assert (G : forall (A : Type) k (l : list A) v, nth_error l k = Some v -> set_nth k v l = l).
  { clear. intros A k l v. revert k. induction l as [|x l IH]; intros [|k] H; cbn [set_nth nth_error] in *; try discriminate; [congruence|]. now rewrite IH. }
  rewrite (G _ j _ c Ec). rewrite G by (apply nth_error_nth'; exact (nth_lists_lt o i j c Ec)). destruct o as [ty ka ea tx vec sl mis unk]. unfold set_lists, lists. cbn [oslots omis set_slots set_mis].
  rewrite firstn_app, Nat.sub_diag, firstn_all. cbn [firstn]. rewrite app_nil_r, app_nth2, Nat.sub_diag by lia. reflexivity.
Qed.

(** ** Taking a child out *)
Definition shift (q : address) (i j : nat) (r : address) : address :=
  match under q r with
  | Some ((i', j') :: s) => if (i' =? i)%nat && (j <=? j')%nat then q ++ (i, S j') :: s else r
  | _ => r
  end.
Lemma remove_nth_error {A} j (l : list A) k : nth_error (remove_nth j l) k = nth_error l (if (j <=? k)%nat then S k else k).
Proof.
  revert j k. induction l as [|x l IH]; intros j k.
  - replace (remove_nth j (@nil A)) with (@nil A) by (now destruct j). now destruct (j <=? k)%nat; destruct k.
  - destruct j as [|j]; cbn [remove_nth Nat.leb]; [reflexivity|]. destruct k as [|k]; cbn [nth_error Nat.leb]; [reflexivity|]. rewrite IH. now destruct (j <=? k)%nat.
Qed.
Lemma update_length' i v (l : list (list obj)) : length (update i v l) = length l.
Proof. revert i. induction l as [|x l IH]; intros [|i]; cbn [update length]; auto. Qed.
Lemma update_nth i v (l : list (list obj)) k : (i < length l)%nat -> nth k (update i v l) [] = if (k =? i)%nat then v else nth k l [].
Proof.
  revert i k. induction l as [|x l IH]; intros i k H; cbn [length] in H; [lia|]. destruct i as [|i], k as [|k]; cbn [update nth Nat.eqb]; auto. apply IH. lia.
Qed.
Definition without (i j : nat) (y : obj) : obj := set_slots y (update i (remove_nth j (nth i (oslots y) [])) (oslots y)).
Lemma lists_slots o v k : length v = length (oslots o) -> nth k (lists (set_slots o v)) [] = if (k <? length (oslots o))%nat then nth k v [] else nth k (lists o) [].
Proof.
  destruct o as [ty ka ea tx vec sl mis unk]. unfold lists. cbn [oslots omis set_slots]. intros H. destruct (Nat.ltb_spec k (length sl)).
  - now rewrite app_nth1 by lia.
  - rewrite !app_nth2 by lia. now rewrite H.
Qed.
Lemma lists_nth o k : (k < length (oslots o))%nat -> nth k (lists o) [] = nth k (oslots o) [].
Proof. intros H. unfold lists. now rewrite app_nth1. Qed.
Lemma self_set_slots y v : length v = length (oslots y) -> self (set_slots y v) = self y.
Proof. intros H. destruct y. unfold self. cbn [oslots set_slots oty oka oea otext ovec ounk] in *. now rewrite H. Qed.
Lemma says_without i j y r : (i < length (oslots y))%nat -> says (without i j y) r = says y (shift [] i j r).
Proof.
  intros Hi. unfold says, without. destruct r as [|[i' j'] r].
  - cbn [shift under at_address option_map]. now rewrite self_set_slots by apply update_length'.
  - unfold shift. cbn [under]. cbn [at_address]. rewrite lists_slots by apply update_length'. destruct (Nat.ltb_spec i' (length (oslots y))) as [Hl|Hl].
    + rewrite update_nth by exact Hi. destruct (Nat.eqb_spec i' i) as [->|Hn]; cbn [andb].
      * rewrite remove_nth_error. destruct (j <=? j')%nat; cbn [app at_address]; now rewrite lists_nth by exact Hi.
      * cbn [at_address]. now rewrite lists_nth by exact Hl.
    + destruct (Nat.eqb_spec i' i); [lia|]. reflexivity.
Qed.
Lemma says_take_out q i j o y r : at_address o q = Some y -> (i < length (oslots y))%nat -> says (change_at q (without i j) o) r = says o (shift q i j r).
Proof.
  intros Hq Hi. destruct (under q r) as [s|] eqn:Eu.
  - apply under_spec in Eu. subst r. unfold says. rewrite (at_change_below q _ o y s Hq). fold (says (without i j y) s). rewrite says_without by exact Hi. unfold says, shift. rewrite under_app. cbn [under].
    destruct s as [|[i' j'] s]; [rewrite app_nil_r, Hq; reflexivity|]. destruct ((i' =? i)%nat && (j <=? j')%nat); cbn [app]; rewrite at_app, Hq; reflexivity.
  - rewrite says_change_other by exact Eu. unfold shift. now rewrite Eu.
Qed.

(** ** A file in order: the ids of the map are where it says; other ids are of elements made by an update. *)
Definition type_of (o : obj) (p : address) : option N := option_map oty (at_address o p).
Definition said_type (s : option (N * attrs * elem_attrs * option str * list (str * str * str) * list str * nat)) : option N :=
  match s with Some (ty, _, _, _, _, _, _) => Some ty | None => None end.
Definition said_id (s : option (N * attrs * elem_attrs * option str * list (str * str * str) * list str * nat)) : option str :=
  match s with Some (ty, ka, _, _, _, _, _) => if is_a ty Type_Object then find_value (S_ "id") ka else None | None => None end.
Lemma type_says o p : type_of o p = said_type (says o p).
Proof. unfold type_of, says. now destruct (at_address o p). Qed.
Lemma id_says o p : id_at o p = said_id (says o p).
Proof. unfold id_at, says. now destruct (at_address o p). Qed.
(** A kml element has one feature at most, and no feature elsewhere. *)
Definition kml_ok (o : obj) : Prop := forall q, type_of o q = Some Type_kml ->
  (forall j, type_of o (q ++ [(0%nat, S j)]) = None) /\ (forall j t, type_of o (q ++ [(1%nat, j)]) = Some t -> is_a t Type_Feature = false) /\
  (forall y, at_address o q = Some y -> length (oslots y) = 2%nat).
Record consistent (f : file) : Prop := {
  c_sound : forall id p, mget id (snd f) = Some (Here p) -> id_at (fst f) p = Some id;
  c_complete : forall id p, id_at (fst f) p = Some id -> mget id (snd f) = None \/ mget id (snd f) = Some (Here p);
  c_alive : forall id, mget id (snd f) <> Some Orphan;
  c_out : forall id q, mget id (snd f) = Some (Out q) -> type_of (fst f) q = Some Type_kml -> type_of (fst f) (q ++ [(0%nat, 0%nat)]) = None;
  c_kml : kml_ok (fst f) }.
Lemma mget_map (g : place -> place) id m : mget id (map (fun e => (fst e, g (snd e))) m) = option_map g (mget id m).
Proof. induction m as [|[k v] m IH]; [reflexivity|]. cbn [map mget fst snd]. destruct (eqs id k); [reflexivity|exact IH]. Qed.
Lemma list_app_cases {A} (a b c d : list A) : a ++ b = c ++ d -> (exists e, c = a ++ e /\ b = e ++ d) \/ (exists e, a = c ++ e /\ d = e ++ b).
Proof.
  revert c. induction a as [|x a IH]; intros c H.
  - left. exists c. auto.
  - destruct c as [|y c]; [right; exists (x :: a); auto|]. cbn [app] in H. inversion H; subst. destruct (IH _ H2) as [(e & -> & ->)|(e & -> & ->)]; [left|right]; exists e; auto.
Qed.
(** Each address before [shift] is one after [moved]. *)
Lemma moved_here m q i j p p' : moved m q i j (Here p) = Here p' -> shift q i j p' = p.
Proof.
  cbn [moved]. destruct (under q p) as [[|[i' j'] r]|] eqn:Eu.
  - intros H. inversion H; subst. unfold shift. now rewrite Eu.
  - destruct (Nat.eqb_spec i' i) as [->|Hn].
    + destruct (Nat.eqb_spec j' j) as [->|Hj].
      * destruct r; [discriminate|]. destruct (held m _ _); discriminate.
      * apply under_spec in Eu. subst p. intros H. inversion H; subst p'. clear H. destruct (Nat.ltb_spec j j').
        -- unfold shift. rewrite under_app, Nat.eqb_refl. destruct (Nat.leb_spec j (j' - 1)); [|lia]. cbn [andb]. f_equal. f_equal. f_equal. lia.
        -- unfold shift. rewrite under_app, Nat.eqb_refl. destruct (Nat.leb_spec j j'); [lia|]. reflexivity.
    + intros H. inversion H; subst. unfold shift. rewrite Eu. destruct (Nat.eqb_spec i' i); [congruence|]. reflexivity.
  - intros H. inversion H; subst. unfold shift. now rewrite Eu.
Qed.
Lemma shift_moved m q i j r : moved m q i j (Here (shift q i j r)) = Here r.
Proof.
  unfold shift. destruct (under q r) as [[|[i' j'] s]|] eqn:Eu.
  - cbn [moved]. now rewrite Eu.
  - apply under_spec in Eu. subst r. destruct (Nat.eqb_spec i' i) as [->|Hn]; cbn [andb].
    + destruct (Nat.leb_spec j j').
      * cbn [moved]. rewrite under_app, Nat.eqb_refl. destruct (Nat.eqb_spec (S j') j); [lia|]. destruct (Nat.ltb_spec j (S j')); [|lia]. cbn [Nat.sub]. now rewrite Nat.sub_0_r.
      * cbn [moved]. rewrite under_app, Nat.eqb_refl. destruct (Nat.eqb_spec j' j); [lia|]. destruct (Nat.ltb_spec j j'); [lia|]. reflexivity.
    + cbn [moved]. rewrite under_app. destruct (Nat.eqb_spec i' i); [congruence|]. reflexivity.
  - cbn [moved]. now rewrite Eu.
Qed.
Lemma under_snoc q p s : under q (p ++ [s]) = match under q p with Some r => Some (r ++ [s]) | None => if list_eq_dec (fun a b : nat * nat => ltac:(decide equality; apply Nat.eq_dec)) q (p ++ [s]) then Some [] else None end.
Proof.
  destruct (under q p) as [r|] eqn:Eu.
  - apply under_spec in Eu. subst. rewrite <- app_assoc. apply under_app.
  - destruct (list_eq_dec _ q (p ++ [s])) as [->|Hn]; [rewrite <- (app_nil_r (p ++ [s])) at 2; apply under_app|].
    destruct (under q (p ++ [s])) as [r|] eqn:E; [|reflexivity]. exfalso. apply under_spec in E. destruct (list_app_cases _ _ _ _ E) as [(e & He & Hs)|(e & He & Hs)].
    + subst q. destruct e as [|e1 e]; [cbn [app] in Hs; subst; rewrite app_nil_r in Eu; rewrite <- (app_nil_r p) in Eu at 2; rewrite under_app in Eu; discriminate|].
      cbn [app] in Hs. inversion Hs. symmetry in H1. apply app_eq_nil in H1 as [-> ->]. subst. apply Hn. reflexivity.
    + subst p. rewrite under_app in Eu. discriminate.
Qed.
Lemma shift_snoc q i j p i' j' : shift q i j (p ++ [(i', j')]) = shift q i j p ++ [(i', if (if list_eq_dec (fun a b : nat * nat => ltac:(decide equality; apply Nat.eq_dec)) q p then (i' =? i)%nat && (j <=? j')%nat else false) then S j' else j')].
Proof.
  unfold shift. destruct (list_eq_dec _ q p) as [<-|Hn].
  - rewrite under_app. assert (E : under q q = Some []) by (rewrite <- (app_nil_r q) at 2; apply under_app). rewrite E. destruct (Nat.eqb_spec i' i) as [->|]; cbn [andb]; [|reflexivity]. now destruct (j <=? j')%nat.
  - rewrite under_snoc. destruct (under q p) as [[|[a b] r]|] eqn:Eu.
    + apply under_spec in Eu. rewrite app_nil_r in Eu. congruence.
    + cbn [app]. destruct ((a =? i)%nat && (j <=? b)%nat); [|reflexivity]. apply under_spec in Eu. subst p. now rewrite <- app_assoc.
    + destruct (list_eq_dec _ q (p ++ [(i', j')])); reflexivity.
Qed.

Lemma slots_of_says o q y z : says o q = Some (self y) -> at_address o q = Some z -> length (oslots z) = length (oslots y).
Proof. unfold says. intros H Hz. rewrite Hz in H. cbn [option_map] in H. unfold self in H. inversion H. auto. Qed.
(** Taking out the element an entry of the map refers to. *)
Lemma take_out_consistent f q i j y id : consistent f -> at_address (fst f) q = Some y -> (i < length (oslots y))%nat ->
  mget id (snd f) = Some (Here (q ++ [(i, j)])) -> (oty y = Type_kml -> i = 0%nat /\ j = 0%nat) -> consistent (take_out q i j f).
Proof.
  intros [Cs Cc Ca Co Ck] Hy Hi Hid Hkml. destruct f as [o m]. cbn [fst snd] in *.
  assert (Hsay : forall r, says (change_at q (without i j) o) r = says o (shift q i j r)) by (intros r; now apply says_take_out with (y := y)).
  assert (Hid' : forall r, id_at (change_at q (without i j) o) r = id_at o (shift q i j r)) by (intros r; now rewrite !id_says, Hsay).
  assert (Hty : forall r, type_of (change_at q (without i j) o) r = type_of o (shift q i j r)) by (intros r; now rewrite !type_says, Hsay).
  assert (Hqq : shift q i j q = q) by (unfold shift; assert (E : under q q = Some []) by (rewrite <- (app_nil_r q) at 2; apply under_app); now rewrite E).
  unfold take_out. cbn [fst snd]. fold (without i j). split; cbn [fst snd].
  - intros id0 p Hp. rewrite mget_map in Hp. destruct (mget id0 m) as [w|] eqn:Ew; [|discriminate]. cbn [option_map] in Hp. inversion Hp as [Hp']. clear Hp. rewrite Hid'.
    destruct w as [p0|p0| |]; try discriminate.
    + apply moved_here in Hp'. rewrite Hp'. now apply Cs.
    + cbn [moved] in Hp'. destruct (under q p0) as [[|[a b] r]|]; try discriminate. destruct (a =? i)%nat; [|discriminate]. destruct (b =? j)%nat; discriminate.
  - intros id0 p Hp. rewrite Hid' in Hp. rewrite mget_map. apply Cc in Hp as [->| ->]; cbn [option_map]; [now left|right; now rewrite shift_moved].
  - intros id0. rewrite mget_map. destruct (mget id0 m) as [w|] eqn:Ew; [|discriminate]. cbn [option_map]. intros H. inversion H as [H']. destruct w as [p0|p0| |].
    + cbn [moved] in H'. destruct (under q p0) as [[|[a b] r]|] eqn:Eu; try discriminate. destruct (Nat.eqb_spec a i) as [->|]; [|discriminate]. destruct (Nat.eqb_spec b j) as [->|]; [|discriminate].
      destruct r as [|s r]; [discriminate|]. assert (Hh : held m (q ++ [(i, j)]) p0 = true); [|rewrite Hh in H'; discriminate].
      unfold held. apply existsb_exists. exists (id, Here (q ++ [(i, j)])). split; [now apply mget_in|]. cbn [snd]. rewrite <- (app_nil_r (q ++ [(i, j)])) at 2. rewrite under_app.
      apply under_spec in Eu. subst p0. replace (q ++ (i, j) :: s :: r) with ((q ++ [(i, j)]) ++ s :: r) by (now rewrite <- app_assoc). now rewrite under_app.
    + cbn [moved] in H'. destruct (under q p0) as [[|[a b] r]|]; try discriminate. destruct (a =? i)%nat; [|discriminate]. destruct (b =? j)%nat; discriminate.
    + discriminate.
    + exact (Ca id0 Ew).
  - intros id0 q0 Hq0 Hk. rewrite Hty in *. rewrite mget_map in Hq0. destruct (mget id0 m) as [w|] eqn:Ew; [|discriminate]. cbn [option_map] in Hq0. inversion Hq0 as [Hq']. clear Hq0.
    rewrite shift_snoc. destruct (Ck _ Hk) as (K1 & K2 & K3). destruct (list_eq_dec _ q q0) as [<-|Hn].
    + rewrite Hqq in *. assert (Hyk : oty y = Type_kml) by (unfold type_of in Hk; rewrite Hy in Hk; cbn [option_map] in Hk; congruence). destruct (Hkml Hyk) as [-> ->]. cbn [Nat.eqb Nat.leb andb]. apply K1.
    + destruct w as [p0|p0| |]; try discriminate.
      * cbn [moved] in Hq'. destruct (under q p0) as [[|[a b] r]|]; try discriminate. destruct (a =? i)%nat; [|discriminate]. destruct (b =? j)%nat; [|discriminate]. destruct r; [|destruct (held m _ _); discriminate]. congruence.
      * assert (Hs : moved m q i j (Here p0) = Here q0).
        { cbn [moved] in *. destruct (under q p0) as [[|[a b] r]|]; try congruence. destruct (a =? i)%nat; [|congruence]. destruct (b =? j)%nat; [discriminate|]. inversion Hq'. reflexivity. }
        apply moved_here in Hs. rewrite Hs in *. eapply Co; eauto.
  - intros q0 Hk. rewrite Hty in Hk. destruct (Ck _ Hk) as (K1 & K2 & K3). split; [|split].
    + intros j0. rewrite Hty, shift_snoc. match goal with |- context [if ?b then S (S j0) else S j0] => destruct b end; apply K1.
    + intros j0 t Ht. rewrite Hty, shift_snoc in Ht. eapply K2. exact Ht.
    + intros z Hz. pose proof (Hsay q0) as Hs. unfold says in Hs at 1. rewrite Hz in Hs. cbn [option_map] in Hs. symmetry in Hs. assert (Hs' := Hs). unfold says in Hs'. destruct (at_address o (shift q i j q0)) as [z'|] eqn:Ez; [|discriminate].
      rewrite <- (slots_of_says _ _ _ _ Hs Ez). now apply K3.
Qed.

(** ** Deleting *)
(** The element at [p] is a feature of a container or of kml. *)
Definition deletable (o : obj) (p : address) : Prop :=
  exists q i j y x, p = q ++ [(i, j)] /\ at_address o q = Some y /\ (i < length (oslots y))%nat /\ index_of_key Type_Feature (c_slots (cls (oty y))) 0 = Some i /\
    (is_a (oty y) Type_Container = true \/ oty y = Type_kml) /\ at_address o p = Some x /\ is_a (oty x) Type_Feature = true.
Lemma first_with_some id l : forall k j, first_with id l k = Some j -> exists c, nth_error l (j - k) = Some c /\ id_of c = Some id /\ (k <= j)%nat.
Proof.
  induction l as [|c l IH]; intros k j; [discriminate|]. cbn [first_with]. destruct (id_of c) as [i|] eqn:Ei.
  - destruct (eqs id i) eqn:E.
    + intros H. inversion H; subst. rewrite Nat.sub_diag. exists c. apply eqs_spec in E. subst. auto.
    + intros H. destruct (IH _ _ H) as (c' & Hc & Hid & Hle). exists c'. replace (j - k)%nat with (S (j - S k)) by lia. auto with arith.
  - intros H. destruct (IH _ _ H) as (c' & Hc & Hid & Hle). exists c'. replace (j - k)%nat with (S (j - S k)) by lia. auto with arith.
Qed.
Lemma first_with_none id l : forall k, first_with id l k = None -> forall j c, nth_error l j = Some c -> id_of c <> Some id.
Proof.
  induction l as [|c l IH]; intros k H j c' Hc; [destruct j; discriminate|]. cbn [first_with] in H. destruct j as [|j]; cbn [nth_error] in Hc.
  - inversion Hc; subst. destruct (id_of c') as [i|]; [|discriminate]. destruct (eqs id i) eqn:E; [discriminate|]. intros Hx. inversion Hx; subst. rewrite eqs_refl in E. discriminate.
  - destruct (match id_of c with Some i => eqs id i | None => false end); [discriminate|]. eapply IH; eauto.
Qed.
Lemma at_child o q y i j : at_address o q = Some y -> (i < length (oslots y))%nat -> at_address o (q ++ [(i, j)]) = nth_error (nth i (oslots y) []) j.
Proof. intros Hy Hi. rewrite at_app, Hy. cbn [at_address]. rewrite lists_nth by exact Hi. now destruct (nth_error (nth i (oslots y) []) j). Qed.
Lemma kml_slot y : oty y = Type_kml -> index_of_key Type_Feature (c_slots (cls (oty y))) 0 = Some 0%nat /\ is_a (oty y) Type_Container = false.
Proof. intros ->. split; vm_compute; reflexivity. Qed.
Lemma parent_at_snoc o q i j y : at_address o q = Some y -> parent_at o (q ++ [(i, j)]) = if (i <? length (oslots y))%nat then Some q else None.
Proof. intros Hy. unfold parent_at. rewrite rev_app_distr. cbn [rev app]. now rewrite rev_involutive, Hy. Qed.
Lemma at_kml_head f q y : consistent f -> at_address (fst f) q = Some y -> oty y = Type_kml -> forall j c, nth_error (nth 0 (oslots y) []) j = Some c -> j = 0%nat.
Proof.
  intros Hc Hy Hk j c Hn. destruct (c_kml f Hc q) as (K1 & _ & K3); [unfold type_of; rewrite Hy; cbn [option_map]; congruence|].
  destruct j as [|j]; [reflexivity|]. specialize (K1 j). unfold type_of in K1. rewrite (at_child _ _ y) in K1 by (rewrite ?(K3 y Hy); auto with arith). rewrite Hn in K1. discriminate.
Qed.
Lemma delete_deletes f id q i j : consistent f -> mget id (snd f) = Some (Here (q ++ [(i, j)])) -> deletable (fst f) (q ++ [(i, j)]) ->
  delete_by_id id f = Ok (take_out q i j f) /\ exists y, at_address (fst f) q = Some y /\ (i < length (oslots y))%nat /\ (oty y = Type_kml -> i = 0%nat /\ j = 0%nat).
Proof.
  intros Hc Hm (q' & i' & j' & y & x & Hp & Hy & Hi & Hs & Ht & Hx & Hf). apply app_inj_tail in Hp as [<- Hp]. inversion Hp; subst i' j'. clear Hp.
  pose proof Hx as Hx'. rewrite (at_child _ _ y) in Hx' by auto. split.
  - unfold delete_by_id. rewrite Hm, Hx, Hf, (parent_at_snoc _ _ _ _ y Hy). apply Nat.ltb_lt in Hi. rewrite Hi. apply Nat.ltb_lt in Hi. f_equal. unfold delete_in. rewrite Hy. unfold slot_of. rewrite Hs.
    destruct Ht as [Ht|Ht].
    + rewrite Ht. destruct (first_with id (nth i (oslots y) []) 0) as [j0|] eqn:Ej.
      * apply first_with_some in Ej as (c & Hn & Hid & _). rewrite Nat.sub_0_r in Hn. assert (Hi0 : id_at (fst f) (q ++ [(i, j0)]) = Some id) by (unfold id_at; rewrite (at_child _ _ y), Hn by auto; exact Hid).
        apply (c_complete f Hc) in Hi0 as [Hi0|Hi0]; rewrite Hm in Hi0; [discriminate|]. inversion Hi0 as [H0]. apply app_inv_head in H0. inversion H0. reflexivity.
      * exfalso. apply (first_with_none _ _ _ Ej j x Hx'). apply (c_sound f Hc) in Hm. unfold id_at in Hm. now rewrite Hx in Hm.
    + destruct (kml_slot y Ht) as [Hk1 ->]. rewrite Hs in Hk1. inversion Hk1; subst i. rewrite Ht, N.eqb_refl. pose proof (at_kml_head f q y Hc Hy Ht j x Hx') as ->. destruct (nth 0 (oslots y) []); [discriminate|reflexivity].
  - exists y. split; [exact Hy|]. split; [exact Hi|]. intros Hk. destruct (kml_slot y Hk) as [Hk1 _]. rewrite Hs in Hk1. inversion Hk1; subst i. split; [reflexivity|]. exact (at_kml_head f q y Hc Hy Hk j x Hx').
Qed.
Lemma delete_keeps f id : consistent f -> (forall p, mget id (snd f) = Some (Here p) -> ~ deletable (fst f) p) -> delete_by_id id f = Ok f.
Proof.
  intros Hc Hn. unfold delete_by_id. destruct (mget id (snd f)) as [[p|q| |]|] eqn:Em; auto.
  - destruct (at_address (fst f) p) as [x|] eqn:Hx; [|reflexivity]. destruct (is_a (oty x) Type_Feature) eqn:Hf; [|reflexivity]. destruct (parent_at (fst f) p) as [q|] eqn:Eq; [|reflexivity]. f_equal.
    assert (Hp : exists i j y, p = q ++ [(i, j)] /\ at_address (fst f) q = Some y /\ (i < length (oslots y))%nat).
    { unfold parent_at in Eq. destruct (rev p) as [|[i j] r] eqn:Er; [discriminate|]. destruct (at_address (fst f) (rev r)) as [y|] eqn:Ey; [|discriminate]. destruct (Nat.ltb_spec i (length (oslots y))); [|discriminate].
      inversion Eq; subst q. exists i, j, y. split; [|auto]. rewrite <- (rev_involutive p), Er. reflexivity. }
    destruct Hp as (i & j & y & -> & Hy & Hi). unfold delete_in. rewrite Hy. unfold slot_of. destruct (index_of_key Type_Feature (c_slots (cls (oty y))) 0) as [i0|] eqn:Es; [|reflexivity].
    pose proof Hx as Hx'. rewrite (at_child _ _ y) in Hx' by auto.
    destruct (is_a (oty y) Type_Container) eqn:Ec.
    + destruct (first_with id (nth i0 (oslots y) []) 0) as [j0|] eqn:Ej; [|reflexivity]. exfalso. apply first_with_some in Ej as (c & Hnc & Hid & _). rewrite Nat.sub_0_r in Hnc.
      assert (Hi0 : (i0 < length (oslots y))%nat). { destruct (Nat.lt_ge_cases i0 (length (oslots y))); auto. rewrite nth_overflow in Hnc by auto. destruct j0; discriminate. }
      assert (Hid0 : id_at (fst f) (q ++ [(i0, j0)]) = Some id) by (unfold id_at; rewrite (at_child _ _ y), Hnc by auto; exact Hid).
      apply (c_complete f Hc) in Hid0 as [Hid0|Hid0]; rewrite Em in Hid0; [discriminate|]. inversion Hid0 as [H0]. apply app_inv_head in H0. inversion H0; subst i0 j0. apply (Hn _ eq_refl).
      exists q, i, j, y, x. repeat split; auto.
    + destruct (N.eqb_spec (oty y) Type_kml) as [Hk|]; [|reflexivity]. destruct (nth i0 (oslots y) []) as [|c l] eqn:El; [reflexivity|]. exfalso.
      destruct (kml_slot y Hk) as [Hk1 _]. rewrite Es in Hk1. inversion Hk1; subst i0. destruct (c_kml f Hc q) as (K1 & K2 & K3); [unfold type_of; rewrite Hy; cbn [option_map]; congruence|].
      pose proof (K3 y Hy) as Hl. destruct i as [|[|i]]; [| |lia].
      * apply (Hn _ eq_refl). exists q, 0%nat, j, y, x. repeat split; auto.
      * specialize (K2 j (oty x)). unfold type_of in K2. rewrite Hx in K2. rewrite (K2 eq_refl) in Hf. discriminate.
  - f_equal. unfold delete_in. destruct (at_address (fst f) q) as [y|] eqn:Hy; [|reflexivity]. unfold slot_of. destruct (index_of_key Type_Feature (c_slots (cls (oty y))) 0) as [i0|] eqn:Es; [|reflexivity].
    destruct (is_a (oty y) Type_Container) eqn:Ec.
    + destruct (first_with id (nth i0 (oslots y) []) 0) as [j0|] eqn:Ej; [|reflexivity]. exfalso. apply first_with_some in Ej as (c & Hnc & Hid & _). rewrite Nat.sub_0_r in Hnc.
      assert (Hi0 : (i0 < length (oslots y))%nat). { destruct (Nat.lt_ge_cases i0 (length (oslots y))); auto. rewrite nth_overflow in Hnc by auto. destruct j0; discriminate. }
      assert (Hid0 : id_at (fst f) (q ++ [(i0, j0)]) = Some id) by (unfold id_at; rewrite (at_child _ _ y), Hnc by auto; exact Hid).
      apply (c_complete f Hc) in Hid0 as [Hid0|Hid0]; congruence.
    + destruct (N.eqb_spec (oty y) Type_kml) as [Hk|]; [|reflexivity]. destruct (nth i0 (oslots y) []) as [|c l] eqn:El; [reflexivity|]. exfalso.
      destruct (kml_slot y Hk) as [Hk1 _]. rewrite Es in Hk1. inversion Hk1; subst i0. assert (Hty : type_of (fst f) q = Some Type_kml) by (unfold type_of; rewrite Hy; cbn [option_map]; congruence).
      destruct (c_kml f Hc q Hty) as (_ & _ & K3). pose proof (c_out f Hc id q Em Hty) as Ho. unfold type_of in Ho. rewrite (at_child _ _ y) in Ho by (rewrite ?(K3 y Hy); auto with arith). rewrite El in Ho. discriminate.
  - exfalso. exact (c_alive f Hc id Em).
Qed.

(** ** Prefixes and [shift] *)
Lemma shift_length q i j r : length (shift q i j r) = length r.
Proof.
  unfold shift. destruct (under q r) as [[|[a b] s]|] eqn:Eu; auto. destruct ((a =? i)%nat && (j <=? b)%nat); auto. apply under_spec in Eu. subst r. rewrite !app_length. reflexivity.
Qed.
Lemma shift_app q i j b : forall a, exists b', shift q i j (a ++ b) = shift q i j a ++ b'.
Proof.
  induction b as [|s b IH] using rev_ind; intros a; [exists []; now rewrite !app_nil_r|]. rewrite app_assoc. destruct s as [i' j']. rewrite shift_snoc. destruct (IH a) as (b' & ->). rewrite <- app_assoc. eauto.
Qed.
Lemma shift_inj q i j a b : shift q i j a = shift q i j b -> a = b.
Proof. intros H. pose proof (shift_moved [] q i j a) as H1. rewrite H, shift_moved in H1. congruence. Qed.
Lemma shift_image q i j p : (exists r, shift q i j r = p) <-> under (q ++ [(i, j)]) p = None.
Proof.
  split.
  - intros (r & <-). unfold shift. destruct (under q r) as [[|[a b] s]|] eqn:Eu.
    + apply under_spec in Eu. rewrite app_nil_r in Eu. subst r. destruct (under (q ++ [(i, j)]) q) as [s|] eqn:E; [|reflexivity]. apply under_spec in E. apply (f_equal (@length _)) in E. rewrite !app_length in E. cbn [length] in E. lia.
    + apply under_spec in Eu. subst r. destruct ((a =? i)%nat && (j <=? b)%nat) eqn:Eb.
      * destruct (under (q ++ [(i, j)]) (q ++ (i, S b) :: s)) as [t|] eqn:E; [|reflexivity]. apply under_spec in E. rewrite <- app_assoc in E. apply app_inv_head in E. inversion E. subst. apply andb_true_iff in Eb as [_ Eb]. apply Nat.leb_le in Eb. lia.
      * destruct (under (q ++ [(i, j)]) (q ++ (a, b) :: s)) as [t|] eqn:E; [|reflexivity]. apply under_spec in E. rewrite <- app_assoc in E. apply app_inv_head in E. inversion E. subst. rewrite Nat.eqb_refl, Nat.leb_refl in Eb. discriminate.
    + destruct (under (q ++ [(i, j)]) r) as [t|] eqn:E; [|reflexivity]. apply under_spec in E. subst r. rewrite <- app_assoc, under_app in Eu. discriminate.
  - intros H. assert (E : exists p', moved [] q i j (Here p) = Here p').
    { cbn [moved]. destruct (under q p) as [[|[a b] s]|] eqn:Eu; eauto. destruct (Nat.eqb_spec a i) as [->|]; eauto. destruct (Nat.eqb_spec b j) as [->|]; eauto.
      exfalso. apply under_spec in Eu. subst p. replace (q ++ (i, j) :: s) with ((q ++ [(i, j)]) ++ s) in H by (now rewrite <- app_assoc). rewrite under_app in H. discriminate. }
    destruct E as (p' & E). apply moved_here in E. eauto.
Qed.
Lemma deletable_shift o q i j y r : at_address o q = Some y -> (i < length (oslots y))%nat ->
  deletable (change_at q (without i j) o) r <-> deletable o (shift q i j r).
Proof.
  intros Hy Hi. assert (Hsay : forall r, says (change_at q (without i j) o) r = says o (shift q i j r)) by (intros r'; now apply says_take_out with (y := y)).
  assert (Hw : forall r z, at_address (change_at q (without i j) o) r = Some z -> exists z', at_address o (shift q i j r) = Some z' /\ self z' = self z).
  { intros r' z Hz. pose proof (Hsay r') as H. unfold says in H. rewrite Hz in H. destruct (at_address o (shift q i j r')) as [z'|]; cbn [option_map] in H; [|discriminate]. exists z'. split; [auto|congruence]. }
  assert (Hw' : forall r z', at_address o (shift q i j r) = Some z' -> exists z, at_address (change_at q (without i j) o) r = Some z /\ self z' = self z).
  { intros r' z Hz. pose proof (Hsay r') as H. unfold says in H. rewrite Hz in H. destruct (at_address (change_at q (without i j) o) r') as [z'|]; cbn [option_map] in H; [|discriminate]. exists z'. split; [auto|congruence]. }
  assert (Hself : forall a b, self a = self b -> oty a = oty b /\ length (oslots a) = length (oslots b)) by (intros a b H; unfold self in H; inversion H; auto).
  split.
  - intros (q0 & i0 & j0 & y0 & x0 & -> & H1 & H2 & H3 & H4 & H5 & H6). destruct (Hw _ _ H1) as (y1 & G1 & G2), (Hw _ _ H5) as (x1 & G3 & G4). apply Hself in G2 as [G2 G2'], G4 as [G4 _].
    rewrite shift_snoc in G3. rewrite shift_snoc. do 3 eexists. exists y1, x1. split; [reflexivity|]. split; [exact G1|]. rewrite G2, G2', G4. repeat split; auto.
  - intros (q0 & i0 & j0 & y0 & x0 & Hr & H1 & H2 & H3 & H4 & H5 & H6). destruct r as [|s r _] using rev_ind.
    { apply (f_equal (@length _)) in Hr. rewrite shift_length, app_length in Hr. cbn [length] in Hr. lia. }
    destruct s as [i1 j1]. assert (Hs := Hr). rewrite shift_snoc in Hs. apply app_inj_tail in Hs as [Hs1 Hs2]. inversion Hs2; subst i1. rewrite <- Hs1 in H1. destruct (Hw' _ _ H1) as (y1 & G1 & G2), (Hw' _ _ H5) as (x1 & G3 & G4). apply Hself in G2 as [G2 G2'], G4 as [G4 _].
    exists r, i0, j1, y1, x1. rewrite <- G2, <- G2', <- G4. repeat split; auto.
Qed.

(** ** Many deletions *)
Fixpoint delete_all (ids : list str) (f : file) : res file :=
  match ids with [] => Ok f | id :: r => do f' <- delete_by_id id f; delete_all r f' end.
(** [p] is, or is below, a feature deleted by one of the ids. *)
Definition doomed (o : obj) (ids : list str) (p : address) : Prop :=
  exists id d r, In id ids /\ id_at o d = Some id /\ deletable o d /\ p = d ++ r.
(** New places in the same parents and lists, in the same order. *)
Definition orderly (g : address -> address) : Prop := g [] = [] /\
  exists h : address -> nat -> nat -> nat, (forall r i j, g (r ++ [(i, j)]) = g r ++ [(i, h r i j)]) /\ forall r i j k, (j < k)%nat -> (h r i j < h r i k)%nat.
Lemma shift_orderly q i j : orderly (shift q i j).
Proof.
  split; [destruct q as [|[a b] q]; reflexivity|]. exists (fun r i' j' => if (if list_eq_dec (fun a b : nat * nat => ltac:(decide equality; apply Nat.eq_dec)) q r then (i' =? i)%nat && (j <=? j')%nat else false) then S j' else j').
  split; [intros r i' j'; apply shift_snoc|]. intros r i' a b Hab. destruct (list_eq_dec _ q r); [|exact Hab]. destruct (i' =? i)%nat; cbn [andb]; [|exact Hab]. destruct (Nat.leb_spec j a), (Nat.leb_spec j b); lia.
Qed.
Lemma orderly_comp g1 g2 : orderly g1 -> orderly g2 -> orderly (fun r => g1 (g2 r)).
Proof.
  intros (H1 & h1 & H2 & H3) (G1 & h2 & G2 & G3). split; [now rewrite G1|]. exists (fun r i j => h1 (g2 r) i (h2 r i j)). split.
  - intros r i j. now rewrite G2, H2.
  - intros r i j k H. apply H3. now apply G3.
Qed.
Lemma delete_all_spec ids : forall f, consistent f -> (forall id p, In id ids -> id_at (fst f) p = Some id -> mget id (snd f) <> None) -> exists f' g, delete_all ids f = Ok f' /\ consistent f' /\ orderly g /\
  (forall r, says (fst f') r = says (fst f) (g r)) /\ (forall p, (exists r, g r = p) <-> ~ doomed (fst f) ids p).
Proof.
  induction ids as [|id ids IH]; intros f Hc Hkn.
  - exists f, (fun r => r). split; [reflexivity|]. split; [exact Hc|]. split; [split; [reflexivity|]; exists (fun _ _ j => j); auto|]. split; [reflexivity|]. intros p. split; [intros _ (id & d & r & [] & _)|eauto].
  - cbn [delete_all].
    assert (Hcase : (exists q i j, mget id (snd f) = Some (Here (q ++ [(i, j)])) /\ deletable (fst f) (q ++ [(i, j)])) \/ (forall p, mget id (snd f) = Some (Here p) -> ~ deletable (fst f) p)).
    { destruct (mget id (snd f)) as [[p|q| |]|] eqn:Em; try (right; intros p0 Hp0; discriminate).
      destruct p as [|[i j] p _] using rev_ind.
      - right. intros p Hp (q & i & j & _ & _ & Hq & _). inversion Hp; subst p. destruct q; discriminate.
      - destruct (at_address (fst f) p) as [y|] eqn:Ey.
        2: { right. intros p0 Hp0 (q0 & i0 & j0 & y & x & Hp & Hy & _). inversion Hp0; subst p0. apply app_inj_tail in H0 as [<- _]. congruence. }
        destruct (at_address (fst f) (p ++ [(i, j)])) as [x|] eqn:Ex.
        2: { right. intros p0 Hp0 (q0 & i0 & j0 & y0 & x & Hp & Hy & _ & _ & _ & Hx & _). inversion Hp0; subst p0. congruence. }
        destruct (Nat.lt_ge_cases i (length (oslots y))) as [Hi|Hi].
        2: { right. intros p0 Hp0 (q0 & i0 & j0 & y0 & x0 & Hp & Hy & Hi0 & _). inversion Hp0; subst p0. apply app_inj_tail in H0 as [<- H0]. inversion H0; subst. assert (y0 = y) by congruence. subst. lia. }
        destruct (index_of_key Type_Feature (c_slots (cls (oty y))) 0) as [i1|] eqn:Ei.
        2: { right. intros p0 Hp0 (q0 & i0 & j0 & y0 & x0 & Hp & Hy & _ & Hs & _). inversion Hp0; subst p0. apply app_inj_tail in H0 as [<- H0]. assert (y0 = y) by congruence. subst. congruence. }
        destruct (Nat.eq_dec i1 i) as [->|Hn].
        2: { right. intros p0 Hp0 (q0 & i0 & j0 & y0 & x0 & Hp & Hy & _ & Hs & _). inversion Hp0; subst p0. apply app_inj_tail in H0 as [<- H0]. inversion H0; subst. assert (y0 = y) by congruence. subst. congruence. }
        destruct (is_a (oty x) Type_Feature) eqn:Ef.
        2: { right. intros p0 Hp0 (q0 & i0 & j0 & y0 & x0 & Hp & Hy & _ & _ & _ & Hx & Hf). inversion Hp0; subst p0. congruence. }
        destruct (is_a (oty y) Type_Container) eqn:Ec; [|destruct (N.eq_dec (oty y) Type_kml) as [Hk|Hk]].
        + left. exists p, i, j. split; [reflexivity|]. exists p, i, j, y, x. repeat split; auto.
        + left. exists p, i, j. split; [reflexivity|]. exists p, i, j, y, x. repeat split; auto.
        + right. intros p0 Hp0 (q0 & i0 & j0 & y0 & x0 & Hp & Hy & _ & _ & Ht & _). inversion Hp0; subst p0. apply app_inj_tail in H0 as [<- H0]. assert (y0 = y) by congruence. subst. destruct Ht; congruence. }
    destruct Hcase as [(q & i & j & Hm & Hd)|Hn].
    + destruct (delete_deletes f id q i j Hc Hm Hd) as (-> & y & Hy & Hi & Hk). cbn [bind]. pose proof (take_out_consistent f q i j y id Hc Hy Hi Hm Hk) as Hc1.
      assert (Hkn1 : forall id0 p, In id0 ids -> id_at (fst (take_out q i j f)) p = Some id0 -> mget id0 (snd (take_out q i j f)) <> None).
      { intros id0 p Hin Hp. unfold take_out in *. cbn [fst snd] in *. fold (without i j) in Hp. rewrite id_says, (says_take_out q i j (fst f) y p Hy Hi), <- id_says in Hp. rewrite mget_map. specialize (Hkn id0 _ (or_intror Hin) Hp). destruct (mget id0 (snd f)); [discriminate|congruence]. }
      destruct (IH _ Hc1 Hkn1) as (f' & g & Hrun & Hc' & Hinj & Hsay & Himg). exists f', (fun r => shift q i j (g r)). split; [exact Hrun|]. split; [exact Hc'|].
      assert (Hsay1 : forall r, says (fst (take_out q i j f)) r = says (fst f) (shift q i j r)) by (intros r; unfold take_out; cbn [fst]; now apply says_take_out with (y := y)).
      assert (Hid1 : forall r, id_at (fst (take_out q i j f)) r = id_at (fst f) (shift q i j r)) by (intros r; now rewrite !id_says, Hsay1).
      assert (Hdel1 : forall r, deletable (fst (take_out q i j f)) r <-> deletable (fst f) (shift q i j r)) by (intros r; unfold take_out; cbn [fst]; now apply deletable_shift with (y := y)).
      split; [exact (orderly_comp _ _ (shift_orderly q i j) Hinj)|]. split; [intros r; now rewrite Hsay, Hsay1|].
      intros p. split.
      * intros (r & Hr) (id0 & d & s & [Hin|Hin] & Hid & Hdel & Hp).
        -- subst id0. apply (c_complete f Hc) in Hid as [Hid|Hid]; rewrite Hm in Hid; [discriminate|]. inversion Hid; subst d. assert (Hu : under (q ++ [(i, j)]) p = None) by (apply shift_image; eauto). rewrite Hp, under_app in Hu. discriminate.
        -- assert (Hd1 : exists b, g r = firstn (length d) (g r) ++ b /\ shift q i j (firstn (length d) (g r)) = d).
           { exists (skipn (length d) (g r)). split; [now rewrite firstn_skipn|]. destruct (shift_app q i j (skipn (length d) (g r)) (firstn (length d) (g r))) as (b' & Hb). rewrite firstn_skipn, Hr, Hp in Hb.
             assert (Hl : length (shift q i j (firstn (length d) (g r))) = length d). { rewrite shift_length, firstn_length_le; [reflexivity|]. pose proof (shift_length q i j (g r)) as Hsl. rewrite Hr, Hp, app_length in Hsl. lia. }
             destruct (list_app_cases _ _ _ _ Hb) as [(e & He & _)|(e & He & _)].
             - rewrite He, app_length in Hl. assert (e = []) by (destruct e; [reflexivity|cbn [length] in Hl; lia]). subst e. now rewrite app_nil_r in He.
             - pose proof (f_equal (@length _) He) as Hl2. rewrite app_length in Hl2. assert (e = []) by (destruct e; [reflexivity|cbn [length] in Hl2; lia]). subst e. now rewrite app_nil_r in He. }
           destruct Hd1 as (b & Hb & Hsd). apply (proj1 (Himg (g r))); [eauto|]. exists id0, (firstn (length d) (g r)), b. split; [exact Hin|]. split; [now rewrite Hid1, Hsd|]. split; [now rewrite Hdel1, Hsd|exact Hb].
      * intros Hnd. assert (Hu : under (q ++ [(i, j)]) p = None).
        { destruct (under (q ++ [(i, j)]) p) as [s|] eqn:E; [|reflexivity]. exfalso. apply Hnd. exists id, (q ++ [(i, j)]), s. split; [now left|]. split; [now apply (c_sound f Hc)|]. split; [exact Hd|]. now apply under_spec. }
        apply shift_image in Hu as (r1 & Hr1). assert (Hnd1 : ~ doomed (fst (take_out q i j f)) ids r1).
        { intros (id0 & d & s & Hin & Hid & Hdel & Hp). apply Hnd. rewrite Hid1 in Hid. rewrite Hdel1 in Hdel. destruct (shift_app q i j s d) as (s' & Hs'). exists id0, (shift q i j d), s'. split; [now right|]. split; [exact Hid|]. split; [exact Hdel|]. rewrite <- Hs', <- Hp. now symmetry. }
        apply Himg in Hnd1 as (r & Hr). exists r. now rewrite Hr.
    + rewrite (delete_keeps f id Hc Hn). cbn [bind]. destruct (IH f Hc (fun id0 p H => Hkn id0 p (or_intror H))) as (f' & g & Hrun & Hc' & Hinj & Hsay & Himg). exists f', g. split; [exact Hrun|]. split; [exact Hc'|]. split; [exact Hinj|]. split; [exact Hsay|].
      intros p. rewrite Himg. assert (Hdd : doomed (fst f) ids p <-> doomed (fst f) (id :: ids) p); [|tauto]. split.
      * intros (id0 & d & s & Hin & H). exists id0, d, s. split; [now right|exact H].
      * intros (id0 & d & s & [<-|Hin] & Hid & Hdel & H).
        -- exfalso. apply (Hn d); [|exact Hdel]. pose proof (Hkn id d (or_introl eq_refl) Hid). apply (c_complete f Hc) in Hid. tauto.
        -- exists id0, d, s. auto.
Qed.
