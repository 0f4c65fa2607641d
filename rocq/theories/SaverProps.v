(** Property theorems about collecting features while parsing (C95), counting elements (C96) and
    schemas by name (C97). *)
From Verif Require Import Common StrMap AttributesModel XsdTables XsdModel XmlSpec XmlSpecProofs HandlerModel HandlerSpec HandlerProofs HandlerProofs2 HandlerProofs3 HandlerProps DomTables DomModel DomSpec DomProps FileModel FileProofs FileProps StyleModel SplitModel SplitProofs2 SplitProofs3 SaverModel.
Local Open Scope N_scope.

(** ** Specification *)
(** A feature other than a Document or Folder. *)
Definition is_plain_feature (c : node) : Prop := is_a (nty c) Type_Feature = true /\ is_a (nty c) Type_Container = false.
(** A style or style map with an id directly in a Document. *)
Definition named_style (p : N) (c : node) : Prop :=
  is_a p Type_Document = true /\ is_a (nty c) Type_StyleSelector = true /\ object_id (nty c) (natts c) <> None.
(** What is taken out of the tree. *)
Definition out (styles : bool) (p : N) (c : node) : bool :=
  (nty c =? Type_Update) || (is_a (nty c) Type_Feature && negb (is_a (nty c) Type_Container)) ||
  (styles && is_a p Type_Document && is_a (nty c) Type_StyleSelector && match object_id (nty c) (natts c) with Some _ => true | None => false end).
(** An element without these. *)
Fixpoint pruned (styles : bool) (n : node) : node :=
  let 'Node ty a cd log := n in
  Node ty a cd (flat_map (fun e => match e with
    | LChild c => if out styles ty c then [] else [LChild (pruned styles c)]
    | _ => [e] end) log).
Definition pruned_entry styles p (e : entry) : list entry :=
  match e with LChild c => if out styles p c then [] else [LChild (pruned styles c)] | _ => [e] end.
(** All plain features of a document but its root, in the order in which they end. *)
Definition plain_features (root : node) : list node :=
  filter (fun c => is_a (nty c) Type_Feature && negb (is_a (nty c) Type_Container)) (map snd (below root)).

(** ** Proofs *)
Definition ended (l : list note) : list (N * node) := flat_map (fun n => match n with NEnd p c => [(p, c)] | _ => [] end) l.
Lemma ended_app a b : ended (a ++ b) = ended a ++ ended b.
Proof. apply flat_map_app. Qed.
Lemma pruned_type styles n : nty (pruned styles n) = nty n /\ natts (pruned styles n) = natts n.
Proof. destruct n. split; reflexivity. Qed.
Lemma keeps_out styles p c : saver_keeps styles p c = negb (out styles p c).
Proof.
  unfold saver_keeps, out, plain_feature, saved_style. destruct (nty c =? Type_Update); [reflexivity|]. cbn [orb].
  destruct (is_a (nty c) Type_Feature && negb (is_a (nty c) Type_Container)); [reflexivity|]. cbn [orb].
  destruct styles, (is_a (nty c) Type_StyleSelector), (is_a p Type_Document); reflexivity.
Qed.
Lemma out_same styles p c d : nty c = nty d -> natts c = natts d -> out styles p c = out styles p d.
Proof. intros H1 H2. unfold out. now rewrite H1, H2. Qed.
Lemma self_pruned styles p ty s : flat_map (pruned_entry styles p) (self_entry ty s) = self_entry ty s.
Proof. unfold self_entry. destruct (self_parsed ty); reflexivity. Qed.
Lemma received_pruned styles t : forall p, received (saver_keeps styles) p t = flat_map (pruned_entry styles p) (received keep_all p t).
Proof.
  induction t as [n a ks IH|c] using xml_ind2; intros p; [|reflexivity]. cbn [received]. destruct (known_type p n) as [ty|]; [|reflexivity].
  cbn [keep_all flat_map pruned_entry]. rewrite app_nil_r, keeps_out. destruct (ty =? Type_description) eqn:Ed.
  - destruct (out styles p _); reflexivity.
  - set (l := flat_map (received keep_all ty) ks). assert (Hl : flat_map (received (saver_keeps styles) ty) ks = flat_map (pruned_entry styles ty) l).
    { unfold l. rewrite flat_flat. apply flat_ext. rewrite Forall_forall in *. intros k Hk. exact (IH k Hk ty). }
    rewrite Hl. cbn [pruned]. change (fun e : entry => match e with LChild c => if out styles ty c then [] else [LChild (pruned styles c)] | _ => [e] end) with (pruned_entry styles ty).
    rewrite flat_map_app, self_pruned. rewrite (out_same styles p _ (Node ty (node_atts n a) (direct_text ks) (l ++ self_entry ty (direct_text ks)))) by reflexivity.
    destruct (out styles p _); reflexivity.
Qed.
Definition prune2 styles (x : N * node) : N * node := (fst x, pruned styles (snd x)).
Lemma notes_ended styles t : forall p, ended (notes (saver_keeps styles) p t) = map (prune2 styles) (flat_map (entry_below p) (received keep_all p t)).
Proof.
  induction t as [n a ks IH|c] using xml_ind2; intros p; [|reflexivity]. cbn [notes received]. destruct (known_type p n) as [ty|]; [|reflexivity].
  cbn [keep_all flat_map entry_below]. rewrite app_nil_r. change (NNew ty (node_atts n a) :: ?l) with ([NNew ty (node_atts n a)] ++ l).
  rewrite !ended_app. cbn [ended flat_map app]. destruct (ty =? Type_description).
  - reflexivity.
  - rewrite map_app. f_equal.
    + cbn [below]. change (fun e : entry => match e with LChild c => below c ++ [(ty, c)] | _ => [] end) with (entry_below ty).
      rewrite flat_map_app, self_entry_nothing, app_nil_r by reflexivity. unfold ended. rewrite !flat_flat.
      assert (Hm : forall (l : list xml) (f : xml -> list (N * node)), map (prune2 styles) (flat_map f l) = flat_map (fun x => map (prune2 styles) (f x)) l).
      { clear. induction l as [|x l IHl]; intros f; [reflexivity|]. cbn [flat_map]. now rewrite map_app, IHl. }
      rewrite Hm. apply flat_ext. rewrite Forall_forall in *. intros k Hk. exact (IH k Hk ty).
    + unfold prune2. cbn [map fst snd pruned]. change (fun e : entry => match e with LChild c => if out styles ty c then [] else [LChild (pruned styles c)] | _ => [e] end) with (pruned_entry styles ty).
      rewrite flat_map_app, self_pruned, flat_flat. do 4 f_equal. apply flat_ext. apply Forall_forall. intros k Hk. apply received_pruned.
Qed.
Lemma tree_pruned styles t root : tree keep_all t = Some root -> tree (saver_keeps styles) t = Some (pruned styles root).
Proof.
  destruct t as [n a ks|c]; [|discriminate]. cbn [tree]. destruct (known_type Type_Unknown n) as [ty|]; [|discriminate]. intros H. inversion H; subst root. f_equal.
  destruct (ty =? Type_description); [reflexivity|]. cbn [pruned].
  change (fun e : entry => match e with LChild c => if out styles ty c then [] else [LChild (pruned styles c)] | _ => [e] end) with (pruned_entry styles ty).
  rewrite flat_map_app, self_pruned, flat_flat. do 2 f_equal. apply flat_ext. apply Forall_forall. intros k Hk. apply received_pruned.
Qed.
Lemma all_notes_ended styles t root : tree keep_all t = Some root -> ended (all_notes (saver_keeps styles) t) = map (prune2 styles) (below root).
Proof.
  destruct t as [n a ks|c]; [|discriminate]. cbn [tree all_notes]. destruct (known_type Type_Unknown n) as [ty|]; [|discriminate]. intros H. inversion H; subst root.
  change (NNew ty (node_atts n a) :: ?l) with ([NNew ty (node_atts n a)] ++ l). rewrite ended_app. cbn [ended flat_map app].
  destruct (ty =? Type_description); [reflexivity|]. cbn [below]. change (fun e : entry => match e with LChild c => below c ++ [(ty, c)] | _ => [] end) with (entry_below ty).
  rewrite flat_map_app, self_entry_nothing, app_nil_r by reflexivity. unfold ended. rewrite !flat_flat.
  assert (Hm : forall (l : list xml) (f : xml -> list (N * node)), map (prune2 styles) (flat_map f l) = flat_map (fun x => map (prune2 styles) (f x)) l).
  { clear. induction l as [|x l IHl]; intros f; [reflexivity|]. cbn [flat_map]. now rewrite map_app, IHl. }
  rewrite Hm. apply flat_ext. apply Forall_forall. intros k Hk. exact (notes_ended styles k ty).
Qed.
(** The saver hears everything. *)
Lemma saver_hears styles t : regular t -> exists f, parse_with [saver styles] t = Ok (tree (saver_keeps styles) t, f) /\ f 0%nat = all_notes (saver_keeps styles) t.
Proof.
  intros Hr. destruct (parse_regular_trace [saver styles] t Hr) as (h & He & Hp & Ht). unfold parse_with. rewrite He. cbn [bind].
  assert (Hd : observed_doc [saver styles] t = (tree (saver_keeps styles) t, flat_map (fun n => [(0%nat, n)]) (rev (all_notes (saver_keeps styles) t)))).
  { apply observed_doc_passive. intros n tr. cbn [call_observers saver]. destruct n as [ty a|p c|p c]; cbn [ok_of app]; try reflexivity.
    change (saver styles tr (NEnd p c)) with (saver_keeps styles p c). destruct (saver_keeps styles p c); reflexivity. }
  rewrite Hp, Hd. cbn [fst]. eexists. split; [reflexivity|]. rewrite Ht, Hd. cbn [snd]. generalize (all_notes (saver_keeps styles) t). clear. intros l.
  unfold notes_of. assert (H : rev (flat_map (fun n : note => [(0%nat, n)]) (rev l)) = map (fun n => (0%nat, n)) l).
  { rewrite <- (rev_involutive (map _ l)), <- map_rev. f_equal. }
  rewrite H. clear H. induction l as [|x l IH]; [reflexivity|]. cbn [map flat_map fst snd Nat.eqb app]. f_equal. exact IH.
Qed.
Lemma pushed_ended l : pushed l = filter (fun c => is_a (nty c) Type_Feature && negb (is_a (nty c) Type_Container)) (map snd (ended l)).
Proof.
  unfold pushed, ended. induction l as [|n l IH]; [reflexivity|]. cbn [flat_map]. rewrite map_app, filter_app, <- IH. f_equal. destruct n as [|p c|]; try reflexivity.
  cbn [map snd filter]. unfold plain_feature. destruct (N.eqb_spec (nty c) Type_Update) as [->|]; [reflexivity|]. reflexivity.
Qed.

(** C95. Parsing with the observer gives: the list of all features of the text which are no containers, in the
    order in which they end; and the document without them, without Update elements and, if a style map was
    given, without the named styles of its Documents.  Each listed feature is as it stands in the
    text, but for such parts of its own. *)
Theorem features_saved : forall styles t root, regular t -> tree keep_all t = Some root ->
  exists f, parse_with [saver styles] t = Ok (Some (pruned styles root), f) /\
    pushed (f 0%nat) = map (pruned styles) (plain_features root).
Proof.
  intros styles t root Hr Ht. destruct (saver_hears styles t Hr) as (f & Hf & Hn). exists f. rewrite Hf, (tree_pruned styles t root Ht). split; [reflexivity|].
  rewrite Hn, pushed_ended, (all_notes_ended styles t root Ht). unfold plain_features. rewrite !map_map.
  generalize (below root). induction l as [|x l IH]; [reflexivity|]. cbn [map filter]. change (snd (prune2 styles x)) with (pruned styles (snd x)). rewrite (proj1 (pruned_type styles (snd x))), IH.
  destruct (is_a (nty (snd x)) Type_Feature && negb (is_a (nty (snd x)) Type_Container)); reflexivity.
Qed.
Print Assumptions features_saved.

(** C95. Every plain feature somewhere in the document is listed, and nothing else. *)
Theorem listed_features : forall root c, In c (plain_features root) <-> exists p, inside root p c /\ is_plain_feature c.
Proof.
  intros root c. unfold plain_features, is_plain_feature. rewrite filter_In, in_map_iff, andb_true_iff, negb_true_iff. split.
  - intros (((p & c') & Hc & Hin) & H). cbn [snd] in Hc. subst c'. exists p. split; auto. apply (below_inside (S (nsize root))); [lia|exact Hin].
  - intros (p & Hin & H). split; auto. exists (p, c). split; auto. apply (below_inside (S (nsize root))); [lia|exact Hin].
Qed.
Print Assumptions listed_features.

(** C95. Nothing of this is left in the document. *)
Theorem rest_without_features : forall styles root p c, inside (pruned styles root) p c ->
  ~ is_plain_feature c /\ nty c <> Type_Update /\ (styles = true -> ~ named_style p c).
Proof.
  intros styles. assert (G : forall k root p c, (nsize root < k)%nat -> inside (pruned styles root) p c -> exists d, out styles p d = false /\ nty d = nty c /\ natts d = natts c).
  { induction k as [|k IH]; intros [ty a cd log] p c Hk; [lia|]. cbn [pruned].
    change (fun e : entry => match e with LChild c => if out styles ty c then [] else [LChild (pruned styles c)] | _ => [e] end) with (pruned_entry styles ty).
    assert (Hx : forall x, In (LChild x) (flat_map (pruned_entry styles ty) log) -> exists d, In (LChild d) log /\ out styles ty d = false /\ x = pruned styles d).
    { intros x Hx. apply in_flat_map in Hx as (e & He & Hx). destruct e as [d| | | |]; cbn [pruned_entry] in Hx; try (destruct Hx as [Hx|[]]; discriminate).
      destruct (out styles ty d) eqn:Eo; [destruct Hx|]. destruct Hx as [Hx|[]]. inversion Hx; subst. eauto. }
    intros H. inversion H; subst.
    - destruct (Hx c) as (d & _ & Ho & ->); [assumption|]. exists d. destruct (pruned_type styles d) as [H1 H2]. rewrite H1, H2. auto.
    - match goal with H0 : In (LChild ?x) _, H1 : inside ?x p c |- _ => destruct (Hx x H0) as (d & Hd & Ho & ->); apply (IH d p c); [pose proof (child_smaller ty a cd log d Hd); lia|exact H1] end. }
  intros root p c H. destruct (G (S (nsize root)) root p c ltac:(lia) H) as (d & Ho & Ht & Ha). rewrite (out_same styles p d c Ht Ha) in Ho. unfold out in Ho.
  apply orb_false_iff in Ho as [Ho H3]. apply orb_false_iff in Ho as [H1 H2]. split; [|split].
  - intros [Hf Hc]. rewrite Hf, Hc in H2. discriminate.
  - now apply N.eqb_neq.
  - intros -> (Hp & Hs & Hi). rewrite Hp, Hs in H3. destruct (object_id (nty c) (natts c)); [discriminate|congruence].
Qed.
Print Assumptions rest_without_features.

(** C95. A feature without further features, Update elements or Documents inside is listed as it is. *)
Theorem saved_whole : forall styles n, (forall p c, inside n p c -> ~ is_plain_feature c /\ nty c <> Type_Update /\ ~ named_style p c) -> pruned styles n = n.
Proof.
  intros styles. assert (G : forall k n, (nsize n < k)%nat -> (forall p c, inside n p c -> ~ is_plain_feature c /\ nty c <> Type_Update /\ ~ named_style p c) -> pruned styles n = n).
  { induction k as [|k IH]; intros [ty a cd log] Hk Hn; [lia|]. cbn [pruned]. f_equal.
    assert (He : forall e, In e log -> (match e with LChild c => if out styles ty c then [] else [LChild (pruned styles c)] | _ => [e] end) = [e]).
    { intros e He. destruct e as [c| | | |]; try reflexivity. destruct (Hn ty c (in_here ty a cd log c He)) as (H1 & H2 & H3).
      replace (out styles ty c) with false.
      - do 2 f_equal. apply IH; [pose proof (child_smaller ty a cd log c He); lia|]. intros p d Hd. apply Hn. eapply in_deeper; eauto.
      - symmetry. unfold out. apply orb_false_iff. split; [apply orb_false_iff; split|].
        + now apply N.eqb_neq.
        + unfold is_plain_feature in H1. destruct (is_a (nty c) Type_Feature), (is_a (nty c) Type_Container); try reflexivity. exfalso. auto.
        + unfold named_style in H3. destruct styles, (is_a ty Type_Document) eqn:E1, (is_a (nty c) Type_StyleSelector) eqn:E2; try reflexivity.
          cbn [andb]. destruct (object_id (nty c) (natts c)) eqn:E3; [|reflexivity]. exfalso. apply H3. repeat split; auto. discriminate. }
    clear Hn IH Hk. induction log as [|e log IHl]; [reflexivity|]. cbn [flat_map]. rewrite (He e (or_introl eq_refl)), IHl; [reflexivity|]. intros e' H'. apply He. now right. }
  intros n. apply (G (S (nsize n))). lia.
Qed.
Print Assumptions saved_whole.

(** C95. With a base, a reference to a style of the same file whose name has two characters or more gets the base
    in front; every other styleUrl stays, and so does everything else. *)
Lemma style_url_get f : style_url f = match get f Type_styleUrl with u :: _ => char_data u | [] => [] end.
Proof. reflexivity. Qed.
Theorem rebase_correct : forall base f name, sized f -> is_a (oty f) Type_Feature = true -> oty f <> Type_Feature -> base <> [] -> (2 <= length name)%nat ->
  has_style_url f = true -> style_url f = S_ "#" ++ name ->
  style_url (rebase base f) = base ++ S_ "#" ++ name /\ get (rebase base f) Type_styleUrl = [field Type_styleUrl (base ++ S_ "#" ++ name)] /\ oty (rebase base f) = oty f /\
  (forall k, k <> Type_styleUrl -> get (rebase base f) k = get f k) /\
  oka (rebase base f) = oka f /\ oea (rebase base f) = oea f /\ omis (rebase base f) = omis f /\ ounk (rebase base f) = ounk f.
Proof.
  intros base f name Hs Hf Hn Hb Hl Hu Hv. unfold rebase. rewrite (eqs_false_ne base []) by exact Hb. rewrite Hu, Hv.
  replace (2 <? length (S_ "#" ++ name))%nat with true by (symmetry; apply Nat.ltb_lt; rewrite app_length; change (length (S_ "#")) with 1%nat; lia).
  rewrite prefixb_app. cbn [andb]. destruct (has_place (oty f) Type_styleUrl Hf Hn (or_introl eq_refl)) as (i & Hi).
  split; [|split; [|split; [|split]]].
  - rewrite style_url_get, put_get by exact Hs. rewrite Hi, N.eqb_refl. reflexivity.
  - rewrite put_get by exact Hs. rewrite Hi, N.eqb_refl. reflexivity.
  - apply put_type.
  - intros k Hk. rewrite put_get by exact Hs. rewrite (proj2 (N.eqb_neq _ _) (not_eq_sym Hk)). reflexivity.
  - unfold put. rewrite Hi. repeat split; destruct f; reflexivity.
Qed.
Print Assumptions rebase_correct.
Theorem rebase_nothing : forall base f, base = [] \/ has_style_url f = false \/ (forall name, style_url f <> S_ "#" ++ name) -> rebase base f = f.
Proof.
  intros base f H. unfold rebase. destruct (eqs base []) eqn:E; [reflexivity|]. destruct (has_style_url f) eqn:Eu; [|reflexivity].
  destruct H as [->|[H|H]]; [discriminate E|discriminate H|]. destruct (prefixb (S_ "#") (style_url f)) eqn:Ep; [|now rewrite andb_false_r].
  apply prefixb_spec in Ep as (r & Hr). destruct (H r Hr).
Qed.
Print Assumptions rebase_nothing.
(** C95. The list as elements: one for each listed feature, built and then rebased. *)
Theorem listed_elements : forall E base l fs, list_features E base l = Ok fs <->
  Forall2 (fun n f => exists o, build E n = Ok o /\ f = rebase base o) l fs.
Proof.
  intros E base. induction l as [|n l IH]; intros fs; cbn [list_features].
  - split; [intros H; inversion H; constructor|intros H; inversion H; reflexivity].
  - split.
    + destruct (build E n) as [o| | |] eqn:Eb; try discriminate. cbn [bind]. destruct (list_features E base l) as [os| | |] eqn:El; try discriminate. cbn [bind]. intros H. inversion H; subst.
      constructor; [eauto|]. now apply IH.
    + intros H. inversion H as [|? ? ? ? (o & Ho & ->) Hl]; subst. rewrite Ho. cbn [bind]. apply IH in Hl. rewrite Hl. reflexivity.
Qed.
Print Assumptions listed_elements.

(** ** Last value assigned *)
Lemma last_wins {A V} (key : A -> option str) (val : A -> V) (l : list A) id :
  match mget id (fold_left (fun m x => match key x with Some i => mset i (val x) m | None => m end) l []) with
  | Some v => exists l1 x l2, l = l1 ++ x :: l2 /\ key x = Some id /\ val x = v /\ forall y, In y l2 -> key y <> Some id
  | None => forall x, In x l -> key x <> Some id
  end.
Proof.
  rewrite (fold_map_last key val l [] id msorted_nil). cbn [mget].
  assert (Hb : forall x, (match key x with Some i => eqs i id | None => false end) = true <-> key x = Some id).
  { intros x. destruct (key x) as [i|]; [rewrite eqs_spec; split; congruence|split; discriminate]. }
  unfold last_of. destruct (List.find _ (rev l)) as [x|] eqn:Ef.
  - assert (G : forall l, List.find (fun x => match key x with Some i => eqs i id | None => false end) l = Some x ->
      exists l1 l2, l = l1 ++ x :: l2 /\ key x = Some id /\ forall y, In y l1 -> key y <> Some id).
    { clear - Hb. induction l as [|z l IH]; [discriminate|]. cbn [List.find]. destruct (match key z with Some i => eqs i id | None => false end) eqn:Ex.
      - intros H. inversion H; subst. exists [], l. split; auto. split; [now apply Hb|intros y []].
      - intros H. destruct (IH H) as (l1 & l2 & -> & Hk & Hl). exists (z :: l1), l2. split; auto. split; auto. intros y [<-|Hy]; [|auto]. intros Hc. apply Hb in Hc. congruence. }
    destruct (G _ Ef) as (l1 & l2 & Hl & Hk & Hl1). exists (rev l2), x, (rev l1). split; [|split; [exact Hk|split; [reflexivity|]]].
    + rewrite <- (rev_involutive l), Hl, rev_app_distr. cbn [rev]. now rewrite <- app_assoc.
    + intros y Hy. rewrite <- in_rev in Hy. now apply Hl1.
  - intros x Hin Hk. apply in_rev in Hin. apply Hb in Hk. rewrite (List.find_none _ _ Ef _ Hin) in Hk. discriminate.
Qed.

(** C95. The style map has, for an id, the last style with this id directly in a Document (without such parts as are
    taken out), and nothing exactly when there is none. *)
Lemma style_not_feature ty : is_a ty Type_StyleSelector = true -> is_a ty Type_Feature = false /\ ty <> Type_Update.
Proof.
  intros H. assert (G : (negb (is_a ty Type_Feature) && negb (ty =? Type_Update)) = true).
  { apply (is_a_check ty Type_StyleSelector (fun t => negb (is_a t Type_Feature) && negb (t =? Type_Update)) H). vm_compute. reflexivity. }
  apply andb_true_iff in G as [G1 G2]. apply negb_true_iff in G1, G2. split; auto. now apply N.eqb_neq.
Qed.
Theorem styles_saved : forall t root, regular t -> tree keep_all t = Some root ->
  exists f, parse_with [saver true] t = Ok (Some (pruned true root), f) /\ forall id,
  match mget id (saved_styles true (f 0%nat)) with
  | Some s => exists l1 p c l2, below root = l1 ++ (p, c) :: l2 /\ named_style p c /\ object_id (nty c) (natts c) = Some id /\ s = pruned true c /\
                forall q d, In (q, d) l2 -> named_style q d -> object_id (nty d) (natts d) <> Some id
  | None => forall p c, inside root p c -> named_style p c -> object_id (nty c) (natts c) <> Some id
  end.
Proof.
  intros t root Hr Ht. destruct (saver_hears true t Hr) as (f & Hf & Hn). exists f. rewrite Hf, (tree_pruned true t root Ht). split; [reflexivity|]. intros id. rewrite Hn.
  set (key := fun x : N * node => if is_a (fst x) Type_Document && is_a (nty (snd x)) Type_StyleSelector then object_id (nty (snd x)) (natts (snd x)) else None).
  assert (Hm : saved_styles true (all_notes (saver_keeps true) t) = fold_left (fun m x => match key x with Some i => mset i (pruned true (snd x)) m | None => m end) (below root) []).
  { assert (H1 : forall l m, fold_left (fun m n => match n with
      | NEnd p c => if nty c =? Type_Update then m else if plain_feature (nty c) then m else if saved_style true p c then mset (get_id c) c m else m
      | _ => m end) l m = fold_left (fun m x => match key x with Some i => mset i (snd x) m | None => m end) (ended l) m).
    { unfold ended. induction l as [|n l IH]; intros m; [reflexivity|]. cbn [fold_left flat_map]. rewrite fold_left_app, IH. f_equal. destruct n as [|p c|]; try reflexivity.
      cbn [fold_left]. unfold key, saved_style, get_id, plain_feature. cbn [fst snd]. destruct (is_a (nty c) Type_StyleSelector) eqn:Es.
      - destruct (style_not_feature _ Es) as [H1 H2]. rewrite H1, (proj2 (N.eqb_neq _ _) H2). cbn [andb]. destruct (is_a p Type_Document); cbn [andb]; [|reflexivity].
        destruct (object_id (nty c) (natts c)); reflexivity.
      - cbn [andb]. rewrite andb_false_r. destruct (nty c =? Type_Update); [reflexivity|]. now destruct (is_a (nty c) Type_Feature && negb (is_a (nty c) Type_Container)). }
    unfold saved_styles. rewrite H1, (all_notes_ended true t root Ht). generalize (@nil (str * node)). generalize (below root).
    induction l as [|x l IH]; intros m; [reflexivity|]. cbn [map fold_left]. rewrite IH. f_equal. unfold key, prune2. cbn [fst snd].
    destruct (pruned_type true (snd x)) as [E1 E2]. now rewrite E1, E2. }
  rewrite Hm. pose proof (last_wins key (fun x => pruned true (snd x)) (below root) id) as L.
  assert (Hk : forall p c, key (p, c) = Some id <-> named_style p c /\ object_id (nty c) (natts c) = Some id).
  { intros p c. unfold key, named_style. cbn [fst snd]. destruct (is_a p Type_Document), (is_a (nty c) Type_StyleSelector); cbn [andb]; split; try discriminate.
    - intros H. repeat split; auto. rewrite H. discriminate.
    - now intros [_ H].
    - intros ((_ & H & _) & _). discriminate.
    - intros ((H & _ & _) & _). discriminate.
    - intros ((H & _ & _) & _). discriminate. }
  destruct (mget id _) as [s|].
  - destruct L as (l1 & (p & c) & l2 & Hl & Hkk & Hv & Hx). exists l1, p, c, l2. apply Hk in Hkk as [Hs Hi]. repeat split; auto; try apply Hs.
    intros q d Hd Hnd He. apply (Hx _ Hd). apply Hk. auto.
  - intros p c Hin Hns He. apply (L (p, c)). { apply (below_inside (S (nsize root))); [lia|exact Hin]. } apply Hk. auto.
Qed.
Print Assumptions styles_saved.
(** C95. So what a program gets that parses with the observer and lists the features: the elements of the features, with their style references completed, and the styles. *)
Theorem save_features_correct : forall E styles base t root r fs st, regular t -> tree keep_all t = Some root -> save_features E styles base t = Ok (r, fs, st) ->
  r = Some (pruned styles root) /\ list_features E base (map (pruned styles) (plain_features root)) = Ok fs /\
  exists f, parse_with [saver styles] t = Ok (r, f) /\ st = saved_styles styles (f 0%nat).
Proof.
  intros E styles base t root r fs st Hr Ht H. destruct (features_saved styles t root Hr Ht) as (f & Hf & Hp). unfold save_features in H. rewrite Hf in H. cbn [bind fst snd] in H. rewrite Hp in H.
  destruct (list_features E base _) as [l| | |]; cbn [bind] in H; try discriminate. injection H as <- <- <-. split; [reflexivity|]. split; [reflexivity|]. exists f. split; [exact Hf|reflexivity].
Qed.
Print Assumptions save_features_correct.

(** Non-vacuity. *)
Definition park : xml := doc_of (S_ "<kml><Document><Style id=""ab""/><Style id=""a""/><Folder><Placemark id=""p""><name>x</name><styleUrl>#ab</styleUrl></Placemark></Folder><GroundOverlay id=""g""><styleUrl>#a</styleUrl></GroundOverlay></Document></kml>").
Definition saved_ids (r : option node * list obj * list (str * node)) : list (str * str) :=
  map (fun o => (match mget (S_ "id") (oka o) with Some i => i | None => [] end, style_url o)) (snd (fst r)).
Definition styles_ids (r : option node * list obj * list (str * node)) : list str := map fst (snd r).
Definition left_types (r : option node * list obj * list (str * node)) : list N :=
  match fst (fst r) with Some n => map fst (elements n) | None => [] end.
Definition no_result : option node * list obj * list (str * node) := (None, [], []).
Example saver_sample : regular park /\
  saved_ids (run no_result (save_features E0 true (S_ "s.kml") park)) = [(S_ "p", S_ "s.kml#ab"); (S_ "g", S_ "#a")] /\
  styles_ids (run no_result (save_features E0 true (S_ "s.kml") park)) = [S_ "a"; S_ "ab"] /\
  left_types (run no_result (save_features E0 true (S_ "s.kml") park)) = [Type_kml; Type_Document; Type_Folder].
Proof. split; [apply regularb_spec; vm_compute; reflexivity|]. repeat split; vm_compute; reflexivity. Qed.

(** C95. A reference to a style of the same file whose name has one character is not given the base. *)
Theorem rebase_short_refuted :
  ~ forall base f name, sized f -> is_plain_feature (Node (oty f) None [] []) -> base <> [] -> has_style_url f = true ->
      style_url f = S_ "#" ++ name -> name <> [] -> style_url (rebase base f) = base ++ S_ "#" ++ name.
Proof.
  intros H. set (f := put (create Type_Placemark) Type_styleUrl [field Type_styleUrl (S_ "#a")]).
  specialize (H (S_ "s.kml") f (S_ "a")). assert (E : S_ "#a" = S_ "s.kml#a"); [|discriminate E]. apply H.
  - apply put_sized. reflexivity.
  - split; reflexivity.
  - discriminate.
  - reflexivity.
  - reflexivity.
  - discriminate.
Qed.
Print Assumptions rebase_short_refuted.

(** C95. Changes are no features of the document, but a placemark to be changed by an Update is listed as well. *)
Inductive in_update : node -> node -> Prop :=
| in_update_here : forall n p u q c, inside n p u -> nty u = Type_Update -> inside u q c -> in_update n c.
Theorem saved_update_refuted :
  ~ forall styles t root r, regular t -> tree keep_all t = Some root -> parse_with [saver styles] t = Ok r ->
      (forall p c, inside root p c -> is_plain_feature c -> in_update root c) -> pushed (snd r 0%nat) = [].
Proof.
  intros H. set (t := doc_of (S_ "<kml><NetworkLinkControl><Update><targetHref>a.kml</targetHref><Change><Placemark targetId=""p""/></Change></Update></NetworkLinkControl></kml>")).
  assert (Hr : regular t). { apply regularb_spec. vm_compute. reflexivity. }
  destruct (tree keep_all t) as [root|] eqn:Et; [|vm_compute in Et; discriminate].
  destruct (features_saved true t root Hr Et) as (f & Hf & Hp). specialize (H true t root _ Hr Et Hf). cbn [snd] in H. rewrite Hp in H.
  vm_compute in Et. inversion Et; subst root. clear Et. assert (X : forall A (x : A) l, x :: l <> []) by discriminate. eapply X. apply H. clear.
  intros p c Hin [Hc1 Hc2]. apply (below_inside 20) in Hin; [|vm_compute; lia]. vm_compute in Hin.
  repeat (destruct Hin as [Hin|Hin]; [inversion Hin; subst; try (vm_compute in Hc1; discriminate)|]); try destruct Hin.
  match goal with |- in_update ?n ?c => let x := eval vm_compute in (snd (nth 3 (below n) (0, n))) in apply (in_update_here n Type_NetworkLinkControl x Type_Change c) end.
  - eapply in_deeper; [left; reflexivity|]. apply in_here. left. reflexivity.
  - reflexivity.
  - eapply in_deeper; [right; left; reflexivity|]. apply in_here. left. reflexivity.
Qed.
Print Assumptions saved_update_refuted.

(** C95. A text whose root is a feature: the feature is not listed. *)
Theorem saved_root_refuted :
  ~ forall styles t root r, regular t -> tree keep_all t = Some root -> is_plain_feature root -> parse_with [saver styles] t = Ok r -> pushed (snd r 0%nat) <> [].
Proof.
  intros H. set (t := doc_of (S_ "<Placemark><name>x</name></Placemark>")).
  assert (Hr : regular t). { apply regularb_spec. vm_compute. reflexivity. }
  destruct (tree keep_all t) as [root|] eqn:Et; [|vm_compute in Et; discriminate].
  destruct (features_saved true t root Hr Et) as (f & Hf & Hp). specialize (H true t root (Some (pruned true root), f) Hr Et). revert Hp H Hf. clear - Et.
  vm_compute in Et. inversion Et; subst root. intros Hp H Hf. refine (H _ Hf _); [split; reflexivity|]. cbn [snd]. rewrite Hp. reflexivity.
Qed.
Print Assumptions saved_root_refuted.

(** ** Counting *)
Definition occurrences (ty : N) (l : list (N * option attrs)) : N := N.of_nat (length (filter (fun e => fst e =? ty) l)).
Fixpoint count_of (ty : N) (m : list (N * N)) : option N :=
  match m with [] => None | (k, v) :: r => if k =? ty then Some v else count_of ty r end.
Fixpoint ascending (m : list (N * N)) : Prop :=
  match m with [] => True | (k, _) :: r => Forall (fun x => k < fst x) r /\ ascending r end.
Lemma count_in_keys ty m k : Forall (fun x => k < fst x) m -> k < ty -> Forall (fun x => k < fst x) (count_in ty m).
Proof.
  induction m as [|[a v] m IH]; intros H Hk; cbn [count_in]; [repeat constructor; exact Hk|]. inversion H; subst. destruct (ty <? a); [constructor; auto|].
  destruct (ty =? a); constructor; auto.
Qed.
Lemma count_in_ascending ty m : ascending m -> ascending (count_in ty m).
Proof.
  induction m as [|[a v] m IH]; [intros _; cbn; auto|]. intros [H1 H2]. cbn [count_in]. destruct (N.ltb_spec ty a).
  - split; [|split; auto]. constructor; [exact H|]. eapply Forall_impl; [|exact H1]. intros x Hx. cbn in Hx. lia.
  - destruct (N.eqb_spec ty a); [split; auto|]. split; [|auto]. apply count_in_keys; auto. lia.
Qed.
Lemma above_absent k m : Forall (fun x : N * N => k < fst x) m -> count_of k m = None.
Proof. induction 1 as [|[a v] m H _ IH]; [reflexivity|]. cbn [count_of]. cbn [fst] in H. destruct (N.eqb_spec a k); [lia|auto]. Qed.
Lemma count_in_of ty m k : ascending m -> count_of k (count_in ty m) = if k =? ty then Some (match count_of k m with Some v => v + 1 | None => 1 end) else count_of k m.
Proof.
  induction m as [|[a v] m IH]; intros Ha; cbn [count_in count_of].
  - rewrite N.eqb_sym. destruct (k =? ty); reflexivity.
  - destruct Ha as [H1 H2]. destruct (N.ltb_spec ty a) as [Hlt|Hge].
    + cbn [count_of]. rewrite (N.eqb_sym ty k). destruct (N.eqb_spec k ty) as [Hk|Hk]; [|reflexivity].
      destruct (N.eqb_spec a k) as [Hx|Hx]; [lia|]. rewrite (above_absent k m); [reflexivity|]. eapply Forall_impl; [|exact H1]. intros x Hx'. cbn in Hx'. lia.
    + destruct (N.eqb_spec ty a) as [Ht|Ht]; cbn [count_of].
      * destruct (N.eqb_spec a k) as [Hk|Hk], (N.eqb_spec k ty) as [Hy|Hy]; try congruence; reflexivity.
      * rewrite IH by exact H2. destruct (N.eqb_spec a k) as [Hk|Hk], (N.eqb_spec k ty) as [Hy|Hy]; try congruence; reflexivity.
Qed.
(** C96. The counter has for every type how often elements of that type occur in the document, and no entry for
    types which do not occur; the parse itself is not affected. *)
Theorem elements_counted : forall t root, regular t -> tree keep_all t = Some root ->
  exists m, count_elements t = Ok (Some root, m) /\ ascending m /\
  forall ty, count_of ty m = if occurrences ty (elements root) =? 0 then None else Some (occurrences ty (elements root)).
Proof.
  intros t root Hr Ht. assert (Ha : accepting [passive]) by (repeat constructor).
  destruct (parse_with_accepting [passive] t Ha Hr) as (f & Hf & Hn). unfold count_elements. rewrite Hf, Ht. cbn [bind fst snd]. eexists. split; [reflexivity|].
  unfold count_map. rewrite (Hn 0%nat) by (cbn; lia). rewrite (all_notes_new t root Ht). generalize (elements root). clear. intros l.
  assert (G : forall l m, ascending m -> ascending (fold_left (fun m (e : N * option attrs) => count_in (fst e) m) l m) /\
    forall ty, count_of ty (fold_left (fun m (e : N * option attrs) => count_in (fst e) m) l m) =
      if occurrences ty l =? 0 then count_of ty m else Some (occurrences ty l + match count_of ty m with Some v => v | None => 0 end)).
  { clear. induction l as [|e l IH]; intros m Hm; [split; auto|]. cbn [fold_left]. destruct (IH (count_in (fst e) m) (count_in_ascending _ _ Hm)) as [I1 I2]. split; [exact I1|].
    intros ty. rewrite I2, count_in_of by exact Hm. unfold occurrences. cbn [filter]. rewrite (N.eqb_sym (fst e) ty). destruct (N.eqb_spec ty (fst e)) as [->|].
    - cbn [length]. set (k := N.of_nat (length _)). replace (N.of_nat (S _)) with (k + 1) by (unfold k; lia).
      destruct (N.eqb_spec (k + 1) 0); [lia|]. destruct (N.eqb_spec k 0) as [->|]; destruct (count_of (fst e) m); f_equal; lia.
    - reflexivity. }
  destruct (G l [] I) as [G1 G2]. split; [exact G1|]. intros ty. rewrite G2. cbn [count_of]. destruct (N.eqb_spec (occurrences ty l) 0); [reflexivity|]. f_equal. lia.
Qed.
Print Assumptions elements_counted.
Example count_sample : match count_elements park with Ok (Some _, m) => count_of Type_Style m = Some 2 /\ count_of Type_styleUrl m = Some 2 /\ count_of Type_Point m = None | _ => False end.
Proof. vm_compute. auto. Qed.
(** C96. Elements inside foreign markup or in a description are not counted. *)
Theorem count_hidden_refuted :
  ~ forall t root m, regular t -> count_elements t = Ok (Some root, m) -> forall n a ks k ks' ty, t = XElem n a ks -> In (XElem k [] ks') ks ->
      forall b kk, In (XElem b [] kk) ks' -> known_type (element_id k) b = Some ty -> count_of ty m <> None.
Proof.
  intros H. set (t := XElem (S_ "Placemark") [] [XElem (S_ "description") [] [XElem (S_ "Point") [] []]]).
  assert (Hr : regular t). { apply regularb_spec. vm_compute. reflexivity. }
  refine (H t _ _ Hr _ _ _ _ _ _ Type_Point eq_refl (or_introl eq_refl) _ _ (or_introl eq_refl) _ _); [vm_compute; reflexivity|vm_compute; reflexivity|vm_compute; reflexivity].
Qed.
Print Assumptions count_hidden_refuted.

(** ** Schemas *)
(** C97. The schemas by name: the last Schema of that name directly in a Document; none exactly when there is
    no such Schema. *)
Definition named_schema (name : str) (p : N) (c : node) : Prop :=
  is_a p Type_Document = true /\ is_a (nty c) Type_Schema = true /\ exists a, natts c = Some a /\ find_value (S_ "name") a = Some name.
Theorem schemas_by_name : forall t root, regular t -> tree keep_all t = Some root ->
  exists f, parse_with [passive] t = Ok (Some root, f) /\ forall name,
  match mget name (schema_map_of (f 0%nat)) with
  | Some s => exists l1 p l2, below root = l1 ++ (p, s) :: l2 /\ named_schema name p s /\ forall q d, In (q, d) l2 -> ~ named_schema name q d
  | None => forall p c, inside root p c -> ~ named_schema name p c
  end.
Proof.
  intros t root Hr Ht. assert (Ha : accepting [passive]) by (repeat constructor).
  destruct (parse_with_accepting [passive] t Ha Hr) as (f & Hf & Hn). exists f. rewrite Hf, Ht. split; [reflexivity|]. intros name. rewrite (Hn 0%nat) by (cbn; lia).
  set (key := fun x : N * node => if is_a (fst x) Type_Document && is_a (nty (snd x)) Type_Schema then match natts (snd x) with Some a => find_value (S_ "name") a | None => None end else None).
  assert (Hm : schema_map_of (all_notes keep_all t) = fold_left (fun m x => match key x with Some i => mset i (snd x) m | None => m end) (below root) []).
  { rewrite <- (all_notes_added t root Ht). unfold schema_map_of. generalize (@nil (str * node)). generalize (all_notes keep_all t). unfold FileProofs.added.
    induction l as [|n l IH]; intros m; [reflexivity|]. cbn [fold_left flat_map]. rewrite fold_left_app, IH. f_equal. destruct n as [| |p c]; try reflexivity.
    cbn [fold_left]. unfold key. cbn [fst snd]. destruct (is_a p Type_Document && is_a (nty c) Type_Schema); [|reflexivity]. destruct (natts c) as [a|]; reflexivity. }
  rewrite Hm. pose proof (last_wins key snd (below root) name) as L.
  assert (Hk : forall p c, key (p, c) = Some name <-> named_schema name p c).
  { intros p c. unfold key, named_schema. cbn [fst snd]. destruct (is_a p Type_Document), (is_a (nty c) Type_Schema); cbn [andb]; split; try discriminate;
      try (intros (? & ? & ?); discriminate).
    - intros H. repeat split; auto. destruct (natts c) as [a|]; [|discriminate]. eauto.
    - intros (_ & _ & a & -> & Hv). exact Hv. }
  destruct (mget name _) as [s|].
  - destruct L as (l1 & (p & c) & l2 & Hl & Hkk & Hv & Hx). cbn [snd] in Hv. subst c. exists l1, p, l2. split; [exact Hl|]. split; [now apply Hk|].
    intros q d Hd Hs. apply (Hx _ Hd). now apply Hk.
  - intros p c Hin Hs. apply (L (p, c)); [|now apply Hk]. apply (below_inside (S (nsize root))); [lia|exact Hin].
Qed.
Print Assumptions schemas_by_name.
Definition schemas_doc : xml := doc_of (S_ "<Document><Schema name=""a"" id=""1""/><Document><Schema name=""a"" id=""2""/><Schema id=""3""/></Document></Document>").
Example schemas_sample : regular schemas_doc /\
  map (fun x => (fst x, object_id (nty (snd x)) (natts (snd x)))) (schema_map_of (snd (run (None, fun _ => []) (parse_with [passive] schemas_doc)) 0%nat)) = [(S_ "a", Some (S_ "2"))].
Proof. split; [apply regularb_spec; vm_compute; reflexivity|]. vm_compute. reflexivity. Qed.
