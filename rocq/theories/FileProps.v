(** Properties of what a parsed file knows about its elements: objects by id, shared styles, links, schemas. *)
From Verif Require Import Common StrMap AttributesModel XsdTables XsdModel XmlSpec XmlSpecProofs HandlerModel HandlerSpec HandlerProofs HandlerProofs2 HandlerProofs3 HandlerProps.
From Verif Require Import DomTables UriModel FileModel FileProofs.
Local Open Scope N_scope.

(** The id attribute of an element, for the elements which can have one; an element with this id. *)
Definition has_id (id : str) (e : N * option attrs) : Prop := is_a (fst e) Type_Object = true /\ exists a, snd e = Some a /\ find_value (S_ "id") a = Some id.
Lemma has_id_spec id e : has_id id e <-> object_id (fst e) (snd e) = Some id.
Proof.
  unfold has_id, object_id. split.
  - intros (-> & a & -> & H). exact H.
  - destruct (is_a (fst e) Type_Object); [|discriminate]. destruct (snd e) as [a|]; [|discriminate]. eauto.
Qed.
(** The numbers at which GetObjectById finds the objects of a file. *)
Definition file_objects (f : nat -> list note) : list (str * nat) := id_map_from 0 (new_elements (f 0%nat)) [].

(** C34. A file gives for an id the last element in document order which has it, and nothing exactly when
    no element has it. *)
Theorem object_by_id_correct : forall t, regular t -> exists f, parse_with (file_observers false) t = Ok (tree keep_all t, f) /\
  forall root, tree keep_all t = Some root -> forall id,
  match mget id (file_objects f) with
  | Some k => (exists e, nth_error (elements root) k = Some e /\ has_id id e) /\
              forall j e, (k < j)%nat -> nth_error (elements root) j = Some e -> ~ has_id id e
  | None => forall e, In e (elements root) -> ~ has_id id e
  end.
Proof.
  intros t Hr. destruct (parse_with_accepting _ t file_observers_lax Hr) as (f & Hf & Hn). exists f. split; [exact Hf|]. intros root Ht id.
  unfold file_objects. rewrite (Hn 0%nat) by (cbn; lia). rewrite (all_notes_new t root Ht). pose proof (id_map_get (elements root) 0 [] id msorted_nil) as H.
  revert H. destruct (mget id (id_map_from 0 (elements root) [])) as [k|].
  - intros [(i & -> & (e & He & Hid) & Hl)|(H & _)]; [|discriminate]. cbn [Nat.add]. split; [exists e; split; auto; now apply has_id_spec|].
    intros j e' Hlt He' Hh. apply has_id_spec in Hh. exact (Hl j e' Hlt He' Hh).
  - intros [_ H] e He Hh. apply has_id_spec in Hh. apply In_nth_error in He as (i & Hi). exact (H i e Hi Hh).
Qed.
Print Assumptions object_by_id_correct.

(** C34. With the strict observer the parse succeeds exactly when no two elements have the same id. *)
Theorem strict_parse_iff_distinct : forall t root, regular t -> tree keep_all t = Some root ->
  exists f r, parse_with [id_observer 0 true] t = Ok (r, f) /\
  (r <> None <-> forall i j e e' id, nth_error (elements root) i = Some e -> nth_error (elements root) j = Some e' -> has_id id e -> has_id id e' -> i = j).
Proof.
  intros t root Hr Ht. destruct (parse_regular_trace [id_observer 0 true] t Hr) as (h & He & Hp & _). unfold parse_with. rewrite He. cbn [bind].
  exists (fun i => notes_of i (trace h)), (pop_root h). split; [reflexivity|]. rewrite Hp. destruct (strict_doc t root Ht) as [S1 S2]. change sobs with [id_observer 0 true] in S1, S2.
  assert (G : forall l, NoDup (ids l) <-> forall i j e e' id, nth_error l i = Some e -> nth_error l j = Some e' -> has_id id e -> has_id id e' -> i = j).
  { clear. induction l as [|x l [IH1 IH2]].
    - split; [intros _ [|i] j e e' id H; discriminate|constructor].
    - assert (Hin : forall id, In id (ids l) <-> exists i e, nth_error l i = Some e /\ has_id id e).
      { intros id. unfold ids. rewrite in_flat_map. split.
        - intros (e & He & Hi). apply In_nth_error in He as (i & He). exists i, e. split; auto. apply has_id_spec. destruct (object_id (fst e) (snd e)); [|destruct Hi]. destruct Hi as [->|[]]. reflexivity.
        - intros (i & e & He & Hh). apply has_id_spec in Hh. exists e. apply nth_error_In in He. rewrite Hh. split; auto. now left. }
      split.
      + intros H. assert (Hl : NoDup (ids l) /\ forall id, has_id id x -> ~ In id (ids l)).
        { unfold ids in H. cbn [flat_map] in H. fold (ids l) in H. destruct (object_id (fst x) (snd x)) as [i0|] eqn:Eo; cbn [app] in H.
          - inversion H; subst. split; auto. intros id Hh. apply has_id_spec in Hh. assert (id = i0) by congruence. subst. auto.
          - split; auto. intros id Hh. apply has_id_spec in Hh. congruence. }
        destruct Hl as [Hl Hx]. intros [|i] [|j] e e' id Hi Hj Hh Hh'; cbn [nth_error] in Hi, Hj.
        * reflexivity.
        * inversion Hi; subst. exfalso. apply (Hx id Hh). apply Hin. eauto.
        * inversion Hj; subst. exfalso. apply (Hx id Hh'). apply Hin. eauto.
        * f_equal. exact (IH1 Hl i j e e' id Hi Hj Hh Hh').
      + intros H. unfold ids. cbn [flat_map]. fold (ids l). assert (Hl : NoDup (ids l)).
        { apply IH2. intros i j e e' id Hi Hj Hh Hh'. assert (S i = S j) by exact (H (S i) (S j) e e' id Hi Hj Hh Hh'). lia. }
        destruct (object_id (fst x) (snd x)) as [i0|] eqn:Eo; [|exact Hl]. constructor; [|exact Hl]. rewrite Hin. intros (i & e & Hi & Hh).
        assert (0%nat = S i) by (refine (H 0%nat (S i) x e i0 eq_refl Hi _ Hh); now apply has_id_spec). discriminate. }
  rewrite <- G. destruct (nodup_dec (ids (elements root))) as [Hd|Hd].
  - destruct (S1 Hd) as (r & ->). split; [auto|discriminate].
  - rewrite (S2 Hd). split; [intros H; exfalso; auto|auto].
Qed.
Print Assumptions strict_parse_iff_distinct.

Definition regularb (t : xml) : bool :=
  match t with XElem _ _ _ => true | _ => false end && no_old_schema t && descriptions_ok t && (xdepth t <=? 100)%nat.
Lemma regularb_spec t : regularb t = true -> regular t.
Proof.
  unfold regularb, regular. rewrite !andb_true_iff, Nat.leb_le. destruct t; [|intros [[[H _] _] _]; discriminate]. intros [[[_ H1] H2] H3]. repeat split; eauto.
Qed.
(** Non-vacuity: two elements share an id. *)
Definition doc_of (s : str) : xml := match xml_tree s with Some t => t | None => XElem [] [] [] end.
Definition run {A} (d : A) (r : res A) : A := match r with Ok a => a | _ => d end.
Definition twice : xml := doc_of (S_ "<Folder id=""f""><Placemark id=""a""><Point id=""p""/></Placemark><Placemark id=""a""/></Folder>").
Example lookup_sample :
  regular twice /\ (exists root, tree keep_all twice = Some root /\ length (elements root) = 4%nat) /\
  (let r := run (None, fun _ => []) (parse_with (file_observers false) twice) in
   (mget (S_ "a") (file_objects (snd r)), mget (S_ "p") (file_objects (snd r)), mget (S_ "q") (file_objects (snd r)))) = (Some 3%nat, Some 2%nat, None) /\
  fst (run (None, fun _ => []) (parse_with [id_observer 0 true] twice)) = None /\
  fst (run (None, fun _ => []) (parse_with [id_observer 0 true] (doc_of (S_ "<Folder id=""f""><Placemark id=""a""><Point id=""p""/></Placemark></Folder>")))) <> None.
Proof.
  split; [|split; [|split; [|split]]].
  - apply regularb_spec. vm_compute. reflexivity.
  - eexists. split; [vm_compute; reflexivity|]. vm_compute. reflexivity.
  - vm_compute. reflexivity.
  - vm_compute. reflexivity.
  - vm_compute. discriminate.
Qed.

(** A child somewhere in a tree, with the type of its parent. *)
Inductive inside : node -> N -> node -> Prop :=
| in_here : forall ty a cd log c, In (LChild c) log -> inside (Node ty a cd log) ty c
| in_deeper : forall ty a cd log c p d, In (LChild c) log -> inside c p d -> inside (Node ty a cd log) p d.
Fixpoint nsize (n : node) : nat :=
  let 'Node _ _ _ log := n in S (list_sum (map (fun e => match e with LChild c => nsize c | _ => 0%nat end) log)).
Lemma sum_ge (l : list nat) x : In x l -> (x <= list_sum l)%nat.
Proof. induction l as [|y l IH]; [intros []|]. cbn [list_sum fold_right]. intros [->|H]; [lia|]. specialize (IH H). unfold list_sum in IH. lia. Qed.
Lemma child_smaller ty a cd log c : In (LChild c) log -> (nsize c < nsize (Node ty a cd log))%nat.
Proof. intros H. cbn [nsize]. apply le_n_S. apply sum_ge. apply in_map_iff. exists (LChild c). auto. Qed.
Lemma below_inside k : forall n p c, (nsize n < k)%nat -> In (p, c) (below n) <-> inside n p c.
Proof.
  induction k as [|k IH]; intros [ty a cd log] p c Hk; [lia|]. cbn [below]. rewrite in_flat_map. split.
  - intros ([x| | | |] & He & Hin); try destruct Hin. apply in_app_or in Hin as [Hin|[Hin|[]]].
    + eapply in_deeper; [exact He|]. apply IH; auto. pose proof (child_smaller ty a cd log x He). lia.
    + inversion Hin; subst. now apply in_here.
  - intros H. inversion H; subst.
    + exists (LChild c). split; auto. apply in_or_app. right. now left.
    + match goal with H0 : In (LChild ?x) log |- _ => exists (LChild x); split; auto; apply in_or_app; left; apply IH; auto; pose proof (child_smaller ty a cd log x H0); lia end.
Qed.

(** C78. A file gives for a name the last style element placed directly in a Document with that id (children
    before parents), and nothing exactly when there is none. *)
Definition shared_style (id : str) (p : N) (c : node) : Prop :=
  is_a p Type_Document = true /\ is_a (nty c) Type_StyleSelector = true /\ get_id c = id.
Theorem shared_style_correct : forall t, regular t -> exists f, parse_with (file_observers false) t = Ok (tree keep_all t, f) /\
  forall root, tree keep_all t = Some root -> forall id,
  match mget id (style_map_of (f 1%nat)) with
  | Some c => exists p l1 l2, below root = l1 ++ (p, c) :: l2 /\ shared_style id p c /\ forall p' c', In (p', c') l2 -> ~ shared_style id p' c'
  | None => forall p c, inside root p c -> ~ shared_style id p c
  end.
Proof.
  intros t Hr. destruct (parse_with_accepting _ t file_observers_lax Hr) as (f & Hf & Hn). exists f. split; [exact Hf|]. intros root Ht id.
  rewrite (Hn 1%nat) by (cbn; lia). pose proof (all_notes_added t root Ht) as Hb.
  set (key := fun x : N * node => if is_shared (fst x) (snd x) then Some (get_id (snd x)) else None).
  assert (Hm : style_map_of (all_notes keep_all t) = fold_left (fun m x => match key x with Some i => mset i (snd x) m | None => m end) (below root) []).
  { rewrite <- Hb. clear. unfold style_map_of, added, key. generalize (all_notes keep_all t) as l0. generalize (@nil (str * node)) as m. intros m l0. revert m. induction l0 as [|n l IH]; intros m; [reflexivity|].
    cbn [fold_left flat_map]. rewrite fold_left_app, IH. destruct n as [ | |p c]; cbn [fold_left fst snd]; try reflexivity. destruct (is_shared p c); reflexivity. }
  rewrite Hm, (fold_map_last key snd (below root) [] id msorted_nil). cbn [mget].
  assert (Hk : forall p c, key (p, c) = Some id <-> shared_style id p c).
  { intros p c. unfold key, shared_style, is_shared. cbn [fst snd]. destruct (is_a p Type_Document), (is_a (nty c) Type_StyleSelector); cbn [andb]; split; try discriminate; try (intros (? & ? & ?); discriminate || congruence); intros H; inversion H; auto. }
  assert (Hb' : forall x, (match key x with Some i => eqs i id | None => false end) = true <-> key x = Some id).
  { intros x. destruct (key x) as [i|]; [rewrite eqs_spec; split; congruence|split; discriminate]. }
  unfold last_of. destruct (List.find _ (rev (below root))) as [[p c]|] eqn:Ef.
  - cbn [snd]. assert (G : forall l, List.find (fun x => match key x with Some i => eqs i id | None => false end) l = Some (p, c) ->
      exists l1 l2, l = l1 ++ (p, c) :: l2 /\ key (p, c) = Some id /\ forall x, In x l1 -> key x <> Some id).
    { clear - Hb'. induction l as [|x l IH]; [discriminate|]. cbn [List.find]. destruct (match key x with Some i => eqs i id | None => false end) eqn:Ex.
      - intros H. inversion H; subst. exists [], l. split; auto. split; [now apply Hb'|intros x []].
      - intros H. destruct (IH H) as (l1 & l2 & -> & Hk & Hl). exists (x :: l1), l2. split; auto. split; auto. intros y [<-|Hy]; [|auto]. intros Hc. apply Hb' in Hc. congruence. }
    destruct (G _ Ef) as (l1 & l2 & Hl & Hkk & Hl1). exists p, (rev l2), (rev l1). split; [|split].
    + rewrite <- (rev_involutive (below root)), Hl, rev_app_distr. cbn [rev]. now rewrite <- app_assoc.
    + now apply Hk.
    + intros p' c' Hin Hs. rewrite <- in_rev in Hin. apply (Hl1 _ Hin). now apply Hk.
  - intros p c Hin Hs. apply (below_inside (S (nsize root))) in Hin; [|lia]. apply in_rev in Hin. apply Hk in Hs. apply Hb' in Hs.
    rewrite (List.find_none _ _ Ef _ Hin) in Hs. discriminate.
Qed.
Print Assumptions shared_style_correct.

(** Non-vacuity, and C78: a style without an id is kept as well, under the empty name. *)
Definition styled : xml := doc_of (S_ "<kml><Document><Style id=""a""/><StyleMap id=""b""/><Placemark><Style id=""c""/></Placemark><Style id=""a""><LineStyle/></Style></Document></kml>").
Definition style_names (t : xml) : list (str * N) :=
  map (fun x => (fst x, nty (snd x))) (style_map_of (snd (run (None, fun _ => []) (parse_with (file_observers false) t)) 1%nat)).
Example shared_style_sample :
  regular styled /\ style_names styled = [(S_ "a", Type_Style); (S_ "b", Type_StyleMap)] /\
  (match mget (S_ "a") (style_map_of (snd (run (None, fun _ => []) (parse_with (file_observers false) styled)) 1%nat)) with Some c => length (elements c) | None => 0%nat end) = 2%nat.
Proof.
  split.
  - apply regularb_spec. vm_compute. reflexivity.
  - split; vm_compute; reflexivity.
Qed.
Theorem unnamed_shared_style_refuted :
  ~ forall t id r, regular t -> parse_with (file_observers false) t = Ok r -> mget id (style_map_of (snd r 1%nat)) <> None ->
    exists root c, fst r = Some root /\ inside root Type_Document c /\ has_id id (nty c, natts c).
Proof.
  intros H. set (t := doc_of (S_ "<Document><Style/></Document>")).
  assert (Hr : regular t). { apply regularb_spec. vm_compute. reflexivity. }
  destruct (parse_with_accepting _ t file_observers_lax Hr) as (f & Hf & Hn). specialize (Hn 1%nat ltac:(cbn; lia)).
  assert (Hm : mget [] (style_map_of (snd (tree keep_all t, f) 1%nat)) <> None). { cbn [snd]. rewrite Hn. vm_compute. discriminate. }
  destruct (H t [] _ Hr Hf Hm) as (root & c & Hroot & Hin & Hid). cbn [fst] in Hroot.
  vm_compute in Hroot. inversion Hroot; subst root. apply (below_inside 10) in Hin; [|vm_compute; lia]. vm_compute in Hin.
  destruct Hin as [Hin|[]]. inversion Hin; subst c. destruct Hid as (_ & a & Ha & Hz). vm_compute in Ha. discriminate Ha.
Qed.
Print Assumptions unnamed_shared_style_refuted.

(** C79. The links of a document are exactly the contents of its href and styleUrl elements, of targetHref in an
    Alias, and the schemaUrl of SchemaData, each as often as it occurs, children before parents; the
    relative links are those which have a path but neither a scheme nor a host. *)
Inductive link_in (root : node) : str -> Prop :=
| link_href : forall p c, inside root p c -> nty c = Type_href -> link_in root (ncd c)
| link_style : forall p c, inside root p c -> nty c = Type_styleUrl -> link_in root (ncd c)
| link_target : forall c, inside root Type_Alias c -> nty c = Type_targetHref -> link_in root (ncd c)
| link_schema : forall p c a u, inside root p c -> nty c = Type_SchemaData -> natts c = Some a -> find_value (S_ "schemaUrl") a = Some u -> link_in root u.
Lemma links_below l : links_of l = flat_map (fun x => links_at (fst x) (snd x)) (added l).
Proof.
  unfold links_of, added. induction l as [|n l IH]; [reflexivity|]. cbn [flat_map]. rewrite flat_map_app, <- IH. f_equal. destruct n; try reflexivity. cbn [flat_map fst snd]. now rewrite app_nil_r.
Qed.
Theorem get_links_correct : forall t root, regular t -> tree keep_all t = Some root -> exists l, get_links t = Ok (Some l) /\
  (forall u, In u l <-> link_in root u) /\ l = flat_map (fun x => links_at (fst x) (snd x)) (below root).
Proof.
  intros t root Hr Ht. assert (Ha : accepting [passive]) by (repeat constructor).
  destruct (parse_with_accepting [passive] t Ha Hr) as (f & Hf & Hn). unfold get_links. rewrite Hf. cbn [bind fst snd]. rewrite Ht.
  eexists. split; [reflexivity|]. rewrite (Hn 0%nat) by (cbn; lia). rewrite links_below, (all_notes_added t root Ht). split; [|reflexivity].
  intros u. rewrite in_flat_map. split.
  - intros ([p c] & Hin & Hu). apply (below_inside (S (nsize root))) in Hin; [|lia]. cbn [fst snd] in Hu. unfold links_at in Hu.
    destruct (N.eqb_spec (nty c) Type_href); [destruct Hu as [<-|[]]; eapply link_href; eauto|].
    destruct (N.eqb_spec (nty c) Type_targetHref).
    { destruct (N.eqb_spec Type_Alias p); [|destruct Hu]. destruct Hu as [<-|[]]. subst p. apply link_target; auto. }
    destruct (N.eqb_spec (nty c) Type_styleUrl); [destruct Hu as [<-|[]]; eapply link_style; eauto|].
    destruct (N.eqb_spec (nty c) Type_SchemaData); [|destruct Hu]. destruct (natts c) as [a|] eqn:Ea; [|destruct Hu].
    destruct (find_value (S_ "schemaUrl") a) as [v|] eqn:Ev; [|destruct Hu]. destruct Hu as [<-|[]]. eapply link_schema; eauto.
  - intros H. destruct H as [p c Hin Hty|p c Hin Hty|c Hin Hty|p c a u Hin Hty Ha' Hu].
    1,2,4: exists (p, c). 4: exists (Type_Alias, c). all: split; [apply (below_inside (S (nsize root))); [lia|exact Hin]|]; cbn [fst snd]; unfold links_at; rewrite Hty.
    + now left.
    + now left.
    + change (In u (match natts c with Some a => match find_value (S_ "schemaUrl") a with Some u => [u] | None => [] end | None => [] end)). rewrite Ha', Hu. now left.
    + now left.
Qed.
Print Assumptions get_links_correct.
Theorem get_relative_links_correct : forall t root l, regular t -> tree keep_all t = Some root -> get_links t = Ok (Some l) ->
  exists rl, get_relative_links t = Ok (Some rl) /\ (forall u, In u rl <-> In u l /\ h_scheme (href_parse u) = [] /\ h_net_loc (href_parse u) = [] /\ h_path (href_parse u) <> []).
Proof.
  intros t root l _ _ H. unfold get_relative_links. rewrite H. cbn [bind]. eexists. split; [reflexivity|]. intros u. rewrite filter_In. unfold is_relative_path.
  rewrite !andb_true_iff, !eqs_spec, negb_true_iff. assert (G : forall a : str, eqs a [] = false <-> a <> []).
  { intros a. split; [intros Hf ->; rewrite eqs_refl in Hf; discriminate|]. intros Hn. destruct (eqs a []) eqn:Ea; auto. apply eqs_spec in Ea. contradiction. }
  rewrite G. tauto.
Qed.
Print Assumptions get_relative_links_correct.
Definition linked : xml := doc_of (S_ "<Document><Placemark><styleUrl>#s</styleUrl><Model><Link><href>a/b.dae</href></Link><ResourceMap><Alias><targetHref>t.jpg</targetHref></Alias></ResourceMap></Model></Placemark><NetworkLink><Link><href>http://h/x</href></Link></NetworkLink></Document>").
Example links_sample :
  get_links linked = Ok (Some [S_ "#s"; S_ "a/b.dae"; S_ "t.jpg"; S_ "http://h/x"]) /\ get_relative_links linked = Ok (Some [S_ "a/b.dae"; S_ "t.jpg"]).
Proof. split; vm_compute; reflexivity. Qed.
Lemma class_listed {A} k (l : list (N * A)) v : lookup k l = Some v -> In (k, v) l.
Proof.
  induction l as [|[k' v'] l IH]; cbn [lookup]; [discriminate|]. destruct (N.eqb_spec k k') as [->|Hn]; [intros E; injection E as ->; left; reflexivity|auto using in_cons].
Qed.
(** C79. The elements listed as parents of links are those whose class has a Link or Icon child, and the
    ItemIcon, which has its href itself. *)
Theorem link_parents_are : forall ty, is_link_parent ty = true <->
  ty = Type_ItemIcon \/ exists s, In s (c_slots (class_of ty)) /\ In (s_key s) [Type_Link; Type_Icon; Type_IconStyleIcon].
Proof.
  intros ty.
  assert (G : (ty =? Type_ItemIcon) || existsb (fun s => existsb (N.eqb (s_key s)) [Type_Link; Type_Icon; Type_IconStyleIcon]) (c_slots (class_of ty)) = is_link_parent ty).
  { destruct (N.lt_ge_cases ty 400) as [Hl|Hg].
    - assert (H : forallb (fun ty => Bool.eqb ((ty =? Type_ItemIcon) || existsb (fun s => existsb (N.eqb (s_key s)) [Type_Link; Type_Icon; Type_IconStyleIcon]) (c_slots (class_of ty))) (is_link_parent ty)) (map N.of_nat (seq 0 400)) = true) by (vm_compute; reflexivity).
      rewrite forallb_forall in H. apply Bool.eqb_prop. apply H. apply in_map_iff. exists (N.to_nat ty). split; [lia|]. apply in_seq. lia.
    - assert (class_of ty = no_class) as ->.
      { unfold class_of. destruct (lookup ty classes) as [c|] eqn:El; [|reflexivity]. apply class_listed in El.
        assert (T : forallb (fun x => fst x <? 400) classes = true) by (vm_compute; reflexivity).
        rewrite forallb_forall in T. specialize (T _ El). cbn [fst] in T. lia. }
      cbn [no_class c_slots existsb]. unfold is_link_parent. symmetry. 
      match goal with |- existsb ?f ?l = _ => assert (T : forall k, In k l -> k < 400) by (intros k Hk; cbn in Hk; repeat destruct Hk as [<-|Hk]; try reflexivity; destruct Hk) end.
      replace (ty =? Type_ItemIcon) with false by (symmetry; apply N.eqb_neq; unfold Type_ItemIcon; lia). cbn [orb].
      apply not_true_is_false. intros C. apply existsb_exists in C as (k & Hk & E). apply N.eqb_eq in E. specialize (T _ Hk). lia. }
  rewrite <- G, orb_true_iff, N.eqb_eq, existsb_exists. split; (intros [H|(s & H1 & H2)]; [left; exact H|right; exists s; split; [exact H1|]]).
  - apply existsb_exists in H2 as (k & Hk & E). apply N.eqb_eq in E. now rewrite E.
  - apply existsb_exists. exists (s_key s). split; [exact H2|apply N.eqb_refl].
Qed.
Print Assumptions link_parents_are.
(** C79. The elements which can have a link or icon are listed in document order. *)
Theorem link_parents_correct : forall t root, regular t -> tree keep_all t = Some root ->
  exists f, parse_with (file_observers false) t = Ok (Some root, f) /\ link_parents_of (f 2%nat) = filter (fun e => is_link_parent (fst e)) (elements root).
Proof.
  intros t root Hr Ht. destruct (parse_with_accepting _ t file_observers_lax Hr) as (f & Hf & Hn). exists f. rewrite Hf, Ht. split; [reflexivity|].
  unfold link_parents_of. rewrite (Hn 2%nat) by (cbn; lia). now rewrite (all_notes_new t root Ht).
Qed.
Print Assumptions link_parents_correct.
