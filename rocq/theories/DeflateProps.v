(** Archives with compressed data as RFC 1951 has it (C100, C122). *)
From Verif Require Import Common StringsModel PathModel KmzModel KmzProps UnzipModel UnzipProofs UnzipProofs2 UnzipProps LinkCheckProps ArchiveWriteProps DeflateRfc.
Local Open Scope N_scope.

(** Readers which do not look at what comes later. *)
Definition steady {A} (r r' : reader A) : Prop := forall s a s' t, (length t mod 8 = 0)%nat -> r s = Some (a, s') -> r' (s ++ t) = Some (a, s' ++ t).
Lemma steady_give {A} (a : A) : steady (give a) (give a).
Proof. intros s b s' t _ H. injection H as <- <-. reflexivity. Qed.
Lemma steady_err {A} (r : reader A) : steady err r.
Proof. intros s b s' t _ H. discriminate. Qed.
Lemma steady_then {A B} (r r' : reader A) (k k' : A -> reader B) : steady r r' -> (forall a, steady (k a) (k' a)) -> steady (andthen r k) (andthen r' k').
Proof. intros H1 H2 s a s' t Ht H. unfold andthen in *. destruct (r s) as [[x s1]|] eqn:E; [|discriminate]. rewrite (H1 _ _ _ _ Ht E). now apply H2. Qed.
Lemma steady_bit : steady bit bit.
Proof. intros [|b s] a s' t _ H; [discriminate|]. injection H as <- <-. reflexivity. Qed.
Lemma steady_bits n : steady (bits n) (bits n).
Proof. induction n; cbn [bits]; [apply steady_give|]. apply steady_then; [apply steady_bit|]. intros b. apply steady_then; [exact IHn|]. intros l. apply steady_give. Qed.
Lemma steady_number n : steady (number n) (number n).
Proof. apply steady_then; [apply steady_bits|]. intros l. apply steady_give. Qed.
Lemma steady_align : steady align align.
Proof.
  intros s a s' t Ht H. unfold align in *. injection H as <- <-. assert (E : (length (s ++ t) mod 8 = length s mod 8)%nat). { rewrite app_length, Nat.add_mod, Ht, Nat.add_0_r by lia. apply Nat.mod_mod. lia. }
  rewrite E, skipn_app. assert (L : (length s mod 8 <= length s)%nat) by (apply Nat.mod_le; lia). replace (length s mod 8 - length s)%nat with 0%nat by lia. reflexivity.
Qed.
Lemma steady_byte : steady byte byte.
Proof. apply steady_then; [apply steady_bits|]. intros l. do 8 (destruct l as [|? l]; [apply steady_err|]). destruct l; [apply steady_give|apply steady_err]. Qed.
Lemma steady_bytes n : steady (bytes n) (bytes n).
Proof. induction n; cbn [bytes]; [apply steady_give|]. apply steady_then; [apply steady_byte|]. intros b. apply steady_then; [exact IHn|]. intros l. apply steady_give. Qed.
Lemma steady_symbol_at counts : forall c first index syms, steady (symbol_at counts c first index syms) (symbol_at counts c first index syms).
Proof.
  induction counts as [|n cs IH]; intros c first index syms; cbn [symbol_at]; [apply steady_err|]. apply steady_then; [apply steady_bit|]. intros b. cbv zeta.
  destruct (_ && _); [|apply IH]. destruct (nth_error syms _); [apply steady_give|apply steady_err].
Qed.
Lemma steady_symbol h : steady (symbol h) (symbol h).
Proof. apply steady_symbol_at. Qed.
Lemma steady_ranged t i : steady (ranged t i) (ranged t i).
Proof. unfold ranged. destruct (nth_error t _) as [[e v]|]; [|apply steady_err]. apply steady_then; [apply steady_number|]. intros x. apply steady_give. Qed.
Lemma steady_symbols f : forall f' lit dist out, (f <= f')%nat -> steady (symbols f lit dist out) (symbols f' lit dist out).
Proof.
  induction f as [|f IH]; intros f' lit dist out Hf; cbn [symbols]; [apply steady_err|]. destruct f' as [|f']; [lia|]. cbn [symbols]. apply steady_then; [apply steady_symbol|]. intros s.
  destruct (s <? 256); [apply IH; lia|]. destruct (s =? 256); [apply steady_give|]. apply steady_then; [apply steady_ranged|]. intros n. apply steady_then; [apply steady_symbol|]. intros t. apply steady_then; [apply steady_ranged|]. intros d.
  destruct (copy_back _ _ _); [apply IH; lia|apply steady_err].
Qed.
Lemma steady_small n : steady (small n) (small n).
Proof. induction n; cbn [small]; [apply steady_give|]. apply steady_then; [apply steady_number|]. intros b. apply steady_then; [exact IHn|]. intros l. apply steady_give. Qed.
Lemma steady_lengths f : forall h n l, steady (lengths f h n l) (lengths f h n l).
Proof.
  induction f as [|f IH]; intros h n l; cbn [lengths]; [apply steady_err|]. destruct (Nat.eqb n 0); [apply steady_give|]. apply steady_then; [apply steady_symbol|]. intros s. destruct (s <? 16); [apply IH|].
  apply steady_then.
  - destruct (s =? 16); [destruct l; [apply steady_err|]|destruct (s =? 17)]; (apply steady_then; [apply steady_number|]; intros k; apply steady_give).
  - intros r. destruct (_ <? _); [apply steady_err|apply IH].
Qed.
Lemma steady_dynamic : steady dynamic dynamic.
Proof.
  unfold dynamic. do 3 (apply steady_then; [apply steady_number|]; intros ?). destruct (_ || _); [apply steady_err|]. apply steady_then; [apply steady_small|]. intros cl. destruct (negb _); [apply steady_err|].
  apply steady_then; [apply steady_lengths|]. intros l. cbv zeta. destruct (_ || _); [apply steady_err|apply steady_give].
Qed.
Lemma steady_stored out : steady (stored out) (stored out).
Proof.
  unfold stored. apply steady_then; [apply steady_align|]. intros _. do 2 (apply steady_then; [apply steady_number|]; intros ?). destruct (_ =? _); [|apply steady_err]. apply steady_then; [apply steady_bytes|]. intros l. apply steady_give.
Qed.
Lemma steady_blocks f : forall f' out, (f <= f')%nat -> steady (blocks f out) (blocks f' out).
Proof.
  induction f as [|f IH]; intros f' out Hf; cbn [blocks]; [apply steady_err|]. destruct f' as [|f']; [lia|]. cbn [blocks]. apply steady_then; [apply steady_bit|]. intros final. apply steady_then; [apply steady_number|]. intros kind.
  apply steady_then.
  - destruct (kind =? 0); [apply steady_stored|]. destruct (kind =? 1); [apply steady_symbols; lia|]. destruct (kind =? 2); [|apply steady_err]. apply steady_then; [apply steady_dynamic|]. intros h. apply steady_symbols. lia.
  - intros out'. destruct final; [apply steady_give|apply IH; lia].
Qed.
Lemma bits_app s t : bits_of (s ++ t) = bits_of s ++ bits_of t.
Proof. apply flat_map_app. Qed.
Lemma bits_length s : length (bits_of s) = (8 * length s)%nat.
Proof. induction s as [|c s IH]; [reflexivity|]. change (bits_of (c :: s)) with (byte_bits c ++ bits_of s). rewrite app_length, IH. destruct c. cbn [byte_bits length]. lia. Qed.
(** C100. What compressed data stands for does not depend on what is behind it. *)
Theorem inflate_prefix : forall s t o r, inflate s = Some (o, r) -> inflate (s ++ t) = Some (o, r ++ t).
Proof.
  intros s t o r H. unfold inflate in *. destruct (blocks (S (length (bits_of s))) [] (bits_of s)) as [[out more]|] eqn:E; [|discriminate]. injection H as <- <-.
  assert (Ht : (length (bits_of t) mod 8 = 0)%nat) by (rewrite bits_length, Nat.mul_comm; apply Nat.mod_mul; lia).
  assert (Hf : (S (length (bits_of s)) <= S (length (bits_of (s ++ t))))%nat) by (rewrite bits_app, app_length; lia).
  pose proof (steady_blocks _ _ [] Hf _ _ _ _ Ht E) as B. rewrite <- bits_app in B. rewrite B. do 2 f_equal.
  rewrite !app_length, bits_length, (Nat.mul_comm 8), Nat.div_add by lia. replace (length s + length t - (length more / 8 + length t))%nat with (length s - length more / 8)%nat by lia.
  rewrite skipn_app. replace (length s - length more / 8 - length s)%nat with 0%nat by lia. reflexivity.
Qed.
Print Assumptions inflate_prefix.

(** Readers which take at least [k] bits. *)
Definition takes {A} (k : nat) (r : reader A) : Prop := forall s a s', r s = Some (a, s') -> (length s' + k <= length s)%nat.
Lemma takes_give {A} (a : A) : takes 0 (give a).
Proof. intros s b s' H. injection H as <- <-. lia. Qed.
Lemma takes_err {A} k : takes k (@err A).
Proof. intros s b s' H. discriminate. Qed.
Lemma takes_then {A B} j k (r : reader A) (q : A -> reader B) : takes j r -> (forall a, takes k (q a)) -> takes (j + k) (andthen r q).
Proof. intros H1 H2 s a s' H. unfold andthen in H. destruct (r s) as [[x s1]|] eqn:E; [|discriminate]. apply H1 in E. apply H2 in H. lia. Qed.
Lemma takes_less {A} j k (r : reader A) : takes k r -> (j <= k)%nat -> takes j r.
Proof. intros H L s a s' E. apply H in E. lia. Qed.
Lemma takes_bit : takes 1 bit.
Proof. intros [|b s] a s' H; [discriminate|]. injection H as <- <-. cbn. lia. Qed.
Lemma takes_bits n : takes n (bits n).
Proof. induction n; cbn [bits]; [apply takes_give|]. apply (takes_then 1 n); [apply takes_bit|]. intros b. apply (takes_less n (n + 0)); [|lia]. apply takes_then; [exact IHn|]. intros l. apply takes_give. Qed.
Lemma takes_number n : takes n (number n).
Proof. apply (takes_less n (n + 0)); [|lia]. apply takes_then; [apply takes_bits|]. intros l. apply takes_give. Qed.
Lemma takes_align : takes 0 align.
Proof. intros s a s' H. injection H as <- <-. rewrite skipn_length. lia. Qed.
Lemma takes_bytes n : takes 0 (bytes n).
Proof.
  induction n; cbn [bytes]; [apply takes_give|]. apply (takes_then 0 0).
  - apply (takes_then 0 0); [apply (takes_less 0 8); [apply takes_bits|lia]|]. intros l. do 8 (destruct l as [|? l]; [apply takes_err|]). destruct l; [apply takes_give|apply takes_err].
  - intros b. apply (takes_then 0 0); [exact IHn|]. intros l. apply takes_give.
Qed.
Lemma takes_symbol h : takes 1 (symbol h).
Proof.
  unfold symbol. generalize 0 at 1. generalize 0 at 1. generalize 0 at 1. induction (fst h) as [|n cs IH]; intros c first index; cbn [symbol_at]; [apply takes_err|]. apply (takes_then 1 0); [apply takes_bit|]. intros b. cbv zeta.
  destruct (_ && _); [destruct (nth_error _ _); [apply takes_give|apply takes_err]|]. apply (takes_less 0 1); [apply IH|lia].
Qed.
Lemma takes_ranged t i : takes 0 (ranged t i).
Proof. unfold ranged. destruct (nth_error t _) as [[e v]|]; [|apply takes_err]. apply (takes_then 0 0); [apply (takes_less 0 e); [apply takes_number|lia]|]. intros x. apply takes_give. Qed.
Lemma takes_symbols f : forall lit dist out, takes 0 (symbols f lit dist out).
Proof.
  induction f as [|f IH]; intros lit dist out; cbn [symbols]; [apply takes_err|]. apply (takes_then 0 0); [apply (takes_less 0 1); [apply takes_symbol|lia]|]. intros s.
  destruct (s <? 256); [apply IH|]. destruct (s =? 256); [apply takes_give|]. apply (takes_then 0 0); [apply takes_ranged|]. intros n. apply (takes_then 0 0); [apply (takes_less 0 1); [apply takes_symbol|lia]|]. intros t. apply (takes_then 0 0); [apply takes_ranged|]. intros d.
  destruct (copy_back _ _ _); [apply IH|apply takes_err].
Qed.
Lemma takes_small n : takes 0 (small n).
Proof. induction n; cbn [small]; [apply takes_give|]. apply (takes_then 0 0); [apply (takes_less 0 3); [apply takes_number|lia]|]. intros b. apply (takes_then 0 0); [exact IHn|]. intros l. apply takes_give. Qed.
Lemma takes_lengths f : forall h n l, takes 0 (lengths f h n l).
Proof.
  induction f as [|f IH]; intros h n l; cbn [lengths]; [apply takes_err|]. destruct (Nat.eqb n 0); [apply takes_give|]. apply (takes_then 0 0); [apply (takes_less 0 1); [apply takes_symbol|lia]|]. intros s. destruct (s <? 16); [apply IH|].
  apply (takes_then 0 0).
  - destruct (s =? 16); [destruct l; [apply takes_err|]|destruct (s =? 17)]; (apply (takes_then 0 0); [eapply (takes_less 0); [apply takes_number|lia]|]; intros k; apply takes_give).
  - intros r. destruct (_ <? _); [apply takes_err|apply IH].
Qed.
Lemma takes_dynamic : takes 0 dynamic.
Proof.
  unfold dynamic. do 3 (apply (takes_then 0 0); [eapply (takes_less 0); [apply takes_number|lia]|]; intros ?). destruct (_ || _); [apply takes_err|]. apply (takes_then 0 0); [apply takes_small|]. intros cl. destruct (negb _); [apply takes_err|].
  apply (takes_then 0 0); [apply takes_lengths|]. intros l. cbv zeta. destruct (_ || _); [apply takes_err|apply takes_give].
Qed.
Lemma takes_stored out : takes 0 (stored out).
Proof.
  unfold stored. apply (takes_then 0 0); [apply takes_align|]. intros _. do 2 (apply (takes_then 0 0); [eapply (takes_less 0); [apply takes_number|lia]|]; intros ?). destruct (_ =? _); [|apply takes_err]. apply (takes_then 0 0); [apply takes_bytes|]. intros l. apply takes_give.
Qed.
Lemma symbols_enough g : forall f lit dist out s r, (length s < f)%nat -> symbols g lit dist out s = Some r -> symbols f lit dist out s = Some r.
Proof.
  induction g as [|g IH]; intros f lit dist out s r Hf H; [discriminate|]. destruct f as [|f]; [lia|]. cbn [symbols] in *. unfold andthen at 1 in H. unfold andthen at 1. destruct (symbol lit s) as [[x s1]|] eqn:E1; [|discriminate]. apply takes_symbol in E1.
  destruct (x <? 256); [apply IH; [lia|exact H]|]. destruct (x =? 256); [exact H|]. unfold andthen at 1 in H. unfold andthen at 1. destruct (ranged length_table (x - 257) s1) as [[n s2]|] eqn:E2; [|discriminate]. apply takes_ranged in E2.
  unfold andthen at 1 in H. unfold andthen at 1. destruct (symbol dist s2) as [[y s3]|] eqn:E3; [|discriminate]. apply takes_symbol in E3. unfold andthen at 1 in H. unfold andthen at 1. destruct (ranged distance_table y s3) as [[d s4]|] eqn:E4; [|discriminate]. apply takes_ranged in E4.
  destruct (copy_back _ _ _); [|discriminate]. apply IH; [lia|exact H].
Qed.
Lemma blocks_enough g : forall f out s r, (length s < f)%nat -> blocks g out s = Some r -> blocks f out s = Some r.
Proof.
  induction g as [|g IH]; intros f out s r Hf H; [discriminate|]. destruct f as [|f]; [lia|]. cbn [blocks] in *. unfold andthen at 1 in H. unfold andthen at 1. destruct (bit s) as [[final s1]|] eqn:E1; [|discriminate]. apply takes_bit in E1.
  unfold andthen at 1 in H. unfold andthen at 1. destruct (number 2 s1) as [[kind s2]|] eqn:E2; [|discriminate]. apply takes_number in E2. unfold andthen at 1 in H. unfold andthen at 1.
  match type of H with match ?q s2 with _ => _ end = _ => destruct (q s2) as [[out' s3]|] eqn:E3; [|discriminate] end.
  match goal with |- match ?q s2 with _ => _ end = _ => assert (Q : q s2 = Some (out', s3) /\ (length s3 <= length s2)%nat) end.
  { destruct (kind =? 0); [split; [exact E3|apply takes_stored in E3; lia]|]. destruct (kind =? 1).
    - split; [eapply symbols_enough; [|exact E3]; lia|apply takes_symbols in E3; lia].
    - destruct (kind =? 2); [|discriminate]. unfold andthen in *. destruct (dynamic s2) as [[h s4]|] eqn:E4; [|discriminate]. apply takes_dynamic in E4. split; [eapply symbols_enough; [|exact E3]; lia|apply takes_symbols in E3; lia]. }
  destruct Q as [Q1 Q2]. rewrite Q1. destruct final; [exact H|]. apply IH; [lia|exact H].
Qed.
(** C100. The number of steps allowed is no limit: with any number of steps the result is the same, or there is none. *)
Theorem inflate_enough : forall s g out more, blocks g [] (bits_of s) = Some (out, more) -> inflate s = Some (rev out, skipn (length s - length more / 8) s).
Proof. intros s g out more H. unfold inflate. rewrite (blocks_enough g (S (length (bits_of s))) [] (bits_of s) (out, more)); [reflexivity|lia|exact H]. Qed.
Print Assumptions inflate_enough.

(** zlib as a stream, on top of the format: the input is collected until it is complete, the output given as there is room for it.  How the
    data is cut into calls and what is given when is left to zlib by its contract ([inflates]); this is one way to keep it.  No room is Z_BUF_ERROR, and so is no input;
    data that were complete before the last call are an error. *)
Inductive zstream := Gathering (b : str) | Giving (o : str).
Definition flush (o r : str) (n : N) : zstream * str * str * Z :=
  if len o <=? n then (Giving [], o, r, 1%Z) else (Giving (skipn (N.to_nat n) o), firstn (N.to_nat n) o, r, if n =? 0 then (-5)%Z else 0%Z).
Definition z_step (s : zstream) (a : str) (n : N) : zstream * str * str * Z :=
  match s with
  | Giving o => flush o a n
  | Gathering b => match inflate (b ++ a) with
                   | Some (o, r) => if len r <=? len a then flush o r n else (Gathering b, [], a, (-3)%Z)
                   | None => (Gathering (b ++ a), [], [], match a with [] => (-5)%Z | _ => 0%Z end)
                   end
  end.
(** In this state the input makes this output. *)
Definition makes (s : zstream) (z o : str) : Prop := match s with Gathering b => inflate (b ++ z) = Some (o, []) | Giving x => z = [] /\ x = o end.
Lemma flush_spec o n : o <> [] -> 0 < n -> exists s' out code o', flush o [] n = (s', out, [], code) /\ o = out ++ o' /\ len out <= n /\ makes s' [] o' /\ ((code = 0%Z /\ out <> []) \/ (code = 1%Z /\ o' = [])).
Proof.
  intros Ho Hn. unfold flush. assert (n =? 0 = false) as -> by (apply N.eqb_neq; lia). destruct (len o <=? n) eqn:E.
  - apply N.leb_le in E. exists (Giving []), o, 1%Z, []. rewrite app_nil_r. split; [reflexivity|]. split; [reflexivity|]. split; [exact E|]. split; [now split|]. now right.
  - apply N.leb_gt in E. exists (Giving (skipn (N.to_nat n) o)), (firstn (N.to_nat n) o), 0%Z, (skipn (N.to_nat n) o). split; [reflexivity|]. split; [symmetry; apply firstn_skipn|].
    split; [unfold len; rewrite firstn_length; lia|]. split; [now split|]. left. split; [reflexivity|]. destruct o as [|c o]; [congruence|]. destruct (N.to_nat n) eqn:En; [lia|]. discriminate.
Qed.
(** C100, C122. An inflate as RFC 1951 says meets the contract that the theorems about archives rest on. *)
Theorem rfc1951_inflates : inflates zstream z_step makes.
Proof.
  intros s a rest o n HR Ho Hn Ha. destruct s as [b|x]; cbn [makes z_step] in *.
  - destruct (inflate (b ++ a)) as [[o1 r1]|] eqn:E.
    + pose proof (inflate_prefix _ rest _ _ E) as P. rewrite <- app_assoc, HR in P. injection P as <- P. symmetry in P. apply app_eq_nil in P as [-> ->]. assert (len [] <=? len a = true) as -> by (unfold len; cbn [length]; apply N.leb_le; lia).
      destruct (flush_spec o n Ho Hn) as (s' & out & code & o' & F1 & F2 & F3 & F4 & F5). exists s', out, [], code, a, o'. rewrite app_nil_r. repeat (split; [assumption || reflexivity|]). intuition.
    + assert (Hr : rest <> []) by (intros ->; rewrite app_nil_r in HR; congruence). destruct a as [|c a]; [intuition congruence|].
      exists (Gathering (b ++ c :: a)), [], [], 0%Z, (c :: a), o. cbn [makes app]. rewrite app_nil_r. split; [reflexivity|]. split; [reflexivity|]. split; [reflexivity|]. split; [unfold len; cbn; lia|]. split; [now rewrite <- app_assoc|]. left. split; [reflexivity|left; discriminate].
  - destruct HR as [HR ->]. apply app_eq_nil in HR as [-> ->]. destruct (flush_spec o n Ho Hn) as (s' & out & code & o' & F1 & F2 & F3 & F4 & F5). exists s', out, [], code, [], o'. repeat (split; [assumption || reflexivity|]). intuition.
Qed.
Print Assumptions rfc1951_inflates.
(** C101. It makes progress on any data, so reading a damaged archive with it ends. *)
Theorem rfc1951_progresses : progresses z_step.
Proof.
  assert (F : forall o r n s' x a', flush o r n = (s', x, a', 0%Z) -> a' = r /\ len x <= n /\ 0 < len x).
  { intros o r n s' x a'. unfold flush. destruct (len o <=? n) eqn:E; [discriminate|]. apply N.leb_gt in E. destruct (N.eqb_spec n 0); [discriminate|]. intros H. injection H as <- <- <-. unfold len in *. rewrite firstn_length. split; [reflexivity|lia]. }
  intros s a n s' x a' H. destruct s as [b|o]; cbn [z_step] in H.
  - destruct (inflate (b ++ a)) as [[o r]|].
    + destruct (len r <=? len a) eqn:E; [|discriminate]. apply N.leb_le in E. apply F in H as (-> & H1 & H2). split; [exact E|]. split; [exact H1|now right].
    + destruct a as [|c a]; [discriminate|]. injection H as <- <- <-. unfold len. cbn [length]. lia.
  - apply F in H as (-> & H1 & H2). split; [lia|]. split; [exact H1|now right].
Qed.
Print Assumptions rfc1951_progresses.
(** C101. With the inflate of RFC 1951: whatever the data, a file asked for is given or not, and not above the limit. *)
Theorem damaged_rfc1951 : forall exact d toc max p, exists r, zip_get zstream (Gathering []) z_step exact d toc max p = Ok r /\ forall b, r = Some b -> In p toc /\ 1 <= len b <= max.
Proof. exact (damaged_read zstream (Gathering []) z_step rfc1951_progresses). Qed.
Print Assumptions damaged_rfc1951.

(** Data as stored blocks of at most 65535 bytes (RFC 1951, 3.2.4): compression that always works. *)
Definition stored_max : N := 65535.
Definition stored_head (final : ascii) (n : N) : str := [final; ascii_of_N (n mod 256); ascii_of_N (n / 256); ascii_of_N ((stored_max - n) mod 256); ascii_of_N ((stored_max - n) / 256)].
Fixpoint store (fuel : nat) (s : str) : str :=
  match fuel with
  | O => []
  | S f => if len s <=? stored_max then stored_head "001"%char (len s) ++ s
           else stored_head "000"%char stored_max ++ firstn (N.to_nat stored_max) s ++ store f (skipn (N.to_nat stored_max) s)
  end.
Definition deflate_stored (s : str) : str := store (S (length s)) s.
Lemma digits_app a b : N_of_digits (a ++ b) = N_of_digits a + 2 ^ N.of_nat (length a) * N_of_digits b.
Proof.
  induction a as [|x a IH]; [change (2 ^ N.of_nat (length (@nil bool))) with 1; cbn [app N_of_digits]; lia|]. cbn [app length N_of_digits]. rewrite IH, Nat2N.inj_succ, N.pow_succ_r'. destruct x; lia.
Qed.
Lemma bits_read l : forall n t, n = length l -> bits n (l ++ t) = Some (l, t).
Proof. induction l as [|b l IH]; intros n t ->; [reflexivity|]. cbn [length bits app]. unfold andthen. cbn [bit]. now rewrite IH. Qed.
Lemma byte_digits c : N_of_digits (byte_bits c) = N_of_ascii c.
Proof. now destruct c. Qed.
Lemma number16 x y t : x < 256 -> y < 256 -> number 16 (byte_bits (ascii_of_N x) ++ byte_bits (ascii_of_N y) ++ t) = Some (x + 256 * y, t).
Proof.
  intros Hx Hy. unfold number, andthen. rewrite app_assoc, bits_read.
  - unfold give. rewrite digits_app, !byte_digits, !N_ascii_embedding by assumption. do 2 f_equal. now destruct (ascii_of_N x).
  - rewrite app_length. now destruct (ascii_of_N x), (ascii_of_N y).
Qed.
Lemma bytes_read x : forall t, bytes (length x) (bits_of x ++ t) = Some (x, t).
Proof. induction x as [|c x IH]; intros t; [reflexivity|]. cbn [length bytes]. change (bits_of (c :: x)) with (byte_bits c ++ bits_of x). rewrite <- app_assoc. unfold andthen at 1. assert (B : byte (byte_bits c ++ bits_of x ++ t) = Some (c, bits_of x ++ t)) by now destruct c. rewrite B. unfold andthen. rewrite IH. reflexivity. Qed.
Lemma stored_block f out x t (final : bool) : len x <= stored_max -> (length t mod 8 = 0)%nat ->
  blocks (S f) out (bits_of (stored_head (if final then "001" else "000")%char (len x) ++ x) ++ t) = (if final then Some (rev x ++ out, t) else blocks f (rev x ++ out) t).
Proof.
  intros Hx Ht. unfold stored_max in *. set (h := [ascii_of_N (len x mod 256); ascii_of_N (len x / 256); ascii_of_N ((stored_max - len x) mod 256); ascii_of_N ((stored_max - len x) / 256)]).
  assert (E : bits_of (stored_head (if final then "001" else "000")%char (len x) ++ x) ++ t = [final; false; false; false; false; false; false; false] ++ bits_of (h ++ x) ++ t).
  { change (stored_head (if final then "001" else "000")%char (len x) ++ x) with ((if final then "001" else "000")%char :: h ++ x). change (bits_of ((if final then "001" else "000")%char :: h ++ x)) with (byte_bits (if final then "001" else "000")%char ++ bits_of (h ++ x)). rewrite <- app_assoc. now destruct final. }
  rewrite E. cbn [app blocks]. unfold andthen at 1. cbn [bit]. unfold andthen at 1. change (number 2 (false :: false :: false :: false :: false :: false :: false :: bits_of (h ++ x) ++ t)) with (Some (0, false :: false :: false :: false :: false :: bits_of (h ++ x) ++ t)).
  cbv beta iota. change (0 =? 0) with true. cbv iota.
  assert (S1 : stored out (false :: false :: false :: false :: false :: bits_of (h ++ x) ++ t) = Some (rev x ++ out, t)).
  { unfold stored. unfold andthen at 1. unfold align. set (u := bits_of (h ++ x) ++ t). assert (Hu : (length u mod 8 = 0)%nat). { unfold u. rewrite app_length, bits_length, Nat.add_comm, (Nat.mul_comm 8), Nat.mod_add by lia. exact Ht. }
    assert (H5 : (length (false :: false :: false :: false :: false :: u) mod 8 = 5)%nat). { cbn [length]. rewrite (Nat.div_mod_eq (length u) 8), Hu, Nat.add_0_r, (Nat.mul_comm 8). change (S (S (S (S (S (length u / 8 * 8)))))) with (5 + length u / 8 * 8)%nat. rewrite Nat.mod_add by lia. reflexivity. }
    rewrite H5. cbn [skipn]. unfold u, h. rewrite bits_app. cbn [bits_of flat_map]. rewrite app_nil_r, <- !app_assoc. unfold andthen at 1. rewrite number16 by (unfold stored_max; lia). unfold andthen at 1. rewrite number16 by (unfold stored_max; lia).
    replace (len x mod 256 + 256 * (len x / 256)) with (len x) by lia. replace ((stored_max - len x) mod 256 + 256 * ((stored_max - len x) / 256)) with (stored_max - len x) by (unfold stored_max; lia).
    replace (len x + (stored_max - len x) =? 65535) with true by (unfold stored_max; lia). unfold andthen. replace (N.to_nat (len x)) with (length x) by (unfold len; lia). fold (bits_of x). rewrite bytes_read. reflexivity. }
  unfold andthen at 1. rewrite S1. now destruct final.
Qed.
Lemma store_reads f : forall g s out, (length s < f)%nat -> (f <= g)%nat -> blocks g out (bits_of (store f s)) = Some (rev s ++ out, []).
Proof.
  induction f as [|f IH]; intros g s out Hf Hg; [lia|]. destruct g as [|g]; [lia|]. cbn [store]. destruct (len s <=? stored_max) eqn:E.
  - apply N.leb_le in E. pose proof (stored_block g out s [] true E eq_refl) as B. rewrite app_nil_r in B. exact B.
  - apply N.leb_gt in E. set (k := N.to_nat stored_max). assert (Hk : (k <= length s)%nat) by (unfold k, len in *; lia). assert (Hk0 : (0 < k)%nat) by (unfold k, stored_max; lia).
    assert (L : len (firstn k s) = stored_max). { unfold len. rewrite firstn_length_le by exact Hk. unfold k. lia. }
    pose proof (stored_block g out (firstn k s) (bits_of (store f (skipn k s))) false ltac:(lia)) as B. rewrite L in B. rewrite app_assoc, bits_app, B.
    + rewrite IH by (rewrite ?skipn_length; lia). rewrite <- (firstn_skipn k s) at 3. rewrite rev_app_distr, <- app_assoc. reflexivity.
    + rewrite bits_length, Nat.mul_comm. apply Nat.mod_mul. lia.
Qed.
Lemma store_long f : forall s, (length s < f)%nat -> (length s <= length (store f s))%nat.
Proof.
  induction f as [|f IH]; intros s Hf; [lia|]. cbn [store]. destruct (len s <=? stored_max) eqn:E; rewrite !app_length; [lia|]. apply N.leb_gt in E. assert (Hk0 : (0 < N.to_nat stored_max)%nat) by (unfold stored_max; lia).
  assert (G := IH (skipn (N.to_nat stored_max) s)). rewrite skipn_length in G. rewrite firstn_length. unfold len in E. cbn [length stored_head]. lia.
Qed.
(** C100, C122. There is a compression for all data. *)
Theorem stored_inflates : forall s, inflate (deflate_stored s) = Some (s, []).
Proof.
  intros s. unfold inflate, deflate_stored. rewrite store_reads; [|lia|].
  - rewrite app_nil_r, rev_involutive. cbn [length]. change (0 / 8)%nat with 0%nat. rewrite Nat.sub_0_r, skipn_all. reflexivity.
  - rewrite bits_length. pose proof (store_long (S (length s)) s ltac:(lia)). lia.
Qed.
Print Assumptions stored_inflates.
(** C100. Reading an archive by the ZIP format and RFC 1951 only: an entry that is not stored holds compressed data for its data. *)
Theorem archive_rfc1951 : forall d es comment max p, is_zip d es comment -> es <> [] -> len d <= 2147483647 -> len comment <= 65513 -> last_record d comment ->
  (forall e, In e es -> len (e_name e) < 256 /\ ~ In "000"%char (e_name e) /\ ((e_method e = 0 /\ e_raw e = e_data e) \/ (e_method e = 8 /\ inflate (e_raw e) = Some (e_data e, [])))) ->
  let a := map (fun e => (e_name e, e_data e)) es in
  zip_toc d = Ok (map fst a) /\ zip_get zstream (Gathering []) z_step true d (map fst a) max p = Ok (read_file max a p).
Proof. intros d es comment max p H1 H2 H3 H4 H5 H6. exact (archive_is_list zstream (Gathering []) z_step makes rfc1951_inflates d es comment max p H1 H2 H3 H4 H5 H6). Qed.
Print Assumptions archive_rfc1951.
(** C122. Writing an archive with any compression that RFC 1951 undoes, and reading it. *)
Theorem written_rfc1951 : forall compress, (forall s, inflate (compress s) = Some (s, [])) ->
  forall fs max p, fs <> [] -> len (written_zip compress fs) < 88821760 -> N.of_nat (length fs) < 19280 ->
  (forall f, In f fs -> len (fst f) < 256 /\ ~ In "000"%char (fst f) /\ len (snd f) < 4294967296) ->
  is_zip_data (written_zip compress fs) = true /\ zip_toc (written_zip compress fs) = Ok (map fst fs) /\
  zip_get zstream (Gathering []) z_step true (written_zip compress fs) (map fst fs) max p = Ok (read_file max fs p).
Proof. intros compress H. exact (written_is_read _ (Gathering []) z_step makes compress rfc1951_inflates H). Qed.
Print Assumptions written_rfc1951.

(** The tables leave no gap and have no overlap: each value of a row ends where the next begins, from 3 to 258 and from 1 to 32768. *)
Fixpoint contiguous (v : N) (t : list (nat * N)) : option N := match t with [] => Some v | (e, w) :: t' => if v =? w then contiguous (w + 2 ^ N.of_nat e) t' else None end.
Example tables_sample : contiguous 3 (firstn 28 length_table) = Some 259 /\ nth_error length_table 28 = Some (0%nat, 258) /\ length length_table = 29%nat /\
  contiguous 1 distance_table = Some 32769 /\ length distance_table = 30%nat /\ space (repeat 8 144 ++ repeat 9 112 ++ repeat 7 24 ++ repeat 8 8) = 0%Z.
Proof. repeat split; vm_compute; reflexivity. Qed.
(** The decoder on data compressed by zlib, with fixed and with dynamic codes, and text behind it. *)
Example zlib_samples :
  inflate (map ascii_of_N [179; 201; 206; 205; 177; 179; 113; 201; 79; 46; 205; 77; 205; 43; 177; 179; 9; 200; 73; 76; 78; 205; 77; 44; 202; 214; 199; 205; 214; 71; 40; 215; 7; 105; 7; 0] ++ S_ "tail") = Some (S_ "<kml><Document><Placemark/><Placemark/><Placemark/></Document></kml>", S_ "tail") /\
  inflate (map ascii_of_N [5; 193; 193; 13; 5; 33; 8; 5; 192; 134; 76; 216; 221; 51; 161; 6; 91; 120; 31; 57; 24; 5; 18; 180; 255; 252; 25; 166; 190; 161; 230; 168; 37; 154; 89; 99; 6; 174; 29; 205; 172; 49; 3; 215; 14; 83; 223; 80; 115; 212; 18; 14; 184; 137; 102; 214; 152; 129; 107; 135; 41; 224; 38; 79; 123; 219; 167; 153; 53; 102; 224; 218; 225; 190; 161; 230; 168; 37; 154; 89; 99; 6; 174; 29; 238; 27; 106; 142; 90; 130; 159; 50; 5; 220; 132; 3; 110; 162; 153; 53; 102; 224; 218; 97; 234; 27; 106; 142; 90; 194; 212; 55; 212; 28; 181; 228; 105; 111; 251; 152; 2; 110; 162; 153; 53; 102; 224; 218; 193; 79; 53; 179; 198; 12; 92; 59; 76; 1; 55; 97; 10; 184; 201; 211; 222; 246; 225; 167; 76; 125; 67; 205; 81; 75; 152; 250; 134; 154; 163; 150; 60; 237; 109; 31; 83; 223; 80; 115; 212; 18; 252; 84; 51; 107; 204; 192; 181; 195; 20; 112; 147; 167; 189; 237; 227; 190; 161; 230; 168; 37; 79; 123; 219; 135; 159; 114; 223; 80; 115; 212; 18; 166; 190; 161; 230; 168; 37; 127]) = Some (S_ "</Placemark>coordinatescoordinates</Placemark><name>coordinates</name>0,1,2coordinates<Placemark>coordinates<Placemark>abc</name><name>coordinates</Placemark></Placemark>0,1,2</name>coordinatesabccoordinates</name></name>0,1,2abc</Placemark></Placemark>0,1,2</Placemark>abccoordinates</name>0,1,2<Placemark>0,1,2abc<Placemark></Placemark>", []) /\ inflate (S_ "no") = None.
Proof. split; [|split]; vm_compute; reflexivity. Qed.
(** An archive made by another program: two deflated entries and a stored one, read whole with the same zlib in calls of any size. *)
Definition other_zip : str := map ascii_of_N [80; 75; 3; 4; 20; 0; 0; 0; 8; 0; 66; 8; 93; 56; 42; 90; 69; 8; 36; 0; 0; 0; 68; 0; 0; 0; 7; 0; 0; 0; 100; 111; 99; 46; 107; 109; 108; 179; 201; 206; 205; 177; 179; 113; 201; 79; 46; 205; 77; 205; 43; 177; 179; 9; 200; 73; 76; 78; 205; 77; 44; 202; 214; 199; 205; 214; 71; 40; 215; 7; 105; 7; 0; 80; 75; 3; 4; 20; 0; 0; 0; 0; 0; 66; 8; 93; 56; 26; 65; 191; 21; 3; 0; 0; 0; 3; 0; 0; 0; 7; 0; 0; 0; 97; 47; 105; 46; 112; 110; 103; 80; 78; 71; 80; 75; 3; 4; 20; 0; 0; 0; 8; 0; 66; 8; 93; 56; 129; 252; 177; 72; 7; 0; 0; 0; 30; 0; 0; 0; 5; 0; 0; 0; 98; 46; 116; 120; 116; 75; 76; 74; 78; 196; 141; 0; 80; 75; 1; 2; 20; 3; 20; 0; 0; 0; 8; 0; 66; 8; 93; 56; 42; 90; 69; 8; 36; 0; 0; 0; 68; 0; 0; 0; 7; 0; 0; 0; 0; 0; 0; 0; 0; 0; 0; 0; 128; 1; 0; 0; 0; 0; 100; 111; 99; 46; 107; 109; 108; 80; 75; 1; 2; 20; 3; 20; 0; 0; 0; 0; 0; 66; 8; 93; 56; 26; 65; 191; 21; 3; 0; 0; 0; 3; 0; 0; 0; 7; 0; 0; 0; 0; 0; 0; 0; 0; 0; 0; 0; 128; 1; 73; 0; 0; 0; 97; 47; 105; 46; 112; 110; 103; 80; 75; 1; 2; 20; 3; 20; 0; 0; 0; 8; 0; 66; 8; 93; 56; 129; 252; 177; 72; 7; 0; 0; 0; 30; 0; 0; 0; 5; 0; 0; 0; 0; 0; 0; 0; 0; 0; 0; 0; 128; 1; 113; 0; 0; 0; 98; 46; 116; 120; 116; 80; 75; 5; 6; 0; 0; 0; 0; 3; 0; 3; 0; 157; 0; 0; 0; 155; 0; 0; 0; 0; 0].
Example other_zip_read : zip_toc other_zip = Ok [S_ "doc.kml"; S_ "a/i.png"; S_ "b.txt"] /\
  map (fun p => zip_get zstream (Gathering []) z_step true other_zip [S_ "doc.kml"; S_ "a/i.png"; S_ "b.txt"] 1000 p) [S_ "doc.kml"; S_ "a/i.png"; S_ "b.txt"] =
  [Ok (Some (S_ "<kml><Document><Placemark/><Placemark/><Placemark/></Document></kml>")); Ok (Some (S_ "PNG")); Ok (Some (S_ "abcabcabcabcabcabcabcabcabcabc"))].
Proof. split; vm_compute; reflexivity. Qed.
