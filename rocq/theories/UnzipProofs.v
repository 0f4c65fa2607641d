(** Lemmas about reading ZIP archives from memory (UnzipModel.v). *)
From Verif Require Import Common StringsModel PathModel UnzipModel.
Local Open Scope N_scope.

(** ** Vocabulary of the ZIP format (PKWARE APPNOTE 4.3) *)

(** Little endian numbers of [k] bytes. *)
Fixpoint le (k : nat) (v : N) : str :=
  match k with O => [] | S j => ascii_of_N (v mod 256) :: le j (v / 256) end.

(** [s] lies at position [p] of [d]. *)
Definition at_ (d : str) (p : N) (s : str) : Prop := exists a b, d = a ++ s ++ b /\ len a = p.

Record entry := Entry {
  e_name : str; e_raw : str; e_data : str; e_method : N; e_crc : N; e_off : N;
  e_made : N; e_needed : N; e_flag : N; e_date : N; e_disk : N; e_int : N; e_ext : N;
  e_extra : str; e_comment : str;
  e_lneeded : N; e_lflag : N; e_ldate : N; e_lcrc : N; e_lcsize : N; e_lusize : N; e_lextra : str }.

(** APPNOTE 4.3.12: an item of the central directory. *)
Definition central (e : entry) : str :=
  le 4 33639248 ++ le 2 (e_made e) ++ le 2 (e_needed e) ++ le 2 (e_flag e) ++ le 2 (e_method e) ++ le 4 (e_date e) ++
  le 4 (e_crc e) ++ le 4 (len (e_raw e)) ++ le 4 (len (e_data e)) ++ le 2 (len (e_name e)) ++ le 2 (len (e_extra e)) ++
  le 2 (len (e_comment e)) ++ le 2 (e_disk e) ++ le 2 (e_int e) ++ le 4 (e_ext e) ++ le 4 (e_off e) ++
  e_name e ++ e_extra e ++ e_comment e.
(** APPNOTE 4.3.7: the local header and the file data. *)
Definition local_ (e : entry) : str :=
  le 4 67324752 ++ le 2 (e_lneeded e) ++ le 2 (e_lflag e) ++ le 2 (e_method e) ++ le 4 (e_ldate e) ++ le 4 (e_lcrc e) ++
  le 4 (e_lcsize e) ++ le 4 (e_lusize e) ++ le 2 (len (e_name e)) ++ le 2 (len (e_lextra e)) ++
  e_name e ++ e_lextra e ++ e_raw e.
(** APPNOTE 4.3.16: the end of central directory record. *)
Definition ending (n size off : N) (comment : str) : str :=
  le 4 101010256 ++ le 2 0 ++ le 2 0 ++ le 2 n ++ le 2 n ++ le 4 size ++ le 4 off ++ le 2 (len comment) ++ comment.

(** The values fit into their fields. With bit 3 of the local flags the checksum and the sizes
    are only in the central directory (APPNOTE 4.4.4). *)
Record fits (e : entry) : Prop := {
  f_method : e_method e < 65536; f_crc : e_crc e < 4294967296; f_raw : len (e_raw e) < 4294967296;
  f_data : len (e_data e) < 4294967296; f_name : len (e_name e) < 65536; f_extra : len (e_extra e) < 65536;
  f_comment : len (e_comment e) < 65536; f_off : e_off e < 4294967296;
  f_lflag : e_lflag e < 65536; f_lcrc : e_lcrc e < 4294967296; f_lcsize : e_lcsize e < 4294967296;
  f_lusize : e_lusize e < 4294967296; f_lextra : len (e_lextra e) < 65536;
  f_sizes : N.testbit (e_lflag e) 3 = true \/
    (e_lcrc e = e_crc e /\ e_lcsize e = len (e_raw e) /\ e_lusize e = len (e_data e)) }.

(** [d] is an archive of these entries with this comment: the central directory followed by the
    end record at the end of the data, each local header at its offset. The offsets count from a
    point that may lie behind the start of the data (self-extracting archives). *)
Definition is_zip (d : str) (es : list entry) (comment : str) : Prop :=
  exists front off,
    d = front ++ List.concat (map central es) ++ ending (N.of_nat (length es)) (len (List.concat (map central es))) off comment /\
    off <= len front /\ off < 4294967296 /\ len (List.concat (map central es)) < 4294967296 /\
    N.of_nat (length es) < 65536 /\ len comment < 65536 /\
    forall e, In e es -> fits e /\ at_ d (len front - off + e_off e) (local_ e).

(** ** Reading *)
Lemma len_app a b : len (a ++ b) = len a + len b.
Proof. unfold len. rewrite app_length. lia. Qed.
Lemma len_cons c a : len (c :: a) = 1 + len a.
Proof. unfold len. simpl length. lia. Qed.
Lemma le_length k v : length (le k v) = k.
Proof. revert v; induction k; intros v; simpl; auto. Qed.
Lemma len_le k v : len (le k v) = N.of_nat k.
Proof. unfold len. now rewrite le_length. Qed.
Lemma at_l d p s t : at_ d p (s ++ t) -> at_ d p s.
Proof. intros (a & b & -> & Ha). exists a, (t ++ b). now rewrite <- app_assoc. Qed.
Lemma at_r d p s t q : at_ d p (s ++ t) -> q = p + len s -> at_ d q t.
Proof. intros (a & b & -> & Ha) ->. exists (a ++ s), b. rewrite len_app, <- !app_assoc. split; [reflexivity|lia]. Qed.
Lemma at_len d p s : at_ d p s -> p + len s <= len d.
Proof. intros (a & b & -> & Ha). rewrite !len_app. lia. Qed.

Lemma mem_read_in d p n : p < zip_max -> p + n <= len d ->
  mem_read d p n = firstn (N.to_nat n) (skipn (N.to_nat p) d).
Proof.
  intros Hp Hn. unfold mem_read. destruct (N.leb_spec zip_max p); [lia|].
  destruct (N.ltb_spec (len d) (p + n)); [lia|]. cbv zeta.
  destruct (N.eqb_spec n 0) as [->|]; reflexivity.
Qed.
Lemma mem_read_at d p s : at_ d p s -> len d <= zip_max -> mem_read d p (len s) = s.
Proof.
  intros H Hd. pose proof (at_len _ _ _ H) as Hl. destruct H as (a & b & -> & Ha).
  destruct s as [|c s].
  - unfold mem_read. destruct (zip_max <=? p); [reflexivity|]. cbv zeta.
    destruct (N.ltb_spec (len (a ++ [] ++ b)) (p + len [])); [unfold len in *; simpl in *; lia|reflexivity].
  - rewrite mem_read_in; [|rewrite len_cons in *; lia|assumption].
    replace (N.to_nat p) with (length a) by (unfold len in *; lia).
    rewrite skipn_app, Nat.sub_diag, skipn_all. cbn [skipn].
    replace (N.to_nat (len (c :: s))) with (length (c :: s) + 0)%nat by (unfold len; lia).
    change ([] ++ (c :: s) ++ b) with ((c :: s) ++ b).
    rewrite firstn_app_2. simpl. now rewrite app_nil_r.
Qed.
Lemma mem_read_len d p n : len (mem_read d p n) <= n /\ (p + n <= len d \/ len (mem_read d p n) = len d - p \/ len (mem_read d p n) = 0).
Proof.
  unfold mem_read. destruct (N.leb_spec zip_max p); [unfold len; simpl; lia|]. cbv zeta.
  destruct (N.ltb_spec (len d) (p + n)).
  - destruct (N.eqb_spec (len d - p) 0) as [E|E]; [unfold len; simpl; lia|].
    unfold len in *. rewrite firstn_length, skipn_length. lia.
  - destruct (N.eqb_spec n 0) as [E|E]; [unfold len; simpl; lia|].
    unfold len in *. rewrite firstn_length, skipn_length. lia.
Qed.
(** What is read is a part of the data. *)
Lemma mem_read_part d p n : mem_read d p n = [] \/ at_ d p (mem_read d p n).
Proof.
  unfold mem_read. destruct (N.leb_spec zip_max p); [now left|]. cbv zeta.
  set (m := if len d <? p + n then len d - p else n).
  destruct (N.eqb_spec m 0); [now left|]. right.
  assert (Hm : p + m <= len d). { unfold m in *. destruct (N.ltb_spec (len d) (p + n)); lia. }
  exists (firstn (N.to_nat p) d), (skipn (N.to_nat m) (skipn (N.to_nat p) d)). split.
  - now rewrite (firstn_skipn (N.to_nat m)), firstn_skipn.
  - unfold len in *. rewrite firstn_length. lia.
Qed.
Lemma mem_read_full d p n : len (mem_read d p n) = n -> 0 < n -> p + n <= len d /\ p < zip_max.
Proof.
  unfold mem_read. destruct (N.leb_spec zip_max p); [unfold len; simpl; lia|]. cbv zeta.
  destruct (N.ltb_spec (len d) (p + n)); [|lia].
  destruct (N.eqb_spec (len d - p) 0); [unfold len; simpl; lia|].
  unfold len in *. rewrite firstn_length, skipn_length. lia.
Qed.

Lemma get_byte_at d p c : at_ d p [c] -> len d <= zip_max -> get_byte d p = Some (N_of_ascii c).
Proof. intros H Hd. unfold get_byte. change 1 with (len [c]). now rewrite (mem_read_at d p [c]). Qed.
Lemma get_byte_in d p : get_byte d p <> None -> p < len d.
Proof.
  unfold get_byte. pose proof (mem_read_full d p 1). pose proof (mem_read_len d p 1) as [Hl _].
  destruct (mem_read d p 1) as [|c [|]]; try congruence. intros _.
  assert (p + 1 <= len d) by (apply H; reflexivity || lia). lia.
Qed.
Lemma byte_le v : N_of_ascii (ascii_of_N (v mod 256)) = v mod 256.
Proof. apply N_ascii_embedding. apply N.mod_lt. lia. Qed.
Lemma get_short_at d p v : at_ d p (le 2 v) -> len d <= zip_max -> v < 65536 -> get_short d p = Some v.
Proof.
  intros H Hd Hv. unfold get_short. cbn [le] in H. change [?a; ?b] with ([a] ++ [b]) in H.
  rewrite (get_byte_at d p _ (at_l _ _ _ _ H) Hd).
  rewrite (get_byte_at d (p + 1) _ (at_r _ _ _ _ (p + 1) H eq_refl) Hd).
  rewrite !byte_le. f_equal. lia.
Qed.
Lemma le_split v : le 4 v = le 2 (v mod 65536) ++ le 2 (v / 65536).
Proof.
  cbn [le app].
  replace ((v mod 65536) mod 256) with (v mod 256) by lia.
  replace (v mod 65536 / 256 mod 256) with (v / 256 mod 256) by lia.
  replace (v / 256 / 256) with (v / 65536) by (rewrite N.div_div by lia; reflexivity).
  reflexivity.
Qed.
Lemma get_long_at d p v : at_ d p (le 4 v) -> len d <= zip_max -> v < 4294967296 -> get_long d p = Some v.
Proof.
  intros H Hd Hv. unfold get_long. rewrite le_split in H.
  rewrite (get_short_at d p _ (at_l _ _ _ _ H) Hd) by lia.
  rewrite (get_short_at d (p + 2) _ (at_r _ _ _ _ (p + 2) H (eq_sym (f_equal _ (len_le 2 _)))) Hd) by lia.
  f_equal. lia.
Qed.
Lemma get_short_in d p : get_short d p <> None -> p + 1 < len d.
Proof. unfold get_short. pose proof (get_byte_in d (p + 1)). destruct (get_byte d p), (get_byte d (p + 1)); try congruence. intros _. now apply H. Qed.
Lemma get_long_in d p : get_long d p <> None -> p + 3 < len d.
Proof. unfold get_long. pose proof (get_short_in d (p + 2)). destruct (get_short d p), (get_short d (p + 2)); try congruence. intros _. replace (p + 3) with (p + 2 + 1) by lia. now apply H. Qed.

Ltac fld q H :=
  let K := fresh "F" in
  pose proof (at_l _ _ _ _ H) as K;
  apply (fun H => at_r _ _ _ _ q H) in H; [|rewrite len_le; cbn [N.of_nat Pos.of_succ_nat Pos.succ]; lia].

Definition info_of (e : entry) : finfo :=
  Finfo (e_method e) (e_crc e) (len (e_raw e)) (len (e_data e)) (len (e_name e)) (len (e_extra e)) (len (e_comment e)) (e_off e).

Lemma get_info_at d p e : at_ d p (central e) -> fits e -> len d <= zip_max ->
  get_info d p = Some (info_of e) /\ at_ d (p + 46) (e_name e).
Proof.
  intros H He Hd. destruct He. unfold central in H.
  fld (p + 4) H. fld (p + 6) H. fld (p + 8) H. fld (p + 10) H. fld (p + 12) H. fld (p + 16) H.
  fld (p + 20) H. fld (p + 24) H. fld (p + 28) H. fld (p + 30) H. fld (p + 32) H. fld (p + 34) H.
  fld (p + 36) H. fld (p + 38) H. fld (p + 42) H. fld (p + 46) H.
  split; [|exact (at_l _ _ _ _ H)].
  unfold get_info.
  erewrite !get_long_at, !get_short_at by (eassumption || lia). reflexivity.
Qed.
Lemma central_len e : len (central e) = 46 + len (e_name e) + len (e_extra e) + len (e_comment e).
Proof. unfold central. rewrite !len_app, !len_le. lia. Qed.

Lemma get_info_end d c n size off comment : at_ d c (ending n size off comment) -> len d <= zip_max -> get_info d c = None.
Proof.
  intros H Hd. unfold ending in H. apply at_l in H. unfold get_info. rewrite (get_long_at d c 101010256 H Hd ltac:(lia)).
  repeat match goal with |- match ?x with _ => _ end = _ => destruct x; try reflexivity end.
Qed.

(** ** The end record *)
Lemma end_magic_le : end_magic = le 4 101010256.
Proof. vm_compute. reflexivity. Qed.
Lemma at_prefix d p : at_ d p end_magic <-> prefixb end_magic (skipn (N.to_nat p) d) = true /\ p <= len d.
Proof.
  rewrite prefixb_spec. split.
  - intros (a & b & -> & Ha). replace (N.to_nat p) with (length a) by (unfold len in *; lia).
    rewrite skipn_app, Nat.sub_diag, skipn_all. split; [exists b; reflexivity|]. rewrite len_app. lia.
  - intros [[t Ht] Hp]. exists (firstn (N.to_nat p) d), t. split.
    + rewrite <- Ht. now rewrite firstn_skipn.
    + unfold len in *. rewrite firstn_length. lia.
Qed.
Lemma skipn_firstn_app (A : Type) i n (l : list A) : skipn i (firstn n l) = firstn (n - i) (skipn i l).
Proof. apply skipn_firstn_comm. Qed.
Lemma skip_skip (A : Type) i j (l : list A) : skipn i (skipn j l) = skipn (j + i) l.
Proof. revert l; induction j as [|j IH]; intros l; [reflexivity|]. destruct l; [now rewrite skipn_nil|]. apply IH. Qed.
Lemma prefixb_firstn p s k : (length p <= k)%nat -> prefixb p (firstn k s) = prefixb p s.
Proof.
  revert s k; induction p as [|c p IH]; intros s k Hk; [reflexivity|].
  destruct k; [simpl in Hk; lia|]. destruct s; [reflexivity|]. simpl. f_equal. apply IH. simpl in Hk. lia.
Qed.
Lemma scan_spec buf i : match scan buf i with
  | Some j => (j < i)%nat /\ prefixb end_magic (skipn j buf) = true /\
              forall k, (j < k < i)%nat -> prefixb end_magic (skipn k buf) = false
  | None => forall k, (k < i)%nat -> prefixb end_magic (skipn k buf) = false
  end.
Proof.
  induction i as [|i IH]; cbn [scan]; [lia|].
  destruct (prefixb end_magic (skipn i buf)) eqn:E.
  - repeat split; [lia|assumption|lia].
  - destruct (scan buf i) as [j|].
    + destruct IH as (H1 & H2 & H3). repeat split; [lia|assumption|].
      intros k Hk. destruct (Nat.eq_dec k i) as [->|]; [assumption|]. apply H3. lia.
    + intros k Hk. destruct (Nat.eq_dec k i) as [->|]; [assumption|]. apply IH. lia.
Qed.

(** A window of the data: a signature in the window is one in the data. *)
Lemma window d pos n k : pos < zip_max -> pos + n <= len d -> (k + 4 <= N.to_nat n)%nat ->
  prefixb end_magic (skipn k (mem_read d pos n)) = prefixb end_magic (skipn (N.to_nat (pos + N.of_nat k)) d).
Proof.
  intros Hp Hn Hk. rewrite mem_read_in by assumption. rewrite skipn_firstn_app.
  rewrite prefixb_firstn by (change (length end_magic) with 4%nat; lia).
  rewrite skip_skip. do 2 f_equal. lia.
Qed.

Lemma search_found d c : at_ d c end_magic -> 0 < c -> len d <= 65535 + c -> len d <= zip_max ->
  (forall q, c < q -> ~ at_ d q end_magic) -> search_central d = Ok c.
Proof.
  intros Hc H0 Hb Hd Hno. unfold search_central.
  set (mb := if len d <? 65535 then len d else 65535).
  assert (Hc4 : c + 4 <= len d) by (apply at_len in Hc; exact Hc).
  assert (Hmb : mb <= len d /\ mb <= 65535 /\ len d <= mb + c /\ 4 < mb) by (unfold mb; destruct (N.ltb_spec (len d) 65535); lia).
  enough (G : forall fuel back, 4 <= back < mb -> mb - back <= 1024 * N.of_nat fuel -> c + back <= len d ->
    search_loop fuel d mb back = Ok c) by (apply G; lia).
  induction fuel as [|fuel IH]; intros back Hba Hf Hcb; [lia|]. cbn [search_loop].
  destruct (N.ltb_spec back mb); [|lia].
  set (back' := if mb <? back + 1024 then mb else back + 1024).
  assert (Hb' : back < back' <= mb /\ back' <= back + 1024 /\ (back' = mb \/ back' = back + 1024)) by (unfold back'; destruct (N.ltb_spec mb (back + 1024)); lia).
  set (pos := len d - back').
  set (n := if 1028 <? len d - pos then 1028 else len d - pos).
  assert (Hn : n <= 1028 /\ n <= back' /\ (n = 1028 \/ n = back') /\ pos + n <= len d) by (unfold n, pos; destruct (N.ltb_spec 1028 (len d - (len d - back'))); lia).
  cbv zeta.
  assert (Hln : len (mem_read d pos n) = n).
  { rewrite mem_read_in by lia. unfold len in *. rewrite firstn_length, skipn_length. lia. }
  rewrite Hln, N.eqb_refl.
  assert (Hlen : length (mem_read d pos n) = N.to_nat n) by (unfold len in Hln; lia). rewrite Hlen.
  pose proof (scan_spec (mem_read d pos n) (N.to_nat n - 3)) as Hs.
  destruct (N.ltb_spec c pos) as [Hlt|Hge].
  - destruct (scan (mem_read d pos n) (N.to_nat n - 3)) as [j|].
    + destruct Hs as (Hj & Hp & _). exfalso. rewrite window in Hp by lia.
      apply (Hno (pos + N.of_nat j)); [lia|]. apply at_prefix. split; [assumption|lia].
    + apply IH; unfold pos in *; lia.
  - destruct (scan (mem_read d pos n) (N.to_nat n - 3)) as [j|].
    + destruct Hs as (Hj & Hp & Hk). rewrite window in Hp by lia.
      assert (E : pos + N.of_nat j = c).
      { destruct (N.lt_trichotomy (pos + N.of_nat j) c) as [L|[E|G]]; [|exact E|].
        - exfalso. specialize (Hk (N.to_nat (c - pos))).
          rewrite window in Hk by (unfold pos in *; lia).
          replace (pos + N.of_nat (N.to_nat (c - pos))) with c in Hk by lia.
          apply at_prefix in Hc as [Hc _]. rewrite Hc in Hk. discriminate Hk. unfold pos in *. lia.
        - exfalso. apply (Hno _ G). apply at_prefix. split; [assumption|lia]. }
      rewrite E. destruct (N.eqb_spec c 0); [lia|reflexivity].
    + exfalso. specialize (Hs (N.to_nat (c - pos))). rewrite window in Hs by (unfold pos in *; lia).
      replace (pos + N.of_nat (N.to_nat (c - pos))) with c in Hs by lia.
      apply at_prefix in Hc as [Hc _]. rewrite Hc in Hs. discriminate Hs. unfold pos in *. lia.
Qed.

(** The search always ends; what it finds is a signature within the last 65535 bytes. *)
Lemma search_total d : exists c, search_central d = Ok c /\ (c = 0 \/ at_ d c end_magic).
Proof.
  unfold search_central. set (mb := if len d <? 65535 then len d else 65535).
  assert (Hmb : mb <= len d /\ mb <= 65535) by (unfold mb; destruct (N.ltb_spec (len d) 65535); lia).
  enough (G : forall fuel back, (0 < fuel)%nat -> mb <= back + 1024 * (N.of_nat fuel - 1) ->
    exists c, search_loop fuel d mb back = Ok c /\ (c = 0 \/ at_ d c end_magic)) by (apply G; lia).
  induction fuel as [|fuel IH]; intros back Hf Hb; [lia|]. cbn [search_loop].
  destruct (N.ltb_spec back mb); [|exists 0; auto].
  set (back' := if mb <? back + 1024 then mb else back + 1024).
  assert (Hb' : back < back' <= mb /\ back' <= back + 1024 /\ (back' = mb \/ back' = back + 1024)) by (unfold back'; destruct (N.ltb_spec mb (back + 1024)); lia).
  set (pos := len d - back').
  set (n := if 1028 <? len d - pos then 1028 else len d - pos).
  assert (Hn : n <= 1028 /\ n <= back' /\ (n = 1028 \/ n = back') /\ pos + n <= len d) by (unfold n, pos; destruct (N.ltb_spec 1028 (len d - (len d - back'))); lia).
  cbv zeta. assert (Hrec : exists c, search_loop fuel d mb back' = Ok c /\ (c = 0 \/ at_ d c end_magic)) by (apply IH; lia).
  destruct (N.eqb_spec (len (mem_read d pos n)) n) as [E|E]; [|exists 0; auto].
  pose proof (scan_spec (mem_read d pos n) (length (mem_read d pos n) - 3)) as Hs.
  destruct (scan _ _) as [j|]; [|assumption].
  destruct (N.eqb_spec (pos + N.of_nat j) 0); [assumption|].
  eexists; split; [reflexivity|right].
  destruct Hs as (Hj & Hp & _).
  destruct (mem_read_full d pos n E ltac:(lia)) as [_ Hz].
  unfold len in E. rewrite window in Hp by lia. apply at_prefix. split; [assumption|]. lia.
Qed.
