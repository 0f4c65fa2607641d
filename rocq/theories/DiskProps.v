(** Property theorems about files of the operating system and temporary files (C123). *)
From Verif Require Import Common DiskModel.
Local Open Scope N_scope.

(** A name the kernel sees as it is. *)
Definition proper (name : str) : Prop := name <> [] /\ ~ In "000"%char name.
Lemma c_name_proper s : ~ In "000"%char s -> c_name s = s.
Proof.
  induction s as [|c s IH]; [reflexivity|]. cbn [c_name In]. intros H. destruct (aeq c "000"%char) eqn:E; [apply aeq_spec in E; subst; tauto|]. rewrite IH; tauto.
Qed.
Lemma c_name_twice s : c_name (c_name s) = c_name s.
Proof. induction s as [|c s IH]; [reflexivity|]. cbn [c_name]. destruct (aeq c "000"%char) eqn:E; [reflexivity|]. cbn [c_name]. now rewrite E, IH. Qed.
(** What can be read before an error: the whole blocks. *)
Definition whole_blocks (d : str) : str := firstn (length d / buffer_size * buffer_size) d.
Lemma read_loop_done fuel s out : eof s = true \/ bad s = true -> read_loop fuel s out = Ok out.
Proof. intros H. destruct fuel; cbn [read_loop]; unfold good; destruct H as [-> | ->]; cbn [negb andb]; rewrite ?andb_false_r; reflexivity. Qed.
Lemma append_got (g out : str) : (if (0 <? length g)%nat then out ++ g else out) = out ++ g.
Proof. destruct g; cbn [length]; [now rewrite app_nil_r|reflexivity]. Qed.
Lemma firstn_plus (n m : nat) (l : str) : firstn (n + m) l = firstn n l ++ firstn m (skipn n l).
Proof. revert l. induction n as [|n IH]; intros l; [reflexivity|]. destruct l; cbn; [now destruct m|now rewrite IH]. Qed.
Lemma read_loop_reads fuel : forall d b g out, (length d < fuel)%nat ->
  read_loop fuel {| rest := d; broken := b; eof := false; fail := false; bad := false; got := g |} out = Ok (out ++ if b then whole_blocks d else d).
Proof.
  induction fuel as [|f IH]; intros d b g out Hf; [lia|]. cbn [read_loop eof good fail bad negb andb]. unfold read_some. cbn [good eof fail bad negb andb rest broken].
  destruct (buffer_size <=? length d)%nat eqn:El.
  - apply Nat.leb_le in El. cbn [got]. rewrite append_got, IH.
    2: { rewrite skipn_length. unfold buffer_size in *. lia. }
    rewrite <- app_assoc. do 2 f_equal. destruct b; [|apply firstn_skipn]. unfold whole_blocks. rewrite skipn_length.
    assert (Hd : (length d / buffer_size = S ((length d - buffer_size) / buffer_size))%nat).
    { rewrite <- (Nat.div_add_l 1) by (unfold buffer_size; lia). f_equal. lia. }
    rewrite Hd. cbn [Nat.mul]. symmetry. apply firstn_plus.
  - apply Nat.leb_gt in El. destruct b; cbn [got]; rewrite append_got, read_loop_done by (cbn [eof bad]; auto); [|reflexivity].
    unfold whole_blocks. rewrite Nat.div_small by lia. reflexivity.
Qed.
Section Disk.
Variable place : str -> option N.
(** C123. Reading gives true exactly when there are a name and a string and there is something to open; a regular file on a sound
    medium is read whole, whatever its size and whatever the string was before; otherwise the string is left as it was. *)
Theorem read_file_spec : forall d name out, read_file place d name out =
  match name, out, found place d name with
  | _ :: _, Some _, Some (Regular _ x []) => Ok (true, Some x)
  | _ :: _, Some _, Some (Regular _ x (_ :: _)) => Ok (true, Some (whole_blocks x))
  | _ :: _, Some _, Some Directory => Ok (true, Some [])
  | _, _, _ => Ok (false, out)
  end.
Proof.
  intros d [|c name] out; [reflexivity|]. unfold read_file. destruct out as [o|]; [|reflexivity]. destruct (found place d (c :: name)) as [[m x l|]|]; cbn [open_in]; [| |reflexivity].
  - cbn [good eof fail bad negb andb rest]. rewrite read_loop_reads by lia. cbn [bind app]. destruct l; reflexivity.
  - cbn [good eof fail bad negb andb rest]. rewrite read_loop_reads by (cbn; lia). reflexivity.
Qed.
(** What is needed on the disk for what is at a place. *)
Definition size (e : option entry) : nat := match e with Some (Regular _ x l) => length (x ++ l) | _ => 0 end.
Lemma taken_size e : taken e = size e.
Proof. destruct e as [[m x l|]|]; [|reflexivity|reflexivity]. cbn [size]. now rewrite app_length. Qed.
(** C123. Writing fails without changing anything, or leaves the file at its place, with the bytes there was room for, and nothing
    else changed; a new file can be used as far as the mask of the process allows, another keeps its permissions. *)
Theorem write_file_spec : forall d data name,
  match place (c_name name) with
  | None => write_file place d data name = (false, d)
  | Some i =>
    if match name with [] => true | _ => false end || match at_ d i with Some Directory => true | _ => false end then write_file place d data name = (false, d)
    else exists d' m, write_file place d data name = (true, d') /\ mask d' = mask d /\
      at_ d' i = Some (Regular m (firstn (room d + size (at_ d i)) data) []) /\ (forall j, j <> i -> at_ d' j = at_ d j) /\
      (room d' + size (at_ d' i) = room d + size (at_ d i))%nat /\
      match at_ d i with Some (Regular m0 _ _) => m = m0 | _ => forall b, N.testbit m b = N.testbit 438 b && negb (N.testbit (mask d) b) end
  end.
Proof.
  intros d data name. unfold write_file. destruct name as [|c name].
  - destruct (place (c_name [])); reflexivity.
  - destruct (place (c_name (c :: name))) as [i|]; [|reflexivity]. cbn [orb]. destruct (at_ d i) as [[m0 x l|]|] eqn:Ea; [|reflexivity|];
      do 2 eexists; (split; [reflexivity|]); cbn [put mask at_ room]; rewrite N.eqb_refl, !taken_size; (split; [reflexivity|]); (split; [reflexivity|]); (split; [intros j Hj; apply N.eqb_neq in Hj; now rewrite Hj|]); split.
    + cbn [size]. rewrite app_nil_r, firstn_length. lia.
    + reflexivity.
    + cbn [size]. rewrite app_nil_r, firstn_length. lia.
    + intros b. apply N.ldiff_spec.
Qed.
(** C123. What is written is what is read, under every name that leads to the same place and whatever was there before, as long as
    the disk has room for it; what is at other places is read as before. *)
Theorem write_then_read : forall d data name d', write_file place d data name = (true, d') ->
  (length data <= room d + size (found place d name))%nat ->
  (forall name' s, name' <> [] -> place (c_name name') = place (c_name name) -> read_file place d' name' (Some s) = Ok (true, Some data)) /\
  (forall name' s, place (c_name name') <> place (c_name name) -> read_file place d' name' s = read_file place d name' s).
Proof.
  intros d data name d' Hw Hr. unfold found in Hr. pose proof (write_file_spec d data name) as H. destruct (place (c_name name)) as [i|] eqn:Ep; [|congruence].
  destruct (_ || _) in H; [congruence|]. destruct H as (d1 & m & H1 & H2 & H3 & H4 & _ & _). rewrite Hw in H1. injection H1 as <-. split.
  - intros [|c n'] s Hn Hp; [congruence|]. rewrite read_file_spec. unfold found. rewrite Hp, H3, firstn_all2 by lia. reflexivity.
  - intros n' s Hn. rewrite !read_file_spec. assert (F : found place d' n' = found place d n'). { unfold found. destruct (place (c_name n')) as [j|] eqn:Ej; [|reflexivity]. apply H4. congruence. } destruct n' as [|c0 n']; [reflexivity|]. now rewrite F.
Qed.
(** C123. Exists is true of regular files only; Delete succeeds for these only, they are gone afterwards under every name, and
    nothing else changes. *)
Theorem delete_spec : forall d name,
  (exists_ place d name = true <-> exists m x l, found place d name = Some (Regular m x l)) /\
  fst (delete place d name) = exists_ place d name /\ mask (snd (delete place d name)) = mask d /\ room (snd (delete place d name)) = (room d + size (found place d name))%nat /\
  (forall name', place (c_name name') = place (c_name name) -> exists_ place (snd (delete place d name)) name' = false) /\
  (forall name', place (c_name name') <> place (c_name name) \/ exists_ place d name = false -> found place (snd (delete place d name)) name' = found place d name').
Proof.
  intros d name. unfold exists_, delete, found. split; [|split; [|split; [|split; [|split]]]].
  - destruct (match place (c_name name) with Some i => at_ d i | None => None end) as [[m x l|]|]; split; try discriminate; try (intros (? & ? & ? & ?); discriminate); eauto.
  - destruct (place (c_name name)) as [i|]; [|reflexivity]. destruct (at_ d i) as [[m x l|]|]; reflexivity.
  - destruct (place (c_name name)) as [i|]; [|reflexivity]. destruct (at_ d i) as [[m x l|]|]; reflexivity.
  - destruct (place (c_name name)) as [i|]; [|cbn; lia]. destruct (at_ d i) as [[m x l|]|] eqn:Ea; cbn [snd put room size]; try lia. rewrite <- Ea, taken_size, Ea. reflexivity.
  - intros n' Hn. rewrite Hn. destruct (place (c_name name)) as [i|]; [|reflexivity]. destruct (at_ d i) as [[m x l|]|] eqn:Ea; cbn [snd put at_]; rewrite ?N.eqb_refl, ?Ea; reflexivity.
  - intros n' Hn. destruct (place (c_name name)) as [i|]; [|reflexivity]. destruct (at_ d i) as [[m x l|]|] eqn:Ea; cbn [snd put at_]; auto.
    destruct (place (c_name n')) as [j|]; [|reflexivity]. destruct (N.eqb_spec j i) as [->|]; [|reflexivity]. destruct Hn; congruence.
Qed.
Variable pick : disk -> option str.
(** C123. A temporary file is a new and empty file which only its owner can read and write and nobody run; the mask of the process is
    as before, and so is everything else on the disk.  If there is none the disk is not changed. *)
Theorem temp_file_spec : forall d, mask d < 512 -> (forall d0 x, pick d0 = Some x -> ~ In "000"%char x) ->
  match temp_file place pick d with
  | (Some name, d') => exists i, place name = Some i /\ c_name name = name /\ firstn 11 name = S_ "/tmp/libkml" /\ at_ d i = None /\ at_ d' i = Some (Regular 384 [] []) /\
      (forall j, j <> i -> at_ d' j = at_ d j) /\ mask d' = mask d /\ room d' = room d
  | (None, d') => at_ d' = at_ d /\ mask d' = mask d /\ room d' = room d
  end.
Proof.
  intros d Hm Hp. assert (Hl : N.land (mask d) 511 = mask d). { change 511 with (N.ones 9). rewrite N.land_ones. now apply N.mod_small. }
  unfold temp_file, create_temp, umask, mkstemp. set (d1 := {| at_ := at_ d; room := room d; mask := N.land 127 511 |}).
  destruct (pick d1) as [x|] eqn:Ex; [|cbn; rewrite Hl; auto]. destruct (place (S_ "/tmp/libkml" ++ x)) as [i|] eqn:Ei; [|cbn; rewrite Hl; auto].
  destruct (at_ d1 i) eqn:Ea; [cbn; rewrite Hl; auto|]. cbv beta iota zeta. specialize (Hp _ _ Ex).
  assert (Hc : c_name (S_ "/tmp/libkml" ++ x) = S_ "/tmp/libkml" ++ x). { apply c_name_proper. rewrite in_app_iff. intros [H|H]; [|auto]. cbn in H. intuition discriminate. }
  rewrite Hc. exists i. split; [exact Ei|]. split; [exact Hc|]. split; [reflexivity|]. split; [exact Ea|]. cbn [put at_ mask room]. rewrite N.eqb_refl. split; [reflexivity|].
  split; [intros j Hj; apply N.eqb_neq in Hj; now rewrite Hj|]. rewrite Hl. auto.
Qed.
(** C123. Without a string for the name, or without a new name, there is no temporary file: false, and nothing is changed. *)
Theorem create_temp_fails : forall d, create_temp place pick d None = (false, None, d) /\
  (forall s d', mask d < 512 -> (forall d0, pick d0 = None) -> create_temp place pick d (Some s) = (false, Some s, d') -> at_ d' = at_ d /\ mask d' = mask d /\ room d' = room d).
Proof.
  intros d. split; [reflexivity|]. intros s d' Hm Hp H. unfold create_temp, umask, mkstemp in H. rewrite Hp in H. injection H as <-. cbn. change 511 with (N.ones 9). rewrite N.land_ones, N.mod_small by exact Hm. auto.
Qed.
(** C123. When the object goes the file goes, whatever was written to it; everything else stays as it is then, and a directory or
    nothing at this name is left alone. *)
Theorem drop_temp_spec : forall d name, exists_ place (drop_temp place d name) name = false /\ mask (drop_temp place d name) = mask d /\
  (forall name', place (c_name name') <> place (c_name name) \/ exists_ place d name = false -> found place (drop_temp place d name) name' = found place d name').
Proof.
  intros d name. unfold drop_temp. destruct (delete_spec d name) as (_ & _ & H2 & _ & H3 & H4). destruct (exists_ place d name) eqn:Ee; [|auto]. split; [now apply H3|]. auto.
Qed.
(** C123. Creating a temporary file, writing to it and reading it gives the data; dropping it leaves the disk as it was. *)
Theorem temp_file_life : forall d name d1 data, mask d < 512 -> (forall d0 x, pick d0 = Some x -> ~ In "000"%char x) ->
  temp_file place pick d = (Some name, d1) -> (length data <= room d)%nat ->
  exists d2, write_file place d1 data name = (true, d2) /\ (forall s, read_file place d2 name (Some s) = Ok (true, Some data)) /\
    let d3 := drop_temp place d2 name in (forall j, at_ d3 j = at_ d j) /\ mask d3 = mask d /\ room d3 = room d.
Proof.
  intros d name d1 data Hm Hp Ht Hr. pose proof (temp_file_spec d Hm Hp) as H. rewrite Ht in H. destruct H as (i & Hi & Hc & Hn & Ha & Ha1 & Ho & Hm1 & Hr1).
  assert (Hne : name <> []) by (intros ->; discriminate). unfold write_file. destruct name as [|c name]; [congruence|]. rewrite Hc, Hi, Ha1. cbn [taken length]. rewrite !Nat.add_0_r, Hr1.
  eexists. split; [reflexivity|]. rewrite firstn_all2 by lia. split.
  - intros s. rewrite read_file_spec. unfold found. rewrite Hc, Hi. cbn [put at_]. rewrite N.eqb_refl. reflexivity.
  - unfold drop_temp, exists_, found, delete. rewrite Hc, Hi. cbn [put at_]. rewrite N.eqb_refl. cbn [snd put at_ mask room taken length]. rewrite Hm1. split; [|split; [reflexivity|lia]].
    intros j. destruct (N.eqb_spec j i) as [->|Hj]; [now rewrite Ha|]. now apply Ho.
Qed.
End Disk.
Print Assumptions read_file_spec.
Print Assumptions write_file_spec.
Print Assumptions write_then_read.
Print Assumptions delete_spec.
Print Assumptions temp_file_spec.
Print Assumptions create_temp_fails.
Print Assumptions drop_temp_spec.
Print Assumptions temp_file_life.

(** A disk for examples: file a at place 1 and 2, a directory at 3, a damaged file at 4. *)
Definition place0 (s : str) : option N :=
  if eqs s (S_ "a") || eqs s (S_ "./a") then Some 1 else if eqs s (S_ "b") then Some 2 else if eqs s (S_ "dir") then Some 3 else if eqs s (S_ "scratch") then Some 4 else if eqs s (S_ "/tmp/libkmlAbCdEf") then Some 5 else None.
Definition disk0 (r : nat) : disk := {| at_ := fun i => match i with 1 => Some (Regular 420 (S_ "old") []) | 3 => Some Directory | 4 => Some (Regular 420 (repeat "x"%char 1500) (S_ "rest")) | _ => None end; room := r; mask := 18 |}.
Example disk_sample :
  fst (write_file place0 (disk0 9) (S_ "new data") (S_ "a")) = true /\
  read_file place0 (snd (write_file place0 (disk0 9) (S_ "new data") (S_ "a"))) (S_ "./a") (Some (S_ "before")) = Ok (true, Some (S_ "new data")) /\
  read_file place0 (disk0 9) (S_ "b") (Some (S_ "before")) = Ok (false, Some (S_ "before")) /\
  fst (temp_file place0 (fun _ => Some (S_ "AbCdEf")) (disk0 9)) = Some (S_ "/tmp/libkmlAbCdEf") /\
  fst (delete place0 (disk0 9) (S_ "dir")) = false /\ fst (delete place0 (disk0 9) (S_ "./a")) = true.
Proof. repeat split; vm_compute; reflexivity. Qed.
(** C123. When the disk is full WriteStringToFile says true, and the data is not in the file. *)
Theorem write_full_disk_refuted : exists d data name, let r := write_file place0 d data name in
  fst r = true /\ read_file place0 (snd r) name (Some []) = Ok (true, Some (S_ "some d")) /\ data = S_ "some data".
Proof. exists (disk0 3), (S_ "some data"), (S_ "a"). repeat split; vm_compute; reflexivity. Qed.
Print Assumptions write_full_disk_refuted.
(** C123. A directory is read as an empty file, a damaged file as a shorter one. *)
Theorem read_error_unnoticed_refuted : read_file place0 (disk0 9) (S_ "dir") (Some (S_ "x")) = Ok (true, Some []) /\
  found place0 (disk0 9) (S_ "scratch") = Some (Regular 420 (repeat "x"%char 1500) (S_ "rest")) /\ read_file place0 (disk0 9) (S_ "scratch") (Some []) = Ok (true, Some (repeat "x"%char 1024)).
Proof. repeat split; vm_compute; reflexivity. Qed.
Print Assumptions read_error_unnoticed_refuted.
(** C123. A name with a NUL byte is cut there: writing to it overwrites another file. *)
Theorem nul_in_name_refuted : exists name, name <> S_ "a" /\ read_file place0 (snd (write_file place0 (disk0 9) (S_ "new") name)) (S_ "a") (Some []) = Ok (true, Some (S_ "new")).
Proof. exists (S_ "a" ++ "000"%char :: S_ "b"). split; [discriminate|vm_compute; reflexivity]. Qed.
Print Assumptions nul_in_name_refuted.
