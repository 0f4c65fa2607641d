(** The compressed data format DEFLATE, RFC 1951: what zlib's inflate, which base/contrib/minizip/unzip.c:1382 calls for the entries
    of an archive, is required to do.  A specification, not a model of code in /repo. *)
From Verif Require Import Common.
Local Open Scope N_scope.

(** The bits of a byte, least significant first (RFC 1951, 3.1.1). *)
Definition byte_bits (c : ascii) : list bool := let 'Ascii a b c d e f g h := c in [a; b; c; d; e; f; g; h].
Definition bits_of (s : str) : list bool := flat_map byte_bits s.
(** Reading from the bits that are left; None: not enough of them, or an error. *)
Definition reader (A : Type) := list bool -> option (A * list bool).
Definition give {A} (a : A) : reader A := fun s => Some (a, s).
Definition err {A} : reader A := fun _ => None.
Definition andthen {A B} (r : reader A) (k : A -> reader B) : reader B := fun s => match r s with Some (a, s') => k a s' | None => None end.
Notation "'get' x <- r ; k" := (andthen r (fun x => k)) (at level 200, x pattern, r at level 100, k at level 200).
Definition bit : reader bool := fun s => match s with b :: s' => Some (b, s') | [] => None end.
Fixpoint bits (n : nat) : reader (list bool) := match n with O => give [] | S m => get b <- bit; get l <- bits m; give (b :: l) end.
(** Numbers are read with the least significant bit first. *)
Definition number (n : nat) : reader N := get l <- bits n; give (N_of_digits l).
(** To the next byte (3.2.4): the bits left are whole bytes and a part of one. *)
Definition align : reader unit := fun s => Some (tt, skipn (length s mod 8) s).
Definition byte : reader ascii := get l <- bits 8; match l with [a; b; c; d; e; f; g; h] => give (Ascii a b c d e f g h) | _ => err end.
Fixpoint bytes (n : nat) : reader str := match n with O => give [] | S m => get c <- byte; get l <- bytes m; give (c :: l) end.

(** Huffman codes given by the lengths of the codes of the symbols 0, 1, ... (3.2.2): how many codes have each length from 1 to 15,
    and the symbols in the order of their codes. *)
Definition count (n : N) (lens : list N) : N := N.of_nat (length (filter (N.eqb n) lens)).
Fixpoint with_length (n i : N) (lens : list N) : list N := match lens with [] => [] | l :: ls => if l =? n then i :: with_length n (i + 1) ls else with_length n (i + 1) ls end.
Definition one_to_15 : list N := [1; 2; 3; 4; 5; 6; 7; 8; 9; 10; 11; 12; 13; 14; 15].
Definition code := (list N * list N)%type.
Definition code_of (lens : list N) : code := (map (fun n => count n lens) one_to_15, flat_map (fun n => with_length n 0 lens) one_to_15).
(** What is left of the space of codes: negative if there are too many. *)
Definition space (lens : list N) : Z := fold_left (fun left n => (2 * left - Z.of_N (count n lens))%Z) one_to_15 1%Z.
(** A code is complete, or has at most one code of length 1 (3.2.7). *)
Definition sound (lens : list N) : bool := (space lens =? 0)%Z || ((0 <? space lens)%Z && (N.of_nat (length lens) =? count 0 lens + count 1 lens)).
(** Reading a symbol: codes come with the most significant bit first (3.1.1), those of one length are consecutive. *)
Fixpoint symbol_at (counts : list N) (c first index : N) (symbols : list N) : reader N :=
  match counts with
  | [] => err
  | n :: counts' => get b <- bit;
      let c := c + (if b then 1 else 0) in
      if (first <=? c) && (c <? first + n) then match nth_error symbols (N.to_nat (index + (c - first))) with Some x => give x | None => err end
      else symbol_at counts' (2 * c) (2 * (first + n)) (index + n) symbols
  end.
Definition symbol (h : code) : reader N := symbol_at (fst h) 0 0 0 (snd h).

(** Lengths and distances (3.2.5): the number of extra bits and the first value. *)
Definition length_table : list (nat * N) :=
  [(0%nat, 3); (0%nat, 4); (0%nat, 5); (0%nat, 6); (0%nat, 7); (0%nat, 8); (0%nat, 9); (0%nat, 10); (1%nat, 11); (1%nat, 13); (1%nat, 15); (1%nat, 17);
   (2%nat, 19); (2%nat, 23); (2%nat, 27); (2%nat, 31); (3%nat, 35); (3%nat, 43); (3%nat, 51); (3%nat, 59); (4%nat, 67); (4%nat, 83); (4%nat, 99); (4%nat, 115);
   (5%nat, 131); (5%nat, 163); (5%nat, 195); (5%nat, 227); (0%nat, 258)].
Definition distance_table : list (nat * N) :=
  [(0%nat, 1); (0%nat, 2); (0%nat, 3); (0%nat, 4); (1%nat, 5); (1%nat, 7); (2%nat, 9); (2%nat, 13); (3%nat, 17); (3%nat, 25); (4%nat, 33); (4%nat, 49);
   (5%nat, 65); (5%nat, 97); (6%nat, 129); (6%nat, 193); (7%nat, 257); (7%nat, 385); (8%nat, 513); (8%nat, 769); (9%nat, 1025); (9%nat, 1537);
   (10%nat, 2049); (10%nat, 3073); (11%nat, 4097); (11%nat, 6145); (12%nat, 8193); (12%nat, 12289); (13%nat, 16385); (13%nat, 24577)].
Definition ranged (t : list (nat * N)) (i : N) : reader N :=
  match nth_error t (N.to_nat i) with Some (e, v) => get x <- number e; give (v + x) | None => err end.
(** The output so far is kept with the last byte first; [n] bytes from [d] bytes back are appended one by one. *)
Fixpoint copy_back (n : nat) (d : nat) (out : str) : option str :=
  match n with O => Some out | S m => match nth_error out (d - 1) with Some c => copy_back m d (c :: out) | None => None end end.
(** The symbols of a block up to the end of block (3.2.3). *)
Fixpoint symbols (fuel : nat) (lit dist : code) (out : str) : reader str :=
  match fuel with
  | O => err
  | S f => get s <- symbol lit;
      if s <? 256 then symbols f lit dist (ascii_of_N s :: out)
      else if s =? 256 then give out
      else get n <- ranged length_table (s - 257); get t <- symbol dist; get d <- ranged distance_table t;
           match copy_back (N.to_nat n) (N.to_nat d) out with Some out' => symbols f lit dist out' | None => err end
  end.
(** Fixed codes (3.2.6). *)
Definition fixed_lit : code := code_of (repeat 8 144 ++ repeat 9 112 ++ repeat 7 24 ++ repeat 8 8).
Definition fixed_dist : code := code_of (repeat 5 30).
(** Dynamic codes (3.2.7). *)
Definition order : list nat := [16; 17; 18; 0; 8; 7; 9; 6; 10; 5; 11; 4; 12; 3; 13; 2; 14; 1; 15]%nat.
Fixpoint small (n : nat) : reader (list N) := match n with O => give [] | S m => get x <- number 3; get l <- small m; give (x :: l) end.
Definition at_order (l : list N) : list N :=
  map (fun i => match List.find (fun p => Nat.eqb (fst p) i) (combine order l) with Some p => snd p | None => 0 end) (seq 0 19).
(** Code lengths, with the last one first; [n] of them are to come. *)
Fixpoint lengths (fuel : nat) (h : code) (n : nat) (l : list N) : reader (list N) :=
  match fuel with
  | O => err
  | S f => if Nat.eqb n 0 then give (rev l) else
      get s <- symbol h;
      if s <? 16 then lengths f h (n - 1) (s :: l)
      else get r <- (if s =? 16 then match l with [] => err | x :: _ => get k <- number 2; give (x, k + 3) end
                     else if s =? 17 then get k <- number 3; give (0, k + 3)
                     else get k <- number 7; give (0, k + 11));
           if (N.of_nat n <? snd r) then err else lengths f h (n - N.to_nat (snd r)) (repeat (fst r) (N.to_nat (snd r)) ++ l)
  end.
Definition dynamic : reader (code * code) :=
  get hlit <- number 5; get hdist <- number 5; get hclen <- number 4;
  if (286 <? hlit + 257) || (30 <? hdist + 1) then err else
  get cl <- small (N.to_nat (hclen + 4));
  if negb (space (at_order cl) =? 0)%Z then err else
  get l <- lengths 320 (code_of (at_order cl)) (N.to_nat (hlit + 257 + (hdist + 1))) [];
  let lit := firstn (N.to_nat (hlit + 257)) l in let dist := skipn (N.to_nat (hlit + 257)) l in
  if (nth 256 lit 0 =? 0) || negb (sound lit) || negb (sound dist) then err else give (code_of lit, code_of dist).
(** A stored block (3.2.4). *)
Definition stored (out : str) : reader str :=
  get _ <- align; get n <- number 16; get m <- number 16;
  if n + m =? 65535 then get l <- bytes (N.to_nat n); give (rev l ++ out) else err.
(** The blocks of the data (3.2.3). *)
Fixpoint blocks (fuel : nat) (out : str) : reader str :=
  match fuel with
  | O => err
  | S f => get final <- bit; get kind <- number 2;
      get out' <- (if kind =? 0 then stored out
                   else if kind =? 1 then symbols (S f) fixed_lit fixed_dist out
                   else if kind =? 2 then get h <- dynamic; symbols (S f) (fst h) (snd h) out
                   else err);
      if final then give out' else blocks f out'
  end.
(** Compressed data at the start of a text: what it stands for, and the bytes behind it.  Every symbol and every block takes a bit at
    least, so that the steps suffice. *)
Definition inflate (s : str) : option (str * str) :=
  match blocks (S (length (bits_of s))) [] (bits_of s) with Some (out, more) => Some (rev out, skipn (length s - length more / 8) s) | None => None end.
