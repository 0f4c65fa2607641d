(** Model of src/kml/base/string_util.cc and src/kml/base/csv_splitter.cc. *)
From Verif Require Import Common.

(** string_util.cc:48-58, one map entry. [pos] is start_pos (None = npos). [fuel] bounds the
    iterations of the while loop. *)
Fixpoint expand_loop (fuel : nat) (cand key v out : str) (pos : option nat) : res str :=
  match pos with
  | None => Ok out
  | Some p =>
      match fuel with
      | O => Fuel
      | S f =>
          let out' := firstn p out ++ v ++ skipn (p + length cand) out in
          match find key v with
          | Some _ => Ok out'
          | None => expand_loop f cand key v out' (find_from cand out' (p + length cand))
          end
      end
  end.
Definition expand_one (start end_ : str) (out : str) (kv : str * str) : res str :=
  let cand := start ++ fst kv ++ end_ in
  expand_loop (S (length out)) cand (fst kv) (snd kv) out (find cand out).

(** string_util.cc:41-61 CreateExpandedStrings. The std::map is the list of its entries in key
    order (any list is allowed here). *)
Fixpoint create_expanded (out : str) (m : list (str * str)) (start end_ : str) : res str :=
  match m with
  | [] => Ok out
  | kv :: m' => do out' <- expand_one start end_ out kv; create_expanded out' m' start end_
  end.

(** string_util.cc:63-72 SplitStringUsing. substr(separator+1) throws if separator+1 > size. *)
Fixpoint split_string_loop (fuel : nat) (iter sep : str) : res (list str) :=
  match find sep iter with
  | None => Ok [iter]
  | Some i =>
      match fuel with
      | O => Fuel
      | S f =>
          if length iter <? i + 1 then Throw
          else do r <- split_string_loop f (skipn (i + 1) iter) sep; Ok (firstn i iter :: r)
      end
  end.
Definition split_string_using (input sep : str) : res (list str) :=
  split_string_loop (S (length input)) input sep.

(** string_util.cc:194-206 SkipLeadingWhitespace(String). *)
Definition skip_leading_whitespace (s : str) : nat := length (take_while isspace s).

(** string_util.cc:74-81 FromString<bool>; string::compare(pos, n, lit) == 0 compares the
    substring of at most n bytes at pos. *)
Definition from_string_bool (s : str) : bool :=
  let k := skip_leading_whitespace s in
  eqs (firstn 4 (skipn k s)) (S_ "true") || eqs (firstn 1 (skipn k s)) (S_ "1").
(** string_util.cc:114-119 ToString(bool). *)
Definition to_string_bool (b : bool) : str := if b then S_ "1" else S_ "0".

(** string_util.cc:145-153 StringEndsWith. *)
Definition string_ends_with (s e : str) : bool :=
  match s, e with
  | [], _ => false
  | _, [] => false
  | _, _ =>
      if length s =? length e then eqs s e
      else (length e <? length s) && eqs (skipn (length s - length e) s) e
  end.

(** strncasecmp(a, b, n) == 0: stops after a NUL byte that both share. *)
Fixpoint strncaseeq (a b : str) : bool :=
  match a, b with
  | x :: a', y :: b' =>
      aeq (tolower x) (tolower y) && (aeq x zero || strncaseeq a' b')
  | _, _ => true
  end.
(** string_util.cc:155-160 StringCaseEqual. *)
Definition string_case_equal (a b : str) : bool :=
  (length a =? length b) && strncaseeq a b.

(** string_util.cc:179-192 IsDecimalDoubleString. *)
Definition is_decimal_double_string (s : str) : bool :=
  match s with
  | [] => false
  | _ =>
      match (match s with
             | c :: t => if aeq c "-"%char then (match t with [] => None | _ => Some t end) else Some s
             | [] => Some s
             end) with
      | None => false
      | Some s1 =>
          match (match s1 with
                 | c :: t => if aeq c "."%char then (match t with [] => None | _ => Some t end) else Some s1
                 | [] => Some s1
                 end) with
          | None => false
          | Some s2 => match s2 with c :: _ => isdigit c | [] => false end
          end
      end
  end.

(** * string_util.cc:209-264 SplitQuotedUsing.
    The pointer [line] into the NUL-terminated copy is modelled by the suffix of the copy up to
    end_of_line; reading at end_of_line gives NUL. *)
Definition nul : ascii := zero.

(** *line *)
Definition rd (l : str) : ascii := hd nul l.

(** strchr(line, delimiter), end_of_line ([]) if not found. A NUL byte ends the search;
    strchr finds the terminator itself when delimiter is NUL (then the result is that position). *)
Fixpoint strchr (l : str) (d : ascii) : str :=
  match l with
  | [] => []
  | c :: t => if aeq c d then l else if aeq c nul then [] else strchr t d
  end.

(** The part of the buffer between start and line. *)
Definition between (start line : str) : str := firstn (length start - length line) start.

(** string_util.cc:228-238: characters after the opening quote; returns the unescaped value and the
    position of [line] after the loop. *)
Fixpoint quoted (l : str) : str * str :=
  match l with
  | [] => ([], [])
  | c :: t =>
      if aeq c nul then ([], l)
      else if aeq c """"%char then
        match t with
        | c2 :: t2 =>
            if aeq c2 """"%char then let (v, r) := quoted t2 in (""""%char :: v, r) else ([], t)
        | [] => ([], [])
        end
      else let (v, r) := quoted t in (c :: v, r)
  end.

(** string_util.cc:248-250 trailing white space, unless it is the delimiter. *)
Definition trim_right (d : ascii) (s : str) : str :=
  rev (drop_while (fun c => isspace c && negb (aeq c d)) (rev s)).

(** A char* pushed as std::string ends at the first NUL. *)
Definition cstr (s : str) : str := take_while (fun c => negb (aeq c nul)) s.

(** string_util.cc:223-262, the for loop with [fuel] iterations. *)
Fixpoint split_quoted_loop (fuel : nat) (line : str) (d : ascii) : res (list str) :=
  match line with
  | [] => Ok []
  | _ =>
      match fuel with
      | O => Fuel
      | S f =>
          let l1 := drop_while (fun c => isspace c && negb (aeq c d)) line in
          let '(field, l3) :=
            if aeq (rd l1) """"%char && aeq d ","%char then
              let (v, l2) := quoted (tl l1) in (v, strchr l2 d)
            else
              let l3 := strchr l1 d in (cstr (trim_right d (between l1 l3)), l3) in
          let need_another := aeq (rd l3) d && (length l3 =? 1) in
          do rest <- split_quoted_loop f (tl l3) d;
          Ok (field :: (if need_another then [] :: rest else rest))
      end
  end.
Definition split_quoted_using (input : str) (d : ascii) : res (list str) :=
  split_quoted_loop (S (length input)) input d.

(** * csv_splitter.cc. current_line_ is modelled by the suffix of csv_data_ starting there;
    None is npos (which is > size()). *)
Definition is_nl (c : ascii) : bool := aeq c "010"%char || aeq c "013"%char.

(** csv_splitter.cc:41-54 FindNextLine: (text of this line, next line start). *)
Definition find_next_line (cur : str) : str * option str :=
  let this := take_while (fun c => negb (is_nl c)) cur in
  match drop_while (fun c => negb (is_nl c)) cur with
  | [] => (this, None)
  | at_nl => (this, match drop_while is_nl at_nl with [] => None | nxt => Some nxt end)
  end.

(** csv_splitter.cc:56-68 SplitCurrentLine called until it returns false; yields the raw lines
    (each is then given to SplitQuotedUsing with ','). *)
Fixpoint csv_lines (fuel : nat) (cur : option str) : res (list str) :=
  match cur with
  | None => Ok []
  | Some s =>
      match fuel with
      | O => Fuel
      | S f => let (this, nxt) := find_next_line s in
               do r <- csv_lines f nxt; Ok (this :: r)
      end
  end.
Definition csv_all_lines (data : str) : res (list str) := csv_lines (S (length data)) (Some data).
