(** Specification of XML reading, independent of the library: a reader for a sub-language of XML 1.0
    (elements, attributes in double quotes, character data, CDATA sections, the five predefined
    entities).  Whatever it accepts is well-formed and any conforming parser reports the same events;
    comments, processing instructions, character references and DTDs are outside of the sub-language
    and give [None].  Character data is reported one byte at a time. *)
From Verif Require Import Common AttributesProofs.

Inductive ev :=
| EStart (name : str) (atts : list (str * str))
| EEnd (name : str)
| EChar (c : ascii).

Definition xsp (c : ascii) : bool := let n := code c in ((n =? 32) || (n =? 9) || (n =? 10) || (n =? 13))%N.
(** Bytes allowed in a document after line end normalization. *)
Definition legal (c : ascii) : bool := let n := code c in ((32 <=? n) || (n =? 9) || (n =? 10))%N.
Definition name_start (c : ascii) : bool :=
  let n := code c in
  (((65 <=? n) && (n <=? 90)) || ((97 <=? n) && (n <=? 122)) || (n =? 95) || (n =? 58) || (128 <=? n))%N.
Definition name_ch (c : ascii) : bool :=
  name_start c || isdigit c || aeq c "-"%char || aeq c "."%char.
Definition xml_name (s : str) : bool :=
  match s with c :: t => name_start c && forallb name_ch t | [] => false end.

Definition cdata_open : str := S_ "<![CDATA[".
Definition cdata_close : str := S_ "]]>".

(** Attribute value up to the closing quote; [skip] bytes belong to an entity already read. *)
Fixpoint att_value (skip : nat) (s : str) : option (str * str) :=
  match s with
  | [] => None
  | c :: t =>
      match skip with
      | S n => att_value n t
      | O =>
          if aeq c """"%char then Some ([], t)
          else if aeq c "<"%char then None
          else if aeq c "&"%char then
            match read_entity entities s with
            | Some (x, k) => option_map (fun p => (x :: fst p, snd p)) (att_value (k - 1) t)
            | None => None
            end
          else if legal c then
            option_map (fun p => ((if xsp c then " "%char else c) :: fst p, snd p)) (att_value 0 t)
          else None
      end
  end.

(** Rest of a start tag: attributes, whether it is an empty-element tag, remaining input. *)
Fixpoint tag_atts (fuel : nat) (s : str) : option (list (str * str) * bool * str) :=
  match fuel with
  | O => None
  | S f =>
      match s with
      | [] => None
      | c :: t =>
          if aeq c ">"%char then Some ([], false, t)
          else if aeq c "/"%char then
            match t with
            | d :: r => if aeq d ">"%char then Some ([], true, r) else None
            | [] => None
            end
          else if xsp c then
            let u := drop_while xsp t in
            if aeq (hd zero u) ">"%char || aeq (hd zero u) "/"%char then tag_atts f u
            else
              let n := take_while name_ch u in
              match drop_while name_ch u with
              | e :: q :: r =>
                  if xml_name n && aeq e "="%char && aeq q """"%char then
                    match att_value 0 r with
                    | Some (v, r') =>
                        match tag_atts f r' with
                        | Some (l, b, r'') => Some ((n, v) :: l, b, r'')
                        | None => None
                        end
                    | None => None
                    end
                  else None
              | _ => None
              end
          else None
      end
  end.

Fixpoint nodupb (l : list str) : bool :=
  match l with [] => true | x :: l' => negb (existsb (eqs x) l') && nodupb l' end.

Definition prepend {A} (l : list A) (o : option (list A)) : option (list A) := option_map (app l) o.

(** Tokens of a document. *)
Fixpoint rd (fuel : nat) (s : str) : option (list ev) :=
  match s with
  | [] => Some []
  | c :: t =>
      match fuel with
      | O => None
      | S f =>
          if aeq c "<"%char then
            if prefixb cdata_open s then
              let r := skipn 9 s in
              match find cdata_close r with
              | Some i => if forallb legal (firstn i r)
                          then prepend (map EChar (firstn i r)) (rd f (skipn (i + 3) r)) else None
              | None => None
              end
            else if aeq (hd zero t) "/"%char then
              let u := tl t in
              let n := take_while name_ch u in
              match drop_while name_ch u with
              | d :: r => if xml_name n && aeq d ">"%char then prepend [EEnd n] (rd f r) else None
              | [] => None
              end
            else
              let n := take_while name_ch t in
              if xml_name n then
                match tag_atts f (drop_while name_ch t) with
                | Some (a, b, r) =>
                    if nodupb (map fst a)
                    then prepend (EStart n a :: if b then [EEnd n] else []) (rd f r) else None
                | None => None
                end
              else None
          else if aeq c "&"%char then
            match read_entity entities s with
            | Some (x, k) => prepend [EChar x] (rd f (skipn k s))
            | None => None
            end
          else if prefixb cdata_close s then None
          else if legal c then prepend [EChar c] (rd f t)
          else None
      end
  end.

(** XML 1.0 2.11: CR LF and CR become LF before parsing. *)
Fixpoint norm_eol (s : str) : str :=
  match s with
  | [] => []
  | c :: t =>
      if aeq c "013"%char then
        match t with
        | d :: _ => if aeq d "010"%char then norm_eol t else "010"%char :: norm_eol t
        | [] => ["010"%char]
        end
      else c :: norm_eol t
  end.

Definition xml_tokens (s : str) : option (list ev) := let s' := norm_eol s in rd (length s') s'.

(** Tags match, there is exactly one root and only white space around it. *)
Fixpoint nest (es : list ev) (st : list str) (seen : bool) : bool :=
  match es with
  | [] => match st with [] => seen | _ => false end
  | EStart n _ :: r => match st with [] => negb seen && nest r [n] true | _ => nest r (n :: st) true end
  | EEnd n :: r => match st with m :: st' => eqs m n && nest r st' seen | [] => false end
  | EChar c :: r => match st with [] => xsp c && nest r st seen | _ => nest r st seen end
  end.

(** The events of a well-formed document. *)
Definition xml_parse (s : str) : option (list ev) :=
  match xml_tokens s with
  | Some es => if nest es [] false then Some es else None
  | None => None
  end.

(** Documents as trees. *)
Inductive xml :=
| XElem (name : str) (atts : list (str * str)) (kids : list xml)
| XChar (c : ascii).
Fixpoint xevents (x : xml) : list ev :=
  match x with
  | XElem n a ks => EStart n a :: flat_map xevents ks ++ [EEnd n]
  | XChar c => [EChar c]
  end.
