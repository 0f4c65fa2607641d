(** Model of the coordinates text parsers: kmldom::Coordinates (src/kml/dom/geometry.cc:83-176) and
    kmldom::GxTrack::Parse (geometry.cc:554-570).  Numbers stay texts: the value of a coordinate is
    represented by the characters that std::istream >> double is given, so nothing is assumed about
    floating point. *)
From Verif Require Import Common StringsModel.

(** Characters of a C++ decimal floating point literal; istream >> double (string_util.cc:171-174)
    reads the longest run of them and ignores the rest of the token. *)
Definition numchar (c : ascii) : bool :=
  isdigit c || aeq c "+"%char || aeq c "-"%char || aeq c "."%char || aeq c "e"%char || aeq c "E"%char.
(** string_util.cc:167-177 StringToDouble: None leaves the output untouched. *)
Definition string_to_double (s : str) : option str :=
  if is_decimal_double_string s then Some (take_while numchar s) else None.

(** base/vec3.h: longitude, latitude (None: the default 0.0 stays), altitude (None: has_altitude is
    false and the altitude is 0.0). *)
Record vec3 := { v_lon : str; v_lat : option str; v_alt : option str }.

(** The buffers char lon[1024], lat[1024], alt[1024] (geometry.cc:92,108,131) hold 1023 characters
    and the terminator; a longer token is written past the end. *)
Definition fits (s : str) : bool := (N.of_nat (length s) <=? 1023)%N.

Definition is_nul (c : ascii) : bool := aeq c nul.
(** geometry.cc:94 etc.: a number starts at a minus sign or a digit. *)
Definition starts (c : ascii) : bool := aeq c "-"%char || isdigit c.
(** geometry.cc:94, 127, 154: skip to the next number or the terminator. *)
Definition skip (s : str) : str := drop_while (fun c => negb (is_nul c) && negb (starts c)) s.
(** geometry.cc:97: characters of the longitude token. *)
Definition lon_char (c : ascii) : bool :=
  negb (is_nul c) && negb (aeq c " "%char) && negb (aeq c "010"%char) && negb (aeq c ","%char).
(** geometry.cc:109: skipping to the latitude also stops at a line feed. *)
Definition skip_lat (s : str) : str :=
  drop_while (fun c => negb (is_nul c) && negb (aeq c "010"%char) && negb (starts c)) s.
(** geometry.cc:115-121, 134-140: characters of the latitude and altitude tokens. *)
Definition tok_char (c : ascii) : bool := negb (is_nul c) && negb (aeq c ","%char) && negb (aeq c " "%char).
(** [b]: the token ended at a space (geometry.cc:116-117). *)
Definition at_space (s : str) : bool := match s with c :: _ => aeq c " "%char | [] => false end.

(** geometry.cc:83-162 Coordinates::ParseVec3.  None: false is returned and *nextp is not written.
    Reading the uninitialized longitude or altitude (geometry.cc:104, 146) is undefined. *)
Definition parse_vec3 (s : str) : res (option (vec3 * str)) :=
  let s := skip s in
  let lon := take_while lon_char s in
  let s := drop_while lon_char s in
  if negb (fits lon) then UB else
  match lon with
  | [] => Ok None
  | _ =>
      match string_to_double lon with
      | None => UB
      | Some lonv =>
          let s := skip_lat s in
          let lat := take_while tok_char s in
          let s := drop_while tok_char s in
          if negb (fits lat) then UB else
          let b := at_space s in
          let latv := match lat with [] => None | _ => string_to_double lat end in
          let s := skip s in
          if b then Ok (Some ({| v_lon := lonv; v_lat := latv; v_alt := None |}, skip s))
          else
            let alt := take_while tok_char s in
            let s := drop_while tok_char s in
            if negb (fits alt) then UB else
            match alt with
            | [] => Ok (Some ({| v_lon := lonv; v_lat := latv; v_alt := None |}, skip s))
            | _ => match string_to_double alt with
                   | None => UB
                   | Some altv => Ok (Some ({| v_lon := lonv; v_lat := latv; v_alt := Some altv |}, skip s))
                   end
            end
      end
  end.

(** geometry.cc:166-176 Coordinates::Parse: [s] is the text from next to endp. *)
Fixpoint parse_loop (fuel : nat) (s : str) : res (list vec3) :=
  match s with
  | [] => Ok []
  | _ =>
      match fuel with
      | O => Fuel
      | S f =>
          do r <- parse_vec3 s;
          match r with
          | None => parse_loop f s
          | Some (v, rest) => do vs <- parse_loop f rest; Ok (v :: vs)
          end
      end
  end.
Definition coordinates_parse (s : str) : res (list vec3) := parse_loop (S (length s)) s.

(** string_util.cc:84-91 FromString<double>: leading white space is skipped; a token that is empty or
    all white space leaves the output unwritten (None); otherwise the longest run of number
    characters is converted (an invalid one gives 0). *)
Definition from_string_double (s : str) : option str :=
  match drop_while isspace s with [] => None | t => Some (take_while numchar t) end.
(** base/vec3.h:58-68 set(i, value): indices beyond 2 are ignored. *)
Record gxvec := { g_lon : option str; g_lat : option str; g_alt : option str }.
Definition gx_set (v : gxvec) (i : nat) (d : str) : gxvec :=
  match i with
  | 0 => {| g_lon := Some d; g_lat := g_lat v; g_alt := g_alt v |}
  | 1 => {| g_lon := g_lon v; g_lat := Some d; g_alt := g_alt v |}
  | 2 => {| g_lon := g_lon v; g_lat := g_lat v; g_alt := Some d |}
  | _ => v
  end.
(** geometry.cc:562-568: the loop leaves after index 3. *)
Fixpoint gx_loop (i : nat) (ts : list str) (v : gxvec) : res gxvec :=
  match ts with
  | [] => Ok v
  | t :: ts' =>
      match from_string_double t with
      | None => UB
      | Some d => let v := gx_set v i d in if 2 <? i then Ok v else gx_loop (S i) ts' v
      end
  end.
(** geometry.cc:554-570 GxTrack::Parse: the vector that is appended. *)
Definition gx_parse (s : str) : res gxvec :=
  do ts <- split_string_using s (S_ " ");
  gx_loop 0 ts {| g_lon := None; g_lat := None; g_alt := None |}.
(** serializer.cc:102-108 SaveSimpleVec3 with delimiter " " (geometry.cc:527-531): the text written. *)
Definition gx_text (lon lat alt : str) : str := lon ++ S_ " " ++ lat ++ S_ " " ++ alt.
