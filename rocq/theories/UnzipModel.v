(** Model of reading ZIP archives from memory: src/kml/base/zip_file.cc with
    src/kml/base/contrib/minizip/unzip.c and iomem_simple.c. All callers compare the error codes of
    unzip.c only with UNZ_OK, so [None] stands for any error code; after an error the remaining
    reads of a record have no effect on the outcome, so reading stops at the first one. *)
From Verif Require Import Common StringsModel PathModel.
Local Open Scope N_scope.

(** Size of the data. *)
Definition len (s : str) : N := N.of_nat (length s).

(** unzip.h 60. *)
Definition zip_max : N := 2147483647.

(** iomem_simple.c 124-156 mem_read after a seek to [p]: the bytes copied. Positions are sums of
    unsigned fields and sizes, so they are not negative; the seek to an absolute position
    (iomem_simple.c 63-66) accepts every position. The requests are smaller than 2^31, so the
    conversion of the remaining size to int (147) is exact whenever it is not negative. *)
Definition mem_read (d : str) (p n : N) : str :=
  if zip_max <=? p then []
  else
    let m := if len d <? p + n then len d - p else n in
    if m =? 0 then [] else firstn (N.to_nat m) (skipn (N.to_nat p) d).

(** unzip.c 202-221 unzlocal_getByte. *)
Definition get_byte (d : str) (p : N) : option N :=
  match mem_read d p 1 with [c] => Some (N_of_ascii c) | _ => None end.
(** unzip.c 232-253 unzlocal_getShort. *)
Definition get_short (d : str) (p : N) : option N :=
  match get_byte d p, get_byte d (p + 1) with Some a, Some b => Some (a + 256 * b) | _, _ => None end.
(** unzip.c 260-289 unzlocal_getLong. *)
Definition get_long (d : str) (p : N) : option N :=
  match get_short d p, get_short d (p + 2) with Some a, Some b => Some (a + 65536 * b) | _, _ => None end.

(** The signature of the end of central directory record, unzip.c 405-406. *)
Definition end_magic : str := S_"PK" ++ ["005"%char; "006"%char].
(** unzip.c 404-410: the scan of the buffer from its end; [i] is the loop variable before its
    decrement. *)
Fixpoint scan (buf : str) (i : nat) : option nat :=
  match i with
  | O => None
  | S j => if prefixb end_magic (skipn j buf) then Some j else scan buf j
  end.
(** unzip.c 385-414: the loop of unzlocal_SearchCentralDir. 0 is "not found". *)
Fixpoint search_loop (fuel : nat) (d : str) (maxback back : N) : res N :=
  match fuel with
  | O => Fuel
  | S f =>
      if back <? maxback then
        let back' := if maxback <? back + 1024 then maxback else back + 1024 in
        let pos := len d - back' in
        let n := if 1028 <? len d - pos then 1028 else len d - pos in
        let buf := mem_read d pos n in
        if len buf =? n then
          match scan buf (length buf - 3) with
          | Some i => if pos + N.of_nat i =? 0 then search_loop f d maxback back' else Ok (pos + N.of_nat i)
          | None => search_loop f d maxback back'
          end
        else Ok 0
      else Ok 0
  end.
(** unzip.c 362-417 unzlocal_SearchCentralDir. The loop runs at most 64 times. *)
Definition search_central (d : str) : res N := search_loop 65 d (if len d <? 65535 then len d else 65535) 4.

(** The fields of unz_s (unzip.c 132-159) that matter: byte_before_the_zipfile,
    gi.number_entry and offset_central_dir. *)
Record unz := Unz { u_before : N; u_entries : N; u_offset : N }.

(** unzip.c 1664-1766 libkml_unzAttach without the call to libkml_unzGoToFirstFile at its end. *)
Definition attach (d : str) : res (option unz) :=
  do c <- search_central d;
  Ok (if c =? 0 then None
      else
        match get_long d c, get_short d (c + 4), get_short d (c + 6), get_short d (c + 8),
              get_short d (c + 10), get_long d (c + 12), get_long d (c + 16), get_short d (c + 20) with
        | Some _, Some disk, Some disk_cd, Some n, Some n_cd, Some size, Some off, Some _ =>
            if negb (n_cd =? n) || negb (disk_cd =? 0) || negb (disk =? 0) then None
            else if c <? off + size then None
            else Some (Unz (c - (off + size)) n off)
        | _, _, _, _, _, _, _, _ => None
        end).

(** unz_file_info (unzip.h 111-130) and the offset of the local header, without the fields nobody
    uses. *)
Record finfo := Finfo { fi_method : N; fi_crc : N; fi_csize : N; fi_usize : N;
  fi_name : N; fi_extra : N; fi_comment : N; fi_offset : N }.

(** unzip.c 611-785 unzlocal_GetCurrentFileInfoInternal of the item at position [p] of the data,
    without the name. *)
Definition get_info (d : str) (p : N) : option finfo :=
  match get_long d p, get_short d (p + 10), get_long d (p + 16), get_long d (p + 20), get_long d (p + 24),
        get_short d (p + 28), get_short d (p + 30), get_short d (p + 32), get_long d (p + 42) with
  | Some magic, Some m, Some crc, Some cs, Some us, Some n, Some x, Some c, Some off =>
      if magic =? 33639248 (* 0x02014b50 *) then Some (Finfo m crc cs us n x c off) else None
  | _, _, _, _, _, _, _, _, _ => None
  end.

(** unzip.c 700-718: the name of the item, read into a buffer of [size] bytes: the bytes read and
    whether a NUL was put behind them. *)
Definition get_name (d : str) (p size : N) (fi : finfo) : option (str * bool) :=
  let n := if fi_name fi <? size then fi_name fi else size in
  if fi_name fi =? 0 then Some ([], true)
  else
    let b := mem_read d (p + 46) n in
    if len b =? n then Some (b, fi_name fi <? size) else None.

(** The bytes of a string before its first NUL. *)
Fixpoint cut_nul (s : str) : str :=
  match s with
  | [] => []
  | c :: s' => if aeq c "000" then [] else c :: cut_nul s'
  end.
(** Taking the buffer for a C string: without a NUL the read leaves the buffer. *)
Definition c_string (b : str) (terminated : bool) : res str :=
  if terminated || existsb (fun c => aeq c "000") b then Ok (cut_nul b) else UB.

(** The current file: num_file, pos_in_central_dir and cur_file_info, valid if current_file_ok. *)
Record cursor := Cursor { c_num : N; c_pos : N; c_info : finfo }.

(** unzip.c 818-833 libkml_unzGoToFirstFile. *)
Definition go_first (d : str) (u : unz) : option cursor :=
  match get_info d (u_offset u + u_before u) with Some fi => Some (Cursor 0 (u_offset u) fi) | None => None end.
(** unzip.c 840-863 libkml_unzGoToNextFile from a valid current file. *)
Definition go_next (d : str) (u : unz) (c : cursor) : option cursor :=
  if negb (u_entries u =? 65535) && (c_num c + 1 =? u_entries u) then None
  else
    let fi := c_info c in
    let p := c_pos c + 46 + fi_name fi + fi_extra fi + fi_comment fi in
    match get_info d (p + u_before u) with Some fi' => Some (Cursor (c_num c + 1) p fi') | None => None end.

(** zip_file.cc 99-106: the names of the files from the current one on. A name that cannot be
    read is left out. *)
Fixpoint toc_loop (fuel : nat) (d : str) (u : unz) (c : cursor) : res (list str) :=
  match fuel with
  | O => Fuel
  | S f =>
      do nm <- match get_name d (c_pos c + u_before u) 1024 (c_info c) with
               | None => Ok []
               | Some (b, t) => do s <- c_string b t; Ok [s]
               end;
      match go_next d u c with
      | None => Ok nm
      | Some c' => do r <- toc_loop f d u c'; Ok (nm ++ r)
      end
  end.
(** zip_file.cc 89-111, the constructor of ZipFile: the table of contents. *)
Definition zip_toc (d : str) : res (list str) :=
  do u <- attach d;
  match u with
  | None => Ok []
  | Some u => match go_first d u with None => Ok [] | Some c => toc_loop (S (length d)) d u c end
  end.
(** zip_file.cc 59-61 ZipFile::OpenFromString. *)
Definition zip_open (d : str) : res (option (list str)) :=
  if is_zip_data d then do t <- zip_toc d; Ok (Some t) else Ok None.

(** unzip.c 293-314 strcmpcasenosensitive_internal: the comparison is of the letters in upper
    case. *)
Definition upper (c : ascii) : ascii :=
  let n := N_of_ascii c in if (97 <=? n) && (n <=? 122) then ascii_of_N (n - 32) else c.
(** unzip.c 336-348 libkml_unzStringFileNameCompare with the default case sensitivity, which is that
    of the platform (66-70): [cs] is whether the macro unix is defined. The name found is cut at a
    NUL. A name of 256 bytes without one (unzip.c 911-914) is not terminated; as the name looked
    for is shorter (894) the comparison ends inside of the buffer, with a difference. *)
Definition same_name (cs : bool) (b name : str) : bool :=
  if cs then eqs (cut_nul b) name else eqs (map upper (cut_nul b)) (map upper name).
(** unzip.c 909-923: the loop of libkml_unzLocateFile. *)
Fixpoint locate_loop (fuel : nat) (cs : bool) (d : str) (u : unz) (name : str) (c : cursor) : res (option cursor) :=
  match fuel with
  | O => Fuel
  | S f =>
      match get_name d (c_pos c + u_before u) 256 (c_info c) with
      | None => Ok None
      | Some (b, _) =>
          if same_name cs b name then Ok (Some c)
          else match go_next d u c with None => Ok None | Some c' => locate_loop f cs d u name c' end
      end
  end.
(** unzip.c 874-932 libkml_unzLocateFile. *)
Definition locate_file (cs : bool) (d : str) (u : unz) (name : str) : res (option cursor) :=
  if 256 <=? len name then Ok None
  else match go_first d u with None => Ok None | Some c => locate_loop (S (length d)) cs d u name c end.

(** unzip.c 1007-1086 unzlocal_CheckCurrentFileCoherencyHeader and the position of the file data
    (1203-1205), relative to the data. *)
Definition local_data (d : str) (u : unz) (fi : finfo) : option N :=
  let p := fi_offset fi + u_before u in
  match get_long d p, get_short d (p + 6), get_short d (p + 8), get_long d (p + 14), get_long d (p + 18),
        get_long d (p + 22), get_short d (p + 26), get_short d (p + 28) with
  | Some magic, Some flags, Some m, Some crc, Some cs, Some us, Some n, Some x =>
      let free := N.testbit flags 3 in
      if (magic =? 67324752 (* 0x04034b50 *)) && (m =? fi_method fi) && ((m =? 0) || (m =? 8)) &&
         ((crc =? fi_crc fi) || free) && ((cs =? fi_csize fi) || free) && ((us =? fi_usize fi) || free) &&
         (n =? fi_name fi)
      then Some (p + 30 + n + x) else None
  | _, _, _, _, _, _, _, _ => None
  end.

Section Read.
  (** zlib's inflate: the state after inflateInit2, and one call with the given input and room
      for output: the new state, the output, the input left over, and the result code (Z_OK is 0,
      Z_STREAM_END is 1; a message in the stream (unzip.c 1397-1398) counts as an error code). *)
  Variable zst : Type.
  Variable z_init : zst.
  Variable z_step : zst -> str -> N -> zst * str * str * Z.

  (** unzip.c 1306-1421: the loop of libkml_unzReadCurrentFile: [pos] is the position in the data,
      [rest] is rest_read_compressed, [avail] the input at hand, [need] is avail_out and [out] what
      was written. [None] is a negative result. *)
  Fixpoint read_loop (fuel : nat) (method : N) (d : str) (pos rest : N) (st : zst) (avail : str) (need : N)
      (out : str) : res (option str) :=
    match fuel with
    | O => Fuel
    | S f =>
        if need =? 0 then Ok (Some out)
        else
          let step pos rest avail :=
            if method =? 0 then
              if (len avail =? 0) && (rest =? 0) then Ok (Some out)
              else
                let n := if need <? len avail then need else len avail in
                read_loop f method d pos rest st (skipn (N.to_nat n) avail) (need - n)
                  (out ++ firstn (N.to_nat n) avail)
            else
              let '(st', o, avail', code) := z_step st avail need in
              if (code =? 1)%Z then Ok (Some (out ++ o))
              else if (code =? 0)%Z then read_loop f method d pos rest st' avail' (need - len o) (out ++ o)
              else Ok None in
          if (len avail =? 0) && (0 <? rest) then
            let n := if rest <? 16384 then rest else 16384 in
            let buf := mem_read d pos n in
            if len buf =? n then step (pos + n) (rest - n) buf else Ok None
          else step pos rest avail
    end.

  (** zip_file.cc 171-218 ZipFile::GetEntry with a non-NULL output: [toc] is the table of contents
      from the constructor. The check of the checksum (unzip.c 1548-1553) is made when the file is
      closed and its result is dropped. *)
  Definition zip_get (cs : bool) (d : str) (toc : list str) (max : N) (path : str) : res (option str) :=
    if is_in_toc path toc then
      do u <- attach d;
      match u with
      | None => Ok None
      | Some u =>
          do c <- locate_file cs d u path;
          match c with
          | None => Ok None
          | Some c =>
              let fi := c_info c in
              match local_data d u fi with
              | None => Ok None
              | Some p =>
                  let n := fi_usize fi in
                  if (n =? 0) || (max <? n) then Ok None
                  else
                    do r <- read_loop (S (N.to_nat (n + fi_csize fi))) (fi_method fi) d p (fi_csize fi) z_init [] n [];
                    Ok (match r with Some b => if len b =? n then Some b else None | None => None end)
              end
          end
      end
    else Ok None.
End Read.
