(** Files of the operating system: base/file.cc, base/file_posix.cc and base/tempfile.h. *)
From Verif Require Import Common.
Local Open Scope N_scope.

(** What is found at a place of the file system: a regular file with its permission bits and its bytes, or a directory.  On a
    damaged medium the bytes [lost] behind the others cannot be read.  (What POSIX says of open, read, write, stat, unlink and
    mkstemp, as far as file.cc:40-75 and file_posix.cc:40-76 use them.) *)
Inductive entry := Regular (mode : N) (data lost : str) | Directory.
(** The file system, the bytes that are free on it, and the file mode mask of the process (file_posix.cc:66-69). *)
Record disk := { at_ : N -> option entry; room : nat; mask : N }.
(** The bytes a file takes (POSIX; opening for writing in file.cc:67-68 frees them). *)
Definition taken (e : option entry) : nat := match e with Some (Regular _ d l) => length d + length l | _ => 0 end.
(** Replacing what is at a place; [r] bytes are free afterwards (the effect of file.cc:67-73, file_posix.cc:59 and 68). *)
Definition put (d : disk) (i : N) (e : option entry) (r : nat) : disk :=
  {| at_ := fun j => if j =? i then e else at_ d j; room := r; mask := mask d |}.
(** std::string::c_str handed to the kernel: the name ends at the first NUL (file.cc:44, file.cc:67, file_posix.cc:52, 59). *)
Fixpoint c_name (s : str) : str := match s with [] => [] | c :: s' => if aeq c "000"%char then [] else c :: c_name s' end.

(** std::istream as file.cc:44-58 uses it: what is left to read, whether an error follows instead of the end of the file, the
    state bits, and the buffer up to gcount. *)
Record istream := { rest : str; broken : bool; eof : bool; fail : bool; bad : bool; got : str }.
(** ios::good (file.cc:46, 52). *)
Definition good (s : istream) : bool := negb (eof s) && negb (fail s) && negb (bad s).
(** istream::read (C++ standard [istream.unformatted]; file.cc:53): [n] bytes; fewer at the end of the file, with eofbit and failbit
    set; an error sets badbit and leaves gcount 0, as libstdc++ does. *)
Definition read_some (n : nat) (s : istream) : istream :=
  if good s then
    if (n <=? length (rest s))%nat then {| rest := skipn n (rest s); broken := broken s; eof := false; fail := false; bad := false; got := firstn n (rest s) |}
    else if broken s then {| rest := []; broken := true; eof := false; fail := false; bad := true; got := [] |}
    else {| rest := []; broken := false; eof := true; fail := true; bad := false; got := rest s |}
  else {| rest := rest s; broken := broken s; eof := eof s; fail := true; bad := bad s; got := [] |}.
(** kBufferSize (file.cc:50). *)
Definition buffer_size : nat := 1024.
(** The loop of ReadFileToString (file.cc:52-58). *)
Fixpoint read_loop (fuel : nat) (s : istream) (out : str) : res str :=
  if negb (eof s) && good s then
    match fuel with
    | O => Fuel
    | S f => let s' := read_some buffer_size s in read_loop f s' (if (0 <? length (got s'))%nat then out ++ got s' else out)
    end
  else Ok out.
(** Opening for reading (std::ifstream, file.cc:44-45): a directory can be opened, reading from it is an error. *)
Definition open_in (e : option entry) : option istream :=
  match e with
  | None => None
  | Some Directory => Some {| rest := []; broken := true; eof := false; fail := false; bad := false; got := [] |}
  | Some (Regular _ d l) => Some {| rest := d; broken := match l with [] => false | _ => true end; eof := false; fail := false; bad := false; got := [] |}
  end.

Section Disk.
  (** Path resolution: where a name leads; None if a directory on the way is missing or access is not allowed.  Several names can
      lead to one place (POSIX pathname resolution, used by every function of file.cc and file_posix.cc). *)
  Variable place : str -> option N.
  (** What a name leads to (the kernel's part of file.cc:44, 67 and file_posix.cc:43, 59). *)
  Definition found (d : disk) (name : str) : option entry := match place (c_name name) with Some i => at_ d i | None => None end.
  (** File::ReadFileToString (file.cc:40-60).  [out] is the string that output points to, None for NULL; what it is afterwards is in
      the result. *)
  Definition read_file (d : disk) (name : str) (out : option str) : res (bool * option str) :=
    match name, out with
    | [], _ | _, None => Ok (false, out)
    | _, Some _ => match open_in (found d name) with
                   | None => Ok (false, out)
                   | Some s => if negb (good s) then Ok (false, out) else do r <- read_loop (S (length (rest s))) s []; Ok (true, Some r)
                   end
    end.
  (** File::WriteStringToFile (file.cc:62-75): the file is created or emptied, and as much of the data written as there is room for;
      errors of write and close are not looked at. *)
  Definition write_file (d : disk) (data name : str) : bool * disk :=
    match name with
    | [] => (false, d)
    | _ => match place (c_name name) with
           | None => (false, d)
           | Some i => match at_ d i with
                       | Some Directory => (false, d)
                       | e => let free := (room d + taken e)%nat in
                              let mode := match e with Some (Regular m _ _) => m | _ => N.ldiff 438 (mask d) end in
                              (true, put d i (Some (Regular mode (firstn free data) [])) (free - length data))
                       end
           end
    end.
  (** File::Exists (file_posix.cc:50-56). *)
  Definition exists_ (d : disk) (name : str) : bool := match found d name with Some (Regular _ _ _) => true | _ => false end.
  (** File::Delete (file_posix.cc:58-60): unlink, which does not remove directories. *)
  Definition delete (d : disk) (name : str) : bool * disk :=
    match place (c_name name) with
    | None => (false, d)
    | Some i => match at_ d i with Some (Regular m x l) => (true, put d i None (room d + taken (at_ d i))%nat) | _ => (false, d) end
    end.
  (** umask (file_posix.cc:66, 69): sets the mask of the process, gives the old one. *)
  Definition umask (d : disk) (m : N) : N * disk := (mask d, {| at_ := at_ d; room := room d; mask := N.land m 511 |}).
  (** How mkstemp chooses the six characters (the C library; file_posix.cc:68). *)
  Variable pick : disk -> option str.
  (** mkstemp (file_posix.cc:67-68): a new file which only its owner can use; None for -1. *)
  Definition mkstemp (d : disk) : option str * disk :=
    match pick d with
    | None => (None, d)
    | Some x => let name := S_ "/tmp/libkml" ++ x in
                match place name with
                | None => (None, d)
                | Some i => match at_ d i with Some _ => (None, d) | None => (Some name, put d i (Some (Regular (N.ldiff 384 (mask d)) [] [])) (room d)) end
                end
    end.
  (** File::CreateNewTempFile (file_posix.cc:62-76).  [path] is what path points to, None for NULL.  S_IXUSR | S_IRWXG | S_IRWXO is 127. *)
  Definition create_temp (d : disk) (path : option str) : bool * option str * disk :=
    match path with
    | None => (false, None, d)
    | Some _ => let '(old, d1) := umask d 127 in
                let '(fd, d2) := mkstemp d1 in
                let '(_, d3) := umask d2 old in
                match fd with None => (false, path, d3) | Some name => (true, Some (c_name name), d3) end
    end.
  (** TempFile::CreateTempFile (tempfile.h:47-53): the name of the new object, None for NULL. *)
  Definition temp_file (d : disk) : option str * disk :=
    match create_temp d (Some []) with (true, Some name, d') => (Some name, d') | (_, _, d') => (None, d') end.
  (** TempFile::~TempFile (tempfile.h:54-58). *)
  Definition drop_temp (d : disk) (name : str) : disk := if exists_ d name then snd (delete d name) else d.
End Disk.
