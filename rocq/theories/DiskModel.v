(** Bytes and files: thinc/model.py [to_bytes], [to_disk] (550-569), [from_bytes], [from_disk] (628-647), [can_from_disk], [can_from_bytes]
    (679-700), the defaults of [serialize_attr] and [deserialize_attr] (834-849), and thinc/shims/shim.py [to_disk] and [from_disk] (58-68).
    msgpack itself is a pair of functions; what it does to values of attributes is [pack]. No proofs here. *)
From Coq Require Import String.
From Verif Require Export SerialModel.
Local Open Scope string_scope.

(** Values of attributes. A float is given by its bits; [VObj] is anything that msgpack cannot write, such as functions and slices.
    Dictionaries have strings as keys. *)
Inductive pyval :=
| VNone | VBool (b : bool) | VInt (z : Z) | VFloat (bits : Z) | VStr (s : string) | VBytes (s : string)
| VList (l : list pyval) | VTuple (l : list pyval) | VDict (d : list (string * pyval)) | VObj (k : nat).
(** [srsly.msgpack_dumps] and then [srsly.msgpack_loads]; [None]: dumps raises TypeError. Tuples are written as arrays, and arrays are
    read as lists. Integers beyond 64 bits (OverflowError) and nesting beyond 511 levels (ValueError) are not modelled. *)
Definition pack_list (pack : pyval -> option pyval) : list pyval -> option (list pyval) :=
  fix go l := match l with
              | [] => Some []
              | v :: l => match pack v, go l with Some v, Some l => Some (v :: l)%list | _, _ => None end
              end.
Definition pack_dict (pack : pyval -> option pyval) : list (string * pyval) -> option (list (string * pyval)) :=
  fix go d := match d with
              | [] => Some []
              | (k, v) :: d => match pack v, go d with Some v, Some d => Some ((k, v) :: d)%list | _, _ => None end
              end.
Fixpoint pack (v : pyval) : option pyval :=
  match v with
  | VList l | VTuple l => match pack_list pack l with Some l => Some (VList l) | None => None end
  | VDict d => match pack_dict pack d with Some d => Some (VDict d) | None => None end
  | VObj _ => None
  | v => Some v
  end.
(** model.py 834-839 [serialize_attr] and 843-849 [deserialize_attr], without custom functions. The bytes of a value stand for the
    value that is read from them. *)
Definition serialize_attr (v : pyval) : option pyval := pack v.
Definition deserialize_attr (_ : option pyval) (y : pyval) : pyval := y.

(** What is read from bytes: a message, a dictionary without "nodes", or something that is not a dictionary. Dictionaries with "nodes"
    but of another form than a message are not modelled. *)
Inductive loaded_obj (M : Type) := LMsg (m : M) | LDict | LOther.
Arguments LMsg {M}. Arguments LDict {M}. Arguments LOther {M}.
(** Files and directories. Parent directories always exist. *)
Inductive dirent (B : Type) := File (b : B) | Dir.
Arguments File {B}. Arguments Dir {B}.
Inductive failure := Raised (e : err) | IsADirectory | FileNotFound.

Section Disk.
  Context {V S B : Type}.
  Notation sstate := (sstate V pyval S).
  Notation message := (message V pyval).
  Variable shim_to : S -> pyval.
  Variable shim_from : S -> pyval -> S.
  Variable shape : V -> list nat.
  Context `{EqD pyval}.
  (** [srsly.msgpack_dumps], [srsly.msgpack_loads], and the contents of a file that was just opened for writing *)
  Variable dumps : message -> B.
  Variable loads : B -> result (loaded_obj message).
  Variable empty : B.
  Notation files := (dict string (dirent B)).

  (** model.py 550-561; at the level of values the conversion of arrays does nothing *)
  Definition to_bytes (s : sstate) (root : addr) : result B :=
    let* msg := to_dict serialize_attr shim_to s root in Ok (dumps msg).
  (** [path.open("wb")]: the file is there and empty *)
  Definition open_wb (fs : files) (path : string) : files * option failure :=
    match dget path fs with Some Dir => (fs, Some IsADirectory) | _ => (dset path (File empty) fs, None) end.
  (** [path.open("rb")] and [file_.read()] *)
  Definition read (fs : files) (path : string) : B + failure :=
    match dget path fs with Some Dir => inr IsADirectory | Some (File b) => inl b | None => inr FileNotFound end.
  (** model.py 563-569: the file is opened first *)
  Definition to_disk (s : sstate) (root : addr) (path : string) (fs : files) : files * option failure :=
    match open_wb fs path with
    | (fs, Some e) => (fs, Some e)
    | (fs, None) =>
        match to_bytes s root with
        | Ok b => (dset path (File b) fs, None)
        | Err e => (fs, Some (Raised e))
        end
    end.
  (** model.py 628-638, with 650-652 *)
  Definition from_bytes (s : sstate) (root : addr) (b : B) : sstate * result unit :=
    match loads b with
    | Err e => (s, Err e)
    | Ok (LMsg msg) => from_dict deserialize_attr shim_from s root msg
    | Ok LDict => (s, Err ValueError)
    | Ok LOther => (s, Err AttributeError)
    end.
  Definition fails (r : result unit) : option failure := match r with Ok _ => None | Err e => Some (Raised e) end.
  (** model.py 640-647 *)
  Definition from_disk (s : sstate) (root : addr) (path : string) (fs : files) : sstate * option failure :=
    match read fs path with
    | inl b => let (s, r) := from_bytes s root b in (s, fails r)
    | inr e => (s, Some e)
    end.
  (** model.py 691-700, with 707-708 *)
  Definition can_from_bytes (strict : bool) (s : sstate) (root : addr) (b : B) : result bool :=
    match loads b with
    | Err ValueError => Ok false
    | Err e => Err e
    | Ok (LMsg msg) => can_from_dict serialize_attr shape strict s root msg
    | Ok LDict => Ok false
    | Ok LOther => Err AttributeError
    end.
  (** model.py 679-689 *)
  Definition can_from_disk (strict : bool) (s : sstate) (root : addr) (path : string) (fs : files) : result bool :=
    match dget path fs with
    | Some (File b) => can_from_bytes strict s root b
    | _ => Ok false
    end.

  (** shim.py 58-68; [to_bytes] and [from_bytes] are those of the shim *)
  Variable shim_to_bytes : S -> result B.
  Variable shim_from_bytes : S -> B -> S * result unit.
  Definition shim_to_disk (x : S) (path : string) (fs : files) : files * option failure :=
    match shim_to_bytes x with
    | Err e => (fs, Some (Raised e))
    | Ok b => match open_wb fs path with
              | (fs, Some e) => (fs, Some e)
              | (fs, None) => (dset path (File b) fs, None)
              end
    end.
  Definition shim_from_disk (x : S) (path : string) (fs : files) : S * option failure :=
    match read fs path with
    | inl b => let (x, r) := shim_from_bytes x b in (x, fails r)
    | inr e => (x, Some e)
    end.
End Disk.
