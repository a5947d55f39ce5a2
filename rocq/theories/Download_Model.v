(** Model of [download] in skyfield/iokit.py as a transition system.

    The file system is a directory of names that point to numbered files, plus
    the bytes of each file. Every system call is one atomic step. Any number of
    processes run [download] on the same destination path, interleaved in any
    order. A process that stops taking steps has been killed; a process may
    also fail at any step that can raise.

    Not modelled: loss of data already handed to the operating system (no
    power failure), other programs writing in the directory, and directories as
    objects (a name is the whole path). *)
From Coq Require Import List Ascii String Decimal DecimalString Arith.
Import ListNotations.
Open Scope bool_scope.
Open Scope list_scope.

Definition bytes := list ascii.
Definition name := list ascii.
Definition chars (s : string) : name := list_ascii_of_string s.
(** [format] of a non-negative integer. *)
Definition decimal (n : nat) : name := chars (NilZero.string_of_uint (Nat.to_uint n)).

(** iokit.py 514-526: the temporary names tried in turn, [path.download],
    [path.download2], [path.download3] and so on. *)
Definition temp_name (path : name) (i : nat) : name :=
  let tempbase := path ++ chars ".download" in
  if Nat.eqb i 1 then tempbase else tempbase ++ decimal i.

(** [path.rsplit('.', 1)]: [None] when there is no dot, and then the tuple
    assignment in [_rename_original] raises ValueError. *)
Fixpoint rsplit (path : name) : option (name * name) :=
  match path with
  | [] => None
  | c :: r => match rsplit r with
              | Some (prefix, suffix) => Some (c :: prefix, suffix)
              | None => if Ascii.eqb c "."%char then Some ([], r) else None
              end
  end.

(** iokit.py 554-560, [_rename_original]: the backup names tried in turn. *)
Definition old_name (prefix suffix : name) (n : nat) : name :=
  prefix ++ chars ".old" ++ decimal n ++ chars "." ++ suffix.
Definition backup_name (path : name) (n : nat) : option name :=
  match rsplit path with
  | Some (prefix, suffix) => Some (old_name prefix suffix n)
  | None => None
  end.

(** The file system. *)
Record files := { dir : name -> option nat; data : nat -> bytes; fresh : nat }.
Definition name_eqb (a b : name) : bool := if list_eq_dec ascii_dec a b then true else false.
Definition set_name (d : name -> option nat) (n : name) (v : option nat) : name -> option nat :=
  fun m => if name_eqb m n then v else d m.
Definition set_data (d : nat -> bytes) (i : nat) (v : bytes) : nat -> bytes :=
  fun j => if Nat.eqb j i then v else d j.
Definition exists_ (fs : files) (n : name) : bool := match dir fs n with Some _ => true | None => false end.
(** What a reader of the name sees. *)
Definition content_of (fs : files) (n : name) : option bytes :=
  match dir fs n with Some i => Some (data fs i) | None => None end.
(** [os.open] with O_CREAT and O_EXCL, when the name is free. *)
Definition create (fs : files) (n : name) : files :=
  {| dir := set_name (dir fs) n (Some (fresh fs)); data := set_data (data fs) (fresh fs) []; fresh := S (fresh fs) |}.
Definition append (fs : files) (i : nat) (b : bytes) : files :=
  {| dir := dir fs; data := set_data (data fs) i (data fs i ++ b); fresh := fresh fs |}.
(** [os.rename] and [os.replace] when the source exists: any file already under
    the new name is unlinked, in the same atomic step. *)
Definition rename (fs : files) (a b : name) : files :=
  {| dir := set_name (set_name (dir fs) b (dir fs a)) a None; data := data fs; fresh := fresh fs |}.

(** Where a process is in [download]. *)
Inductive pc :=
| Start                                            (* before urlopen *)
| Claim (i : nat)                                  (* 518-526, about to try the i-th temporary name *)
| Reading (tmp : name) (ino : nat) (rest buf : bytes)
    (* 530-541: [rest] is still to come from the server, [buf] is written but
       still in the buffer of the Python file object *)
| Downloaded (tmp : name)                          (* 547, before os.path.exists *)
| Searching (tmp : name) (n : nat)                 (* 556-558 *)
| Moving (tmp : name) (target : name)              (* 560, before os.rename *)
| Replacing (tmp : name)                           (* 552, before os.replace *)
| Done
| Failed.

(** The parameters of one call: the complete content on the server and the
    [backup] flag. *)
Record call := { body : bytes; backup : bool }.

(** One step of one process. With [honest = false] the connection may end early:
    [read] then returns no data and raises nothing. *)
Inductive step (honest : bool) (path : name) (c : call) : files * pc -> files * pc -> Prop :=
| s_connect fs : step honest path c (fs, Start) (fs, Claim 1)
| s_connect_fails fs : step honest path c (fs, Start) (fs, Failed)
| s_claim fs i : exists_ fs (temp_name path i) = false ->
    step honest path c (fs, Claim i)
      (create fs (temp_name path i), Reading (temp_name path i) (fresh fs) (body c) [])
| s_claim_taken fs i : exists_ fs (temp_name path i) = true ->
    step honest path c (fs, Claim i) (fs, Claim (S i))
| s_claim_fails fs i : step honest path c (fs, Claim i) (fs, Failed)
| s_read fs tmp ino chunk rest buf : chunk <> [] ->
    step honest path c (fs, Reading tmp ino (chunk ++ rest) buf) (fs, Reading tmp ino rest (buf ++ chunk))
| s_write fs tmp ino rest b1 b2 :
    step honest path c (fs, Reading tmp ino rest (b1 ++ b2)) (append fs ino b1, Reading tmp ino rest b2)
| s_read_fails fs tmp ino rest buf : step honest path c (fs, Reading tmp ino rest buf) (fs, Failed)
| s_eof fs tmp ino rest buf : (honest = true -> rest = []) ->
    step honest path c (fs, Reading tmp ino rest buf) (append fs ino buf, Downloaded tmp)
| s_no_backup fs tmp : exists_ fs path && backup c = false ->
    step honest path c (fs, Downloaded tmp) (fs, Replacing tmp)
| s_backup fs tmp : exists_ fs path && backup c = true ->
    step honest path c (fs, Downloaded tmp) (fs, Searching tmp 1)
| s_backup_taken fs tmp n b : backup_name path n = Some b -> exists_ fs b = true ->
    step honest path c (fs, Searching tmp n) (fs, Searching tmp (S n))
| s_backup_free fs tmp n b : backup_name path n = Some b -> exists_ fs b = false ->
    step honest path c (fs, Searching tmp n) (fs, Moving tmp b)
| s_backup_nodot fs tmp n : backup_name path n = None ->
    step honest path c (fs, Searching tmp n) (fs, Failed)
| s_move fs tmp b : exists_ fs path = true ->
    step honest path c (fs, Moving tmp b) (rename fs path b, Replacing tmp)
| s_move_fails fs tmp b : step honest path c (fs, Moving tmp b) (fs, Failed)
| s_replace fs tmp : exists_ fs tmp = true ->
    step honest path c (fs, Replacing tmp) (rename fs tmp path, Done)
| s_replace_fails fs tmp : step honest path c (fs, Replacing tmp) (fs, Failed).

(** Process number [i] is the call [calls i]. There is no bound on the number of
    processes; those that never leave [Start] do not matter. *)
Definition world := (files * (nat -> pc))%type.
Definition set_pc (s : nat -> pc) (i : nat) (v : pc) : nat -> pc := fun j => if Nat.eqb j i then v else s j.
Inductive run (honest : bool) (path : name) (calls : nat -> call) : world -> world -> Prop :=
| run_refl w : run honest path calls w w
| run_step w fs s i fs' v :
    run honest path calls w (fs, s) -> step honest path (calls i) (fs, s i) (fs', v) ->
    run honest path calls w (fs', set_pc s i v).

(** A directory with no hard links, in which new files get new numbers. *)
Definition sane (fs : files) : Prop :=
  (forall a b i, dir fs a = Some i -> dir fs b = Some i -> a = b) /\
  (forall a i, dir fs a = Some i -> i < fresh fs).
Definition idle : nat -> pc := fun _ => Start.
