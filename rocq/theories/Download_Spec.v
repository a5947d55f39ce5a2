(** Vocabulary for the download properties. *)
From Coq Require Import List Ascii String Arith.
From Verif Require Import Download_Model.
Import ListNotations.
Open Scope list_scope.

(** The temporary file that a process is working on. *)
Definition held (s : pc) : option name :=
  match s with
  | Reading t _ _ _ | Downloaded t | Searching t _ | Moving t _ | Replacing t => Some t
  | _ => None
  end.

(** One process on its own, stopped anywhere. *)
Inductive alone (honest : bool) (path : name) (c : call) : files * pc -> files * pc -> Prop :=
| alone_refl x : alone honest path c x x
| alone_step x y z : alone honest path c x y -> step honest path c y z -> alone honest path c x z.

(** Downloads one after the other, each ended, failed or killed before the next. *)
Inductive in_turn (honest : bool) (path : name) : files -> list call -> files -> Prop :=
| turn_none fs : in_turn honest path fs [] fs
| turn_more fs c s fs1 cs fs2 : alone honest path c (fs, Start) (fs1, s) ->
    in_turn honest path fs1 cs fs2 -> in_turn honest path fs (c :: cs) fs2.

(** The content is still available: at the path or under an old-numbered name. *)
Definition available (fs : files) (path : name) (v : bytes) : Prop :=
  content_of fs path = Some v \/ exists n b, backup_name path n = Some b /\ content_of fs b = Some v.
