(** Model of skyfield/vectorlib.py and of the kernel lookup in skyfield/jpllib.py.
    Positions and velocities are vectors of real numbers; a body is an integer
    code (an object used as a target, such as a ground station, is a code of its
    own). *)
From Coq Require Import List ZArith Reals Bool.
Import ListNotations.
Open Scope R_scope.

Record vec := V3 { vx : R; vy : R; vz : R }.
Definition vzero : vec := V3 0 0 0.
Definition vadd (a b : vec) : vec := V3 (vx a + vx b) (vy a + vy b) (vz a + vz b).
Definition vopp (a : vec) : vec := V3 (- vx a) (- vy a) (- vz a).
Definition vsub (a b : vec) : vec := V3 (vx a - vx b) (vy a - vy b) (vz a - vz b).
(** functions.py 50-57, [length_of]. *)
Definition vlength (a : vec) : R := sqrt (vx a * vx a + vy a * vy a + vz a * vz a).

(** The result of [_at]: position, velocity, the extra geocentric position, and
    the message. [None]: an exception. *)
Definition result := option (vec * vec * option vec * option nat)%type.

(** vectorlib.py: a vector function is a leaf such as a segment or a station with
    its own [_at]; a [ReversedVector] (106-129); or a [VectorSum] (131-165). *)
Inductive vf :=
| Leaf (c t : Z) (at_ : R -> result)
| Reversed (v : vf)
| Sum (c t : Z) (l : list vf).
Fixpoint center (v : vf) : Z := match v with Leaf c _ _ => c | Reversed v => target v | Sum c _ _ => c end
with target (v : vf) : Z := match v with Leaf _ t _ => t | Reversed v => center v | Sum _ t _ => t end.

(** vectorlib.py 57-58 and 124-125, [__neg__]. *)
Definition neg (v : vf) : vf := match v with Reversed w => w | _ => Reversed v end.
(** [getattr(self, 'vector_functions', None) or (self,)]; an empty tuple is false. *)
Definition parts (v : vf) : list vf := match v with Sum _ _ (x :: l) => x :: l | _ => [v] end.
(** vectorlib.py 41-55, [__add__]; [None] is the ValueError. *)
Definition add (a b : vf) : option vf :=
  if Z.eqb (target a) (center b) then Some (Sum (center a) (target b) (parts a ++ parts b))
  else if Z.eqb (target b) (center a) then Some (Sum (center b) (target a) (parts b ++ parts a))
  else None.
(** vectorlib.py 60-71, [__sub__]. *)
Definition sub (a b : vf) : option vf :=
  if Z.eqb (center a) (center b)
  then Some (Sum (target b) (target a) (rev (map neg (parts b)) ++ parts a))
  else None.

(** vectorlib.py 151-165, the loop of [VectorSum._at]: running position and
    velocity, geocentric position, message, and the last position and center. *)
Record progress := { p_pos : vec; p_vel : vec; p_gcrs : option vec; p_msg : option nat; p_last : vec; p_center : Z }.
Definition earth : Z := 399%Z.
Definition sum_step (acc : option progress) (c : Z) (r : result) : option progress :=
  match acc, r with
  | Some a, Some (p2, v2, _, m) =>
      Some {| p_pos := vadd (p_pos a) p2; p_vel := vadd (p_vel a) v2;
              p_gcrs := if Z.eqb c earth then Some (vopp (p_pos a)) else p_gcrs a;
              p_msg := m; p_last := p2; p_center := c |}
  | _, _ => None
  end.
Definition sum_start : progress :=
  {| p_pos := vzero; p_vel := vzero; p_gcrs := None; p_msg := None; p_last := vzero; p_center := 0%Z |}.
Definition sum_result (first : option Z) (acc : option progress) : result :=
  match first, acc with
  | Some c0, Some a =>
      Some (p_pos a, p_vel a,
            if Z.eqb c0 0 && Z.eqb (p_center a) earth then Some (p_last a) else p_gcrs a,
            p_msg a)
  | _, _ => None     (* [vfs[0]] of an empty tuple raises IndexError *)
  end.
(** [_at] of each class. *)
Fixpoint at_ (v : vf) (t : R) : result :=
  match v with
  | Leaf _ _ f => f t
  | Reversed w => match at_ w t with Some (p, u, _, m) => Some (vopp p, vopp u, None, m) | None => None end
  | Sum _ _ l =>
      sum_result (option_map center (hd_error l))
        ((fix go (acc : option progress) (l : list vf) : option progress :=
            match l with [] => acc | w :: l => go (sum_step acc (center w) (at_ w t)) l end)
           (Some sum_start) l)
  end.

(** ** Kernels *)

(** jpllib.py 198-220: a segment; [covers] is [start_jd <= tdb <= end_jd] and
    [compute] is [_at], which raises outside the coverage. *)
Record segment := { s_center : Z; s_target : Z; s_start : R; s_end : R; compute : R -> option (vec * vec) }.
(** jpllib.py 246-258, [Stack.__init__]. *)
Definition stack_segments (l : list segment) : list segment :=
  match l with [] => [] | s :: _ => filter (fun x => Z.eqb (s_center x) (s_center s)) l end.
Definition coversb (s : segment) (t : R) : bool :=
  if Rle_dec (s_start s) t then if Rle_dec t (s_end s) then true else false else false.
(** jpllib.py 260-266, [Stack._at] for one time: the last covering segment, and
    when there is none the loop variable is left at the first segment. *)
Fixpoint stack_pick (reversed_ : list segment) (t : R) (last : option segment) : option segment :=
  match reversed_ with
  | [] => last
  | s :: l => if coversb s t then Some s else stack_pick l t (Some s)
  end.
Definition stack_scalar (l : list segment) (t : R) : option (vec * vec) :=
  match stack_pick (rev l) t None with Some s => compute s t | None => None end.
(** jpllib.py 268-283, [Stack._at] for an array of times. An entry [None] of the
    result is nan; the outer [None] is an exception. *)
Fixpoint stack_fill (s : segment) (ts : list R) (acc : list (option (vec * vec))) : option (list (option (vec * vec))) :=
  match ts, acc with
  | t :: ts, a :: acc =>
      match stack_fill s ts acc with
      | None => None
      | Some rest =>
          if coversb s t then match compute s t with Some pv => Some (Some pv :: rest) | None => None end
          else Some (a :: rest)
      end
  | _, _ => Some []
  end.
Definition stack_array (l : list segment) (ts : list R) : option (list (option (vec * vec))) :=
  fold_left (fun acc s => match acc with Some a => stack_fill s ts a | None => None end) l (Some (map (fun _ => None) ts)).

(** What a lookup returns: a lone segment or stack, or a sum of them. *)
Inductive part := Lone (s : segment) | Stacked (l : list segment).
Definition part_center (p : part) : option Z :=
  match p with Lone s => Some (s_center s) | Stacked l => option_map s_center (hd_error l) end.
Definition part_target (p : part) : option Z :=
  match p with Lone s => Some (s_target s) | Stacked l => option_map s_target (hd_error l) end.
Inductive looked_up := KeyError | One (p : part) | Chain (c t : Z) (l : list part).
Definition find_part (segments : list segment) (code : Z) : option part :=
  match filter (fun s => Z.eqb (s_target s) code) segments with
  | [] => None
  | [s] => Some (Lone s)
  | l => Some (Stacked (stack_segments l))
  end.
(** jpllib.py 111-115 and 159-162, [codes] and the membership test of [decode]. *)
Definition in_codes (segments : list segment) (code : Z) : bool :=
  existsb (fun s => Z.eqb (s_center s) code || Z.eqb (s_target s) code) segments.
(** jpllib.py 165-189, [__getitem__]: the parts found so far, from the target
    inward. [None]: out of fuel. *)
Fixpoint climb (fuel : nat) (segments : list segment) (c : Z) (found : list part) : option (option (list part)) :=
  if Z.eqb c 0 then Some (Some found)
  else match fuel with
       | O => None
       | S fuel =>
           match find_part segments c with
           | None => Some None
           | Some p => match part_center p with
                       | Some c' => climb fuel segments c' (p :: found)
                       | None => Some None
                       end
           end
       end.
Definition lookup (fuel : nat) (segments : list segment) (code : Z) : option looked_up :=
  if in_codes segments code
  then match climb fuel segments code [] with
       | None => None
       | Some None => Some KeyError
       | Some (Some [p]) => Some (One p)
       | Some (Some l) => Some (Chain 0 code l)
       end
  else Some KeyError.

(** The vector function of a part and of a lookup. *)
Definition at_part (p : part) (t : R) : result :=
  match (match p with Lone s => compute s t | Stacked l => stack_scalar l t end) with
  | Some (p, v) => Some (p, v, None, None)
  | None => None
  end.
Definition part_vf (p : part) : vf :=
  Leaf (match part_center p with Some c => c | None => 0%Z end) (match part_target p with Some c => c | None => 0%Z end) (at_part p).
Definition lookup_vf (r : looked_up) : option vf :=
  match r with
  | KeyError => None
  | One p => Some (part_vf p)
  | Chain c t l => Some (Sum c t (map part_vf l))
  end.

(** ** Light time *)

(** vectorlib.py 167-205, [_correct_for_light_travel_time], for an array of
    observations. One entry of the array: the distance from the observer to the
    target as a function of the moment (TDB) at which the target is placed, the
    moment of observation, the moment at which the target is placed now, and the
    previous light time. [c] is C_AUDAY. *)
Record lane := { dist : R -> R; moment : R; placed : R; before : R }.
Definition lane_lt (c : R) (l : lane) : R := dist l (placed l) / c.
Definition lane_small (c : R) (l : lane) : bool :=
  if Rlt_dec (Rabs (lane_lt c l - before l)) (1 / 1000000000000) then true else false.
Definition lane_next (c : R) (l : lane) : lane :=
  {| dist := dist l; moment := moment l; placed := moment l - lane_lt c l; before := lane_lt c l |}.
(** The loop; [None] is the ValueError. *)
Fixpoint lt_loop (c : R) (n : nat) (ls : list lane) : option (list lane) :=
  match n with
  | O => None
  | S n => if forallb (lane_small c) ls then Some ls else lt_loop c n (map (lane_next c) ls)
  end.
Definition lane_start (x : (R -> R) * R) : lane :=
  {| dist := fst x; moment := snd x; placed := snd x; before := 0 |}.
(** The returned light times and the moments at which the targets were placed. *)
Definition light_times (c : R) (obs : list ((R -> R) * R)) : option (list (R * R)) :=
  option_map (map (fun l => (lane_lt c l, placed l))) (lt_loop c 10 (map lane_start obs)).
(** The distance function of an observer at [o] and a target on trajectory [X]. *)
Definition distance (o : vec) (X : R -> vec) (t : R) : R := vlength (vsub (X t) o).
