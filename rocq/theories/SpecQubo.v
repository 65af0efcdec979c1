(** * SpecQubo: what the claims about the conversion say (C16, C24-C34)

    Only the data types of the converters are used here, not their functions. *)

From Coq Require Import List String ZArith QArith Bool.
From Verif Require Import Base Pulp Converters.
Import ListNotations.
Open Scope string_scope.
Open Scope list_scope.

(** ** C16 *)

Definition starts_with (pre s : string) : Prop := exists rest, s = (pre ++ rest)%string.

(** The six rules *)
Definition rule_names : list string :=
  ["minimal_span"; "minimal_stay"; "single_line"; "track_occupation"; "circulation"; "switch"].

(** From [p] to [p'] only constraints named after the rule were added, at the end *)
Definition adds_rule (rule : string) (p p' : lpproblem) : Prop :=
  exists l, p_constraints p' = p_constraints p ++ l /\
    forall n c, In (n, c) l -> starts_with (rule ++ "_") n.

(** ** Problems *)

(** The variables written in the objective or in a constraint *)
Definition occurs (p : lpproblem) (v : lpvar) : Prop :=
  In v (aff_vars (p_objective p)) \/
  exists n c, In (n, c) (p_constraints p) /\ In v (aff_vars (c_aff c)).

(** Variables of one name have one range. *)
Definition consistent (p : lpproblem) : Prop :=
  forall v w, occurs p v -> occurs p w -> v_name v = v_name w ->
    v_lo v = v_lo w /\ v_up v = v_up w /\ v_cat v = v_cat w.

(** Constraints have distinct names, none of them the name of a variable. *)
Definition apart (p : lpproblem) : Prop :=
  NoDup (dkeys (p_constraints p)) /\
  forall v n, occurs p v -> In n (dkeys (p_constraints p)) -> v_name v <> n.

(** Different variables have different names. *)
Definition names_distinct (p : lpproblem) : Prop :=
  forall v w, occurs p v -> occurs p w -> v_name v = v_name w -> v_id v = v_id w.

(** All coefficients are integers. *)
Definition integer_coefficients (p : lpproblem) : Prop :=
  forall n c, In (n, c) (p_constraints p) ->
    is_int (a_const (c_aff c)) /\ forall v q, In (v, q) (a_terms (c_aff c)) -> is_int q.

(** Bounds and integrality, without the constraints *)
Definition in_range (p : lpproblem) (x : assignment) : Prop :=
  forall v, In v (variables p) -> var_ok v (x (v_id v)).

(** ** Samples *)

(** The bits as numbers *)
Definition bit (s : bits) (label : string) : Q :=
  match dget label s with Some true => 1 | _ => 0 end.

(** A sample of a binary quadratic model: a value for each of its variables *)
Definition sample_of (b : bqm) (s : bits) : Prop :=
  NoDup (dkeys s) /\ forall k, In k (dkeys s) <-> In k (dkeys (b_linear b)).

(** Energy of a sample: offset, linear and quadratic part *)
Definition energy (b : bqm) (s : bits) : Q :=
  b_offset b
  + qsum (map (fun t => snd t * bit s (fst t)) (b_linear b))
  + qsum (map (fun t => snd t * (bit s (fst (fst t)) * bit s (snd (fst t)))) (b_quadratic b)).

(** A decoded sample (values by name) as an assignment of the variables of a problem *)
Definition values (d : dict string Q) : assignment :=
  fun i => match dget (id_name i) d with Some q => q | None => 0 end.

(** Value of a linear form *)
Definition lin_value (a : lin) (f : string -> Q) : Q :=
  qsum (map (fun t => snd t * f (fst t)) (l_terms a)) + l_off a.

(** ** Penalties (C25, C26, C27) *)

Definition weight (pdict : dict string Q) (name : string) : Q :=
  match dget name pdict with Some q => q | None => 0 end.

(** The rule a constraint belongs to, read off its name *)
Definition rule_of (n : string) : string :=
  match find (fun r => String.prefix (r ++ "_") n) rule_names with Some r => r | None => "" end.

(** What is left of a constraint when the slack is added (or subtracted) *)
Definition defect (c : constr) (x : assignment) (slack : Z) : Q :=
  match c_sense c with
  | LE => eval (c_aff c) x + inject_Z slack
  | EQ => eval (c_aff c) x
  | GE => eval (c_aff c) x - inject_Z slack
  end.

Definition penalties (p : lpproblem) (pdict : dict string Q) (x : assignment) (slack : string -> Z) : Q :=
  qsum (map (fun nc => weight pdict (rule_of (fst nc)) *
                       (defect (snd nc) x (slack (fst nc)) * defect (snd nc) x (slack (fst nc))))
         (p_constraints p)).

(** ** Decoded samples (C24, C29) *)

(** The number that bits numbered from 0 stand for, between [lo] and [lo + span]: all but the last bit count
    powers of two, the last one the rest of the span. *)
Definition encoded_number (lo span : Z) (bit_no : nat -> Q) : Q :=
  let last := Z.to_nat (Z.log2 span) in
  inject_Z lo + qsum (map (fun i => inject_Z (2 ^ Z.of_nat i) * bit_no i) (seq 0 last))
  + inject_Z (span - (2 ^ Z.of_nat last - 1)) * bit_no last.

(** [q] is the value of variable [v] in a sample: the bit named like the variable if it ranges over 0 and 1,
    otherwise the number its bits name[0], name[1], ... stand for. *)
Definition encodes (s : bits) (v : lpvar) (q : Q) : Prop :=
  exists lo up : Z,
    (exists l u, v_lo v = Some l /\ v_up v = Some u /\ l == inject_Z lo /\ u == inject_Z up) /\
    ((lo = 0%Z /\ up = 1%Z /\ q == bit s (v_name v)) \/
     (~ (lo = 0%Z /\ up = 1%Z) /\ (lo < up)%Z /\
      q == encoded_number lo (up - lo) (fun i => bit s (v_name v ++ "[" ++ str_of_Z (Z.of_nat i) ++ "]")%string))).

(** [d] gives exactly the variables of [p] the values they have in the sample, and these are in range. *)
Definition decoded (p : lpproblem) (s : bits) (d : dict string Q) : Prop :=
  NoDup (dkeys d) /\
  (forall k, In k (dkeys d) <-> exists v, In v (variables p) /\ k = v_name v) /\
  (forall v, In v (variables p) -> exists q, dget (v_name v) d = Some q /\ encodes s v q /\ var_ok v q).

(** Rows in nondecreasing order of a key *)
Definition ordered_by {A : Type} (key : A -> Q) (l : list A) : Prop :=
  forall l1 x l2 y l3, l = l1 ++ x :: l2 ++ y :: l3 -> key x <= key y.

(** ** Accepted problems (C54) *)

(** A constraint holds with something to spare *)
Definition holds_strictly (c : constr) (x : assignment) : Prop :=
  match c_sense c with
  | LE => eval (c_aff c) x < 0
  | EQ => eval (c_aff c) x == 0
  | GE => 0 < eval (c_aff c) x
  end.

(** Every inequality, taken alone, can hold with something to spare for values in range. *)
Definition leaves_room (p : lpproblem) : Prop :=
  forall n c, In (n, c) (p_constraints p) -> c_sense c <> EQ -> exists x, in_range p x /\ holds_strictly c x.

(** A value is given for each of the six rules and the objective. *)
Definition all_penalties (pdict : dict string Q) : Prop :=
  forall r, In r ("objective" :: rule_names) -> In r (dkeys pdict).

(** The slack of a constraint in a sample: the number its bits stand for, counted from 0 *)
Definition slack_of (s : bits) (n : string) (z : Z) : Prop :=
  exists span, (0 < span)%Z /\ (0 <= z <= span)%Z /\
    inject_Z z == encoded_number 0 span (fun i => bit s (n ++ "[" ++ str_of_Z (Z.of_nat i) ++ "]")%string).

(** A sample of lowest energy *)
Definition ground (b : bqm) (s : bits) : Prop :=
  sample_of b s /\ forall s', sample_of b s' -> energy b s <= energy b s'.

(** A feasible assignment no other one improves on *)
Definition optimal (p : lpproblem) (x : assignment) : Prop :=
  feasible p x /\ forall x', feasible p x' -> obj_value p x <= obj_value p x'.
