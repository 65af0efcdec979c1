(** * Pulp: the part of PuLP 2.5.1 that /repo uses

    PuLP is a dependency of /repo, not part of it, and is not installed here.  This file
    models its documented behaviour; it belongs to the trusted base (DESIGN.md). *)

From Coq Require Import List String Ascii ZArith QArith Bool.
From Verif Require Import Base.
Import ListNotations.
Open Scope string_scope.

(** Variable categories.  [cat="Binary"] is stored by PuLP as Integer with bounds 0, 1. *)
Inductive vcat : Type := Integer | Continuous.

(** [pulp.LpVariable].  [LpVariable.dicts(prefix, ([a], [b], ...))] creates one object whose
    name is prefix_a_b_...; [LpVariable(name)] is the case of an empty index list.  Objects are
    compared by identity in PuLP; the code creates at most one object per (prefix, indices),
    so this pair is used as the identity. *)
Record lpvar : Type := MkVar {
  v_prefix : string;
  v_index : list pv;
  v_lo : option Q;
  v_up : option Q;
  v_cat : vcat }.

Definition vid : Type := (string * list pv)%type.
Definition v_id (v : lpvar) : vid := (v_prefix v, v_index v).

(** Characters PuLP replaces by an underscore in names: minus, plus, brackets, space,
    greater-than, slash ([LpElement.illegal_chars]). *)
Definition sanitize_char (c : ascii) : ascii :=
  match c with
  | "-"%char | "+"%char | "["%char | "]"%char | " "%char | ">"%char | "/"%char => "_"%char
  | _ => c
  end.

Definition sanitize (s : string) : string := smap sanitize_char s.

(** [v.name] *)
Definition v_name (v : lpvar) : string :=
  sanitize (join_us (v_prefix v :: map str (v_index v))).

(** [pulp.LpAffineExpression]: coefficients per variable and a constant *)
Record aff : Type := MkAff { a_terms : list (lpvar * Q); a_const : Q }.

Definition aff_const (c : Q) : aff := MkAff [] c.
Definition aff_var (v : lpvar) : aff := MkAff [(v, 1)] 0.

(** [LpAffineExpression.addterm]: coefficients of the same variable are merged *)
Fixpoint addterm (v : lpvar) (q : Q) (l : list (lpvar * Q)) : list (lpvar * Q) :=
  match l with
  | [] => [(v, q)]
  | (w, r) :: t => if eq_dec (v_id v) (v_id w) then (w, r + q) :: t else (w, r) :: addterm v q t
  end.

Definition add_terms (l m : list (lpvar * Q)) : list (lpvar * Q) :=
  fold_left (fun acc vq => addterm (fst vq) (snd vq) acc) m l.

Definition aff_add (a b : aff) : aff :=
  MkAff (add_terms (a_terms a) (a_terms b)) (a_const a + a_const b).

Definition scale_terms (k : Q) (l : list (lpvar * Q)) : list (lpvar * Q) :=
  map (fun vq => (fst vq, k * snd vq)) l.

Definition aff_scale (k : Q) (a : aff) : aff :=
  MkAff (scale_terms k (a_terms a)) (k * a_const a).

Definition aff_sub (a b : aff) : aff := aff_add a (aff_scale (-1) b).

(** An assignment of values to variables, and the value of an expression under it *)
Definition assignment : Type := vid -> Q.

Definition eval_terms (l : list (lpvar * Q)) (x : assignment) : Q :=
  qsum (map (fun vq => snd vq * x (v_id (fst vq))) l).

Definition eval (a : aff) (x : assignment) : Q := eval_terms (a_terms a) x + a_const a.

(** [pulp.LpConstraint]: expression compared with 0 *)
Inductive sense : Type := LE | EQ | GE.

Record constr : Type := MkConstr { c_aff : aff; c_sense : sense }.

(** [lhs >= rhs] and [lhs == rhs] on expressions *)
Definition mk_ge (lhs rhs : aff) : constr := MkConstr (aff_sub lhs rhs) GE.
Definition mk_eq (lhs rhs : aff) : constr := MkConstr (aff_sub lhs rhs) EQ.

Definition holds (c : constr) (x : assignment) : Prop :=
  match c_sense c with
  | LE => eval (c_aff c) x <= 0
  | EQ => eval (c_aff c) x == 0
  | GE => 0 <= eval (c_aff c) x
  end.

(** [pulp.LpProblem] (minimisation): named constraints in insertion order and an objective *)
Record lpproblem : Type := MkProb {
  p_constraints : dict string constr;
  p_objective : aff }.

Definition empty_problem : lpproblem := MkProb [] (aff_const 0).

(** Characters PuLP replaces by an underscore in names of constraints: minus, plus, brackets, space
    ([LpAffineExpression.trans], a shorter list than that for variables). *)
Definition cname_char (c : ascii) : ascii :=
  match c with
  | "-"%char | "+"%char | "["%char | "]"%char | " "%char => "_"%char
  | _ => c
  end.

Definition constraint_name (s : string) : string := smap cname_char s.

(** [problem += constraint, name]: a name already in use raises PulpError (noOverlap) *)
Definition add_constraint (p : lpproblem) (name : string) (c : constr) : res lpproblem :=
  let n := constraint_name name in
  if dmem n (p_constraints p) then Err PulpError
  else Ok (MkProb (p_constraints p ++ [(n, c)])%list (p_objective p)).

(** [problem += expression] *)
Definition set_objective (p : lpproblem) (a : aff) : lpproblem :=
  MkProb (p_constraints p) a.

(** [problem.variables()]: every variable occurring in the objective or in a constraint
    (PuLP additionally sorts them stably by name; the order is observed by /repo only through
    first-match searches by name, which stable sorting does not change). *)
Definition vmem (v : vid) (l : list lpvar) : bool := lmem v (map v_id l).

Fixpoint add_vars (new acc : list lpvar) : list lpvar :=
  match new with
  | [] => acc
  | v :: r => add_vars r (if vmem (v_id v) acc then acc else (acc ++ [v])%list)
  end.

Definition aff_vars (a : aff) : list lpvar := map fst (a_terms a).

Definition variables (p : lpproblem) : list lpvar :=
  fold_left (fun acc nc => add_vars (aff_vars (c_aff (snd nc))) acc)
    (p_constraints p) (add_vars (aff_vars (p_objective p)) []).

(** Bounds and integrality of one variable *)
Definition is_int (q : Q) : Prop := exists z : Z, q == inject_Z z.

Definition var_ok (v : lpvar) (x : Q) : Prop :=
  (forall lo, v_lo v = Some lo -> lo <= x) /\
  (forall up, v_up v = Some up -> x <= up) /\
  (v_cat v = Integer -> is_int x).

(** A feasible assignment of a problem: constraints, bounds and integrality *)
Definition feasible (p : lpproblem) (x : assignment) : Prop :=
  (forall name c, In (name, c) (p_constraints p) -> holds c x) /\
  (forall v, In v (variables p) -> var_ok v (x (v_id v))).

(** Value of the objective *)
Definition obj_value (p : lpproblem) (x : assignment) : Q := eval (p_objective p) x.
