(** * Converters: model of converter_bqm.py and converter_cqm.py
    (railway_solvers/railway_solvers/)

    PyQUBO 1.3.1 and dimod 0.12.3 are dependencies of /repo and not installed here; the parts used are
    modelled from their documented behaviour and belong to the trusted base (DESIGN.md). *)

From Coq Require Import List String Ascii ZArith QArith Qround Bool.
From Verif Require Import Base Pulp.
Import ListNotations.
Open Scope string_scope.
Open Scope list_scope.

(** ** Linear forms over named variables *)

(** A sum of coefficient times variable, plus an offset; variables of PyQUBO and dimod are identified by
    their label. *)
Record lin : Type := MkLin { l_terms : list (string * Q); l_off : Q }.

Definition lin_scale (k : Q) (a : lin) : lin :=
  MkLin (map (fun t => (fst t, k * snd t)) (l_terms a)) (k * l_off a).
Definition lin_add (a b : lin) : lin := MkLin (l_terms a ++ l_terms b) (l_off a + l_off b).
Definition lin_const (c : Q) : lin := MkLin [] c.

(** The variable of a problem with its name: [var.name] depends on the identity only *)
Definition id_name (i : vid) : string := sanitize (join_us (fst i :: map str (snd i))).

(** [sum(val * vars_trans[var] for var, val in c.items())] *)
Definition translate (vars_trans : dict vid lin) (terms : list (lpvar * Q)) : res lin :=
  foldM (fun acc vq =>
           do t <- dlookup (v_id (fst vq)) vars_trans;
           Ok (lin_add acc (lin_scale (snd vq) t)))
    terms (lin_const 0).

(** Truth value of [model.objective]: a nonzero constant or at least one term *)
Definition has_objective (a : aff) : bool :=
  negb (Qeq_bool (a_const a) 0) || negb (Nat.eqb (List.length (a_terms a)) 0).

(** ** converter_cqm.py *)

(** _is_binary, converter_cqm.py:11-22 *)
Definition is_binary (v : lpvar) : bool :=
  match v_cat v with
  | Continuous => false
  | Integer =>
      match v_lo v, v_up v with
      | Some lo, Some up => Qeq_bool lo 0 && Qeq_bool up 1
      | _, _ => false
      end
  end.

(** A variable of a dimod constrained model: Binary, or Integer from 0 to a bound *)
Inductive cqm_type : Type :=
| CBinary
| CInteger (ub : Q).

Record cqm_constr : Type := MkCC { cc_lhs : lin; cc_sense : sense; cc_rhs : Q }.

Record cqm : Type := MkCqm {
  q_vars : dict string cqm_type;
  q_constraints : dict string cqm_constr;
  q_objective : lin }.

(** Types agree ([dimod] rejects a second declaration of a label with another type or bound) *)
Definition same_type (a b : cqm_type) : bool :=
  match a, b with
  | CBinary, CBinary => true
  | CInteger u, CInteger w => Qeq_bool u w
  | _, _ => false
  end.

Definition declare (name : string) (t : cqm_type) (d : dict string cqm_type) : res (dict string cqm_type) :=
  match dget name d with
  | None => Ok (d ++ [(name, t)])
  | Some t' => if same_type t' t then Ok d else Err ValueError
  end.

(** One pass of the loop converter_cqm.py:39-49.  Declarations are made here rather than at first use in a
    constraint or in the objective; every variable of [model.variables()] is used in one of them. *)
Definition cqm_var (acc : dict vid lin * dict string cqm_type) (v : lpvar)
  : res (dict vid lin * dict string cqm_type) :=
  let '(trans, decl) := acc in
  if is_binary v then
    do decl <- declare (v_name v) CBinary decl;
    Ok (dset (v_id v) (MkLin [(v_name v, 1)] 0) trans, decl)
  else
    match v_cat v with
    | Integer =>
        match v_lo v, v_up v with
        | Some lb, Some ub =>
            do decl <- declare (v_name v) (CInteger (ub - lb)) decl;
            Ok (dset (v_id v) (MkLin [(v_name v, 1)] lb) trans, decl)
        | _, _ => Err TypeError
        end
    | Continuous => Err AssertionError
    end.

(** One pass of the loop converter_cqm.py:52-61.  Without any term the comparison is a Python bool, which
    [add_constraint] rejects. *)
Definition cqm_constraint (trans : dict vid lin) (acc : dict string cqm_constr) (nc : string * constr)
  : res (dict string cqm_constr) :=
  let '(cname, c) := nc in
  do expr <- translate trans (a_terms (c_aff c));
  match a_terms (c_aff c) with
  | [] => Err TypeError
  | _ => Ok (acc ++ [(cname, MkCC expr (c_sense c) (- a_const (c_aff c)))])
  end.

(** convert_to_cqm, converter_cqm.py:25-75 *)
Definition convert_to_cqm (model : lpproblem) : res cqm :=
  do '(trans, decl) <- foldM cqm_var (variables model) ([], []);
  do cs <- foldM (cqm_constraint trans) (p_constraints model) [];
  if has_objective (p_objective model) then
    match a_terms (p_objective model) with
    | [] => Err TypeError
    | _ =>
        do obj <- translate trans (a_terms (p_objective model));
        Ok (MkCqm decl cs (lin_add (lin_const (a_const (p_objective model))) obj))
    end
  else Ok (MkCqm decl cs (lin_const 0)).

(** ** converter_bqm.py *)

(** _get_placeholder, converter_bqm.py:14-39 ([re.match] with a plain pattern tests the beginning) *)
Definition get_placeholder (cname : string) : res string :=
  if String.prefix "minimal_span_" cname then Ok "minimal_span"
  else if String.prefix "circulation_" cname then Ok "circulation"
  else if String.prefix "single_line_" cname then Ok "single_line"
  else if String.prefix "minimal_stay_" cname then Ok "minimal_stay"
  else if String.prefix "track_occupation_" cname then Ok "track_occupation"
  else if String.prefix "switch_" cname then Ok "switch"
  else if String.prefix "circulation_" cname then Ok "circulation"
  else Err ValueError.

(** The integer a rational is equal to, if any ([int(result) == result]) *)
Definition as_int (q : Q) : option Z :=
  let z := Qfloor q in
  if Qeq_bool q (inject_Z z) then Some z else None.

(** _get_slack_ub, converter_bqm.py:42-57; a missing bound raises TypeError in the product *)
Definition get_slack_ub (data : list (lpvar * Q)) (offset : Q) : res Z :=
  do ub <- foldM (fun acc vq =>
                    match (if qltb (snd vq) 0 then v_up (fst vq) else v_lo (fst vq)) with
                    | Some b => Ok (acc + snd vq * b)
                    | None => Err TypeError
                    end) data 0;
  match as_int (- (ub + offset)) with
  | Some z => Ok z
  | None => Err AssertionError
  end.

(** Label of bit [i] of an encoded integer ([pyqubo.Array.create]) *)
Definition bit_label (label : string) (i : nat) : string :=
  (label ++ "[" ++ str_of_Z (Z.of_nat i) ++ "]")%string.

(** [pyqubo.LogEncInteger(label, (lower, upper))]: int(log2(span)) + 1 bits, all but the last weighted by
    powers of two, the last one by the rest of the span.  (The library takes the logarithm in floating
    point.) *)
Definition log_bits (label : string) (span : Z) : list (string * Q) :=
  let d := Z.to_nat (Z.log2 span) in
  map (fun i => (bit_label label i, inject_Z (2 ^ Z.of_nat i))) (seq 0 d) ++
  [(bit_label label d, inject_Z (span - (2 ^ Z.of_nat d - 1)))].

Definition log_enc (label : string) (lower upper : Z) : res lin :=
  if (upper <=? lower)%Z then Err AssertionError
  else Ok (MkLin (log_bits label (upper - lower)) (inject_Z lower)).

(** The bounds of a variable: compared ([None] raises TypeError) and asserted to be integers *)
Definition log_enc_var (v : lpvar) : res lin :=
  match v_lo v, v_up v with
  | Some lb, Some ub =>
      match as_int lb, as_int ub with
      | Some l, Some u => log_enc (v_name v) l u
      | _, _ => Err AssertionError
      end
  | _, _ => Err TypeError
  end.

(** A summand of the PyQUBO expression: placeholder times a form, or times the square of a form *)
Inductive summand : Type :=
| Square (placeholder : string) (a : lin)
| Linear (placeholder : string) (a : lin).

(** A compiled model: the summands and the labelled sub-expressions (the encoded integers) *)
Record qmodel : Type := MkQModel { m_sum : list summand; m_sub : dict string lin }.

(** One pass of the loop converter_bqm.py:74-81 *)
Definition qubo_var (acc : dict vid lin * dict string lin) (v : lpvar)
  : res (dict vid lin * dict string lin) :=
  let '(trans, sub) := acc in
  match v_cat v with
  | Continuous => Err AssertionError
  | Integer =>
      if is_binary v then Ok (dset (v_id v) (MkLin [(v_name v, 1)] 0) trans, sub)
      else
        do a <- log_enc_var v;
        Ok (dset (v_id v) a trans, dset (v_name v) a sub)
  end.

(** One pass of the loop converter_bqm.py:84-103 *)
Definition qubo_constraint (trans : dict vid lin) (acc : list summand * dict string lin)
    (nc : string * constr) : res (list summand * dict string lin) :=
  let '(H, sub) := acc in
  let '(cname, c) := nc in
  do e <- translate trans (a_terms (c_aff c));
  let expr := lin_add e (lin_const (a_const (c_aff c))) in
  do ph <- get_placeholder cname;
  match c_sense c with
  | EQ => Ok (H ++ [Square ph expr], sub)
  | LE =>
      do ub <- get_slack_ub (a_terms (c_aff c)) (a_const (c_aff c));
      do slack <- log_enc cname 0 ub;
      Ok (H ++ [Square ph (lin_add expr slack)], dset cname slack sub)
  | GE =>
      do ub <- get_slack_ub (map (fun vq => (fst vq, - snd vq)) (a_terms (c_aff c))) (- a_const (c_aff c));
      do slack <- log_enc cname 0 ub;
      Ok (H ++ [Square ph (lin_add expr (lin_scale (-1) slack))], dset cname slack sub)
  end.

(** convert_to_pyqubo, converter_bqm.py:60-113; without any summand [H] is the integer 0, which has no
    method [compile] *)
Definition convert_to_pyqubo (model : lpproblem) : res qmodel :=
  do '(trans, sub) <- foldM qubo_var (variables model) ([], []);
  do '(H, sub) <- foldM (qubo_constraint trans) (p_constraints model) ([], sub);
  do H <- (if has_objective (p_objective model) then
             do o <- translate trans (a_terms (p_objective model));
             Ok (H ++ [Linear "objective" (lin_add (lin_const (a_const (p_objective model))) o)])
           else Ok H);
  match H with
  | [] => Err AttributeError
  | _ => Ok (MkQModel H sub)
  end.

(** ** Expansion to a binary quadratic model *)

Record bqm : Type := MkBqm {
  b_linear : dict string Q;
  b_quadratic : dict (string * string) Q;
  b_offset : Q }.

Definition empty_bqm : bqm := MkBqm [] [] 0.

Definition add_to {K : Type} `{EqDec K} (k : K) (q : Q) (d : dict K Q) : dict K Q :=
  dset k (match dget k d with Some r => r + q | None => q end) d.

Definition add_linear (u : string) (q : Q) (b : bqm) : bqm :=
  MkBqm (add_to u q (b_linear b)) (b_quadratic b) (b_offset b).

(** A product of two variables; a square of a binary variable is the variable itself *)
Definition add_product (u v : string) (q : Q) (b : bqm) : bqm :=
  if eqb u v then add_linear u q b
  else if dmem (v, u) (b_quadratic b) then
    MkBqm (b_linear b) (add_to (v, u) q (b_quadratic b)) (b_offset b)
  else MkBqm (b_linear b) (add_to (u, v) q (b_quadratic b)) (b_offset b).

Definition add_offset (q : Q) (b : bqm) : bqm := MkBqm (b_linear b) (b_quadratic b) (b_offset b + q).

(** [b + k * a] *)
Definition add_lin (k : Q) (a : lin) (b : bqm) : bqm :=
  add_offset (k * l_off a)
    (fold_left (fun acc t => add_linear (fst t) (k * snd t) acc) (l_terms a) b).

(** [b + k * a * a] *)
Definition add_square (k : Q) (a : lin) (b : bqm) : bqm :=
  let b1 := fold_left (fun acc p => add_product (fst (fst p)) (fst (snd p)) (k * (snd (fst p) * snd (snd p))) acc)
              (list_prod (l_terms a) (l_terms a)) b in
  let b2 := fold_left (fun acc t => add_linear (fst t) (k * (2 * l_off a * snd t)) acc) (l_terms a) b1 in
  add_offset (k * (l_off a * l_off a)) b2.

(** [model.to_bqm(feed_dict=pdict)]; a placeholder without a value is an error *)
Definition to_bqm (m : qmodel) (pdict : dict string Q) : res bqm :=
  foldM (fun acc s =>
           match s with
           | Square ph a => match dget ph pdict with
                            | Some k => Ok (add_square k a acc)
                            | None => Err OtherError
                            end
           | Linear ph a => match dget ph pdict with
                            | Some k => Ok (add_lin k a acc)
                            | None => Err OtherError
                            end
           end) (m_sum m) empty_bqm.

(** ** Reading samples *)

(** A raw sample: values of the bits *)
Definition bits : Type := dict string bool.

Definition b2q (b : bool) : Q := if b then 1 else 0.

Definition eval_bits (a : lin) (s : bits) : res Q :=
  foldM (fun acc t => do b <- dlookup (fst t) s; Ok (acc + snd t * b2q b)) (l_terms a) (l_off a).

(** One row of [interpreter], converter_bqm.py:135-140.  [decode_sample] evaluates every sub-expression on
    the sample; [decoded.sample] (the bits) takes precedence over [decoded.subh]. *)
Definition decode_row (model : lpproblem) (m : qmodel) (s : bits) : res (dict string Q) :=
  do subh <- mapM (fun la => do q <- eval_bits (snd la) s; Ok (fst la, q)) (m_sub m);
  let decoded := dupdate subh (map (fun kb => (fst kb, b2q (snd kb))) s) in
  foldM (fun acc v => do q <- dlookup (v_name v) decoded; Ok (dset (v_name v) q acc)) (variables model) [].

(** Rows of a dimod sample set: sample and energy *)
Definition rows (A : Type) : Type := list (A * Q).

(** Stable insertion sort by a key (Python's [sorted]; also stands for numpy's argsort, whose order among
    equal keys is not specified) *)
Fixpoint insert_by {A : Type} (key : A -> Q) (x : A) (l : list A) : list A :=
  match l with
  | [] => [x]
  | y :: r => if qltb (key x) (key y) then x :: l else y :: insert_by key x r
  end.

Definition sorted_by {A : Type} (key : A -> Q) (l : list A) : list A :=
  fold_left (fun acc x => insert_by key x acc) l [].

(** [sampleset.data()] and [sampleset.samples()]: rows in order of energy *)
Definition data {A : Type} (r : rows A) : rows A := sorted_by snd r.

(** interpreter, converter_bqm.py:132-143 *)
Definition interpreter (model : lpproblem) (m : qmodel) (r : rows bits) : res (rows (dict string Q)) :=
  let energies := map snd (data r) in
  do result <- mapM (fun se => decode_row model m (fst se)) (data r);
  Ok (combine result energies).

(** convert_to_bqm, converter_bqm.py:116-145 (the middle component, the same model as a QUBO dictionary, is
    not modelled) *)
Definition convert_to_bqm (model : lpproblem) (pdict : dict string Q)
  : res (bqm * (rows bits -> res (rows (dict string Q)))) :=
  do m <- convert_to_pyqubo model;
  do b <- to_bqm m pdict;
  Ok (b, interpreter model m).
