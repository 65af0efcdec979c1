(** * SpecResults: what the claims about the constrained model and the result lists say (C28, C30-C34, C50) *)

From Coq Require Import List String ZArith QArith Bool.
From Verif Require Import Base Pulp Helpers Spec Converters Results SpecQubo.
Import ListNotations.
Open Scope string_scope.
Open Scope list_scope.

(** ** Constrained models *)

Definition in_type (t : cqm_type) (q : Q) : Prop :=
  match t with
  | CBinary => q == 0 \/ q == 1
  | CInteger ub => is_int q /\ 0 <= q <= ub
  end.

Definition related (s : sense) (a b : Q) : Prop :=
  match s with
  | LE => a <= b
  | EQ => a == b
  | GE => b <= a
  end.

(** A sample assigns values to labels; it is feasible if every value is of the declared type and every
    constraint holds. *)
Definition typed (c : cqm) (q : string -> Q) : Prop :=
  forall n t, In (n, t) (q_vars c) -> in_type t (q n).

Definition cqm_feasible (c : cqm) (q : string -> Q) : Prop :=
  typed c q /\
  forall n k, In (n, k) (q_constraints c) -> related (cc_sense k) (lin_value (cc_lhs k) q) (cc_rhs k).

(** An assignment of the problem and a sample say the same: samples count from the lower bounds. *)
Definition counted_from_lower (p : lpproblem) (q : string -> Q) (x : assignment) : Prop :=
  forall v lo, In v (variables p) -> v_lo v = Some lo -> x (v_id v) == q (v_name v) + lo.

(** ** Result lists *)

(** A sample gives a value to every variable of the problem. *)
Definition assigns (p : lpproblem) (d : dict string Q) : Prop :=
  forall v, occurs p v -> In (v_name v) (dkeys d).

(** [n] elements of the list have property [P]. *)
Inductive number_of {A : Type} (P : A -> Prop) : list A -> nat -> Prop :=
| number_nil : number_of P [] 0
| number_yes x l n : P x -> number_of P l n -> number_of P (x :: l) (S n)
| number_no x l n : ~ P x -> number_of P l n -> number_of P (x :: l) n.

(** The report on the constraints is right: one flag for each constraint, and the number of flags set. *)
Definition right_report (p : lpproblem) (d : dict string Q) (r : dict string bool * nat) : Prop :=
  dkeys (fst r) = dkeys (p_constraints p) /\
  (forall n c, In (n, c) (p_constraints p) ->
     exists f, In (n, f) (fst r) /\ (f = true <-> holds c (values d))) /\
  number_of (fun nc : string * constr => holds (snd nc) (values d)) (p_constraints p) (snd r).

(** The entry is right about its sample. *)
Definition right_entry (p : lpproblem) (e : entry) : Prop :=
  e_objective e == obj_value p (values (e_sample e)) /\
  (e_feasible e = true <-> forall n c, In (n, c) (p_constraints p) -> holds c (values (e_sample e))) /\
  right_report p (e_sample e) (e_constraints e).

(** ** Timetables of solutions (C33) *)

(** All rules of C01-C07 in the timetable of a solution. *)
Record conflict_free (ts : train_sets) (tt : timetable) (d_max : Q) (p : lpproblem) (x : assignment) : Prop := {
  free_headway : forall s inner sp groups js j jp,
    In (s, inner) (ts_Jd ts) -> In (sp, groups) inner -> In js groups -> listed js j jp -> j <> jp ->
    exists t t' h h', departs ts tt p x j s t /\ departs ts tt p x jp s t' /\
      headway tt j jp s sp h /\ headway tt jp j s sp h' /\ separated t t' h h';
  free_line : forall s sp l j jp,
    In ((s, sp), l) (ts_Josingle ts) -> In (j, jp) l -> j <> jp -> ~ same_rolling_stock ts j jp ->
    exists t t' r r', departs ts tt p x j s t /\ departs ts tt p x jp sp t' /\
      running tt j s sp r /\ running tt jp sp s r' /\ separated t t' r r';
  free_stay : forall j sp s,
    In j (ts_J ts) -> comes_before ts j sp s -> decided ts j s ->
    exists t t' r st, departs ts tt p x j sp t /\ departs ts tt p x j s t' /\
      running tt j sp s r /\ min_stop tt j s st /\ t + r + st <= t';
  free_track : forall s j jp,
    shares_track ts s j jp -> j <> jp -> ~ same_rolling_stock ts j jp ->
    ~ names_skip ts j s -> ~ names_skip ts jp s ->
    turnaround_closed ts s j jp -> turnaround_closed ts s jp j ->
    exists a d a' d' g,
      occupies_from ts tt p x s j a /\ occupies_until ts tt p x s j d /\
      occupies_from ts tt p x s jp a' /\ occupies_until ts tt p x s jp d' /\
      track_gap ts tt s g /\ (d + g <= a' \/ d' + g <= a);
  free_switch : forall s l pair jp jpp a b,
    In (s, l) (ts_Jswitch ts) -> In pair l -> pair = [(jp, a); (jpp, b)] -> jp <> jpp ->
    ~ same_rolling_stock ts jp jpp ->
    exists t t' r, uses_switch ts tt p x s pair jp t /\ uses_switch ts tt p x s pair jpp t' /\
      reservation tt r /\ separated t t' r r;
  free_turnaround : forall s l j jp,
    In (s, l) (ts_Jround ts) -> In (j, jp) l ->
    exists t t' pr, arrives ts tt p x j s t /\ departs ts tt p x jp s t' /\
      preparation tt jp s pr /\ t + pr <= t';
  free_bounds : forall j s t, departs ts tt p x j s t ->
    (forall q, scheduled tt j s q -> q <= t) /\ (forall q, initially tt j s q -> q <= t) /\
    (forall e, earliest ts tt j s e -> e <= t <= e + d_max) }.

(** What a sampler returns, whatever its quality: samples of the model it was given. *)
Definition real_samplers (o : samplers) : Prop :=
  (forall m b s e, In (s, e) (sample_bqm o m b) -> sample_of b s) /\
  (forall c d e, In (d, e) (sample_cqm o c) ->
     (forall n, In n (dkeys (q_vars c)) -> In n (dkeys d)) /\
     typed c (fun n => match dget n d with Some q => q | None => 0 end)).

(** ** Kinds of variables (C50) *)

Definition order_variable (v : lpvar) : Prop := v_prefix v = "y" \/ v_prefix v = "z".
Definition delay_variable (v : lpvar) : Prop := v_prefix v = "Delays".

(** The name of the train ends in the letter y or z. *)
Definition ends_yz (x : pv) : Prop := exists u, str x = (u ++ "y")%string \/ str x = (u ++ "z")%string.
