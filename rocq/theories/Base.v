(** * Base: Python values, exceptions, dictionaries and numbers

    Shared vocabulary of the model.  Nothing here models a particular file of /repo; it
    fixes how Python data are represented (see DESIGN.md, section 1). *)

From Coq Require Import List String Ascii ZArith QArith Bool Arith DecimalString.
Import ListNotations.
Open Scope string_scope.

(** ** Exceptions as values *)

(** The exceptions the modelled code can raise (explicitly or implicitly). *)
Inductive err : Type :=
| KeyError | ValueError | IndexError | TypeError | AttributeError | AssertionError
| UnboundLocalError | NameError | ZeroDivisionError | PulpError | SystemExit | RecursionError
| OtherError.

(** Result of running a piece of Python: a value or an exception. *)
Inductive res (A : Type) : Type :=
| Ok (a : A)
| Err (e : err).
Arguments Ok {A} _.
Arguments Err {A} _.

Definition bind {A B : Type} (r : res A) (f : A -> res B) : res B :=
  match r with
  | Ok a => f a
  | Err e => Err e
  end.

Notation "'do' x <- r ; k" := (bind r (fun x => k))
  (at level 200, x name, r at level 100, k at level 200).
Notation "'do' ' p <- r ; k" := (bind r (fun x => match x with p => k end))
  (at level 200, p strict pattern, r at level 100, k at level 200).

Definition is_ok {A : Type} (r : res A) : bool :=
  match r with Ok _ => true | Err _ => false end.

(** [for x in l: acc = f(acc, x)], stopping at the first exception. *)
Fixpoint foldM {A B : Type} (f : B -> A -> res B) (l : list A) (acc : B) : res B :=
  match l with
  | [] => Ok acc
  | x :: r => do acc' <- f acc x; foldM f r acc'
  end.

(** List comprehension with a body that may raise. *)
Fixpoint mapM {A B : Type} (f : A -> res B) (l : list A) : res (list B) :=
  match l with
  | [] => Ok []
  | x :: r => do y <- f x; do ys <- mapM f r; Ok (y :: ys)
  end.

(** ** Decidable equality used for Python's [==] on keys *)

Class EqDec (A : Type) : Type := eq_dec : forall x y : A, {x = y} + {x <> y}.

Definition eqb {A : Type} `{EqDec A} (x y : A) : bool :=
  if eq_dec x y then true else false.

(** Strings are compared with [String.eqb]; [string_dec] of the standard library decides the same and computes slowly. *)
Lemma eqb_same (a b : string) : String.eqb a b = true -> a = b.
Proof. apply String.eqb_eq. Qed.
Lemma eqb_other (a b : string) : String.eqb a b = false -> a <> b.
Proof. apply String.eqb_neq. Qed.
#[export] Instance EqDec_string : EqDec string := fun a b =>
  (if String.eqb a b as r return (String.eqb a b = r -> {a = b} + {a <> b})
   then fun E => left (eqb_same a b E) else fun E => right (eqb_other a b E)) eq_refl.
#[export] Instance EqDec_Z : EqDec Z := Z.eq_dec.
#[export] Instance EqDec_nat : EqDec nat := Nat.eq_dec.
#[export] Instance EqDec_bool : EqDec bool := bool_dec.

(** Python atoms used as train and station identifiers: [None], integers, strings. *)
Inductive pv : Type :=
| PNone
| PInt (z : Z)
| PStr (s : string).

#[export] Instance EqDec_pv : EqDec pv.
Proof.
  intros x y; unfold EqDec; decide equality; [apply Z.eq_dec | apply EqDec_string].
Defined.

#[export] Instance EqDec_prod {A B : Type} `{EqDec A} `{EqDec B} : EqDec (A * B).
Proof.
  intros x y; unfold EqDec in *; decide equality.
Defined.

#[export] Instance EqDec_list {A : Type} `{EqDec A} : EqDec (list A).
Proof.
  intros x y; unfold EqDec in *; decide equality.
Defined.

#[export] Instance EqDec_option {A : Type} `{EqDec A} : EqDec (option A).
Proof.
  intros x y; unfold EqDec in *; decide equality.
Defined.

(** ** Strings *)

(** Python's [str(z)] for an integer. *)
Definition str_of_Z (z : Z) : string := NilZero.string_of_int (Z.to_int z).

(** Python's [str(x)] / f-string interpolation for an atom. *)
Definition str (x : pv) : string :=
  match x with
  | PNone => "None"
  | PInt z => str_of_Z z
  | PStr s => s
  end.

(** [needle in hay] for two strings (substring test). *)
Fixpoint str_contains (needle hay : string) : bool :=
  String.prefix needle hay ||
  match hay with
  | EmptyString => false
  | String _ rest => str_contains needle rest
  end.

(** ["_".join(l)] *)
Fixpoint join_us (l : list string) : string :=
  match l with
  | [] => ""
  | [s] => s
  | s :: r => s ++ "_" ++ join_us r
  end.

Fixpoint smap (f : ascii -> ascii) (s : string) : string :=
  match s with
  | EmptyString => EmptyString
  | String c r => String (f c) (smap f r)
  end.

(** ** Dictionaries: association lists in insertion order *)

Definition dict (K V : Type) : Type := list (K * V).

Section Dict.
  Context {K V : Type} `{EqDec K}.

  (** [d.get(k)] *)
  Fixpoint dget (k : K) (d : dict K V) : option V :=
    match d with
    | [] => None
    | (k', v) :: r => if eq_dec k k' then Some v else dget k r
    end.

  (** [k in d] *)
  Definition dmem (k : K) (d : dict K V) : bool :=
    match dget k d with Some _ => true | None => false end.

  (** [d[k]] *)
  Definition dlookup (k : K) (d : dict K V) : res V :=
    match dget k d with Some v => Ok v | None => Err KeyError end.

  (** [d[k] = v] (keeps the position of an existing key) *)
  Fixpoint dset (k : K) (v : V) (d : dict K V) : dict K V :=
    match d with
    | [] => [(k, v)]
    | (k', v') :: r => if eq_dec k k' then (k', v) :: r else (k', v') :: dset k v r
    end.

  (** [d.update(e)] *)
  Definition dupdate (d e : dict K V) : dict K V :=
    fold_left (fun acc kv => dset (fst kv) (snd kv) acc) e d.
End Dict.

Definition dkeys {K V : Type} (d : dict K V) : list K := map fst d.

(** ** Lists *)

(** [x in l] *)
Fixpoint lmem {A : Type} `{EqDec A} (x : A) (l : list A) : bool :=
  match l with
  | [] => false
  | y :: r => if eq_dec x y then true else lmem x r
  end.

(** [l.index(x)]: position of the first occurrence *)
Fixpoint lindex {A : Type} `{EqDec A} (x : A) (l : list A) : res nat :=
  match l with
  | [] => Err ValueError
  | y :: r => if eq_dec x y then Ok 0%nat else do n <- lindex x r; Ok (S n)
  end.

(** [l[n]] for a nonnegative index *)
Definition lnth {A : Type} (l : list A) (n : nat) : res A :=
  match nth_error l n with Some x => Ok x | None => Err IndexError end.

(** [itertools.combinations(l, 2)], in its order *)
Fixpoint combinations2 {A : Type} (l : list A) : list (A * A) :=
  match l with
  | [] => []
  | x :: r => map (fun y => (x, y)) r ++ combinations2 r
  end.

(** ** Rational numbers *)

Definition qltb (a b : Q) : bool := negb (Qle_bool b a).

(** [np.maximum(a, b)] *)
Definition qmax (a b : Q) : Q := if Qle_bool a b then b else a.

Definition qsum (l : list Q) : Q := fold_right Qplus 0 l.
