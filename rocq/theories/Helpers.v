(** * Helpers: model of railway_solvers/railway_solvers/helpers_functions.py *)

From Coq Require Import List String ZArith QArith Bool.
From Verif Require Import Base Pulp.
Import ListNotations.
Open Scope string_scope.

(** ** Input data *)

(** [train_sets], the dictionary of sets documented in README.md and built by
    helpers.py:83-93.  Keys required by the solver are record fields; the optional keys
    "skip_station" and "add_swithes_at_s" are options.  Simplifications: entries of Josingle
    and Jround, lists of two trains in Python, are pairs (a list of another length would
    raise ValueError on unpacking). *)
Record train_sets : Type := MkTS {
  ts_skip : option (dict pv pv);
  ts_Paths : dict pv (list pv);
  ts_J : list pv;
  ts_Jd : dict pv (dict pv (list (list pv)));
  ts_Josingle : dict (pv * pv) (list (pv * pv));
  ts_Jround : dict pv (list (pv * pv));
  ts_Jtrack : dict pv (list (list pv));
  ts_Jswitch : dict pv (list (dict pv pv));
  ts_add_switches : option (list pv) }.

(** [timetable], helpers_functions.py:48-60.  A missing sub-dictionary ("prep", "schedule",
    ...) is the empty one: every access to it is a lookup that raises KeyError or a membership
    test. *)
Record timetable : Type := MkTT {
  tt_pass : dict string Q;
  tt_headway : dict string Q;
  tt_stop : dict string Q;
  tt_prep : dict string Q;
  tt_res : option Q;
  tt_schedule : dict string Q;
  tt_init : dict string Q;
  tt_weights : dict string Q }.

(** ** Lists and nested dictionaries *)

(** occurs_as_pair, helpers_functions.py:4-9 *)
Fixpoint occurs_as_pair (a b : pv) (vecofvec : list (list pv)) : bool :=
  match vecofvec with
  | [] => false
  | v :: r =>
      if lmem a v && lmem b v && negb (eqb a b) then true else occurs_as_pair a b r
  end.

(** Nested dictionaries whose leaves are PuLP variables (order_vars, delay_var). *)
Inductive tree : Type :=
| TLeaf (v : lpvar)
| TNode (d : list (pv * tree)).

(** update_dictofdicts, helpers_functions.py:13-25.  The assertion on line 18 is
    [np.size(d2.keys()) == 1]; numpy sees the keys view as one object, so it never fails,
    but [.keys()] on a leaf raises AttributeError. *)
Fixpoint update_dictofdicts (d1 d2 : tree) {struct d2} : res tree :=
  match d2 with
  | TLeaf _ => Err AttributeError
  | TNode e2 =>
      (fix loop (l : list (pv * tree)) (cur : tree) {struct l} : res tree :=
         match l with
         | [] => Ok cur
         | (k, v2) :: r =>
             match cur with
             | TLeaf _ => Err AttributeError
             | TNode e1 =>
                 match dget k e1 with
                 | Some v1 =>
                     do v1' <- update_dictofdicts v1 v2;
                     loop r (TNode (dset k v1' e1))
                 | None => loop r (TNode (dupdate e1 e2))
                 end
             end
         end) e2 d1
  end.

(** Python's [d[k1][k2]...] and [k in d] on nested dictionaries *)
Definition tlookup (k : pv) (t : tree) : res tree :=
  match t with
  | TLeaf _ => Err TypeError
  | TNode d => dlookup k d
  end.

Definition tmem (k : pv) (t : tree) : bool :=
  match t with
  | TLeaf _ => false
  | TNode d => dmem k d
  end.

Definition tleaf (t : tree) : res lpvar :=
  match t with
  | TLeaf v => Ok v
  | TNode _ => Err TypeError
  end.

(** ** Paths *)

(** subsequent_station, helpers_functions.py:28-33.  [None] is [PNone]. *)
Definition subsequent_station (path : list pv) (s : pv) : res pv :=
  do k <- lindex s path;
  if Nat.eqb k (List.length path - 1) then Ok PNone
  else lnth path (k + 1).

(** previous_station, helpers_functions.py:36-45 *)
Definition previous_station (path : list pv) (s : pv) : res pv :=
  do k <- lindex s path;
  if Nat.eqb k 0 then Ok PNone
  else lnth path (k - 1).

(** ** Time spans *)

(** Keys used in the timetable dictionaries, helpers_functions.py:79, 82, 85 *)
Definition key_js (j s : pv) : string := str j ++ "_" ++ str s.
Definition key_pass (j s sp : pv) : string := str j ++ "_" ++ str s ++ "_" ++ str sp.
Definition key_headway (j jp s sp : pv) : string :=
  str j ++ "_" ++ str jp ++ "_" ++ str s ++ "_" ++ str sp.

(** tau, helpers_functions.py:63-90, one function per value of [key] *)
Definition tau_headway (tt : timetable) (j jp s sp : pv) : res Q :=
  dlookup (key_headway j jp s sp) (tt_headway tt).
Definition tau_pass (tt : timetable) (j s sp : pv) : res Q :=
  dlookup (key_pass j s sp) (tt_pass tt).
Definition tau_stop (tt : timetable) (j s : pv) : res Q :=
  dlookup (key_js j s) (tt_stop tt).
Definition tau_prep (tt : timetable) (j s : pv) : res Q :=
  dlookup (key_js j s) (tt_prep tt).
Definition tau_res (tt : timetable) : res Q :=
  match tt_res tt with Some q => Ok q | None => Err KeyError end.

(** penalty_weights, helpers_functions.py:93-100 *)
Definition penalty_weights (tt : timetable) (train station : pv) : Q :=
  match dget (key_js train station) (tt_weights tt) with
  | Some w => w
  | None => 0
  end.

(** [np.maximum(sched, q)] with [sched = -np.inf] represented by [None] *)
Definition max_opt (o : option Q) (q : Q) : Q :=
  match o with Some s => qmax s q | None => q end.

(** earliest_dep_time, helpers_functions.py:103-127.  Python recursion is bounded by fuel;
    running out is RecursionError.  [earliest_dep_time] supplies enough fuel for every path
    (each call moves to an earlier position of the path). *)
Fixpoint earliest_fuel (fuel : nat) (S_ : dict pv (list pv)) (tt : timetable)
    (train station : pv) {struct fuel} : res Q :=
  let sched := dget (key_js train station) (tt_schedule tt) in
  match dget (key_js train station) (tt_init tt) with
  | Some unavoidable => Ok (max_opt sched unavoidable)
  | None =>
      do path <- dlookup train S_;
      do s <- previous_station path station;
      do tp <- tau_pass tt train s station;
      do ts <- tau_stop tt train station;
      match fuel with
      | O => Err RecursionError
      | S fuel' =>
          do e <- earliest_fuel fuel' S_ tt train s;
          Ok (max_opt sched (e + tp + ts))
      end
  end.

Definition earliest_dep_time (S_ : dict pv (list pv)) (tt : timetable)
    (train station : pv) : res Q :=
  earliest_fuel (match dget train S_ with Some path => S (List.length path) | None => O end)
    S_ tt train station.

(** ** Train sets *)

(** not_the_same_rolling_stock, helpers_functions.py:132-137 *)
Definition not_the_same_rolling_stock (j jp : pv) (ts : train_sets) : bool :=
  negb (existsb
          (fun sp => occurs_as_pair j jp (map (fun p => [fst p; snd p]) (snd sp)))
          (ts_Jround ts)).

(** departure_station4switches, helpers_functions.py:140-149 *)
Definition departure_station4switches (s j : pv) (place_of_switch : dict pv pv)
    (ts : train_sets) : res pv :=
  do place <- dlookup j place_of_switch;
  if eqb place (PStr "out") then Ok s
  else if eqb place (PStr "in") then
    do path <- dlookup j (ts_Paths ts);
    previous_station path s
  else Ok PNone.

(** get_M, helpers_functions.py:152-160 *)
Definition get_M (LHS RHS d_max : Q) : Q := qmax (RHS + d_max - LHS) 1.

(** skip_station, helpers_functions.py:163-173 *)
Definition skip_station (j s : pv) (ts : train_sets) : bool :=
  match ts_skip ts with
  | None => false
  | Some sk =>
      match dget j sk with
      | None => false
      | Some s' => eqb s s'
      end
  end.

(** previous_train_from_Jround, helpers_functions.py:177-190: the first pair of [Jround[s]]
    whose second element is [j] *)
Fixpoint find_first_snd (j : pv) (pairs : list (pv * pv)) : pv :=
  match pairs with
  | [] => PNone
  | (a, b) :: r => if eqb j b then a else find_first_snd j r
  end.

Definition previous_train_from_Jround (ts : train_sets) (j s : pv) : pv :=
  match dget s (ts_Jround ts) with
  | None => PNone
  | Some pairs => find_first_snd j pairs
  end.

(** subsequent_train_at_Jround, helpers_functions.py:193-206 *)
Fixpoint find_first_fst (j : pv) (pairs : list (pv * pv)) : pv :=
  match pairs with
  | [] => PNone
  | (a, b) :: r => if eqb j a then b else find_first_fst j r
  end.

Definition subsequent_train_at_Jround (ts : train_sets) (j s : pv) : pv :=
  match dget s (ts_Jround ts) with
  | None => PNone
  | Some pairs => find_first_fst j pairs
  end.

Definition is_none (x : pv) : bool := eqb x PNone.

(** can_MO_on_line, helpers_functions.py:210-225 *)
Definition can_MO_on_line (j jp s : pv) (ts : train_sets) : res bool :=
  do pj <- dlookup j (ts_Paths ts);
  do sp <- previous_station pj s;
  do pjp <- dlookup jp (ts_Paths ts);
  do spp <- previous_station pjp s;
  match ts_Jd ts with
  | [] => Ok false
  | _ =>
      if is_none sp || is_none spp then Ok false
      else if negb (eqb sp spp) then Ok true
      else
        do inner <- dlookup sp (ts_Jd ts);
        do groups <- dlookup s inner;
        Ok (negb (occurs_as_pair j jp groups))
  end.

(** are_two_trains_entering_via_the_same_switches, helpers_functions.py:227-235 *)
Definition entering_via_same_switches (ts : train_sets) (s j jp : pv) : bool :=
  match dget s (ts_Jswitch ts) with
  | None => false
  | Some v =>
      existsb
        (fun e => match dget j e, dget jp e with
                  | Some a, Some b => eqb a (PStr "in") && eqb b (PStr "in")
                  | _, _ => false
                  end) v
  end.
