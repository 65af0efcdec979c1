(** * LinearSolver: model of railway_solvers/railway_solvers/linear_solver.py *)

From Coq Require Import List String ZArith QArith Bool.
From Verif Require Import Base Pulp Helpers.
Import ListNotations.
Open Scope string_scope.

(** ** Order variables *)

(** [LpVariable.dicts(prefix, ([a], [b], ...), ...)]: nested dictionary with one leaf *)
Definition single (path : list pv) (v : lpvar) : tree :=
  fold_right (fun k t => TNode [(k, t)]) (TLeaf v) path.

(** The keyword stored as third key of one-station order variables, linear_solver.py:144 *)
Definition one_station : pv := PStr "one_station".

(** The first key of order variables for entering trains, linear_solver.py:126 *)
Definition in_ : pv := PStr "in".

(** Binary variables created on linear_solver.py:144, 156-158, 169-171 *)
Definition y_var (path : list pv) : lpvar := MkVar "y" path (Some 0) (Some 1) Integer.
Definition z_var (path : list pv) : lpvar := MkVar "z" path (Some 0) (Some 1) Integer.

(** [order_var[a][b][c][d]] *)
Definition get4 (y : tree) (a b c d : pv) : res lpvar :=
  do t1 <- tlookup a y;
  do t2 <- tlookup b t1;
  do t3 <- tlookup c t2;
  do t4 <- tlookup d t3;
  tleaf t4.

(** check_order_var_4arg, linear_solver.py:231-233 *)
Definition check_order_var_4arg (y : tree) (a b c d : pv) : bool :=
  match tlookup a y with
  | Err _ => false
  | Ok t1 =>
      match tlookup b t1 with
      | Err _ => false
      | Ok t2 =>
          match tlookup c t2 with
          | Err _ => false
          | Ok t3 => tmem d t3
          end
      end
  end.

(** check_order_var_3arg, linear_solver.py:226-228 *)
Definition check_order_var_3arg (y : tree) (j jp s : pv) : bool :=
  check_order_var_4arg y j jp one_station s.

(** update_y3, linear_solver.py:136-145 *)
Definition update_y3 (order_var : tree) (j jp s : pv) : res tree :=
  if check_order_var_3arg order_var j jp s || check_order_var_3arg order_var jp j s
  then Ok order_var
  else
    let path := [j; jp; one_station; s] in
    update_dictofdicts order_var (single path (y_var path)).

(** update_y4, linear_solver.py:149-159 *)
Definition update_y4 (order_var : tree) (j jp s sp : pv) : res tree :=
  if check_order_var_4arg order_var j jp s sp || check_order_var_4arg order_var jp j sp s
  then Ok order_var
  else
    let path := [j; jp; s; sp] in
    update_dictofdicts order_var (single path (z_var path)).

(** update_y4_in, linear_solver.py:162-172, always called with [a = "in"] *)
Definition update_y4_in (order_var : tree) (a j jp s : pv) : res tree :=
  if check_order_var_4arg order_var a j jp s || check_order_var_4arg order_var a jp j s
  then Ok order_var
  else
    let path := [a; j; jp; s] in
    update_dictofdicts order_var (single path (z_var path)).

(** [1 - v] *)
Definition one_minus (v : lpvar) : aff := aff_sub (aff_const 1) (aff_var v).

(** get_y3, linear_solver.py:174-192 *)
Definition get_y3 (y : tree) (j jp s : pv) : res aff :=
  if check_order_var_3arg y j jp s then
    do v <- get4 y j jp one_station s; Ok (aff_var v)
  else
    do v <- get4 y jp j one_station s; Ok (one_minus v).

(** get_y4_singleline, linear_solver.py:195-214 *)
Definition get_y4_singleline (y : tree) (j jp s sp : pv) : res aff :=
  if check_order_var_4arg y j jp s sp then
    do v <- get4 y j jp s sp; Ok (aff_var v)
  else
    do v <- get4 y jp j sp s; Ok (one_minus v).

(** get_y4_in, linear_solver.py:217-223 *)
Definition get_y4_in (y : tree) (a j jp s : pv) : res aff :=
  if check_order_var_4arg y a j jp s then
    do v <- get4 y a j jp s; Ok (aff_var v)
  else
    do v <- get4 y a jp j s; Ok (one_minus v).

(** order_var4single_line_constrain, linear_solver.py:39-51 *)
Definition order_var4single_line (y : tree) (ts : train_sets) : res tree :=
  foldM (fun y (e : (pv * pv) * list (pv * pv)) =>
           foldM (fun y (p : pv * pv) =>
                    update_y4 y (fst p) (snd p) (fst (fst e)) (snd (fst e)))
             (snd e) y)
    (ts_Josingle ts) y.

(** order_var4minimal_span_constrain, linear_solver.py:54-68 *)
Definition order_var4minimal_span (y : tree) (ts : train_sets) : res tree :=
  foldM (fun y (e : pv * dict pv (list (list pv))) =>
           foldM (fun y (f : pv * list (list pv)) =>
                    foldM (fun y js =>
                             foldM (fun y (p : pv * pv) => update_y3 y (fst p) (snd p) (fst e))
                               (combinations2 js) y)
                      (snd f) y)
             (snd e) y)
    (ts_Jd ts) y.

(** order_var4track_occuparion_at_stations, linear_solver.py:71-86 *)
Definition order_var4track (y : tree) (ts : train_sets) : res tree :=
  foldM (fun y (e : pv * list (list pv)) =>
           foldM (fun y js =>
                    foldM (fun y (p : pv * pv) => update_y3 y (fst p) (snd p) (fst e))
                      (combinations2 js) y)
             (snd e) y)
    (ts_Jtrack ts) y.

(** [(jp, jpp) = pair.keys()]: ValueError unless there are exactly two keys *)
Definition unpack2 (pair : dict pv pv) : res (pv * pv) :=
  match pair with
  | [(a, _); (b, _)] => Ok (a, b)
  | _ => Err ValueError
  end.

(** Body of the loop of order_var4switch_occupation, linear_solver.py:119-132 *)
Definition order_var4switch_pair (y : tree) (s : pv) (pair : dict pv pv) (ts : train_sets)
  : res tree :=
  do '(jp, jpp) <- unpack2 pair;
  do sp <- departure_station4switches s jp pair ts;
  do spp <- departure_station4switches s jpp pair ts;
  if eqb sp spp then
    if eqb sp s then update_y3 y jp jpp sp
    else
      do mo <- can_MO_on_line jp jpp s ts;
      if (mo : bool) then update_y4_in y in_ jp jpp s
      else update_y3 y jp jpp sp
  else if eqb s sp || eqb s spp then update_y4 y jp jpp sp spp
  else update_y4_in y in_ jp jpp s.

(** order_var4switch_occupation, linear_solver.py:89-132 *)
Definition order_var4switch (y : tree) (ts : train_sets) : res tree :=
  foldM (fun y (e : pv * list (dict pv pv)) =>
           foldM (fun y pair => order_var4switch_pair y (fst e) pair ts) (snd e) y)
    (ts_Jswitch ts) y.

(** order_variables, linear_solver.py:27-36 *)
Definition order_variables (ts : train_sets) : res tree :=
  do y <- order_var4single_line (TNode []) ts;
  do y <- order_var4minimal_span y ts;
  do y <- order_var4track y ts;
  order_var4switch y ts.

(** ** Delay variables *)

Definition delay_var_of (j s : pv) (d_max : Q) (cat : vcat) : lpvar :=
  MkVar "Delays" [j; s] (Some 0) (Some d_max) cat.

(** delay_varibles, linear_solver.py:239-255 *)
Definition delay_varibles (ts : train_sets) (d_max : Q) (cat : vcat) : res tree :=
  foldM (fun dv j =>
           do path <- dlookup j (ts_Paths ts);
           foldM (fun dv s =>
                    if negb (skip_station j s ts)
                       && is_none (subsequent_train_at_Jround ts j s)
                    then update_dictofdicts dv (single [j; s] (delay_var_of j s d_max cat))
                    else Ok dv)
             path dv)
    (ts_J ts) (TNode []).

(** [delay_var[j][s]] *)
Definition get2 (d : tree) (j s : pv) : res lpvar :=
  do t1 <- tlookup j d;
  do t2 <- tlookup s t1;
  tleaf t2.

(** ** Constraints *)

Definition plus_var (q : Q) (v : lpvar) : aff := aff_add (aff_const q) (aff_var v).

(** minimal_span_constrain, linear_solver.py:261-286 *)
Definition minimal_span_constrain (s sp j jp : pv) (problem : lpproblem) (tt : timetable)
    (delay_var y : tree) (ts : train_sets) (d_max : Q) : res lpproblem :=
  do LHS <- earliest_dep_time (ts_Paths ts) tt jp s;
  do RHS0 <- earliest_dep_time (ts_Paths ts) tt j s;
  do h <- tau_headway tt j jp s sp;
  let RHS := RHS0 + h in
  let M := get_M LHS RHS d_max in
  if qltb (LHS - d_max) RHS then
    do vjp <- get2 delay_var jp s;
    do vj <- get2 delay_var j s;
    do yv <- get_y3 y jp j s;
    add_constraint problem
      ("minimal_span_" ++ str jp ++ "_" ++ str j ++ "_" ++ str s ++ "_" ++ str sp)
      (mk_ge (plus_var LHS vjp) (aff_sub (plus_var RHS vj) (aff_scale M yv)))
  else Ok problem.

(** minimal_span, linear_solver.py:289-324 *)
Definition minimal_span (problem : lpproblem) (tt : timetable) (delay_var y : tree)
    (ts : train_sets) (d_max : Q) : res lpproblem :=
  foldM (fun pr (e : pv * dict pv (list (list pv))) =>
    foldM (fun pr (f : pv * list (list pv)) =>
      foldM (fun pr js =>
        foldM (fun pr (p : pv * pv) =>
          do pr1 <- minimal_span_constrain (fst e) (fst f) (fst p) (snd p) pr tt delay_var y ts d_max;
          minimal_span_constrain (fst e) (fst f) (snd p) (fst p) pr1 tt delay_var y ts d_max)
        (combinations2 js) pr)
      (snd f) pr)
    (snd e) pr)
  (ts_Jd ts) problem.

(** single_line_constrain, linear_solver.py:327-345 *)
Definition single_line_constrain (s sp j jp : pv) (problem : lpproblem) (tt : timetable)
    (delay_var y : tree) (ts : train_sets) (d_max : Q) : res lpproblem :=
  do LHS <- earliest_dep_time (ts_Paths ts) tt j s;
  do RHS0 <- earliest_dep_time (ts_Paths ts) tt jp sp;
  do p <- tau_pass tt jp sp s;
  let RHS := RHS0 + p in
  let M := get_M LHS RHS d_max in
  if qltb (LHS - d_max) RHS then
    do vj <- get2 delay_var j s;
    do vjp <- get2 delay_var jp sp;
    do yv <- get_y4_singleline y j jp s sp;
    add_constraint problem
      ("single_line_" ++ str j ++ "_" ++ str jp ++ "_" ++ str s ++ "_" ++ str sp)
      (mk_ge (plus_var LHS vj) (aff_sub (plus_var RHS vjp) (aff_scale M yv)))
  else Ok problem.

(** single_line, linear_solver.py:348-366 *)
Definition single_line (problem : lpproblem) (tt : timetable) (delay_var y : tree)
    (ts : train_sets) (d_max : Q) : res lpproblem :=
  foldM (fun pr (e : (pv * pv) * list (pv * pv)) =>
    foldM (fun pr (p : pv * pv) =>
      if not_the_same_rolling_stock (fst p) (snd p) ts then
        do pr1 <- single_line_constrain (fst (fst e)) (snd (fst e)) (fst p) (snd p)
                    pr tt delay_var y ts d_max;
        single_line_constrain (snd (fst e)) (fst (fst e)) (snd p) (fst p)
          pr1 tt delay_var y ts d_max
      else Ok pr)
    (snd e) pr)
  (ts_Josingle ts) problem.

(** minimal_stay_constrin, linear_solver.py:369-388 *)
Definition minimal_stay_constrin (j s : pv) (problem : lpproblem) (tt : timetable)
    (delay_var : tree) (ts : train_sets) : res lpproblem :=
  do path <- dlookup j (ts_Paths ts);
  do sp <- previous_station path s;
  if is_none sp then Ok problem
  else
    do dj <- tlookup j delay_var;
    if tmem s dj then
      do v <- get2 delay_var j s;
      do LHS <- earliest_dep_time (ts_Paths ts) tt j s;
      do vp <- get2 delay_var j sp;
      do RHS <- earliest_dep_time (ts_Paths ts) tt j sp;
      do tp <- tau_pass tt j sp s;
      do st <- tau_stop tt j s;
      add_constraint problem ("minimal_stay_" ++ str j ++ "_" ++ str s)
        (mk_ge (plus_var LHS v) (plus_var (RHS + tp + st) vp))
    else Ok problem.

(** minimal_stay, linear_solver.py:391-398 *)
Definition minimal_stay (problem : lpproblem) (tt : timetable) (delay_var : tree)
    (ts : train_sets) : res lpproblem :=
  foldM (fun pr j =>
    do path <- dlookup j (ts_Paths ts);
    foldM (fun pr s => minimal_stay_constrin j s pr tt delay_var ts) path pr)
  (ts_J ts) problem.

(** [s in y[j][jp]["one_station"]] (KeyError if the prefix is missing), linear_solver.py:427 *)
Definition in_one_station (y : tree) (j jp s : pv) : res bool :=
  do t1 <- tlookup j y;
  do t2 <- tlookup jp t1;
  do t3 <- tlookup one_station t2;
  Ok (tmem s t3).

(** keep_trains_order, linear_solver.py:404-436 *)
Definition keep_trains_order (s j jp : pv) (problem : lpproblem) (y : tree) (ts : train_sets)
  : res lpproblem :=
  do path <- dlookup j (ts_Paths ts);
  do sp <- previous_station path s;
  let name := "track_occupation_" ++ str j ++ "_" ++ str jp ++ "_" ++ str s ++ "_" ++ str sp in
  match dget sp (ts_Jd ts) with
  | None => Ok problem
  | Some inner =>
      if dmem s inner then
        do groups <- dlookup s (ts_Jtrack ts);
        if occurs_as_pair j jp groups then
          do mo <- can_MO_on_line j jp s ts;
          if negb mo then
            do b1 <- in_one_station y j jp s;
            do b2 <- (if (b1 : bool) then in_one_station y j jp sp else Ok false);
            if (b2 : bool) then
              do v1 <- get4 y j jp one_station s;
              do v2 <- get4 y j jp one_station sp;
              add_constraint problem name (mk_eq (aff_var v1) (aff_var v2))
            else Ok problem
          else if entering_via_same_switches ts s j jp then
            do yin <- get_y4_in y in_ j jp s;
            do v <- get4 y j jp one_station s;
            add_constraint problem name (mk_eq yin (aff_var v))
          else Ok problem
        else Ok problem
      else Ok problem
  end.

(** [s in train_sets["add_swithes_at_s"]] with the key tested first, linear_solver.py:478-482 *)
Definition extra_res (s : pv) (tt : timetable) (ts : train_sets) (RHS : Q) : res Q :=
  match ts_add_switches ts with
  | None => Ok RHS
  | Some l => if lmem s l then do r <- tau_res tt; Ok (RHS + r) else Ok RHS
  end.

(** trains_order_at_s, linear_solver.py:439-497.  The left-hand side is the arrival of jp at
    s: of the train whose rolling stock jp takes over, of jp itself, or (first station) its
    earliest departure, to which no delay variable is added. *)
Definition trains_order_at_s (s j jp : pv) (problem : lpproblem) (tt : timetable)
    (delay_var y : tree) (ts : train_sets) (d_max : Q) : res lpproblem :=
  let j_rr := subsequent_train_at_Jround ts j s in
  if negb (is_none j_rr) then
    do y1 <- get_y3 y jp j s;
    do y2 <- get_y3 y jp j_rr s;
    add_constraint problem
      ("track_occupation_" ++ str j ++ "_" ++ str jp ++ "_" ++ str j_rr ++ "_" ++ str s)
      (mk_eq y1 y2)
  else
    let j_r := previous_train_from_Jround ts jp s in
    do pjp <- dlookup jp (ts_Paths ts);
    do sp <- previous_station pjp s;
    do '(LHS, src) <-
      (if negb (is_none j_r) then
         do pr <- dlookup j_r (ts_Paths ts);
         do s_rp <- previous_station pr s;
         do e <- earliest_dep_time (ts_Paths ts) tt j_r s_rp;
         do tp <- tau_pass tt j_r s_rp s;
         Ok (e + tp, Some (j_r, s_rp))
       else if negb (is_none sp) then
         do e <- earliest_dep_time (ts_Paths ts) tt jp sp;
         do tp <- tau_pass tt jp sp s;
         Ok (e + tp, Some (jp, sp))
       else
         do e <- earliest_dep_time (ts_Paths ts) tt jp s;
         Ok (e, None));
    do RHS0 <- earliest_dep_time (ts_Paths ts) tt j s;
    do RHS <- extra_res s tt ts RHS0;
    let M := get_M LHS RHS d_max in
    if qltb (LHS - d_max) RHS then
      do L <- (match src with
               | Some (a, b) => do v <- get2 delay_var a b; Ok (plus_var LHS v)
               | None => Ok (aff_const LHS)
               end);
      do yv <- get_y3 y jp j s;
      do v <- get2 delay_var j s;
      add_constraint problem
        ("track_occupation_" ++ str j ++ "_" ++ str jp ++ "_" ++ str s ++ "_p")
        (mk_ge (aff_sub L (aff_var v)) (aff_sub (aff_const RHS) (aff_scale M yv)))
    else Ok problem.

(** The skip test of track_occuparion, linear_solver.py:514 and 536:
    ["skip_station" in train_sets and jp in train_sets["skip_station"]
      and s in train_sets["skip_station"][jp]].
    The last [in] is applied to a station name, so it is a substring test (TypeError if either
    side is not a string), unlike the equality test of [skip_station]. *)
Definition track_skip (jp s : pv) (ts : train_sets) : res bool :=
  match ts_skip ts with
  | None => Ok false
  | Some sk =>
      match dget jp sk with
      | None => Ok false
      | Some (PStr name) =>
          match s with
          | PStr s' => Ok (str_contains s' name)
          | _ => Err TypeError
          end
      | Some _ => Err TypeError
      end
  end.

(** Body of the loop of track_occuparion, linear_solver.py:511-548 *)
Definition track_occupation_pair (s j jp : pv) (problem : lpproblem) (tt : timetable)
    (delay_var y : tree) (ts : train_sets) (d_max : Q) : res lpproblem :=
  if not_the_same_rolling_stock j jp ts then
    do skip <- track_skip jp s ts;
    do problem <-
      (if negb skip then
         do p1 <- keep_trains_order s j jp problem y ts;
         trains_order_at_s s jp j p1 tt delay_var y ts d_max
       else Ok problem);
    do skip <- track_skip j s ts;
    if negb skip then trains_order_at_s s j jp problem tt delay_var y ts d_max
    else Ok problem
  else Ok problem.

(** track_occuparion, linear_solver.py:502-548 *)
Definition track_occuparion (problem : lpproblem) (tt : timetable) (delay_var y : tree)
    (ts : train_sets) (d_max : Q) : res lpproblem :=
  foldM (fun pr (e : pv * list (list pv)) =>
    foldM (fun pr js =>
      foldM (fun pr (p : pv * pv) =>
        track_occupation_pair (fst e) (fst p) (snd p) pr tt delay_var y ts d_max)
      (combinations2 js) pr)
    (snd e) pr)
  (ts_Jtrack ts) problem.

(** switch_occ, linear_solver.py:554-593 *)
Definition switch_occ (s jp sp jpp spp : pv) (problem : lpproblem) (tt : timetable)
    (delay_var y : tree) (ts : train_sets) (d_max : Q) : res lpproblem :=
  do LHS0 <- earliest_dep_time (ts_Paths ts) tt jp sp;
  do RHS0 <- earliest_dep_time (ts_Paths ts) tt jpp spp;
  do r <- tau_res tt;
  do LHS <- (if eqb s sp then Ok LHS0 else do p <- tau_pass tt jp sp s; Ok (LHS0 + p));
  do RHS <- (if eqb s spp then Ok (RHS0 + r) else do p <- tau_pass tt jpp spp s; Ok (RHS0 + r + p));
  let M := get_M LHS RHS d_max in
  if qltb LHS (RHS + d_max) then
    do yv <-
      (if eqb spp sp then
         if eqb sp s then get_y3 y jp jpp sp
         else
           do mo <- can_MO_on_line jp jpp s ts;
           if (mo : bool) then get_y4_in y in_ jp jpp s
           else get_y3 y jp jpp sp
       else if eqb s spp || eqb s sp then get_y4_singleline y jp jpp sp spp
       else get_y4_in y in_ jp jpp s);
    do v1 <- get2 delay_var jp sp;
    do v2 <- get2 delay_var jpp spp;
    add_constraint problem
      ("switch_" ++ str jp ++ "_" ++ str jpp ++ "_" ++ str s ++ "_" ++ str sp ++ "_" ++ str spp)
      (mk_ge (plus_var LHS v1)
             (aff_add (aff_sub (aff_const RHS) (aff_scale M yv)) (aff_var v2)))
  else Ok problem.

(** Body of the loop of switch_occupation, linear_solver.py:609-641 *)
Definition switch_occupation_pair (s : pv) (pair : dict pv pv) (problem : lpproblem)
    (tt : timetable) (delay_var y : tree) (ts : train_sets) (d_max : Q) : res lpproblem :=
  do '(jp, jpp) <- unpack2 pair;
  if not_the_same_rolling_stock jp jpp ts then
    do sp <- departure_station4switches s jp pair ts;
    do spp <- departure_station4switches s jpp pair ts;
    do p1 <- switch_occ s jp sp jpp spp problem tt delay_var y ts d_max;
    switch_occ s jpp spp jp sp p1 tt delay_var y ts d_max
  else Ok problem.

(** switch_occupation, linear_solver.py:597-641 *)
Definition switch_occupation (problem : lpproblem) (tt : timetable) (delay_var y : tree)
    (ts : train_sets) (d_max : Q) : res lpproblem :=
  foldM (fun pr (e : pv * list (dict pv pv)) =>
    foldM (fun pr pair => switch_occupation_pair (fst e) pair pr tt delay_var y ts d_max)
    (snd e) pr)
  (ts_Jswitch ts) problem.

(** Body of the loop of rolling_stock_circ, linear_solver.py:649-663 *)
Definition rolling_stock_circ_pair (s j jp : pv) (problem : lpproblem) (tt : timetable)
    (delay_var : tree) (ts : train_sets) (d_max : Q) : res lpproblem :=
  do pj <- dlookup j (ts_Paths ts);
  do sp <- previous_station pj s;
  do LHS0 <- earliest_dep_time (ts_Paths ts) tt j sp;
  do RHS <- earliest_dep_time (ts_Paths ts) tt jp s;
  do tp <- tau_pass tt j sp s;
  do pr <- tau_prep tt jp s;
  let LHS := LHS0 + tp + pr in
  if qltb RHS (LHS + d_max) then
    do v1 <- get2 delay_var j sp;
    do v2 <- get2 delay_var jp s;
    add_constraint problem ("circulation_" ++ str j ++ "_" ++ str jp ++ "_" ++ str s)
      (mk_ge (plus_var RHS v2) (plus_var LHS v1))
  else Ok problem.

(** rolling_stock_circ, linear_solver.py:644-663 *)
Definition rolling_stock_circ (problem : lpproblem) (tt : timetable) (delay_var : tree)
    (ts : train_sets) (d_max : Q) : res lpproblem :=
  foldM (fun pr (e : pv * list (pv * pv)) =>
    foldM (fun pr (p : pv * pv) =>
      rolling_stock_circ_pair (fst e) (fst p) (snd p) pr tt delay_var ts d_max)
    (snd e) pr)
  (ts_Jround ts) problem.

(** ** Objective *)

(** [delay * weight / d_max], linear_solver.py:671; ZeroDivisionError for [d_max = 0] *)
Definition objective_term (v : lpvar) (w d_max : Q) : res aff :=
  if Qeq_bool d_max 0 then Err ZeroDivisionError
  else Ok (aff_scale (/ d_max) (aff_scale w (aff_var v))).

(** objective, linear_solver.py:666-676 *)
Definition objective (problem : lpproblem) (tt : timetable) (delay_var : tree)
    (ts : train_sets) (d_max : Q) : res lpproblem :=
  do sum <-
    foldM (fun acc i =>
      do path <- dlookup i (ts_Paths ts);
      foldM (fun acc j =>
        let w := penalty_weights tt i j in
        if Qeq_bool w 0 then Ok acc
        else
          do v <- get2 delay_var i j;
          do t <- objective_term v w d_max;
          Ok (aff_add acc t))
      path acc)
    (ts_J ts) (aff_const 0);
  Ok (set_objective problem sum).

(** ** The problem *)

(** create_linear_problem, linear_solver.py:679-697 *)
Definition create_linear_problem (ts : train_sets) (tt : timetable) (d_max : Q) (cat : vcat)
  : res lpproblem :=
  do dv <- delay_varibles ts d_max cat;
  do y <- order_variables ts;
  do p <- minimal_span empty_problem tt dv y ts d_max;
  do p <- minimal_stay p tt dv ts;
  do p <- single_line p tt dv y ts d_max;
  do p <- track_occuparion p tt dv y ts d_max;
  do p <- rolling_stock_circ p tt dv ts d_max;
  do p <- switch_occupation p tt dv y ts d_max;
  objective p tt dv ts d_max.

(** ** Reading a solution *)

(** The first variable of the problem with the given name, linear_solver.py:717-718, 734-735 *)
Definition find_var (name : string) (vars : list lpvar) : option lpvar :=
  find (fun v => eqb (v_name v) name) vars.

(** delay_and_acctual_time, linear_solver.py:713-727.  [value] is [v.varValue] for the
    default [data = []] and [data[v.name]] otherwise; [None] is a missing entry (KeyError). *)
Definition delay_and_acctual_time (ts : train_sets) (tt : timetable) (prob : lpproblem)
    (j s : pv) (value : lpvar -> option Q) : res (Q * Q * Q) :=
  match find_var ("Delays_" ++ str j ++ "_" ++ str s) (variables prob) with
  | None => Ok (0, 0, 0)
  | Some v =>
      do delay <- (match value v with Some q => Ok q | None => Err KeyError end);
      do conflicted <- earliest_dep_time (ts_Paths ts) tt j s;
      Ok (delay, delay + conflicted, conflicted)
  end.

(** impact_to_objective, linear_solver.py:730-741 *)
Definition impact_to_objective (prob : lpproblem) (tt : timetable) (j s : pv) (d_max : Q)
    (value : lpvar -> option Q) : res Q :=
  match find_var ("Delays_" ++ str j ++ "_" ++ str s) (variables prob) with
  | None => Ok 0
  | Some v =>
      do delay <- (match value v with Some q => Ok q | None => Err KeyError end);
      if Qeq_bool d_max 0 then Err ZeroDivisionError
      else Ok (penalty_weights tt j s / d_max * delay)
  end.
