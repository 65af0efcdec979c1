(** * Emit: the problem as the list of constraints it is built from

    Proof-level restructuring of LinearSolver.v: every constraint generator adds at most one
    constraint that does not depend on the problem built so far, so the whole problem is the
    list of emitted constraints. *)

From Coq Require Import List String ZArith QArith Bool Arith Lia.
From Verif Require Import Base Pulp Helpers LinearSolver BaseFacts Spec.
Import ListNotations.
Open Scope string_scope.
Open Scope list_scope.

Definition emission : Type := res (option (string * constr)).

Definition apply_emit (p : lpproblem) (e : emission) : res lpproblem :=
  match e with
  | Err x => Err x
  | Ok None => Ok p
  | Ok (Some (n, c)) => add_constraint p n c
  end.

Definition emit1 (n : string) (c : constr) : emission := Ok (Some (n, c)).

(** A possibly failing choice of emissions. *)
Definition or_fail {A} (r : res A) (f : A -> list emission) : list emission :=
  match r with Ok a => f a | Err e => [Err e] end.

Section Generators.
  Variables (tt : timetable) (dv y : tree) (ts : train_sets) (d_max : Q).

  Definition ms_name (s sp j jp : pv) : string :=
    "minimal_span_" ++ str jp ++ "_" ++ str j ++ "_" ++ str s ++ "_" ++ str sp.

  Definition ms_emit (s sp j jp : pv) : emission :=
    do LHS <- earliest_dep_time (ts_Paths ts) tt jp s;
    do RHS0 <- earliest_dep_time (ts_Paths ts) tt j s;
    do h <- tau_headway tt j jp s sp;
    let RHS := RHS0 + h in
    let M := get_M LHS RHS d_max in
    if qltb (LHS - d_max) RHS then
      do vjp <- get2 dv jp s;
      do vj <- get2 dv j s;
      do yv <- get_y3 y jp j s;
      emit1 (ms_name s sp j jp)
        (mk_ge (plus_var LHS vjp) (aff_sub (plus_var RHS vj) (aff_scale M yv)))
    else Ok None.

  Definition sl_name (s sp j jp : pv) : string :=
    "single_line_" ++ str j ++ "_" ++ str jp ++ "_" ++ str s ++ "_" ++ str sp.

  Definition sl_emit (s sp j jp : pv) : emission :=
    do LHS <- earliest_dep_time (ts_Paths ts) tt j s;
    do RHS0 <- earliest_dep_time (ts_Paths ts) tt jp sp;
    do p <- tau_pass tt jp sp s;
    let RHS := RHS0 + p in
    let M := get_M LHS RHS d_max in
    if qltb (LHS - d_max) RHS then
      do vj <- get2 dv j s;
      do vjp <- get2 dv jp sp;
      do yv <- get_y4_singleline y j jp s sp;
      emit1 (sl_name s sp j jp)
        (mk_ge (plus_var LHS vj) (aff_sub (plus_var RHS vjp) (aff_scale M yv)))
    else Ok None.

  Definition stay_name (j s : pv) : string := "minimal_stay_" ++ str j ++ "_" ++ str s.

  Definition stay_emit (j s : pv) : emission :=
    do path <- dlookup j (ts_Paths ts);
    do sp <- previous_station path s;
    if is_none sp then Ok None
    else
      do dj <- tlookup j dv;
      if tmem s dj then
        do v <- get2 dv j s;
        do LHS <- earliest_dep_time (ts_Paths ts) tt j s;
        do vp <- get2 dv j sp;
        do RHS <- earliest_dep_time (ts_Paths ts) tt j sp;
        do tp <- tau_pass tt j sp s;
        do st <- tau_stop tt j s;
        emit1 (stay_name j s) (mk_ge (plus_var LHS v) (plus_var (RHS + tp + st) vp))
      else Ok None.

  Definition kto_name (s j jp sp : pv) : string :=
    "track_occupation_" ++ str j ++ "_" ++ str jp ++ "_" ++ str s ++ "_" ++ str sp.

  Definition kto_emit (s j jp : pv) : emission :=
    do path <- dlookup j (ts_Paths ts);
    do sp <- previous_station path s;
    match dget sp (ts_Jd ts) with
    | None => Ok None
    | Some inner =>
        if dmem s inner then
          do groups <- dlookup s (ts_Jtrack ts);
          if occurs_as_pair j jp groups then
            do mo <- can_MO_on_line j jp s ts;
            if negb mo then
              do b1 <- in_one_station y j jp s;
              do b2 <- (if (b1 : bool) then in_one_station y j jp sp else Ok false);
              if (b2 : bool) then
                do v1 <- get4 y j jp one_station s;
                do v2 <- get4 y j jp one_station sp;
                emit1 (kto_name s j jp sp) (mk_eq (aff_var v1) (aff_var v2))
              else Ok None
            else if entering_via_same_switches ts s j jp then
              do yin <- get_y4_in y in_ j jp s;
              do v <- get4 y j jp one_station s;
              emit1 (kto_name s j jp sp) (mk_eq yin (aff_var v))
            else Ok None
          else Ok None
        else Ok None
    end.

  Definition rr_name (s j jp j_rr : pv) : string :=
    "track_occupation_" ++ str j ++ "_" ++ str jp ++ "_" ++ str j_rr ++ "_" ++ str s.
  Definition tos_name (s j jp : pv) : string :=
    "track_occupation_" ++ str j ++ "_" ++ str jp ++ "_" ++ str s ++ "_p".

  (** Arrival of [jp] at [s]: constant part and the delay variable it carries. *)
  Definition arrival (s jp : pv) : res (Q * option (pv * pv)) :=
    let j_r := previous_train_from_Jround ts jp s in
    do pjp <- dlookup jp (ts_Paths ts);
    do sp <- previous_station pjp s;
    if negb (is_none j_r) then
      do pr <- dlookup j_r (ts_Paths ts);
      do s_rp <- previous_station pr s;
      do e <- earliest_dep_time (ts_Paths ts) tt j_r s_rp;
      do tp <- tau_pass tt j_r s_rp s;
      Ok (e + tp, Some (j_r, s_rp))
    else if negb (is_none sp) then
      do e <- earliest_dep_time (ts_Paths ts) tt jp sp;
      do tp <- tau_pass tt jp sp s;
      Ok (e + tp, Some (jp, sp))
    else
      do e <- earliest_dep_time (ts_Paths ts) tt jp s;
      Ok (e, None).

  Definition arrival_aff (LHS : Q) (src : option (pv * pv)) : res aff :=
    match src with
    | Some (a, b) => do v <- get2 dv a b; Ok (plus_var LHS v)
    | None => Ok (aff_const LHS)
    end.

  Definition tos_emit (s j jp : pv) : emission :=
    let j_rr := subsequent_train_at_Jround ts j s in
    if negb (is_none j_rr) then
      do y1 <- get_y3 y jp j s;
      do y2 <- get_y3 y jp j_rr s;
      emit1 (rr_name s j jp j_rr) (mk_eq y1 y2)
    else
      do '(LHS, src) <- arrival s jp;
      do RHS0 <- earliest_dep_time (ts_Paths ts) tt j s;
      do RHS <- extra_res s tt ts RHS0;
      let M := get_M LHS RHS d_max in
      if qltb (LHS - d_max) RHS then
        do L <- arrival_aff LHS src;
        do yv <- get_y3 y jp j s;
        do v <- get2 dv j s;
        emit1 (tos_name s j jp)
          (mk_ge (aff_sub L (aff_var v)) (aff_sub (aff_const RHS) (aff_scale M yv)))
      else Ok None.

  Definition track_emits (s j jp : pv) : list emission :=
    if not_the_same_rolling_stock j jp ts then
      or_fail (track_skip jp s ts) (fun skip1 =>
        (if skip1 then [] else [kto_emit s j jp; tos_emit s jp j]) ++
        or_fail (track_skip j s ts) (fun skip2 =>
          if skip2 then [] else [tos_emit s j jp]))
    else [].

  Definition sw_name (s jp sp jpp spp : pv) : string :=
    "switch_" ++ str jp ++ "_" ++ str jpp ++ "_" ++ str s ++ "_" ++ str sp ++ "_" ++ str spp.

  (** The order variable of a switch constraint. *)
  Definition sw_order (s jp sp jpp spp : pv) : res aff :=
    if eqb spp sp then
      if eqb sp s then get_y3 y jp jpp sp
      else
        do mo <- can_MO_on_line jp jpp s ts;
        if (mo : bool) then get_y4_in y in_ jp jpp s
        else get_y3 y jp jpp sp
    else if eqb s spp || eqb s sp then get_y4_singleline y jp jpp sp spp
    else get_y4_in y in_ jp jpp s.

  Definition sw_emit (s jp sp jpp spp : pv) : emission :=
    do LHS0 <- earliest_dep_time (ts_Paths ts) tt jp sp;
    do RHS0 <- earliest_dep_time (ts_Paths ts) tt jpp spp;
    do r <- tau_res tt;
    do LHS <- (if eqb s sp then Ok LHS0 else do p <- tau_pass tt jp sp s; Ok (LHS0 + p));
    do RHS <- (if eqb s spp then Ok (RHS0 + r)
               else do p <- tau_pass tt jpp spp s; Ok (RHS0 + r + p));
    let M := get_M LHS RHS d_max in
    if qltb LHS (RHS + d_max) then
      do yv <- sw_order s jp sp jpp spp;
      do v1 <- get2 dv jp sp;
      do v2 <- get2 dv jpp spp;
      emit1 (sw_name s jp sp jpp spp)
        (mk_ge (plus_var LHS v1)
               (aff_add (aff_sub (aff_const RHS) (aff_scale M yv)) (aff_var v2)))
    else Ok None.

  Definition switch_emits (s : pv) (pair : dict pv pv) : list emission :=
    or_fail (unpack2 pair) (fun jj =>
      if not_the_same_rolling_stock (fst jj) (snd jj) ts then
        or_fail (departure_station4switches s (fst jj) pair ts) (fun sp =>
          or_fail (departure_station4switches s (snd jj) pair ts) (fun spp =>
            [sw_emit s (fst jj) sp (snd jj) spp; sw_emit s (snd jj) spp (fst jj) sp]))
      else []).

  Definition circ_name (s j jp : pv) : string :=
    "circulation_" ++ str j ++ "_" ++ str jp ++ "_" ++ str s.

  Definition circ_emit (s j jp : pv) : emission :=
    do pj <- dlookup j (ts_Paths ts);
    do sp <- previous_station pj s;
    do LHS0 <- earliest_dep_time (ts_Paths ts) tt j sp;
    do RHS <- earliest_dep_time (ts_Paths ts) tt jp s;
    do tp <- tau_pass tt j sp s;
    do pr <- tau_prep tt jp s;
    let LHS := LHS0 + tp + pr in
    if qltb RHS (LHS + d_max) then
      do v1 <- get2 dv j sp;
      do v2 <- get2 dv jp s;
      emit1 (circ_name s j jp) (mk_ge (plus_var RHS v2) (plus_var LHS v1))
    else Ok None.

  (** Lists of emissions of the six constraint families, in the order of
      create_linear_problem. *)
  Definition span_list : list emission :=
    flat_map (fun e => flat_map (fun f => flat_map (fun js =>
      flat_map (fun p => [ms_emit (fst e) (fst f) (fst p) (snd p);
                          ms_emit (fst e) (fst f) (snd p) (fst p)])
        (combinations2 js)) (snd f)) (snd e)) (ts_Jd ts).

  Definition stay_list : list emission :=
    flat_map (fun j => or_fail (dlookup j (ts_Paths ts)) (fun path => map (stay_emit j) path))
      (ts_J ts).

  Definition line_list : list emission :=
    flat_map (fun e => flat_map (fun p =>
      if not_the_same_rolling_stock (fst p) (snd p) ts then
        [sl_emit (fst (fst e)) (snd (fst e)) (fst p) (snd p);
         sl_emit (snd (fst e)) (fst (fst e)) (snd p) (fst p)]
      else []) (snd e)) (ts_Josingle ts).

  Definition track_list : list emission :=
    flat_map (fun e => flat_map (fun js =>
      flat_map (fun p => track_emits (fst e) (fst p) (snd p)) (combinations2 js)) (snd e))
      (ts_Jtrack ts).

  Definition circ_list : list emission :=
    flat_map (fun e => map (fun p => circ_emit (fst e) (fst p) (snd p)) (snd e)) (ts_Jround ts).

  Definition switch_list : list emission :=
    flat_map (fun e => flat_map (switch_emits (fst e)) (snd e)) (ts_Jswitch ts).

  Definition emissions : list emission :=
    span_list ++ stay_list ++ line_list ++ track_list ++ circ_list ++ switch_list.

  (** ** Equality with the model of the code *)

  Ltac step :=
    match goal with
    | |- bind ?r _ = apply_emit _ (bind ?r _) =>
        let H := fresh in destruct r eqn:H; [simpl bind; try clear H|reflexivity]
    | |- (if ?b then _ else _) = apply_emit _ (if ?b then _ else _) =>
        let H := fresh in destruct b eqn:H; try clear H
    | |- (match ?b with Some _ => _ | None => _ end) = apply_emit _ (match ?b with Some _ => _ | None => _ end) =>
        let H := fresh in destruct b eqn:H; try clear H
    | |- _ => reflexivity
    end.

  Lemma ms_eq s sp j jp p :
    minimal_span_constrain s sp j jp p tt dv y ts d_max = apply_emit p (ms_emit s sp j jp).
  Proof. unfold minimal_span_constrain, ms_emit. cbv zeta. repeat step. Qed.

  Lemma sl_eq s sp j jp p :
    single_line_constrain s sp j jp p tt dv y ts d_max = apply_emit p (sl_emit s sp j jp).
  Proof. unfold single_line_constrain, sl_emit. cbv zeta. repeat step. Qed.

  Lemma stay_eq j s p : minimal_stay_constrin j s p tt dv ts = apply_emit p (stay_emit j s).
  Proof. unfold minimal_stay_constrin, stay_emit. cbv zeta. repeat step. Qed.

  Lemma kto_eq s j jp p : keep_trains_order s j jp p y ts = apply_emit p (kto_emit s j jp).
  Proof. unfold keep_trains_order, kto_emit. cbv zeta. repeat step. Qed.

  Lemma tos_eq s j jp p :
    trains_order_at_s s j jp p tt dv y ts d_max = apply_emit p (tos_emit s j jp).
  Proof.
    unfold trains_order_at_s, tos_emit, arrival. cbv zeta. step.
    - repeat step.
    - destruct (dlookup jp (ts_Paths ts)); [simpl bind|reflexivity].
      destruct (previous_station a s); [simpl bind|reflexivity].
      destruct (negb (is_none (previous_train_from_Jround ts jp s))).
      + destruct (dlookup (previous_train_from_Jround ts jp s) (ts_Paths ts)); [simpl bind|reflexivity].
        destruct (previous_station a1 s); [simpl bind|reflexivity].
        destruct (earliest_dep_time (ts_Paths ts) tt (previous_train_from_Jround ts jp s) a2);
          [simpl bind|reflexivity].
        destruct (tau_pass tt (previous_train_from_Jround ts jp s) a2 s); [simpl bind|reflexivity].
        unfold arrival_aff. repeat step.
      + destruct (negb (is_none a0)).
        * destruct (earliest_dep_time (ts_Paths ts) tt jp a0); [simpl bind|reflexivity].
          destruct (tau_pass tt jp a0 s); [simpl bind|reflexivity].
          unfold arrival_aff. repeat step.
        * destruct (earliest_dep_time (ts_Paths ts) tt jp s); [simpl bind|reflexivity].
          unfold arrival_aff. repeat step.
  Qed.

  Lemma sw_eq s jp sp jpp spp p :
    switch_occ s jp sp jpp spp p tt dv y ts d_max = apply_emit p (sw_emit s jp sp jpp spp).
  Proof. unfold switch_occ, sw_emit, sw_order. cbv zeta. repeat step. Qed.

  Lemma circ_eq s j jp p :
    rolling_stock_circ_pair s j jp p tt dv ts d_max = apply_emit p (circ_emit s j jp).
  Proof. unfold rolling_stock_circ_pair, circ_emit. cbv zeta. repeat step. Qed.

  Lemma foldM_one e p : foldM apply_emit [e] p = apply_emit p e.
  Proof. simpl. destruct (apply_emit p e); reflexivity. Qed.

  Lemma foldM_two e f p :
    foldM apply_emit [e; f] p = do p1 <- apply_emit p e; apply_emit p1 f.
  Proof. simpl. destruct (apply_emit p e); simpl; auto. destruct (apply_emit a f); reflexivity. Qed.

  Lemma foldM_flat_map_ext {A} (f : lpproblem -> A -> res lpproblem) (g : A -> list emission) l p :
    (forall q x, f q x = foldM apply_emit (g x) q) ->
    foldM f l p = foldM apply_emit (flat_map g l) p.
  Proof.
    intros H. rewrite foldM_flat_map. apply foldM_ext. intros; apply H.
  Qed.

  Lemma span_eq p : minimal_span p tt dv y ts d_max = foldM apply_emit span_list p.
  Proof.
    unfold minimal_span, span_list.
    apply foldM_flat_map_ext; intros p1 e. apply foldM_flat_map_ext; intros p2 f.
    apply foldM_flat_map_ext; intros p3 js. apply foldM_flat_map_ext; intros p4 x.
    rewrite foldM_two, ms_eq. destruct (apply_emit p4 _); [|reflexivity].
    simpl. apply ms_eq.
  Qed.

  Lemma stays_eq p : minimal_stay p tt dv ts = foldM apply_emit stay_list p.
  Proof.
    unfold minimal_stay, stay_list. apply foldM_flat_map_ext; intros p1 j.
    destruct (dlookup j (ts_Paths ts)); [|reflexivity]. simpl.
    rewrite foldM_map. apply foldM_ext. intros; apply stay_eq.
  Qed.

  Lemma line_eq p : single_line p tt dv y ts d_max = foldM apply_emit line_list p.
  Proof.
    unfold single_line, line_list.
    apply foldM_flat_map_ext; intros p1 e. apply foldM_flat_map_ext; intros p2 x.
    destruct (not_the_same_rolling_stock (fst x) (snd x) ts); [|reflexivity].
    rewrite foldM_two, sl_eq. destruct (apply_emit p2 _); [|reflexivity].
    simpl. apply sl_eq.
  Qed.

  Lemma track_pair_eq s j jp p :
    track_occupation_pair s j jp p tt dv y ts d_max = foldM apply_emit (track_emits s j jp) p.
  Proof.
    unfold track_occupation_pair, track_emits.
    destruct (not_the_same_rolling_stock j jp ts); [|reflexivity].
    destruct (track_skip jp s ts) as [k1|]; [|reflexivity]. cbn [or_fail bind].
    rewrite foldM_app. destruct k1; cbn [negb].
    - cbn [bind foldM]. destruct (track_skip j s ts) as [k2|]; [|reflexivity].
      cbn [or_fail bind]. destruct k2; cbn [negb]; [reflexivity|].
      rewrite foldM_one. apply tos_eq.
    - rewrite foldM_two, kto_eq. destruct (apply_emit p _) as [p1|]; [|reflexivity].
      cbn [bind]. rewrite tos_eq. destruct (apply_emit p1 _) as [p2|]; [|reflexivity].
      cbn [bind]. destruct (track_skip j s ts) as [k2|]; [|reflexivity].
      cbn [or_fail bind]. destruct k2; cbn [negb]; [reflexivity|].
      rewrite foldM_one. apply tos_eq.
  Qed.

  Lemma tracks_eq p : track_occuparion p tt dv y ts d_max = foldM apply_emit track_list p.
  Proof.
    unfold track_occuparion, track_list.
    apply foldM_flat_map_ext; intros p1 e. apply foldM_flat_map_ext; intros p2 js.
    apply foldM_flat_map_ext; intros p3 x. apply track_pair_eq.
  Qed.

  Lemma circs_eq p : rolling_stock_circ p tt dv ts d_max = foldM apply_emit circ_list p.
  Proof.
    unfold rolling_stock_circ, circ_list. apply foldM_flat_map_ext; intros p1 e.
    rewrite foldM_map. apply foldM_ext. intros; apply circ_eq.
  Qed.

  Lemma switch_pair_eq s pair p :
    switch_occupation_pair s pair p tt dv y ts d_max = foldM apply_emit (switch_emits s pair) p.
  Proof.
    unfold switch_occupation_pair, switch_emits.
    destruct (unpack2 pair) as [[jp jpp]|]; [|reflexivity]. cbn [or_fail bind fst snd].
    destruct (not_the_same_rolling_stock jp jpp ts); [|reflexivity].
    destruct (departure_station4switches s jp pair ts) as [sp|]; [|reflexivity].
    cbn [or_fail bind].
    destruct (departure_station4switches s jpp pair ts) as [spp|]; [|reflexivity].
    cbn [or_fail bind]. rewrite foldM_two, sw_eq.
    destruct (apply_emit p _) as [p1|]; [|reflexivity]. cbn [bind]. apply sw_eq.
  Qed.

  Lemma switches_eq p : switch_occupation p tt dv y ts d_max = foldM apply_emit switch_list p.
  Proof.
    unfold switch_occupation, switch_list.
    apply foldM_flat_map_ext; intros p1 e. apply foldM_flat_map_ext; intros p2 x.
    apply switch_pair_eq.
  Qed.

  Lemma emissions_eq :
    (do p <- minimal_span empty_problem tt dv y ts d_max;
     do p <- minimal_stay p tt dv ts;
     do p <- single_line p tt dv y ts d_max;
     do p <- track_occuparion p tt dv y ts d_max;
     do p <- rolling_stock_circ p tt dv ts d_max;
     do p <- switch_occupation p tt dv y ts d_max;
     objective p tt dv ts d_max)
    = do p <- foldM apply_emit emissions empty_problem; objective p tt dv ts d_max.
  Proof.
    unfold emissions. rewrite foldM_app, span_eq.
    destruct (foldM apply_emit span_list empty_problem) as [p1|]; [cbn [bind]|reflexivity].
    rewrite foldM_app, stays_eq.
    destruct (foldM apply_emit stay_list p1) as [p2|]; [cbn [bind]|reflexivity].
    rewrite foldM_app, line_eq.
    destruct (foldM apply_emit line_list p2) as [p3|]; [cbn [bind]|reflexivity].
    rewrite foldM_app, tracks_eq.
    destruct (foldM apply_emit track_list p3) as [p4|]; [cbn [bind]|reflexivity].
    rewrite foldM_app, circs_eq.
    destruct (foldM apply_emit circ_list p4) as [p5|]; [cbn [bind]|reflexivity].
    rewrite switches_eq. reflexivity.
  Qed.

  (** ** Objective *)

  Definition obj_add (acc : aff) (i j : pv) : res aff :=
    let w := penalty_weights tt i j in
    if Qeq_bool w 0 then Ok acc
    else
      do v <- get2 dv i j;
      do t <- objective_term v w d_max;
      Ok (aff_add acc t).

  Definition obj_aff : res aff :=
    foldM (fun acc i =>
      do path <- dlookup i (ts_Paths ts);
      foldM (fun acc j => obj_add acc i j) path acc) (ts_J ts) (aff_const 0).

  Lemma objective_eq p : objective p tt dv ts d_max = do a <- obj_aff; Ok (set_objective p a).
  Proof. reflexivity. Qed.
End Generators.

Theorem create_linear_problem_eq ts tt d_max cat :
  create_linear_problem ts tt d_max cat =
  do dv <- delay_varibles ts d_max cat;
  do y <- order_variables ts;
  do p <- foldM apply_emit (emissions tt dv y ts d_max) empty_problem;
  do a <- obj_aff tt dv ts d_max;
  Ok (set_objective p a).
Proof.
  unfold create_linear_problem.
  destruct (delay_varibles ts d_max cat) as [dv|]; [cbn [bind]|reflexivity].
  destruct (order_variables ts) as [y|]; [cbn [bind]|reflexivity].
  rewrite emissions_eq. reflexivity.
Qed.

(** ** Accumulated constraints *)

Fixpoint somes (l : list emission) : list (string * constr) :=
  match l with
  | [] => []
  | Ok (Some nc) :: r => (constraint_name (fst nc), snd nc) :: somes r
  | _ :: r => somes r
  end.

Lemma in_somes nc l :
  In nc (somes l) <-> exists n, In (Ok (Some (n, snd nc))) l /\ fst nc = constraint_name n.
Proof.
  induction l as [|[[[m c]|]|e] l IH]; simpl.
  - split; [tauto|]. intros (n & [] & _).
  - rewrite IH. split.
    + intros [<-|(n & H & E)]; [exists m; auto|exists n; auto].
    + intros (n & [H|H] & E); [left; destruct nc; cbn in *; congruence|right; eauto].
  - rewrite IH. split; intros (n & H & E); exists n; [auto|]. destruct H as [H|H]; [discriminate|auto].
  - rewrite IH. split; intros (n & H & E); exists n; [auto|]. destruct H as [H|H]; [discriminate|auto].
Qed.

Lemma emitted_in n c l : In (Ok (Some (n, c))) l -> In (constraint_name n, c) (somes l).
Proof. intros H. apply in_somes. exists n. auto. Qed.

Lemma somes_emitted n c l :
  In (n, c) (somes l) -> exists m, In (Ok (Some (m, c))) l /\ n = constraint_name m.
Proof. intros H. apply in_somes in H. exact H. Qed.

Lemma NoDup_app_snoc {A} (l : list A) x : NoDup l -> ~ In x l -> NoDup (l ++ [x]).
Proof.
  intros ND Hx. apply NoDup_rev in ND. rewrite <- (rev_involutive (l ++ [x])).
  apply NoDup_rev. rewrite rev_app_distr. simpl. constructor; auto.
  rewrite <- in_rev. exact Hx.
Qed.

Lemma apply_emits_ok l : forall p q,
  NoDup (dkeys (p_constraints p)) ->
  foldM apply_emit l p = Ok q ->
  p_constraints q = p_constraints p ++ somes l /\
  p_objective q = p_objective p /\
  NoDup (dkeys (p_constraints q)) /\
  (forall e, In (Err e) l -> False).
Proof.
  induction l as [|x l IH]; intros p q ND H; simpl in H.
  - inversion H; subst. rewrite app_nil_r. simpl. auto.
  - destruct (apply_emit p x) as [p1|] eqn:E; [|discriminate]. cbn [bind] in H.
    destruct x as [[[n c]|]|e]; simpl in E; [| |discriminate].
    + unfold add_constraint in E. set (n' := constraint_name n) in *. cbn zeta in E. destruct (dmem n' (p_constraints p)) eqn:Em; [discriminate|].
      inversion E; subst; clear E. simpl in *.
      assert (ND1 : NoDup (dkeys (p_constraints p ++ [(n', c)]))).
      { unfold dkeys. rewrite map_app. simpl. apply NoDup_app_snoc; auto.
        intros Hin. apply dmem_false in Em. apply Em. exact Hin. }
      destruct (IH (MkProb (p_constraints p ++ [(n', c)]) (p_objective p)) q ND1 H) as (H1 & H2 & H3 & H4). simpl in *.
      split; [rewrite H1, <- app_assoc; reflexivity|]. split; [exact H2|]. split; [exact H3|].
      intros e [He|He]; [discriminate|eauto].
    + inversion E; subst; clear E. destruct (IH _ _ ND H) as (H1 & H2 & H3 & H4).
      split; [exact H1|]. split; [exact H2|]. split; [exact H3|].
      intros e [He|He]; [discriminate|eauto].
Qed.

Lemma apply_emits_total l p :
  (forall e, ~ In (Err e) l) -> NoDup (dkeys (p_constraints p) ++ map fst (somes l)) ->
  exists q, foldM apply_emit l p = Ok q.
Proof.
  revert p; induction l as [|x l IH]; intros p He ND; simpl.
  - eauto.
  - destruct x as [[[n c]|]|e]; simpl in *.
    + unfold add_constraint. set (n' := constraint_name n) in *. cbn zeta. destruct (dmem n' (p_constraints p)) eqn:Em.
      { exfalso. apply dmem_true in Em.
        apply NoDup_remove_2 in ND. apply ND. apply in_app_iff. left. exact Em. }
      cbn [bind]. apply IH; [intros e H; apply (He e); auto|]. simpl.
      unfold dkeys in *. rewrite map_app, <- app_assoc. exact ND.
    + apply IH; auto. intros e H; apply (He e); auto.
    + exfalso. apply (He e); auto.
Qed.

(** What a successfully built problem consists of. *)
Theorem create_inv ts tt d_max cat p :
  create_linear_problem ts tt d_max cat = Ok p ->
  exists dv y,
    delay_varibles ts d_max cat = Ok dv /\ order_variables ts = Ok y /\
    p_constraints p = somes (emissions tt dv y ts d_max) /\
    NoDup (dkeys (p_constraints p)) /\
    (forall e, ~ In (Err e) (emissions tt dv y ts d_max)) /\
    obj_aff tt dv ts d_max = Ok (p_objective p).
Proof.
  rewrite create_linear_problem_eq. intros H. inv_bind H. inv_bind H. inv_bind H. inv_bind H.
  inversion H; subst; clear H. rename a into dv, a0 into y, a1 into q, a2 into ob.
  exists dv, y.
  destruct (apply_emits_ok _ empty_problem q (NoDup_nil _) E1) as (H1 & H2 & H3 & H4).
  repeat split; auto.
Qed.
