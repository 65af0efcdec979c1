(** * GlcFacts: fast checks of the problems of the Katowice-Gliwice line (C81, C83)

    The checks build the problem of a scenario from the constraints as they are emitted, without looking for repeated
    names (that there are none is known from C69), and keep variables in search trees.  Nothing here models code of the
    repository. *)

From Coq Require Import List String Ascii ZArith NArith QArith Bool Lia Lqa FMapPositive Permutation SetoidList.
From Verif Require Import Base BaseFacts Pulp Helpers LinearSolver Converters Results DataTables DataSets DataTimes Pipeline Runs
  Spec SpecTables SpecQubo Names Created Check Accept QuboModel Emit EndFacts RealData FastSwitch PropsRecorded BoundCheck.
Import ListNotations.
Open Scope string_scope.
Open Scope list_scope.

(** ** The problem of a scenario *)

Definition emitted (td : train_dict) (st : station_blocks) (t1 : string) (d_max : Q) (cat : vcat) : res (list (Z * Q) -> res lpproblem) :=
  do sk <- get_skip_stations td; do ts <- fast_train_set td st network sk; do t <- make_timetable td st sk t1 None;
  do dv <- delay_varibles ts d_max cat; do y <- order_variables ts;
  Ok (fun dist => do a <- obj_aff (with_delays dist t) dv ts d_max;
                  Ok (MkProb (somes (emissions (with_delays dist t) dv y ts d_max)) a)).

Lemma emitted_ok td st t1 d_max cat f dist ts tt p : emitted td st t1 d_max cat = Ok f ->
  tables_to_problem td st network t1 dist d_max cat = Ok (ts, tt, p) -> f dist = Ok p.
Proof.
  unfold emitted, tables_to_problem. destruct (get_skip_stations td) as [sk|]; [|discriminate]. cbn [bind].
  destruct (fast_train_set td st network sk) as [ts'|] eqn:F; [|discriminate]. rewrite (fast_train_set_ok _ _ _ _ _ F). cbn [bind].
  destruct (make_timetable td st sk t1 None) as [t|]; [|discriminate]. cbn [bind]. cbv zeta.
  destruct (create_linear_problem ts' (with_delays dist t) d_max cat) as [p'|] eqn:C; [|discriminate]. cbn [bind].
  intros H1 H2. inversion H2; subst. apply create_inv in C as (dv & y & Ed & Ey & Ec & _ & _ & Eo). rewrite Ed, Ey in H1. cbn [bind] in H1.
  inversion H1; subst. rewrite Eo. cbn [bind]. rewrite <- Ec. destruct p; reflexivity.
Qed.

(** ** Variables as numbers; different ones should have different numbers, but nothing depends on it *)

Fixpoint string_key (s : string) (k : positive) : positive :=
  match s with
  | EmptyString => k
  | String (Ascii a b c d e f g _) s' =>
      let bit (x : bool) (k : positive) := if x then xI k else xO k in
      string_key s' (bit a (bit b (bit c (bit d (bit e (bit f (bit g k)))))))
  end.

Fixpoint pos_key (z : positive) (k : positive) : positive :=
  match z with xH => xI (xI k) | xO z' => pos_key z' (xO (xO k)) | xI z' => pos_key z' (xI (xO k)) end.

Definition pv_key (v : pv) (k : positive) : positive :=
  match v with
  | PNone => xO (xO k)
  | PInt (Zpos z) => pos_key z (xI (xO k))
  | PInt _ => xO (xI k)
  | PStr s => string_key s (xI (xI k))
  end.

Definition key (v : vid) : positive := fold_left (fun k i => pv_key i k) (snd v) (string_key (fst v) 1).

(** ** Distinct variables, counted *)

Definition occurring (p : lpproblem) : list lpvar :=
  flat_map (fun nc => aff_vars (c_aff (snd nc))) (p_constraints p) ++ aff_vars (p_objective p).

Lemma occurring_in p v : In v (occurring p) <-> occurs p v.
Proof.
  unfold occurring, occurs. rewrite in_app_iff, in_flat_map. split.
  - intros [([n c] & I & J)|I]; [right; exists n, c; auto|left; exact I].
  - intros [I|(n & c & I & J)]; [right; exact I|left; exists (n, c); auto].
Qed.

Definition found (l : list lpvar) (T : PM.t lpvar) : PM.t lpvar :=
  fold_left (fun (T : PM.t lpvar) v => let k := key (v_id v) in match PM.find k T with Some _ => T | None => PM.add k v T end) l T.

Definition is_order_id (i : vid) : bool := is_order_var (MkVar (fst i) (snd i) None None Integer).

Definition fast_sizes (p : lpproblem) : option (N * N * N) :=
  let l := occurring p in
  let T := found l (PM.empty _) in
  if forallb (fun v => match PM.find (key (v_id v)) T with Some u => eqb (v_id u) (v_id v) | None => false end) l then
    let ids := map (fun e => v_id (snd e)) (PM.elements T) in
    let a := List.length (filter is_order_id ids) in
    Some (N.of_nat a, N.of_nat (List.length ids - a), N.of_nat (List.length (p_constraints p)))
  else None.

(** The three numbers of count_vars *)
Definition sizes (p : lpproblem) : N * N * N :=
  let '(a, b, c) := count_vars p in (N.of_nat a, N.of_nat b, N.of_nat c).

Lemma count_filter l n : fold_left (fun n v => if is_order_var v then S n else n) l n = (n + List.length (filter is_order_id (map v_id l)))%nat.
Proof.
  revert n. induction l as [|v l IH]; intros n; cbn [fold_left map filter List.length]; [lia|]. rewrite IH.
  assert (E : is_order_id (v_id v) = is_order_var v) by reflexivity. rewrite E. destruct (is_order_var v); cbn [List.length]; lia.
Qed.

Lemma found_ok l : forall T : PM.t lpvar, (forall k u, PM.find k T = Some u -> k = key (v_id u)) ->
  (forall k u, PM.find k (found l T) = Some u -> k = key (v_id u)) /\
  (forall k u, PM.find k (found l T) = Some u -> PM.find k T = Some u \/ In u l).
Proof.
  induction l as [|v l IH]; intros T H; [split; [exact H|auto]|]. unfold found. cbn [fold_left]. cbv zeta.
  destruct (PM.find (key (v_id v)) T) as [w|] eqn:F.
  - destruct (IH T H) as [A B]. split; [exact A|]. intros k u G. destruct (B k u G); [left; assumption|right; right; assumption].
  - assert (H' : forall k u, PM.find k (PM.add (key (v_id v)) v T) = Some u -> k = key (v_id u)).
    { intros k u. destruct (Pos.eq_dec (key (v_id v)) k) as [<-|N]; [rewrite PM.gss; congruence|rewrite PM.gso by congruence; apply H]. }
    destruct (IH _ H') as [A B]. split; [exact A|]. intros k u G. destruct (B k u G) as [C|C]; [|right; right; exact C].
    destruct (Pos.eq_dec (key (v_id v)) k) as [<-|N]; [rewrite PM.gss in C; right; left; congruence|].
    rewrite PM.gso in C by congruence. left. exact C.
Qed.

Lemma fast_sizes_ok p s : fast_sizes p = Some s -> sizes p = s.
Proof.
  unfold fast_sizes. cbv zeta. set (T := found (occurring p) (PM.empty lpvar)).
  destruct (forallb _ (occurring p)) eqn:A; [|discriminate]. rewrite forallb_forall in A. intros H. injection H as <-.
  destruct (found_ok (occurring p) (PM.empty lpvar)) as [K O]; [intros k u H; rewrite PM.gempty in H; discriminate H|]. fold T in K, O.
  set (ids := map (fun e => v_id (snd e)) (PM.elements T)).
  assert (P : Permutation (map v_id (variables p)) ids).
  { apply NoDup_Permutation; [apply variables_nodup| |].
    - pose proof (PM.elements_3w T) as ND. unfold ids.
      assert (G : forall k u, In (k, u) (PM.elements T) -> k = key (v_id u)) by (intros k u I; apply K, PM.elements_complete, I).
      clear -ND G. induction (PM.elements T) as [|[k u] l IH]; cbn [map snd]; constructor.
      + intros I. apply in_map_iff in I as ([k' u'] & E & I). inversion ND as [|? ? N1 N2]; subst. apply N1. apply InA_alt. exists (k', u').
        split; [|exact I]. unfold PM.eq_key, PM.E.eq. cbn [fst]. rewrite (G k u (or_introl eq_refl)), (G k' u' (or_intror I)).
        cbn [snd] in E. rewrite E. reflexivity.
      + apply IH; [inversion ND; assumption|]. intros k' u' I. apply G. right. exact I.
    - intros i. unfold ids. rewrite !in_map_iff. split.
      + intros (v & <- & I). apply variables_occurs, occurring_in in I. specialize (A v I).
        destruct (PM.find (key (v_id v)) T) as [u|] eqn:F; [|discriminate]. apply eqb_eq in A. exists (key (v_id v), u).
        split; [exact A|]. apply PM.elements_correct, F.
      + intros ([k u] & <- & I). apply PM.elements_complete in I. destruct (O k u I) as [E|I2]; [rewrite PM.gempty in E; discriminate E|].
        apply occurring_in in I2. destruct (occurs_variables p u I2) as (w & Hw & E). exists w. auto. }
  unfold sizes, count_vars. rewrite count_filter. cbn [plus].
  assert (L : List.length (filter is_order_id (map v_id (variables p))) = List.length (filter is_order_id ids)).
  { clear -P. induction P as [|a l l' P IH|a b l|l1 l2 l3 P1 IH1 P2 IH2]; cbn [filter]; [reflexivity| | |congruence].
    - destruct (is_order_id a); cbn [List.length]; congruence.
    - destruct (is_order_id a), (is_order_id b); reflexivity. }
  rewrite L. apply Permutation_length in P. rewrite map_length in P. rewrite P. reflexivity.
Qed.

(** ** Plans: the values of the variables in the order in which they occur first *)

Definition valued (l : list lpvar) (vals : list Z) : PM.t Z * list Z :=
  fold_left (fun (Tv : PM.t Z * list Z) v =>
    let k := key (v_id v) in
    match PM.find k (fst Tv) with
    | Some _ => Tv
    | None => match snd Tv with z :: r => (PM.add k z (fst Tv), r) | [] => Tv end
    end) l (PM.empty _, vals).

Definition plan_of (p : lpproblem) (vals : list Z) : assignment :=
  let T := fst (valued (occurring p) vals) in
  fun i => match PM.find (key i) T with Some z => inject_Z z | None => 0 end.

(** ** Constraints that leave room *)

Definition highest (c : constr) : assignment := fun i =>
  match find (fun vq => eqb (v_id (fst vq)) i) (a_terms (c_aff c)) with
  | Some (v, q) => if Qle_bool 0 q then match v_up v with Some up => up | None => 0 end else 0
  | None => 0
  end.

Definition roomb (c : constr) : bool :=
  match c_sense c with EQ => true | LE => false | GE => negb (Qle_bool (eval (c_aff c) (highest c)) 0) end.

Lemma room_ok ts tt d_max p : reserved_free ts -> create_linear_problem ts tt d_max Integer = Ok p -> is_int d_max -> 0 < d_max ->
  forallb (fun nc => roomb (snd nc)) (p_constraints p) = true -> leaves_room p.
Proof.
  intros RF Cr DI Pos H. rewrite forallb_forall in H. intros n c I NE. specialize (H _ I). cbn [snd] in H. exists (highest c).
  unfold roomb in H. split.
  - intros v Hv. apply variables_occurs in Hv. destruct (created_bounds _ _ _ _ _ RF Cr v Hv) as [Lo Up].
    assert (Z : var_ok v 0).
    { split; [rewrite Lo; intros lo E; inversion E; subst; apply Qle_refl|]. split; [|intros _; exists 0%Z; reflexivity].
      intros up E. destruct Up as [[Up C]|[Up C]]; rewrite Up in E; inversion E; subst; lra. }
    unfold highest. destruct (find _ (a_terms (c_aff c))) as [[w q]|] eqn:F; [|exact Z]. destruct (Qle_bool 0 q); [|exact Z].
    apply find_some in F as [IW E]. apply eqb_eq in E. cbn [fst] in E.
    assert (Ow : occurs p w) by (right; exists n, c; split; [exact I|apply in_map_iff; exists (w, q); auto]).
    destruct (created_consistent _ _ _ _ _ RF Cr w v Ow Hv) as (C1 & C2 & C3).
    { unfold v_id in E. injection E as E1 E2. unfold v_name. rewrite E1, E2. reflexivity. }
    rewrite C2. split; [rewrite Lo; intros lo E0; inversion E0; subst lo|split; [intros up E0; rewrite E0; apply Qle_refl|intros _]];
      destruct Up as [[Up C]|[Up C]]; rewrite Up; [lra|lra|exact DI|exists 1%Z; reflexivity].
  - unfold holds_strictly. destruct (c_sense c); [discriminate H|congruence|]. apply negb_true_iff in H.
    destruct (Qlt_le_dec 0 (eval (c_aff c) (highest c))) as [L|L]; [exact L|]. apply Qle_bool_iff in L. congruence.
Qed.

(** ** One scenario: its recorded sizes, and a plan and a certificate for its least objective times [d_max] *)

Record scenario : Type := MkScenario {
  sc_sizes : N * N * N;
  sc_value : Q;
  sc_plan : list Z;
  sc_cert : certificate;
  sc_bound : Z }.

Definition sizes_okb (p : lpproblem) (s : N * N * N) : bool :=
  match fast_sizes p with Some s' => N.eqb (fst (fst s')) (fst (fst s)) && (N.eqb (snd (fst s')) (snd (fst s)) && N.eqb (snd s') (snd s)) | None => false end.

Definition scenario_okb (p : lpproblem) (s : scenario) : bool :=
  let x := plan_of p (sc_plan s) in
  sizes_okb p (sc_sizes s) &&
  (forallb (fun nc => roomb (snd nc)) (p_constraints p) &&
  (run_okb p x &&
  (Qeq_bool (obj_value p x * 40) (sc_value s) &&
  (Qeq_bool (inject_Z (sc_bound s) * 40) (sc_value s * inject_Z (Zpos (ce_scale (sc_cert s)))) &&
   bounded p (sc_cert s) (sc_bound s))))).

Definition on_scenarios {A} (check : lpproblem -> A -> bool) (f : list (Z * Q) -> res lpproblem) (l : list (list (Z * Q) * A)) : bool :=
  forallb (fun da => match f (fst da) with Ok p => check p (snd da) | Err _ => false end) l.

Definition on_line {A} (check : lpproblem -> A -> bool) (case : Z) (st : station_blocks) (l : list A) (td : train_dict) : bool :=
  match emitted td st "14:00" 40 Integer with
  | Ok f => on_scenarios check f (combine (disturbances case (map PInt (dkeys td))) l)
  | Err _ => false
  end.

Lemma on_line_ok {A} check case st (l : list A) td k dist a ts tt p : on_line check case st l td = true ->
  nth_error (disturbances case (map PInt (dkeys td))) k = Some dist -> nth_error l k = Some a ->
  tables_to_problem td st network "14:00" dist 40 Integer = Ok (ts, tt, p) -> check p a = true.
Proof.
  unfold on_line, on_scenarios. destruct (emitted td st "14:00" 40 Integer) as [f|] eqn:E; [|discriminate].
  rewrite forallb_forall. intros H Nd Na P.
  assert (I : In (dist, a) (combine (disturbances case (map PInt (dkeys td))) l)).
  { clear - Nd Na. revert k l Nd Na. generalize (disturbances case (map PInt (dkeys td))). intros ds.
    induction ds as [|d ds IH]; intros [|k] [|b l]; cbn; try discriminate; intros E1 E2; [left; congruence|right; exact (IH k l E1 E2)]. }
  specialize (H _ I). cbn [fst snd] in H. rewrite (emitted_ok _ _ _ _ _ _ _ _ _ _ E P) in H. exact H.
Qed.
