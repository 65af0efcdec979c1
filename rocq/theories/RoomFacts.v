(** * RoomFacts: which inequalities can lack room for a slack (C54, C81) *)

From Coq Require Import List String ZArith QArith Bool Lia Lqa.
From Verif Require Import Base Pulp Helpers LinearSolver BaseFacts Spec TreeFacts OrderVars
  Emit DelayVars Shapes Origin SpecFacts Sound SpecNames Converters SpecQubo QuboModel SpecRoom Created Interp QuboEncode EndFacts.
Import ListNotations.
Open Scope string_scope.
Open Scope list_scope.

Section Room.
  Variables (ts : train_sets) (tt : timetable) (d_max : Q) (p : lpproblem).
  Hypothesis RF : reserved_free ts.
  Hypothesis NF : none_free tt.
  Hypothesis Hd : is_int d_max.
  Hypothesis Pos : 0 < d_max.
  Hypothesis Hp : create_linear_problem ts tt d_max Integer = Ok p.

  (** One variable with value [q], all others 0 *)
  Definition only (i : vid) (q : Q) : assignment := fun k => if eq_dec k i then q else 0.

  Lemma only_at i q : only i q i = q.
  Proof. unfold only. destruct (eq_dec i i); congruence. Qed.

  Lemma only_other i q k : k <> i -> only i q k = 0.
  Proof. unfold only. destruct (eq_dec k i); congruence. Qed.

  Lemma only_range i q : (forall v, canon ts d_max Integer v -> v_id v = i -> var_ok v q) -> in_range p (only i q).
  Proof.
    intros H v Hv. apply variables_occurs in Hv. pose proof (occurs_canon ts tt d_max Integer p RF Hp v Hv) as C.
    unfold only. destruct (eq_dec (v_id v) i) as [E|_]; [exact (H v C E)|].
    destruct (canon_first ts d_max Integer v C) as [(_ & H1 & H2 & H3)|(_ & H1 & H2 & H3)]; unfold var_ok; rewrite H1, H2, H3;
      (split; [intros lo E; injection E as <-; lra|split; [intros up E; injection E as <-; lra|intros _; exists 0%Z; reflexivity]]).
  Qed.

  Lemma delay_range j s : in_range p (only ("Delays", [j; s]) d_max).
  Proof.
    apply only_range. intros v [(a & b & _ & ->)|(q & [->| ->])] E; try discriminate E.
    split; [intros lo L; injection L as <-; lra|split; [intros up L; injection L as <-; lra|intros _; exact Hd]].
  Qed.

  (** An assignment without delays in which an order reading is 1 *)
  Lemma reading_one y a : store_ok y -> reading y a ->
    exists x, in_range p x /\ eval a x == 1 /\ forall j s, x ("Delays", [j; s]) = 0.
  Proof.
    intros SO (q & v & T & A). apply (so_var _ SO) in T.
    assert (Z : exists n, v_id v = n /\ fst n <> "Delays" /\ forall w, canon ts d_max Integer w -> v_id w = n ->
      v_lo w = Some 0 /\ v_up w = Some 1).
    { exists (v_id v). split; [reflexivity|]. split; [destruct T as [->| ->]; discriminate|].
      intros w [(b & c & _ & ->)|(q' & [->| ->])] E; [destruct T as [->| ->]; discriminate E|split; reflexivity|split; reflexivity]. }
    destruct Z as (n & En & Nn & HB).
    assert (OK : forall b, b = 0 \/ b = 1 -> in_range p (only n b)).
    { intros b Hb. apply only_range. intros w C E. destruct (HB w C E) as [H1 H2]. unfold var_ok. rewrite H1, H2.
      split; [intros lo L; injection L as <-; destruct Hb; subst; lra|].
      split; [intros up L; injection L as <-; destruct Hb; subst; lra|]. intros _. destruct Hb; subst; [exists 0%Z|exists 1%Z]; reflexivity. }
    assert (DZ : forall b j s, only n b ("Delays", [j; s]) = 0).
    { intros b j s. apply only_other. intros E. apply Nn. rewrite <- E. reflexivity. }
    destruct A as [->| ->].
    - exists (only n 1). split; [apply OK; auto|]. split; [|apply DZ]. rewrite eval_var, En, only_at. reflexivity.
    - exists (only n 0). split; [apply OK; auto|]. split; [|apply DZ]. rewrite one_minus_eval, En, only_at. reflexivity.
  Qed.

  Lemma big_enough L R : d_max <= L - R + get_M L R d_max.
  Proof. unfold get_M. destruct (qmax_spec (R + d_max - L) 1) as [[H1 H2]|[H1 H2]]; rewrite H2; lra. Qed.

  (** The inequalities with an order reading always have room. *)
  Lemma room_reading y c a : store_ok y -> reading y a -> c_sense c = GE ->
    (forall x, (forall j s, x ("Delays", [j; s]) = 0) -> eval a x == 1 -> d_max <= eval (c_aff c) x) ->
    exists x, in_range p x /\ holds_strictly c x.
  Proof.
    intros SO Ra G H. destruct (reading_one y a SO Ra) as (x & I & E & Z). exists x. split; [exact I|].
    unfold holds_strictly. rewrite G. specialize (H x Z E). lra.
  Qed.

  Lemma ge_value a b x : eval (c_aff (mk_ge a b)) x == eval a x - eval b x.
  Proof. unfold mk_ge. cbn [c_aff]. apply eval_sub. Qed.

  Theorem room_if : stays_in_time ts tt d_max -> turns_in_time ts tt d_max -> leaves_room p.
  Proof.
    intros ST TU n c I NE. destruct (create_inv _ _ _ _ _ Hp) as (dv & y & H1 & H2 & H3 & _ & H4 & H5).
    assert (SO : store_ok y) by (eapply order_variables_ok; eauto).
    assert (G2 : forall j s v, get2 dv j s = Ok v -> v_id v = ("Delays", [j; s]) /\ decided ts j s).
    { intros j s v G. rewrite (get2_char ts d_max Integer dv j s v H1) in G. destruct G as [G ->].
      split; [reflexivity|apply has_delay_decided; auto]. }
    rewrite H3 in I. apply somes_emitted in I as (m & I & _). apply emission_origin in I as [[e I]|O]; [discriminate I|].
    inversion O as
      [s sp j jp _ Ee|s sp j jp _ Ee|j s path J P _ Ee|s sp j jp _ Ee|s sp j jp _ Ee
      |s j jp _ _ Ee|s j jp _ _ Ee|s j jp _ _ Ee|s j jp IC Ee
      |s pair jp jpp sp spp _ _ _ Ee|s pair jp jpp sp spp _ _ _ Ee]; clear O.
    1,2: apply ms_shape in Ee as (L & R & h & _ & _ & _ & [[? _]|(u & v & yv & Hu & Hv & Hyv & _ & Eo)]); [discriminate|];
      injection Eo as _ ->; eapply (room_reading y _ yv SO); [eapply get_y3_reading; exact Hyv|reflexivity|];
      intros x Z E; rewrite ge_value; unfold plus_var; rewrite eval_sub, eval_scale, !eval_add, !eval_const, !eval_var, E;
      rewrite (proj1 (G2 _ _ _ Hu)), (proj1 (G2 _ _ _ Hv)), !Z; pose proof (big_enough L (R + h)); lra.
    2,3: apply sl_shape in Ee as (L & R & h & _ & _ & _ & [[? _]|(u & v & yv & Hu & Hv & Hyv & _ & Eo)]); [discriminate|];
      injection Eo as _ ->; eapply (room_reading y _ yv SO); [eapply get_y4_reading; exact Hyv|reflexivity|];
      intros x Z E; rewrite ge_value; unfold plus_var; rewrite eval_sub, eval_scale, !eval_add, !eval_const, !eval_var, E;
      rewrite (proj1 (G2 _ _ _ Hu)), (proj1 (G2 _ _ _ Hv)), !Z; pose proof (big_enough L (R + h)); lra.
    3,4: apply tos_shape in Ee as [(_ & y1 & y2 & _ & _ & Eo)|(_ & L & src & R0 & R & _ & _ & _ & [[? _]|(La & yv & v & HL & Hyv & Hv & _ & Eo)])];
      [injection Eo as _ ->; exfalso; apply NE; reflexivity|discriminate|];
      injection Eo as _ ->; eapply (room_reading y _ yv SO); [eapply get_y3_reading; exact Hyv|reflexivity|];
      intros x Z E; rewrite ge_value, !eval_sub, eval_scale, eval_const, eval_var, E, (proj1 (G2 _ _ _ Hv)), Z;
      assert (EL : eval La x == L) by
        (unfold arrival_aff in HL; destruct src as [[a b]|];
         [inv_bind HL; injection HL as <-; unfold plus_var; rewrite eval_add, eval_const, eval_var, (proj1 (G2 _ _ _ E0)), Z; lra
         |injection HL as <-; apply eval_const]);
      rewrite EL; pose proof (big_enough L R); lra.
    4,5: apply sw_shape in Ee as (L & R & r & _ & _ & _ & [[? _]|(Rr & yv & v1 & v2 & _ & Hyv & Hu & Hv & _ & Eo)]); [discriminate|];
      injection Eo as _ ->; eapply (room_reading y _ yv SO); [eapply sw_order_reading; exact Hyv|reflexivity|];
      intros x Z E; rewrite ge_value; unfold plus_var; rewrite !eval_add, eval_sub, eval_scale, !eval_const, !eval_var, E;
      rewrite (proj1 (G2 _ _ _ Hu)), (proj1 (G2 _ _ _ Hv)), !Z; pose proof (big_enough L Rr); lra.
    - (* a stay *)
      apply stay_shape in Ee as (path' & sp & Hpath & Hprev & [[? _]|(Nsp & dj & _ & [[? _]|(_ & v & vp & L & R & tp & st & Hv & Hvp & HL & HR & Htp & Hst & Eo)])]);
        [discriminate|discriminate|]. injection Eo as _ ->.
      destruct (prev_cases ts RF _ _ _ _ Hpath Hprev) as [[E _]|[_ Hb]]; [contradiction|].
      destruct (G2 _ _ _ Hv) as [V1 D]. destruct (G2 _ _ _ Hvp) as [V2 _].
      exists (only ("Delays", [j; s]) d_max). split; [apply delay_range|]. unfold holds_strictly. cbn [c_sense mk_ge].
      rewrite ge_value. unfold plus_var. rewrite !eval_add, !eval_const, !eval_var, V1, V2, only_at, only_other.
      2:{ intros E. injection E as E. destruct Hb as (pp & l1 & l2 & _ & _ & N). apply N. rewrite in_app_iff. right; left; exact E. }
      assert (R + tp + st < L + d_max); [|lra].
      apply (ST j sp s R tp st L D Hb); try (apply earliest_dep_time_sound; assumption); apply dlookup_ok; assumption.
    - (* the order of two trains on one track *)
      apply kto_shape in Ee as (path & sp & _ & _ & [?|(c' & inner & groups & Eo & K & _)]); [discriminate|].
      injection Eo as _ <-. exfalso. apply NE. inversion K; reflexivity.
    - (* a turnaround *)
      destruct IC as (l & IC & JC).
      apply circ_shape in Ee as (path & sp & L0 & R & tp & pr & Hpath & Hprev & HL & HR & Htp & Hpr & [[? _]|(v1 & v2 & Hv1 & Hv2 & _ & Eo)]); [discriminate|].
      injection Eo as _ ->.
      destruct (prev_cases ts RF _ _ _ _ Hpath Hprev) as [[E _]|[_ Hb]]; [exfalso; subst sp; eapply edt_not_none; eauto|].
      destruct (G2 _ _ _ Hv1) as [V1 _]. destruct (G2 _ _ _ Hv2) as [V2 _].
      exists (only ("Delays", [jp; s]) d_max). split; [apply delay_range|]. unfold holds_strictly. cbn [c_sense mk_ge].
      rewrite ge_value. unfold plus_var. rewrite !eval_add, !eval_const, !eval_var, V1, V2, only_at, only_other.
      2:{ intros E. injection E as _ E. destruct Hb as (pp & l1 & l2 & _ & _ & N). apply N. rewrite in_app_iff. right; left; exact E. }
      assert (L0 + tp + pr < R + d_max); [|lra].
      apply (TU s j jp). exists l, sp, L0, tp, pr.
      split; [exact IC|split; [exact JC|split; [exact Hb|split; [apply earliest_dep_time_sound; assumption|
        split; [apply dlookup_ok; exact Htp|split; [apply dlookup_ok; exact Hpr|split; [reflexivity|apply earliest_dep_time_sound; assumption]]]]]]].
  Qed.

  Lemma ids_occur n c dv y i : p_constraints p = somes (emissions tt dv y ts d_max) ->
    In (Ok (Some (n, c))) (emissions tt dv y ts d_max) -> In i (aff_ids (c_aff c)) -> exists w, In w (variables p) /\ v_id w = i.
  Proof.
    intros H3 I V. assert (In i (map v_id (variables p))) as X.
    { apply variables_ids. right. exists (constraint_name n), c. split; [rewrite H3; apply emitted_in; exact I|exact V]. }
    apply in_map_iff in X as (w & E & Hw). eauto.
  Qed.

  Lemma delay_id_range x w j s : in_range p x -> In w (variables p) -> v_id w = ("Delays", [j; s]) -> 0 <= x ("Delays", [j; s]) <= d_max.
  Proof.
    intros R Hw E. specialize (R w Hw). apply variables_occurs in Hw. rewrite E in R.
    destruct (occurs_canon ts tt d_max Integer p RF Hp w Hw) as [(a & b & _ & ->)|(q & [->| ->])]; try discriminate E.
    destruct R as (R1 & R2 & _). specialize (R1 0 eq_refl). specialize (R2 d_max eq_refl). exact (conj R1 R2).
  Qed.

  Lemma strict_delays dv y n a b j s j' s' v v' : p_constraints p = somes (emissions tt dv y ts d_max) ->
    delay_varibles ts d_max Integer = Ok dv -> get2 dv j s = Ok v -> get2 dv j' s' = Ok v' -> v_id v' <> v_id v ->
    In (Ok (Some (n, mk_ge (plus_var a v) (plus_var b v')))) (emissions tt dv y ts d_max) -> leaves_room p -> b < a + d_max.
  Proof.
    intros H3 H1 G G' N I LR. apply (get2_char ts d_max Integer dv _ _ _ H1) in G, G'. destruct G as [_ ->], G' as [_ ->].
    destruct (LR (constraint_name n) (mk_ge (plus_var a (delay_var_of j s d_max Integer)) (plus_var b (delay_var_of j' s' d_max Integer))))
      as (x & R & S); [rewrite H3; apply emitted_in; exact I|discriminate|].
    unfold holds_strictly in S. cbn [c_sense mk_ge] in S. rewrite ge_value in S. unfold plus_var in S.
    rewrite !eval_add, !eval_const, !eval_var in S. change (v_id (delay_var_of j s d_max Integer)) with ("Delays", [j; s]) in *.
    change (v_id (delay_var_of j' s' d_max Integer)) with ("Delays", [j'; s']) in *.
    assert (B1 : 0 <= x ("Delays", [j; s]) <= d_max).
    { destruct (ids_occur n (mk_ge (plus_var a (delay_var_of j s d_max Integer)) (plus_var b (delay_var_of j' s' d_max Integer))) dv y ("Delays", [j; s]) H3 I) as (w & Hw & E).
      { cbn [c_aff mk_ge]. rewrite aff_sub_ids, plus_var_ids. left. reflexivity. }
      exact (delay_id_range x w j s R Hw E). }
    assert (B2 : 0 <= x ("Delays", [j'; s']) <= d_max).
    { destruct (ids_occur n (mk_ge (plus_var a (delay_var_of j s d_max Integer)) (plus_var b (delay_var_of j' s' d_max Integer))) dv y ("Delays", [j'; s']) H3 I) as (w & Hw & E).
      { cbn [c_aff mk_ge]. rewrite aff_sub_ids, !plus_var_ids. right. reflexivity. }
      exact (delay_id_range x w j' s' R Hw E). }
    lra.
  Qed.

  Lemma before_same j s sp path sp' : comes_before ts j sp s -> dget j (ts_Paths ts) = Some path -> previous_station path s = Ok sp' -> sp' = sp.
  Proof.
    intros B P Q. destruct (proj1 (comes_before_prev ts j sp s) B) as (path' & P' & Q' & _). congruence.
  Qed.

  Theorem room_only_if : leaves_room p -> stays_in_time ts tt d_max /\ turns_in_time ts tt d_max.
  Proof.
    intros LR. destruct (create_inv _ _ _ _ _ Hp) as (dv & y & H1 & H2 & H3 & _ & H4 & H5).
    assert (OK : forall e, origin tt dv y ts d_max e -> exists o, e = Ok o /\ forall n c, o = Some (n, c) -> In (Ok (Some (n, c))) (emissions tt dv y ts d_max)).
    { intros e O. apply origin_emission in O; [|exact H4]. destruct e as [o|e]; [|exfalso; exact (H4 _ O)].
      exists o. split; [reflexivity|]. intros n c ->. exact O. }
    assert (G2 : forall j s v, get2 dv j s = Ok v -> v_id v = ("Delays", [j; s])).
    { intros j s v G. rewrite (get2_char ts d_max Integer dv j s v H1) in G. destruct G as [G ->]. reflexivity. }
    split.
    - intros j sp s e r st e' D B E Rn Ms E'.
      destruct (before_on_path ts j sp s B) as (path & Hpath & _ & Hin).
      destruct (OK _ (o_stay tt dv y ts d_max j s path (proj1 D) Hpath Hin)) as (o & Eo & Io).
      destruct (stay_shape _ _ _ _ _ _ Eo) as (path' & sp' & Hpath' & Hprev & X).
      assert (sp' = sp) by exact (before_same _ _ _ _ _ B Hpath' Hprev). subst sp'.
      destruct X as [[_ Hn]|[_ (dj & Hdj & X)]]; [exfalso; subst sp; exact (before_not_none ts RF _ _ _ B eq_refl)|].
      assert (Hleaf : tpath [j; s] dv = Some (delay_var_of j s d_max Integer)).
      { apply (delay_varibles_char ts d_max Integer dv H1). split; [apply has_delay_decided; auto|reflexivity]. }
      destruct X as [[_ Hm]|[_ (v & vp & L & R & tp & st' & Hv & Hvp & HL & HR & Htp & Hst & Eo')]].
      { exfalso. destruct dv as [w|d]; [discriminate Hleaf|]. simpl in Hdj.
        apply dlookup_ok in Hdj. cbn [tpath] in Hleaf. rewrite Hdj in Hleaf.
        destruct dj as [w|d']; [discriminate|]. simpl in Hm. apply dmem_false in Hm.
        apply dget_none in Hm. rewrite Hm in Hleaf. discriminate. }
      assert (Q : R + tp + st' < L + d_max).
      { apply (strict_delays dv y (stay_name j s) L (R + tp + st') j s j sp v vp H3 H1 Hv Hvp); [|exact (Io _ _ Eo')|exact LR].
        rewrite (G2 _ _ _ Hv), (G2 _ _ _ Hvp). intros X. injection X as X. destruct B as (pp & l1 & l2 & _ & _ & N). apply N.
        rewrite in_app_iff. right; left; exact X. }
      apply dlookup_ok in Htp, Hst. unfold running, min_stop in Rn, Ms. change (joined [j; sp; s]) with (key_pass j sp s) in Rn.
      change (joined [j; s]) with (key_js j s) in Ms. assert (tp = r) by congruence. assert (st' = st) by congruence. subst.
      rewrite (earliest_fun ts tt j s e' L E' (earliest_dep_time_sound ts RF tt NF _ _ _ HL)).
      rewrite (earliest_fun ts tt j sp e R E (earliest_dep_time_sound ts RF tt NF _ _ _ HR)). exact Q.
    - intros s j jp t e (pairs & sp & e0 & r & pr & I & J & B & E0 & Rn & Pr & Et & E).
      destruct (OK _ (o_circ tt dv y ts d_max s j jp (ex_intro _ pairs (conj I J)))) as (o & Eo & Io).
      destruct (circ_shape _ _ _ _ _ _ _ _ Eo) as (path & sp' & L0 & R & tp & pr' & Hpath & Hprev & HL & HR & Htp & Hpr & X).
      assert (sp' = sp) by exact (before_same _ _ _ _ _ B Hpath Hprev). subst sp'.
      assert (Q : L0 + tp + pr' < R + d_max).
      { destruct X as [[_ X]|(v1 & v2 & Hv1 & Hv2 & _ & Eo')]; [lra|].
        apply (strict_delays dv y (circ_name s j jp) R (L0 + tp + pr') jp s j sp v2 v1 H3 H1 Hv2 Hv1); [|exact (Io _ _ Eo')|exact LR].
        rewrite (G2 _ _ _ Hv1), (G2 _ _ _ Hv2). intros X. injection X as _ X. destruct B as (pp & l1 & l2 & _ & _ & N). apply N.
        rewrite in_app_iff. right; left; exact X. }
      apply dlookup_ok in Htp, Hpr. unfold running, preparation in Rn, Pr. change (joined [j; sp; s]) with (key_pass j sp s) in Rn.
      change (joined [jp; s]) with (key_js jp s) in Pr. assert (tp = r) by congruence. assert (pr' = pr) by congruence. subst.
      rewrite Et, (earliest_fun ts tt jp s e R E (earliest_dep_time_sound ts RF tt NF _ _ _ HR)).
      rewrite (earliest_fun ts tt j sp e0 L0 E0 (earliest_dep_time_sound ts RF tt NF _ _ _ HL)). exact Q.
  Qed.

  (** Where initial conditions are only given at starting stations, stays are never too short. *)
  Lemma stays_always : given_at_start ts tt -> stays_in_time ts tt d_max.
  Proof.
    intros GS j sp s e r st e' D B E Rn Ms E'. inversion E' as [s0 i e1 Hi Hb|s0 sp' e0 r' st' e1 Hi Hc He Hr Hst Hb]; subst.
    - exfalso. exact (GS j sp s i (proj1 D) B Hi).
    - assert (sp' = sp) by (eapply comes_before_fun; eauto). subst sp'. unfold running, min_stop in *.
      assert (r' = r) by congruence. assert (st' = st) by congruence. subst.
      pose proof (earliest_fun ts tt j sp e e0 E He). destruct Hb as [(q & _ & Hb)|[_ Hb]]; lra.
  Qed.

  Theorem room_turns : given_at_start ts tt -> (leaves_room p <-> turns_in_time ts tt d_max).
  Proof.
    intros GS. split; [intros LR; exact (proj2 (room_only_if LR))|intros T; exact (room_if (stays_always GS) T)].
  Qed.

  (** A feasible plan does every turnaround within the largest delay. *)
  Lemma feasible_turns x s j jp t e : feasible p x -> turns_at ts tt s j jp t e -> t <= e + d_max.
  Proof.
    intros F (pairs & sp & e0 & r & pr & I & J & B & E0 & Rn & Pr & Et & E).
    destruct (circulation_kept ts tt d_max Integer p x RF NF (Qlt_le_weak _ _ Pos) Hp F s pairs j jp I J) as (t1 & t2 & pr' & (sp' & t0 & r' & B' & D0 & Rn' & T1) & D2 & Pr' & LE).
    assert (sp' = sp) by (eapply comes_before_fun; eauto). subst sp'. unfold running, preparation in *.
    assert (r' = r) by congruence. assert (pr' = pr) by congruence. subst.
    destruct (departure_bounds ts tt d_max Integer p x RF (Qlt_le_weak _ _ Pos) Hp F j sp t0 D0) as (_ & _ & A).
    destruct (departure_bounds ts tt d_max Integer p x RF (Qlt_le_weak _ _ Pos) Hp F jp s t2 D2) as (_ & _ & A2).
    specialize (A e0 E0). specialize (A2 e E). lra.
  Qed.
  (** Every turnaround of the input has its two times. *)
  Lemma turn_times s pairs j jp : In (s, pairs) (ts_Jround ts) -> In (j, jp) pairs ->
    exists t e, turns_at ts tt s j jp t e /\ forall t' e', turns_at ts tt s j jp t' e' -> t' == t /\ e' == e.
  Proof.
    intros I J. destruct (create_inv _ _ _ _ _ Hp) as (dv & y & H1 & H2 & H3 & _ & H4 & H5).
    pose proof (origin_emission tt dv y ts d_max H4 _ (o_circ tt dv y ts d_max s j jp (ex_intro _ pairs (conj I J)))) as O.
    destruct (circ_emit tt dv ts d_max s j jp) as [o|er] eqn:Eo; [|exfalso; exact (H4 _ O)].
    destruct (circ_shape _ _ _ _ _ _ _ _ Eo) as (path & sp & L0 & R & tp & pr & Hpath & Hprev & HL & HR & Htp & Hpr & _).
    destruct (prev_cases ts RF _ _ _ _ Hpath Hprev) as [[E _]|[_ Hb]]; [exfalso; subst sp; eapply edt_not_none; eauto|].
    pose proof (earliest_dep_time_sound ts RF tt NF _ _ _ HL) as EL. pose proof (earliest_dep_time_sound ts RF tt NF _ _ _ HR) as ER.
    apply dlookup_ok in Htp, Hpr. exists (L0 + tp + pr), R. split.
    - exists pairs, sp, L0, tp, pr. repeat (split; [assumption|]). split; [reflexivity|exact ER].
    - intros t' e' (pairs' & sp' & e0 & r & pr' & _ & _ & B & E0 & Rn & Pr & Et & E).
      assert (sp' = sp) by (eapply comes_before_fun; eauto). subst sp'. unfold running, preparation in Rn, Pr.
      change (joined [j; sp; s]) with (key_pass j sp s) in Rn. change (joined [jp; s]) with (key_js jp s) in Pr.
      assert (r = tp) by congruence. assert (pr' = pr) by congruence. subst.
      split; [rewrite Et, (earliest_fun ts tt j sp e0 L0 E0 EL); reflexivity|exact (earliest_fun ts tt jp s e' R E ER)].
  Qed.

  Lemma turns_decided : turns_in_time ts tt d_max \/ exists s j jp t e, turns_at ts tt s j jp t e /\ e + d_max <= t.
  Proof.
    assert (D : forall l, incl l (ts_Jround ts) ->
      (forall s pairs j jp t e, In (s, pairs) l -> In (j, jp) pairs -> turns_at ts tt s j jp t e -> t < e + d_max) \/
      exists s j jp t e, turns_at ts tt s j jp t e /\ e + d_max <= t).
    { induction l as [|[s pairs] l IH]; intros I; [left; intros s pairs j jp t e []|].
      destruct IH as [IH|IH]; [intros a A; apply I; right; exact A| |right; exact IH].
      assert (P : forall m, incl m pairs -> (forall j jp t e, In (j, jp) m -> turns_at ts tt s j jp t e -> t < e + d_max) \/
        exists s j jp t e, turns_at ts tt s j jp t e /\ e + d_max <= t).
      { induction m as [|[j jp] m IHm]; intros M; [left; intros j jp t e []|].
        destruct IHm as [IHm|IHm]; [intros a A; apply M; right; exact A| |right; exact IHm].
        destruct (turn_times s pairs j jp (I _ (or_introl eq_refl)) (M _ (or_introl eq_refl))) as (t & e & A & U).
        destruct (Qlt_le_dec t (e + d_max)) as [L|L]; [left|right; exists s, j, jp, t, e; auto].
        intros j' jp' t' e' [X|X] A'; [injection X as <- <-; destruct (U _ _ A'); lra|exact (IHm _ _ _ _ X A')]. }
      destruct (P pairs (fun a A => A)) as [P'|P']; [left|right; exact P'].
      intros s' pairs' j jp t e [X|X] J A; [injection X as <- <-; exact (P' _ _ _ _ J A)|exact (IH _ _ _ _ _ _ X J A)]. }
    destruct (D (ts_Jround ts) (fun a A => A)) as [L|L]; [left|right; exact L].
    intros s j jp t e A. pose proof A as (pairs & _ & _ & _ & _ & I & J & _). exact (L _ _ _ _ _ _ I J A).
  Qed.
End Room.
