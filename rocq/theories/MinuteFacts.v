(** * MinuteFacts: all times made from tables are whole minutes *)

From Coq Require Import List String Ascii ZArith QArith Bool Lia Lqa.
From Verif Require Import Base BaseFacts Pulp Helpers LinearSolver DataTables DataSets DataTimes Pipeline
  Spec SpecCompare SpecQubo SpecTables SpecMinutes EndFacts.
Import ListNotations.
Open Scope string_scope.
Open Scope list_scope.

Definition ints (d : dict string Q) : Prop := forall k q, In (k, q) d -> is_int q.

Lemma int_inject z : is_int (inject_Z z).
Proof. exists z. reflexivity. Qed.

Lemma ints_nil : ints [].
Proof. intros k q []. Qed.

Lemma ints_dset k q d : is_int q -> ints d -> ints (dset k q d).
Proof.
  intros I D. induction d as [|[k' q'] d IH]; cbn [dset].
  - intros x y [E|[]]. inversion E; subst. exact I.
  - destruct (eq_dec k k').
    + intros x y [E|H]; [inversion E; subst; exact I|apply (D x y); right; exact H].
    + intros x y [E|H]; [inversion E; subst; apply (D x y); left; reflexivity|].
      apply (IH (fun a b H => D a b (or_intror H)) x y H).
Qed.

Lemma ints_dupdate e : forall d, (forall k q, In (k, q) e -> is_int q) -> ints d -> ints (dupdate d e).
Proof.
  unfold dupdate. induction e as [|[k q] e IH]; intros d E D; cbn [fold_left fst snd]; [exact D|].
  apply IH; [intros; eapply E; right; eauto|]. apply ints_dset; [eapply E; left; reflexivity|exact D].
Qed.

Lemma round_int q : is_int (round_if 1 q).
Proof. apply int_inject. Qed.

Lemma pass_int tt s s2 t : minimal_passing_time tt s s2 1 = Ok t -> is_int t.
Proof.
  unfold minimal_passing_time. destruct (negb _); [discriminate|]. intros H. inv_bind H. destruct a. inv_bind H. inversion H. apply round_int.
Qed.

Lemma taus_pass_int td d : get_taus_pass td None 1 = Ok d -> ints d.
Proof.
  unfold get_taus_pass. apply (foldM_inv ints); [exact ints_nil|]. intros acc i acc' _ A H. inv_bind H. inv_bind H.
  refine (foldM_inv ints _ _ _ _ A _ H). clear. intros acc s acc' _ A H. inv_bind H. destruct a1 as [s2|]; [|inversion H; subst; exact A].
  inv_bind H. inversion H. apply ints_dset; [eapply pass_int; eauto|exact A].
Qed.

Lemma taus_headway_int td st d : get_taus_headway td st 1 = Ok d -> ints d.
Proof.
  unfold get_taus_headway. intros H. inv_bind H. revert H. apply (foldM_inv ints); [exact ints_nil|]. intros acc s acc' _ A H. inv_bind H.
  refine (foldM_inv ints _ _ _ _ A _ H). clear. intros acc e acc' _ A H.
  refine (foldM_inv ints _ _ _ _ A _ H). clear. intros acc p acc' _ A H.
  destruct (eqb _ _); [inversion H; subst; exact A|]. inv_bind H. inversion H. apply ints_dset; [|exact A].
  unfold pair_headway in E. inv_bind E. inv_bind E. inv_bind E. inv_bind E. inv_bind E. inversion E. apply round_int.
Qed.

Lemma taus_prep_int td st d : get_taus_prep td st 1 = Ok d -> ints d.
Proof.
  unfold get_taus_prep. apply (foldM_inv ints); [exact ints_nil|]. intros acc e acc' _ A H. inv_bind H. inv_bind H. inv_bind H.
  destruct (Qeq_bool _ _); inversion H; subst; [exact A|]. apply ints_dset; [|exact A].
  unfold turn_around_time in E1. inv_bind E1. inv_bind E1. inv_bind E1. inversion E1. apply round_int.
Qed.

Lemma table_runs td i tb : train_time_table td i = Ok tb -> runs td i tb.
Proof.
  unfold train_time_table, runs. intros H. inv_bind H. unfold dlookup in E. destruct (dget i td) as [[h t]|]; [|discriminate].
  inversion E; subst. inversion H; subst. exists h. reflexivity.
Qed.

Lemma first_row_in tt b r : first_row tt b = Ok r -> In r tt.
Proof.
  unfold first_row. destruct (filter _ tt) as [|x l] eqn:F; [discriminate|]. intros H. inversion H; subst.
  assert (I : In r (filter (fun r => eqb (r_block r) b) tt)) by (rewrite F; left; reflexivity). apply filter_In in I. apply I.
Qed.

Lemma taus_stop_int td st stop extra : whole_turns td -> get_taus_stop td st None 1 = Ok (stop, extra) -> ints stop /\ ints extra.
Proof.
  intros W. unfold get_taus_stop. intros H. inv_bind H. inversion H; subst; clear H.
  assert (P : ints (fst (snd a)) /\ ints (snd (snd a))); [|rewrite H1 in P; exact P].
  refine (foldM_inv (fun a => ints (fst (snd a)) /\ ints (snd (snd a))) _ _ (false, ([], [])) _ (conj ints_nil ints_nil) _ E). clear - W.
  intros acc i acc' _ A H. inv_bind H.
  refine (foldM_inv (fun a => ints (fst (snd a)) /\ ints (snd (snd a))) _ _ _ _ A _ H). clear - W.
  intros acc is acc' _ [A B] H. unfold taus_stop_station in H. inv_bind H.
  match goal with b : bool |- _ => destruct b end; [inversion H; subst; cbn [fst snd]; auto|]. inv_bind H. match goal with b : (Q * dict string Q)%type |- _ => destruct b as [t prep] end. inversion H; subst; clear H. cbn [fst snd].
  unfold stop_time in E0. inv_bind E0. inv_bind E0. inv_bind E0. inv_bind E0. inv_bind E0.
  pose proof (table_runs _ _ _ E1) as R. pose proof (first_row_in _ _ _ E4) as I.
  destruct (r_turn a3) as [q|] eqn:Q; [|inversion E0; subst; split; [apply ints_dset; [apply round_int|exact A]|exact B]].
  destruct (if Nat.eqb (fst is) 0 then true else fst acc).
  - inversion E0; subst. split; [apply ints_dset; [apply round_int|exact A]|]. apply ints_dupdate; [|exact B].
    intros k q' [X|[]]. inversion X; subst. eapply W; eauto.
  - inversion E0; subst. split; [apply ints_dset; [apply round_int|exact A]|exact B].
Qed.

Lemma schedule_int td t1 d : get_schedule td t1 = Ok d -> ints d.
Proof.
  unfold get_schedule. apply (foldM_inv ints); [exact ints_nil|]. intros acc e acc' _ A H.
  refine (foldM_inv ints _ _ _ _ A _ H). clear. intros acc s acc' _ A H. inv_bind H. inversion H. apply ints_dset; [apply int_inject|exact A].
Qed.

Lemma initial_int td t1 d : get_initial_conditions td t1 = Ok d -> ints d.
Proof.
  unfold get_initial_conditions. apply (foldM_inv ints); [exact ints_nil|]. intros acc e acc' _ A H.
  destruct (filter _ _); [discriminate|]. destruct (r_station r); [|discriminate]. inv_bind H. inversion H. apply ints_dset; [apply int_inject|exact A].
Qed.

Lemma delays_int delays : forall init, whole_delays delays -> ints init ->
  ints (fold_left (fun init d => add_delay init (fst d) (snd d)) delays init).
Proof.
  induction delays as [|[i q] delays IH]; intros init W D; cbn [fold_left fst snd]; [exact D|].
  apply IH; [intros j r I; eapply W; right; eauto|].
  unfold add_delay. apply ints_dupdate; [|exact D]. intros k v I. apply in_map_iff in I as ([k' v'] & E & I). inversion E; subst.
  apply filter_In in I as [I _]. destruct (D k v' I) as [z Hz]. destruct (W i q (or_introl eq_refl)) as [w Hw].
  exists (z + w)%Z. cbn [snd]. rewrite inject_Z_plus, Hz, Hw. reflexivity.
Qed.

Theorem made_integral td st net t1 delays ts tt : whole_turns td -> whole_delays delays ->
  made td st net t1 delays ts tt -> integral_times tt.
Proof.
  intros W D (_ & _ & _ & _ & _ & _ & _ & _ & _ & P & Hw & (prep & extra & Pr & St & EP) & R & Sc & (init & In' & EI)).
  assert (K : forall d : dict string Q, ints d -> forall k q, dget k d = Some q -> is_int q) by (intros d I k q G; exact (I _ _ (dget_in _ _ _ G))).
  destruct (taus_stop_int _ _ _ _ W St) as [S1 S2].
  split; [apply K; eapply taus_pass_int; eauto|]. split; [apply K; eapply taus_headway_int; eauto|]. split; [apply K; exact S1|].
  split; [rewrite EP; apply K, ints_dupdate; [exact S2|eapply taus_prep_int; eauto]|].
  split; [intros q E; rewrite R in E; inversion E; exists 1%Z; reflexivity|]. split; [apply K; eapply schedule_int; eauto|].
  rewrite EI. apply K, delays_int; [exact D|]. eapply initial_int; eauto.
Qed.

(** ** Weights *)

Definition tariff (l : dict string Q) : Prop := forall k q, In (k, q) l -> 0 <= q <= 7 # 4.

Lemma tariff_dset k q d : 0 <= q <= 7 # 4 -> tariff d -> tariff (dset k q d).
Proof.
  intros I D. induction d as [|[k' q'] d IH]; cbn [dset].
  - intros x y [E|[]]. inversion E; subst. exact I.
  - destruct (eq_dec k k').
    + intros x y [E|H]; [inversion E; subst; exact I|apply (D x y); right; exact H].
    + intros x y [E|H]; [inversion E; subst; apply (D x y); left; reflexivity|].
      apply (IH (fun a b H => D a b (or_intror H)) x y H).
Qed.

Lemma length_dset {V} k (v : V) (d : dict string V) : (List.length (dset k v d) <= S (List.length d))%nat.
Proof. induction d as [|[k' v'] d IH]; cbn [dset List.length]; [lia|]. destruct (eq_dec k k'); cbn [List.length]; lia. Qed.

Lemma weights_made td sk w : make_weights td sk (MkWeights 1 (3 # 2) (7 # 4) 0) = Ok w ->
  tariff w /\ NoDup (dkeys w) /\ (List.length w <= List.length td)%nat.
Proof.
  unfold make_weights.
  assert (G : forall l acc r, tariff acc -> NoDup (dkeys acc) ->
    foldM (fun d (e : Z * (list string * table)) =>
      let train := fst e in
      do kind <- lnth (fst (snd e)) 0;
      do weight <- dlookup kind (trains_weights (MkWeights 1 (3 # 2) (7 # 4) 0));
      let weight := if lmem (train / 10)%Z (pair_trains td) then w_empty (MkWeights 1 (3 # 2) (7 # 4) 0) else weight in
      let sts := train_important_stations (snd (snd e)) in
      do station <- last1 sts;
      do station <-
        (match dget train sk with
         | Some sk => if eqb station sk then last2 sts else Ok station
         | None => Ok station
         end);
      Ok (dset (key2 train station) weight d)) l acc = Ok r ->
    tariff r /\ NoDup (dkeys r) /\ (List.length r <= List.length acc + List.length l)%nat).
  { induction l as [|e l IH]; intros acc r A B H; cbn [foldM] in H.
    - inversion H; subst. split; [exact A|]. split; [exact B|]. cbn. lia.
    - inv_bind H. cbn zeta in E. inv_bind E. inv_bind E. inv_bind E. inv_bind E. inversion E; subst; clear E.
      cbn [w_empty] in H. set (q := if lmem (fst e / 10)%Z (pair_trains td) then 0 else a1) in H.
      assert (Q0 : 0 <= q <= 7 # 4).
      { unfold q. destruct (lmem _ _); [split; unfold Qle; cbn; lia|].
        unfold dlookup in E1. cbn [trains_weights w_stopping w_fast w_express] in E1.
        destruct (dget a0 _) as [q'|] eqn:Q; [|discriminate]. inversion E1; subst. apply dget_in in Q. cbn [In] in Q.
        repeat (destruct Q as [Q|Q]; [inversion Q; subst; split; unfold Qle; cbn; lia|]). destruct Q. }
      destruct (IH _ _ (tariff_dset (key2 (fst e) a3) q acc Q0 A) (dset_nodup (key2 (fst e) a3) q acc B) H) as (X & Y & Z).
      split; [exact X|]. split; [exact Y|].
      eapply Nat.le_trans; [exact Z|]. cbn [List.length]. pose proof (length_dset (key2 (fst e) a3) q acc). lia. }
  intros H. destruct (G td [] w ltac:(intros ? ? []) ltac:(constructor) H) as (A & B & C). cbn [List.length] in C. auto.
Qed.

Lemma tariff_sum w : tariff w -> qsum (map snd w) <= (7 # 4) * inject_Z (Z.of_nat (List.length w)).
Proof.
  induction w as [|[k q] w IH]; intros T; [unfold Qle; cbn; lia|]. unfold qsum in *. cbn [map fold_right snd List.length].
  rewrite Nat2Z.inj_succ. unfold Z.succ. rewrite inject_Z_plus. pose proof (T k q (or_introl eq_refl)).
  specialize (IH (fun a b H => T a b (or_intror H))). change (inject_Z 1) with 1. lra.
Qed.
