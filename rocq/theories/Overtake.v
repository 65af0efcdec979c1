(** * Overtake: two trains on one line that share a track at its end keep their order (C53) *)

From Coq Require Import List String ZArith QArith Bool Arith Lia Lqa.
From Verif Require Import Base Pulp Helpers LinearSolver BaseFacts Spec SpecOrder TreeFacts OrderVars Emit DelayVars
  Shapes Origin SpecFacts Sound.
Import ListNotations.
Open Scope string_scope.
Open Scope list_scope.

Section Orientation.
  Variables (ts : train_sets) (j k : pv).
  Hypothesis RF : reserved_free ts.
  Hypothesis Mk : In k (mentioned_trains ts).
  Hypothesis LO : listed_in_order ts j k.

  Definition unreversed (y : tree) : Prop :=
    udepth 4 y /\ forall s, tpath [k; j; one_station; s] y = None.

  Lemma update_unreversed y p v y' :
    unreversed y -> List.length p = 4%nat -> (forall s, p <> [k; j; one_station; s]) ->
    update_dictofdicts y (single p v) = Ok y' -> unreversed y'.
  Proof.
    intros [Hd HS] Hl Hp H. destruct (tpath p y) as [w|] eqn:E.
    - rewrite (update_single_old p v y w E) in H. discriminate.
    - rewrite <- Hl in Hd. destruct (update_single_new p v y Hd E) as (t & Hu & Hd' & Ht).
      rewrite H in Hu; inversion Hu; subst t. rewrite Hl in Hd'. split; [exact Hd'|].
      intros s. rewrite Ht by (rewrite Hl; reflexivity).
      destruct (eq_dec _ p) as [E'|_]; [exfalso; apply (Hp s); auto|apply HS].
  Qed.

  Lemma y3_unreversed y a b s y' :
    unreversed y -> (a, b) <> (k, j) -> update_y3 y a b s = Ok y' -> unreversed y'.
  Proof.
    intros Hy Hn H. unfold update_y3 in H. destruct (_ || _); [inversion H; subst; exact Hy|].
    eapply update_unreversed; [exact Hy| | |exact H]; [reflexivity|]. congruence.
  Qed.

  Lemma y4_unreversed y a b s sp y' :
    unreversed y -> s <> one_station -> update_y4 y a b s sp = Ok y' -> unreversed y'.
  Proof.
    intros Hy Hn H. unfold update_y4 in H. destruct (_ || _); [inversion H; subst; exact Hy|].
    eapply update_unreversed; [exact Hy| | |exact H]; [reflexivity|]. congruence.
  Qed.

  Lemma y4in_unreversed y a b s y' :
    unreversed y -> update_y4_in y in_ a b s = Ok y' -> unreversed y'.
  Proof.
    intros Hy H. unfold update_y4_in in H. destruct (_ || _); [inversion H; subst; exact Hy|].
    eapply update_unreversed; [exact Hy| | |exact H]; [reflexivity|].
    intros st E. destruct (rf_train ts RF k Mk) as [Hk _]. congruence.
  Qed.

  Lemma order_variables_unreversed y : order_variables ts = Ok y -> unreversed y.
  Proof.
    destruct LO as (L1 & L2 & L3). unfold order_variables. intros H. inv_bind H.
    assert (S1 : unreversed a).
    { refine (foldM_inv unreversed _ _ _ _ _ _ E).
      - split; [constructor|]. intros s; reflexivity.
      - intros acc [e l] acc' Hin Ha Hf. refine (foldM_inv unreversed _ _ _ _ Ha _ Hf).
        intros acc1 [u w] acc1' Hin1 Ha1 Hf1. cbn [fst snd] in *.
        destruct (mention_single ts e l u w Hin Hin1) as (_ & _ & M3 & _).
        refine (y4_unreversed _ _ _ _ _ _ Ha1 _ Hf1). exact (rf_station ts RF _ M3). }
    inv_bind H. rename a0 into y2.
    assert (S2 : unreversed y2).
    { refine (foldM_inv unreversed _ _ _ _ S1 _ E0). intros a1 [s inner] a1' Hin Ha Hf.
      refine (foldM_inv unreversed _ _ _ _ Ha _ Hf). intros a2 [sp groups] a2' Hin2 Ha2 Hf2.
      refine (foldM_inv unreversed _ _ _ _ Ha2 _ Hf2). intros a3 js a3' Hin3 Ha3 Hf3.
      refine (foldM_inv unreversed _ _ _ _ Ha3 _ Hf3). intros a4 [u w] a4' Hin4 Ha4 Hf4.
      cbn [fst snd] in *. refine (y3_unreversed _ _ _ _ _ Ha4 _ Hf4).
      intros E'. inversion E'; subst. apply (L1 s inner sp groups js Hin Hin2 Hin3).
      apply listed_combinations. exact Hin4. }
    inv_bind H. rename a0 into y3.
    assert (S3 : unreversed y3).
    { refine (foldM_inv unreversed _ _ _ _ S2 _ E1). intros a2 [s groups] a2' Hin2 Ha2 Hf2.
      refine (foldM_inv unreversed _ _ _ _ Ha2 _ Hf2). intros a3 js a3' Hin3 Ha3 Hf3.
      refine (foldM_inv unreversed _ _ _ _ Ha3 _ Hf3). intros a4 [u w] a4' Hin4 Ha4 Hf4.
      cbn [fst snd] in *. refine (y3_unreversed _ _ _ _ _ Ha4 _ Hf4).
      intros E'. inversion E'; subst. apply (L2 s groups js Hin2 Hin3).
      apply listed_combinations. exact Hin4. }
    refine (foldM_inv unreversed _ _ _ _ S3 _ H). intros a2 [s l] a2' Hin2 Ha2 Hf2.
    refine (foldM_inv unreversed _ _ _ _ Ha2 _ Hf2). intros a3 pair a3' Hin3 Ha3 Hf3.
    cbn [fst snd] in *. unfold order_var4switch_pair in Hf3.
    inv_bind Hf3. destruct a0 as [jp jpp].
    assert (NK : (jp, jpp) <> (k, j)).
    { intros E'. inversion E'; subst. unfold unpack2 in E2.
      destruct pair as [|[u1 w1] [|[u2 w2] [|? ?]]]; try discriminate. inversion E2; subst.
      exact (L3 s l w1 w2 Hin2 Hin3). }
    inv_bind Hf3. inv_bind Hf3. rename a0 into sp, a1 into spp.
    assert (K3 : sp <> one_station).
    { eapply departure_station_ok; [exact RF|exact Hin2|exact Hin3| |exact E3].
      unfold unpack2 in E2. destruct pair as [|[u1 w1] [|[u2 w2] [|? ?]]]; try discriminate.
      inversion E2; subst. left; reflexivity. }
    destruct (eqb sp spp).
    - destruct (eqb sp s); [exact (y3_unreversed _ _ _ _ _ Ha3 NK Hf3)|]. inv_bind Hf3.
      destruct a0; [exact (y4in_unreversed _ _ _ _ _ Ha3 Hf3)|exact (y3_unreversed _ _ _ _ _ Ha3 NK Hf3)].
    - destruct (_ || _); [exact (y4_unreversed _ _ _ _ _ _ Ha3 K3 Hf3)|exact (y4in_unreversed _ _ _ _ _ Ha3 Hf3)].
  Qed.
End Orientation.

Lemma in_one_station_true y j k s v :
  tpath [j; k; one_station; s] y = Some v -> in_one_station y j k s = Ok true.
Proof.
  unfold in_one_station, tlookup, dlookup, tmem, dmem. destruct y as [w|e]; cbn [tpath]; [discriminate|].
  destruct (dget j e) as [[w|e1]|]; cbn [tpath bind]; try discriminate.
  destruct (dget k e1) as [[w|e2]|]; cbn [tpath bind]; try discriminate.
  destruct (dget one_station e2) as [[w|e3]|]; cbn [tpath bind]; try discriminate.
  destruct (dget s e3); [reflexivity|discriminate].
Qed.

Lemma get_y3_same y j k s v a : tpath [j; k; one_station; s] y = Some v -> get_y3 y j k s = Ok a -> a = aff_var v.
Proof.
  intros Hv H. apply get_y3_value in H as [(w & Hw & ->)|(w & Hn & _)]; congruence.
Qed.

Lemma get_y3_mirror y j k s v a : store_ok y -> j <> k ->
  tpath [j; k; one_station; s] y = Some v -> get_y3 y k j s = Ok a -> a = one_minus v.
Proof.
  intros Hy Hne Hv H. apply get_y3_value in H as [(w & Hw & ->)|(w & _ & Hw & ->)]; [|congruence].
  exfalso. eapply (so_excl _ Hy); [apply (mirror3 j k s Hne)|exists v; exact Hv|exists w; exact Hw].
Qed.

Lemma before_not_none ts j sp s : reserved_free ts -> comes_before ts j sp s -> sp <> PNone.
Proof.
  intros RF H. destruct (before_on_path ts j sp s H) as (path & Hp' & Hs & _).
  destruct RF as [_ R]. apply R. eapply mention_path; eauto.
Qed.

Section Keep.
  Variables (ts : train_sets) (tt : timetable) (d_max : Q) (cat : vcat) (p : lpproblem) (x : assignment).
  Hypothesis RF : reserved_free ts.
  Hypothesis NF : none_free tt.
  Hypothesis Hd : 0 <= d_max.
  Hypothesis Hp : create_linear_problem ts tt d_max cat = Ok p.
  Hypothesis Hx : feasible p x.

  Theorem no_overtaking sp s inner groups js tgroups tjs j k :
    dget sp (ts_Jd ts) = Some inner -> dget s inner = Some groups -> In js groups -> listed js j k ->
    dget s (ts_Jtrack ts) = Some tgroups -> In tjs tgroups -> listed tjs j k ->
    listed_in_order ts j k -> j <> k -> ~ same_rolling_stock ts j k ->
    comes_before ts j sp s -> comes_before ts k sp s ->
    ~ names_skip ts j s -> ~ names_skip ts k s ->
    turnaround_closed ts s j k -> turnaround_closed ts s k j ->
    exists t t' h h' a d a' d' g,
      departs ts tt p x j sp t /\ departs ts tt p x k sp t' /\
      headway tt j k sp s h /\ headway tt k j sp s h' /\
      occupies_from ts tt p x s j a /\ occupies_until ts tt p x s j d /\
      occupies_from ts tt p x s k a' /\ occupies_until ts tt p x s k d' /\ track_gap ts tt s g /\
      ((t + h <= t' /\ d + g <= a') \/ (t' + h' <= t /\ d' + g <= a)).
  Proof.
    intros J1 J2 J3 J4 T1 T2 T3 LO Hne NS Cj Ck Sj Sk Uj Uk.
    destruct (get_parts ts tt d_max cat p x RF Hp Hx) as (dv & y & P).
    assert (J1' := dget_in _ _ _ J1). assert (J2' := dget_in _ _ _ J2). assert (T1' := dget_in _ _ _ T1).
    assert (Lk : In j js /\ In k js).
    { destruct J4 as (u1 & u2 & u3 & ->). split; rewrite !in_app_iff; cbn; rewrite ?in_app_iff; cbn; auto 6. }
    assert (Mk : In k (mentioned_trains ts)) by (eapply mention_jd; [exact J1'|exact J2'|exact J3|apply Lk]).
    assert (Y := order_variables_unreversed ts j k RF Mk LO y (pt_y _ _ _ _ _ _ _ _ P)).
    destruct (order_variables_cover ts RF y (pt_y _ _ _ _ _ _ _ _ P)) as (_ & V1 & V2 & _).
    assert (P1 : exists v, tpath [j; k; one_station; sp] y = Some v).
    { destruct (V1 sp inner s groups js j k J1' J2' J3) as [X|[v X]]; [apply listed_combinations; exact J4|exact X|].
      rewrite (proj2 Y) in X. discriminate. }
    assert (P2 : exists v, tpath [j; k; one_station; s] y = Some v).
    { destruct (V2 s tgroups tjs j k T1' T2) as [X|[v X]]; [apply listed_combinations; exact T3|exact X|].
      rewrite (proj2 Y) in X. discriminate. }
    destruct P1 as [v1 P1]. destruct P2 as [v2 P2].
    assert (HT : in_track ts s j k).
    { exists tgroups, tjs. repeat split; auto; [apply listed_combinations; exact T3|].
      apply not_same_rolling_spec; exact NS. }
    destruct (track_skip_ok tt dv y ts d_max (pt_noerr _ _ _ _ _ _ _ _ P) s j k HT) as (b1 & b2 & E1 & E2).
    assert (b1 = false) by (eapply track_skip_spec; eauto). subst b1.
    pose proof (o_kto tt dv y ts d_max s j k HT E1) as HO.
    apply comes_before_prev in Cj as Cj'. destruct Cj' as (pj & Pj & Vj & _).
    apply comes_before_prev in Ck as Ck'. destruct Ck' as (pk & Pk & Vk & _).
    assert (Nsp : sp <> PNone).
    { destruct RF as [_ R]. destruct (mention_jd ts sp inner s groups js k J1' J2' J3 (proj2 Lk)) as (_ & M & _).
      exact (proj1 (R sp M)). }
    assert (MO : can_MO_on_line j k s ts = Ok false).
    { unfold can_MO_on_line. unfold dlookup. rewrite Pj. cbn [bind]. rewrite Vj. cbn [bind].
      rewrite Pk. cbn [bind]. rewrite Vk. cbn [bind]. destruct (ts_Jd ts) as [|kv r] eqn:EJ; [discriminate J1|].
      replace (is_none sp) with false by (symmetry; apply eqb_false; exact Nsp). cbn [orb].
      rewrite eqb_refl. cbn [negb]. rewrite J1. cbn [bind]. rewrite J2. cbn [bind].
      replace (occurs_as_pair j k groups) with true; [reflexivity|]. symmetry. apply occurs_as_pair_true.
      split; [exact Hne|]. exists js. split; [exact J3|exact Lk]. }
    assert (KE : kto_emit y ts s j k = Ok (Some (kto_name s j k sp, mk_eq (aff_var v2) (aff_var v1)))).
    { unfold kto_emit. unfold dlookup. rewrite Pj. cbn [bind]. rewrite Vj. cbn [bind]. rewrite J1.
      unfold dmem. rewrite J2. rewrite T1. cbn [bind].
      replace (occurs_as_pair j k tgroups) with true.
      2:{ symmetry. apply occurs_as_pair_true. split; [exact Hne|]. exists tjs. split; [exact T2|].
          destruct T3 as (u1 & u2 & u3 & ->). split; rewrite !in_app_iff; cbn; rewrite ?in_app_iff; cbn; auto 6. }
      rewrite MO. cbn [bind negb].
      rewrite (in_one_station_true _ _ _ _ _ P2). cbn [bind].
      rewrite (in_one_station_true _ _ _ _ _ P1). cbn [bind].
      rewrite (proj2 (get4_tpath _ _ _ _ _ _) P2), (proj2 (get4_tpath _ _ _ _ _ _) P1). reflexivity. }
    rewrite KE in HO.
    pose proof (pt_holds _ _ _ _ _ _ _ _ P _ _ HO) as HH. apply holds_eq in HH. rewrite !eval_var in HH.
    assert (BV : x (v_id v1) == 0 \/ x (v_id v1) == 1).
    { rewrite <- (eval_var v1 x).
      eapply (reading_binary ts tt d_max cat p x RF Hp Hx y); [apply P|exists [j; k; one_station; sp], v1; auto|].
      intros i Hi. eapply (pt_vars _ _ _ _ _ _ _ _ P _ _ i HO). cbn [c_aff mk_eq]. rewrite aff_sub_ids. auto. }
    assert (HS : in_span ts sp s j k)
      by (exists inner, groups, js; repeat split; auto; apply listed_combinations; exact J4).
    destruct (ms_dir ts tt d_max cat p x RF Hd Hp Hx dv y P sp s j k (o_ms _ _ _ _ _ _ _ _ _ HS))
      as (e & e' & h & He & He' & Hh & D1).
    destruct (ms_dir ts tt d_max cat p x RF Hd Hp Hx dv y P sp s k j (o_ms' _ _ _ _ _ _ _ _ _ HS))
      as (e1 & e1' & h' & He1 & He1' & Hh' & D2).
    assert (e1 = e') by congruence. assert (e1' = e) by congruence. subst e1 e1'.
    assert (ST : shares_track ts s j k) by (exists tgroups, tjs; auto).
    assert (ST' : shares_track ts s k j) by (exists tgroups, tjs; auto).
    assert (NS' : ~ same_rolling_stock ts k j) by (intros X; apply NS, same_rolling_sym; exact X).
    destruct (track_dir ts tt d_max cat p x RF NF Hd Hp Hx dv y P s j k ST NS Sj Uj) as (a' & d & g & Ha' & Hdd & Hg & D3).
    destruct (track_dir ts tt d_max cat p x RF NF Hd Hp Hx dv y P s k j ST' NS' Sk Uk) as (a & d' & g' & Ha & Hdd' & Hg' & D4).
    pose proof (track_gap_fun ts tt s g g' Hg Hg') as Egg.
    exists (dep p x j sp e), (dep p x k sp e'), h, h', a, d, a', d', g.
    split; [eapply departs_dep; eauto|]. split; [eapply departs_dep; eauto|].
    do 7 (split; [assumption|]).
    assert (SO := pt_store _ _ _ _ _ _ _ _ P).
    destruct BV as [BV|BV].
    - right. split.
      + destruct D2 as [D2|(yv & Hy & _ & D2)]; [exact D2|]. apply D2.
        rewrite (get_y3_same y j k sp v1 yv P1 Hy), eval_var. exact BV.
      + assert (G : d' + g' <= a); [|lra].
        destruct D4 as [D4|(yv & Hy & _ & D4)]; [exact D4|]. apply D4.
        rewrite (get_y3_same y j k s v2 yv P2 Hy), eval_var. rewrite HH. exact BV.
    - left. split.
      + destruct D1 as [D1|(yv & Hy & _ & D1)]; [exact D1|]. apply D1.
        rewrite (get_y3_mirror y j k sp v1 yv SO Hne P1 Hy), one_minus_eval, BV. ring.
      + destruct D3 as [D3|(yv & Hy & _ & D3)]; [exact D3|]. apply D3.
        rewrite (get_y3_mirror y j k s v2 yv SO Hne P2 Hy), one_minus_eval, HH, BV. ring.
  Qed.

  (** Two trains that enter [s] by the same switches but not along one line with a common headway use
      a common track in the order in which they pass the switches. *)
  Theorem entering_order_kept sp spk s inner groups tgroups tjs l pair j k :
    dget s (ts_Jtrack ts) = Some tgroups -> In tjs tgroups -> listed tjs j k ->
    dget s (ts_Jswitch ts) = Some l -> In pair l ->
    (pair = [(j, PStr "in"); (k, PStr "in")] \/ pair = [(k, PStr "in"); (j, PStr "in")]) ->
    comes_before ts j sp s -> comes_before ts k spk s ->
    dget sp (ts_Jd ts) = Some inner -> dget s inner = Some groups ->
    (sp = spk -> forall js, In js groups -> ~ (In j js /\ In k js)) ->
    j <> k -> ~ same_rolling_stock ts j k ->
    ~ names_skip ts j s -> ~ names_skip ts k s ->
    turnaround_closed ts s j k -> turnaround_closed ts s k j ->
    exists t t' r a d a' d' g,
      uses_switch ts tt p x s pair j t /\ uses_switch ts tt p x s pair k t' /\ reservation tt r /\
      occupies_from ts tt p x s j a /\ occupies_until ts tt p x s j d /\
      occupies_from ts tt p x s k a' /\ occupies_until ts tt p x s k d' /\ track_gap ts tt s g /\
      ((t + r <= t' /\ d + g <= a') \/ (t' + r <= t /\ d' + g <= a)).
  Proof.
    intros T1 T2 T3 W1 W2 W3 Cj Ck J1 J2 NL Hne NS Sj Sk Uj Uk.
    destruct (get_parts ts tt d_max cat p x RF Hp Hx) as (dv & y & P).
    assert (SO := pt_store _ _ _ _ _ _ _ _ P).
    assert (HT : in_track ts s j k).
    { exists tgroups, tjs. repeat split; auto; [apply dget_in; exact T1|apply listed_combinations; exact T3|].
      apply not_same_rolling_spec; exact NS. }
    destruct (track_skip_ok tt dv y ts d_max (pt_noerr _ _ _ _ _ _ _ _ P) s j k HT) as (b1 & b2 & E1 & E2).
    assert (b1 = false) by (eapply track_skip_spec; eauto). subst b1.
    pose proof (o_kto tt dv y ts d_max s j k HT E1) as HO.
    apply comes_before_prev in Cj as Cj'. destruct Cj' as (pj & Pj & Vj & _).
    apply comes_before_prev in Ck as Ck'. destruct Ck' as (pk & Pk & Vk & _).
    assert (Nj : sp <> s).
    { intros ->. destruct Cj as (path & l1 & l2 & _ & _ & Hs). apply Hs, in_app_iff; simpl; auto. }
    assert (Nk : spk <> s).
    { intros ->. destruct Ck as (path & l1 & l2 & _ & _ & Hs). apply Hs, in_app_iff; simpl; auto. }
    assert (KJ : In (s, l) (ts_Jswitch ts)) by (apply dget_in; exact W1).
    assert (DJ : In j (dkeys pair) /\ In k (dkeys pair) /\ dget j pair = Some (PStr "in") /\ dget k pair = Some (PStr "in")).
    { destruct W3 as [->| ->]; simpl; destruct (eq_dec j j); try congruence; destruct (eq_dec k k); try congruence;
        destruct (eq_dec j k); try congruence; destruct (eq_dec k j); try congruence; auto. }
    destruct DJ as (K1 & K2 & G1 & G2).
    assert (D1 : departure_station4switches s j pair ts = Ok sp).
    { unfold departure_station4switches, dlookup. rewrite G1, Pj. exact Vj. }
    assert (D2 : departure_station4switches s k pair ts = Ok spk).
    { unfold departure_station4switches, dlookup. rewrite G2, Pk. exact Vk. }
    assert (Hs1 : station_name_ok sp) by (eapply departure_station_ok; [exact RF|exact KJ|exact W2|exact K1|exact D1]).
    assert (N1 : train_name_ok j) by (eapply rf_train; eauto; eapply mention_switch; eauto).
    assert (N2 : train_name_ok k) by (eapply rf_train; eauto; eapply mention_switch; eauto).
    assert (NS' : ~ same_rolling_stock ts k j) by (intros X; apply NS, same_rolling_sym; exact X).
    assert (MO : can_MO_on_line j k s ts = Ok true /\ can_MO_on_line k j s ts = Ok true).
    { assert (Z1 : is_none sp = false) by (apply eqb_false; eapply before_not_none; eauto).
      assert (Z2 : is_none spk = false) by (apply eqb_false; eapply before_not_none; eauto).
      unfold can_MO_on_line, dlookup. rewrite Pj, Pk. cbn [bind]. rewrite Vj, Vk. cbn [bind].
      destruct (ts_Jd ts) as [|kv r] eqn:EJ; [discriminate J1|]. rewrite Z1, Z2. cbn [orb].
      destruct (eq_dec sp spk) as [<-|Ne].
      - rewrite eqb_refl. cbn [negb]. rewrite J1. cbn [bind]. rewrite J2. cbn [bind].
        rewrite (occurs_as_pair_sym k j).
        replace (occurs_as_pair j k groups) with false; [auto|]. symmetry.
        destruct (occurs_as_pair j k groups) eqn:EO; [|reflexivity].
        apply occurs_as_pair_true in EO as (_ & js & I1 & I2). exfalso. exact (NL eq_refl js I1 I2).
      - replace (eqb sp spk) with false by (symmetry; apply eqb_false; exact Ne).
        replace (eqb spk sp) with false by (symmetry; apply eqb_false; congruence). auto. }
    destruct MO as [MO MO'].
    assert (SW : sw_order y ts s j sp k spk = get_y4_in y in_ j k s /\
                 sw_order y ts s k spk j sp = get_y4_in y in_ k j s).
    { unfold sw_order. rewrite MO, MO'. cbn [bind].
      replace (eqb sp s) with false by (symmetry; apply eqb_false; exact Nj).
      replace (eqb spk s) with false by (symmetry; apply eqb_false; exact Nk).
      rewrite (eqb_sym s spk), (eqb_sym s sp).
      replace (eqb sp s) with false by (symmetry; apply eqb_false; exact Nj).
      replace (eqb spk s) with false by (symmetry; apply eqb_false; exact Nk).
      cbn [orb]. split; [destruct (eqb spk sp)|destruct (eqb sp spk)]; reflexivity. }
    destruct SW as [SW SW'].
    destruct (pt_ok _ _ _ _ _ _ _ _ P _ HO) as [o Eo].
    assert (KE : exists yin v, get_y4_in y in_ j k s = Ok yin /\ tpath [j; k; one_station; s] y = Some v /\
                   kto_emit y ts s j k = Ok (Some (kto_name s j k sp, mk_eq yin (aff_var v)))).
    { unfold kto_emit, dlookup in Eo |- *. rewrite Pj in Eo |- *. cbn [bind] in Eo |- *.
      rewrite Vj in Eo |- *. cbn [bind] in Eo |- *. rewrite J1 in Eo |- *.
      unfold dmem in Eo |- *. rewrite J2, T1 in Eo |- *. cbn [bind] in Eo |- *.
      assert (OP : occurs_as_pair j k tgroups = true).
      { apply occurs_as_pair_true. split; [exact Hne|]. exists tjs. split; [exact T2|].
        destruct T3 as (u1 & u2 & u3 & ->). split; rewrite !in_app_iff; cbn; rewrite ?in_app_iff; cbn; auto 6. }
      rewrite OP, MO in Eo |- *. cbn [bind negb] in Eo |- *.
      assert (EV : entering_via_same_switches ts s j k = true).
      { unfold entering_via_same_switches. rewrite W1. apply existsb_exists. exists pair. split; [exact W2|].
        rewrite G1, G2. rewrite eqb_refl. reflexivity. }
      rewrite EV in Eo |- *. destruct (get_y4_in y in_ j k s) as [yin|]; [|discriminate Eo].
      cbn [bind] in Eo |- *. destruct (get4 y j k one_station s) as [v|] eqn:E4; [|discriminate Eo].
      exists yin, v. split; [reflexivity|]. split; [apply get4_tpath; exact E4|reflexivity]. }
    destruct KE as (yin & v2 & Yin & P2 & KE). rewrite KE in HO. clear Eo o.
    pose proof (pt_holds _ _ _ _ _ _ _ _ P _ _ HO) as HH. apply holds_eq in HH. rewrite eval_var in HH.
    assert (BV : x (v_id v2) == 0 \/ x (v_id v2) == 1).
    { rewrite <- (eval_var v2 x).
      eapply (reading_binary ts tt d_max cat p x RF Hp Hx y); [apply P|exists [j; k; one_station; s], v2; auto|].
      intros i Hi. eapply (pt_vars _ _ _ _ _ _ _ _ P _ _ i HO). cbn [c_aff mk_eq]. rewrite aff_sub_ids. auto. }
    assert (OS : origin tt dv y ts d_max (sw_emit tt dv y ts d_max s j sp k spk) /\
                 origin tt dv y ts d_max (sw_emit tt dv y ts d_max s k spk j sp)).
    { destruct W3 as [W3|W3].
      - assert (HS : in_switch ts s pair j k).
        { exists l. repeat split; auto; [subst pair; reflexivity|]. apply not_same_rolling_spec; auto. }
        split; [eapply o_sw|eapply o_sw']; eauto.
      - assert (HS : in_switch ts s pair k j).
        { exists l. repeat split; auto; [subst pair; reflexivity|]. apply not_same_rolling_spec; auto. }
        split; [eapply o_sw'|eapply o_sw]; eauto. }
    destruct OS as [O1 O2].
    destruct (sw_dir ts tt d_max cat p x RF NF Hd Hp Hx dv y P s j sp k spk pair D1 D2 O1)
      as (t & t' & r & U1 & U2 & A1 & A2 & Hr & X1).
    destruct (sw_dir ts tt d_max cat p x RF NF Hd Hp Hx dv y P s k spk j sp pair D2 D1 O2)
      as (u' & u & r' & _ & _ & A2' & A1' & Hr' & X2).
    assert (r' = r) by (unfold reservation in *; congruence). subst r'.
    assert (u = t).
    { clear - A1 A1'. destruct A1 as (e & He & HC), A1' as (e' & He' & HC').
      assert (e' = e) by congruence; subst e'.
      destruct HC as [[? ->]|[? (q & Hq & ->)]], HC' as [[? ->]|[? (q' & Hq' & ->)]]; congruence. }
    assert (u' = t').
    { clear - A2 A2'. destruct A2 as (e & He & HC), A2' as (e' & He' & HC').
      assert (e' = e) by congruence; subst e'.
      destruct HC as [[? ->]|[? (q & Hq & ->)]], HC' as [[? ->]|[? (q' & Hq' & ->)]]; congruence. }
    subst u u'. rewrite SW in X1. rewrite SW' in X2.
    assert (ST : shares_track ts s j k) by (exists tgroups, tjs; split; [apply dget_in; exact T1|split; auto]).
    assert (ST' : shares_track ts s k j) by (exists tgroups, tjs; split; [apply dget_in; exact T1|split; auto]).
    destruct (track_dir ts tt d_max cat p x RF NF Hd Hp Hx dv y P s j k ST NS Sj Uj) as (a' & d & g & Ha' & Hdd & Hg & D3).
    destruct (track_dir ts tt d_max cat p x RF NF Hd Hp Hx dv y P s k j ST' NS' Sk Uk) as (a & d' & g' & Ha & Hdd' & Hg' & D4).
    pose proof (track_gap_fun ts tt s g g' Hg Hg') as Egg.
    exists (t + value_in p x ("Delays", [j; sp])), (t' + value_in p x ("Delays", [k; spk])), r, a, d, a', d', g.
    do 8 (split; [assumption|]).
    destruct BV as [BV|BV].
    - right. split.
      + destruct X1 as [X1|(yv & Hy & _ & X1)]; [exact X1|]. apply X1.
        assert (yv = yin) by congruence. subst yv. rewrite HH. exact BV.
      + assert (G : d' + g' <= a); [|lra].
        destruct D4 as [D4|(yv & Hy & _ & D4)]; [exact D4|]. apply D4.
        rewrite (get_y3_same y j k s v2 yv P2 Hy), eval_var. exact BV.
    - left. split.
      + destruct X2 as [X2|(yv & Hy & _ & X2)]; [exact X2|]. apply X2.
        pose proof (get_in_complementary y j k s yin yv SO Hne N1 N2 Yin Hy) as C.
        rewrite BV in HH. inversion C; subst; rewrite ?one_minus_eval, ?eval_var in *; lra.
      + destruct D3 as [D3|(yv & Hy & _ & D3)]; [exact D3|]. apply D3.
        rewrite (get_y3_mirror y j k s v2 yv SO Hne P2 Hy), one_minus_eval, BV. ring.
  Qed.
End Keep.
