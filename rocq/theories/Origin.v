(** * Origin: which generator call an emitted constraint comes from *)

From Coq Require Import List String ZArith QArith Bool Arith Lia.
From Verif Require Import Base Pulp Helpers LinearSolver BaseFacts Spec Emit.
Import ListNotations.
Open Scope string_scope.
Open Scope list_scope.

Definition in_span (ts : train_sets) (s sp j jp : pv) : Prop :=
  exists inner groups js, In (s, inner) (ts_Jd ts) /\ In (sp, groups) inner /\ In js groups /\
    In (j, jp) (combinations2 js).

Definition in_line (ts : train_sets) (s sp j jp : pv) : Prop :=
  exists l, In ((s, sp), l) (ts_Josingle ts) /\ In (j, jp) l /\
    not_the_same_rolling_stock j jp ts = true.

Definition in_track (ts : train_sets) (s j jp : pv) : Prop :=
  exists groups js, In (s, groups) (ts_Jtrack ts) /\ In js groups /\
    In (j, jp) (combinations2 js) /\ not_the_same_rolling_stock j jp ts = true.

Definition in_circ (ts : train_sets) (s j jp : pv) : Prop :=
  exists l, In (s, l) (ts_Jround ts) /\ In (j, jp) l.

Definition in_switch (ts : train_sets) (s : pv) (pair : dict pv pv) (jp jpp : pv) : Prop :=
  exists l, In (s, l) (ts_Jswitch ts) /\ In pair l /\ unpack2 pair = Ok (jp, jpp) /\
    not_the_same_rolling_stock jp jpp ts = true.

Section Origin.
  Variables (tt : timetable) (dv y : tree) (ts : train_sets) (d_max : Q).

  Inductive origin : emission -> Prop :=
  | o_ms s sp j jp : in_span ts s sp j jp -> origin (ms_emit tt dv y ts d_max s sp j jp)
  | o_ms' s sp j jp : in_span ts s sp j jp -> origin (ms_emit tt dv y ts d_max s sp jp j)
  | o_stay j s path : In j (ts_J ts) -> dget j (ts_Paths ts) = Some path -> In s path ->
      origin (stay_emit tt dv ts j s)
  | o_sl s sp j jp : in_line ts s sp j jp -> origin (sl_emit tt dv y ts d_max s sp j jp)
  | o_sl' s sp j jp : in_line ts s sp j jp -> origin (sl_emit tt dv y ts d_max sp s jp j)
  | o_kto s j jp : in_track ts s j jp -> track_skip jp s ts = Ok false ->
      origin (kto_emit y ts s j jp)
  | o_tos s j jp : in_track ts s j jp -> track_skip jp s ts = Ok false ->
      origin (tos_emit tt dv y ts d_max s jp j)
  | o_tos' s j jp : in_track ts s j jp -> track_skip j s ts = Ok false ->
      origin (tos_emit tt dv y ts d_max s j jp)
  | o_circ s j jp : in_circ ts s j jp -> origin (circ_emit tt dv ts d_max s j jp)
  | o_sw s pair jp jpp sp spp : in_switch ts s pair jp jpp ->
      departure_station4switches s jp pair ts = Ok sp ->
      departure_station4switches s jpp pair ts = Ok spp ->
      origin (sw_emit tt dv y ts d_max s jp sp jpp spp)
  | o_sw' s pair jp jpp sp spp : in_switch ts s pair jp jpp ->
      departure_station4switches s jp pair ts = Ok sp ->
      departure_station4switches s jpp pair ts = Ok spp ->
      origin (sw_emit tt dv y ts d_max s jpp spp jp sp).

  Lemma in_or_fail {A} (r : res A) f e :
    In e (or_fail r f) -> (exists x, e = Err x) \/ exists a, r = Ok a /\ In e (f a).
  Proof. destruct r; simpl; [eauto|]. intros [<-|[]]. eauto. Qed.

  (** Every emission is an immediate failure of a lookup or comes from a generator. *)
  Theorem emission_origin e :
    In e (emissions tt dv y ts d_max) -> (exists x, e = Err x) \/ origin e.
  Proof.
    unfold emissions. rewrite !in_app_iff. intros [H|[H|[H|[H|[H|H]]]]].
    - unfold span_list in H.
      apply in_flat_map in H as ([s inner] & H1 & H). apply in_flat_map in H as ([sp groups] & H2 & H).
      apply in_flat_map in H as (js & H3 & H). apply in_flat_map in H as ([j jp] & H4 & H).
      simpl in *. assert (in_span ts s sp j jp) by (exists inner, groups, js; auto).
      destruct H as [<-|[<-|[]]]; right; [apply o_ms|apply o_ms']; auto.
    - unfold stay_list in H. apply in_flat_map in H as (j & H1 & H).
      apply in_or_fail in H as [H|(path & Hp & H)]; auto.
      apply in_map_iff in H as (s & <- & Hs). right. eapply o_stay; eauto.
      apply dlookup_ok; eauto.
    - unfold line_list in H. apply in_flat_map in H as ([[s sp] l] & H1 & H).
      apply in_flat_map in H as ([j jp] & H2 & H). simpl in *.
      destruct (not_the_same_rolling_stock j jp ts) eqn:En; [|destruct H].
      assert (in_line ts s sp j jp) by (exists l; auto).
      destruct H as [<-|[<-|[]]]; right; [apply o_sl|apply o_sl']; auto.
    - unfold track_list in H. apply in_flat_map in H as ([s groups] & H1 & H).
      apply in_flat_map in H as (js & H2 & H). apply in_flat_map in H as ([j jp] & H3 & H).
      simpl in *. unfold track_emits in H.
      destruct (not_the_same_rolling_stock j jp ts) eqn:En; [|destruct H].
      assert (HT : in_track ts s j jp) by (exists groups, js; auto).
      apply in_or_fail in H as [H|(k1 & Hk1 & H)]; auto.
      apply in_app_iff in H as [H|H].
      + destruct k1; [destruct H|]. destruct H as [<-|[<-|[]]]; right; [apply o_kto|apply o_tos]; auto.
      + apply in_or_fail in H as [H|(k2 & Hk2 & H)]; auto.
        destruct k2; [destruct H|]. destruct H as [<-|[]]. right. apply o_tos'; auto.
    - unfold circ_list in H. apply in_flat_map in H as ([s l] & H1 & H).
      apply in_map_iff in H as ([j jp] & <- & H2). right. apply o_circ. exists l; auto.
    - unfold switch_list in H. apply in_flat_map in H as ([s l] & H1 & H).
      apply in_flat_map in H as (pair & H2 & H). unfold switch_emits in H. simpl in H.
      apply in_or_fail in H as [H|([jp jpp] & Hu & H)]; auto. simpl in H.
      destruct (not_the_same_rolling_stock jp jpp ts) eqn:En; [|destruct H].
      assert (HT : in_switch ts s pair jp jpp) by (exists l; auto).
      apply in_or_fail in H as [H|(sp & Hsp & H)]; auto.
      apply in_or_fail in H as [H|(spp & Hspp & H)]; auto.
      destruct H as [<-|[<-|[]]]; right; [eapply o_sw|eapply o_sw']; eauto.
  Qed.

  Hypothesis NoErr : forall x, ~ In (Err x) (emissions tt dv y ts d_max).

  Lemma in_parts e :
    In e (span_list tt dv y ts d_max) \/ In e (stay_list tt dv ts) \/
    In e (line_list tt dv y ts d_max) \/ In e (track_list tt dv y ts d_max) \/
    In e (circ_list tt dv ts d_max) \/ In e (switch_list tt dv y ts d_max) ->
    In e (emissions tt dv y ts d_max).
  Proof. unfold emissions. rewrite !in_app_iff. tauto. Qed.

  Lemma in_track_list s j jp e :
    in_track ts s j jp -> In e (track_emits tt dv y ts d_max s j jp) ->
    In e (track_list tt dv y ts d_max).
  Proof.
    intros (groups & js & H1 & H2 & H3 & _) H. unfold track_list.
    apply in_flat_map. exists (s, groups); split; auto. apply in_flat_map. exists js; split; auto.
    apply in_flat_map. exists (j, jp); split; auto.
  Qed.

  (** Conversely every generator call of a successful construction is performed. *)
  Theorem origin_emission e : origin e -> In e (emissions tt dv y ts d_max).
  Proof.
    intros H. inversion H as
      [s sp j jp (inner & groups & js & H1 & H2 & H3 & H4)
      |s sp j jp (inner & groups & js & H1 & H2 & H3 & H4)
      |j s path H1 H2 H3
      |s sp j jp (l & H1 & H2 & H3)|s sp j jp (l & H1 & H2 & H3)
      |s j jp HT Hs|s j jp HT Hs|s j jp HT Hs
      |s j jp (l & H1 & H2)
      |s pair jp jpp sp spp (l & H1 & H2 & H3 & H4) H5 H6
      |s pair jp jpp sp spp (l & H1 & H2 & H3 & H4) H5 H6]; subst; apply in_parts.
    - left. unfold span_list. apply in_flat_map. exists (s, inner); split; auto.
      apply in_flat_map. exists (sp, groups); split; auto. apply in_flat_map. exists js; split; auto.
      apply in_flat_map. exists (j, jp); split; simpl; auto.
    - left. unfold span_list. apply in_flat_map. exists (s, inner); split; auto.
      apply in_flat_map. exists (sp, groups); split; auto. apply in_flat_map. exists js; split; auto.
      apply in_flat_map. exists (j, jp); split; simpl; auto.
    - right; left. unfold stay_list. apply in_flat_map. exists j; split; auto.
      unfold dlookup. rewrite H2. simpl. apply in_map. exact H3.
    - right; right; left. unfold line_list. apply in_flat_map. exists ((s, sp), l); split; auto.
      apply in_flat_map. exists (j, jp); split; auto. simpl. rewrite H3. simpl; auto.
    - right; right; left. unfold line_list. apply in_flat_map. exists ((s, sp), l); split; auto.
      apply in_flat_map. exists (j, jp); split; auto. simpl. rewrite H3. simpl; auto.
    - right; right; right; left. apply (in_track_list s j jp); auto.
      unfold track_emits. destruct HT as (? & ? & ? & ? & ? & Hn). rewrite Hn, Hs. simpl. auto.
    - right; right; right; left. apply (in_track_list s j jp); auto.
      unfold track_emits. destruct HT as (? & ? & ? & ? & ? & Hn). rewrite Hn, Hs. simpl. auto.
    - right; right; right; left. apply (in_track_list s j jp); auto.
      assert (HT' := HT). destruct HT as (? & ? & ? & ? & ? & Hn).
      unfold track_emits. rewrite Hn.
      destruct (track_skip jp s ts) as [k1|xe] eqn:E1.
      + simpl. apply in_app_iff. right. rewrite Hs. simpl. auto.
      + exfalso. apply (NoErr xe). apply in_parts. right; right; right; left.
        apply (in_track_list s j jp); auto. unfold track_emits. rewrite Hn, E1. simpl; auto.
    - right; right; right; right; left. unfold circ_list. apply in_flat_map. exists (s, l); split; auto.
      apply in_map_iff. exists (j, jp); auto.
    - do 5 right. unfold switch_list. apply in_flat_map. exists (s, l); split; auto.
      apply in_flat_map. exists pair; split; auto. unfold switch_emits. rewrite H3. simpl.
      rewrite H4, H5. simpl. rewrite H6. simpl; auto.
    - do 5 right. unfold switch_list. apply in_flat_map. exists (s, l); split; auto.
      apply in_flat_map. exists pair; split; auto. unfold switch_emits. rewrite H3. simpl.
      rewrite H4, H5. simpl. rewrite H6. simpl; auto.
  Qed.

  (** No error: lookups that guard whole groups succeed as well. *)
  Lemma track_skip_ok s j jp :
    in_track ts s j jp -> exists b1 b2, track_skip jp s ts = Ok b1 /\ track_skip j s ts = Ok b2.
  Proof.
    intros HT. assert (HT' := HT). destruct HT' as (? & ? & ? & ? & ? & Hn).
    destruct (track_skip jp s ts) as [b1|x1] eqn:E1.
    - destruct (track_skip j s ts) as [b2|x2] eqn:E2; [eauto|].
      exfalso. apply (NoErr x2). apply in_parts. right; right; right; left.
      apply (in_track_list s j jp); auto. unfold track_emits. rewrite Hn, E1. simpl.
      apply in_app_iff. right. rewrite E2. simpl; auto.
    - exfalso. apply (NoErr x1). apply in_parts. right; right; right; left.
      apply (in_track_list s j jp); auto. unfold track_emits. rewrite Hn, E1. simpl; auto.
  Qed.

  Lemma switch_departures_ok s pair jp jpp :
    in_switch ts s pair jp jpp ->
    exists sp spp, departure_station4switches s jp pair ts = Ok sp /\
                   departure_station4switches s jpp pair ts = Ok spp.
  Proof.
    intros (l & H1 & H2 & H3 & H4).
    assert (Hin : forall e, In e (switch_emits tt dv y ts d_max s pair) ->
                            In e (emissions tt dv y ts d_max)).
    { intros e He. apply in_parts. do 5 right. unfold switch_list. apply in_flat_map.
      exists (s, l); split; auto. apply in_flat_map. exists pair; auto. }
    unfold switch_emits in Hin. rewrite H3 in Hin. simpl in Hin. rewrite H4 in Hin.
    destruct (departure_station4switches s jp pair ts) as [sp|x] eqn:E1.
    - destruct (departure_station4switches s jpp pair ts) as [spp|x] eqn:E2; [eauto|].
      exfalso. apply (NoErr x). apply Hin. simpl; auto.
    - exfalso. apply (NoErr x). apply Hin. simpl; auto.
  Qed.

  Lemma path_ok j : In j (ts_J ts) -> exists path, dget j (ts_Paths ts) = Some path.
  Proof.
    intros Hj. destruct (dget j (ts_Paths ts)) eqn:E; [eauto|].
    exfalso. apply (NoErr KeyError). apply in_parts. right; left. unfold stay_list.
    apply in_flat_map. exists j; split; auto. unfold dlookup. rewrite E. simpl; auto.
  Qed.
End Origin.
