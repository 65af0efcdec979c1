(** * ConstraintNames: every rule names its constraints after itself (C16) *)

From Coq Require Import List String Ascii ZArith QArith Bool.
From Verif Require Import Base Pulp Helpers LinearSolver BaseFacts Emit Converters SpecQubo.
Import ListNotations.
Open Scope string_scope.
Open Scope list_scope.

Definition named (rule : string) (e : emission) : Prop :=
  forall n c, e = Ok (Some (n, c)) -> starts_with (rule ++ "_") n.

Ltac names H :=
  repeat match type of H with
         | bind ?r _ = _ => let a := fresh "a" in let E := fresh "E" in
                            apply bind_ok in H; destruct H as [a [E H]]
         | (let '(_, _) := ?a in _) = _ => destruct a
         | (match ?a with (_, _) => _ end) = _ => destruct a
         | (if ?b then _ else _) = _ => destruct b
         | (match ?b with Some _ => _ | None => _ end) = _ => destruct b
         | Ok None = _ => discriminate H
         | Err _ = _ => discriminate H
         | emit1 _ _ = _ => injection H as <- <-; eexists; reflexivity
         end.

Section Names.
  Variables (tt : timetable) (dv y : tree) (ts : train_sets) (d_max : Q).

  Lemma ms_named s sp j jp : named "minimal_span" (ms_emit tt dv y ts d_max s sp j jp).
  Proof. intros n c H. unfold ms_emit in H. cbv zeta in H. names H. Qed.
  Lemma sl_named s sp j jp : named "single_line" (sl_emit tt dv y ts d_max s sp j jp).
  Proof. intros n c H. unfold sl_emit in H. cbv zeta in H. names H. Qed.
  Lemma stay_named j s : named "minimal_stay" (stay_emit tt dv ts j s).
  Proof. intros n c H. unfold stay_emit in H. cbv zeta in H. names H. Qed.
  Lemma kto_named s j jp : named "track_occupation" (kto_emit y ts s j jp).
  Proof. intros n c H. unfold kto_emit in H. cbv zeta in H. names H. Qed.
  Lemma tos_named s j jp : named "track_occupation" (tos_emit tt dv y ts d_max s j jp).
  Proof. intros n c H. unfold tos_emit in H. cbv zeta in H. names H. Qed.
  Lemma sw_named s jp sp jpp spp : named "switch" (sw_emit tt dv y ts d_max s jp sp jpp spp).
  Proof. intros n c H. unfold sw_emit in H. cbv zeta in H. names H. Qed.
  Lemma circ_named s j jp : named "circulation" (circ_emit tt dv ts d_max s j jp).
  Proof. intros n c H. unfold circ_emit in H. cbv zeta in H. names H. Qed.

  Lemma named_none rule : named rule (Ok None).
  Proof. intros n c H. discriminate. Qed.
  Lemma named_err rule e : named rule (Err e).
  Proof. intros n c H. discriminate. Qed.

  Lemma in_or_fail_named {A} rule (r : res A) f e :
    (forall a e, In e (f a) -> named rule e) -> In e (or_fail r f) -> named rule e.
  Proof.
    intros Hf. destruct r as [a|x]; simpl; [apply Hf|]. intros [<-|[]]. apply named_err.
  Qed.

  Lemma span_named e : In e (span_list tt dv y ts d_max) -> named "minimal_span" e.
  Proof.
    unfold span_list. intros H. apply in_flat_map in H as (? & _ & H). apply in_flat_map in H as (? & _ & H).
    apply in_flat_map in H as (? & _ & H). apply in_flat_map in H as (? & _ & H).
    destruct H as [<-|[<-|[]]]; apply ms_named.
  Qed.

  Lemma stays_named e : In e (stay_list tt dv ts) -> named "minimal_stay" e.
  Proof.
    unfold stay_list. intros H. apply in_flat_map in H as (j & _ & H).
    eapply in_or_fail_named; [|exact H]. intros path e' H'. apply in_map_iff in H' as (? & <- & _).
    apply stay_named.
  Qed.

  Lemma lines_named e : In e (line_list tt dv y ts d_max) -> named "single_line" e.
  Proof.
    unfold line_list. intros H. apply in_flat_map in H as (? & _ & H). apply in_flat_map in H as (? & _ & H).
    destruct (not_the_same_rolling_stock _ _ _); [|destruct H].
    destruct H as [<-|[<-|[]]]; apply sl_named.
  Qed.

  Lemma tracks_named e : In e (track_list tt dv y ts d_max) -> named "track_occupation" e.
  Proof.
    unfold track_list. intros H. apply in_flat_map in H as (? & _ & H). apply in_flat_map in H as (? & _ & H).
    apply in_flat_map in H as (? & _ & H). unfold track_emits in H.
    destruct (not_the_same_rolling_stock _ _ _); [|destruct H].
    eapply in_or_fail_named; [|exact H]. intros b e1 H1. apply in_app_iff in H1 as [H1|H1].
    - destruct b; [destruct H1|]. destruct H1 as [<-|[<-|[]]]; [apply kto_named|apply tos_named].
    - eapply in_or_fail_named; [|exact H1]. intros b2 e2 H2. destruct b2; [destruct H2|].
      destruct H2 as [<-|[]]. apply tos_named.
  Qed.

  Lemma circs_named e : In e (circ_list tt dv ts d_max) -> named "circulation" e.
  Proof.
    unfold circ_list. intros H. apply in_flat_map in H as (? & _ & H). apply in_map_iff in H as (? & <- & _).
    apply circ_named.
  Qed.

  Lemma switches_named e : In e (switch_list tt dv y ts d_max) -> named "switch" e.
  Proof.
    unfold switch_list. intros H. apply in_flat_map in H as (? & _ & H). apply in_flat_map in H as (? & _ & H).
    unfold switch_emits in H. eapply in_or_fail_named; [|exact H]. intros jj e1 H1.
    cbv beta in H1. destruct (not_the_same_rolling_stock (fst jj) (snd jj) ts); [|destruct H1].
    eapply in_or_fail_named; [|exact H1]. intros sp e2 H2.
    eapply in_or_fail_named; [|exact H2]. intros spp e3 H3.
    destruct H3 as [<-|[<-|[]]]; apply sw_named.
  Qed.
End Names.

Lemma emits_added l : forall p q, foldM apply_emit l p = Ok q -> p_constraints q = p_constraints p ++ somes l.
Proof.
  induction l as [|e l IH]; intros p q H; cbn [foldM] in H.
  - inversion H. rewrite app_nil_r. reflexivity.
  - inv_bind H. apply IH in H. rewrite H. destruct e as [[[n c]|]|x]; cbn in E |- *; [| |discriminate].
    + unfold add_constraint in E. cbv zeta in E. destruct (dmem _ _); [discriminate|]. inversion E. cbn.
      rewrite <- app_assoc. reflexivity.
    + inversion E. reflexivity.
Qed.

Lemma smap_app f a b : smap f (a ++ b)%string = (smap f a ++ smap f b)%string.
Proof. induction a as [|c a IH]; cbn; [reflexivity|]. rewrite IH. reflexivity. Qed.

Lemma stage_adds rule l p q :
  constraint_name (rule ++ "_")%string = (rule ++ "_")%string ->
  (forall e, In e l -> named rule e) -> foldM apply_emit l p = Ok q -> adds_rule rule p q.
Proof.
  intros Hr Hn H. exists (somes l). split; [apply emits_added; exact H|].
  intros n c Hc. apply somes_emitted in Hc as (m & Hm & ->).
  destruct (Hn _ Hm m c eq_refl) as [rest ->]. exists (constraint_name rest).
  unfold constraint_name in *. rewrite smap_app, Hr. reflexivity.
Qed.

Theorem stages_named tt dv y ts d_max p p' :
  (minimal_span p tt dv y ts d_max = Ok p' -> adds_rule "minimal_span" p p') /\
  (minimal_stay p tt dv ts = Ok p' -> adds_rule "minimal_stay" p p') /\
  (single_line p tt dv y ts d_max = Ok p' -> adds_rule "single_line" p p') /\
  (track_occuparion p tt dv y ts d_max = Ok p' -> adds_rule "track_occupation" p p') /\
  (rolling_stock_circ p tt dv ts d_max = Ok p' -> adds_rule "circulation" p p') /\
  (switch_occupation p tt dv y ts d_max = Ok p' -> adds_rule "switch" p p').
Proof.
  rewrite span_eq, stays_eq, line_eq, tracks_eq, circs_eq, switches_eq.
  repeat split; apply stage_adds; try reflexivity;
    eauto using span_named, stays_named, lines_named, tracks_named, circs_named, switches_named.
Qed.

Theorem placeholder_of_rule rule n :
  In rule rule_names -> starts_with (rule ++ "_") n -> get_placeholder n = Ok rule.
Proof. intros H [rest ->]. cbn [rule_names In] in H. intuition subst; destruct rest; reflexivity. Qed.

Theorem names_nodup ts tt d_max cat p :
  create_linear_problem ts tt d_max cat = Ok p -> NoDup (dkeys (p_constraints p)).
Proof. intros H. destruct (create_inv _ _ _ _ _ H) as (dv & y & _ & _ & _ & ND & _). exact ND. Qed.

Theorem every_name ts tt d_max cat p n c :
  create_linear_problem ts tt d_max cat = Ok p -> In (n, c) (p_constraints p) ->
  exists rule, In rule rule_names /\ starts_with (rule ++ "_") n.
Proof.
  intros H Hn. unfold create_linear_problem in H. do 8 inv_bind H.
  destruct (stages_named tt a a0 ts d_max empty_problem a1) as [S1 _]. specialize (S1 E1).
  destruct (stages_named tt a a0 ts d_max a1 a2) as (_ & S2 & _). specialize (S2 E2).
  destruct (stages_named tt a a0 ts d_max a2 a3) as (_ & _ & S3 & _). specialize (S3 E3).
  destruct (stages_named tt a a0 ts d_max a3 a4) as (_ & _ & _ & S4 & _). specialize (S4 E4).
  destruct (stages_named tt a a0 ts d_max a4 a5) as (_ & _ & _ & _ & S5 & _). specialize (S5 E5).
  destruct (stages_named tt a a0 ts d_max a5 a6) as (_ & _ & _ & _ & _ & S6). specialize (S6 E6).
  assert (EP : p_constraints p = p_constraints a6).
  { rewrite objective_eq in H. inv_bind H. inversion H. reflexivity. }
  rewrite EP in Hn.
  destruct S1 as (l1 & L1 & R1), S2 as (l2 & L2 & R2), S3 as (l3 & L3 & R3), S4 as (l4 & L4 & R4),
    S5 as (l5 & L5 & R5), S6 as (l6 & L6 & R6).
  rewrite L6, L5, L4, L3, L2, L1, !in_app_iff in Hn.
  destruct Hn as [[[[[[[]|Hn]|Hn]|Hn]|Hn]|Hn]|Hn].
  - exists "minimal_span". split; [cbn; tauto|eauto].
  - exists "minimal_stay". split; [cbn; tauto|eauto].
  - exists "single_line". split; [cbn; tauto|eauto].
  - exists "track_occupation". split; [cbn; tauto|eauto].
  - exists "circulation". split; [cbn; tauto|eauto].
  - exists "switch". split; [cbn; tauto|eauto].
Qed.
