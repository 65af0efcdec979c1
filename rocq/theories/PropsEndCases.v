(** * PropsEndCases: concrete tables for C57-C61, with solutions in which trains collide where the
    theorems have conditions *)

From Coq Require Import List String Ascii ZArith QArith Bool Lia Lqa.
From Verif Require Import Base BaseFacts Pulp Helpers LinearSolver Spec SpecFacts DataTables DataSets DataTimes Pipeline
  SpecDurations SpecEnd Check Examples QuboFacts SetFacts TimeFacts PropsTables PropsSets PropsSwitch EndFacts PropsEnd.
From Verif Require Import DataTables SpecTables SpecSets.
Import ListNotations.
Open Scope string_scope.
Open Scope list_scope.

(** ** Deciding that tables are tidy *)

Fixpoint nodupb {A} `{EqDec A} (l : list A) : bool :=
  match l with [] => true | x :: l => negb (lmem x l) && nodupb l end.

Lemma nodupb_ok {A} `{EqDec A} (l : list A) : nodupb l = true -> NoDup l.
Proof.
  induction l as [|x l IH]; cbn; intros E; [constructor|]. apply andb_true_iff in E as [E1 E2].
  constructor; [apply lmem_false, negb_true_iff, E1|auto].
Qed.

Definition owner (st : station_blocks) (b : string) : option string :=
  match filter (fun kv => lmem b (snd kv)) st with kv :: _ => Some (fst kv) | [] => None end.

Definition tidyb (td : train_dict) (st : station_blocks) : bool :=
  nodupb (dkeys td) && nodupb (dkeys st) && nodupb (flat_map snd st) &&
  forallb (fun e => forallb (fun r => eqb (r_station r) (owner st (r_block r))) (snd (snd e)) &&
      nodupb (train_important_stations (snd (snd e))) && nodupb (map r_block (snd (snd e)))) td &&
  forallb (fun s => negb (eqb s "") && negb (eqb s "None") && allc not_us s) (dkeys st).

Lemma apart_ok (st : station_blocks) : NoDup (dkeys st) -> NoDup (flat_map snd st) ->
  (forall b s s', in_station st b s -> in_station st b s' -> s = s') /\ blocks_once st /\
  forall b s, owner st b = Some s <-> in_station st b s.
Proof.
  intros NK ND.
  assert (U : forall b s s', in_station st b s -> in_station st b s' -> s = s').
  { clear NK. induction st as [|[s0 bs] st IH]; intros b s s' (l & I & B) (l' & I' & B'); [destruct I|].
    cbn [flat_map snd] in ND. destruct (nodup_parts _ _ ND) as [_ ND2].
    assert (X : forall s l, In (s, l) st -> In b l -> In b (flat_map snd st)) by (intros s1 l1 I1 B1; apply in_flat_map; exists (s1, l1); auto).
    assert (Y : In b bs -> In b (flat_map snd st) -> False).
    { intros Y1 Y2. clear - ND Y1 Y2. induction bs as [|c bs IHb]; [destruct Y1|]. cbn in ND. inversion ND; subst.
      destruct Y1 as [->|Y1]; [apply H1, in_or_app; right; exact Y2|apply IHb; auto]. }
    destruct I as [I|I], I' as [I'|I'].
    - congruence.
    - inversion I; subst. destruct (Y B (X _ _ I' B')).
    - inversion I'; subst. destruct (Y B' (X _ _ I B)).
    - apply (IH ND2 b s s'); [exists l; auto|exists l'; auto]. }
  split; [exact U|]. split.
  - intros s bs I. apply in_split in I as (u & v & ->). rewrite flat_map_app in ND. cbn [flat_map snd] in ND.
    apply nodup_parts in ND as [_ ND]. apply nodup_parts in ND. apply ND.
  - intros b s. unfold owner. destruct (filter _ st) as [|kv f] eqn:F.
    + split; [discriminate|]. intros (bs & I & B). exfalso.
      assert (J : In (s, bs) (filter (fun kv => lmem b (snd kv)) st)) by (apply filter_In; split; [exact I|apply lmem_true; exact B]).
      rewrite F in J. destruct J.
    + assert (J : In kv (filter (fun kv => lmem b (snd kv)) st)) by (rewrite F; left; reflexivity).
      apply filter_In in J as [J1 J2]. apply lmem_true in J2. destruct kv as [s0 bs0]. cbn [fst snd] in *.
      assert (O : in_station st b s0) by (exists bs0; auto).
      split; [intros E; inversion E; subst; exact O|]. intros I. f_equal. exact (U b s0 s O I).
Qed.

Lemma tidyb_ok td st : tidyb td st = true -> tidy td st.
Proof.
  unfold tidyb. rewrite !andb_true_iff. intros [[[[H1 H2] H3] H4] H5].
  apply nodupb_ok in H1, H2, H3. rewrite forallb_forall in H4, H5. destruct (apart_ok st H2 H3) as (U & B & O).
  assert (E : forall t tt, runs td t tt -> forallb (fun r => eqb (r_station r) (owner st (r_block r))) tt &&
      nodupb (train_important_stations tt) && nodupb (map r_block tt) = true).
  { intros t tt (info & R). apply dget_in in R. exact (H4 _ R). }
  constructor; auto.
  - split; assumption.
  - intros t info tt I r s Ir. specialize (E t tt). rewrite !andb_true_iff in E. destruct E as [[E _] _]; [exists info; apply in_dget; assumption|].
    rewrite forallb_forall in E. apply E in Ir. apply eqb_eq in Ir. rewrite Ir. apply O.
  - intros t tt R. apply E in R. rewrite !andb_true_iff in R. apply visits_once_nodup, nodupb_ok. apply R.
  - intros t tt R. apply E in R. rewrite !andb_true_iff in R. apply nodupb_ok. apply R.
  - intros s I. apply H5 in I. rewrite !andb_true_iff in I. destruct I as [[I1 I2] I3]. apply negb_true_iff in I1, I2.
    split; [apply eqb_false; exact I1|]. split; [apply eqb_false; exact I2|]. apply no_us_allc. exact I3.
Qed.

(** ** Building and solving *)

Definition trow (b : string) (s : option string) (q : Q) (dep : option string) (turn : option Q) : row :=
  MkRow b (Some "R") None dep None None None turn (Some q) s.

Definition no_input : train_sets * timetable * lpproblem :=
  (MkTS None [] [] [] [] [] [] [] None, MkTT [] [] [] [] None [] [] [], empty_problem).

Definition built (td : train_dict) (st : station_blocks) (net : list netrow) : train_sets * timetable * lpproblem :=
  ok_or (tables_to_problem td st net "16:00" [] 10 Integer) no_input.

Definition departs_at (b : train_sets * timetable * lpproblem) (x : assignment) (j : Z) (s : string) (t : Q) : bool :=
  match earliest_dep_time (ts_Paths (fst (fst b))) (snd (fst b)) (train j) (station s) with
  | Ok e => Qeq_bool t (e + value_in (snd b) x ("Delays", [train j; station s]))
  | Err _ => false
  end.

Lemma departs_ok td st net x ts tt p j s t : tidy td st ->
  tables_to_problem td st net "16:00" [] 10 Integer = Ok (ts, tt, p) ->
  departs_at (ts, tt, p) x j s t = true -> Spec.departs ts tt p x (train j) (station s) t.
Proof.
  intros T H E. unfold departs_at in E. destruct (earliest_dep_time _ _ _ _) as [e|] eqn:D; [|discriminate].
  exists e. split; [|apply Qeq_bool_iff; exact E].
  eapply earliest_dep_time_sound; [eapply reserved_ok|eapply none_ok|]; eauto.
Qed.

Definition ab_st : station_blocks := [("A", ["a1"; "a2"]); ("B", ["b1"; "b2"]); ("C", ["c1"])].
Definition free (a b : string) : netrow := MkNet a b (SwMany []) None None None None.

(** The parts of an end-to-end claim about one case *)
Definition solved (td : train_dict) (st : station_blocks) (net : list netrow) (ts : train_sets) (tt : timetable)
    (p : lpproblem) (x : assignment) : Prop :=
  tidy td st /\ tables_to_problem td st net "16:00" [] 10 Integer = Ok (ts, tt, p) /\ feasible p x.

Lemma solved_ok td st net x : tidyb td st = true -> is_ok (tables_to_problem td st net "16:00" [] 10 Integer) = true ->
  feasibleb (snd (built td st net)) x = true ->
  solved td st net (fst (fst (built td st net))) (snd (fst (built td st net))) (snd (built td st net)) x.
Proof.
  intros H1 H2 H3. split; [apply tidyb_ok; exact H1|]. split; [|apply feasibleb_ok; exact H3].
  rewrite (ok_or_ok _ no_input H2). unfold built. destruct (ok_or _ _) as [[a b] c]. reflexivity.
Qed.

Lemma solved_departs td st net ts tt p x j s t : solved td st net ts tt p x ->
  departs_at (ts, tt, p) x j s t = true -> Spec.departs ts tt p x (train j) (station s) t.
Proof. intros (H1 & H2 & H3) E. eapply departs_ok; eauto. Qed.

Ltac row_in := repeat (first [left; reflexivity | right]).
Ltac direct pre post := split; [exists pre; eexists; eexists; exists post; split; [reflexivity|]; split; reflexivity
  | intros ? II; repeat (destruct II as [<-|II]; [reflexivity|]); destruct II].
Ltac minutes := intros ? II; repeat (destruct II as [<-|II]; [first [exists 0%nat; reflexivity|exists 1%nat; reflexivity|exists 2%nat; reflexivity|exists 3%nat; reflexivity
  |exists 4%nat; reflexivity|exists 5%nat; reflexivity]|]); destruct II.
Ltac stock := split; [discriminate|intros ? [[EE1 EE2]|[EE1 EE2]]; lia].

(** ** C58: two trains that end at the far stations meet on the line *)

Definition meet_td : train_dict :=
  [(11%Z, (["KS - Os"], [trow "a1" (Some "A") 1 (Some "16:00") None; trow "x" None 5 None None; trow "b1" (Some "B") 0 None None]));
   (12%Z, (["KS - Os"], [trow "b2" (Some "B") 1 (Some "16:02") None; trow "x" None 5 None None; trow "a2" (Some "A") 0 None None]))].
Definition meet_net : list netrow := [free "a1" "x"; free "x" "b1"; free "b2" "x"; free "x" "a2"].

Theorem C58_ending_refuted : exists td st net ts tt p x, solved td st net ts tt p x /\
  exists j k tj tk s s2 mid mid' a b,
    different_stock j k /\ runs td j tj /\ runs td k tk /\ directly tj s s2 mid /\ directly tk s2 s mid' /\
    mid <> [] /\ map r_block mid' = rev (map r_block mid) /\ whole_minutes mid /\ whole_minutes mid' /\
    Spec.departs ts tt p x (train j) (station s) a /\ Spec.departs ts tt p x (train k) (station s2) b /\
    ~ never_together mid a mid' b.
Proof.
  pose proof (solved_ok meet_td ab_st meet_net (fun _ => 0) ltac:(vm_compute; reflexivity) ltac:(vm_compute; reflexivity) ltac:(vm_compute; reflexivity)) as S0.
  eexists _, _, _, _, _, _, _. split; [exact S0|].
  exists 11%Z, 12%Z. eexists _, _. exists "A", "B", [trow "x" None 5 None None], [trow "x" None 5 None None], 0, 2.
  split; [stock|]. split; [eexists; reflexivity|]. split; [eexists; reflexivity|].
  split; [direct (@nil row) (@nil row)|].
  split; [direct (@nil row) (@nil row)|].
  split; [discriminate|]. split; [reflexivity|]. split; [minutes|]. split; [minutes|].
  split; [eapply solved_departs; [exact S0|vm_compute; reflexivity]|].
  split; [eapply solved_departs; [exact S0|vm_compute; reflexivity]|].
  intros N. destruct (N "x" 0 5 2 7) as [E|E].
  - exists [], (trow "x" None 5 None None), []. repeat split; reflexivity.
  - exists [], (trow "x" None 5 None None), []. repeat split; reflexivity.
  - vm_compute in E. apply E. reflexivity.
  - vm_compute in E. apply E. reflexivity.
Qed.
Print Assumptions C58_ending_refuted.

(** ** C57: two trains that share a part of the line only, the longer way listed later *)

Definition long_td : train_dict :=
  [(11%Z, (["KS - Os"], [trow "a1" (Some "A") 1 (Some "16:00") None; trow "x" None 5 None None; trow "b1" (Some "B") 0 None None]));
   (12%Z, (["KS - Os"], [trow "a2" (Some "A") 1 (Some "16:02") None; trow "x" None 5 None None; trow "y" None 1 None None;
      trow "b2" (Some "B") 0 None None]))].
Definition long_net : list netrow := [free "a1" "x"; free "x" "b1"; free "a2" "x"; free "x" "y"; free "y" "b2"].

Theorem C57_longer_refuted : exists td st net ts tt p x, solved td st net ts tt p x /\
  exists j k tj tk s s2 mid mid' a b,
    different_stock j k /\ runs td j tj /\ runs td k tk /\ directly tj s s2 mid /\ directly tk s s2 mid' /\
    whole_minutes mid /\ whole_minutes mid' /\
    Spec.departs ts tt p x (train j) (station s) a /\ Spec.departs ts tt p x (train k) (station s) b /\
    ~ never_together mid a mid' b.
Proof.
  pose proof (solved_ok long_td ab_st long_net (fun _ => 0) ltac:(vm_compute; reflexivity) ltac:(vm_compute; reflexivity) ltac:(vm_compute; reflexivity)) as S0.
  eexists _, _, _, _, _, _, _. split; [exact S0|].
  exists 11%Z, 12%Z. eexists _, _.
  exists "A", "B", [trow "x" None 5 None None], [trow "x" None 5 None None; trow "y" None 1 None None], 0, 2.
  split; [stock|]. split; [eexists; reflexivity|]. split; [eexists; reflexivity|].
  split; [direct (@nil row) (@nil row)|]. split; [direct (@nil row) (@nil row)|].
  split; [minutes|]. split; [minutes|].
  split; [eapply solved_departs; [exact S0|vm_compute; reflexivity]|].
  split; [eapply solved_departs; [exact S0|vm_compute; reflexivity]|].
  intros N. destruct (N "x" 0 5 2 7) as [E|E].
  - exists [], (trow "x" None 5 None None), []. repeat split; reflexivity.
  - exists [], (trow "x" None 5 None None), [trow "y" None 1 None None]. repeat split; reflexivity.
  - vm_compute in E. apply E. reflexivity.
  - vm_compute in E. apply E. reflexivity.
Qed.
Print Assumptions C57_longer_refuted.

(** A block passed in 84 seconds: the headway is rounded to one minute. *)
Definition part_td : train_dict :=
  [(11%Z, (["KS - Os"], [trow "a1" (Some "A") 1 (Some "16:00") None; trow "x" None (7 # 5) None None; trow "b1" (Some "B") 0 None None]));
   (12%Z, (["KS - Os"], [trow "a2" (Some "A") 1 (Some "16:01") None; trow "x" None (7 # 5) None None; trow "b2" (Some "B") 0 None None]))].
Definition part_net : list netrow := [free "a1" "x"; free "x" "b1"; free "a2" "x"; free "x" "b2"].

Theorem C57_rounding_refuted : exists td st net ts tt p x, solved td st net ts tt p x /\
  exists j k tj tk s s2 mid mid' a b,
    different_stock j k /\ runs td j tj /\ runs td k tk /\ directly tj s s2 mid /\ directly tk s s2 mid' /\
    map r_block mid = map r_block mid' /\
    Spec.departs ts tt p x (train j) (station s) a /\ Spec.departs ts tt p x (train k) (station s) b /\
    ~ never_together mid a mid' b.
Proof.
  pose proof (solved_ok part_td ab_st part_net (Check.table [(("y", [train 11; train 12; PStr "one_station"; station "A"]), 1)])
    ltac:(vm_compute; reflexivity) ltac:(vm_compute; reflexivity) ltac:(vm_compute; reflexivity)) as S1.
  eexists _, _, _, _, _, _, _. split; [exact S1|].
  exists 11%Z, 12%Z. eexists _, _. exists "A", "B", [trow "x" None (7 # 5) None None], [trow "x" None (7 # 5) None None], 0, 1.
  split; [stock|]. split; [eexists; reflexivity|]. split; [eexists; reflexivity|].
  split; [direct (@nil row) (@nil row)|]. split; [direct (@nil row) (@nil row)|]. split; [reflexivity|].
  split; [eapply solved_departs; [exact S1|vm_compute; reflexivity]|].
  split; [eapply solved_departs; [exact S1|vm_compute; reflexivity]|].
  intros N. destruct (N "x" 0 (7 # 5) 1 (12 # 5)) as [E|E].
  - exists [], (trow "x" None (7 # 5) None None), []. repeat split; reflexivity.
  - exists [], (trow "x" None (7 # 5) None None), []. repeat split; reflexivity.
  - vm_compute in E. apply E. reflexivity.
  - vm_compute in E. apply E. reflexivity.
Qed.
Print Assumptions C57_rounding_refuted.

(** ** C59: a train that ends at a station comes onto an occupied track *)

Definition end_td : train_dict :=
  [(11%Z, (["KS - Os"], [trow "a1" (Some "A") 1 (Some "16:00") None; trow "x" None 2 None None; trow "b1" (Some "B") 1 (Some "16:20") None;
      trow "y" None 3 None None; trow "c1" (Some "C") 0 None None]));
   (12%Z, (["KS - Os"], [trow "c1" (Some "C") 1 (Some "16:05") None; trow "z" None 2 None None; trow "b1" (Some "B") 1 None None]))].
Definition end_net : list netrow := [free "a1" "x"; free "x" "b1"; free "b1" "y"; free "y" "c1"; free "c1" "z"; free "z" "b1"].

Theorem C59_ending_refuted : exists td st net ts tt p x, solved td st net ts tt p x /\ pairs_meet td st /\
  exists j k tj tk s a d a',
    different_stock j k /\ runs td j tj /\ runs td k tk /\ passes tj s /\ passes tk s /\ same_track st s tj tk /\
    ~ In s no_track_groups /\ (forall d, In d depot_tracks -> ~ only_track st s tj d) /\
    arrives ts tt p x (train j) (station s) a /\ Spec.departs ts tt p x (train j) (station s) d /\
    arrives ts tt p x (train k) (station s) a' /\ a < a' /\ a' < d.
Proof.
  pose proof (solved_ok end_td ab_st end_net (fun _ => 0) ltac:(vm_compute; reflexivity) ltac:(vm_compute; reflexivity) ltac:(vm_compute; reflexivity)) as S0.
  eexists _, _, _, _, _, _, _. split; [exact S0|].
  split.
  { assert (P : forall x j j', same_stock x j j' -> In j (dkeys end_td) -> In j' (dkeys end_td) -> False).
    { intros x j j' SS I I'. cbn in I, I'. destruct SS as [[-> ->]|[-> ->]]; lia. }
    split.
    - intros x I I'. exfalso. apply (P x x (x * 10 + 9)%Z); auto. left. auto.
    - intros x j j' b SS (ta & tb & Ra & Rb & _). exfalso. apply runs_key in Ra, Rb. exact (P x j j' SS Ra Rb). }
  exists 11%Z, 12%Z. eexists _, _. exists "B", 2, 20, 7.
  split; [stock|]. split; [eexists; reflexivity|]. split; [eexists; reflexivity|].
  split; [exists (trow "b1" (Some "B") 1 (Some "16:20") None); split; [row_in|reflexivity]|].
  split; [exists (trow "b1" (Some "B") 1 None None); split; [row_in|reflexivity]|].
  split.
  { intros b (bs & I & B). cbn in I. destruct I as [I|[I|[I|[]]]]; inversion I; subst. cbn in B. destruct B as [<-|[<-|[]]].
    - split; intros _; [exists (trow "b1" (Some "B") 1 None None)|exists (trow "b1" (Some "B") 1 (Some "16:20") None)]; (split; [row_in|reflexivity]).
    - split; intros (r & I1 & E); cbn in I1; repeat (destruct I1 as [<-|I1]; [discriminate|]); destruct I1. }
  split; [cbn; intuition discriminate|].
  split.
  { intros d I [(bs & J & B) _]. cbn in J. destruct J as [J|[J|[J|[]]]]; inversion J; subst. cbn in B. cbn in I. intuition congruence. }
  split.
  { exists (station "A"), 0, 2. split; [exists [station "A"; station "B"; station "C"], [], [station "C"]; split; [vm_compute; reflexivity|]; split; [reflexivity|]; intros [E|[]]; discriminate|].
    split; [eapply solved_departs; [exact S0|vm_compute; reflexivity]|]. split; [vm_compute; reflexivity|reflexivity]. }
  split; [eapply solved_departs; [exact S0|vm_compute; reflexivity]|].
  split; [|split; reflexivity].
  exists (station "C"), 5, 2. split; [exists [station "C"; station "B"], [], []; split; [vm_compute; reflexivity|]; split; [reflexivity|]; intros [E|[]]; discriminate|].
  split; [eapply solved_departs; [exact S0|vm_compute; reflexivity]|]. split; [vm_compute; reflexivity|reflexivity].
Qed.
Print Assumptions C59_ending_refuted.

(** ** C60: leaving the last station of the list *)

Definition swrow (a b : string) (z : Z) : netrow := MkNet a b (SwOne z) None None None None.
Definition on_td : train_dict :=
  [(11%Z, (["KS - Os"], [trow "a1" (Some "A") 1 (Some "16:00") None; trow "x" None 2 None None; trow "b1" (Some "B") 1 None None;
      trow "y" None 3 None None; trow "c1" (Some "C") 0 None None]));
   (12%Z, (["KS - Os"], [trow "c1" (Some "C") 1 (Some "15:55") None; trow "z" None 2 None None; trow "b2" (Some "B") 1 (Some "16:02") None;
      trow "v" None 0 None None]))].
Definition on_net : list netrow :=
  [free "a1" "x"; swrow "x" "b1" 7; free "b1" "y"; free "y" "c1"; free "c1" "z"; free "z" "b2"; swrow "b2" "v" 7].

Theorem C60_beyond_refuted : exists td st net ts tt p x, solved td st net ts tt p x /\ one_row_each net /\
  exists j k tj tk s z t t',
    different_stock j k /\ runs td j tj /\ runs td k tk /\ enters_over net tj s z /\ on_over net tk s z /\
    arrives ts tt p x (train j) (station s) t /\ Spec.departs ts tt p x (train k) (station s) t' /\ t == t'.
Proof.
  pose proof (solved_ok on_td ab_st on_net (fun _ => 0) ltac:(vm_compute; reflexivity) ltac:(vm_compute; reflexivity) ltac:(vm_compute; reflexivity)) as S0.
  eexists _, _, _, _, _, _, _. split; [exact S0|]. split; [apply one_row_check; vm_compute; reflexivity|].
  exists 11%Z, 12%Z. eexists _, _. exists "B", 7%Z, 2, 2.
  split; [stock|]. split; [eexists; reflexivity|]. split; [eexists; reflexivity|].
  split.
  { exists [trow "a1" (Some "A") 1 (Some "16:00") None]. eexists _, _, _. exists (swrow "x" "b1" 7). split; [reflexivity|]. split; [reflexivity|].
    split; [exists (trow "a1" (Some "A") 1 (Some "16:00") None); split; [row_in|discriminate]|]. split; [row_in|]. split; [left; split; reflexivity|reflexivity]. }
  split.
  { exists [trow "c1" (Some "C") 1 (Some "15:55") None; trow "z" None 2 None None]. eexists _, _, _. exists (swrow "b2" "v" 7). split; [reflexivity|]. split; [reflexivity|].
    split; [row_in|]. split; [left; split; reflexivity|reflexivity]. }
  split; [|split; [eapply solved_departs; [exact S0|vm_compute; reflexivity]|reflexivity]].
  exists (station "A"), 0, 2. split; [exists [station "A"; station "B"; station "C"], [], [station "C"]; split; [vm_compute; reflexivity|]; split; [reflexivity|]; intros [E|[]]; discriminate|].
  split; [eapply solved_departs; [exact S0|vm_compute; reflexivity]|]. split; [vm_compute; reflexivity|reflexivity].
Qed.
Print Assumptions C60_beyond_refuted.

(** ** C61: a pair of trains there and back over the same blocks at both ends *)

Definition both_td : train_dict :=
  [(11%Z, (["KS - Os"], [trow "a1" (Some "A") 1 (Some "16:00") (Some 3); trow "x" None 2 None None; trow "b1" (Some "B") 0 None None]));
   (119%Z, (["KS - Os"], [trow "b1" (Some "B") 1 (Some "15:50") (Some 3); trow "z" None 2 None None; trow "a1" (Some "A") 1 None None]))].
Definition both_net : list netrow := [free "a1" "x"; free "x" "b1"; free "b1" "z"; free "z" "a1"].

Theorem C61_both_refuted : exists td st net ts tt p x, solved td st net ts tt p x /\ pairs_meet td st /\
  exists j k y tk s row t t', same_stock y j k /\ turns td st s j k /\ runs td k tk /\ first_stop tk s row /\ ~ ends_at tk s /\
    arrives ts tt p x (train j) (station s) t /\ Spec.departs ts tt p x (train k) (station s) t' /\ t' < t.
Proof.
  pose proof (solved_ok both_td ab_st both_net (fun _ => 0) ltac:(vm_compute; reflexivity) ltac:(vm_compute; reflexivity) ltac:(vm_compute; reflexivity)) as S0.
  eexists _, _, _, _, _, _, _. split; [exact S0|].
  assert (MT : meets both_td 11 119 "b1").
  { eexists _, _. split; [eexists; reflexivity|]. split; [eexists; reflexivity|]. split.
    - exists [trow "a1" (Some "A") 1 (Some "16:00") (Some 3); trow "x" None 2 None None], (trow "b1" (Some "B") 0 None None). split; reflexivity.
    - eexists _, _. split; reflexivity. }
  split.
  { split.
    - intros x I I'. cbn in I, I'. assert (x = 11%Z) by lia. subst. exists 11%Z, 119%Z, "b1". split; [left; auto|exact MT].
    - intros x j j' b _ (ta & tb & (i & Ra) & _ & (f & r & E & B) & _). apply dget_in in Ra. cbn in Ra.
      destruct Ra as [Ra|[Ra|[]]]; inversion Ra; subst.
      + change ([trow "a1" (Some "A") 1 (Some "16:00") (Some 3); trow "x" None 2 None None] ++ [trow "b1" (Some "B") 0 None None] = f ++ [r]) in H2.
        apply app_inj_tail in H2 as [_ <-]. exists "B", ["b1"; "b2"]. cbn. auto.
      + change ([trow "b1" (Some "B") 1 (Some "15:50") (Some 3); trow "z" None 2 None None] ++ [trow "a1" (Some "A") 1 None None] = f ++ [r]) in H2.
        apply app_inj_tail in H2 as [_ <-]. exists "A", ["a1"; "a2"]. cbn. auto. }
  exists 11%Z, 119%Z, 11%Z. eexists. exists "B", (trow "b1" (Some "B") 1 (Some "15:50") (Some 3)), 2, (-10).
  split; [left; auto|]. split; [exists "b1"; split; [exact MT|exists ["b1"; "b2"]; cbn; auto]|]. split; [eexists; reflexivity|].
  split; [exists []; eexists; split; [reflexivity|]; split; [intros ? []|reflexivity]|].
  split.
  { intros (f & r & E & B). change ([trow "b1" (Some "B") 1 (Some "15:50") (Some 3); trow "z" None 2 None None] ++ [trow "a1" (Some "A") 1 None None] = f ++ [r]) in E.
    apply app_inj_tail in E as [_ <-]. discriminate. }
  split; [|split; [eapply solved_departs; [exact S0|vm_compute; reflexivity]|reflexivity]].
  exists (station "A"), 0, 2. split; [exists [station "A"; station "B"], [], []; split; [vm_compute; reflexivity|]; split; [reflexivity|]; intros [E|[]]; discriminate|].
  split; [eapply solved_departs; [exact S0|vm_compute; reflexivity]|]. split; [vm_compute; reflexivity|reflexivity].
Qed.
Print Assumptions C61_both_refuted.

(** ** Tables in which all five theorems have something to say, with a schedule *)

Definition day_st : station_blocks := [("A", ["a1"; "a2"; "a3"]); ("B", ["b1"; "b2"]); ("C", ["c1"; "c2"; "c3"; "c4"]); ("D", ["d1"])].
Definition day_td : train_dict :=
  [(11%Z, (["KS - Os"], [trow "a1" (Some "A") 1 (Some "16:00") None; trow "x" None 2 None None; trow "x2" None 3 None None;
      trow "b1" (Some "B") 1 (Some "16:08") None; trow "y" None 4 None None; trow "c1" (Some "C") 1 (Some "16:13") None;
      trow "v" None 1 None None; trow "d1" (Some "D") 0 None None]));
   (12%Z, (["KS - Os"], [trow "a3" (Some "A") 1 (Some "16:02") None; trow "x" None 2 None None; trow "x2" None 2 None None;
      trow "b1" (Some "B") 1 (Some "16:09") None; trow "y" None 4 None None; trow "c3" (Some "C") 0 None None]));
   (13%Z, (["KS - Os"], [trow "c2" (Some "C") 1 (Some "16:01") None; trow "y" None 4 None None; trow "b2" (Some "B") 1 (Some "16:06") None;
      trow "w" None 3 None None; trow "a2" (Some "A") 0 None None]));
   (119%Z, (["KS - Os"], [trow "d1" (Some "D") 1 (Some "16:25") (Some 3); trow "u" None 2 None None; trow "c4" (Some "C") 0 None None]))].
Definition day_net : list netrow :=
  [free "a1" "x"; free "x" "x2"; swrow "x2" "b1" 7; free "b1" "y"; free "y" "c1"; free "c1" "v"; free "v" "d1"; free "a3" "x"; free "y" "c3";
   free "c2" "y"; free "y" "b2"; swrow "b2" "w" 7; free "w" "a2"; free "d1" "u"; free "u" "c4"].
Definition day_x : assignment := Check.table
  [(("Delays", [train 12; station "A"]), 3); (("Delays", [train 12; station "B"]), 3);
   (("y", [train 11; train 12; PStr "one_station"; station "A"]), 1); (("y", [train 11; train 12; PStr "one_station"; station "B"]), 1);
   (("z", [train 11; train 13; station "A"; station "B"]), 1)].

Definition rows_of (j : Z) : list row := match dget j day_td with Some (_, l) => l | None => [] end.
Ltac of_day := exists ["KS - Os"]; reflexivity.
Ltac last_row := let f := fresh "f" in let r := fresh "r" in let E := fresh "E" in let B := fresh "B" in
  intros (f & r & E & B); apply (f_equal (fun l => last (map r_station l) None)) in E; rewrite map_app in E; cbn [map] in E; rewrite last_last in E; cbn in E; congruence.

Lemma day_ok : solved day_td day_st day_net (fst (fst (built day_td day_st day_net))) (snd (fst (built day_td day_st day_net)))
  (snd (built day_td day_st day_net)) day_x.
Proof. apply solved_ok; vm_compute; reflexivity. Qed.

Example C57_case : 12%Z <> 11%Z /\ runs day_td 11 (rows_of 11) /\ runs day_td 12 (rows_of 12) /\
  directly (rows_of 11) "A" "B" [trow "x" None 2 None None; trow "x2" None 3 None None] /\
  directly (rows_of 12) "A" "B" [trow "x" None 2 None None; trow "x2" None 2 None None] /\
  whole_minutes [trow "x" None 2 None None; trow "x2" None 3 None None].
Proof.
  split; [discriminate|]. split; [of_day|]. split; [of_day|].
  split; [direct (@nil row) [trow "y" None 4 None None; trow "c1" (Some "C") 1 (Some "16:13") None;
      trow "v" None 1 None None; trow "d1" (Some "D") 0 None None]|].
  split; [direct (@nil row) [trow "y" None 4 None None; trow "c3" (Some "C") 0 None None]|]. minutes.
Qed.

Example C58_case : different_stock 11 13 /\ runs day_td 11 (rows_of 11) /\ runs day_td 13 (rows_of 13) /\
  directly (rows_of 11) "B" "C" [trow "y" None 4 None None] /\ directly (rows_of 13) "C" "B" [trow "y" None 4 None None] /\
  ~ ends_at (rows_of 11) "C" /\ ~ ends_at (rows_of 13) "B".
Proof.
  split; [stock|]. split; [of_day|]. split; [of_day|].
  split; [direct [trow "a1" (Some "A") 1 (Some "16:00") None; trow "x" None 2 None None; trow "x2" None 3 None None]
    [trow "v" None 1 None None; trow "d1" (Some "D") 0 None None]|].
  split; [direct (@nil row) [trow "w" None 3 None None; trow "a2" (Some "A") 0 None None]|].
  split; last_row.
Qed.

Lemma day_pairs : pairs_meet day_td day_st.
Proof.
  split.
  - intros x I I'. cbn in I, I'. assert (x = 11%Z) by lia. subst. exists 11%Z, 119%Z, "d1". split; [left; auto|].
    exists (rows_of 11), (rows_of 119). split; [of_day|]. split; [of_day|]. split.
    + exists (removelast (rows_of 11)), (trow "d1" (Some "D") 0 None None). split; reflexivity.
    + eexists _, _. split; reflexivity.
  - intros x j j' b _ (ta & tb & _ & (i & Rb) & _ & (r & w & E & B)). apply dget_in in Rb. cbn in Rb.
    repeat (destruct Rb as [Rb|Rb]; [inversion Rb; subst; inversion H2; subst;
      first [solve [exists "A"; eexists; split; [row_in|row_in]]|solve [exists "C"; eexists; split; [row_in|row_in]]|solve [exists "D"; eexists; split; [row_in|row_in]]]|]). destruct Rb.
Qed.

Example C59_case : different_stock 11 12 /\ runs day_td 11 (rows_of 11) /\ runs day_td 12 (rows_of 12) /\
  passes (rows_of 11) "B" /\ passes (rows_of 12) "B" /\ same_track day_st "B" (rows_of 11) (rows_of 12) /\
  ~ In "B" no_track_groups /\ (forall d, In d depot_tracks -> ~ only_track day_st "B" (rows_of 11) d) /\
  not_named_last (rows_of 11) "B" /\ not_named_last (rows_of 12) "B".
Proof.
  split; [stock|]. split; [of_day|]. split; [of_day|].
  split; [exists (trow "b1" (Some "B") 1 (Some "16:08") None); split; [row_in|reflexivity]|].
  split; [exists (trow "b1" (Some "B") 1 (Some "16:09") None); split; [row_in|reflexivity]|].
  split.
  { intros b (bs & I & B). cbn in I. repeat (destruct I as [I|I]; [inversion I; subst|]); try destruct I. cbn in B. destruct B as [<-|[<-|[]]].
    - split; intros _; [exists (trow "b1" (Some "B") 1 (Some "16:09") None)|exists (trow "b1" (Some "B") 1 (Some "16:08") None)]; (split; [row_in|reflexivity]).
    - split; intros (r & I1 & E); cbn in I1; repeat (destruct I1 as [<-|I1]; [discriminate|]); destruct I1. }
  split; [cbn; intuition discriminate|].
  split.
  { intros d I [(bs & J & B) _]. cbn in J. repeat (destruct J as [J|J]; [inversion J; subst|]); try destruct J. cbn in B. cbn in I. intuition congruence. }
  assert (K : forall l e, ends_at l e -> last (map r_station l) None = Some e).
  { intros l e (f & r & -> & E). rewrite map_app; cbn [map]; rewrite last_last; exact E. }
  assert (P : forall e, String.length e = 1%nat -> e <> "B" -> ~ part_of "B" e).
  { intros e L N (u & v & E). subst e. destruct u as [|c u]; cbn in L; [|destruct u; cbn in L; discriminate]. destruct v; cbn in L; [apply N; reflexivity|discriminate]. }
  split; intros e E; apply K in E; inversion E; subst; apply P; [reflexivity|discriminate|reflexivity|discriminate].
Qed.

Example C60_case : one_row_each day_net /\ different_stock 11 13 /\ switch_conflict day_net "B" (rows_of 11) "in" (rows_of 13) "out".
Proof.
  split; [apply one_row_check; vm_compute; reflexivity|]. split; [stock|].
  split; [repeat split; discriminate|]. split; [repeat split; discriminate|]. exists 7%Z. split.
  - left. split; [reflexivity|]. exists [trow "a1" (Some "A") 1 (Some "16:00") None; trow "x" None 2 None None]. eexists _, _, _. exists (swrow "x2" "b1" 7).
    split; [reflexivity|]. split; [reflexivity|]. split; [exists (trow "a1" (Some "A") 1 (Some "16:00") None); split; [row_in|discriminate]|].
    split; [row_in|]. split; [left; split; reflexivity|reflexivity].
  - right. split; [reflexivity|]. exists [trow "c2" (Some "C") 1 (Some "16:01") None; trow "y" None 4 None None]. eexists _, _, _. exists (swrow "b2" "w" 7).
    split; [reflexivity|]. split; [reflexivity|]. split; [exists (trow "a2" (Some "A") 0 None None); split; [row_in|discriminate]|].
    split; [row_in|]. split; [left; split; reflexivity|reflexivity].
Qed.

Example C61_case : same_stock 11 11 119 /\ turns day_td day_st "D" 11 119 /\ (forall b, ~ meets day_td 119 11 b) /\
  runs day_td 119 (rows_of 119) /\ first_stop (rows_of 119) "D" (trow "d1" (Some "D") 1 (Some "16:25") (Some 3)) /\ ~ ends_at (rows_of 119) "D".
Proof.
  split; [left; auto|]. split.
  { exists "d1". split; [|exists ["d1"]; split; [row_in|row_in]]. exists (rows_of 11), (rows_of 119). split; [of_day|]. split; [of_day|]. split.
    - exists (removelast (rows_of 11)), (trow "d1" (Some "D") 0 None None). split; reflexivity.
    - eexists _, _. split; reflexivity. }
  split.
  { intros b (ta & tb & (i & Ra) & (i' & Rb) & (f & r & E & B) & (r' & w & E' & B')). cbn in Ra, Rb.
    injection Ra as _ <-. injection Rb as _ <-. apply (f_equal (fun l => last (map r_block l) "")) in E. rewrite map_app in E. cbn [map] in E.
    rewrite last_last in E. apply (f_equal (fun l => hd "" (map r_block l))) in E'. cbn in E, E'. congruence. }
  split; [of_day|]. split; [exists []; eexists; split; [reflexivity|]; split; [intros ? []|reflexivity]|]. last_row.
Qed.
