(** * PropsRoom: problems are refused only for a turnaround that needs the whole largest delay (C54, C81) *)

From Coq Require Import List String ZArith QArith Bool Lia Lqa.
From Verif Require Import Base BaseFacts Pulp Helpers LinearSolver Converters DataTables DataSets DataTimes Pipeline Runs
  Spec SpecFacts SpecTables SpecDurations SpecSets SpecEnd SpecQubo SpecNames SpecMinutes SpecCompare SpecRoom Created Check Accept Integral QuboModel Interp
  TableFacts SetFacts TimeFacts EndFacts MinuteFacts Examples PropsSchedule PropsTotal PropsQubo PropsMinutes RoomFacts.
Import ListNotations.
Open Scope string_scope.
Open Scope list_scope.

(** ** Any input *)

(** A problem with integer times whose initial conditions are given at starting stations is converted exactly if no
    turnaround needs the whole largest delay. *)
Theorem C54_turnarounds : forall ts tt d_max p pdict,
  reserved_free ts -> none_free tt -> given_at_start ts tt -> integral_times tt -> is_int d_max -> 0 < d_max ->
  create_linear_problem ts tt d_max Integer = Ok p -> (exists v, In v (variables p)) -> all_penalties pdict ->
  ((exists b interp, convert_to_bqm p pdict = Ok (b, interp)) <-> turns_in_time ts tt d_max).
Proof.
  intros ts tt d p pdict RF NF GS IT DI Pos Cr HV PD.
  rewrite (created_accepted ts tt d p pdict RF Cr IT DI Pos HV PD). apply room_turns; assumption.
Qed.
Print Assumptions C54_turnarounds.

(** If there is a plan at all, the problem is refused exactly if some turnaround needs the whole largest delay to the minute. *)
Theorem C54_refused_exactly : forall ts tt d_max p pdict,
  reserved_free ts -> none_free tt -> given_at_start ts tt -> integral_times tt -> is_int d_max -> 0 < d_max ->
  create_linear_problem ts tt d_max Integer = Ok p -> (exists v, In v (variables p)) -> all_penalties pdict ->
  (exists x, feasible p x) ->
  ((forall b interp, convert_to_bqm p pdict <> Ok (b, interp)) <->
   (exists s j jp t e, turns_at ts tt s j jp t e /\ t == e + d_max)).
Proof.
  intros ts tt d p pdict RF NF GS IT DI Pos Cr HV PD (x & F).
  pose proof (C54_turnarounds ts tt d p pdict RF NF GS IT DI Pos Cr HV PD) as A. split.
  - intros N. destruct (turns_decided ts tt d p RF NF Cr) as [T|(s & j & jp & t & e & TA & L)].
    + exfalso. destruct (proj2 A T) as (b & i & H). exact (N b i H).
    + exists s, j, jp, t, e. split; [exact TA|]. pose proof (feasible_turns ts tt d p RF NF Pos Cr x s j jp t e F TA). lra.
  - intros (s & j & jp & t & e & TA & E) b i H. pose proof (proj1 A (ex_intro _ b (ex_intro _ i H)) s j jp t e TA). lra.
Qed.
Print Assumptions C54_refused_exactly.

(** ** Tables *)

(** Initial conditions made from tables are given at the first stations. *)
Lemma made_starts td st net t1 delays ts tt : tidy td st -> complete td st net t1 -> made td st net t1 delays ts tt -> given_at_start ts tt.
Proof.
  intros T C M j sp s i _ B I. destruct (before_inv _ _ _ _ _ _ _ M _ _ _ B) as (t & tb & a & b & line & -> & -> & -> & R & L).
  destruct (cp_start _ _ _ _ C) as (n1 & C1 & AP).
  pose proof M as (_ & _ & _ & _ & _ & _ & _ & _ & _ & _ & _ & _ & _ & _ & (init & Ei & Et)).
  destruct (C44_initial td t1 n1 (tidy_trains _ _ T) C1 AP) as (init' & Ei' & CI). assert (init' = init) by congruence. subst init'.
  unfold initially in I. rewrite joined2, Et in I.
  assert (KI : In (key2 t b) (dkeys init)).
  { rewrite <- (delays_keys delays init). apply dget_in in I. apply (in_map fst) in I. exact I. }
  apply key_get in KI as (q & G). apply CI in G as (t' & tb' & s' & n & R' & (r & FS & _) & E & _).
  change (key2 t b = key2 t' s') in E. apply key2_inj in E as [<- <-]. rewrite (runs_fun _ _ _ _ R' R) in FS.
  destruct (starts_made _ _ _ _ _ _ _ M t tb b r R FS) as (l & P). destruct B as (path & l1 & l2 & P' & -> & N).
  assert (X : l1 ++ station a :: station b :: l2 = station b :: l) by congruence. apply N.
  destruct l1 as [|y l1]; cbn in X |- *; injection X as X _; left; congruence.
Qed.

(** Problems made from tables: with the penalties of the scripts above 7/4 times the number of trains, the conversion
    succeeds and has exactly the best schedules as ground states if no turnaround needs the whole largest delay; otherwise
    it is refused. *)
Theorem C81_turnarounds_partial : forall td st net t1 delays d_max q ts tt p,
  tidy td st -> complete td st net t1 -> no_part_lines td -> whole_turns td -> whole_delays delays ->
  is_int d_max -> 0 < d_max -> (7 # 4) * inject_Z (Z.of_nat (List.length td)) < q ->
  tables_to_problem td st net t1 delays d_max Integer = Ok (ts, tt, p) -> (exists v, In v (variables p)) ->
  (turns_in_time ts tt d_max ->
     exists b interp, convert_to_bqm p (script_pdict q) = Ok (b, interp) /\
       ((exists x, feasible p x) ->
          (forall s e d, ground b s -> interp [(s, e)] = Ok [(d, e)] -> optimal p (values d)) /\
          (forall x, optimal p x -> exists s d, ground b s /\ (forall e, interp [(s, e)] = Ok [(d, e)]) /\
             forall v, occurs p v -> values d (v_id v) == x (v_id v)))) /\
  (~ turns_in_time ts tt d_max -> forall b interp, convert_to_bqm p (script_pdict q) <> Ok (b, interp)).
Proof.
  intros td st net t1 delays d q ts tt p T C NP W D DI Pos Q H HV.
  pose proof (reserved_ok _ _ _ _ _ _ _ _ _ _ T H) as RF. pose proof (none_ok _ _ _ _ _ _ _ _ _ _ T H) as NF.
  destruct (parts _ _ _ _ _ _ _ _ _ _ H) as (Cr & M).
  pose proof (room_turns ts tt d p RF NF DI Pos Cr (made_starts _ _ _ _ _ _ _ T C M)) as RT.
  destruct (C81_penalty_partial td st net t1 delays d q ts tt p T C NP W D DI Pos Q H HV) as [A B].
  split; [intros X; apply A, RT, X|intros X; apply B; intros Y; apply X, RT, Y].
Qed.
Print Assumptions C81_turnarounds_partial.

(** ** Cases *)

(** The turnaround of the refused problem needs 6 minutes; its next train is due at 3 and may be 3 minutes late. *)
Example C54_tight_turn : turns_at tight_ts tight_tt B (I 1) (I 2) 6 3.
Proof.
  exists [(I 1, I 2)], A, 0, 4, 2. split; [left; reflexivity|]. split; [left; reflexivity|].
  split; [exists [A; B], [], []; repeat split; intros [X|[]]; discriminate X|].
  split; [apply earliest_init with (i := 0); [reflexivity|right; split; [intros q X; discriminate X|reflexivity]]|].
  split; [reflexivity|]. split; [reflexivity|]. split; [reflexivity|].
  apply earliest_init with (i := 3); [reflexivity|right; split; [intros q X; discriminate X|reflexivity]].
Qed.

Definition four_p : lpproblem := ok_or (create_linear_problem tight_ts tight_tt 4 Integer) empty_problem.

(** With 3 minutes the problem is refused, with 4 it is converted. *)
Example C54_tight_case : given_at_start tight_ts tight_tt /\ none_free tight_tt /\ integral_times tight_tt /\
  ~ turns_in_time tight_ts tight_tt 3 /\ turns_in_time tight_ts tight_tt 4 /\
  (exists b interp, convert_to_bqm four_p small_pd = Ok (b, interp)).
Proof.
  assert (GS : given_at_start tight_ts tight_tt).
  { intros j sp s i [<-|[<-|[]]] (path & l1 & l2 & P & E & _) X; vm_compute in P; injection P as <-;
      (destruct l1 as [|y [|z l1]]; [injection E as <- <- _|discriminate E|destruct l1; discriminate E]); vm_compute in X; discriminate X. }
  assert (NF : none_free tight_tt) by (apply none_freeb_ok; vm_compute; reflexivity).
  assert (IT : integral_times tight_tt).
  { unfold integral_times. cbn [tt_pass tt_headway tt_stop tt_prep tt_res tt_schedule tt_init tight_tt].
    repeat split; intros; try discriminate;
      repeat match goal with
      | H : dget _ _ = Some _ |- _ => apply dget_in in H; cbn [In] in H
      | H : _ \/ _ |- _ => destruct H as [H|H]
      | H : False |- _ => destruct H
      | H : (_, _) = (_, _) |- _ => injection H as <- <-
      | H : Some _ = Some _ |- _ => injection H as <-
      end; eexists; apply Qeq_refl || reflexivity. }
  assert (C : exists b interp, convert_to_bqm four_p small_pd = Ok (b, interp)).
  { assert (K : is_ok (convert_to_bqm four_p small_pd) = true) by (vm_compute; reflexivity).
    destruct (convert_to_bqm four_p small_pd) as [[b i]|e]; [eauto|discriminate K]. }
  split; [exact GS|]. split; [exact NF|]. split; [exact IT|]. split; [intros X; pose proof (X _ _ _ _ _ C54_tight_turn) as Y; discriminate Y|].
  split; [|exact C].
  apply (C54_turnarounds tight_ts tight_tt 4 four_p small_pd); try assumption.
  - apply reserved_freeb_ok; vm_compute; reflexivity.
  - exists 4%Z; reflexivity.
  - reflexivity.
  - apply ok_or_ok; vm_compute; reflexivity.
  - exists (MkVar "Delays" [I 1; A] (Some 0) (Some 4) Integer). vm_compute. auto.
  - exact small_penalties.
Qed.
