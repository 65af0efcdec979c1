(** * PropsShipped: solved problems from the tables of the repository (C71, C72) *)

From Coq Require Import List String Ascii ZArith QArith Bool Lia Lqa.
From Verif Require Import Base BaseFacts Pulp Helpers LinearSolver Spec SpecNames DataTables DataSets DataTimes Pipeline
  SpecDurations SpecEnd TableFacts SetFacts TimeFacts PropsTables PropsSets PropsTimes PropsSchedule EndFacts PropsEnd
  PropsLines LineChecks RealData PropsReal.
From Verif Require Import DataTables SpecTables SpecSets.
Import ListNotations.
Open Scope string_scope.
Open Scope list_scope.

(** C71: with the tables of the repository, whatever the scenario of delays and the solution, two trains
    that use the same block of a line between two stations are on it together for at most half a minute,
    whether they follow each other or meet. *)
Theorem C71_shipped_lines : forall data st t1 td, In (data, st, t1) shipped -> build_timetables data st network = Ok td ->
  forall delays d_max cat ts tt p x, 0 <= d_max ->
  tables_to_problem td st network t1 delays d_max cat = Ok (ts, tt, p) -> feasible p x ->
  forall j k tj tk s s2 mid z z2 mid' r r',
  j <> k -> runs td j tj -> runs td k tk -> directly tj s s2 mid -> directly tk z z2 mid' ->
  In r mid -> In r' mid' -> r_block r = r_block r' ->
  exists a b, Spec.departs ts tt p x (train j) (station s) a /\ Spec.departs ts tt p x (train k) (station z) b /\
    together_at_most (1 # 2) mid a mid' b.
Proof.
  intros data st t1 td I E delays d_max cat ts tt p x D0 H F j k tj tk s s2 mid z z2 mid' r r' NE Rj Rk Dj Dk Ir Ir' Er.
  destruct (shipped_facts data st t1 I) as (td' & E' & T & C & _ & _ & LK & NN). assert (td' = td) by congruence. subst td'.
  assert (NG : forall t tb a b m, runs td t tb -> directly tb a b m -> nonneg_times m).
  { intros t tb a b m R [(pre & r1 & r2 & post & -> & _) _] y Iy. apply (NN _ _ R). rewrite in_app_iff. right. right. apply in_app_iff. auto. }
  destruct (LK j k tj tk s s2 _ z z2 _ (r_block r) NE Rj Rk (directly_leaves _ _ _ _ Dj) (directly_leaves _ _ _ _ Dk))
    as [(-> & -> & EL)|(-> & -> & EL & DS & GU)].
  - apply in_map. exact Ir.
  - rewrite Er. apply in_map. exact Ir'.
  - destruct (C57_rounded_partial td st network t1 delays d_max cat ts tt p x T D0 H F j k tj tk s s2 mid mid' NE Rj Rk Dj Dk (eq_sym EL)
      (NG _ _ _ _ _ Rj Dj) (NG _ _ _ _ _ Rk Dk)) as (a & b & Da & Db & _ & TG). exists a, b. auto.
  - assert (NM : mid <> []) by (intros ->; destruct Ir).
    destruct (C58_rounded_partial td st network t1 delays d_max cat ts tt p x T (cp_rows _ _ _ _ C) D0 H F j k tj tk s s2 mid mid' DS Rj Rk Dj Dk NM EL GU)
      as (a & b & Da & Db & _ & TG). exists a, b. split; [exact Da|]. split; [exact Db|]. apply TG; [exact (NG _ _ _ _ _ Rj Dj)|exact (NG _ _ _ _ _ Rk Dk)].
Qed.
Print Assumptions C71_shipped_lines.

(** C71, switches: two movements over a common switch of a station are at least one minute apart. *)
Theorem C71_shipped_switches : forall data st t1 td, In (data, st, t1) shipped -> build_timetables data st network = Ok td ->
  forall delays d_max cat ts tt p x, 0 <= d_max ->
  tables_to_problem td st network t1 delays d_max cat = Ok (ts, tt, p) -> feasible p x ->
  forall j k tj tk s a b,
  different_stock j k -> runs td j tj -> runs td k tk -> switch_conflict network s tj a tk b ->
  exists t t', moves ts tt p x j s a t /\ moves ts tt p x k s b t' /\ (t + 1 <= t' \/ t' + 1 <= t).
Proof.
  intros data st t1 td I E delays d_max cat ts tt p x D0 H F.
  destruct (shipped_facts data st t1 I) as (td' & E' & T & C & _). assert (td' = td) by congruence. subst td'.
  exact (C60_switches_partial td st network t1 delays d_max cat ts tt p x T (cp_rows _ _ _ _ C) D0 H F).
Qed.
Print Assumptions C71_shipped_switches.

(** C72 for stations the code does not leave out: of two trains on a track of a station whose name is not part of the name of their last
    stations, one comes only when the other one has left. *)
Theorem C72_shipped_tracks_partial : forall data st t1 td, In (data, st, t1) shipped -> build_timetables data st network = Ok td ->
  forall delays d_max cat ts tt p x, 0 <= d_max ->
  tables_to_problem td st network t1 delays d_max cat = Ok (ts, tt, p) -> feasible p x ->
  forall j k tj tk s,
  different_stock j k -> runs td j tj -> runs td k tk -> passes tj s -> passes tk s -> same_track st s tj tk ->
  ~ In s no_track_groups -> (forall d, In d depot_tracks -> ~ only_track st s tj d) ->
  not_named_last tj s -> not_named_last tk s ->
  exists a d a' d',
    occupies_from ts tt p x (station s) (train j) a /\ Spec.departs ts tt p x (train j) (station s) d /\
    occupies_from ts tt p x (station s) (train k) a' /\ Spec.departs ts tt p x (train k) (station s) d' /\
    (d <= a' \/ d' <= a).
Proof.
  intros data st t1 td I E delays d_max cat ts tt p x D0 H F.
  destruct (shipped_facts data st t1 I) as (td' & E' & T & C & _). assert (td' = td) by congruence. subst td'.
  exact (C59_tracks_partial td st network t1 delays d_max cat ts tt p x T (cp_pairs _ _ _ _ C) D0 H F).
Qed.
Print Assumptions C72_shipped_tracks_partial.
