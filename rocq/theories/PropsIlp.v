(** * PropsIlp: what every feasible point of the ILP guarantees (C01-C08) *)

From Coq Require Import List String ZArith QArith Bool.
From Verif Require Import Base Pulp Helpers LinearSolver Spec BaseFacts OrderVars Sound Check Examples.
From Verif Require SpecFacts.
Import ListNotations.
Open Scope string_scope.
Open Scope list_scope.

(** C01: two different trains listed together for the line s -> sp keep the headway: the second
    one leaves s at least the headway of that ordered pair after the first. *)
Theorem C01_headway : forall ts tt d_max cat p x,
  reserved_free ts -> none_free tt -> 0 <= d_max ->
  create_linear_problem ts tt d_max cat = Ok p -> feasible p x ->
  forall s inner sp groups js j jp,
  In (s, inner) (ts_Jd ts) -> In (sp, groups) inner -> In js groups -> listed js j jp -> j <> jp ->
  exists t t' h h', departs ts tt p x j s t /\ departs ts tt p x jp s t' /\
    headway tt j jp s sp h /\ headway tt jp j s sp h' /\ separated t t' h h'.
Proof. exact headways_kept. Qed.
Print Assumptions C01_headway.

Example C01_case : exists t t' h h',
  departs five_ts five_tt five_p five_x (I 21) A t /\ departs five_ts five_tt five_p five_x (I 22) A t' /\
  headway five_tt (I 21) (I 22) A B h /\ headway five_tt (I 22) (I 21) A B h' /\ separated t t' h h'.
Proof.
  apply (C01_headway five_ts five_tt 10 Integer five_p five_x five_reserved five_none ltac:(discriminate)
           five_built five_feasible A [(B, [[I 21; I 22]])] B [[I 21; I 22]] [I 21; I 22]).
  - left; reflexivity.
  - left; reflexivity.
  - left; reflexivity.
  - exists [], [], []. reflexivity.
  - discriminate.
Qed.

(** C02: of two opposing trains on a single-track line between s and sp (not one rolling stock),
    one enters the line only after the other has left it. *)
Theorem C02_single_line : forall ts tt d_max cat p x,
  reserved_free ts -> none_free tt -> 0 <= d_max ->
  create_linear_problem ts tt d_max cat = Ok p -> feasible p x ->
  forall s sp l j jp,
  In ((s, sp), l) (ts_Josingle ts) -> In (j, jp) l -> j <> jp -> ~ same_rolling_stock ts j jp ->
  exists t t' r r', departs ts tt p x j s t /\ departs ts tt p x jp sp t' /\
    running tt j s sp r /\ running tt jp sp s r' /\ separated t t' r r'.
Proof. exact single_line_kept. Qed.
Print Assumptions C02_single_line.

Lemma five_rolling j jp :
  not_the_same_rolling_stock j jp five_ts = true -> ~ same_rolling_stock five_ts j jp.
Proof. apply SpecFacts.not_same_rolling_spec. Qed.

Example C02_case : exists t t' r r',
  departs five_ts five_tt five_p five_x (I 24) C t /\ departs five_ts five_tt five_p five_x (I 25) D t' /\
  running five_tt (I 24) C D r /\ running five_tt (I 25) D C r' /\ separated t t' r r'.
Proof.
  apply (C02_single_line five_ts five_tt 10 Integer five_p five_x five_reserved five_none
           ltac:(discriminate) five_built five_feasible C D [(I 24, I 25)]).
  - left; reflexivity.
  - left; reflexivity.
  - discriminate.
  - apply five_rolling. vm_compute. reflexivity.
Qed.

(** C03: running time and minimal stop are kept at every station whose departure is decided. *)
Theorem C03_minimal_stay : forall ts tt d_max cat p x,
  reserved_free ts -> none_free tt ->
  create_linear_problem ts tt d_max cat = Ok p -> feasible p x ->
  forall j sp s,
  In j (ts_J ts) -> comes_before ts j sp s -> decided ts j s ->
  exists t t' r st, departs ts tt p x j sp t /\ departs ts tt p x j s t' /\
    running tt j sp s r /\ min_stop tt j s st /\ t + r + st <= t'.
Proof. exact minimal_stay_kept. Qed.
Print Assumptions C03_minimal_stay.

Example C03_case : exists t t' r st,
  departs five_ts five_tt five_p five_x (I 22) A t /\ departs five_ts five_tt five_p five_x (I 22) B t' /\
  running five_tt (I 22) A B r /\ min_stop five_tt (I 22) B st /\ t + r + st <= t'.
Proof.
  apply (C03_minimal_stay five_ts five_tt 10 Integer five_p five_x five_reserved five_none
           five_built five_feasible).
  - simpl; auto.
  - exists [A; B; C], [], [C]. split; [reflexivity|]. split; [reflexivity|]. intros [H|[]]; discriminate.
  - split; [simpl; auto|]. split; [exists [A; B; C]; split; [reflexivity|simpl; auto]|]. split.
    + intros (sk & E & H). inversion E; subst. vm_compute in H. discriminate.
    + intros (jn & l1 & l2 & H & _). vm_compute in H. discriminate.
Qed.

(** C04 (partial): two trains on one track of s use it one after the other, until the train (or
    the train it continues as) has left, plus the reservation time where extra switches are
    declared.  Missing with respect to the English statement: a train is exempt not only if it
    skips s but already if the *name* of its skipped station contains the name of s
    ([names_skip]); see [C04_substring_refuted] in Refute.v. *)
Theorem C04_station_track_partial : forall ts tt d_max cat p x,
  reserved_free ts -> none_free tt -> 0 <= d_max ->
  create_linear_problem ts tt d_max cat = Ok p -> feasible p x ->
  forall s j jp,
  shares_track ts s j jp -> j <> jp -> ~ same_rolling_stock ts j jp ->
  ~ names_skip ts j s -> ~ names_skip ts jp s ->
  turnaround_closed ts s j jp -> turnaround_closed ts s jp j ->
  exists a d a' d' g,
    occupies_from ts tt p x s j a /\ occupies_until ts tt p x s j d /\
    occupies_from ts tt p x s jp a' /\ occupies_until ts tt p x s jp d' /\
    track_gap ts tt s g /\ (d + g <= a' \/ d' + g <= a).
Proof. exact tracks_kept. Qed.
Print Assumptions C04_station_track_partial.

(** Train 0 turns around at B into train 1; train 2 uses the same track. *)
Example C04_case : exists a d a' d' g,
  occupies_from circ_ts circ_tt circ_p circ_x B (I 0) a /\
  occupies_until circ_ts circ_tt circ_p circ_x B (I 0) d /\
  occupies_from circ_ts circ_tt circ_p circ_x B (I 2) a' /\
  occupies_until circ_ts circ_tt circ_p circ_x B (I 2) d' /\
  track_gap circ_ts circ_tt B g /\ (d + g <= a' \/ d' + g <= a).
Proof.
  assert (NR : forall j jp, not_the_same_rolling_stock j jp circ_ts = true ->
               ~ same_rolling_stock circ_ts j jp) by (intros; apply SpecFacts.not_same_rolling_spec; auto).
  assert (NS : forall j s, ~ names_skip circ_ts j s).
  { intros j s (sk & name & s' & H & _). discriminate. }
  apply (C04_station_track_partial circ_ts circ_tt 20 Integer circ_p circ_x circ_reserved circ_none
           ltac:(discriminate) circ_built circ_feasible).
  - exists [[I 0; I 1; I 2]], [I 0; I 1; I 2]. split; [left; reflexivity|]. split; [left; reflexivity|].
    left. exists [], [I 1], []. reflexivity.
  - discriminate.
  - apply NR. vm_compute. reflexivity.
  - apply NS.
  - apply NS.
  - intros jn (l1 & l2 & H & _). vm_compute in H. inversion H as [H0].
    destruct l1 as [|e l1]; [|destruct l1; discriminate]. injection H0 as <- <-.
    split; [|split; [|split; [apply NS|]]].
    + exists [[I 0; I 1; I 2]], [I 0; I 1; I 2]. split; [left; reflexivity|]. split; [left; reflexivity|].
      left. exists [I 0], [], []. reflexivity.
    + apply NR. vm_compute. reflexivity.
    + intros k (m1 & m2 & H' & _). vm_compute in H'. inversion H' as [H1].
      destruct m1 as [|e m1]; [discriminate|destruct m1; discriminate].
  - intros jn (l1 & l2 & H & _). vm_compute in H. inversion H as [H0].
    destruct l1 as [|e l1]; [discriminate|destruct l1; discriminate].
Qed.

(** C05: two trains sharing a switch group pass it at times at least the reservation time apart. *)
Theorem C05_switches : forall ts tt d_max cat p x,
  reserved_free ts -> none_free tt -> 0 <= d_max ->
  create_linear_problem ts tt d_max cat = Ok p -> feasible p x ->
  forall s l pair jp jpp a b,
  In (s, l) (ts_Jswitch ts) -> In pair l -> pair = [(jp, a); (jpp, b)] -> jp <> jpp ->
  ~ same_rolling_stock ts jp jpp ->
  exists t t' r, uses_switch ts tt p x s pair jp t /\ uses_switch ts tt p x s pair jpp t' /\
    reservation tt r /\ separated t t' r r.
Proof. exact switches_kept. Qed.
Print Assumptions C05_switches.

Example C05_case : exists t t' r,
  uses_switch five_ts five_tt five_p five_x C [(I 22, PStr "in"); (I 24, PStr "out")] (I 22) t /\
  uses_switch five_ts five_tt five_p five_x C [(I 22, PStr "in"); (I 24, PStr "out")] (I 24) t' /\
  reservation five_tt r /\ separated t t' r r.
Proof.
  eapply (C05_switches five_ts five_tt 10 Integer five_p five_x five_reserved five_none
           ltac:(discriminate) five_built five_feasible C).
  - right; left; reflexivity.
  - right; left; reflexivity.
  - reflexivity.
  - discriminate.
  - apply five_rolling. vm_compute. reflexivity.
Qed.

(** C70: two trains that run against each other between s and s2 and meet at common switches at both
    stations are never on the line together, even if the line is not listed as a single track. *)
Theorem C70_switches_at_both_ends : forall ts tt d_max cat p x,
  reserved_free ts -> none_free tt -> 0 <= d_max ->
  create_linear_problem ts tt d_max cat = Ok p -> feasible p x ->
  forall s s2 j k,
  crosses_at ts s j k -> crosses_at ts s2 k j -> comes_before ts j s s2 -> comes_before ts k s2 s ->
  j <> k -> s <> s2 -> ~ same_rolling_stock ts j k ->
  exists t t' q q' r, departs ts tt p x j s t /\ departs ts tt p x k s2 t' /\
    running tt j s s2 q /\ running tt k s2 s q' /\ reservation tt r /\ separated t t' (q + r) (q' + r).
Proof. exact opposite_switches_kept. Qed.
Print Assumptions C70_switches_at_both_ends.

Example C70_case : exists t t' q q' r,
  departs cross_ts cross_tt cross_p cross_x (I 1) A t /\ departs cross_ts cross_tt cross_p cross_x (I 2) B t' /\
  running cross_tt (I 1) A B q /\ running cross_tt (I 2) B A q' /\ reservation cross_tt r /\
  separated t t' (q + r) (q' + r).
Proof.
  apply (C70_switches_at_both_ends cross_ts cross_tt 10 Integer cross_p cross_x cross_reserved cross_none
           ltac:(discriminate) cross_built cross_feasible A B (I 1) (I 2)).
  - exists [[(I 1, PStr "out"); (I 2, PStr "in")]], [(I 1, PStr "out"); (I 2, PStr "in")]. cbn. auto.
  - exists [[(I 1, PStr "in"); (I 2, PStr "out")]], [(I 1, PStr "in"); (I 2, PStr "out")]. cbn. auto.
  - exists [A; B], [], []. split; [reflexivity|]. split; [reflexivity|]. intros [X|[]]; discriminate.
  - exists [B; A], [], []. split; [reflexivity|]. split; [reflexivity|]. intros [X|[]]; discriminate.
  - discriminate.
  - discriminate.
  - apply SpecFacts.not_same_rolling_spec. vm_compute. reflexivity.
Qed.

(** C06: the rolling stock of j has arrived and is prepared before jp leaves. *)
Theorem C06_circulation : forall ts tt d_max cat p x,
  reserved_free ts -> none_free tt -> 0 <= d_max ->
  create_linear_problem ts tt d_max cat = Ok p -> feasible p x ->
  forall s l j jp,
  In (s, l) (ts_Jround ts) -> In (j, jp) l ->
  exists t t' pr, arrives ts tt p x j s t /\ departs ts tt p x jp s t' /\
    preparation tt jp s pr /\ t + pr <= t'.
Proof. exact circulation_kept. Qed.
Print Assumptions C06_circulation.

Example C06_case : exists t t' pr,
  arrives five_ts five_tt five_p five_x (I 22) C t /\ departs five_ts five_tt five_p five_x (I 23) C t' /\
  preparation five_tt (I 23) C pr /\ t + pr <= t'.
Proof.
  apply (C06_circulation five_ts five_tt 10 Integer five_p five_x five_reserved five_none
           ltac:(discriminate) five_built five_feasible C [(I 22, I 23)]); left; reflexivity.
Qed.

(** C07: a departure is not before the schedule, not before the initial condition, and at most
    d_max after the earliest possible departure. *)
Theorem C07_departure_bounds : forall ts tt d_max cat p x,
  reserved_free ts -> none_free tt -> 0 <= d_max ->
  create_linear_problem ts tt d_max cat = Ok p -> feasible p x ->
  forall j s t, departs ts tt p x j s t ->
  (forall q, scheduled tt j s q -> q <= t) /\ (forall q, initially tt j s q -> q <= t) /\
  (forall e, earliest ts tt j s e -> e <= t <= e + d_max).
Proof. intros ts tt d_max cat p x H1 H2 H3 H4 H5. exact (departure_bounds ts tt d_max cat p x H1 H3 H4 H5). Qed.
Print Assumptions C07_departure_bounds.

Example C07_case : departs five_ts five_tt five_p five_x (I 22) A 8.
Proof.
  exists 1. split; [|vm_compute; reflexivity]. apply earliest_init with (i := 1); [reflexivity|].
  right. split; [|reflexivity]. intros q H. vm_compute in H. discriminate.
Qed.

(** C08: one order decision. "j before jp at s" and "jp before j at s" (same line or track), "j from s before jp from sp"
    (opposing), and "j enters s before jp" are each one decision, whatever sets mention them. *)
Theorem C08_one_decision : forall ts y,
  reserved_free ts -> order_variables ts = Ok y ->
  forall j jp, j <> jp -> In j (mentioned_trains ts) -> In jp (mentioned_trains ts) ->
  (forall s a b, get_y3 y j jp s = Ok a -> get_y3 y jp j s = Ok b -> one_decision a b) /\
  (forall s sp a b, In s (mentioned_stations ts) -> In sp (mentioned_stations ts) ->
     get_y4_singleline y j jp s sp = Ok a -> get_y4_singleline y jp j sp s = Ok b ->
     one_decision a b) /\
  (forall s a b, get_y4_in y in_ j jp s = Ok a -> get_y4_in y in_ jp j s = Ok b ->
     one_decision a b).
Proof. exact one_decision_lemma. Qed.
Print Assumptions C08_one_decision.

(** ... and the decision exists for every pair listed for a line, a track, a single-track line
    or a switch: asking never fails. *)
Theorem C08_decision_exists : forall ts y,
  reserved_free ts -> order_variables ts = Ok y ->
  (forall s inner sp groups js j jp, In (s, inner) (ts_Jd ts) -> In (sp, groups) inner ->
     In js groups -> listed js j jp -> exists a b, get_y3 y j jp s = Ok a /\ get_y3 y jp j s = Ok b) /\
  (forall s j jp, shares_track ts s j jp ->
     exists a b, get_y3 y j jp s = Ok a /\ get_y3 y jp j s = Ok b) /\
  (forall s sp l j jp, In ((s, sp), l) (ts_Josingle ts) -> In (j, jp) l ->
     exists a b, get_y4_singleline y j jp s sp = Ok a /\ get_y4_singleline y jp j sp s = Ok b).
Proof. exact decision_exists_lemma. Qed.
Print Assumptions C08_decision_exists.

Example C08_case : exists y, order_variables five_ts = Ok y /\
  In (I 21) (mentioned_trains five_ts) /\ In (I 22) (mentioned_trains five_ts) /\
  is_ok (get_y3 y (I 21) (I 22) B) = true /\ is_ok (get_y3 y (I 22) (I 21) B) = true /\
  is_ok (get_y4_singleline y (I 24) (I 22) C B) = true.
Proof.
  eexists. split; [vm_compute; reflexivity|]. repeat split; vm_compute; auto.
Qed.
