(** * PropsHelpers: earliest departures, pair predicates, turnarounds, paths, nested dictionaries
      (C15, C20-C23) *)

From Coq Require Import List String ZArith QArith Bool Lqa Lia.
From Verif Require Import Base Pulp Helpers LinearSolver BaseFacts Spec TreeFacts SpecFacts SpecTimes
  HelperFacts Check Examples.
Import ListNotations.
Open Scope string_scope.
Open Scope list_scope.

(** C15: [earliest_dep_time] is defined on the whole path and is the least timetable that respects the data;
    later initial conditions (by at most [delta]) move departures by between 0 and [delta], and raise the
    same exceptions. *)
Theorem C15_earliest_departures :
  (forall ts tt j, reserved_free ts -> none_free tt -> times_given ts tt j ->
     exists f, (forall s, on_path ts j s -> earliest_dep_time (ts_Paths ts) tt j s = Ok (f s)) /\
       respects ts tt j f /\ forall g, respects ts tt j g -> forall s, on_path ts j s -> f s <= g s) /\
  (forall delta tt tt' paths, initially_later delta tt tt' -> forall j s,
     match earliest_dep_time paths tt j s, earliest_dep_time paths tt' j s with
     | Ok e, Ok e' => e <= e' <= e + delta
     | Err x, Err x' => x = x'
     | _, _ => False
     end).
Proof. split; [exact earliest_least|exact earliest_monotone]. Qed.
Print Assumptions C15_earliest_departures.

Definition late_tt : timetable := MkTT (tt_pass five_tt) (tt_headway five_tt) (tt_stop five_tt)
  (tt_prep five_tt) (tt_res five_tt) [("21_B", 12); ("21_A", 5)] (tt_init five_tt) (tt_weights five_tt).
Definition later_tt : timetable := MkTT (tt_pass five_tt) (tt_headway five_tt) (tt_stop five_tt)
  (tt_prep five_tt) (tt_res five_tt) [("21_B", 12); ("21_A", 5)]
  (map (fun kv => (fst kv, snd kv + 3)) (tt_init five_tt)) (tt_weights five_tt).

Ltac path_cases H := apply dget_in in H; cbn in H;
  repeat (destruct H as [H|H]; [inversion H; subst; clear H|]); try contradiction.

Lemma late_given : times_given five_ts late_tt (I 21).
Proof.
  split.
  - intros s (l & H). cbn in H. inversion H; subst. exists 6. reflexivity.
  - intros sp s (path & l1 & l2 & H & E & _). cbn in H. injection H as <-. right.
    destruct l1 as [|a [|b [|c l1]]]; cbn in E; inversion E; subst.
    + exists 4, 1. split; reflexivity.
    + exists 4, 1. split; reflexivity.
    + destruct l1; discriminate.
Qed.

(** Train 21: known to leave A at 6, scheduled at B at 12 (reached at 6+4+1 = 11), so C at 12+4+1 = 17;
    3 minutes later at A makes 14 and 19. *)
Example C15_case :
  times_given five_ts late_tt (I 21) /\ none_free late_tt /\ initially_later 3 late_tt later_tt /\
  (exists e, earliest_dep_time (ts_Paths five_ts) late_tt (I 21) C = Ok e /\ e == 17) /\
  (exists e, earliest_dep_time (ts_Paths five_ts) later_tt (I 21) C = Ok e /\ e == 19).
Proof.
  split; [exact late_given|]. split; [apply none_freeb_ok; vm_compute; reflexivity|]. split.
  - do 3 (split; [reflexivity|]). intros k. unfold late_tt, later_tt. cbn [tt_init].
    induction (tt_init five_tt) as [|[a q] l IH]; cbn [map dget fst snd]; [exact Logic.I|].
    destruct (eq_dec k a); [lra|exact IH].
  - split; eexists; (split; [vm_compute; reflexivity|reflexivity]).
Qed.

(** C20: exchanging the trains changes no answer; a group pairs different members, so no train with itself
    (in [occurs_as_pair] and [not_the_same_rolling_stock]). *)
Theorem C20_symmetric : forall j jp,
  (forall groups, occurs_as_pair j jp groups = occurs_as_pair jp j groups) /\
  (forall groups, occurs_as_pair j jp groups = true <->
     j <> jp /\ exists g, In g groups /\ In j g /\ In jp g) /\
  (forall ts, not_the_same_rolling_stock j jp ts = not_the_same_rolling_stock jp j ts) /\
  (forall ts, not_the_same_rolling_stock j jp ts = true <-> ~ same_rolling_stock ts j jp) /\
  (forall ts s b, can_MO_on_line j jp s ts = Ok b <-> can_MO_on_line jp j s ts = Ok b) /\
  (forall ts s, entering_via_same_switches ts s j jp = entering_via_same_switches ts s jp j).
Proof.
  intros j jp. split; [|split; [|split; [|split; [|split]]]].
  - intros. apply occurs_as_pair_sym.
  - intros groups. apply occurs_as_pair_true.
  - intros. apply not_same_sym.
  - intros ts. apply not_same_rolling_spec.
  - intros ts s b. split; apply can_MO_sym.
  - intros. apply entering_sym.
Qed.
Print Assumptions C20_symmetric.

Example C20_case : occurs_as_pair (I 22) (I 23) [[I 21; I 24]; [I 23; I 22]] = true /\
  not_the_same_rolling_stock (I 23) (I 22) five_ts = false /\
  can_MO_on_line (I 22) (I 21) B five_ts = Ok false /\ can_MO_on_line (I 23) (I 21) B five_ts = Ok true /\
  entering_via_same_switches five_ts B (I 22) (I 21) = true /\
  entering_via_same_switches five_ts C (I 24) (I 21) = false.
Proof. repeat split; vm_compute; reflexivity. Qed.

(** C21 *)
Theorem C21_turnarounds : forall ts s pairs,
  dget s (ts_Jround ts) = Some pairs -> NoDup (map fst pairs) -> NoDup (map snd pairs) ->
  ~ In PNone (map fst pairs) -> ~ In PNone (map snd pairs) ->
  forall j jp, j <> PNone -> jp <> PNone ->
    (subsequent_train_at_Jround ts j s = jp <-> In (j, jp) pairs) /\
    (previous_train_from_Jround ts jp s = j <-> In (j, jp) pairs).
Proof. exact turnaround_lookups. Qed.
Print Assumptions C21_turnarounds.

(** Chains are allowed: 22 continues as 23 and 23 as 22 again. *)
Example C21_case :
  let ts := MkTS None [] [] [] [] [(C, [(I 22, I 23); (I 23, I 22); (I 7, I 8)])] [] [] None in
  subsequent_train_at_Jround ts (I 23) C = I 22 /\ previous_train_from_Jround ts (I 22) C = I 23 /\
  subsequent_train_at_Jround ts (I 8) C = PNone /\
  NoDup (map fst [(I 22, I 23); (I 23, I 22); (I 7, I 8)]) /\
  NoDup (map snd [(I 22, I 23); (I 23, I 22); (I 7, I 8)]).
Proof.
  split; [reflexivity|]. split; [reflexivity|]. split; [reflexivity|].
  split; repeat constructor; cbn; intuition discriminate.
Qed.

(** C22 *)
Theorem C22_neighbours : forall path, NoDup path -> ~ In PNone path ->
  (forall sp s, sp <> PNone -> s <> PNone ->
     (previous_station path s = Ok sp <-> exists l1 l2, path = l1 ++ sp :: s :: l2) /\
     (subsequent_station path sp = Ok s <-> exists l1 l2, path = l1 ++ sp :: s :: l2)) /\
  (forall s, previous_station path s = Ok PNone <-> exists l, path = s :: l) /\
  (forall s, subsequent_station path s = Ok PNone <-> exists l, path = l ++ [s]).
Proof. exact neighbours. Qed.
Print Assumptions C22_neighbours.

Example C22_case : NoDup [A; B; C] /\ ~ In PNone [A; B; C] /\
  previous_station [A; B; C] C = Ok B /\ subsequent_station [A; B; C] B = Ok C.
Proof.
  split; [repeat constructor; cbn; intuition discriminate|].
  split; [cbn; intuition discriminate|]. split; reflexivity.
Qed.

(** C23: [tpath path t] is the value of [t[k1][k2]...]. *)
Theorem C23_nested_update : forall path v t,
  udepth (List.length path) t ->
  (tpath path t = None ->
     exists t', update_dictofdicts t (single path v) = Ok t' /\ udepth (List.length path) t' /\
       tpath path t' = Some v /\
       forall q, List.length q = List.length path -> q <> path -> tpath q t' = tpath q t) /\
  (forall w, tpath path t = Some w -> update_dictofdicts t (single path v) = Err AttributeError).
Proof.
  intros path v t Hd. split.
  - intros Hn. destruct (update_single_new path v t Hd Hn) as (t' & H1 & H2 & H3).
    exists t'. split; [exact H1|]. split; [exact H2|]. split.
    + rewrite (H3 path eq_refl). destruct (eq_dec path path); congruence.
    + intros q Hl Hq. rewrite (H3 q Hl). destruct (eq_dec q path); congruence.
  - intros w Hw. exact (update_single_old path v t w Hw).
Qed.
Print Assumptions C23_nested_update.

Example C23_case :
  let v n := MkVar "z" [I n] None None Integer in
  let t := TNode [(I 1, TNode [(A, TLeaf (v 1%Z)); (B, TLeaf (v 2%Z))]); (I 2, TNode [(A, TLeaf (v 3%Z))])] in
  udepth 2 t /\
  update_dictofdicts t (single [I 2; B] (v 4%Z)) =
    Ok (TNode [(I 1, TNode [(A, TLeaf (v 1%Z)); (B, TLeaf (v 2%Z))]);
               (I 2, TNode [(A, TLeaf (v 3%Z)); (B, TLeaf (v 4%Z))])]) /\
  update_dictofdicts t (single [I 1; B] (v 4%Z)) = Err AttributeError.
Proof. split; [repeat constructor|]. split; vm_compute; reflexivity. Qed.
