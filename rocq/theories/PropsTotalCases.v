(** * PropsTotalCases: complete tables (C56), and complete ones that give no problem *)

From Coq Require Import List String Ascii ZArith QArith Bool Lia Lqa.
From Verif Require Import Base BaseFacts Pulp Helpers LinearSolver Spec SpecNames DataTables DataSets DataTimes Pipeline
  SpecDurations SpecEnd Names TableFacts SetFacts TimeFacts PropsTables PropsSchedule EndFacts PropsEnd PropsEndCases PropsTotal.
From Verif Require Import DataTables SpecTables SpecSets.
Import ListNotations.
Open Scope string_scope.
Open Scope list_scope.

(** ** Deciding the simple parts *)

Definition okb {A} (r : res A) : bool := match r with Ok _ => true | Err _ => false end.
Definition kinds : list string := ["KS - Os"; "PR - R"; "KS - OsP"; "IC - TLK"; "IC - IC"; "IC - EIP"; "IC - EIC"].

Definition start_time (tt : table) (t1 : string) : res Z :=
  match filter (fun r => match r_station r with Some _ => true | None => false end) tt with
  | [] => Err IndexError
  | r :: _ => strptime (match r_dep r, r_approx r with Some d, _ => d | None, Some a => a | None, None => t1 end)
  end.

Definition readableb (c : swcell) : bool :=
  match c with
  | SwOne _ | SwMany _ => true
  | SwFloat _ f => okb (int_of_str f) && negb (match f with String "0"%char (String _ _) => true | _ => false end)
  | SwInt _ | SwEmpty => false
  end.

Lemma readableb_ok c : readableb c = true -> readable c.
Proof.
  destruct c as [n|l|n|w f|]; cbn; intros B; try discriminate; try exact Logic.I. apply andb_true_iff in B as [B1 B2]. split.
  - destruct (int_of_str f) as [z|]; [eauto|discriminate].
  - intros (d & rest & ->). discriminate.
Qed.

(** The ways of a train to and from blocks of stations *)
Fixpoint station_ways (rows : table) : list (string * string) :=
  match rows with
  | a :: ((b :: _) as rest) =>
      match r_station a, r_station b with
      | None, None => station_ways rest
      | _, _ => (r_block a, r_block b) :: station_ways rest
      end
  | _ => []
  end.

Lemma station_ways_in pre a b post : r_station a <> None \/ r_station b <> None -> In (r_block a, r_block b) (station_ways (pre ++ a :: b :: post)).
Proof.
  intros H. induction pre as [|x pre IH].
  - cbn. destruct (r_station a), (r_station b); try (left; reflexivity). destruct H; congruence.
  - assert (M : incl (station_ways (pre ++ a :: b :: post)) (station_ways ((x :: pre) ++ a :: b :: post))).
    { intros w I. destruct pre as [|y pre]; cbn in I |- *; destruct (r_station x); [right; exact I| |right; exact I|]; [destruct (r_station a)|destruct (r_station y)]; try (right; exact I); exact I. }
    apply M, IH.
Qed.

Definition switchesb (td : train_dict) (net : list netrow) : bool :=
  forallb (fun e => forallb (fun w => forallb (fun n =>
    negb (eqb (n_prev n) (fst w) && eqb (n_next n) (snd w) || eqb (n_prev n) (snd w) && eqb (n_next n) (fst w)) || readableb (n_switch n)) net)
    (station_ways (snd (snd e)))) td.

Lemma switchesb_ok td net : switchesb td net = true -> forall n, In n net -> looked_at td n -> readable (n_switch n).
Proof.
  intros B n I (t & tt & pre & r1 & r2 & post & (i & R) & -> & RF & H). apply dget_in in R. unfold switchesb in B.
  rewrite forallb_forall in B. specialize (B _ R). cbn [fst snd] in B. rewrite forallb_forall in B.
  specialize (B (r_block r1, r_block r2)). cbn [fst snd] in B.
  assert (W : In (r_block r1, r_block r2) (station_ways (pre ++ r1 :: r2 :: post))) by (apply station_ways_in; destruct H as [[H _]|[H _]]; auto).
  specialize (B W). rewrite forallb_forall in B. specialize (B n I). apply orb_true_iff in B as [B|B]; [|apply readableb_ok, B].
  exfalso. destruct RF as [[P1 P2]|[P1 P2]]; rewrite P1, P2, !eqb_refl in B; cbn in B; rewrite ?orb_true_r in B; discriminate.
Qed.

Definition simpleb (td : train_dict) (st : station_blocks) (net : list netrow) (t1 : string) : bool :=
  forallb (fun t => (0 <=? t)%Z) (dkeys td) &&
  forallb (fun s => negb (eqb s "p") && all_chars plain_char s && forallb (fun t => negb (eqb s (str_of_Z t))) (dkeys td)) (dkeys st) &&
  okb (strptime t1) &&
  forallb (fun e => match train_important_stations (snd (snd e)) with _ :: _ :: _ => true | _ => false end &&
    match fst (snd e) with k :: _ => lmem k kinds | [] => false end &&
    forallb (fun r => match r_dep r with Some d => okb (strptime d) | None => true end) (snd (snd e)) &&
    okb (start_time (snd (snd e)) t1)) td &&
  switchesb td net &&
  forallb (fun n => negb (eqb (n_prev n) (n_next n))) net &&
  nodupb (flat_map (fun n => [(n_prev n, n_next n); (n_next n, n_prev n)]) net).

Lemma plain_has s n : all_chars plain_char s = true -> In n lp_var_chars -> ~ has_char n s.
Proof.
  intros P I (u & c & v & -> & E). rewrite all_chars_app in P. apply andb_true_iff in P as [_ P]. cbn [all_chars] in P.
  apply andb_true_iff in P as [P _]. unfold plain_char in P. apply negb_true_iff, lmem_false in P. apply P. rewrite E. right. exact I.
Qed.

Lemma simpleb_ok td st net t1 : NoDup (dkeys td) -> simpleb td st net t1 = true -> pairs_meet td st ->
  (forall x j k s tk row, same_stock x j k -> turns td st s j k -> runs td k tk -> first_stop tk s row -> r_turn row <> None) ->
  complete td st net t1.
Proof.
  intros ND S PM TR. unfold simpleb in S. rewrite !andb_true_iff in S. destruct S as [[[[[[S1 S2] S3] S4] S5] S6] S7].
  rewrite forallb_forall in S1, S2, S4, S6.
  assert (E : forall t tt, runs td t tt -> exists info, In (t, (info, tt)) td) by (intros t tt (info & R); exists info; apply dget_in; exact R).
  constructor.
  - intros t I. apply S1 in I. lia.
  - intros s I. apply S2 in I. rewrite !andb_true_iff in I. destruct I as [[I1 I2] I3]. split; [apply eqb_false, negb_true_iff, I1|].
    split; [intros n J; apply plain_has; assumption|]. intros t It. rewrite forallb_forall in I3. apply eqb_false, negb_true_iff, I3, It.
  - intros t tt R. destruct (E t tt R) as (info & I). apply S4 in I. cbn [fst snd] in I. rewrite !andb_true_iff in I. destruct I as [[[I _] _] _].
    destruct (train_important_stations tt) as [|a [|b v]] eqn:P; try discriminate. apply (stations_leaves tt [] a b v) in P as (line & L).
    apply leaves_directly in L as (mid & D & _). eauto.
  - intros t info tt G. apply dget_in, S4 in G. cbn [fst snd] in G. rewrite !andb_true_iff in G. destruct G as [[[_ G] _] _].
    destruct info as [|k rest]; [discriminate|]. apply lmem_true in G. unfold kind_weight. cbn in G.
    assert (X : exists q : Q, (k = "KS - Os" \/ k = "PR - R" \/ k = "KS - OsP") /\ q = 1 \/ (k = "IC - TLK" \/ k = "IC - IC") /\ q = 3 # 2 \/
      (k = "IC - EIP" \/ k = "IC - EIC") /\ q = 7 # 4).
    { repeat (destruct G as [<-|G]; [first [exists 1; left; split; [tauto|reflexivity] | exists (3 # 2); right; left; split; [tauto|reflexivity]
        | exists (7 # 4); right; right; split; [tauto|reflexivity]]|]). destruct G. }
    destruct X as (q & X). exists k, rest, q. split; [reflexivity|exact X].
  - intros t tt r s dep R Ir _ Er. destruct (E t tt R) as (info & I). apply S4 in I. cbn [fst snd] in I. rewrite !andb_true_iff in I. destruct I as [[_ I] _].
    rewrite forallb_forall in I. apply I in Ir. rewrite Er in Ir. destruct (strptime dep) as [n|] eqn:Q; [|discriminate]. exists n. apply strptime_clock, Q.
  - destruct (strptime t1) as [n1|] eqn:Q; [|discriminate]. exists n1. split; [apply strptime_clock; exact Q|].
    intros t tt R. destruct (E t tt R) as (info & I). apply S4 in I. cbn [fst snd] in I. rewrite !andb_true_iff in I. destruct I as [_ I].
    clear - I Q. unfold start_time in I. induction tt as [|x tt IH]; [discriminate|]. cbn [filter] in I. destruct (r_station x) as [s|] eqn:Ex.
    + exists s. destruct (strptime _) as [n|] eqn:Sn in I; [|discriminate]. exists n, x. split; [exists [], tt; split; [reflexivity|]; split; [intros ? []|exact Ex]|].
      destruct (r_dep x); [apply strptime_clock, Sn|]. destruct (r_approx x); [apply strptime_clock, Sn|]. congruence.
    + destruct (IH I) as (s & n & r & (pre & post & -> & N & Er) & M). exists s, n, r. split; [|exact M]. exists (x :: pre), post. split; [reflexivity|].
      split; [|exact Er]. intros y [<-|J]; [exact Ex|auto].
  - apply nodupb_ok in S7. split.
    + intros n I. apply S6, negb_true_iff, eqb_false in I. exact I.
    + intros u n v n' w -> . rewrite flat_map_app in S7. apply nodup_parts in S7 as [_ S7]. cbn [flat_map app] in S7.
      inversion S7 as [|? ? A1 B1]; subst. inversion B1 as [|? ? A2 B2]; subst. clear S7 B1 B2.
      split; intros [X Y].
      * apply A1. right. rewrite flat_map_app. apply in_or_app. right. cbn. left. congruence.
      * apply A2. rewrite flat_map_app. apply in_or_app. right. cbn. left. congruence.
  - apply switchesb_ok. exact S5.
  - exact PM.
  - exact TR.
Qed.

(** ** A case *)

Lemma day_complete : complete day_td day_st day_net "16:00".
Proof.
  apply simpleb_ok; [apply (tidyb_ok day_td day_st); vm_compute; reflexivity|vm_compute; reflexivity|exact day_pairs|].
  intros x j k s tk row SS TU (info & R) (pre & post & E & N & S).
  assert (JK : j = 11%Z /\ k = 119%Z \/ j = 119%Z /\ k = 11%Z).
  { destruct TU as (b & (ta & tb & Ra & Rb & _) & _). apply runs_key in Ra, Rb. cbn in Ra, Rb. destruct SS as [[? ?]|[? ?]]; subst; lia. }
  destruct JK as [[-> ->]|[-> ->]].
  - rewrite E in R. vm_compute in R. destruct pre as [|y pre]; cbn in R; injection R as R1 R2.
    + subst row. discriminate.
    + exfalso. specialize (N _ (or_introl eq_refl)). subst y. discriminate.
  - exfalso. destruct TU as (b & (ta & tb & (ia & Ra) & (ib & Rb) & (f & r & Ea & Ba) & (r' & w & Eb & Bb)) & _). cbn in Ra, Rb.
    rewrite Ea in Ra. rewrite Eb in Rb. injection Ra as _ Ra. injection Rb as _ Rb _.
    apply (f_equal (fun l => last (map r_block l) "")) in Ra. rewrite map_app in Ra. cbn [map] in Ra. rewrite last_last in Ra.
    apply (f_equal r_block) in Rb. cbn in Ra, Rb. congruence.
Qed.

(** The stretches of a timetable between two neighbouring stations *)
Fixpoint stretches (open : option (string * list string)) (rows : table) : list (string * string * list string) :=
  match rows with
  | [] => []
  | r :: more =>
      match r_station r, open with
      | Some s2, Some (s, l) => (s, s2, l) :: stretches (Some (s2, [])) more
      | Some s2, None => stretches (Some (s2, [])) more
      | None, Some (s, l) => stretches (Some (s, l ++ [r_block r])) more
      | None, None => stretches None more
      end
  end.

Lemma stretches_ok tt s s2 line : leaves tt s s2 line -> In (s, s2, line) (stretches None tt).
Proof.
  assert (B : forall mid r2 post s l, (forall r, In r mid -> r_station r = None) -> r_station r2 = Some s2 ->
    In (s, s2, l ++ map r_block mid) (stretches (Some (s, l)) (mid ++ r2 :: post))).
  { induction mid as [|m mid IH]; intros r2 post a l N E; cbn.
    - rewrite E, app_nil_r. left. reflexivity.
    - rewrite (N m (or_introl eq_refl)). specialize (IH r2 post a (l ++ [r_block m]) (fun r I => N r (or_intror I)) E).
      rewrite <- app_assoc in IH. exact IH. }
  intros (pre & r1 & mid & r2 & post & -> & E1 & E2 & N & ->).
  assert (A : forall pre o, In (s, s2, map r_block mid) (stretches o (pre ++ r1 :: mid ++ r2 :: post))).
  { induction pre0 as [|x pre0 IH]; intros o; cbn.
    - rewrite E1. destruct o as [[a l]|]; [right|]; exact (B mid r2 post s [] N E2).
    - destruct (r_station x) as [a|], o as [[b l]|]; try right; apply IH. }
  apply A.
Qed.

Definition linesb (td : train_dict) : bool :=
  let all := flat_map (fun e => stretches None (snd (snd e))) td in
  forallb (fun a => forallb (fun b =>
    if eqb (fst a) (fst b) then negb (forallb (fun x => lmem x (snd b)) (snd a)) || forallb (fun x => lmem x (snd a)) (snd b) else true) all) all.

Lemma linesb_ok td : linesb td = true -> no_part_lines td.
Proof.
  intros B t t' tt tt' s s2 line line' (i & R) (i' & R') L L' I. apply dget_in in R, R'. unfold linesb in B.
  assert (X : forall t i tt line, In (t, (i, tt)) td -> leaves tt s s2 line -> In (s, s2, line) (flat_map (fun e => stretches None (snd (snd e))) td)).
  { intros t0 i0 tt0 l0 R0 L0. apply in_flat_map. eexists. split; [exact R0|]. apply stretches_ok. exact L0. }
  rewrite forallb_forall in B. specialize (B _ (X _ _ _ _ R L)). rewrite forallb_forall in B. specialize (B _ (X _ _ _ _ R' L')).
  cbn [fst snd] in B. rewrite eqb_refl in B. apply orb_true_iff in B as [B|B].
  - exfalso. apply negb_true_iff in B. assert (Y : forallb (fun x => lmem x line') line = true) by (apply forallb_forall; intros x Ix; apply lmem_true, I, Ix). congruence.
  - rewrite forallb_forall in B. intros x Ix. apply lmem_true, B, Ix.
Qed.

Example C56_case : tidy day_td day_st /\ complete day_td day_st day_net "16:00" /\ no_part_lines day_td /\
  exists p, tables_to_problem day_td day_st day_net "16:00" [(12%Z, 5)] 40 Integer = Ok p /\ List.length (p_constraints (snd p)) = 22%nat.
Proof.
  split; [apply tidyb_ok; vm_compute; reflexivity|]. split; [exact day_complete|]. split; [apply linesb_ok; vm_compute; reflexivity|].
  eexists. split; [vm_compute; reflexivity|reflexivity].
Qed.

(** ** Two trains in two groups *)

Definition part_st : station_blocks := [("A", ["a1"; "a2"; "a3"; "a4"]); ("B", ["b1"; "b2"; "b3"; "b4"])].
Definition part_td : train_dict :=
  [(11%Z, (["KS - Os"], [trow "a1" (Some "A") 1 (Some "16:00") None; trow "x" None 2 None None; trow "y" None 2 None None; trow "b1" (Some "B") 0 None None]));
   (12%Z, (["KS - Os"], [trow "a2" (Some "A") 1 (Some "16:02") None; trow "x" None 2 None None; trow "z" None 2 None None; trow "b2" (Some "B") 0 None None]));
   (13%Z, (["KS - Os"], [trow "a3" (Some "A") 1 (Some "16:04") None; trow "x" None 2 None None; trow "b3" (Some "B") 0 None None]));
   (14%Z, (["KS - Os"], [trow "a4" (Some "A") 1 (Some "16:06") None; trow "x" None 2 None None; trow "b4" (Some "B") 0 None None]))].
Definition part_net : list netrow :=
  [free "a1" "x"; free "x" "y"; free "y" "b1"; free "a2" "x"; free "x" "z"; free "z" "b2"; free "a3" "x"; free "x" "b3"; free "a4" "x"; free "x" "b4"].

Lemma no_pairs td st : (forall x, In x (dkeys td) -> In (x * 10 + 9)%Z (dkeys td) -> False) ->
  pairs_meet td st /\ forall x j k s tk row, same_stock x j k -> turns td st s j k -> runs td k tk -> first_stop tk s row -> r_turn row <> None.
Proof.
  intros N.
  assert (M : forall x j k b, same_stock x j k -> meets td j k b -> False).
  { intros x j k b SS (ta & tb & Ra & Rb & _). apply runs_key in Ra, Rb. apply (N x); destruct SS as [[-> ->]|[-> ->]]; assumption. }
  split; [split|].
  - intros x I I'. destruct (N x I I').
  - intros x j k b SS Mt. destruct (M x j k b SS Mt).
  - intros x j k s tk row SS (b & Mt & _). destruct (M x j k b SS Mt).
Qed.

(** Trains 13 and 14 follow both 11 and 12 and are compared twice; PuLP refuses the second constraint
    of the same name. *)
Theorem C56_groups_refuted : exists td st net t1 delays d_max cat,
  tidy td st /\ complete td st net t1 /\ ~ d_max == 0 /\ tables_to_problem td st net t1 delays d_max cat = Err PulpError.
Proof.
  exists part_td, part_st, part_net, "16:00", [], 10, Integer. split; [apply tidyb_ok; vm_compute; reflexivity|]. split.
  - destruct (no_pairs part_td part_st) as [PM TR]; [intros x I I'; cbn in I, I'; lia|].
    apply simpleb_ok; [apply (tidyb_ok part_td part_st); vm_compute; reflexivity|vm_compute; reflexivity|exact PM|exact TR].
  - split; [discriminate|]. vm_compute. reflexivity.
Qed.
Print Assumptions C56_groups_refuted.
