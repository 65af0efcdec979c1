(** * PropsSchedule: claims about schedules, initial conditions, delays and weights (C44, C45,
    C46) *)

From Coq Require Import List String Ascii ZArith QArith Qabs Qround Bool Arith Lia Lqa.
From Verif Require Import Base BaseFacts DataTables DataSets DataTimes SpecTables SpecSets SpecDurations
  TableFacts SetFacts TimeFacts PropsTables PropsSets PropsSwitch PropsTimes PropsPrep.
Import ListNotations.
Open Scope string_scope.
Open Scope list_scope.

(** ** Clock times *)

Lemma small_cases k : (0 <= k < 10)%Z -> In k [0; 1; 2; 3; 4; 5; 6; 7; 8; 9]%Z.
Proof. intros H. simpl. lia. Qed.

Lemma digit_facts k : (0 <= k < 10)%Z -> exists c, digit k = String c "" /\ is_digit c = true /\ digit_val c = k /\ c <> ":"%char.
Proof.
  intros H. apply small_cases in H. simpl in H.
  repeat (destruct H as [<-|H]; [eexists; split; [reflexivity|]; split; [reflexivity|]; split; [reflexivity|discriminate]|]). destruct H.
Qed.

Lemma is_digit_digit c : is_digit c = true -> (0 <= digit_val c < 10)%Z /\ digit (digit_val c) = String c "".
Proof.
  unfold is_digit, digit_val, digit. intros H. apply andb_true_iff in H as [A B]. apply Nat.leb_le in A. apply Nat.leb_le in B.
  split; [lia|]. replace (48 + Z.to_nat (Z.of_nat (nat_of_ascii c) - 48))%nat with (nat_of_ascii c) by lia.
  rewrite ascii_nat_embedding. reflexivity.
Qed.

Lemma split_colon_step c s : c <> ":"%char -> split_colon (String c s) =
  match split_colon s with Some (a, b) => Some (String c a, b) | None => None end.
Proof.
  intros N. cbn [split_colon].
  destruct c as [b0 b1 b2 b3 b4 b5 b6 b7]. destruct b0, b1, b2, b3, b4, b5, b6, b7; try reflexivity. exfalso. apply N. reflexivity.
Qed.

Lemma split_colon_colon s : split_colon (String ":" s) = Some ("", s).
Proof. reflexivity. Qed.

Lemma part_ok s n bound r : (bound <= 100)%Z -> written_as s n -> (n < bound)%Z ->
  clock_part s bound = Ok n /\ split_colon (s ++ String ":" r)%string = Some (s, r).
Proof.
  intros B [P W] L. destruct W as [->|[L1 ->]].
  - assert (A : (0 <= n / 10 < 10)%Z) by (split; [apply Z.div_pos; lia|apply Z.div_lt_upper_bound; lia]).
    assert (A' : (0 <= n mod 10 < 10)%Z) by (apply Z.mod_pos_bound; lia).
    destruct (digit_facts _ A) as (a & -> & D1 & V1 & N1). destruct (digit_facts _ A') as (b & -> & D2 & V2 & N2).
    cbn [append]. split.
    + unfold clock_part. rewrite D1, D2. cbn [andb]. cbv zeta. rewrite V1, V2.
      assert (E : (10 * (n / 10) + n mod 10 = n)%Z) by (symmetry; apply Z.div_mod; lia).
      rewrite E. apply Z.ltb_lt in L. rewrite L. reflexivity.
    + rewrite !split_colon_step by auto. rewrite split_colon_colon. reflexivity.
  - destruct (digit_facts n) as (a & -> & D1 & V1 & N1); [lia|]. cbn [append]. split.
    + unfold clock_part. rewrite D1, V1. reflexivity.
    + rewrite split_colon_step by auto. rewrite split_colon_colon. reflexivity.
Qed.

Lemma part_inv s bound n : (10 <= bound)%Z -> clock_part s bound = Ok n -> written_as s n /\ (n < bound)%Z.
Proof.
  intros B H. unfold clock_part in H. destruct s as [|a [|b [|]]]; try discriminate.
  - destruct (is_digit a) eqn:D; [|discriminate]. assert (EN : n = digit_val a) by congruence. rewrite EN in *. apply is_digit_digit in D as [L E]. split; [|lia].
    split; [lia|]. right. rewrite E. split; [lia|reflexivity].
  - destruct (is_digit a) eqn:D; [|discriminate]. destruct (is_digit b) eqn:D'; [|discriminate]. cbn [andb] in H. cbv zeta in H.
    destruct (10 * digit_val a + digit_val b <? bound)%Z eqn:C; [|discriminate]. assert (EN : n = (10 * digit_val a + digit_val b)%Z) by congruence. rewrite EN in *. apply Z.ltb_lt in C. split; [|exact C].
    apply is_digit_digit in D as [L E]. apply is_digit_digit in D' as [L' E']. split; [lia|]. left.
    assert (X : ((10 * digit_val a + digit_val b) / 10 = digit_val a)%Z) by (symmetry; apply Z.div_unique with (digit_val b); lia).
    assert (Y : ((10 * digit_val a + digit_val b) mod 10 = digit_val b)%Z) by (symmetry; apply Z.mod_unique with (digit_val a); lia).
    rewrite X, Y, E, E'. reflexivity.
Qed.

Lemma split_colon_inv s a b : split_colon s = Some (a, b) -> s = (a ++ ":" ++ b)%string.
Proof.
  revert a b; induction s as [|c s IH]; intros a b H; [discriminate|].
  destruct (ascii_dec c ":") as [->|N].
  - rewrite split_colon_colon in H. inversion H; subst. reflexivity.
  - rewrite split_colon_step in H by auto. destruct (split_colon s) as [[x y]|]; [|discriminate]. inversion H; subst.
    rewrite (IH x b eq_refl). reflexivity.
Qed.

Lemma strptime_clock t n : strptime t = Ok n <-> clock t n.
Proof.
  split.
  - unfold strptime. intros H. destruct (split_colon t) as [[a b]|] eqn:S; [|discriminate]. apply split_colon_inv in S.
    destruct (clock_part a 24) as [h|] eqn:E1; [|discriminate]. cbn [bind] in H.
    destruct (clock_part b 60) as [m|] eqn:E2; [|discriminate]. cbn [bind] in H. inversion H; subst.
    apply part_inv in E1 as [W1 L1]; [|lia]. apply part_inv in E2 as [W2 L2]; [|lia].
    exists h, m, a, b. auto 8.
  - intros (h & m & hs & ms & -> & W1 & W2 & L1 & L2 & ->). unfold strptime.
    destruct (part_ok hs h 24 ms ltac:(lia) W1 L1) as [E1 S1]. destruct (part_ok ms m 60 "" ltac:(lia) W2 L2) as [E2 _].
    cbn [append]. rewrite S1, E1. cbn [bind]. rewrite E2. reflexivity.
Qed.

Lemma clock_fun t n n' : clock t n -> clock t n' -> n = n'.
Proof. rewrite <- !strptime_clock. congruence. Qed.

(** The difference of two clock times in minutes; any other text is refused. *)
Theorem C44_difference : forall t1 t2 d,
  calc_time_diff t1 t2 = Ok d <-> exists n1 n2, clock t1 n1 /\ clock t2 n2 /\ d = (n2 - n1)%Z.
Proof.
  intros t1 t2 d.
  assert (X : forall n1 n2, strptime t1 = Ok n1 -> strptime t2 = Ok n2 -> calc_time_diff t1 t2 = Ok (n2 - n1)%Z).
  { intros n1 n2 E1 E2. unfold calc_time_diff. rewrite E1, E2. cbn [bind]. cbv zeta. f_equal.
    destruct (Z.leb_spec n1 n2), (Z.ltb_spec n2 n1); lia. }
  split.
  - intros H. destruct (strptime t1) as [n1|] eqn:E1; [|unfold calc_time_diff in H; rewrite E1 in H; discriminate].
    destruct (strptime t2) as [n2|] eqn:E2; [|unfold calc_time_diff in H; rewrite E1, E2 in H; discriminate].
    rewrite (X n1 n2 eq_refl eq_refl) in H. inversion H; subst. exists n1, n2. rewrite <- !strptime_clock. auto.
  - intros (n1 & n2 & C1 & C2 & ->). apply X; apply strptime_clock; auto.
Qed.
Print Assumptions C44_difference.

(** ... always with the same error: if one of the texts is no clock time, a ValueError is raised. *)
Theorem C44_refused : forall t1 t2,
  calc_time_diff t1 t2 = Err ValueError <-> ~ (exists n1 n2, clock t1 n1 /\ clock t2 n2).
Proof.
  intros t1 t2.
  assert (P : forall s b e, clock_part s b = Err e -> e = ValueError).
  { intros s b e. unfold clock_part. destruct s as [|a [|c [|? ?]]]; try congruence.
    - destruct (is_digit a); congruence.
    - destruct (is_digit a && is_digit c); [|congruence]. cbv zeta. destruct (_ <? b)%Z; congruence. }
  assert (S : forall t e, strptime t = Err e -> e = ValueError).
  { intros t e. unfold strptime. destruct (split_colon t) as [[h m]|]; [|congruence].
    destruct (clock_part h 24) as [x|] eqn:E1; cbn [bind]; [|intros Q; injection Q as <-; eapply P; eauto].
    destruct (clock_part m 60) as [y|] eqn:E2; cbn [bind]; [congruence|intros Q; injection Q as <-; eapply P; eauto]. }
  split.
  - intros H (n1 & n2 & C1 & C2). assert (X : calc_time_diff t1 t2 = Ok (n2 - n1)%Z) by (apply C44_difference; eauto). congruence.
  - intros N. unfold calc_time_diff. destruct (strptime t1) as [n1|e1] eqn:E1; cbn [bind]; [|f_equal; eauto].
    destruct (strptime t2) as [n2|e2] eqn:E2; cbn [bind]; [|f_equal; eauto].
    exfalso. apply N. exists n1, n2. rewrite <- !strptime_clock. auto.
Qed.
Print Assumptions C44_refused.

Example C44_refused_case : calc_time_diff "16:00" "16:60" = Err ValueError /\ calc_time_diff "24:00" "16:00" = Err ValueError /\
  calc_time_diff "noon" "16:00" = Err ValueError.
Proof. repeat split; reflexivity. Qed.

Theorem C44_laws : forall t1 t2 t3 d e,
  calc_time_diff t1 t2 = Ok d -> calc_time_diff t2 t3 = Ok e ->
  calc_time_diff t2 t1 = Ok (- d)%Z /\ calc_time_diff t1 t3 = Ok (d + e)%Z.
Proof.
  intros t1 t2 t3 d e H1 H2. apply C44_difference in H1 as (n1 & n2 & C1 & C2 & ->).
  apply C44_difference in H2 as (n2' & n3 & C2' & C3 & ->). rewrite (clock_fun _ _ _ C2' C2). split; apply C44_difference.
  - exists n2, n1. split; auto. split; auto. lia.
  - exists n1, n3. split; auto. split; auto. lia.
Qed.
Print Assumptions C44_laws.

(** ** Schedules *)

Lemma per_train tt : forall d s dep,
  dget s (fold_left (fun d r => match r_station r, r_dep r with
    | Some s, Some t => if dmem s d then d else dset s t d | _, _ => d end) tt d) = Some dep <->
  dget s d = Some dep \/ (dget s d = None /\ departs tt s dep).
Proof.
  induction tt as [|x tt IH]; intros d s dep; cbn [fold_left].
  - split; [auto|]. intros [H|[_ (pre & r & post & E & _)]]; auto. destruct pre; discriminate.
  - rewrite IH. clear IH.
    assert (DC : departs (x :: tt) s dep <-> (r_station x = Some s /\ r_dep x = Some dep) \/
       ((r_station x = Some s -> r_dep x = None) /\ departs tt s dep)).
    { split.
      - intros (pre & r & post & E & A & B & C). destruct pre as [|y pre]; inversion E; subst; [left; auto|]. right. split.
        + apply C. left. reflexivity.
        + exists pre, r, post. split; auto. split; auto. split; auto. intros z Hz. apply C. right. exact Hz.
      - intros [[A B]|[A (pre & r & post & -> & B & C & D)]].
        + exists [], x, tt. split; auto. split; auto. split; auto. intros z [].
        + exists (x :: pre), r, post. split; auto. split; auto. split; auto. intros z [<-|Hz]; auto. }
    rewrite DC. clear DC. destruct (r_station x) as [s'|] eqn:ES; [destruct (r_dep x) as [t|] eqn:ED|].
    + unfold dmem. destruct (eq_dec s s') as [->|N].
      * destruct (dget s' d) as [v|] eqn:D.
        -- rewrite D. split; [intros [H|[H _]]; [auto|discriminate]|]. intros [H|[H _]]; [auto|discriminate].
        -- rewrite dget_dset. destruct (eq_dec s' s'); [|congruence]. split.
           ++ intros [H|[H _]]; [|discriminate]. inversion H; subst. auto.
           ++ intros [H|[_ [[_ H]|[H _]]]]; [discriminate|auto|]. specialize (H eq_refl). discriminate.
      * assert (E : dget s (if match dget s' d with Some _ => true | None => false end then d else dset s' t d) = dget s d).
        { destruct (dget s' d); auto. rewrite dget_dset. destruct (eq_dec s s'); congruence. }
        rewrite E. split; (intros [H|[H H']]; [auto|]).
        -- right. split; auto. right. split; auto. intros X. congruence.
        -- right. split; auto. destruct H' as [[X _]|[_ H']]; [congruence|auto].
    + split; (intros [H|[H H']]; [auto|]).
      * right. split; auto.
      * right. split; auto. destruct H' as [[_ X]|[_ H']]; [congruence|auto].
    + split; (intros [H|[H H']]; [auto|]).
      * right. split; auto. right. split; auto. congruence.
      * right. split; auto. destruct H' as [[X _]|[_ H']]; [congruence|auto].
Qed.

Lemma per_train_ok tt s dep : dget s (get_schedule_per_train tt) = Some dep <-> departs tt s dep.
Proof. unfold get_schedule_per_train. rewrite per_train. split; [intros [H|[_ H]]; [discriminate|auto]|auto]. Qed.

Lemma per_train_nodup tt : NoDup (dkeys (get_schedule_per_train tt)).
Proof.
  unfold get_schedule_per_train.
  assert (G : forall d : dict string string, NoDup (dkeys d) -> NoDup (dkeys (fold_left (fun d r => match r_station r, r_dep r with
    | Some s, Some t => if dmem s d then d else dset s t d | _, _ => d end) tt d))).
  { induction tt as [|x tt IH]; intros d N; cbn [fold_left]; auto. apply IH.
    destruct (r_station x) as [s|]; auto. destruct (r_dep x) as [t|]; auto. destruct (dmem s d) eqn:M; auto.
    rewrite dkeys_dset, M. apply dmem_false in M. apply Emit.NoDup_app_snoc; auto. }
  apply G. constructor.
Qed.

(** The schedule has the departure times, relative to the reference time, and nothing else. *)
Theorem C44_schedule : forall td t1 n1,
  NoDup (dkeys td) -> clock t1 n1 -> times_readable td ->
  exists d, get_schedule td t1 = Ok d /\
    forall k q, dget k d = Some q <->
      exists t tt s dep n, runs td t tt /\ departs tt s dep /\ clock dep n /\
        k = (str_of_Z t ++ "_" ++ s)%string /\ q = inject_Z (n - n1).
Proof.
  intros td t1 n1 ND C1 TR. unfold get_schedule.
  set (G := fun (t : Z) (e : string * string) => do x <- calc_time_diff t1 (snd e); Ok [(key2 t (fst e), inject_Z x)]).
  set (F := fun e : Z * (list string * table) => do ess <- mapM (G (fst e)) (get_schedule_per_train (snd (snd e))); Ok (List.concat ess)).
  rewrite (fold_entries _ F).
  2: { intros d e _. unfold F. rewrite (fold_entries _ (G (fst e))).
       - destruct (mapM (G (fst e)) (get_schedule_per_train (snd (snd e)))); reflexivity.
       - intros d' x _. unfold G. destruct (calc_time_diff t1 (snd x)); reflexivity. }
  assert (FT : forall t i tt, In (t, (i, tt)) td -> exists es, F (t, (i, tt)) = Ok es /\
     forall k q, In (k, q) es <-> exists s dep n, departs tt s dep /\ clock dep n /\ k = key2 t s /\ q = inject_Z (n - n1)).
  { intros t i tt Hin. unfold F. cbn [fst snd]. assert (R : runs td t tt) by (exists i; apply in_dget; auto).
    assert (GT : forall s dep, In (s, dep) (get_schedule_per_train tt) -> departs tt s dep /\ exists n, clock dep n /\
       G t (s, dep) = Ok [(key2 t s, inject_Z (n - n1))]).
    { intros s dep H. apply in_dget in H; [|apply per_train_nodup]. apply per_train_ok in H. split; auto.
      destruct H as (pre & r & post & E & A & B & _). destruct (TR t tt r s dep R) as (n & C); auto.
      { rewrite E. apply in_app_iff. right. left. reflexivity. }
      exists n. split; auto. unfold G. cbn [fst snd].
      assert (D : calc_time_diff t1 dep = Ok (n - n1)%Z) by (apply C44_difference; eauto). rewrite D. reflexivity. }
    destruct (mapM_total (G t) (get_schedule_per_train tt)) as (ess & M).
    { intros [s dep] H. destruct (GT s dep H) as (_ & n & _ & E). eauto. }
    rewrite M. cbn [bind]. eexists. split; [reflexivity|]. intros k q. rewrite (mapM_concat_in _ _ _ (k, q) M). split.
    - intros ([s dep] & es & H & E & I). destruct (GT s dep H) as (D & n & C & E'). rewrite E in E'. inversion E'; subst.
      destruct I as [I|[]]. inversion I; subst. exists s, dep, n. auto.
    - intros (s & dep & n & D & C & -> & ->). apply per_train_ok, dget_in in D. destruct (GT s dep D) as (_ & n' & C' & E).
      exists (s, dep). eexists. split; auto. split; [exact E|]. rewrite (clock_fun _ _ _ C C'). left. reflexivity. }
  destruct (mapM_total F td) as (ess & M).
  { intros [t [i tt]] H. destruct (FT t i tt H) as (es & E & _). eauto. }
  rewrite M. cbn [bind]. eexists. split; [reflexivity|].
  assert (IN : forall k q, In (k, q) (List.concat ess) <->
      exists t tt s dep n, runs td t tt /\ departs tt s dep /\ clock dep n /\ k = key2 t s /\ q = inject_Z (n - n1)).
  { intros k q. rewrite (mapM_concat_in _ _ _ (k, q) M). split.
    - intros ([t [i tt]] & es & H & E & I). destruct (FT t i tt H) as (es' & E' & X). rewrite E in E'. inversion E'; subst es'.
      destruct (proj1 (X k q) I) as (s & dep & n & A). exists t, tt, s, dep, n. split; auto. exists i. apply in_dget; auto.
    - intros (t & tt & s & dep & n & (i & R) & A). apply dget_in in R. destruct (FT t i tt R) as (es & E & X).
      exists (t, (i, tt)), es. split; auto. split; auto. apply X. exists s, dep, n. exact A. }
  intros k q. rewrite entries_get; [apply IN|]. intros v v' A B.
  apply IN in A as (t & tt & s & dep & n & R & D & C & K & ->). apply IN in B as (t' & tt' & s' & dep' & n' & R' & D' & C' & K' & ->).
  rewrite K in K'. apply key2_inj in K' as [<- <-]. rewrite (runs_fun _ _ _ _ R' R) in D'.
  apply per_train_ok in D. apply per_train_ok in D'. rewrite D in D'. inversion D'; subst. rewrite (clock_fun _ _ _ C C'). reflexivity.
Qed.
Print Assumptions C44_schedule.

(** With another reference time all entries shift by the difference. *)
Theorem C44_shift : forall td t1 n1 t1' n1' d d',
  NoDup (dkeys td) -> clock t1 n1 -> clock t1' n1' -> times_readable td ->
  get_schedule td t1 = Ok d -> get_schedule td t1' = Ok d' ->
  forall k q, dget k d = Some q -> exists q', dget k d' = Some q' /\ q' == q + inject_Z (n1 - n1').
Proof.
  intros td t1 n1 t1' n1' d d' ND C C' TR E E' k q H.
  destruct (C44_schedule td t1 n1 ND C TR) as (x & X & HX). rewrite E in X. inversion X; subst x.
  destruct (C44_schedule td t1' n1' ND C' TR) as (y & Y & HY). rewrite E' in Y. inversion Y; subst y.
  apply HX in H as (t & tt & s & dep & n & R & D & CD & -> & ->). exists (inject_Z (n - n1')). split.
  - apply HY. exists t, tt, s, dep, n. auto.
  - rewrite <- inject_Z_plus. replace (n - n1 + (n1 - n1'))%Z with (n - n1')%Z by lia. reflexivity.
Qed.
Print Assumptions C44_shift.

(** ** Initial conditions *)

Lemma first_with_station tt : 
  filter (fun r => match r_station r with Some _ => true | None => false end) tt = [] \/
  exists r s rest, filter (fun r => match r_station r with Some _ => true | None => false end) tt = r :: rest /\ first_stop tt s r.
Proof.
  induction tt as [|x tt IH]; [left; reflexivity|]. cbn [filter]. destruct (r_station x) as [s|] eqn:E.
  - right. exists x, s. eexists. split; [reflexivity|]. exists [], tt. split; auto. split; [intros y []|auto].
  - destruct IH as [->|(r & s & rest & -> & (pre & post & -> & N & Er))]; [left; reflexivity|]. right. exists r, s, rest. split; auto.
    exists (x :: pre), post. split; auto. split; auto. intros y [<-|Hy]; auto.
Qed.

Lemma first_stop_fun tt s r s' r' : first_stop tt s r -> first_stop tt s' r' -> r = r' /\ s = s'.
Proof.
  intros (pre & post & E & N & Er) (pre' & post' & E' & N' & Er'). rewrite E in E'. clear E.
  assert (X : r = r'); [|subst; split; congruence].
  revert pre' E' N'. induction pre as [|x pre IH]; intros [|y pre'] E' N'; inversion E'; subst; auto.
  - rewrite N' in Er by (left; reflexivity). discriminate.
  - rewrite N in Er' by (left; reflexivity). discriminate.
  - apply (IH (fun x H => N x (or_intror H)) pre'); auto. intros z Hz. apply N'. right. exact Hz.
Qed.

(** Initial conditions: one entry per train, at its first station. *)
Theorem C44_initial : forall td t1 n1,
  NoDup (dkeys td) -> clock t1 n1 ->
  (forall t tt, runs td t tt -> exists s n, appears tt n1 s n) ->
  exists d, get_initial_conditions td t1 = Ok d /\
    forall k q, dget k d = Some q <->
      exists t tt s n, runs td t tt /\ appears tt n1 s n /\ k = (str_of_Z t ++ "_" ++ s)%string /\ q = inject_Z (n - n1).
Proof.
  intros td t1 n1 ND C1 AP. unfold get_initial_conditions.
  set (F := fun e : Z * (list string * table) =>
    match filter (fun r => match r_station r with Some _ => true | None => false end) (snd (snd e)) with
    | [] => Err IndexError
    | r :: _ => match r_station r with None => Err OtherError | Some s =>
        do t <- (match r_dep r, r_approx r with
                 | Some t2, _ => calc_time_diff t1 t2 | None, Some t2 => calc_time_diff t1 t2 | None, None => Ok 0%Z end);
        Ok [(key2 (fst e) s, inject_Z t)] end
    end).
  rewrite (fold_entries _ F).
  2: { intros d e _. unfold F. destruct (filter _ (snd (snd e))) as [|r rest]; [reflexivity|].
       destruct (r_station r) as [s|]; [|reflexivity]. match goal with |- (do _ <- ?x; _) = _ => destruct x end; reflexivity. }
  assert (FT : forall t i tt, In (t, (i, tt)) td -> exists s n, appears tt n1 s n /\
     F (t, (i, tt)) = Ok [(key2 t s, inject_Z (n - n1))]).
  { intros t i tt H. assert (R : runs td t tt) by (exists i; apply in_dget; auto).
    destruct (AP t tt R) as (s & n & A). exists s, n. split; auto. destruct A as (r & FS & M). unfold F. cbn [fst snd].
    destruct (first_with_station tt) as [E|(r' & s' & rest & E & FS')].
    { exfalso. destruct (first_stop_in _ _ _ FS) as [I ER].
      assert (X : In r (filter (fun r => match r_station r with Some _ => true | None => false end) tt))
        by (apply filter_In; rewrite ER; auto). rewrite E in X. destruct X. }
    destruct (first_stop_fun _ _ _ _ _ FS' FS) as [-> ->]. rewrite E. destruct (first_stop_in _ _ _ FS) as [_ ER]. rewrite ER.
    assert (X : match r_dep r, r_approx r with
                | Some t2, _ => calc_time_diff t1 t2 | None, Some t2 => calc_time_diff t1 t2 | None, None => Ok 0%Z end = Ok (n - n1)%Z).
    { destruct (r_dep r) as [t2|]; [|destruct (r_approx r) as [t2|]]; try (apply C44_difference; eauto). subst n. f_equal. lia. }
    rewrite X. reflexivity. }
  destruct (mapM_total F td) as (ess & M).
  { intros [t [i tt]] H. destruct (FT t i tt H) as (s & n & _ & E). eauto. }
  rewrite M. cbn [bind]. eexists. split; [reflexivity|].
  assert (AF : forall tt s n s' n', appears tt n1 s n -> appears tt n1 s' n' -> s = s' /\ n = n').
  { intros tt s n s' n' (r & FS & A) (r' & FS' & A'). destruct (first_stop_fun _ _ _ _ _ FS FS') as [<- <-]. split; auto.
    destruct (r_dep r) as [t2|]; [|destruct (r_approx r) as [t2|]]; try solve [eapply clock_fun; eauto]. congruence. }
  assert (IN : forall k q, In (k, q) (List.concat ess) <->
      exists t tt s n, runs td t tt /\ appears tt n1 s n /\ k = key2 t s /\ q = inject_Z (n - n1)).
  { intros k q. rewrite (mapM_concat_in _ _ _ (k, q) M). split.
    - intros ([t [i tt]] & es & H & E & I). destruct (FT t i tt H) as (s & n & A & E'). rewrite E in E'. inversion E'; subst es.
      destruct I as [I|[]]. inversion I; subst. exists t, tt, s, n. split; auto. exists i. apply in_dget; auto.
    - intros (t & tt & s & n & (i & R) & A & -> & ->). apply dget_in in R. destruct (FT t i tt R) as (s' & n' & A' & E).
      destruct (AF _ _ _ _ _ A A') as [<- <-]. exists (t, (i, tt)). eexists. split; auto. split; [exact E|]. left. reflexivity. }
  intros k q. rewrite entries_get; [apply IN|]. intros v v' A B.
  apply IN in A as (t & tt & s & n & R & A & K & ->). apply IN in B as (t' & tt' & s' & n' & R' & A' & K' & ->).
  rewrite K in K'. apply key2_inj in K' as [<- <-]. rewrite (runs_fun _ _ _ _ R' R) in A'. destruct (AF _ _ _ _ _ A A') as [_ <-]. reflexivity.
Qed.
Print Assumptions C44_initial.

Definition day_row (b : string) (s : option string) (dep approx : option string) : row :=
  MkRow b None None dep approx None None None None s.
Definition day_td : train_dict :=
  [(11%Z, (["KS - Os"], [day_row "w" None None None; day_row "a1" (Some "A") (Some "16:05") None; day_row "b1" (Some "B") (Some "16:20") None;
     day_row "c1" (Some "C") None None]));
   (12%Z, (["IC - TLK"], [day_row "b1" (Some "B") None (Some "15:50"); day_row "c1" (Some "C") (Some "16:10") None; day_row "z" None None None]))].

Example C44_case :
  clock "16:00" 960 /\ clock "9:05" 545 /\ calc_time_diff "16:00" "9:05" = Ok (-415)%Z /\
  get_schedule day_td "16:00" = Ok [("11_A", inject_Z 5); ("11_B", inject_Z 20); ("12_C", inject_Z 10)] /\
  get_initial_conditions day_td "16:00" = Ok [("11_A", inject_Z 5); ("12_B", inject_Z (-10))].
Proof.
  split; [apply strptime_clock; reflexivity|]. split; [apply strptime_clock; reflexivity|]. repeat split; vm_compute; reflexivity.
Qed.

(** ** C45: delays *)

Lemma one_underscore x y x' y' : no_underscore x -> no_underscore y ->
  (x ++ String "_" y = x' ++ String "_" y')%string -> x = x' /\ y = y'.
Proof.
  revert x'; induction x as [|c x IH]; intros [|c' x'] NX NY E; cbn [append] in E.
  - inversion E; auto.
  - inversion E; subst. exfalso. apply (NY x' y'). reflexivity.
  - inversion E; subst. exfalso. apply (NX "" x). reflexivity.
  - inversion E; subst. destruct (IH x') as [-> ->]; auto. intros a b EQ. apply (NX (String c' a) b). rewrite EQ. reflexivity.
Qed.

Lemma string_app_assoc (a b c : string) : ((a ++ b) ++ c = a ++ b ++ c)%string.
Proof. induction a as [|x a IH]; cbn [append]; [reflexivity|]. rewrite IH. reflexivity. Qed.

Lemma key_contains u t s : no_underscore s -> (str_contains (str_of_Z u ++ "_") (str_of_Z t ++ "_" ++ s) = true <-> number_ends_with t u).
Proof.
  intros N. rewrite str_contains_iff. split.
  - intros (a & b & E). rewrite string_app_assoc, <- (string_app_assoc a) in E. cbn [append] in E.
    apply one_underscore in E as [E _]; auto; [|apply number_no_us]. exists a. exact E.
  - intros (p & ->). exists p, s. rewrite !string_app_assoc. reflexivity.
Qed.

Lemma dupdate_other {V} es : forall (d : dict string V) k, ~ In k (map fst es) -> dget k (dupdate d es) = dget k d.
Proof.
  induction es as [|[k' v'] es IH]; intros d k H; [reflexivity|]. unfold dupdate. cbn [fold_left fst snd].
  change (dget k (dupdate (dset k' v' d) es) = dget k d). rewrite IH by (intros X; apply H; right; exact X).
  rewrite dget_dset. destruct (eq_dec k k') as [->|]; auto. exfalso. apply H. left. reflexivity.
Qed.

Lemma dupdate_keys {V} es : forall (d : dict string V), incl (map fst es) (dkeys d) -> dkeys (dupdate d es) = dkeys d.
Proof.
  induction es as [|[k' v'] es IH]; intros d H; [reflexivity|]. unfold dupdate. cbn [fold_left fst snd].
  change (dkeys (dupdate (dset k' v' d) es) = dkeys d).
  assert (M : dmem k' d = true) by (apply dmem_true; apply H; left; reflexivity).
  assert (K : dkeys (dset k' v' d) = dkeys d) by (rewrite dkeys_dset, M; reflexivity).
  rewrite IH; [exact K|]. rewrite K. intros x Hx. apply H. right. exact Hx.
Qed.

(** add_delay delays exactly the trains whose number ends with the digits of the given one. *)
Theorem C45_digits : forall d train delay, NoDup (dkeys d) -> train_station_keys d ->
  dkeys (add_delay d train delay) = dkeys d /\
  forall t s v, no_underscore s -> dget (str_of_Z t ++ "_" ++ s)%string d = Some v ->
    (number_ends_with t train -> dget (str_of_Z t ++ "_" ++ s)%string (add_delay d train delay) = Some (v + delay)) /\
    (~ number_ends_with t train -> dget (str_of_Z t ++ "_" ++ s)%string (add_delay d train delay) = Some v).
Proof.
  intros d train delay ND TK. unfold add_delay. cbv zeta.
  set (es := map (fun kv : string * Q => (fst kv, snd kv + delay)) (filter (fun kv => str_contains (str_of_Z train ++ "_") (fst kv)) d)).
  assert (IN : forall k v, In (k, v) es <-> exists v0, In (k, v0) d /\ str_contains (str_of_Z train ++ "_") k = true /\ v = v0 + delay).
  { intros k v. unfold es. rewrite in_map_iff. split.
    - intros ([k0 v0] & E & H). inversion E; subst. apply filter_In in H as [H1 H2]. exists v0. auto.
    - intros (v0 & H1 & H2 & ->). exists (k, v0). split; auto. apply filter_In. auto. }
  split.
  - apply dupdate_keys. intros k H. apply in_map_iff in H as ([k0 v] & <- & H). apply IN in H as (v0 & H & _).
    apply in_map_iff. exists (k0, v0). auto.
  - intros t s v NU D. split.
    + intros E. assert (C := proj2 (key_contains train t s NU) E).
      assert (I : In ((str_of_Z t ++ "_" ++ s)%string, v + delay) es) by (apply IN; exists v; split; [apply dget_in; exact D|auto]).
      destruct (dupdate_has es d (str_of_Z t ++ "_" ++ s)%string) as (v' & -> & I').
      { apply in_map_iff. eexists. split; [|exact I]. reflexivity. }
      apply IN in I' as (v0 & H & _ & ->). apply in_dget in H; auto. congruence.
    + intros NE. rewrite dupdate_other; auto. intros H. apply in_map_iff in H as ([k0 v'] & E & H). cbn [fst] in E. subst k0.
      apply IN in H as (_ & _ & C & _). apply NE. apply (key_contains train t s NU). exact C.
Qed.
Print Assumptions C45_digits.

(** If no other train's number ends with these digits, exactly the given train is delayed. *)
Theorem C45_delay_partial : forall d train delay, NoDup (dkeys d) -> train_station_keys d ->
  (forall t s, In (str_of_Z t ++ "_" ++ s)%string (dkeys d) -> t <> train -> ~ number_ends_with t train) ->
  dkeys (add_delay d train delay) = dkeys d /\
  forall t s v, no_underscore s -> dget (str_of_Z t ++ "_" ++ s)%string d = Some v ->
    dget (str_of_Z t ++ "_" ++ s)%string (add_delay d train delay) = Some (if Z.eq_dec t train then v + delay else v).
Proof.
  intros d train delay ND TK H. destruct (C45_digits d train delay ND TK) as [K D]. split; auto.
  intros t s v NU G. destruct (D t s v NU G) as [A B]. destruct (Z.eq_dec t train) as [->|N].
  - apply A. exists "". reflexivity.
  - apply B. apply (H t s); auto. apply dget_in in G. apply in_map_iff. eexists. split; [|exact G]. reflexivity.
Qed.
Print Assumptions C45_delay_partial.

(** Delaying train 4120 also delays train 54120. *)
Theorem C45_other_refuted : exists d train delay t s v v', NoDup (dkeys d) /\ train_station_keys d /\ t <> train /\
  dget (str_of_Z t ++ "_" ++ s)%string d = Some v /\
  dget (str_of_Z t ++ "_" ++ s)%string (add_delay d train delay) = Some v' /\ ~ v' == v.
Proof.
  exists [("4120_A", 3); ("54120_B", 7)]%Q, 4120%Z, 15%Q, 54120%Z, "B", 7%Q, 22%Q.
  split; [repeat constructor; simpl; intuition discriminate|]. split.
  { intros k [<-|[<-|[]]]; [exists 4120%Z, "A"|exists 54120%Z, "B"]; (split; [reflexivity|apply no_us_allc; reflexivity]). }
  split; [discriminate|]. split; [reflexivity|]. split; [vm_compute; reflexivity|]. vm_compute. discriminate.
Qed.
Print Assumptions C45_other_refuted.

Example C45_case : add_delay [("11_A", 5); ("12_B", 7)]%Q 12 10 = [("11_A", 5); ("12_B", 17)]%Q /\
  ~ number_ends_with 11 12 /\ number_ends_with 54120 4120.
Proof.
  split; [reflexivity|]. split; [|exists "5"; reflexivity].
  intros (p & E). vm_compute in E. destruct p as [|a [|b [|c p]]]; cbn in E; try discriminate. 
Qed.

(** ** C46: weights *)

Lemma stations_split tt : forall u s v, train_important_stations tt = u ++ s :: v <->
  exists pre r post, tt = pre ++ r :: post /\ train_important_stations pre = u /\ r_station r = Some s /\ train_important_stations post = v.
Proof.
  induction tt as [|x tt IH]; intros u s v.
  - split; [destruct u; discriminate|]. intros (pre & r & post & E & _). destruct pre; discriminate.
  - change (x :: tt) with ([x] ++ tt). rewrite stations_app. simpl train_important_stations at 1. destruct (r_station x) as [s'|] eqn:E; cbn [app].
    + split.
      * intros H. destruct u as [|s0 u]; inversion H; subst.
        -- exists [], x, tt. auto.
        -- destruct (proj1 (IH u s v) H2) as (pre & r & post & -> & A & B & C). exists (x :: pre), r, post. split; auto. split; auto.
           simpl. rewrite E, A. reflexivity.
      * intros (pre & r & post & EQ & A & B & C). destruct pre as [|y pre]; inversion EQ; subst.
        -- rewrite E in B. inversion B; subst. reflexivity.
        -- simpl. rewrite E. cbn [app]. f_equal. apply IH. exists pre, r, post. auto.
    + split.
      * intros H. destruct (proj1 (IH u s v) H) as (pre & r & post & -> & A & B & C). exists (x :: pre), r, post. split; auto. split; auto.
        simpl. rewrite E, A. reflexivity.
      * intros (pre & r & post & EQ & A & B & C). destruct pre as [|y pre]; inversion EQ; subst.
        -- rewrite E in B. discriminate.
        -- simpl. rewrite E. apply IH. exists pre, r, post. auto.
Qed.

Lemma last1_ok {A} (l : list A) x : last1 l = Ok x <-> exists u, l = u ++ [x].
Proof.
  unfold last1. split.
  - intros H. destruct (rev l) as [|y r] eqn:E; inversion H; subst. exists (rev r). rewrite <- (rev_involutive l), E. reflexivity.
  - intros (u & ->). rewrite rev_unit. reflexivity.
Qed.

Lemma last2_ok {A} (l : list A) x : last2 l = Ok x <-> exists u y, l = u ++ [x; y].
Proof.
  unfold last2. split.
  - intros H. destruct (rev l) as [|y [|z r]] eqn:E; inversion H; subst. exists (rev r), y. rewrite <- (rev_involutive l), E. simpl.
    rewrite <- app_assoc. reflexivity.
  - intros (u & y & ->). rewrite rev_app_distr. reflexivity.
Qed.

Lemma decided_ok skip tt s : last_decided skip tt s <->
  (do st <- last1 (train_important_stations tt);
   match skip with Some sk => if eqb st sk then last2 (train_important_stations tt) else Ok st | None => Ok st end) = Ok s.
Proof.
  split.
  - intros (pre & r & post & E & Er & [[N NS]|(mid & r2 & rest & s2 & -> & E2 & -> & N)]).
    + assert (L : last1 (train_important_stations tt) = Ok s).
      { apply last1_ok. exists (train_important_stations pre). apply stations_split. exists pre, r, post. split; auto. split; auto. split; auto.
        apply stations_nil. exact N. }
      rewrite L. cbn [bind]. destruct skip as [sk|]; auto. destruct (eqb s sk) eqn:EQ; auto. apply eqb_eq in EQ. congruence.
    + assert (S : train_important_stations tt = train_important_stations pre ++ [s; s2]).
      { apply stations_split. exists pre, r, (mid ++ r2 :: rest). split; auto. split; auto. split; auto.
        change [s2] with ([] ++ s2 :: []). apply stations_split. exists mid, r2, rest. split; auto.
        split; [apply stations_nil; intros; apply N; auto|]. split; auto. apply stations_nil; intros; apply N; auto. }
      assert (L : last1 (train_important_stations tt) = Ok s2).
      { apply last1_ok. exists (train_important_stations pre ++ [s]). rewrite S, <- app_assoc. reflexivity. }
      rewrite L. cbn [bind]. rewrite eqb_refl. apply last2_ok. exists (train_important_stations pre), s2. exact S.
  - intros H. destruct (last1 (train_important_stations tt)) as [st|] eqn:L; [|discriminate]. cbn [bind] in H. apply last1_ok in L as (u & L).
    assert (X : (skip <> Some st /\ st = s) \/ (skip = Some st /\ last2 (train_important_stations tt) = Ok s)).
    { destruct skip as [sk|]; [|inversion H; subst; left; split; [discriminate|auto]]. destruct (eqb st sk) eqn:EQ.
      - apply eqb_eq in EQ. subst. auto.
      - apply eqb_neq in EQ. left. split; congruence. }
    destruct X as [[NS ->]|[-> L2]].
    + apply stations_split in L as (pre & r & post & E & _ & Er & N). exists pre, r, post. split; auto. split; auto. left. split; auto.
      apply stations_nil. exact N.
    + apply last2_ok in L2 as (w & y & L2). rewrite L2 in L. assert (EY : y = st /\ w ++ [s] = u).
      { change [s; y] with ([s] ++ [y]) in L. rewrite app_assoc in L. apply app_inj_tail in L as [A B]. auto. }
      destruct EY as [-> <-]. apply stations_split in L2 as (pre & r & post & E & _ & Er & N).
      change [st] with ([] ++ st :: []) in N. apply stations_split in N as (mid & r2 & rest & -> & N1 & E2 & N2).
      exists pre, r, (mid ++ r2 :: rest). split; auto. split; auto. right. exists mid, r2, rest, st. split; auto. split; auto. split; auto.
      intros x [Hx|Hx]; [exact (proj1 (stations_nil mid) N1 x Hx)|exact (proj1 (stations_nil rest) N2 x Hx)].
Qed.

Lemma kind_ok w kind q : dlookup kind (trains_weights w) = Ok q <-> kind_weight (w_stopping w) (w_fast w) (w_express w) kind q.
Proof.
  split.
  - intros H. apply dlookup_ok in H. apply dget_in in H. unfold kind_weight. simpl in H.
    repeat (destruct H as [H|H]; [inversion H; subst; tauto|]). destruct H.
  - intros H. assert (X : dget kind (trains_weights w) = Some q).
    { destruct H as [ (H & ->) | [ (H & ->) | (H & ->) ] ]; [destruct H as [-> | [-> | ->]]|destruct H as [-> | ->]|destruct H as [-> | ->]]; reflexivity. }
    apply dlookup_ok. exact X.
Qed.

Lemma pair_trains_in td x : In x (pair_trains td) <->
  exists y, In y (dkeys td) /\ In (y * 10 + 9)%Z (dkeys td) /\ (x = y \/ x = (y * 10 + 9)%Z).
Proof.
  unfold pair_trains. rewrite in_flat_map. split.
  - intros ([a b] & H & I). apply pair9_in in H. exists a. cbn in I. destruct I as [I|[I|[]]]; intuition (subst; auto).
  - intros (y & A & B & C). exists (y, (y * 10 + 9)%Z). split; [apply pair9_in; auto|]. cbn. intuition.
Qed.

(** One weight for each train, at its last station that is not left out: that of its kind, or
    the one for empty stock.  The condition excludes trains that only look like empty stock:
    with 123 and 1239 also 1235 or 12391. *)
Theorem C46_weights_partial : forall td sk w,
  NoDup (dkeys td) ->
  (forall t info tt, dget t td = Some (info, tt) -> exists kind rest q, info = kind :: rest /\
     kind_weight (w_stopping w) (w_fast w) (w_express w) kind q) ->
  (forall t tt, runs td t tt -> exists s, last_decided (dget t sk) tt s) ->
  (forall t x, In t (dkeys td) -> In x (dkeys td) -> In (x * 10 + 9)%Z (dkeys td) ->
     (t / 10 = x)%Z \/ (t / 10 = x * 10 + 9)%Z -> t = (x * 10 + 9)%Z) ->
  exists d, make_weights td sk w = Ok d /\
    forall k q, dget k d = Some q <->
      exists t kind rest tt s, dget t td = Some (kind :: rest, tt) /\ last_decided (dget t sk) tt s /\
        k = (str_of_Z t ++ "_" ++ s)%string /\
        ((shunting td t /\ q = w_empty w) \/
         (~ shunting td t /\ kind_weight (w_stopping w) (w_fast w) (w_express w) kind q)).
Proof.
  intros td sk w ND KW LD NC. unfold make_weights.
  set (F := fun e : Z * (list string * table) =>
    do kind <- lnth (fst (snd e)) 0; do weight <- dlookup kind (trains_weights w);
    do station <- (do st <- last1 (train_important_stations (snd (snd e)));
       match dget (fst e) sk with Some s => if eqb st s then last2 (train_important_stations (snd (snd e))) else Ok st | None => Ok st end);
    Ok [(key2 (fst e) station, if lmem (fst e / 10)%Z (pair_trains td) then w_empty w else weight)]).
  rewrite (fold_entries _ F).
  2: { intros d e _. unfold F. cbv zeta. destruct (lnth (fst (snd e)) 0) as [kind|]; [|reflexivity]. cbn [bind].
       destruct (dlookup kind (trains_weights w)) as [q|]; [|reflexivity]. cbn [bind].
       destruct (last1 (train_important_stations (snd (snd e)))) as [st|]; [|reflexivity]. cbn [bind].
       match goal with |- (do _ <- ?x; _) = _ => destruct x end; reflexivity. }
  assert (SH : forall t, In t (dkeys td) -> (lmem (t / 10)%Z (pair_trains td) = true <-> shunting td t)).
  { intros t Ht. rewrite lmem_true, pair_trains_in. split.
    - intros (y & A & B & C). exists y. split; [exact A|]. split; [exact Ht|]. apply (NC t y); auto.
    - intros (y & A & _ & E). exists y. split; auto. split; [rewrite <- E; exact Ht|]. left. subst t.
      symmetry. apply Z.div_unique with 9%Z; lia. }
  assert (FT : forall t i tt, In (t, (i, tt)) td -> exists kind rest s q, i = kind :: rest /\ last_decided (dget t sk) tt s /\
     F (t, (i, tt)) = Ok [(key2 t s, q)] /\
     ((shunting td t /\ q = w_empty w) \/ (~ shunting td t /\ kind_weight (w_stopping w) (w_fast w) (w_express w) kind q))).
  { intros t i tt H. assert (D : dget t td = Some (i, tt)) by (apply in_dget; auto).
    destruct (KW t i tt D) as (kind & rest & q & -> & K). destruct (LD t tt (ex_intro _ _ D)) as (s & L).
    pose proof L as L'. apply decided_ok in L'. exists kind, rest, s. unfold F. cbn [fst snd lnth nth_error bind].
    rewrite (proj2 (kind_ok w kind q) K). cbn [bind]. rewrite L'. cbn [bind]. eexists. split; auto. split; auto. split; [reflexivity|].
    assert (Ht : In t (dkeys td)) by (apply in_map_iff; exists (t, (kind :: rest, tt)); auto).
    destruct (lmem (t / 10)%Z (pair_trains td)) eqn:M.
    - left. split; [apply SH; auto|reflexivity].
    - right. split; [intros X; apply (SH t Ht) in X; congruence|exact K]. }
  destruct (mapM_total F td) as (ess & M).
  { intros [t [i tt]] H. destruct (FT t i tt H) as (kind & rest & s & q & _ & _ & E & _). eauto. }
  rewrite M. cbn [bind]. eexists. split; [reflexivity|].
  assert (LF : forall o tt s s', last_decided o tt s -> last_decided o tt s' -> s = s').
  { intros o tt s s' A B. apply decided_ok in A. apply decided_ok in B. congruence. }
  assert (KF : forall kind q q', kind_weight (w_stopping w) (w_fast w) (w_express w) kind q ->
      kind_weight (w_stopping w) (w_fast w) (w_express w) kind q' -> q = q').
  { intros kind q q' A B. apply kind_ok in A. apply kind_ok in B. congruence. }
  assert (IN : forall k q, In (k, q) (List.concat ess) <->
      exists t kind rest tt s, dget t td = Some (kind :: rest, tt) /\ last_decided (dget t sk) tt s /\ k = key2 t s /\
        ((shunting td t /\ q = w_empty w) \/
         (~ shunting td t /\ kind_weight (w_stopping w) (w_fast w) (w_express w) kind q))).
  { intros k q. rewrite (mapM_concat_in _ _ _ (k, q) M). split.
    - intros ([t [i tt]] & es & H & E & I). destruct (FT t i tt H) as (kind & rest & s & q' & -> & L & E' & W).
      rewrite E in E'. inversion E'; subst es. destruct I as [I|[]]. inversion I; subst.
      exists t, kind, rest, tt, s. split; [apply in_dget; auto|]. auto.
    - intros (t & kind & rest & tt & s & D & L & -> & W). apply dget_in in D.
      destruct (FT t _ tt D) as (kind' & rest' & s' & q' & EI & L' & E & W'). inversion EI; subst kind' rest'.
      rewrite (LF _ _ _ _ L L'). exists (t, (kind :: rest, tt)). eexists. split; auto. split; [exact E|]. left. f_equal.
      destruct W as [[A ->]|[A B]], W' as [[A' ->]|[A' B']]; auto; try contradiction. exact (KF _ _ _ B' B). }
  intros k q. rewrite entries_get; [apply IN|]. intros v v' A B.
  apply IN in A as (t & kind & rest & tt & s & D & L & K & W). apply IN in B as (t' & kind' & rest' & tt' & s' & D' & L' & K' & W').
  rewrite K in K'. apply key2_inj in K' as [<- <-]. rewrite D in D'. inversion D'; subst.
  destruct W as [[A ->]|[A B]], W' as [[A' ->]|[A' B']]; auto; try contradiction. exact (KF _ _ _ B B').
Qed.
Print Assumptions C46_weights_partial.

(** 123, its empty stock movement 1239, and a passenger train 1235, which gets the weight of
    empty stock *)
Definition weigh_td : train_dict :=
  [(123%Z, (["KS - Os"], [day_row "a1" (Some "A") None None; day_row "b1" (Some "B") None None]));
   (1239%Z, (["KS - Os"], [day_row "b1" (Some "B") None None; day_row "z" None None None]));
   (1235%Z, (["IC - IC"], [day_row "a1" (Some "A") None None; day_row "c1" (Some "C") None None; day_row "z" None None None]))].
Definition usual_weights : weights := MkWeights 1 (3 # 2) (7 # 4) 0.

Theorem C46_passenger_refuted : exists td sk w d t kind rest tt s q q',
  NoDup (dkeys td) /\ get_skip_stations td = Ok sk /\ make_weights td sk w = Ok d /\
  dget t td = Some (kind :: rest, tt) /\ last_decided (dget t sk) tt s /\ ~ shunting td t /\
  kind_weight (w_stopping w) (w_fast w) (w_express w) kind q /\
  dget (str_of_Z t ++ "_" ++ s)%string d = Some q' /\ ~ q' == q.
Proof.
  exists weigh_td, [(123%Z, "B")], usual_weights. eexists. exists 1235%Z, "IC - IC", []. eexists. exists "C", (3 # 2), 0.
  split; [repeat constructor; simpl; intuition discriminate|]. split; [vm_compute; reflexivity|]. split; [vm_compute; reflexivity|].
  split; [vm_compute; reflexivity|]. split; [apply decided_ok; reflexivity|]. split.
  { intros (x & Hx & _ & E). simpl in Hx. lia. }
  split; [right; left; auto|]. split; [vm_compute; reflexivity|]. vm_compute. discriminate.
Qed.
Print Assumptions C46_passenger_refuted.

Example C46_case :
  let td := firstn 2 weigh_td in
  shunting td 1239 /\ make_weights td [(123%Z, "B")] usual_weights = Ok [("123_A", 1); ("1239_B", 0)]%Q.
Proof. split; [exists 123%Z; simpl; auto|vm_compute; reflexivity]. Qed.
