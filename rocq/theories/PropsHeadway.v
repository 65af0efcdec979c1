(** * PropsHeadway: claims about headways (C37) *)

From Coq Require Import List String Ascii ZArith QArith Qabs Qround Bool Arith Lia Lqa.
From Verif Require Emit.
From Verif Require Import Base BaseFacts DataTables DataSets DataTimes SpecTables SpecSets SpecDurations
  TableFacts SetFacts TimeFacts PropsTables PropsSets PropsSwitch PropsTimes.
Import ListNotations.
Open Scope string_scope.
Open Scope list_scope.

(** ** The greatest of the terms *)

Lemma qmax_le a b : a <= qmax a b /\ b <= qmax a b /\ (qmax a b = a \/ qmax a b = b).
Proof.
  unfold qmax. destruct (Qle_bool a b) eqn:E.
  - apply Qle_bool_iff in E. split; [exact E|]. split; [lra|]. auto.
  - assert (~ a <= b) by (rewrite <- Qle_bool_iff, E; discriminate). split; [lra|]. split; [lra|]. auto.
Qed.

Lemma np_max_ok l : forall x, In (np_max x l) (x :: l) /\ forall y, In y (x :: l) -> y <= np_max x l.
Proof.
  induction l as [|a l IH]; intros x.
  - split; [left; reflexivity|]. intros y [<-|[]]. apply Qle_refl.
  - unfold np_max. simpl. change (fold_left qmax l (qmax x a)) with (np_max (qmax x a) l).
    destruct (IH (qmax x a)) as [I L]. destruct (qmax_le x a) as (A & B & C). split.
    + destruct I as [I|I]; [|right; right; exact I]. rewrite <- I. destruct C as [C|C]; rewrite C; [left|right; left]; reflexivity.
    + assert (M := L _ (or_introl eq_refl)). intros y [<-|[<-|H]]; [lra|lra|]. apply L. right. exact H.
Qed.

Lemma after_more x k t : after (x + k) t == after x t + qsum (slice x (x + k) t).
Proof.
  unfold after, slice. replace (x + k - x)%nat with k by lia. revert t. induction x as [|x IH]; intros t.
  - cbn [Nat.add skipn firstn fold_right]. unfold qsum. lra.
  - destruct t as [|a t]; [rewrite firstn_nil; destruct k; cbn; lra|].
    cbn [Nat.add firstn skipn fold_right]. rewrite IH. lra.
Qed.

Lemma deltas x : forall t1 t2, List.length t1 = List.length t2 ->
  qsum (map (fun p : Q * Q => fst p - snd p) (firstn x (combine t1 t2))) == after x t1 - after x t2.
Proof.
  unfold after. induction x as [|x IH]; intros [|a t1] [|b t2] E; try discriminate; try (cbn; lra).
  cbn [combine firstn map fold_right fst snd]. unfold qsum in *. cbn [fold_right]. rewrite IH by (inversion E; auto). lra.
Qed.

(** The headway over given blocks is the least separation keeping the trains apart. *)
Theorem C37_headway : forall k t1 t2, List.length t1 = List.length t2 -> least_safe k t1 t2 (headway k t1 t2).
Proof.
  intros k t1 t2 LE. split.
  - intros ->. reflexivity.
  - intros NE.
    assert (T : forall q, In q (headway_terms k t1 t2) -> exists x, (x < List.length t1)%nat /\ q == after (x + k) t1 - after x t2).
    { intros q H. unfold headway_terms in H. apply in_map_iff in H as (x & <- & Hx). apply in_seq in Hx. exists x. split; [lia|].
      rewrite after_more. destruct (Nat.eqb_spec x 0) as [->|N]; [unfold after; cbn [firstn fold_right]; lra|].
      rewrite deltas by auto. lra. }
    assert (T' : forall x, (x < List.length t1)%nat -> exists q, In q (headway_terms k t1 t2) /\ q == after (x + k) t1 - after x t2).
    { intros x Hx. unfold headway_terms. eexists. split; [apply in_map_iff; exists x; split; [reflexivity|apply in_seq; lia]|].
      rewrite after_more. cbv beta. destruct (Nat.eqb_spec x 0) as [->|N]; [unfold after; cbn [firstn fold_right]; lra|].
      rewrite deltas by auto. lra. }
    unfold headway. destruct (headway_terms k t1 t2) as [|q0 l] eqn:E.
    { exfalso. destruct (T' 0%nat) as (q & [] & _). destruct t1; [congruence|simpl; lia]. }
    destruct (np_max_ok l q0) as [I M]. split.
    + intros x Hx. destruct (T' x Hx) as (q & Hq & EQ). apply M in Hq. lra.
    + intros h' K. apply T in I as (x & Hx & EQ). specialize (K x Hx). lra.
Qed.
Print Assumptions C37_headway.

(** ** Entries *)

Lemma apart_ok s s2 : apart_on s s2 (headway_blocks s s2).
Proof.
  unfold apart_on, headway_blocks. change list_of_k1_pairs with one_block_stretches.
  destruct (lmem (s, s2) one_block_stretches) eqn:A; [apply lmem_true in A|apply lmem_false in A];
    (destruct (lmem (s2, s) one_block_stretches) eqn:B; [apply lmem_true in B|apply lmem_false in B]); cbn [orb]; split; intros; tauto.
Qed.

Lemma jd_inner_nodup td st d : jd td st None = Ok d -> forall s inner, dget s d = Some inner -> NoDup (dkeys inner).
Proof.
  intros E s inner D. rewrite jd_eq in E. 
  apply (fold_table (fun _ => true) (fun s => do trains <- dlookup s (get_trains_at_station td st false); foldM (inner_step td s) trains []) _ _ _ E) in D
    as [(_ & _ & B)|[_ D]]; [|discriminate].
  inv_bind B. refine (foldM_inv (fun d => NoDup (dkeys d)) _ _ _ _ _ _ B); [constructor|].
  intros acc j acc' _ N F. unfold inner_step in F.
  destruct (train_time_table td j) as [tj|]; [|discriminate]. cbn [bind] in F.
  destruct (next_station tj s) as [[s2|]|]; cbn [bind] in F; [|inversion F; subst; exact N|discriminate].
  match type of F with bind ?x _ = _ => destruct x as [gs|]; [|discriminate] end. cbn [bind] in F. inversion F; subst. rewrite dkeys_dset. destruct (dmem s2 acc) eqn:M; [exact N|].
  apply dmem_false in M. apply Emit.NoDup_app_snoc; auto.
Qed.

Lemma times_common tt bs : (forall b, In b bs -> uses tt b) ->
  exists ts, mapM (fun b => get_passing_time_block b tt) bs = Ok ts.
Proof.
  intros H. apply mapM_total. intros b Hb. destruct (H b Hb) as (r & Hr & Er). unfold get_passing_time_block.
  destruct (filter (fun r => eqb (r_block r) b) tt) as [|x l] eqn:E; [|eauto]. exfalso.
  assert (X : In r (filter (fun r => eqb (r_block r) b) tt)) by (apply filter_In; split; auto; rewrite Er; apply eqb_refl).
  rewrite E in X. destruct X.
Qed.

Lemma leaves_uses tt s s2 line b : leaves tt s s2 line -> In b line -> uses tt b.
Proof.
  intros (pre & r1 & mid & r2 & post & -> & _ & _ & _ & ->) H. apply in_map_iff in H as (r & <- & H). exists r. split; auto.
  apply in_app_iff. right. right. apply in_app_iff. auto.
Qed.

Section Headways.
Variables (td : train_dict) (st : station_blocks) (r : Z).
Hypothesis ND : NoDup (dkeys td).
Hypothesis SA : stations_apart st.
Hypothesis AN : all_annotated st td.
Hypothesis VO : all_visit_once td.

Lemma pair_total t u tt uu s s2 line line' : runs td t tt -> runs td u uu -> leaves tt s s2 line -> leaves uu s s2 line' ->
  exists q, pair_headway td s s2 t u r = Ok q.
Proof.
  intros R R' L L'. unfold pair_headway.
  pose proof R as T. apply time_table_ok in T. rewrite T. pose proof R' as T'. apply time_table_ok in T'. rewrite T'. cbn [bind].
  unfold common_path. rewrite (leaves_blocks tt s s2 line (VO _ _ R) L), (leaves_blocks uu s s2 line' (VO _ _ R') L'). cbn [bind].
  assert (C : exists bs, (if eqb line line' then Ok line else Ok (flatten (check_common_specific_elements_lists line line'))) = Ok bs /\
     (forall b, In b bs -> In b line /\ In b line')).
  { destruct (eqb line line') eqn:EQ.
    - apply eqb_eq in EQ. subst. exists line'. split; auto.
    - eexists. split; [reflexivity|]. intros b Hb. unfold flatten in Hb. apply in_concat in Hb as (p & Hp & Hb).
      destruct (C51_common_partial line line') as (P & _). destruct (P p Hp) as [_ P']. apply P'. exact Hb. }
  destruct C as (bs & EB & IB). rewrite EB. cbn [bind].
  destruct (times_common tt bs) as (t1 & E1); [intros b Hb; eapply leaves_uses; [exact L|apply IB; exact Hb]|].
  destruct (times_common uu bs) as (t2 & E2); [intros b Hb; eapply leaves_uses; [exact L'|apply IB; exact Hb]|].
  rewrite E1, E2. cbn [bind]. eauto.
Qed.

Lemma pair_same t u tt uu s s2 mid mid' : runs td t tt -> runs td u uu ->
  NoDup (map r_block tt) -> NoDup (map r_block uu) -> directly tt s s2 mid -> directly uu s s2 mid' ->
  map r_block mid = map r_block mid' ->
  pair_headway td s s2 t u r = Ok (round_if r (headway (headway_blocks s s2) (map time_of mid) (map time_of mid'))).
Proof.
  intros R R' N N' D D' EQ. unfold pair_headway.
  pose proof R as T. apply time_table_ok in T. rewrite T. pose proof R' as T'. apply time_table_ok in T'. rewrite T'. cbn [bind].
  unfold common_path. rewrite (leaves_blocks tt s s2 _ (VO _ _ R) (directly_leaves _ _ _ _ D)),
    (leaves_blocks uu s s2 _ (VO _ _ R') (directly_leaves _ _ _ _ D')). cbn [bind].
  rewrite EQ, eqb_refl. cbn [bind]. rewrite <- EQ at 1.
  destruct (block_times tt mid N) as (t1 & E1 & ->).
  { destruct D as [(pre & r1 & r2 & post & -> & _) _]. intros x Hx. apply in_app_iff. right. right. apply in_app_iff. auto. }
  destruct (block_times uu mid' N') as (t2 & E2 & ->).
  { destruct D' as [(pre & r1 & r2 & post & -> & _) _]. intros x Hx. apply in_app_iff. right. right. apply in_app_iff. auto. }
  rewrite E1. cbn [bind]. rewrite E2. reflexivity.
Qed.

Definition pair_entries (s : string) (s2 : string) (p : Z * Z) : res (list (string * Q)) :=
  if eqb (fst p) (snd p) then Ok []
  else do h <- pair_headway td s s2 (fst p) (snd p) r; Ok [(key4 (fst p) (snd p) s s2, h)].

(** Every entry, and every pair leaving one station for another *)
Lemma headway_all : (forall t tt s, runs td t tt -> passes tt s -> no_underscore s) ->
  exists d, get_taus_headway td st r = Ok d /\
    forall k q, dget k d = Some q <->
      exists t u tt uu s s2 line line', t <> u /\ runs td t tt /\ runs td u uu /\ leaves tt s s2 line /\ leaves uu s s2 line' /\
        k = key4 t u s s2 /\ pair_headway td s s2 t u r = Ok q.
Proof.
  intros NU. unfold get_taus_headway.
  destruct (C41_groups_partial td st None ND SA AN VO) as (jds & EJ & KJ & HJ); [intros s H; exact H|].
  rewrite EJ. cbn [bind].
  set (F2 := fun s (e : string * list (list Z)) =>
     do ess <- mapM (pair_entries s (fst e)) (list_prod (flatten (snd e)) (flatten (snd e))); Ok (List.concat ess)).
  set (F1 := fun s => do inner <- dlookup s jds; do ess <- mapM (F2 s) inner; Ok (List.concat ess)).
  rewrite (fold_entries _ F1 (dkeys st)).
  2: { intros d s _. unfold F1. destruct (dlookup s jds) as [inner|]; [|reflexivity]. cbn [bind].
       rewrite (fold_entries _ (F2 s)).
       - destruct (mapM (F2 s) inner); reflexivity.
       - intros d' e _. unfold F2. cbv zeta. rewrite (fold_entries _ (pair_entries s (fst e))).
         + destruct (mapM (pair_entries s (fst e)) (list_prod (flatten (snd e)) (flatten (snd e)))); reflexivity.
         + intros d2 p _. unfold pair_entries. destruct (eqb (fst p) (snd p)); [reflexivity|].
           destruct (pair_headway td s (fst e) (fst p) (snd p) r); reflexivity. }
  (* trains of the groups *)
  assert (TS : forall s inner s2 groups t, dget s jds = Some inner -> In (s2, groups) inner ->
     (In t (flatten groups) <-> exists tt line, runs td t tt /\ leaves tt s s2 line)).
  { intros s inner s2 groups t D I. assert (N := jd_inner_nodup td st jds EJ s inner D).
    assert (DG := in_dget _ _ _ N I). destruct (HJ s inner D) as (_ & G & _). rewrite <- (G s2 t).
    unfold flatten. rewrite in_concat. split.
    - intros (g & Hg & Ht). eauto.
    - intros (gs & g & E & Hg & Ht). rewrite DG in E. inversion E; subst. eauto. }
  assert (FT2 : forall s inner e, dget s jds = Some inner -> In e inner -> exists es, F2 s e = Ok es /\
     forall k q, In (k, q) es <-> exists t u tt uu line line', t <> u /\ runs td t tt /\ runs td u uu /\ leaves tt s (fst e) line /\
       leaves uu s (fst e) line' /\ k = key4 t u s (fst e) /\ pair_headway td s (fst e) t u r = Ok q).
  { intros s inner [s2 groups] D I. cbn [fst]. unfold F2. cbn [fst snd].
    assert (PT : forall p, In p (list_prod (flatten groups) (flatten groups)) -> exists tt uu line line',
       runs td (fst p) tt /\ runs td (snd p) uu /\ leaves tt s s2 line /\ leaves uu s s2 line').
    { intros [t u] H. apply in_prod_iff in H as [H1 H2]. apply (TS s inner s2 groups t D I) in H1 as (tt & line & A & B).
      apply (TS s inner s2 groups u D I) in H2 as (uu & line' & A' & B'). cbn. exists tt, uu, line, line'. auto. }
    destruct (mapM_total (pair_entries s s2) (list_prod (flatten groups) (flatten groups))) as (ess & M).
    { intros p Hp. destruct (PT p Hp) as (tt & uu & line & line' & R & R' & L & L'). unfold pair_entries.
      destruct (eqb (fst p) (snd p)); [eauto|].
      destruct (pair_total _ _ tt uu s s2 line line' R R' L L') as (q & ->). cbn [bind]. eauto. }
    rewrite M. cbn [bind]. eexists. split; [reflexivity|]. intros k q.
    rewrite (mapM_concat_in _ _ _ (k, q) M). split.
    - intros (p & es & Hp & E & IE). destruct (PT p Hp) as (tt & uu & line & line' & R & R' & L & L').
      unfold pair_entries in E. destruct (eqb (fst p) (snd p)) eqn:EQ; [inversion E; subst; destruct IE|].
      apply eqb_false in EQ. inv_bind E. inversion E; subst. destruct IE as [IE|[]]. inversion IE; subst.
      exists (fst p), (snd p), tt, uu, line, line'. auto 8.
    - intros (t & u & tt & uu & line & line' & N & R & R' & L & L' & -> & E). exists (t, u).
      unfold pair_entries. cbn [fst snd]. rewrite (proj2 (eqb_false _ _) N), E. cbn [bind]. eexists.
      split; [apply in_prod_iff; split; apply (TS s inner s2 groups _ D I); eauto|]. split; [reflexivity|]. left. reflexivity. }
  assert (FT1 : forall s, In s (dkeys st) -> exists es, F1 s = Ok es /\
     forall k q, In (k, q) es <-> exists t u tt uu s2 line line', t <> u /\ runs td t tt /\ runs td u uu /\ leaves tt s s2 line /\
       leaves uu s s2 line' /\ k = key4 t u s s2 /\ pair_headway td s s2 t u r = Ok q).
  { intros s Hs. destruct (KJ s Hs) as (inner & D). unfold F1, dlookup. rewrite D. cbn [bind].
    destruct (mapM_total (F2 s) inner) as (ess & M).
    { intros e He. destruct (FT2 s inner e D He) as (es & E & _). eauto. }
    rewrite M. cbn [bind]. eexists. split; [reflexivity|]. intros k q. rewrite (mapM_concat_in _ _ _ (k, q) M). split.
    - intros (e & es & He & E & IE). destruct (FT2 s inner e D He) as (es' & E' & X). rewrite E in E'. inversion E'; subst es'.
      destruct (proj1 (X _ _) IE) as (t & u & tt & uu & line & line' & A). exists t, u, tt, uu, (fst e), line, line'. exact A.
    - intros (t & u & tt & uu & s2 & line & line' & N & R & R' & L & L' & K & E).
      destruct (HJ s inner D) as (_ & G & _). destruct (proj2 (G s2 t)) as (groups & g & DG & _); [eauto|].
      apply dget_in in DG. destruct (FT2 s inner _ D DG) as (es & E' & X). exists (s2, groups), es. split; auto. split; auto.
      apply X. cbn [fst]. exists t, u, tt, uu, line, line'. auto 8. }
  destruct (mapM_total F1 (dkeys st)) as (ess & M).
  { intros s Hs. destruct (FT1 s Hs) as (es & E & _). eauto. }
  rewrite M. cbn [bind]. eexists. split; [reflexivity|].
  assert (IN : forall k q, In (k, q) (List.concat ess) <->
     exists t u tt uu s s2 line line', t <> u /\ runs td t tt /\ runs td u uu /\ leaves tt s s2 line /\ leaves uu s s2 line' /\
        k = key4 t u s s2 /\ pair_headway td s s2 t u r = Ok q).
  { intros k q. rewrite (mapM_concat_in _ _ _ (k, q) M). split.
    - intros (s & es & Hs & E & IE). destruct (FT1 s Hs) as (es' & E' & X). rewrite E in E'. inversion E'; subst es'.
      destruct (proj1 (X _ _) IE) as (t & u & tt & uu & s2 & line & line' & A). exists t, u, tt, uu, s, s2, line, line'. exact A.
    - intros (t & u & tt & uu & s & s2 & line & line' & N & R & R' & L & L' & K & E).
      assert (Hs : In s (dkeys st)).
      { pose proof L as (pre & r1 & mid & r2 & post & EL & A & _). destruct R as (i & R). apply dget_in in R.
        assert (IR : In r1 tt) by (rewrite EL; apply in_app_iff; right; left; reflexivity).
        destruct (proj1 (AN t i _ R r1 s IR) A) as (bs & B & _).
        apply in_map_iff. exists (s, bs). auto. }
      destruct (FT1 s Hs) as (es & E' & X). exists s, es. split; auto. split; auto. apply X.
      exists t, u, tt, uu, s2, line, line'. auto 8. }
  intros k q. rewrite entries_get; [apply IN|].
  intros v v' I I'. apply IN in I as (t & u & tt & uu & s & s2 & line & line' & N & R & R' & L & L' & K & E).
  apply IN in I' as (t1 & u1 & tt1 & uu1 & s1 & s21 & line1 & line1' & N1 & R1 & R1' & L1 & L1' & K1 & E1).
  rewrite K in K1. apply key4_inj in K1 as (-> & -> & -> & ->); [congruence| |].
  - apply (NU t tt s R). apply leaves_directly in L as (mid & [G _] & _). apply (goes_passes _ _ _ _ G).
  - apply (NU t1 tt1 s1 R1). apply leaves_directly in L1 as (mid & [G _] & _). apply (goes_passes _ _ _ _ G).
Qed.

End Headways.

(** The table has an entry for exactly the ordered pairs of trains that go from one station to
    the same next one.  If they do so over the same blocks, it is the least safe separation. *)
Theorem C37_table : forall td st r,
  NoDup (dkeys td) -> stations_apart st -> all_annotated st td -> all_visit_once td -> all_blocks_once td -> named_well td ->
  exists d, get_taus_headway td st r = Ok d /\
    (forall k, In k (dkeys d) <-> exists t u tt uu s s2 mid mid', t <> u /\ runs td t tt /\ runs td u uu /\
       directly tt s s2 mid /\ directly uu s s2 mid' /\
       k = (str_of_Z t ++ "_" ++ str_of_Z u ++ "_" ++ s ++ "_" ++ s2)%string) /\
    (forall t u tt uu s s2 mid mid', t <> u -> runs td t tt -> runs td u uu ->
       directly tt s s2 mid -> directly uu s s2 mid' -> map r_block mid = map r_block mid' ->
       exists q h k, dget (str_of_Z t ++ "_" ++ str_of_Z u ++ "_" ++ s ++ "_" ++ s2)%string d = Some q /\
         in_resolution r h q /\ apart_on s s2 k /\ least_safe k (map time_of mid) (map time_of mid') h).
Proof.
  intros td st r ND SA AN VO BO NW.
  destruct (headway_all td st r ND SA AN VO) as (d & E & H); [intros t tt s R P; apply (NW t tt s R P)|].
  exists d. split; auto. split.
  - intros k. split.
    + intros K. destruct (dget k d) as [q|] eqn:D; [|apply dget_none in D; contradiction].
      apply H in D as (t & u & tt & uu & s & s2 & line & line' & N & R & R' & L & L' & -> & _).
      apply leaves_directly in L as (mid & D & _). apply leaves_directly in L' as (mid' & D' & _).
      exists t, u, tt, uu, s, s2, mid, mid'. auto 8.
    + intros (t & u & tt & uu & s & s2 & mid & mid' & N & R & R' & D & D' & ->).
      apply directly_leaves in D. apply directly_leaves in D'.
      destruct (pair_total td r VO t u tt uu s s2 _ _ R R' D D') as (q & Q).
      assert (X : dget (key4 t u s s2) d = Some q) by (apply H; eauto 16).
      apply dget_in in X. apply in_map_iff. exists (key4 t u s s2, q). auto.
  - intros t u tt uu s s2 mid mid' N R R' D D' EQ.
    assert (Q := pair_same td r VO t u tt uu s s2 mid mid' R R' (BO _ _ R) (BO _ _ R') D D' EQ).
    do 2 eexists. exists (headway_blocks s s2). split; [apply H; do 8 eexists; split; [exact N|]|].
    + split; [exact R|]. split; [exact R'|]. split; [apply directly_leaves; exact D|]. split; [apply directly_leaves; exact D'|].
      split; [reflexivity|exact Q].
    + split; [apply round_ok|]. split; [apply apart_ok|]. apply C37_headway. rewrite !map_length.
      rewrite <- (map_length r_block mid), EQ, map_length. reflexivity.
Qed.
Print Assumptions C37_table.

(** Two trains over x (2.4 minutes): the rounded headway 2 lets the second one enter x while
    the first one is still there. *)
Definition pair_tt (q : Q) : table := [timed "a1" (Some "A") 1 None; timed "x" None q None; timed "b1" (Some "B") 1 None].
Definition pair_td : train_dict := [(11%Z, ([], pair_tt (12 # 5))); (12%Z, ([], pair_tt 2))].

Lemma pair_ok : NoDup (dkeys pair_td) /\ all_annotated abc_st pair_td /\ all_visit_once pair_td /\ all_blocks_once pair_td /\ named_well pair_td.
Proof.
  assert (R : forall t tt, runs pair_td t tt -> exists q, tt = pair_tt q).
  { intros t tt (i & H). unfold pair_td in H. simpl in H.
    destruct (eq_dec t 11%Z); [|destruct (eq_dec t 12%Z)]; inversion H; eauto. }
  split; [repeat constructor; simpl; intuition discriminate|]. split.
  { intros t i tt [H|[H|[]]] r s Hr; inversion H; subst; rewrite abc_station; simpl in Hr;
      (repeat (destruct Hr as [Hr|Hr]; [subst r; cbn; intuition (try congruence)|]); try tauto). }
  split; [|split].
  - intros t tt H. apply R in H as (q & ->). apply visits_once_nodup. repeat constructor; simpl; intuition discriminate.
  - intros t tt H. apply R in H as (q & ->). repeat constructor; simpl; intuition discriminate.
  - intros t tt s H (x & Hx & Ex). apply R in H as (q & ->). destruct Hx as [<-|[<-|[<-|[]]]]; cbn in Ex; inversion Ex; subst;
      (split; [discriminate|apply no_us_allc; reflexivity]).
Qed.

Example C37_case : get_taus_headway pair_td abc_st 0 = Ok [("11_12_A_B", 12 # 5); ("12_11_A_B", 2)]%Q.
Proof. vm_compute. reflexivity. Qed.

Theorem C37_rounding : exists td st tt uu mid mid' q k,
  NoDup (dkeys td) /\ stations_apart st /\ all_annotated st td /\ all_visit_once td /\ all_blocks_once td /\ named_well td /\
  runs td 11 tt /\ runs td 12 uu /\ directly tt "A" "B" mid /\ directly uu "A" "B" mid' /\
  map r_block mid = map r_block mid' /\ apart_on "A" "B" k /\
  (exists d, get_taus_headway td st 1 = Ok d /\ dget "11_12_A_B" d = Some q) /\
  ~ keeps_apart k (map time_of mid) (map time_of mid') q.
Proof.
  exists pair_td, abc_st, (pair_tt (12 # 5)), (pair_tt 2), [timed "x" None (12 # 5) None], [timed "x" None 2 None], (inject_Z 2), 2%nat.
  destruct pair_ok as (A & B & C & D & E). split; auto. split; [apply abc_apart|]. split; auto. split; auto. split; auto. split; auto.
  split; [eexists; reflexivity|]. split; [eexists; reflexivity|].
  split; [split; [exists [], (timed "a1" (Some "A") 1 None), (timed "b1" (Some "B") 1 None), []; repeat split|intros r [<-|[]]; reflexivity]|].
  split; [split; [exists [], (timed "a1" (Some "A") 1 None), (timed "b1" (Some "B") 1 None), []; repeat split|intros r [<-|[]]; reflexivity]|].
  split; [reflexivity|]. split.
  - split; [|reflexivity]. intros [X|X]; simpl in X; intuition discriminate.
  - split; [eexists; split; vm_compute; reflexivity|]. intros K. specialize (K 0%nat). vm_compute in K. apply K; auto.
Qed.
Print Assumptions C37_rounding.
