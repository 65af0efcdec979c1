(** * PropsTables: claims about reading and checking timetables (C35, C47-C49, C51, C52) *)

From Coq Require Import List String Ascii ZArith QArith Bool Arith Lia.
From Verif Require Import Base BaseFacts DataTables SpecTables TableFacts FileFacts.
Import ListNotations.
Open Scope string_scope.
Open Scope list_scope.

(** ** C35: the schedule file is read back *)

(** Every list of trains with different numbers, written as in the schedule file, is read back:
    each number with its four header fields and its blocks, in file order. *)
Theorem C35_round_trip_partial : forall l,
  (forall x, In x l -> well_written x) -> NoDup (map x_number l) ->
  timetable_to_train_dict (flat_map written l) =
    Ok (map (fun x => (x_number x, ([x_kind x; x_name x; x_from x; x_to x], x_blocks x))) l).
Proof.
  intros l W ND. unfold timetable_to_train_dict.
  destruct (fold_file l [] None [] W ND) as (i & E); [intros x _ []|].
  apply (f_equal (fun r : res ttd_state => do st <- r; Ok (snd st))) in E. exact E.
Qed.
Print Assumptions C35_round_trip_partial.

Definition block (b : string) (arr dep : option string) : row :=
  MkRow b (Some "R") arr dep None None None None None None.

Definition text_94766 : train_text :=
  MkText 94766 "KS - Os" "S5" "from Zwardon" "terminates in Katowice"
    [block "Kob-Ty-6" None None; block "Ty 2" (Some "15:46") (Some "15:47"); block "KO 8" None None].
Definition text_42100 : train_text :=
  MkText 42100 "IC - IC" "SZTYGAR" "departs Katowice" "to Lublin" [block "KO 9" None (Some "16:08")].

Example C35_case :
  well_written text_94766 /\ well_written text_42100 /\
  timetable_to_train_dict (written text_94766 ++ written text_42100) =
    Ok [(94766%Z, (["KS - Os"; "S5"; "from Zwardon"; "terminates in Katowice"], x_blocks text_94766));
        (42100%Z, (["IC - IC"; "SZTYGAR"; "departs Katowice"; "to Lublin"], x_blocks text_42100))].
Proof.
  split; [|split; [|reflexivity]].
  - split; [cbn; lia|]. split; [|split; [|split; [|split]]].
    + split; [intros N; apply isnumeric_iff in N; discriminate|]. split; intros (r & E); discriminate.
    + split; [intros N; apply isnumeric_iff in N; discriminate|]. split; intros (r & E); discriminate.
    + left. exists " Zwardon". reflexivity.
    + right. exists "rminates in Katowice". reflexivity.
    + intros r [<-|[<-|[<-|[]]]]; (split; [split; [intros N; apply isnumeric_iff in N; discriminate|split; intros (q & E); discriminate]|]);
        repeat split; intros (q & E); discriminate.
  - split; [cbn; lia|]. split; [|split; [|split; [|split]]].
    + split; [intros N; apply isnumeric_iff in N; discriminate|]. split; intros (r & E); discriminate.
    + split; [intros N; apply isnumeric_iff in N; discriminate|]. split; intros (r & E); discriminate.
    + right. exists "rts Katowice". reflexivity.
    + left. exists " Lublin". reflexivity.
    + intros r [<-|[]]; (split; [split; [intros N; apply isnumeric_iff in N; discriminate|split; intros (q & E); discriminate]|]);
        repeat split; intros (q & E); discriminate.
Qed.

(** Any file in this format: the numbers are the keys, in the order in which they first occur, and
    each has the fields and blocks of the last train with that number. *)
Theorem C35_last : forall l, (forall x, In x l -> well_written x) ->
  exists d, timetable_to_train_dict (flat_map written l) = Ok d /\
  NoDup (dkeys d) /\
  (forall u n v, map x_number l = u ++ n :: v -> ~ In n u ->
     exists a b, dkeys d = a ++ n :: b /\ forall m, In m a <-> In m u) /\
  (forall n e, dget n d = Some e <-> exists x, last_with l n x /\ e = ([x_kind x; x_name x; x_from x; x_to x], x_blocks x)).
Proof.
  intros l W. destruct (fold_any l [] None [] W) as (i & E).
  exists (fold_left (fun d x => dset (x_number x) (snd (entry x)) d) l []). split.
  { unfold timetable_to_train_dict. apply (f_equal (fun r : res ttd_state => do st <- r; Ok (snd st))) in E. exact E. }
  cbn [snd]. clear W i E. induction l as [|x l IH] using rev_ind.
  - split; [constructor|]. split; [intros [|? u] n v H; discriminate|]. intros n e. split; [discriminate|].
    intros (x & ([|? u] & v & H & _) & _); discriminate.
  - rewrite fold_left_app. cbn [fold_left]. destruct IH as (ND & OR & GE).
    set (d := fold_left (fun d x => dset (x_number x) (snd (entry x)) d) l []) in *.
    assert (KE : forall n, In n (dkeys d) <-> In n (map x_number l)).
    { intros n. split.
      - intros I. apply in_map_iff in I as ([m e] & <- & I). cbn [fst]. apply (in_dget _ _ _ ND), GE in I as (y & (u & v & -> & <- & _) & _).
        apply in_map, in_or_app. right. left. reflexivity.
      - intros I. apply in_split in I as (u & v & I). destruct (in_dec Z.eq_dec n u) as [J|J].
        + clear - J I OR. assert (X : exists u1 u2, u = u1 ++ n :: u2 /\ ~ In n u1).
          { clear I. induction u as [|a u IH]; [destruct J|]. destruct (Z.eq_dec a n) as [->|N]; [exists [], u; split; [reflexivity|intros []]|].
            destruct J as [->|J]; [congruence|]. destruct (IH J) as (u1 & u2 & -> & K). exists (a :: u1), u2. split; [reflexivity|].
            intros [->|K']; [congruence|auto]. }
          destruct X as (u1 & u2 & -> & N). rewrite <- app_assoc in I. cbn in I. destruct (OR _ _ _ I N) as (a & b & -> & _).
          apply in_or_app. right. left. reflexivity.
        + destruct (OR _ _ _ I J) as (a & b & -> & _). apply in_or_app. right. left. reflexivity. }
    assert (KD : dkeys (dset (x_number x) (snd (entry x)) d) = dkeys d ++ (if in_dec Z.eq_dec (x_number x) (dkeys d) then [] else [x_number x])).
    { destruct (in_dec Z.eq_dec (x_number x) (dkeys d)) as [I|I].
      - rewrite List.app_nil_r. clear - I. induction d as [|[k v] d IH]; [destruct I|]. cbn [dset]. destruct (eq_dec (x_number x) k) as [<-|N]; [reflexivity|].
        cbn [dkeys map fst]. f_equal. apply IH. destruct I as [I|I]; [cbn in I; congruence|exact I].
      - rewrite dset_absent by exact I. unfold dkeys. rewrite map_app. reflexivity. }
    split; [|split].
    + rewrite KD. destruct (in_dec _ _ _) as [I|I]; [rewrite List.app_nil_r; exact ND|].
      apply (Permutation.Permutation_NoDup (l := x_number x :: dkeys d)); [apply Permutation.Permutation_cons_append|constructor; assumption].
    + intros u n v H N. rewrite map_app in H. cbn [map] in H. rewrite KD. destruct v as [|m v _] using rev_ind.
      * apply app_inj_tail in H as [<- <-]. destruct (in_dec _ _ _) as [I|I]; [apply KE in I; contradiction|].
        exists (dkeys d), []. split; [reflexivity|]. intros m. apply KE.
      * rewrite app_comm_cons, app_assoc in H. apply app_inj_tail in H as [H <-]. destruct (OR u n v H N) as (a & b & -> & K).
        exists a, (b ++ (if in_dec Z.eq_dec (x_number x) (a ++ n :: b) then [] else [x_number x])). split; [rewrite <- app_assoc; reflexivity|exact K].
    + intros n e. rewrite dget_dset. destruct (eq_dec n (x_number x)) as [->|N].
      * split.
        -- intros X. inversion X; subst. exists x. split; [|reflexivity]. exists l, []. split; [reflexivity|]. split; [reflexivity|intros ? []].
        -- intros (y & (u & v & H & Ny & L) & ->). destruct v as [|z v _] using rev_ind.
           ++ apply app_inj_tail in H as [_ ->]. reflexivity.
           ++ rewrite app_comm_cons, app_assoc in H. apply app_inj_tail in H as [_ ->]. exfalso.
              apply (L z); [apply in_or_app; right; left; reflexivity|reflexivity].
      * rewrite GE. split; intros (y & (u & v & H & Ny & L) & ->); (exists y; split; [|reflexivity]).
        -- exists u, (v ++ [x]). split; [rewrite H, <- app_assoc; reflexivity|]. split; [exact Ny|].
           intros z I. apply in_app_iff in I as [I|[<-|[]]]; [auto|congruence].
        -- destruct v as [|z v _] using rev_ind.
           ++ apply app_inj_tail in H as [_ ->]. congruence.
           ++ rewrite app_comm_cons, app_assoc in H. apply app_inj_tail in H as [-> _]. exists u, v. split; [reflexivity|]. split; [exact Ny|].
              intros w I. apply L, in_or_app. left. exact I.
Qed.
Print Assumptions C35_last.

(** A train is lost if its number occurs again. *)
Theorem C35_repeated_refuted : exists l d x, (forall x, In x l -> well_written x) /\ In x l /\
  timetable_to_train_dict (flat_map written l) = Ok d /\ forall n info tt, In (n, (info, tt)) d -> tt <> x_blocks x.
Proof.
  exists [text_94766; MkText 94766 "IC - IC" "SZTYGAR" "departs Katowice" "to Lublin" [block "KO 9" None (Some "16:08")]].
  eexists. exists text_94766. split; [|split; [left; reflexivity|split; [reflexivity|]]].
  - destruct C35_case as (A & B & _). intros x [<-|[<-|[]]]; [exact A|]. destruct B as (_ & B). split; [cbn; lia|exact B].
  - intros n info tt [H|[]]. inversion H. discriminate.
Qed.
Print Assumptions C35_repeated_refuted.

(** ** C52: trains at a station *)

Lemma touches_ok st bs s tt : stations_apart st -> annotated st tt -> In (s, bs) st ->
  (touches bs tt = true <-> passes tt s).
Proof.
  intros [ND U] AN HS. unfold touches, passes. rewrite existsb_exists. split.
  - intros (r & Hr & Hb). exists r. split; auto. apply (AN r s Hr). exists bs. split; auto.
    apply lmem_true. exact Hb.
  - intros (r & Hr & Es). exists r. split; auto. apply lmem_true. apply (AN r s Hr) in Es.
    destruct Es as (bs' & HS' & Hb). assert (bs' = bs); [|congruence].
    apply in_dget in HS; auto. apply in_dget in HS'; auto. congruence.
Qed.

Lemma ends_ok st bs s tt : stations_apart st -> annotated st tt -> In (s, bs) st ->
  (ends_in bs tt = true <-> ends_at tt s).
Proof.
  intros [ND U] AN HS. unfold ends_in, ends_at. destruct (rev tt) as [|r v] eqn:E.
  - split; [discriminate|]. intros (f & r & -> & _). rewrite rev_snoc in E. discriminate.
  - apply rev_cons_inv in E. assert (Hr : In r tt) by (rewrite E; apply in_app_iff; simpl; auto).
    split.
    + intros Hb. exists (rev v), r. split; auto. apply (AN r s Hr). exists bs. split; auto.
      apply lmem_true. exact Hb.
    + intros (f & w & E' & Es). rewrite E in E'. apply app_inj_tail in E' as [_ <-].
      apply lmem_true. apply (AN r s Hr) in Es. destruct Es as (bs' & HS' & Hb).
      assert (bs' = bs); [|congruence]. apply in_dget in HS; auto. apply in_dget in HS'; auto. congruence.
Qed.

Lemma filter_keys {K V} (eqk : forall a b : K, {a = b} + {a <> b}) (p : K * V -> bool) (d : list (K * V)) :
  NoDup (map fst d) -> exists keep, map fst (filter p d) = filter keep (map fst d).
Proof.
  intros ND. exists (fun k => existsb (fun e => (if eqk (fst e) k then true else false) && p e) d).
  assert (G : forall d', incl d' d -> NoDup (map fst d') ->
    map fst (filter p d') = filter (fun k => existsb (fun e => (if eqk (fst e) k then true else false) && p e) d) (map fst d')).
  2:{ apply G; auto. apply incl_refl. }
  assert (UQ : forall e e', In e d -> In e' d -> fst e = fst e' -> e = e').
  { clear -ND. induction d as [|x d IH]; simpl; [tauto|]. inversion ND; subst.
    intros e e' [<-|He] [<-|He'] E; auto.
    - exfalso. apply H1. rewrite E. apply in_map. exact He'.
    - exfalso. apply H1. rewrite <- E. apply in_map. exact He. }
  induction d' as [|e d' IH]; intros I N; simpl; auto. inversion N; subst.
  assert (I' : incl d' d) by (intros x Hx; apply I; right; exact Hx).
  assert (B : existsb (fun e0 => (if eqk (fst e0) (fst e) then true else false) && p e0) d = p e).
  { destruct (p e) eqn:P.
    - apply existsb_exists. exists e. split; [apply I; left; reflexivity|]. destruct (eqk (fst e) (fst e)); auto.
    - apply not_true_is_false. intros X. apply existsb_exists in X as (x & Hx & X).
      apply andb_true_iff in X as [X1 X2]. destruct (eqk (fst x) (fst e)) as [Q|]; [|discriminate].
      assert (x = e) by (apply UQ; auto; apply I; left; reflexivity). subst. congruence. }
  rewrite B. destruct (p e); simpl; [f_equal|]; apply IH; auto.
Qed.

(** Each station has exactly one list: the trains that pass it (with only_departue: and do not
    end there), in the order of the train dictionary. *)
Theorem C52_trains_at_station : forall td st only,
  NoDup (dkeys td) -> stations_apart st -> all_annotated st td ->
  dkeys (get_trains_at_station td st only) = dkeys st /\
  forall s l, dget s (get_trains_at_station td st only) = Some l ->
    (exists keep, l = filter keep (dkeys td)) /\
    forall t, In t l <->
      exists tt, runs td t tt /\ passes tt s /\ (only = true -> ~ ends_at tt s).
Proof.
  intros td st only ND SA AN. split.
  { unfold get_trains_at_station, dkeys. rewrite map_map. simpl. reflexivity. }
  intros s l H. apply dget_in in H. unfold get_trains_at_station in H.
  apply in_map_iff in H as ([s' bs] & E & HS). simpl in E. inversion E; subst s' l. clear E. split.
  { apply filter_keys; [apply Z.eq_dec|exact ND]. }
  intros t. rewrite in_map_iff. split.
  - intros ([t' [info tt]] & E & Hf). simpl in E. subst t'. apply filter_In in Hf as [Hin Hp].
    simpl in Hp. apply andb_true_iff in Hp as [Hp Ho]. exists tt.
    assert (AN' := AN _ _ _ Hin).
    split; [exists info; apply in_dget; auto|]. split; [apply (touches_ok st bs s tt); auto|].
    intros ->. simpl in Ho. intros HE. apply (ends_ok st bs s tt) in HE; auto. rewrite HE in Ho. discriminate.
  - intros (tt & (info & Hr) & Hp & Ho). apply dget_in in Hr. assert (AN' := AN _ _ _ Hr).
    exists (t, (info, tt)). split; auto. apply filter_In. split; auto. simpl.
    apply (touches_ok st bs s tt) in Hp; auto. rewrite Hp. simpl. destruct only; auto. simpl.
    destruct (ends_in bs tt) eqn:EE; auto. exfalso. apply Ho; auto. apply (ends_ok st bs s tt); auto.
Qed.
Print Assumptions C52_trains_at_station.

Lemma paths_get td t :
  dget t (get_Paths td) = option_map (fun e => train_important_stations (snd e)) (dget t td).
Proof. exact (dget_map (fun e : list string * table => train_important_stations (snd e)) td t). Qed.

(** get_J and get_Paths list the trains and, per train, its stations in the order of its rows *)
Theorem C52_paths : forall td,
  get_J td = dkeys td /\
  forall t tt, runs td t tt ->
    exists path, dget t (get_Paths td) = Some path /\
      (forall s, In s path <-> passes tt s) /\
      forall u s s' v, path = u ++ s :: s' :: v ->
        exists a r b r' c, tt = a ++ r :: b ++ r' :: c /\
          r_station r = Some s /\ r_station r' = Some s' /\ forall x, In x b -> r_station x = None.
Proof.
  intros td. split; [reflexivity|]. intros t tt (info & H). exists (train_important_stations tt).
  split; [|split].
  - rewrite paths_get, H. reflexivity.
  - intros s. apply stations_in.
  - intros u s s' v E. apply stations_split in E as (a & r & b & -> & Er & _ & Eb).
    apply (stations_split b [] s' v) in Eb as (b1 & r' & c & -> & Er' & E1 & _).
    exists a, r, b1, r', c. repeat split; auto. intros x Hx.
    destruct (r_station x) as [z|] eqn:Z; auto. exfalso.
    assert (P : In z (train_important_stations b1)) by (apply stations_in; exists x; auto).
    rewrite E1 in P. destruct P.
Qed.
Print Assumptions C52_paths.

(** Three trains over A, B, C; the third one starts in B. *)
Definition at_ (b : string) (s : option string) : row :=
  MkRow b (Some "R") None None None None None None (Some 2) s.
Definition abc_st : station_blocks := [("A", ["a1"; "a2"]); ("B", ["b1"; "b2"]); ("C", ["c1"])].
Definition abc_td : train_dict :=
  [(11%Z, (["KS - Os"], [at_ "a1" (Some "A"); at_ "x" None; at_ "b1" (Some "B"); at_ "y" None; at_ "c1" (Some "C")]));
   (12%Z, (["IC - IC"], [at_ "c1" (Some "C"); at_ "y" None; at_ "b1" (Some "B")]));
   (13%Z, (["IC - IC"], [at_ "b2" (Some "B"); at_ "y" None; at_ "c1" (Some "C"); at_ "z" None]))].

Lemma abc_apart : stations_apart abc_st.
Proof.
  split; [repeat constructor; simpl; intuition discriminate|].
  intros b s s' (l & H & Hb) (l' & H' & Hb'). simpl in H, H'.
  repeat (destruct H as [H|H]; [inversion H; subst; clear H|]); try tauto;
  repeat (destruct H' as [H'|H']; [inversion H'; subst; clear H'|]); try tauto; auto;
  simpl in Hb, Hb'; intuition (subst; discriminate).
Qed.

Lemma abc_annotated : all_annotated abc_st abc_td.
Proof.
  intros t info tt H r s Hr. simpl in H.
  assert (X : forall b s, in_station abc_st b s <->
     ((b = "a1" \/ b = "a2") /\ s = "A") \/ ((b = "b1" \/ b = "b2") /\ s = "B") \/ (b = "c1" /\ s = "C")).
  { intros b z. split.
    - intros (l & [H1|[H1|[H1|[]]]] & H2); inversion H1; subst; simpl in H2; intuition.
    - intros [[[->| ->] ->]|[[[->| ->] ->]|[-> ->]]]; 
        [exists ["a1"; "a2"] | exists ["a1"; "a2"] | exists ["b1"; "b2"] | exists ["b1"; "b2"]
        | exists ["c1"]]; simpl; auto. }
  rewrite X. repeat (destruct H as [H|H]; [inversion H; subst; clear H|]); try tauto;
  simpl in Hr; repeat (destruct Hr as [Hr|Hr]; [subst r; cbn; intuition (try congruence)|]); try tauto.
Qed.

Example C52_case :
  NoDup (dkeys abc_td) /\ stations_apart abc_st /\ all_annotated abc_st abc_td /\
  get_trains_at_station abc_td abc_st true = [("A", [11%Z]); ("B", [11%Z; 13%Z]); ("C", [12%Z; 13%Z])] /\
  get_trains_at_station abc_td abc_st false =
    [("A", [11%Z]); ("B", [11%Z; 12%Z; 13%Z]); ("C", [11%Z; 12%Z; 13%Z])].
Proof.
  split; [repeat constructor; simpl; intuition discriminate|]. split; [apply abc_apart|].
  split; [apply abc_annotated|]. split; reflexivity.
Qed.

(** ** C47: skipped stations *)

Lemma skip_fold td : forall d0 d,
  NoDup (dkeys td) -> (forall t, In t (dkeys td) -> ~ In t (dkeys d0)) ->
  foldM (fun d (e : Z * (list string * table)) =>
    do w <- last1 (snd (snd e));
    match r_station w with Some s => Ok (dset (fst e) s d) | None => Ok d end) td d0 = Ok d ->
  forall t s, dget t d = Some s <->
    dget t d0 = Some s \/ exists tt, runs td t tt /\ ends_at tt s.
Proof.
  induction td as [|[t0 [info tt0]] td IH]; intros d0 d ND F H t s; simpl in H.
  - inversion H; subst. split; [auto|]. intros [X|(tt & (i & X) & _)]; [auto|discriminate].
  - inv_bind H. inv_bind E. apply last1_ok in E0 as (f & ->). inversion ND; subst.
    assert (R : forall x tt, runs ((t0, (info, f ++ [a0])) :: td) x tt <->
              (x = t0 /\ tt = f ++ [a0]) \/ (x <> t0 /\ runs td x tt)).
    { intros x tt. unfold runs. simpl. destruct (eq_dec x t0) as [->|N].
      - split; [intros (i & X); inversion X; auto|]. intros [[_ ->]|[X _]]; [exists info; auto|congruence].
      - split; [intros X; right; auto|]. intros [[X _]|[_ X]]; [congruence|auto]. }
    assert (K : forall x tt, runs td x tt -> In x (dkeys td)).
    { intros x tt (i & X). apply dget_in in X. apply in_map_iff. eexists; split; [|exact X]. reflexivity. }
    assert (T0 : dget t0 d0 = None) by (apply dget_none; apply F; left; reflexivity).
    assert (EA : forall z, ends_at (f ++ [a0]) z <-> r_station a0 = Some z).
    { intros z. split.
      - intros (f' & r' & X & Y). apply app_inj_tail in X as [_ ->]. exact Y.
      - intros X. exists f, a0. auto. }
    assert (G : forall dd, Ok dd = Ok a ->
       (dd = match r_station a0 with Some z => dset t0 z d0 | None => d0 end) ->
       dget t d = Some s <-> dget t d0 = Some s \/
         exists tt, runs ((t0, (info, f ++ [a0])) :: td) t tt /\ ends_at tt s).
    { intros dd X Y. inversion X; subst a. clear X.
      assert (F' : forall x, In x (dkeys td) -> ~ In x (dkeys dd)).
      { intros x Hx. rewrite Y. destruct (r_station a0); [|apply F; right; exact Hx].
        rewrite dkeys_dset. destruct (dmem t0 d0); [apply F; right; exact Hx|].
        rewrite in_app_iff. intros [A|[->|[]]]; [apply (F x); [right; exact Hx|exact A]|]. apply H2. exact Hx. }
      rewrite (IH dd d H3 F' H). rewrite Y. destruct (r_station a0) as [z|] eqn:Z.
      - rewrite dget_dset. destruct (eq_dec t t0) as [->|N].
        + split.
          * intros [A|(tt & A & _)]; [|exfalso; apply H2; apply (K _ _ A)].
            inversion A; subst. right. exists (f ++ [a0]). rewrite R, EA. auto.
          * intros [A|(tt & A & B)]; [congruence|]. apply R in A as [[_ ->]|[A _]]; [|congruence].
            apply EA in B. left. congruence.
        + split; (intros [A|(tt & A & B)]; [auto|]); right; exists tt; (split; [|exact B]);
          [apply R; auto|apply R in A as [[A _]|[_ A]]; [congruence|auto]].
      - split; (intros [A|(tt & A & B)]; [auto|]); right; exists tt; (split; [|exact B]).
        + apply R. right. split; [|exact A]. intros ->. apply H2. apply (K _ _ A).
        + apply R in A as [[_ ->]|[_ A]]; [|exact A]. apply EA in B. congruence. }
    destruct (r_station a0) eqn:Z; apply (G _ E eq_refl).
Qed.

(** A train has a skipped station exactly if its last block belongs to a station; it is that
    station, and the last one of the train's path. *)
Theorem C47_skip : forall td d, NoDup (dkeys td) -> get_skip_stations td = Ok d ->
  forall t s, dget t d = Some s <->
    exists tt, runs td t tt /\ ends_at tt s.
Proof.
  intros td d ND H t s. rewrite (skip_fold td [] d ND (fun _ _ X => X) H t s). simpl.
  split; [intros [X|X]; [discriminate|exact X]|auto].
Qed.
Print Assumptions C47_skip.

Theorem C47_last_of_path : forall td d t s, NoDup (dkeys td) -> get_skip_stations td = Ok d ->
  dget t d = Some s -> exists front, dget t (get_Paths td) = Some (front ++ [s]).
Proof.
  intros td d t s ND H Hd. apply (C47_skip td d ND H) in Hd as (tt & (i & R) & f & r & -> & E).
  exists (train_important_stations f). rewrite paths_get, R. simpl.
  rewrite stations_app. simpl. rewrite E. reflexivity.
Qed.
Print Assumptions C47_last_of_path.

(** It fails only for an empty timetable. *)
Theorem C47_total : forall td, (forall t info tt, In (t, (info, tt)) td -> tt <> []) ->
  exists d, get_skip_stations td = Ok d.
Proof.
  intros td H. unfold get_skip_stations.
  destruct (foldM_total (fun _ : dict Z string => True)
    (fun d (e : Z * (list string * table)) =>
       do w <- last1 (snd (snd e));
       match r_station w with Some s => Ok (dset (fst e) s d) | None => Ok d end) td []) as (r & E & _);
    auto.
  - intros acc [t [info tt]] Hin _. cbn [snd fst]. specialize (H _ _ _ Hin).
    destruct (rev tt) as [|w v] eqn:E.
    + exfalso. apply H. rewrite <- (rev_involutive tt), E. reflexivity.
    + unfold last1. rewrite E. cbn [bind]. destruct (r_station w); eauto.
  - eauto.
Qed.
Print Assumptions C47_total.

Example C47_case : get_skip_stations abc_td = Ok [(11%Z, "C"); (12%Z, "B")].
Proof. reflexivity. Qed.

(** ** C49: path continuity *)

Lemma cells_pair net a b : (forall x, ~ In (x, x) net) -> a <> b ->
  existsb (forallb (cell_in [a; b])) (net_cells net) = true <-> adjacent net a b.
Proof.
  intros NS N. unfold net_cells. rewrite existsb_exists. split.
  - intros (c & Hc & E). apply in_map_iff in Hc as ([x y] & <- & Hin).
    cbn [forallb cell_in fst snd] in E. apply andb_true_iff in E as [X Y].
    apply andb_true_iff in Y as [Y _]. apply lmem_true in X. apply lmem_true in Y. simpl in X, Y.
    destruct X as [X|[X|[]]], Y as [Y|[Y|[]]]; rewrite <- X, <- Y in *; unfold adjacent; auto;
      exfalso; eapply NS; eassumption.
  - intros [H|H]; eexists; (split; [apply in_map; exact H|]); cbn [forallb cell_in fst snd];
    rewrite !andb_true_iff; repeat split; apply lmem_true; simpl; auto.
Qed.

Lemma cells_known net a :
  existsb (existsb (cell_in [a])) (net_cells net) = true <-> known_block net a.
Proof.
  unfold net_cells, known_block, adjacent. rewrite existsb_exists. split.
  - intros (c & Hc & E). apply in_map_iff in Hc as ([x y] & <- & Hin).
    cbn [existsb cell_in fst snd] in E. rewrite orb_false_r in E.
    apply orb_true_iff in E as [X|X]; apply lmem_true in X; destruct X as [X|[]];
      rewrite <- X in *; eauto.
  - intros (b & [H|H]); eexists; (split; [apply in_map; exact H|]); cbn [existsb cell_in fst snd];
    rewrite !orb_true_iff; [left|right; left]; apply lmem_true; simpl; auto.
Qed.

Lemma check_step a b rest net :
  check_path_continuity (a :: b :: rest) net =
    if negb (existsb (forallb (cell_in [a; b])) net) then
      if negb (existsb (existsb (cell_in [a])) net) then Err AssertionError
      else if negb (existsb (existsb (cell_in [b])) net) then Err AssertionError
      else check_path_continuity (b :: rest) net
    else check_path_continuity (b :: rest) net.
Proof. reflexivity. Qed.

(** What the check does: for a two-column network without loops it accepts a path without
    immediate repeats exactly if all its blocks (of a path of two blocks or more) are known;
    so it accepts every continuous path, and raises AssertionError only for a discontinuous
    one.  The full claim, that it accepts only continuous paths, is refuted below. *)
Theorem C49_known_blocks_partial : forall net path,
  (forall x, ~ In (x, x) net) -> (forall u a v, path <> u ++ a :: a :: v) ->
  (check_path_continuity path (net_cells net) = Ok tt <->
     ((List.length path <= 1)%nat \/ forall b, In b path -> known_block net b)) /\
  (check_path_continuity path (net_cells net) <> Ok tt ->
     check_path_continuity path (net_cells net) = Err AssertionError /\ ~ continuous net path) /\
  (continuous net path -> check_path_continuity path (net_cells net) = Ok tt).
Proof.
  intros net path NS NR.
  assert (G : (check_path_continuity path (net_cells net) = Ok tt /\
                ((List.length path <= 1)%nat \/ forall b, In b path -> known_block net b)) \/
              (check_path_continuity path (net_cells net) = Err AssertionError /\
               (1 < List.length path)%nat /\ (exists b, In b path /\ ~ known_block net b) /\
               ~ continuous net path)).
  { induction path as [|a path IH]; [left; simpl; auto|]. destruct path as [|b path]; [left; simpl; auto|].
    assert (NR' : forall u x v, b :: path <> u ++ x :: x :: v)
      by (intros u x v E; apply (NR (a :: u) x v); simpl; rewrite E; reflexivity).
    assert (AB : a <> b) by (intros ->; apply (NR [] b path); reflexivity).
    assert (CT : continuous net (a :: b :: path) -> adjacent net a b /\ continuous net (b :: path)).
    { intros C. split; [apply (C [] a b path); reflexivity|].
      intros u x y v E. apply (C (a :: u) x y v). simpl. rewrite E. reflexivity. }
    rewrite check_step.
    destruct (existsb (forallb (cell_in [a; b])) (net_cells net)) eqn:P; cbn [negb].
    - apply cells_pair in P; auto.
      assert (KA : known_block net a) by (exists b; exact P).
      assert (KB : known_block net b) by (exists a; destruct P; [right|left]; auto).
      destruct (IH NR') as [[E [L|K]]|(E & L & (c & Hc & NK) & C)].
      + left. split; auto. right. intros c [<-|Hc]; auto. destruct path; [|simpl in L; lia].
        destruct Hc as [<-|[]]; auto.
      + left. split; auto. right. intros c [<-|Hc]; auto.
      + right. split; auto. split; [simpl in *; lia|]. split; [exists c; split; [right; exact Hc|exact NK]|].
        intros C'. apply C. apply CT. exact C'.
    - assert (NA : ~ adjacent net a b) by (intros X; apply cells_pair in X; auto; congruence).
      destruct (existsb (existsb (cell_in [a])) (net_cells net)) eqn:Q; cbn [negb].
      + destruct (existsb (existsb (cell_in [b])) (net_cells net)) eqn:S; cbn [negb].
        * apply cells_known in Q. apply cells_known in S.
          destruct (IH NR') as [[E [L|K]]|(E & L & (c & Hc & NK) & C)].
          -- left. split; auto. right. intros c [<-|Hc]; auto. destruct path; [|simpl in L; lia].
             destruct Hc as [<-|[]]; auto.
          -- left. split; auto. right. intros c [<-|Hc]; auto.
          -- right. split; auto. split; [simpl in *; lia|]. split; [exists c; split; [right; exact Hc|exact NK]|].
             intros C'. apply C. apply CT. exact C'.
        * right. split; auto. split; [simpl; lia|]. split; [exists b; split; [simpl; auto|]|].
          -- intros X. apply cells_known in X. congruence.
          -- intros C. apply NA. apply CT. exact C.
      + right. split; auto. split; [simpl; lia|]. split; [exists a; split; [simpl; auto|]|].
        * intros X. apply cells_known in X. congruence.
        * intros C. apply NA. apply CT. exact C. }
  destruct G as [[E K]|(E & L & (b & Hb & NK) & C)]; rewrite E.
  - split; [tauto|]. split; [congruence|auto].
  - split; [split; [discriminate|]|].
    + intros [X|X]; [lia|]. exfalso. apply NK. apply X. exact Hb.
    + split; [auto|]. intros X. contradiction.
Qed.
Print Assumptions C49_known_blocks_partial.

Definition line_net : list (string * string) := [("a", "b"); ("b", "c"); ("d", "c")].

Example C49_case :
  (forall x, ~ In (x, x) line_net) /\
  check_path_continuity ["a"; "b"; "c"; "d"] (net_cells line_net) = Ok tt /\
  check_path_continuity ["a"; "b"; "q"] (net_cells line_net) = Err AssertionError.
Proof.
  split; [|split; reflexivity]. intros x [H|[H|[H|[]]]]; inversion H; subst; discriminate.
Qed.

(** A path that jumps between two blocks of the network passes the check. *)
Theorem C49_refuted : exists net path,
  (forall x, ~ In (x, x) net) /\ ~ continuous net path /\
  check_path_continuity path (net_cells net) = Ok tt.
Proof.
  exists line_net, ["a"; "d"]. split; [apply C49_case|]. split; [|reflexivity].
  intros C. destruct (C [] "a" "d" [] eq_refl) as [H|H]; simpl in H; intuition discriminate.
Qed.
Print Assumptions C49_refuted.

(** ** C51: common parts of two block lists *)

(** What is true: all that is returned occurs in both lists, in the order of the first list;
    it is a first part of the common elements, and all of them if the first list ends with a
    common element.  That the pieces are consecutive in the second list, and that every common
    run is returned, is refuted below. *)
Theorem C51_common_partial : forall l1 l2,
  let pieces := check_common_specific_elements_lists l1 l2 in
  (forall p, In p pieces -> p <> [] /\ forall x, In x p -> In x l1 /\ In x l2) /\
  (exists rest, filter (fun x => if in_dec string_dec x l2 then true else false) l1 = List.concat pieces ++ rest) /\
  (forall u y, l1 = u ++ [y] -> In y l2 ->
     filter (fun x => if in_dec string_dec x l2 then true else false) l1 = List.concat pieces) /\
  ((forall x, In x l1 -> ~ In x l2) -> pieces = []).
Proof.
  intros l1 l2 pieces.
  assert (C : filter (fun x => if in_dec string_dec x l2 then true else false) l1 = common_elements l1 l2).
  { unfold common_elements. apply filter_ext. intros x. destruct (in_dec string_dec x l2) as [i|n].
    - symmetry. apply lmem_true. exact i.
    - symmetry. apply lmem_false. exact n. }
  rewrite C. destruct (common_loop_prefix l2 l1 [] []) as (rest & E). simpl in E.
  split; [|split; [|split]].
  - intros p Hp. split; [apply (common_nonempty l2 l1 [] [] p); [intros q []|exact Hp]|].
    intros x Hx. assert (I : In x (common_elements l1 l2)).
    { rewrite E. apply in_app_iff. left. apply in_concat. exists p. auto. }
    apply filter_In in I as [I1 I2]. split; auto. apply lmem_true. exact I2.
  - exists rest. exact E.
  - intros u y -> Hy. apply lmem_true in Hy. pose proof (common_loop_whole l2 y Hy u [] []) as W.
    simpl in W. exact W.
  - intros H. apply (common_none l2 l1 [] []). exact H.
Qed.
Print Assumptions C51_common_partial.

Example C51_case :
  check_common_specific_elements_lists ["a"; "b"; "x"; "c"; "d"] ["b"; "c"; "d"; "e"; "a"]
    = [["a"; "b"]; ["c"; "d"]] /\
  check_common_specific_elements_lists ["b"; "c"] ["a"; "b"; "c"; "d"] = [["b"; "c"]].
Proof. split; reflexivity. Qed.

(** A piece that is no consecutive part of the second list *)
Theorem C51_consecutive_refuted : exists l1 l2 p,
  NoDup l1 /\ NoDup l2 /\
  In p (check_common_specific_elements_lists l1 l2) /\ ~ consecutive p l2.
Proof.
  exists ["a"; "c"], ["a"; "b"; "c"], ["a"; "c"].
  split; [repeat constructor; simpl; intuition discriminate|].
  split; [repeat constructor; simpl; intuition discriminate|].
  split; [vm_compute; auto|].
  intros (u & v & E). destruct u as [|x u]; [discriminate|]. destruct u as [|y u]; [discriminate|].
  destruct u as [|z u]; [discriminate|]. destruct u; discriminate.
Qed.
Print Assumptions C51_consecutive_refuted.

(** A common run that is not returned: the run is followed by a block of the first list alone *)
Theorem C51_complete_refuted : exists l1 l2 p,
  NoDup l1 /\ NoDup l2 /\ p <> [] /\ consecutive p l1 /\ consecutive p l2 /\
  check_common_specific_elements_lists l1 l2 = [].
Proof.
  exists ["a"; "b"; "x"], ["a"; "b"; "y"], ["a"; "b"].
  split; [repeat constructor; simpl; intuition discriminate|].
  split; [repeat constructor; simpl; intuition discriminate|].
  split; [discriminate|]. split; [exists [], ["x"]; reflexivity|]. split; [exists [], ["y"]; reflexivity|].
  reflexivity.
Qed.
Print Assumptions C51_complete_refuted.

(** ** C48: passing times of the right direction *)

Lemma passing_times_ok tt net ts : passing_times tt net = Ok ts ->
  (tt <> [] -> List.length ts = List.length tt) /\
  forall u a b v, tt = u ++ a :: b :: v ->
    exists t, nth_error ts (List.length u) = Some t /\
      single_passing_time (r_block a) (r_block b) (r_speed a) net = Ok t.
Proof.
  revert ts; induction tt as [|x tt IH]; intros ts H.
  - split; [congruence|]. intros u a b v E. destruct u; discriminate.
  - destruct tt as [|y tt].
    + simpl in H. inversion H; subst. split; [reflexivity|]. intros u a b v E.
      destruct u as [|p [|q u]]; discriminate.
    + cbn [passing_times] in H. inv_bind H. inv_bind H. inversion H; subst.
      destruct (IH _ E0) as [L K]. split; [intros _; simpl; rewrite L by discriminate; reflexivity|].
      intros u c d v EQ. destruct u as [|p u]; simpl in EQ; inversion EQ; subst.
      * exists a. auto.
      * destruct (K u c d v H2) as (t & N & S). exists t. auto.
Qed.

Lemma passing_times_last tt net ts : passing_times tt net = Ok ts -> exists w, ts = w ++ [None].
Proof.
  revert ts; induction tt as [|x tt IH]; intros ts H.
  - simpl in H. inversion H. exists []. reflexivity.
  - destruct tt as [|y tt].
    + simpl in H. inversion H. exists []. reflexivity.
    + cbn [passing_times] in H. inv_bind H. inv_bind H. inversion H; subst.
      destruct (IH _ E0) as (w & ->). exists (a :: w). reflexivity.
Qed.

Lemma nth_error_combine {A B} (l : list A) (m : list B) i x y :
  nth_error (combine l m) i = Some (x, y) -> nth_error l i = Some x /\ nth_error m i = Some y.
Proof.
  revert m i; induction l as [|a l IH]; intros [|b m] [|i]; simpl; try discriminate.
  - intros H; inversion H; auto.
  - apply IH.
Qed.

Lemma Forall2_impl {A B} (R S : A -> B -> Prop) l m :
  (forall x y, R x y -> S x y) -> Forall2 R l m -> Forall2 S l m.
Proof. intros I F; induction F; constructor; auto. Qed.

Lemma single_right net a b k t : one_row_each net ->
  single_passing_time a b k net = Ok t ->
  exists n kind, In n net /\ k = Some kind /\ time_from_to n kind a b t.
Proof.
  intros [NL U] H. unfold single_passing_time in H.
  set (P := fun n => lmem (n_prev n) [a; b] && lmem (n_next n) [a; b]) in *.
  destruct (filter P net) as [|n rest] eqn:F; [discriminate|].
  assert (HP : forall x, In x (n :: rest) ->
     In x net /\ ((n_prev x = a /\ n_next x = b) \/ (n_prev x = b /\ n_next x = a)) /\ a <> b).
  { intros x Hx. rewrite <- F in Hx. apply filter_In in Hx as [Hx HPx]. split; auto.
    unfold P in HPx. apply andb_true_iff in HPx as [X Y]. apply lmem_true in X. apply lmem_true in Y.
    specialize (NL x Hx). simpl in X, Y.
    destruct X as [X|[X|[]]], Y as [Y|[Y|[]]]; rewrite <- X, <- Y in *; try congruence;
      (split; [tauto|congruence]). }
  assert (R : rest = []).
  { destruct rest as [|n' rest]; auto. exfalso.
    assert (S : exists u v w, net = u ++ n :: v ++ n' :: w).
    { clear -F. revert F. generalize net as l. induction l as [|x l IH]; simpl; [discriminate|].
      destruct (P x).
      - intros E; inversion E; subst. apply filter_first in H1 as (v & w & -> & _). exists [], v, w. reflexivity.
      - intros E. destruct (IH E) as (u & v & w & ->). exists (x :: u), v, w. reflexivity. }
    destruct S as (u & v & w & S). destruct (U u n v n' w S) as [U1 U2].
    destruct (HP n (or_introl eq_refl)) as (_ & [[A B]|[A B]] & _);
    destruct (HP n' (or_intror (or_introl eq_refl))) as (_ & [[A' B']|[A' B']] & _);
      first [apply U1; split; congruence | apply U2; split; congruence]. }
  subst rest. destruct (HP n (or_introl eq_refl)) as (Hn & D & AB).
  simpl in H. rewrite !orb_false_r in H. destruct D as [[A B]|[A B]].
  - rewrite A, eqb_refl in H. simpl in H. unfold get_path_type_colunm in H.
    destruct k as [k|]; [|discriminate]. exists n, k. split; auto. split; auto. left. split; auto. split; auto.
    destruct (string_dec k "R") as [->|NR]; [simpl in H; inversion H; auto|].
    destruct (string_dec k "IC") as [->|NI]; [simpl in H; inversion H; auto|].
    exfalso. revert H. clear -NR NI.
    destruct k as [|c k]; [discriminate|].
    destruct c as [[] [] [] [] [] [] [] []]; try discriminate; destruct k as [|c' k]; try discriminate;
      try (exfalso; apply NR; reflexivity);
      destruct c' as [[] [] [] [] [] [] [] []]; try discriminate; destruct k; try discriminate;
      exfalso; apply NI; reflexivity.
  - rewrite A, B in H. assert (E : eqb b a = false) by (apply eqb_false; congruence).
    rewrite E, eqb_refl in H. simpl in H. unfold get_path_type_colunm in H.
    destruct k as [k|]; [|discriminate]. exists n, k. split; auto. split; auto. right. split; auto. split; auto.
    destruct (string_dec k "R") as [->|NR]; [simpl in H; inversion H; auto|].
    destruct (string_dec k "IC") as [->|NI]; [simpl in H; inversion H; auto|].
    exfalso. revert H. clear -NR NI.
    destruct k as [|c k]; [discriminate|].
    destruct c as [[] [] [] [] [] [] [] []]; try discriminate; destruct k as [|c' k]; try discriminate;
      try (exfalso; apply NR; reflexivity);
      destruct c' as [[] [] [] [] [] [] [] []]; try discriminate; destruct k; try discriminate;
      exfalso; apply NI; reflexivity.
Qed.

(** Each row of an updated timetable is the given row with its block's station and a passing
    time, that of the network's row for this block and the next one, for the train's kind and
    the direction in which the train runs; the last row has none.  In particular a pair of
    neighbours without a row is refused.  This needs one row per pair of neighbours, see
    C48_two_rows_refuted. *)
Theorem C48_direction_partial : forall td net st td',
  one_row_each net -> stations_apart st -> update_all_timetables td net st = Ok td' ->
  Forall2 (fun e e' : Z * (list string * table) =>
      fst e' = fst e /\ fst (snd e') = fst (snd e) /\
      List.length (snd (snd e')) = List.length (snd (snd e)) /\
      annotated st (snd (snd e')) /\
      (forall i r', nth_error (snd (snd e')) i = Some r' -> exists r,
         nth_error (snd (snd e)) i = Some r /\ same_text r r') /\
      (forall u a b v, snd (snd e') = u ++ a :: b :: v ->
         exists n kind, In n net /\ r_speed a = Some kind /\
           time_from_to n kind (r_block a) (r_block b) (r_pass a)) /\
      (forall u a, snd (snd e') = u ++ [a] -> r_pass a = None)) td td'.
Proof.
  intros td net st td' OR SA H. apply mapM_ok in H.
  eapply Forall2_impl; [|exact H]. clear H.
  intros [t [info rows]] e' H. cbn [fst snd] in H. inv_bind H. inversion H; subst e'. clear H. cbn [fst snd].
  unfold update_timetable in E. destruct rows as [|r0 rows0] eqn:ER; [discriminate|].
  rewrite <- ER in *. assert (NE : rows <> []) by (rewrite ER; discriminate). clear ER r0 rows0.
  inv_bind E. inversion E; subst a. clear E. destruct (passing_times_ok _ _ _ E0) as [L K].
  specialize (L NE).
  set (f := fun rp : row * option Q => with_times (fst rp) (snd rp) (get_block_station (r_block (fst rp)) st)).
  split; auto. split; auto. split; [rewrite map_length, combine_length; lia|].
  assert (NTH : forall i r', nth_error (map f (combine rows a0)) i = Some r' ->
     exists r p, nth_error rows i = Some r /\ nth_error a0 i = Some p /\ r' = f (r, p)).
  { intros i r' N. rewrite nth_error_map in N. destruct (nth_error (combine rows a0) i) as [[r p]|] eqn:C; [|discriminate].
    inversion N; subst. exists r, p. apply nth_error_combine in C. tauto. }
  split; [|split; [|split]].
  - intros r s Hr. apply In_nth_error in Hr as (i & Hr). apply NTH in Hr as (x & p & _ & _ & ->).
    unfold f. cbn [with_times r_station r_block fst snd]. apply get_block_station_ok. exact SA.
  - intros i r' N. apply NTH in N as (r & p & N & _ & ->). exists r. split; auto. repeat split.
  - intros u a b v EQ.
    assert (Na : nth_error (map f (combine rows a0)) (List.length u) = Some a)
      by (rewrite EQ, nth_error_app2, Nat.sub_diag by lia; reflexivity).
    assert (Nb : nth_error (map f (combine rows a0)) (S (List.length u)) = Some b).
    { rewrite EQ, nth_error_app2 by lia. replace (S (List.length u) - List.length u)%nat with 1%nat by lia. reflexivity. }
    apply NTH in Na as (x & p & X & P & ->). apply NTH in Nb as (y & q & Y & _ & ->).
    apply nth_error_split in X as (u1 & w & RX & LU). rewrite RX in Y.
    rewrite nth_error_app2 in Y by lia. replace (S (List.length u) - List.length u1)%nat with 1%nat in Y by lia.
    destruct w as [|y' w]; [discriminate|]. simpl in Y. inversion Y; subst y'.
    destruct (K u1 x y w RX) as (t' & T & S). rewrite LU, P in T. inversion T; subst t'.
    unfold f. cbn [with_times r_block r_pass r_speed fst snd]. apply (single_right net); auto.
  - intros u a EQ.
    assert (Na : nth_error (map f (combine rows a0)) (List.length u) = Some a)
      by (rewrite EQ, nth_error_app2, Nat.sub_diag by lia; reflexivity).
    assert (LL : List.length (map f (combine rows a0)) = S (List.length u))
      by (rewrite EQ, app_length; simpl; lia).
    rewrite map_length, combine_length in LL. apply NTH in Na as (x & p & X & P & ->).
    unfold f. cbn [with_times r_pass snd]. apply (passing_times_last rows net a0) in E0 as (w & ->); auto.
    rewrite app_length in L, LL. simpl in L, LL.
    rewrite nth_error_app2 in P by lia. replace (List.length u - List.length w)%nat with 0%nat in P by lia.
    inversion P. reflexivity.
Qed.
Print Assumptions C48_direction_partial.

Definition plain_row (b k : string) : row := MkRow b (Some k) None None None None None None None None.
Definition line_rows : list netrow :=
  [MkNet "a1" "x" SwEmpty (Some 1) (Some 2) (Some 3) (Some 4);
   MkNet "b1" "x" SwEmpty (Some 5) (Some 6) (Some 7) (Some 8)].

Example C48_case :
  one_row_each line_rows /\
  update_all_timetables [(11%Z, (["KS - Os"], [plain_row "a1" "R"; plain_row "x" "R"; plain_row "b1" "R"]));
                         (12%Z, (["IC - IC"], [plain_row "b1" "IC"; plain_row "x" "IC"; plain_row "a1" "IC"]))]
    line_rows abc_st =
    Ok [(11%Z, (["KS - Os"], [with_times (plain_row "a1" "R") (Some 2) (Some "A");
                              with_times (plain_row "x" "R") (Some 8) None;
                              with_times (plain_row "b1" "R") None (Some "B")]));
        (12%Z, (["IC - IC"], [with_times (plain_row "b1" "IC") (Some 5) (Some "B");
                              with_times (plain_row "x" "IC") (Some 3) None;
                              with_times (plain_row "a1" "IC") None (Some "A")]))] /\
  update_all_timetables [(11%Z, (["KS - Os"], [plain_row "a1" "R"; plain_row "b1" "R"]))] line_rows abc_st
    = Err AssertionError.
Proof.
  split; [|split; reflexivity]. split.
  - intros n [<-|[<-|[]]]; discriminate.
  - intros u n v n' w E. destruct u as [|x [|y u]]; simpl in E; inversion E; subst.
    + destruct v as [|z v]; simpl in H1; inversion H1; subst.
      * split; intros [A B]; discriminate.
      * destruct v; discriminate.
    + destruct v; discriminate.
    + destruct u; discriminate.
Qed.

(** With a row for each direction, also one that agrees with the other, the time of the other
    direction is taken: the first row's times, read in the column of the second row. *)
Theorem C48_two_rows_refuted : exists net tt tt' a b v q n,
  (forall n n', In n net -> In n' net -> n_prev n = n_next n' -> n_next n = n_prev n' ->
     n_r_ab n = n_r_ba n' /\ n_ic_ab n = n_ic_ba n') /\
  update_timetable tt net [] = Ok tt' /\ tt' = a :: b :: v /\ r_pass a = Some q /\
  In n net /\ r_speed a = Some "R" /\
  n_prev n = r_block a /\ n_next n = r_block b /\ n_r_ab n <> Some q.
Proof.
  set (n1 := MkNet "b" "a" SwEmpty (Some 1) (Some 2) (Some 3) (Some 4)).
  set (n2 := MkNet "a" "b" SwEmpty (Some 3) (Some 4) (Some 1) (Some 2)).
  exists [n1; n2], [plain_row "a" "R"; plain_row "b" "R"].
  eexists. exists (with_times (plain_row "a" "R") (Some 2) None), (plain_row "b" "R"), [], 2%Q, n2.
  split.
  - intros n n' [<-|[<-|[]]] [<-|[<-|[]]]; simpl; intros A B; try discriminate; auto.
  - split; [reflexivity|]. split; [reflexivity|]. split; [reflexivity|]. split; [simpl; auto|].
    split; [reflexivity|]. split; [reflexivity|]. split; [reflexivity|]. simpl. intros A. inversion A.
Qed.
Print Assumptions C48_two_rows_refuted.

Lemma kind_column k prev : k = "R" \/ k = "IC" -> exists c, get_path_type_colunm (Some k) prev = Ok c.
Proof. intros [->| ->]; simpl; eauto. Qed.

(** A dictionary is accepted if every two consecutive blocks of a train have a row, written in
    either direction, and the train is of kind "R" or "IC" there. *)
Theorem C48_accepted : forall td net st,
  (forall t info tt, In (t, (info, tt)) td -> tt <> [] /\
     forall u a b v, tt = u ++ a :: b :: v ->
       (r_speed a = Some "R" \/ r_speed a = Some "IC") /\
       exists n, In n net /\ ((n_prev n = r_block a /\ n_next n = r_block b) \/
                              (n_prev n = r_block b /\ n_next n = r_block a))) ->
  exists td', update_all_timetables td net st = Ok td'.
Proof.
  intros td net st H. unfold update_all_timetables.
  assert (G : forall f : Z * (list string * table) -> res (Z * (list string * table)),
     (forall e, In e td -> exists y, f e = Ok y) -> exists ys, mapM f td = Ok ys).
  { clear. intros f. induction td as [|e td IH]; intros H; simpl; eauto.
    destruct (H e (or_introl eq_refl)) as (y & ->). cbn [bind].
    destruct IH as (ys & ->); [intros; apply H; right; auto|]. cbn [bind]. eauto. }
  apply G. intros [t [info rows]] Hin. destruct (H _ _ _ Hin) as [NE P]. clear H Hin G. cbn [fst snd].
  unfold update_timetable. destruct rows as [|r0 rows0] eqn:ER; [congruence|]. rewrite <- ER in *. clear ER NE.
  assert (X : exists ts, passing_times rows net = Ok ts).
  { clear r0 rows0. induction rows as [|x rows IH]; simpl; eauto. destruct rows as [|y rows]; eauto.
    destruct (P [] x y rows eq_refl) as [SP (n & Hn & D)].
    assert (S : exists q, single_passing_time (r_block x) (r_block y) (r_speed x) net = Ok q).
    { unfold single_passing_time.
      set (F := fun n0 => lmem (n_prev n0) [r_block x; r_block y] && lmem (n_next n0) [r_block x; r_block y]).
      assert (HF : In n (filter F net)).
      { apply filter_In. split; auto. unfold F. apply andb_true_iff.
        split; apply lmem_true; destruct D as [[D1 D2]|[D1 D2]]; rewrite ?D1, ?D2; simpl; auto. }
      destruct (filter F net) as [|n0 rest] eqn:EF; [destruct HF|]. rewrite <- EF in *.
      destruct (existsb (fun n1 => eqb (n_prev n1) (r_block x)) (filter F net)) eqn:E1.
      - cbn [bind]. destruct SP as [-> | ->]; simpl; eauto.
      - destruct D as [[D1 D2]|[D1 D2]].
        + exfalso. apply not_true_iff_false in E1. apply E1. apply existsb_exists. exists n.
          split; auto. rewrite D1. apply eqb_refl.
        + assert (E2 : existsb (fun n1 => eqb (n_next n1) (r_block x)) (filter F net) = true).
          { apply existsb_exists. exists n. split; auto. rewrite D2. apply eqb_refl. }
          rewrite E2. cbn [bind]. destruct SP as [-> | ->]; simpl; eauto. }
    destruct S as (q & S). rewrite S. cbn [bind].
    destruct IH as (ts & E); [intros u a b v EQ; apply (P (x :: u) a b v); rewrite EQ; reflexivity|].
    rewrite E. cbn [bind]. eauto. }
  destruct X as (ts & ->). cbn [bind]. eauto.
Qed.
Print Assumptions C48_accepted.

(** The error for a pair without a row *)
Theorem C48_unknown_pair : forall net a b kind,
  (forall n, In n net -> ~ (n_prev n = n_next n)) ->
  (forall n, In n net -> ~ (n_prev n = a /\ n_next n = b) /\ ~ (n_prev n = b /\ n_next n = a)) ->
  single_passing_time a b kind net = Err AssertionError.
Proof.
  intros net a b kind NL N. unfold single_passing_time.
  set (F := fun n0 => lmem (n_prev n0) [a; b] && lmem (n_next n0) [a; b]).
  rewrite (filter_none F net); [reflexivity|]. intros n Hn. unfold F. apply not_true_iff_false.
  intros X. apply andb_true_iff in X as [X Y]. apply lmem_true in X. apply lmem_true in Y. simpl in X, Y.
  specialize (NL n Hn). destruct (N n Hn) as [N1 N2].
  destruct X as [X|[X|[]]], Y as [Y|[Y|[]]]; subst; tauto || (apply NL; congruence) || auto.
Qed.
Print Assumptions C48_unknown_pair.
