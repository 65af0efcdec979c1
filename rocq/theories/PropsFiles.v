(** * PropsFiles: from the schedule file to the annotated timetables (C68) *)

From Coq Require Import List String Ascii ZArith QArith Bool Lia.
From Verif Require Import Base BaseFacts DataTables Pipeline SpecTables SpecSets SpecDurations SpecEnd TableFacts FileFacts PropsTables.
From Verif Require Import DataTables SpecTables SpecSets.
Import ListNotations.
Open Scope string_scope.
Open Scope list_scope.

Definition entry : Type := Z * (list string * table).

Lemma f2_map {A B C} (R : B -> C -> Prop) (f : A -> B) l m : Forall2 R (map f l) m -> Forall2 (fun x y => R (f x) y) l m.
Proof. revert m. induction l as [|x l IH]; intros m H; inversion H; subst; constructor; auto. Qed.

Lemma f2_nth {A B} (R : A -> B -> Prop) l m : List.length m = List.length l ->
  (forall i y, nth_error m i = Some y -> exists x, nth_error l i = Some x /\ R x y) -> Forall2 R l m.
Proof.
  revert m. induction l as [|x l IH]; intros [|y m] L H; try discriminate; constructor.
  - destruct (H 0%nat y eq_refl) as (x' & E & Rx). inversion E; subst. exact Rx.
  - apply IH; [cbn in L; lia|]. intros i z E. exact (H (S i) z E).
Qed.

(** Every train of the file, in its order, is in the dictionary under its number, with its four
    header fields, its blocks in order with all that the file says about them, the station of
    each block, and the time of the network table for the way to the next block. *)
Theorem C68_read : forall l net st td,
  (forall x, In x l -> well_written x) -> NoDup (map x_number l) -> one_row_each net -> stations_apart st ->
  build_timetables (flat_map written l) st net = Ok td ->
  Forall2 (fun x (e : Z * (list string * table)) =>
    fst e = x_number x /\ fst (snd e) = [x_kind x; x_name x; x_from x; x_to x] /\
    Forall2 same_text (x_blocks x) (snd (snd e)) /\ annotated st (snd (snd e)) /\
    (forall u a b v, snd (snd e) = u ++ a :: b :: v ->
       exists n kind, In n net /\ r_speed a = Some kind /\ time_from_to n kind (r_block a) (r_block b) (r_pass a)) /\
    (forall u a, snd (snd e) = u ++ [a] -> r_pass a = None)) l td.
Proof.
  intros l net st td W ND OR SA H. unfold build_timetables in H. rewrite (C35_round_trip_partial l W ND) in H. cbn [bind] in H.
  apply (C48_direction_partial _ _ _ _ OR SA) in H. apply f2_map in H. eapply Forall2_impl; [|exact H]. clear H.
  intros x e (E1 & E2 & L & AN & T & P & Z). cbn [fst snd] in *. do 2 (split; [assumption|]). split; [apply f2_nth; auto|]. auto.
Qed.
Print Assumptions C68_read.

(** The file is accepted if every train has a block and every two consecutive blocks have a row of
    the network table and the kind "R" or "IC". *)
Theorem C68_accepted : forall l net st,
  (forall x, In x l -> well_written x) -> NoDup (map x_number l) ->
  (forall x, In x l -> x_blocks x <> [] /\
     forall u a b v, x_blocks x = u ++ a :: b :: v ->
       (r_speed a = Some "R" \/ r_speed a = Some "IC") /\
       exists n, In n net /\ ((n_prev n = r_block a /\ n_next n = r_block b) \/
                              (n_prev n = r_block b /\ n_next n = r_block a))) ->
  exists td, build_timetables (flat_map written l) st net = Ok td.
Proof.
  intros l net st W ND K. unfold build_timetables. rewrite (C35_round_trip_partial l W ND). cbn [bind]. apply C48_accepted.
  intros t info tt I. apply in_map_iff in I as (x & E & I). inversion E; subst. apply K. exact I.
Qed.
Print Assumptions C68_accepted.

(** No train of the file uses a block twice or two blocks of a station. *)
Definition neat (st : station_blocks) (x : train_text) : Prop :=
  NoDup (map r_block (x_blocks x)) /\
  forall u r v r' w s, x_blocks x = u ++ r :: v ++ r' :: w -> in_station st (r_block r) s -> ~ in_station st (r_block r') s.

Lemma same_blocks l m : Forall2 same_text l m -> map r_block m = map r_block l.
Proof. intros H. induction H as [|x y l m S H IH]; cbn; [reflexivity|]. destruct S as [-> _]. rewrite IH. reflexivity. Qed.

Lemma f2_app_inv {A B} (R : A -> B -> Prop) l m m' : Forall2 R l (m ++ m') -> exists a a', l = a ++ a' /\ Forall2 R a m /\ Forall2 R a' m'.
Proof. intros H. apply Forall2_app_inv_r in H as (a & a' & H1 & H2 & ->). eauto. Qed.

(** The dictionary made from such a file has what C56-C61 need. *)
Theorem C68_tidy : forall l net st td,
  (forall x, In x l -> well_written x) -> NoDup (map x_number l) -> one_row_each net -> stations_apart st -> blocks_once st ->
  (forall s, In s (dkeys st) -> s <> "" /\ s <> "None" /\ no_underscore s) ->
  (forall x, In x l -> neat st x) ->
  build_timetables (flat_map written l) st net = Ok td -> tidy td st.
Proof.
  intros l net st td W ND OR SA BO NM NE H. pose proof (C68_read l net st td W ND OR SA H) as F.
  assert (X : forall e, In e td -> exists x, In x l /\ Forall2 same_text (x_blocks x) (snd (snd e)) /\ annotated st (snd (snd e))).
  { clear - F. intros e I. induction F as [|x y l m S F IH]; [destruct I|]. destruct I as [<-|I].
    - exists x. split; [left; reflexivity|]. destruct S as (_ & _ & S1 & S2 & _). auto.
    - destruct (IH I) as (x' & Ix & Y). exists x'. split; [right; exact Ix|exact Y]. }
  constructor; auto.
  - assert (E : dkeys td = map x_number l); [|rewrite E; exact ND].
    clear - F. induction F as [|x y l m S F IH]; cbn; [reflexivity|]. destruct S as [-> _]. f_equal. exact IH.
  - intros t info tt I. destruct (X _ I) as (x & _ & _ & AN). exact AN.
  - intros t tt (info & R) u r v r' w s E S S'. apply dget_in in R. destruct (X _ R) as (x & Ix & ST & AN). cbn [fst snd] in *.
    destruct (NE x Ix) as [_ N]. rewrite E in ST.
    apply f2_app_inv in ST as (u0 & t0 & E0 & _ & S1). inversion S1 as [|r0 ? t1 ? SR S2]; subst.
    apply f2_app_inv in S2 as (v0 & t2 & -> & _ & S3). inversion S3 as [|r0' ? w0 ? SR' S4]; subst.
    refine (N u0 r0 v0 r0' w0 s E0 _ _).
    + destruct SR as [<- _]. apply (AN r s); [apply in_or_app; right; left; reflexivity|exact S].
    + destruct SR' as [<- _]. apply (AN r' s); [apply in_or_app; right; right; apply in_or_app; right; left; reflexivity|exact S'].
  - intros t tt (info & R). apply dget_in in R. destruct (X _ R) as (x & Ix & ST & _). cbn [fst snd] in *. rewrite (same_blocks _ _ ST).
    apply NE, Ix.
Qed.
Print Assumptions C68_tidy.

(** ** A case *)

Definition text_94 : train_text :=
  MkText 94 "KS - Os" "S5" "from Zwardon" "to Katowice"
    [MkRow "a1" (Some "R") None (Some "15:47") None (Some "Ty") None (Some 4) None None; block "x" None None; block "b1" (Some "15:59") None].
Definition text_42 : train_text :=
  MkText 42 "IC - IC" "SZTYGAR" "departs Katowice" "to Lublin"
    [MkRow "b1" (Some "IC") None (Some "16:08") None None None None None None;
     MkRow "x" (Some "IC") None None None None (Some "Y") None None None].

Example C68_case :
  (forall x, In x [text_94; text_42] -> well_written x /\ neat abc_st x) /\ one_row_each line_rows /\ stations_apart abc_st /\
  build_timetables (flat_map written [text_94; text_42]) abc_st line_rows =
    Ok [(94%Z, (["KS - Os"; "S5"; "from Zwardon"; "to Katowice"],
          [MkRow "a1" (Some "R") None (Some "15:47") None (Some "Ty") None (Some 4) (Some 2) (Some "A");
           MkRow "x" (Some "R") None None None None None None (Some 8) None;
           MkRow "b1" (Some "R") (Some "15:59") None None None None None None (Some "B")]));
        (42%Z, (["IC - IC"; "SZTYGAR"; "departs Katowice"; "to Lublin"],
          [MkRow "b1" (Some "IC") None (Some "16:08") None None None None (Some 5) (Some "B");
           MkRow "x" (Some "IC") None None None None (Some "Y") None None None]))].
Proof.
  assert (SA : stations_apart abc_st).
  { split; [cbn; repeat constructor; cbn; intuition discriminate|].
    intros b s s' (bs & I & B) (bs' & I' & B'). cbn in I, I'.
    repeat (destruct I as [I|I]; [inversion I; subst; clear I|]); try destruct I;
    repeat (destruct I' as [I'|I']; [inversion I'; subst; clear I'|]); try destruct I'; try reflexivity; exfalso;
    cbn in B, B'; repeat (destruct B as [<-|B]; [cbn in B'; intuition discriminate|]); destruct B. }
  split; [|split; [apply C48_case|split; [exact SA|reflexivity]]].
  intros x I. split.
  - destruct I as [<-|[<-|[]]]; (split; [cbn; lia|]; split; [|split; [|split; [|split]]]).
    + split; [intros N; apply isnumeric_iff in N; discriminate|]. split; intros (r & E); discriminate.
    + split; [intros N; apply isnumeric_iff in N; discriminate|]. split; intros (r & E); discriminate.
    + left. exists " Zwardon". reflexivity.
    + left. exists " Katowice". reflexivity.
    + intros r [<-|[<-|[<-|[]]]]; (split; [split; [intros N; apply isnumeric_iff in N; discriminate|split; intros (q & E); discriminate]|]);
        repeat split; intros (q & E); discriminate.
    + split; [intros N; apply isnumeric_iff in N; discriminate|]. split; intros (r & E); discriminate.
    + split; [intros N; apply isnumeric_iff in N; discriminate|]. split; intros (r & E); discriminate.
    + right. exists "rts Katowice". reflexivity.
    + left. exists " Lublin". reflexivity.
    + intros r [<-|[<-|[]]]; (split; [split; [intros N; apply isnumeric_iff in N; discriminate|split; intros (q & E); discriminate]|]);
        repeat split; intros (q & E); discriminate.
  - assert (G : forall l : list row, NoDup (filter (fun o => negb (eqb o None)) (map (fun r => get_block_station (r_block r) abc_st) l)) ->
      forall u r v r' w s, l = u ++ r :: v ++ r' :: w -> in_station abc_st (r_block r) s -> ~ in_station abc_st (r_block r') s).
    { intros l ND u r v r' w s -> I1 I2. apply (get_block_station_ok _ _ _ SA) in I1, I2. rewrite map_app, filter_app in ND.
      apply NoDup_remove_2 with (a := Some s) (l := filter (fun o => negb (eqb o None)) (map (fun r => get_block_station (r_block r) abc_st) u))
        (l' := filter (fun o => negb (eqb o None)) (map (fun r => get_block_station (r_block r) abc_st) (v ++ r' :: w))).
      - cbn [map filter] in ND. rewrite I1 in ND. exact ND.
      - apply in_or_app. right. apply filter_In. split; [|reflexivity]. apply in_map_iff. exists r'. split; [exact I2|].
        apply in_or_app. right. left. reflexivity. }
    destruct I as [<-|[<-|[]]]; (split; [cbn; repeat constructor; cbn; intuition discriminate|]); apply G; cbn; repeat constructor; cbn; intuition discriminate.
Qed.
