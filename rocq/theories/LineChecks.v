(** * LineChecks: deciding how trains share lines

    Checkers with proofs that they are right, to be run on the tables of the repository. *)

From Coq Require Import List String Ascii ZArith QArith Bool Lia Lqa.
From Verif Require Import Base BaseFacts DataTables SpecDurations SpecEnd TableFacts SetFacts PropsTotalCases.
From Verif Require Import SpecTables SpecSets.
Import ListNotations.
Open Scope string_scope.
Open Scope list_scope.

(** Two trains share blocks of a line only if they go over all of it in the same direction, or in
    opposite directions with a rule that keeps them apart. *)
Definition lines_kept (td : train_dict) (st : station_blocks) (net : list netrow) : Prop :=
  forall j k tj tk s s2 l z z2 l' c, j <> k -> runs td j tj -> runs td k tk ->
    leaves tj s s2 l -> leaves tk z z2 l' -> In c l -> In c l' ->
    (z = s /\ z2 = s2 /\ l' = l) \/
    (z = s2 /\ z2 = s /\ l' = rev l /\ different_stock j k /\ guarded td st net s s2 tj tk).

Fixpoint station_at_end (tt : table) : option string :=
  match tt with [] => None | [r] => r_station r | _ :: rest => station_at_end rest end.

Lemma station_at_end_snoc f r : station_at_end (f ++ [r]) = r_station r.
Proof. induction f as [|x f IH]; [reflexivity|]. cbn. rewrite IH. destruct (f ++ [r]) eqn:E; [destruct f; discriminate|reflexivity]. Qed.

Lemma not_ends tt s : eqb (station_at_end tt) (Some s) = false -> ~ ends_at tt s.
Proof. intros E (f & r & -> & R). rewrite station_at_end_snoc, R, eqb_refl in E. discriminate. Qed.

Fixpoint firstb (l : list string) (s s2 : string) : bool :=
  match l with [] => false | x :: rest => if eqb x s then true else if eqb x s2 then false else firstb rest s s2 end.

Lemma firstb_ok st s s2 : firstb (dkeys st) s s2 = true -> listed_first st None s s2.
Proof.
  unfold listed_first. generalize (dkeys st). intros l. induction l as [|x l IH]; [discriminate|]. cbn.
  destruct (eqb x s) eqn:E1; [apply eqb_eq in E1; subst; intros _; exists [], l; split; [reflexivity|intros []]|].
  destruct (eqb x s2) eqn:E2; [discriminate|]. intros H. destruct (IH H) as (u & v & -> & X).
  exists (x :: u), v. split; [reflexivity|]. apply eqb_neq in E2. intros [Y|Y]; [congruence|contradiction].
Qed.

(** ** Switches a train goes over *)

Definition has_station (r : row) : bool := match r_station r with Some _ => true | None => false end.

Fixpoint ways_in (seen : bool) (tt : table) (s : string) : list (string * string) :=
  match tt with
  | r1 :: ((r :: _) as rest) =>
      let seen' := seen || has_station r1 in
      (if seen' && eqb (r_station r) (Some s) then [(r_block r1, r_block r)] else []) ++ ways_in seen' rest s
  | _ => []
  end.

Fixpoint ways_out (tt : table) (s : string) : list (string * string) :=
  match tt with
  | r :: ((r2 :: _) as rest) =>
      (if eqb (r_station r) (Some s) && existsb has_station rest then [(r_block r, r_block r2)] else []) ++ ways_out rest s
  | _ => []
  end.

Definition cell_list (c : swcell) : list Z :=
  match c with
  | SwOne n => [n]
  | SwMany l => l
  | SwFloat w f => w :: match int_of_str f with Ok z => [z] | Err _ => [] end
  | SwInt _ | SwEmpty => []
  end.

Definition over (net : list netrow) (ways : list (string * string)) : list Z :=
  flat_map (fun w => flat_map (fun n =>
    if (eqb (n_prev n) (fst w) && eqb (n_next n) (snd w)) || (eqb (n_prev n) (snd w) && eqb (n_next n) (fst w))
    then cell_list (n_switch n) else []) net) ways.

Lemma cell_list_ok c z : In z (cell_list c) -> cell_has c z.
Proof.
  destruct c; cbn; try tauto; [intros [<-|[]]; reflexivity|]. intros [<-|I]; [left; reflexivity|right].
  destruct (int_of_str _) as [y|]; [|destruct I]. destruct I as [<-|[]]. reflexivity.
Qed.

Lemma over_ok net ways z : In z (over net ways) -> exists a b n, In (a, b) ways /\ In n net /\ row_for n a b /\ cell_has (n_switch n) z.
Proof.
  intros I. unfold over in I. apply in_flat_map in I as ([a b] & I1 & I). apply in_flat_map in I as (n & I2 & I). cbn [fst snd] in I.
  destruct (_ || _) eqn:E; [|destruct I]. exists a, b, n. split; [exact I1|]. split; [exact I2|]. split; [|apply cell_list_ok; exact I].
  apply orb_true_iff in E as [E|E]; apply andb_true_iff in E as [E1 E2]; apply eqb_eq in E1, E2; [left|right]; auto.
Qed.

Lemma has_station_ok r : has_station r = true <-> r_station r <> None.
Proof. unfold has_station. destruct (r_station r); split; intros; congruence. Qed.

Lemma ways_in_ok tt s a b : forall seen, In (a, b) (ways_in seen tt s) ->
  exists pre r1 r post, tt = pre ++ r1 :: r :: post /\ r_station r = Some s /\ r_block r1 = a /\ r_block r = b /\
    (seen = true \/ exists r0, In r0 (pre ++ [r1]) /\ r_station r0 <> None).
Proof.
  induction tt as [|x tt IH]; intros seen I; [destruct I|]. destruct tt as [|y tt]; [destruct I|].
  cbn [ways_in] in I. apply in_app_iff in I as [I|I].
  - destruct (_ && _) eqn:E; [|destruct I]. destruct I as [I|[]]. injection I as <- <-. apply andb_true_iff in E as [E1 E2].
    exists [], x, y, tt. split; [reflexivity|]. split; [apply eqb_eq; exact E2|]. split; [reflexivity|]. split; [reflexivity|].
    apply orb_true_iff in E1 as [E1|E1]; [left; exact E1|right]. exists x. split; [left; reflexivity|apply has_station_ok; exact E1].
  - destruct (IH _ I) as (pre & r1 & r & post & E & A & B & C & D). exists (x :: pre), r1, r, post. rewrite E.
    split; [reflexivity|]. split; [exact A|]. split; [exact B|]. split; [exact C|].
    destruct D as [D|(r0 & D1 & D2)].
    + apply orb_true_iff in D as [D|D]; [left; exact D|right]. exists x. split; [left; reflexivity|apply has_station_ok; exact D].
    + right. exists r0. split; [right; exact D1|exact D2].
Qed.

Lemma ways_out_ok tt s a b : In (a, b) (ways_out tt s) ->
  exists pre r r2 post, tt = pre ++ r :: r2 :: post /\ r_station r = Some s /\ r_block r = a /\ r_block r2 = b /\
    exists r0, In r0 (r2 :: post) /\ r_station r0 <> None.
Proof.
  induction tt as [|x tt IH]; intros I; [destruct I|]. destruct tt as [|y tt]; [destruct I|].
  cbn [ways_out] in I. apply in_app_iff in I as [I|I].
  - destruct (_ && _) eqn:E; [|destruct I]. destruct I as [I|[]]. injection I as <- <-. apply andb_true_iff in E as [E1 E2].
    exists [], x, y, tt. split; [reflexivity|]. split; [apply eqb_eq; exact E1|]. split; [reflexivity|]. split; [reflexivity|].
    apply existsb_exists in E2 as (r0 & I0 & H0). exists r0. split; [exact I0|apply has_station_ok; exact H0].
  - destruct (IH I) as (pre & r & r2 & post & E & A & B & C & D). exists (x :: pre), r, r2, post. rewrite E.
    split; [reflexivity|]. split; [exact A|]. split; [exact B|]. split; [exact C|]. exact D.
Qed.

(** [tj] leaves [s] and [tk] comes to it over a common switch. *)
Definition crossb (net : list netrow) (s : string) (tj tk : table) : bool :=
  negb (lmem s ["KO(IC)"; "KO(KS)"; "KO(STM)"]) &&
  (let zs := over net (ways_in false tk s) in existsb (fun z => lmem z zs) (over net (ways_out tj s))).

Lemma crossb_ok net s tj tk : crossb net s tj tk = true -> switch_conflict net s tj "out" tk "in".
Proof.
  intros H. unfold crossb in H. apply andb_true_iff in H as [H1 H2]. apply negb_true_iff in H1. apply lmem_false in H1.
  assert (CT : forall tt label, counted tt s label).
  { intros tt label. split; [intros E; apply H1; subst; cbn; auto|]. split; [intros E; apply H1; subst; cbn; auto|].
    intros E. exfalso. apply H1. subst. cbn. auto. }
  apply existsb_exists in H2 as (z & Z1 & Z2). apply lmem_true in Z2.
  split; [apply CT|]. split; [apply CT|]. exists z. split; [right|left]; (split; [reflexivity|]).
  - apply over_ok in Z1 as (a & b & n & W & N & RF & CH). apply ways_out_ok in W as (pre & r & r2 & post & E & A & <- & <- & D).
    exists pre, r, r2, post, n. auto 8.
  - apply over_ok in Z2 as (a & b & n & W & N & RF & CH). apply ways_in_ok in W as (pre & r1 & r & post & E & A & <- & <- & [D|D]); [discriminate|].
    exists pre, r1, r, post, n. auto 8.
Qed.

Definition listedb (st : station_blocks) (s s2 : string) (tj tk : table) : bool :=
  (if negb (eqb (station_at_end tk) (Some s)) then firstb (dkeys st) s s2 else false) ||
  (if negb (eqb (station_at_end tj) (Some s2)) then firstb (dkeys st) s2 s else false).

Definition guardb (st : station_blocks) (net : list netrow) (s s2 : string) (tj tk : table) : bool :=
  if listedb st s s2 tj tk then true else crossb net s tj tk && crossb net s2 tk tj.

Lemma guardb_ok td st net s s2 tj tk : guardb st net s s2 tj tk = true -> guarded td st net s s2 tj tk.
Proof.
  unfold guardb. destruct (listedb st s s2 tj tk) eqn:G; intros H.
  - unfold listedb in G. apply orb_true_iff in G as [G|G].
    + left. destruct (eqb _ _) eqn:E; cbn [negb] in G; [discriminate|]. split; [apply not_ends; exact E|]. left. apply firstb_ok. exact G.
    + right. left. destruct (eqb _ _) eqn:E; cbn [negb] in G; [discriminate|]. split; [apply not_ends; exact E|]. left. apply firstb_ok. exact G.
  - right. right. apply andb_true_iff in H as [H1 H2]. split; apply crossb_ok; assumption.
Qed.

Definition stockb (j k : Z) : bool := negb (Z.eqb j k) && negb (Z.eqb k (j * 10 + 9)) && negb (Z.eqb j (k * 10 + 9)).

Lemma stockb_ok j k : stockb j k = true -> different_stock j k.
Proof.
  unfold stockb. rewrite !andb_true_iff, !negb_true_iff, !Z.eqb_neq. intros [[A B] C]. split; [exact A|].
  intros x [[-> ->]|[-> ->]]; lia.
Qed.

Definition stretch : Type := string * string * list string.

(** All stretches, with the train *)
Definition all_stretches (td : train_dict) : list (Z * table * stretch) :=
  flat_map (fun e => map (fun x => (fst e, snd (snd e), x)) (stretches None (snd (snd e)))) td.

Definition shareb (l l' : list string) : bool := existsb (fun c => lmem c l') l.

(** The stretch [b] is [a] in the other direction; all trains on [a] and [b] are kept apart. *)
Definition againstb (st : station_blocks) (net : list netrow) (all : list (Z * table * stretch)) (a b : stretch) : bool :=
  let '(s, s2, l) := a in
  let '(z, z2, l') := b in
  if eqb z s2 && eqb z2 s && eqb l' (rev l) then
    let back := filter (fun y => eqb (snd y) b) all in
    forallb (fun x => if eqb (snd x) a then
      forallb (fun y => stockb (fst (fst x)) (fst (fst y)) && guardb st net s s2 (snd (fst x)) (snd (fst y))) back else true) all
  else false.

Definition line_rulesb (td : train_dict) (st : station_blocks) (net : list netrow) : bool :=
  let all := all_stretches td in
  let ds := nodup eq_dec (map snd all) in
  forallb (fun a => forallb (fun b =>
    if negb (shareb (snd a) (snd b)) then true else if eqb a b then true else againstb st net all a b) ds) ds.

Lemma line_rulesb_ok td st net : line_rulesb td st net = true -> lines_kept td st net.
Proof.
  intros B j k tj tk s s2 l z z2 l' c NE Rj Rk Lj Lk Ij Ik. unfold line_rulesb in B.
  assert (X : forall t tt a b m, runs td t tt -> leaves tt a b m -> In (t, tt, (a, b, m)) (all_stretches td)).
  { intros t tt a b m (i & R) L. apply dget_in in R. apply in_flat_map. eexists. split; [exact R|]. apply in_map_iff.
    exists (a, b, m). split; [reflexivity|apply stretches_ok; exact L]. }
  apply (X _ _ _ _ _ Rj) in Lj. apply (X _ _ _ _ _ Rk) in Lk. clear X.
  assert (D : forall y, In y (all_stretches td) -> In (snd y) (nodup eq_dec (map snd (all_stretches td))))
    by (intros y I; apply nodup_In, in_map, I).
  rewrite forallb_forall in B. specialize (B _ (D _ Lj)). rewrite forallb_forall in B. specialize (B _ (D _ Lk)). cbn [fst snd] in B.
  assert (SH : shareb l l' = true) by (apply existsb_exists; exists c; split; [exact Ij|apply lmem_true; exact Ik]).
  rewrite SH in B. cbn [negb] in B. destruct (eqb (s, s2, l) (z, z2, l')) eqn:E.
  - left. apply eqb_eq in E. inversion E; subst. auto.
  - right. unfold againstb in B. destruct (_ && _) eqn:F in B; [|discriminate]. rewrite !andb_true_iff in F. destruct F as [[F1 F2] F3].
    apply eqb_eq in F1, F2, F3. split; [exact F1|]. split; [exact F2|]. split; [exact F3|].
    rewrite forallb_forall in B. specialize (B _ Lj). cbn [fst snd] in B. rewrite eqb_refl in B.
    rewrite forallb_forall in B. specialize (B (k, tk, (z, z2, l'))). cbn [fst snd] in B.
    apply andb_true_iff in B as [B1 B2]; [|apply filter_In; split; [exact Lk|cbn; apply eqb_refl]].
    split; [apply stockb_ok; exact B1|apply guardb_ok; exact B2].
Qed.

Definition nonnegb (td : train_dict) : bool := forallb (fun e => forallb (fun r => Qle_bool 0 (time_of r)) (snd (snd e))) td.

Lemma nonnegb_ok td t tt : nonnegb td = true -> runs td t tt -> nonneg_times tt.
Proof.
  intros B (i & R) r I. apply dget_in in R. unfold nonnegb in B. rewrite forallb_forall in B. apply B in R. cbn in R.
  rewrite forallb_forall in R. apply R in I. apply Qle_bool_iff. exact I.
Qed.
