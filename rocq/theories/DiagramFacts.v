(** * DiagramFacts: sorting of stops, stations of segments, statistics *)

From Coq Require Import List String Ascii ZArith QArith Qround Qabs Bool Lia Lqa Permutation.
From Verif Require Import Base BaseFacts Pipeline Diagrams SpecDiagrams.
Import ListNotations.
Open Scope string_scope.
Open Scope list_scope.

(** ** Sorting *)

Lemma insert_last l x : (forall y, In y l -> later (snd y) (snd x) = false) -> insert_stop x l = l ++ [x].
Proof.
  induction l as [|y l IH]; intros H; [reflexivity|]. cbn [insert_stop]. rewrite (H y (or_introl eq_refl)). cbn [app]. f_equal.
  apply IH. intros z I. apply H. right. exact I.
Qed.

(** Keys are in order already: nothing moves. *)
Lemma sorted_same l : (forall l1 a l2 b l3, l = l1 ++ a :: l2 ++ b :: l3 -> later (snd a) (snd b) = false) -> sorted_stops l = l.
Proof.
  unfold sorted_stops. intros H.
  assert (G : forall r acc, acc ++ r = l -> fold_left (fun acc x => insert_stop x acc) r acc = l).
  { induction r as [|x r IH]; intros acc E; [rewrite app_nil_r in E; exact E|]. cbn [fold_left]. rewrite insert_last.
    - apply IH. rewrite <- app_assoc. exact E.
    - intros y I. apply in_split in I as (u & v & ->). apply (H u y v x r). rewrite <- E, <- app_assoc. reflexivity. }
  apply G. reflexivity.
Qed.

(** ** Train paths *)

Definition arr_ (e : pv * option Z * option Z) := snd (fst e).
Definition dep_ (e : pv * option Z * option Z) := snd e.

(** Neighbouring stops in order of time *)
Fixpoint chain (l : list (pv * option Z * option Z)) : Prop :=
  match l with
  | [] => True
  | e :: r => (forall a d, arr_ e = Some a -> dep_ e = Some d -> (a <= d)%Z) /\
      match r with
      | [] => True
      | f :: _ => exists d a, dep_ e = Some d /\ arr_ f = Some a /\ (d <= a)%Z
      end /\ chain r
  end.

Lemma moments_cons e r : moments (e :: r) = given (arr_ e) ++ given (dep_ e) ++ moments r.
Proof. unfold moments, arr_, dep_. cbn [flat_map]. rewrite <- app_assoc. reflexivity. Qed.

(** All later times are at least the first arrival, when there is one. *)
Lemma chain_ge l : chain l -> forall e r a, l = e :: r -> arr_ e = Some a -> forall t, In t (moments l) -> (a <= t)%Z.
Proof.
  induction l as [|e l IH]; intros C f r a E A t I; [discriminate E|]. injection E as <- <-. destruct C as (C1 & C2 & C3).
  rewrite moments_cons, A in I. cbn [given app] in I. destruct I as [->|I]; [lia|]. apply in_app_or in I as [I|I].
  - destruct (dep_ e) as [d|] eqn:D; [|destruct I]. cbn in I. destruct I as [->|[]]. exact (C1 _ _ A eq_refl).
  - destruct l as [|f l]; [destruct I|]. destruct C2 as (d & b & D & B & L). specialize (C1 _ _ A D). specialize (IH C3 f l b eq_refl B t I). lia.
Qed.

Lemma never_back_cons a l : (forall b, In b l -> (a <= b)%Z) -> never_back l -> never_back (a :: l).
Proof.
  intros H N [|x l1] y l2 b l3 E; cbn [app] in E; injection E as E1 E2.
  - subst. apply H. apply in_or_app. right. left. reflexivity.
  - exact (N l1 y l2 b l3 E2).
Qed.

Lemma never_back_nil : never_back [].
Proof. intros [|x l1] y l2 b l3 E; discriminate E. Qed.

Lemma chain_never_back l : chain l -> never_back (moments l).
Proof.
  induction l as [|e l IH]; intros C; [exact never_back_nil|]. pose proof C as (C1 & C2 & C3). specialize (IH C3). rewrite moments_cons.
  assert (D : never_back (given (dep_ e) ++ moments l)).
  { destruct (dep_ e) as [d|] eqn:D; [|exact IH]. apply never_back_cons; [|exact IH]. intros t I. cbn [app] in I.
    destruct l as [|f l]; [destruct I|]. destruct C2 as (d' & b & D' & B & L). injection D' as <-. pose proof (chain_ge _ C3 f l b eq_refl B t I). lia. }
  destruct (arr_ e) as [a|] eqn:A; [|exact D]. apply never_back_cons; [|exact D]. intros t I.
  apply (chain_ge (e :: l) C e l a eq_refl A). rewrite moments_cons, A. right. exact I.
Qed.

(** Arrivals are in order, the first may be missing. *)
Lemma chain_arrivals l : chain l -> forall l1 e l2 f l3, l = l1 ++ e :: l2 ++ f :: l3 -> later (arr_ e) (arr_ f) = false.
Proof.
  induction l as [|g l IH]; intros C l1 e l2 f l3 E; [destruct l1; discriminate E|]. pose proof C as (C1 & C2 & C3).
  destruct l1 as [|h l1]; cbn [app] in E; injection E as E1 E2; [|exact (IH C3 l1 e l2 f l3 E2)]. subst g.
  destruct (arr_ e) as [a|] eqn:A; [|reflexivity].
  assert (B : exists b, arr_ f = Some b).
  { clear - E2 C2 C3. revert l C2 C3 E2. revert e. induction l2 as [|g l2 IH]; intros e l C2 C3 E2; subst l; cbn [app] in *.
    - destruct C2 as (d & b & _ & B & _). eauto.
    - destruct C3 as (_ & C4 & C5). apply (IH g _ C4 C5 eq_refl). }
  destruct B as (b & B). rewrite B. cbn [later]. apply Z.ltb_ge. apply (chain_ge (e :: l) C e l a eq_refl A). subst l. rewrite moments_cons.
  apply in_or_app. right. apply in_or_app. right. unfold moments. rewrite flat_map_app. apply in_or_app. right. cbn [flat_map].
  unfold arr_ in B. rewrite B. left. reflexivity.
Qed.

Lemma mapM_lookup (d : dict pv stop_entry) conflicted : NoDup (dkeys d) ->
  mapM (fun k => do e <- dlookup k d; Ok (k, arrival_of conflicted e, departure_of conflicted e)) (dkeys d) =
  Ok (map (fun kv => (fst kv, arrival_of conflicted (snd kv), departure_of conflicted (snd kv))) d).
Proof.
  intros N.
  assert (G : forall l, (forall kv, In kv l -> In kv d) ->
     mapM (fun k => do e <- dlookup k d; Ok (k, arrival_of conflicted e, departure_of conflicted e)) (map fst l) =
     Ok (map (fun kv => (fst kv, arrival_of conflicted (snd kv), departure_of conflicted (snd kv))) l)).
  { induction l as [|[k v] l IH]; intros H; [reflexivity|]. cbn [map mapM fst snd]. unfold dlookup at 1. rewrite (in_dget k v d N (H (k, v) (or_introl eq_refl))).
    cbn [bind]. rewrite IH; [reflexivity|]. intros kv I. apply H. right. exact I. }
  apply G. auto.
Qed.

Definition stops_of (conflicted : bool) (d : dict pv stop_entry) : list (pv * option Z * option Z) :=
  map (fun kv => (fst kv, arrival_of conflicted (snd kv), departure_of conflicted (snd kv))) d.

Lemma trainpath_chain j d conflicted : NoDup (dkeys d) -> chain (stops_of false d) ->
  kdtrain2trainpath j d conflicted = Ok (MkPath (str j) conflicted (dkeys d) (stops_of conflicted d)).
Proof.
  intros N C. unfold kdtrain2trainpath.
  assert (S : sorted_stops (map (fun kv => (fst kv, arrival_for_sort (snd kv))) d) = map (fun kv => (fst kv, arrival_for_sort (snd kv))) d).
  { apply sorted_same. intros l1 a l2 b l3 E. apply map_eq_app in E as (d1 & d2 & -> & E1 & E2).
    destruct d2 as [|x d2]; [discriminate E2|]. cbn [map] in E2. injection E2 as Ea E2. apply map_eq_app in E2 as (d3 & d4 & -> & E3 & E4).
    destruct d4 as [|y d4]; [discriminate E4|]. cbn [map] in E4. injection E4 as Eb _. subst a b. cbn [snd].
    unfold stops_of in C. rewrite map_app in C. cbn [map] in C. rewrite map_app in C. cbn [map] in C.
    exact (chain_arrivals _ C _ _ _ _ _ eq_refl). }
  rewrite S, map_map. cbn [fst]. change (map (fun x => fst x) d) with (dkeys d). rewrite (mapM_lookup d conflicted N). reflexivity.
Qed.

(** ** Words *)

Lemma code_bound a : (nat_of_ascii a < 256)%nat.
Proof. apply nat_ascii_bounded. Qed.

Lemma code_inj a b : nat_of_ascii a = nat_of_ascii b -> a = b.
Proof. intros E. rewrite <- (ascii_nat_embedding a), <- (ascii_nat_embedding b), E. reflexivity. Qed.

Lemma upper_code a : nat_of_ascii (upper_char a) =
  (if (Nat.leb 97 (nat_of_ascii a) && Nat.leb (nat_of_ascii a) 122)%bool then nat_of_ascii a - 32 else nat_of_ascii a)%nat.
Proof.
  unfold upper_char. destruct (_ && _)%bool; [|reflexivity]. apply nat_ascii_embedding. pose proof (code_bound a). lia.
Qed.

Lemma upper_same a b : upper_char a = upper_char b <-> same_letter a b.
Proof.
  pose proof (code_bound a) as Ba. pose proof (code_bound b) as Bb. split.
  - intros E. apply (f_equal nat_of_ascii) in E. rewrite !upper_code in E. unfold same_letter.
    destruct (Nat.leb 97 (nat_of_ascii a) && Nat.leb (nat_of_ascii a) 122)%bool eqn:La;
    destruct (Nat.leb 97 (nat_of_ascii b) && Nat.leb (nat_of_ascii b) 122)%bool eqn:Lb;
    rewrite ?andb_true_iff, ?andb_false_iff, ?Nat.leb_le, ?Nat.leb_gt in La; rewrite ?andb_true_iff, ?andb_false_iff, ?Nat.leb_le, ?Nat.leb_gt in Lb.
    + left. apply code_inj. lia.
    + right. exists (nat_of_ascii a - 97)%nat. split; [lia|]. right. split; apply code_inj; rewrite nat_ascii_embedding; lia.
    + right. exists (nat_of_ascii b - 97)%nat. split; [lia|]. left. split; apply code_inj; rewrite nat_ascii_embedding; lia.
    + left. apply code_inj. exact E.
  - intros [->|(i & Hi & H)]; [reflexivity|]. apply code_inj. rewrite !upper_code.
    assert (Eu : nat_of_ascii (ascii_of_nat (65 + i)) = (65 + i)%nat) by (apply nat_ascii_embedding; lia).
    assert (El : nat_of_ascii (ascii_of_nat (97 + i)) = (97 + i)%nat) by (apply nat_ascii_embedding; lia).
    assert (Lu : (Nat.leb 97 (65 + i) && Nat.leb (65 + i) 122)%bool = false) by (apply andb_false_iff; left; apply Nat.leb_gt; lia).
    assert (Ll : (Nat.leb 97 (97 + i) && Nat.leb (97 + i) 122)%bool = true) by (apply andb_true_iff; split; apply Nat.leb_le; lia).
    destruct H as [[-> ->]|[-> ->]]; rewrite Eu, El, Lu, Ll; lia.
Qed.

Lemma upper_word v w : upper v = upper w <-> same_word v w.
Proof.
  split.
  - revert w. induction v as [|a v IH]; intros [|b w] E; cbn [upper] in E; try discriminate E; [constructor|].
    injection E as Ea Ev. constructor; [apply upper_same; exact Ea|apply IH; exact Ev].
  - induction 1 as [|a b v w L _ IH]; [reflexivity|]. cbn [upper]. apply upper_same in L. rewrite L, IH. reflexivity.
Qed.

Lemma matches_about s x : matches s x = true <-> about x (PStr s).
Proof.
  unfold matches, about. rewrite orb_true_iff, !eqb_true, !upper_word. split.
  - intros H. exists s. auto.
  - intros (t & E & H). injection E as <-. exact H.
Qed.

Lemma first_match (f : station_rec -> bool) l x r : filter f l = x :: r ->
  exists pre post, l = pre ++ x :: post /\ f x = true /\ forall y, In y pre -> f y = false.
Proof.
  induction l as [|a l IH]; cbn [filter]; intros E; [discriminate E|]. destruct (f a) eqn:F.
  - injection E as -> _. exists [], l. split; [reflexivity|]. split; [exact F|]. intros y [].
  - destruct (IH E) as (pre & post & -> & Fx & H). exists (a :: pre), post. split; [reflexivity|]. split; [exact Fx|]. intros y [<-|I]; auto.
Qed.

Lemma station2km_iff seg s km : station2km s seg = Ok km <-> lies_at seg s km.
Proof.
  unfold station2km, lies_at. destruct s as [|z|s].
  1,2: split; [discriminate|intros (l & pre & x & post & _ & _ & (w & E & _) & _); discriminate E].
  destruct (dget seg RAILWAYSEGMENTS) as [l|] eqn:G.
  - destruct (filter (matches s) l) as [|x r] eqn:F.
    + split; [discriminate|]. intros (l' & pre & x & post & E & -> & A & _). exfalso. injection E as ->.
      rewrite filter_app in F. cbn [filter] in F. apply matches_about in A. rewrite A in F. apply app_eq_nil in F as [_ F]. discriminate F.
    + destruct (first_match _ _ _ _ F) as (pre & post & -> & M & H). split.
      * intros E. injection E as <-. exists (pre ++ x :: post), pre, x, post. split; [reflexivity|]. split; [reflexivity|]. split; [apply matches_about; exact M|].
        split; [|reflexivity]. intros y I A. apply matches_about in A. rewrite (H y I) in A. discriminate A.
      * intros (l' & pre' & x' & post' & E & E' & A & N & <-). injection E as <-. f_equal. f_equal.
        assert (Q : filter (matches s) (pre' ++ x' :: post') = x :: r) by (rewrite <- E'; exact F).
        rewrite filter_app in Q. cbn [filter] in Q. apply matches_about in A. rewrite A in Q.
        assert (Z : filter (matches s) pre' = []).
        { clear - N. induction pre' as [|y l IH]; [reflexivity|]. cbn [filter]. destruct (matches s y) eqn:M.
          - apply matches_about in M. destruct (N y (or_introl eq_refl) M).
          - apply IH. intros z I. apply N. right. exact I. }
        rewrite Z in Q. cbn [app] in Q. congruence.
  - split; [discriminate|]. intros (l & pre & x & post & E & _). discriminate E.
Qed.

Lemma clock_minute t m : clock t = m <-> minute_of_day t m.
Proof.
  unfold clock, minute_of_day. split.
  - intros <-. split; [apply Z.mod_pos_bound; lia|]. exists (t / 1440)%Z. apply Z.div_mod. lia.
  - intros (B & day & ->). rewrite Z.mul_comm, Z.add_comm, Z.mod_add by lia. apply Z.mod_small. exact B.
Qed.

(** Points of a drawing *)
Lemma drawn_iff tp seg km m : In (km, m) (echo_gnuplot_train tp seg) <->
  exists s a d t, In (s, a, d) (tp_path tp) /\ lies_at seg s km /\ (a = Some t \/ d = Some t) /\ minute_of_day t m.
Proof.
  unfold echo_gnuplot_train. rewrite in_flat_map. split.
  - intros ([[s a] d] & I & H). destruct (station2km s seg) as [q|] eqn:K; [|destruct H]. apply in_app_or in H.
    assert (G : exists t, (a = Some t \/ d = Some t) /\ (q, clock t) = (km, m)).
    { destruct H as [H|H]; [destruct a as [t|]|destruct d as [t|]]; cbn in H; try (destruct H; fail); destruct H as [H|[]]; exists t; auto. }
    destruct G as (t & O & E). injection E as -> E. exists s, a, d, t. split; [exact I|]. split; [apply station2km_iff; exact K|]. split; [exact O|].
    apply clock_minute. exact E.
  - intros (s & a & d & t & I & L & O & M). apply station2km_iff in L. apply clock_minute in M. exists (s, a, d). split; [exact I|]. rewrite L. subst m.
    apply in_or_app. destruct O as [->| ->]; [left|right]; left; reflexivity.
Qed.

(** ** Statistics *)

Lemma inner_delays s (l : dict pv stop_entry) : forall delays, NoDup (dkeys l) ->
  let r := fold_left (fun delays s =>
      match k_secondary_delay (snd s) with
      | None => delays
      | Some current_delay =>
          match dget (fst s) delays with
          | Some v => dset (fst s) (v ++ [current_delay]) delays
          | None => dset (fst s) [current_delay] delays
          end
      end) l delays in
  let old := match dget s delays with Some v => v | None => [] end in
  let new := match dget s l with Some k => given (k_secondary_delay k) | None => [] end in
  dget s r = match new with [] => dget s delays | _ => Some (old ++ new) end.
Proof.
  induction l as [|[k e] l IH]; intros delays N; cbn [fold_left dget]; [reflexivity|]. cbn [fst snd dkeys map] in *.
  inversion N as [|? ? Nk Nl]; subst. change (map fst l) with (dkeys l) in *.
  set (delays' := match k_secondary_delay e with None => delays | Some c => match dget k delays with Some v => dset k (v ++ [c]) delays | None => dset k [c] delays end end).
  specialize (IH delays' Nl). cbv zeta in IH. cbv zeta. rewrite IH. clear IH.
  assert (D : dget s delays' = if eq_dec s k then match k_secondary_delay e with None => dget s delays | Some c => Some (match dget s delays with Some v => v | None => [] end ++ [c]) end else dget s delays).
  { unfold delays'. destruct (eq_dec s k) as [<-|n]; destruct (k_secondary_delay e) as [c|]; try reflexivity.
    - destruct (dget s delays); rewrite dget_dset; destruct (eq_dec s s); try congruence; reflexivity.
    - destruct (dget k delays); rewrite dget_dset; destruct (eq_dec s k); congruence. }
  rewrite D. clear D. destruct (eq_dec s k) as [->|n].
  - assert (Z : dget k l = None) by (apply dget_none; exact Nk). rewrite Z. destruct (k_secondary_delay e); reflexivity.
  - reflexivity.
Qed.

Lemma delays_collected s d : forall delays, (forall train, In train d -> NoDup (dkeys (snd train))) ->
  dget s (add_delays_one_realisation delays d) =
  match delays_at s d with [] => dget s delays | _ => Some (match dget s delays with Some v => v | None => [] end ++ delays_at s d) end.
Proof.
  induction d as [|[j l] d IH]; intros delays N; [reflexivity|]. unfold add_delays_one_realisation. cbn [fold_left].
  match goal with |- dget s (fold_left _ d ?x) = _ => set (delays' := x) end.
  match goal with |- _ = ?R => change (dget s (add_delays_one_realisation delays' d) = R) end. rewrite IH; [|intros t I; apply N; right; exact I].
  unfold delays_at. cbn [flat_map]. fold (delays_at s d).
  pose proof (inner_delays s l delays (N (j, l) (or_introl eq_refl))) as H. cbv zeta in H. cbn [snd] in delays'. fold delays' in H. cbn [snd] in *. rewrite H. clear H.
  set (new := match dget s l with Some k => given (k_secondary_delay k) | None => [] end).
  destruct new as [|n new]; cbn [app]; [reflexivity|]. destruct (delays_at s d) as [|x r] eqn:E; [rewrite app_nil_r; reflexivity|].
  rewrite <- app_assoc. reflexivity.
Qed.

(** Sorting of numbers *)
Lemma insert_z_perm x l : Permutation (insert_z x l) (x :: l).
Proof.
  induction l as [|y l IH]; [reflexivity|]. cbn [insert_z]. destruct (x <=? y)%Z; [reflexivity|]. rewrite IH. apply perm_swap.
Qed.
Lemma sort_z_perm l : Permutation (sort_z l) l.
Proof. induction l as [|x l IH]; [reflexivity|]. cbn. rewrite insert_z_perm, IH. reflexivity. Qed.

Definition ordered (l : list Z) : Prop := forall i j d, (i <= j < List.length l)%nat -> (nth i l d <= nth j l d)%Z.

Lemma ordered_cons x l : (forall y, In y l -> (x <= y)%Z) -> ordered l -> ordered (x :: l).
Proof.
  intros H O i j d B. destruct i as [|i], j as [|j]; cbn [nth List.length] in *; try lia.
  - apply H, nth_In. lia.
  - apply O. lia.
Qed.
Lemma ordered_tail x l : ordered (x :: l) -> ordered l /\ forall y, In y l -> (x <= y)%Z.
Proof.
  intros O. split.
  - intros i j d B. apply (O (S i) (S j) d). cbn. lia.
  - intros y I. apply (In_nth l y 0%Z) in I as (n & B & <-). apply (O 0%nat (S n) 0%Z). cbn. lia.
Qed.
Lemma insert_z_ordered x l : ordered l -> ordered (insert_z x l).
Proof.
  induction l as [|y l IH]; intros O; cbn [insert_z].
  - intros [|i] [|j] d B; cbn in *; lia.
  - destruct (ordered_tail _ _ O) as [O' H]. destruct (x <=? y)%Z eqn:E.
    + apply Z.leb_le in E. apply ordered_cons; [|exact O]. intros z [<-|I]; [exact E|]. specialize (H z I). lia.
    + apply Z.leb_gt in E. apply ordered_cons; [|apply IH; exact O']. intros z I.
      apply (Permutation_in _ (insert_z_perm x l)) in I. destruct I as [<-|I]; [lia|auto].
Qed.
Lemma sort_z_ordered l : ordered (sort_z l).
Proof. induction l as [|x l IH]; [intros i j d B; cbn in B; lia|]. cbn. apply insert_z_ordered, IH. Qed.
Lemma sort_z_length l : List.length (sort_z l) = List.length l.
Proof. apply Permutation_length, sort_z_perm. Qed.

Lemma count_perm (f : Z -> bool) l m : Permutation l m -> List.length (filter f l) = List.length (filter f m).
Proof.
  induction 1 as [|x l m P IH|x y l|l m n P1 IH1 P2 IH2]; cbn [filter]; [reflexivity| | |congruence].
  - destruct (f x); cbn; congruence.
  - destruct (f x), (f y); reflexivity.
Qed.

Lemma count_first (f : Z -> bool) l k : (k <= List.length l)%nat -> (forall i, (i < k)%nat -> f (nth i l 0%Z) = true) -> (k <= List.length (filter f l))%nat.
Proof.
  revert l. induction k as [|k IH]; intros [|x l] B H; cbn in *; try lia.
  rewrite (H 0%nat) by lia. cbn. apply le_n_S, IH; [lia|]. intros i Hi. apply (H (S i)). lia.
Qed.
Lemma count_last (f : Z -> bool) l k : (forall i, (k <= i < List.length l)%nat -> f (nth i l 0%Z) = true) -> (List.length l - k <= List.length (filter f l))%nat.
Proof.
  revert l. induction k as [|k IH]; intros l H.
  - rewrite Nat.sub_0_r. apply count_first; [lia|]. intros i Hi. apply H. lia.
  - destruct l as [|x l]; [cbn; lia|]. cbn [List.length Nat.sub]. assert (G : (List.length l - k <= List.length (filter f l))%nat) by (apply IH; intros i Hi; apply (H (S i)); cbn; lia).
    cbn [filter]. destruct (f x); cbn [List.length]; lia.
Qed.

(** Quantiles *)
Section Quantile.
  Context (l : list Z) (ne : l <> []).
  Let n := Z.of_nat (List.length l).
  Let v := sort_z l.
  Notation pos q := (q * inject_Z (n - 1)).
  Notation ix q := (Z.to_nat (Qfloor (pos q))).

  Lemma n_pos : (1 <= n)%Z.
  Proof. unfold n. destruct l; [congruence|]. cbn [List.length]. lia. Qed.

  Lemma pos_bounds q : 0 <= q -> q <= 1 -> 0 <= pos q /\ pos q <= inject_Z (n - 1).
  Proof.
    intros A B. assert (P : 0 <= inject_Z (n - 1)) by (change 0 with (inject_Z 0); rewrite <- Zle_Qle; pose proof n_pos; lia).
    split; [apply Qmult_le_0_compat; assumption|]. rewrite <- (Qmult_1_l (inject_Z (n - 1))) at 2. apply Qmult_le_compat_r; assumption.
  Qed.

  Lemma floor_bounds q : 0 <= q -> q <= 1 -> (0 <= Qfloor (pos q) <= n - 1)%Z.
  Proof.
    intros A B. destruct (pos_bounds q A B) as [P1 P2]. split.
    - change 0%Z with (Qfloor 0). apply Qfloor_resp_le. exact P1.
    - apply Z.le_trans with (Qfloor (inject_Z (n - 1))); [apply Qfloor_resp_le; exact P2|rewrite Qfloor_Z; lia].
  Qed.

  Lemma ix_bounds q : 0 <= q -> q <= 1 -> (ix q < List.length v)%nat.
  Proof. intros A B. pose proof (floor_bounds q A B). unfold v. rewrite sort_z_length. unfold n in *. lia. Qed.

  Definition lo_ q := nth (ix q) v 0%Z.
  Definition hi_ q := nth (S (ix q)) v (nth (ix q) v 0%Z).
  Definition frac q := pos q - inject_Z (Qfloor (pos q)).

  Lemma quantile_form q : np_quantile l q = inject_Z (lo_ q) + (inject_Z (hi_ q) - inject_Z (lo_ q)) * frac q.
  Proof. reflexivity. Qed.

  Lemma frac_bounds q : 0 <= frac q /\ frac q < 1.
  Proof.
    unfold frac. pose proof (Qfloor_le (pos q)). pose proof (Qlt_floor (pos q)) as H1. rewrite inject_Z_plus in H1. change (inject_Z 1) with 1 in H1. lra.
  Qed.

  Lemma hi_next q : (S (ix q) < List.length v)%nat -> hi_ q = nth (S (ix q)) v 0%Z.
  Proof. intros H. apply nth_indep. exact H. Qed.
  Lemma hi_last q : (List.length v <= S (ix q))%nat -> hi_ q = lo_ q.
  Proof. intros H. unfold hi_. rewrite nth_overflow by exact H. reflexivity. Qed.

  Lemma lo_hi q : 0 <= q -> q <= 1 -> (lo_ q <= hi_ q)%Z.
  Proof.
    intros A B. destruct (Nat.lt_ge_cases (S (ix q)) (List.length v)) as [H|H].
    - rewrite hi_next by exact H. apply sort_z_ordered. fold v. lia.
    - rewrite hi_last by exact H. lia.
  Qed.

  Lemma between q : 0 <= q -> q <= 1 -> inject_Z (lo_ q) <= np_quantile l q /\ np_quantile l q <= inject_Z (hi_ q).
  Proof.
    intros A B. rewrite quantile_form. pose proof (frac_bounds q) as [F1 F2]. pose proof (lo_hi q A B) as L. rewrite Zle_Qle in L.
    assert (M : 0 <= (inject_Z (hi_ q) - inject_Z (lo_ q)) * frac q) by (apply Qmult_le_0_compat; lra).
    assert (M' : 0 <= (inject_Z (hi_ q) - inject_Z (lo_ q)) * (1 - frac q)) by (apply Qmult_le_0_compat; lra). lra.
  Qed.

  Lemma quantile_ok q : 0 <= q -> q <= 1 -> quantile l q (np_quantile l q).
  Proof.
    intros A B. unfold quantile. fold n. pose proof (floor_bounds q A B) as FB. pose proof (ix_bounds q A B) as IB. destruct (between q A B) as [B1 B2].
    assert (VL : List.length v = List.length l) by apply sort_z_length.
    split.
    - unfold at_most. rewrite <- (count_perm _ _ _ (sort_z_perm l)). fold v.
      assert (C : (S (ix q) <= List.length (filter (fun z => Qle_bool (inject_Z z) (np_quantile l q)) v))%nat).
      { apply count_first; [lia|]. intros i Hi. apply Qle_bool_iff. apply Qle_trans with (inject_Z (lo_ q)); [|exact B1]. rewrite <- Zle_Qle.
        apply sort_z_ordered. fold v. lia. }
      lia.
    - unfold at_least. rewrite <- (count_perm _ _ _ (sort_z_perm l)). fold v.
      pose proof (frac_bounds q) as [F1 F2]. destruct (Qeq_dec (frac q) 0) as [F0|F0].
      + assert (CE : Qceiling (pos q) = Qfloor (pos q)).
        { unfold Qceiling. assert (E : pos q == inject_Z (Qfloor (pos q))) by (unfold frac in F0; lra).
          assert (E' : - (pos q) == inject_Z (- Qfloor (pos q))) by (rewrite inject_Z_opp; lra).
          rewrite (Qfloor_comp _ _ E'), Qfloor_Z. lia. }
        rewrite CE.
        assert (C : (List.length v - ix q <= List.length (filter (fun z => Qle_bool (np_quantile l q) (inject_Z z)) v))%nat).
        { apply count_last. intros i Hi. apply Qle_bool_iff. rewrite quantile_form, F0.
          assert (L : (lo_ q <= nth i v 0)%Z) by (apply sort_z_ordered; fold v; lia). rewrite Zle_Qle in L. lra. }
        unfold n in *. lia.
      + assert (CE : (Qfloor (pos q) + 1 <= Qceiling (pos q))%Z).
        { assert (Z : (Qfloor (pos q) < Qceiling (pos q))%Z); [|lia].
          rewrite Zlt_Qlt. apply Qlt_le_trans with (pos q); [|apply Qle_ceiling]. unfold frac in F0, F1.
          destruct (Qlt_le_dec (inject_Z (Qfloor (pos q))) (pos q)) as [H|H]; [exact H|exfalso; apply F0; unfold frac; pose proof (Qfloor_le (pos q)); lra]. }
        assert (C : (List.length v - S (ix q) <= List.length (filter (fun z => Qle_bool (np_quantile l q) (inject_Z z)) v))%nat).
        { apply count_last. intros i Hi. apply Qle_bool_iff. apply Qle_trans with (inject_Z (hi_ q)); [exact B2|]. rewrite <- Zle_Qle.
          rewrite hi_next by lia. apply sort_z_ordered. fold v. lia. }
        unfold n in *. lia.
  Qed.

  Lemma quantile_mono q r : 0 <= q -> q <= r -> r <= 1 -> np_quantile l q <= np_quantile l r.
  Proof.
    intros A B C. assert (A' : 0 <= r) by lra. assert (C' : q <= 1) by lra.
    assert (P : pos q <= pos r).
    { apply Qmult_le_compat_r; [exact B|]. change 0 with (inject_Z 0). rewrite <- Zle_Qle. pose proof n_pos. lia. }
    assert (F : (Qfloor (pos q) <= Qfloor (pos r))%Z) by (apply Qfloor_resp_le; exact P).
    pose proof (floor_bounds q A C') as FB. pose proof (floor_bounds r A' C) as FB'. pose proof (ix_bounds r A' C) as IB.
    destruct (Z.eq_dec (Qfloor (pos q)) (Qfloor (pos r))) as [E|E].
    - assert (El : lo_ q = lo_ r) by (unfold lo_; rewrite E; reflexivity). assert (Eh : hi_ q = hi_ r) by (unfold hi_; rewrite E; reflexivity).
      rewrite !quantile_form, El, Eh. pose proof (lo_hi r A' C) as L. rewrite Zle_Qle in L.
      assert (Fr : frac q <= frac r) by (unfold frac; rewrite E; lra).
      assert (M : 0 <= (inject_Z (hi_ r) - inject_Z (lo_ r)) * (frac r - frac q)) by (apply Qmult_le_0_compat; lra). lra.
    - destruct (between q A C') as [_ U]. destruct (between r A' C) as [L _]. apply Qle_trans with (inject_Z (hi_ q)); [exact U|].
      apply Qle_trans with (inject_Z (lo_ r)); [|exact L]. rewrite <- Zle_Qle. rewrite hi_next by lia. apply sort_z_ordered. fold v. lia.
  Qed.

  Lemma in_sorted i : (i < List.length v)%nat -> In (nth i v 0%Z) l.
  Proof. intros H. apply (Permutation_in _ (sort_z_perm l)). fold v. apply nth_In. exact H. Qed.

  Lemma lo_in q : 0 <= q -> q <= 1 -> In (lo_ q) l.
  Proof. intros A B. apply in_sorted, ix_bounds; assumption. Qed.
  Lemma hi_in q : 0 <= q -> q <= 1 -> In (hi_ q) l.
  Proof.
    intros A B. destruct (Nat.lt_ge_cases (S (ix q)) (List.length v)) as [H|H].
    - rewrite hi_next by exact H. apply in_sorted, H.
    - rewrite hi_last by exact H. apply lo_in; assumption.
  Qed.
End Quantile.

Lemma min_ok a r : let m := fold_left Z.min r a in In m (a :: r) /\ forall z, In z (a :: r) -> (m <= z)%Z.
Proof.
  revert a. induction r as [|b r IH]; intros a; cbn [fold_left]; [split; [left; reflexivity|intros z [->|[]]; lia]|].
  destruct (IH (Z.min a b)) as [I H]. split.
  - destruct I as [I|I]; [|right; right; exact I]. rewrite <- I. destruct (Z.min_spec a b) as [[_ ->]|[_ ->]]; [left|right; left]; reflexivity.
  - intros z [<-|[<-|J]]; [| |apply H; right; exact J]; specialize (H _ (or_introl eq_refl)); lia.
Qed.
Lemma max_ok a r : let m := fold_left Z.max r a in In m (a :: r) /\ forall z, In z (a :: r) -> (z <= m)%Z.
Proof.
  revert a. induction r as [|b r IH]; intros a; cbn [fold_left]; [split; [left; reflexivity|intros z [->|[]]; lia]|].
  destruct (IH (Z.max a b)) as [I H]. split.
  - destruct I as [I|I]; [|right; right; exact I]. rewrite <- I. destruct (Z.max_spec a b) as [[_ ->]|[_ ->]]; [right; left|left]; reflexivity.
  - intros z [<-|[<-|J]]; [| |apply H; right; exact J]; specialize (H _ (or_introl eq_refl)); lia.
Qed.

Lemma sum_bounds l : forall acc lo hi, (forall z, In z l -> lo <= z <= hi)%Z ->
  (acc + lo * Z.of_nat (List.length l) <= fold_left Z.add l acc <= acc + hi * Z.of_nat (List.length l))%Z.
Proof.
  induction l as [|x l IH]; intros acc lo hi H; [cbn; lia|]. cbn [fold_left]. specialize (IH (acc + x)%Z lo hi (fun z I => H z (or_intror I))).
  pose proof (H x (or_introl eq_refl)). cbn [List.length]. rewrite Nat2Z.inj_succ. lia.
Qed.

Lemma mean_bounds l lo hi : l <> [] -> (forall z, In z l -> lo <= z <= hi)%Z -> inject_Z lo <= np_mean l /\ np_mean l <= inject_Z hi.
Proof.
  intros N H. unfold np_mean. pose proof (sum_bounds l 0 lo hi H) as [A B].
  assert (P : 0 < inject_Z (Z.of_nat (List.length l))).
  { change 0 with (inject_Z 0). rewrite <- Zlt_Qlt. destruct l; [congruence|cbn; lia]. }
  split; [apply Qle_shift_div_l|apply Qle_shift_div_r]; try exact P; rewrite <- inject_Z_mult, <- Zle_Qle; lia.
Qed.
