(** * BoundCheck: a checked lower bound on the objective of a problem with integer variables

    A certificate is a tree: a step derives a better bound on one variable from one constraint and the bounds of the
    other variables, a branch splits the range of a variable at a number, and a leaf is reached when a range is empty
    or the bounds on the variables already give the objective.  The tree is found outside Coq; [bounded_ok] says that
    a tree that passes the check proves its bound.  None of this models code of the repository. *)

From Coq Require Import List ZArith QArith Qround Qreduction Bool Lia Lqa FMapPositive.
From Verif Require Import Base BaseFacts Pulp SpecQubo QuboModel.
Import ListNotations.
Open Scope list_scope.

Module PM := PositiveMap.

(** ** Rows: a sum of integer multiples of numbered variables plus a constant, not negative *)

Definition zrow : Type := (list (positive * Z) * Z)%type.
Definition ranges : Type := PM.t (Z * Z).

(** The largest value of a sum within the ranges *)
Fixpoint most (R : ranges) (l : list (positive * Z)) : option Z :=
  match l with
  | [] => Some 0%Z
  | (v, a) :: l' =>
      match PM.find v R, most R l' with
      | Some (lo, up), Some m => Some (if (0 <=? a)%Z then a * up + m else a * lo + m)%Z
      | _, _ => None
      end
  end.

(** The term at a position, and the others *)
Fixpoint take (k : nat) (l : list (positive * Z)) : option ((positive * Z) * list (positive * Z)) :=
  match k, l with
  | O, t :: l' => Some (t, l')
  | S k', t :: l' => match take k' l' with Some (u, r) => Some (u, t :: r) | None => None end
  | _, [] => None
  end.

(** What the row says about the variable at position [k] *)
Inductive derived : Type := Nothing | Empty | Better (R : ranges).

Definition derive (R : ranges) (rw : zrow) (k : nat) : derived :=
  match take k (fst rw) with
  | None => Nothing
  | Some ((v, a), others) =>
      match most R others, PM.find v R with
      | Some m, Some (lo, up) =>
          let b := (m + snd rw)%Z in
          if (a =? 1)%Z then
            let lo' := Z.max lo (- b) in if (up <? lo')%Z then Empty else Better (PM.add v (lo', up) R)
          else if (a =? -1)%Z then
            let up' := Z.min up b in if (up' <? lo)%Z then Empty else Better (PM.add v (lo, up') R)
          else Nothing
      | _, _ => Nothing
      end
  end.

(** The least value of the objective, all of whose weights must not be negative *)
Fixpoint least (R : ranges) (l : list (positive * Z)) : option Z :=
  match l with
  | [] => Some 0%Z
  | (v, a) :: l' =>
      if (a <? 0)%Z then None else
      match PM.find v R, least R l' with
      | Some (lo, up), Some m => Some (a * lo + m)%Z
      | _, _ => None
      end
  end.

Inductive tree : Type :=
  | Leaf
  | Step (row : positive) (k : nat) (t : tree)
  | Branch (v : positive) (t0 t1 : tree).

Section Checker.
  Variables (rows : PM.t zrow) (obj : zrow) (B : Z).

  Fixpoint checked (t : tree) (R : ranges) : bool :=
    match t with
    | Leaf => match least R (fst obj) with Some m => (B <=? m + snd obj)%Z | None => false end
    | Step r k t' =>
        match PM.find r rows with
        | None => false
        | Some rw => match derive R rw k with Nothing => false | Empty => true | Better R' => checked t' R' end
        end
    | Branch v t0 t1 =>
        match PM.find v R with
        | None => false
        | Some (lo, up) =>
            if checked t0 (PM.add v (lo, Z.min up 0) R) then checked t1 (PM.add v (Z.max lo 1, up) R) else false
        end
    end.

  (** ** Soundness *)

  Variable val : positive -> Z.

  Definition zsum (l : list (positive * Z)) : Z := fold_right (fun t s => snd t * val (fst t) + s)%Z 0%Z l.
  Definition within (R : ranges) : Prop := forall v lo up, PM.find v R = Some (lo, up) -> (lo <= val v <= up)%Z.
  Definition row_holds (rw : zrow) : Prop := (0 <= zsum (fst rw) + snd rw)%Z.

  Hypothesis Hrows : forall r rw, PM.find r rows = Some rw -> row_holds rw.

  Lemma most_ok R l m : within R -> most R l = Some m -> (zsum l <= m)%Z.
  Proof.
    intros W. revert m. induction l as [|[v a] l IH]; intros m; cbn [most zsum fold_right fst snd]; [intros H; injection H as <-; lia|].
    destruct (PM.find v R) as [[lo up]|] eqn:F; [|discriminate]. destruct (most R l) as [m'|]; [|discriminate].
    specialize (IH m' eq_refl). unfold zsum in IH. specialize (W v lo up F). intros H. injection H as <-. destruct (Z.leb_spec 0 a); nia.
  Qed.

  Lemma take_ok k l t r : take k l = Some (t, r) -> zsum l = (snd t * val (fst t) + zsum r)%Z.
  Proof.
    revert l t r. induction k as [|k IH]; intros [|u l] t r; cbn [take]; try discriminate.
    - intros H. injection H as <- <-. reflexivity.
    - destruct (take k l) as [[t' r']|] eqn:E; [|discriminate]. intros H. injection H as <- <-. specialize (IH _ _ _ E).
      unfold zsum in *. cbn [fold_right fst snd]. rewrite IH. lia.
  Qed.

  Lemma within_add R v lo up : within R -> (lo <= val v <= up)%Z -> within (PM.add v (lo, up) R).
  Proof.
    intros W H v' lo' up' F. destruct (Pos.eq_dec v v') as [<-|N]; [rewrite PM.gss in F; congruence|].
    rewrite PM.gso in F by congruence. exact (W _ _ _ F).
  Qed.

  Lemma derive_ok R rw k : within R -> row_holds rw ->
    match derive R rw k with Nothing => True | Empty => False | Better R' => within R' end.
  Proof.
    intros W H. unfold derive, row_holds in *. destruct (take k (fst rw)) as [[[v a] others]|] eqn:T; [|exact I].
    apply take_ok in T. cbn [fst snd] in T. destruct (most R others) as [m|] eqn:M; [|exact I]. apply (most_ok _ _ _ W) in M.
    destruct (PM.find v R) as [[lo up]|] eqn:F; [|exact I]. pose proof (W _ _ _ F) as V. cbv zeta.
    destruct (Z.eqb_spec a 1) as [->|_]; [|destruct (Z.eqb_spec a (-1)) as [->|_]; [|exact I]].
    - destruct (Z.ltb_spec up (Z.max lo (- (m + snd rw)))); [lia|]. apply within_add; [exact W|lia].
    - destruct (Z.ltb_spec (Z.min up (m + snd rw)) lo); [lia|]. apply within_add; [exact W|lia].
  Qed.

  Lemma least_ok R l m : within R -> least R l = Some m -> (m <= zsum l)%Z.
  Proof.
    intros W. revert m. induction l as [|[v a] l IH]; intros m; cbn [least zsum fold_right fst snd]; [intros H; injection H as <-; lia|].
    destruct (Z.ltb_spec a 0) as [|A]; [discriminate|].
    destruct (PM.find v R) as [[lo up]|] eqn:F; [|discriminate]. destruct (least R l) as [m'|]; [|discriminate].
    specialize (IH m' eq_refl). unfold zsum in IH. specialize (W v lo up F). intros H. injection H as <-. nia.
  Qed.

  Theorem checked_ok t : forall R, within R -> checked t R = true -> (B <= zsum (fst obj) + snd obj)%Z.
  Proof.
    induction t as [|r k t IH|v t0 IH0 t1 IH1]; intros R W; cbn [checked].
    - destruct (least R (fst obj)) as [m|] eqn:L; [|discriminate]. apply (least_ok _ _ _ W) in L. intros H. apply Z.leb_le in H. lia.
    - destruct (PM.find r rows) as [rw|] eqn:F; [|discriminate]. pose proof (derive_ok R rw k W (Hrows _ _ F)) as D.
      destruct (derive R rw k) as [| |R']; [discriminate|destruct D|]. apply IH, D.
    - destruct (PM.find v R) as [[lo up]|] eqn:F; [|discriminate]. pose proof (W _ _ _ F) as V.
      destruct (checked t0 (PM.add v (lo, Z.min up 0) R)) eqn:C0; [|discriminate]. intros C1.
      destruct (Z.le_gt_cases (val v) 0).
      + apply (IH0 _ (within_add R v lo (Z.min up 0) W ltac:(lia)) C0).
      + apply (IH1 _ (within_add R v (Z.max lo 1) up W ltac:(lia)) C1).
  Qed.
End Checker.

(** ** Trees as lists of numbers, the root last: 0 is a leaf, 4 n + 1 a branch at variable n, 4 n + 2, 4 n + 3 and
    4 n + 4 a step with row n at position 0, 1 and 2 *)

Definition push (st : list tree) (z : Z) : list tree :=
  if (z =? 0)%Z then Leaf :: st else
  let n := Z.to_pos ((z - 1) / 4) in
  match ((z - 1) mod 4)%Z, st with
  | 0%Z, t1 :: t0 :: st' => Branch n t0 t1 :: st'
  | 1%Z, t :: st' => Step n 0 t :: st'
  | 2%Z, t :: st' => Step n 1 t :: st'
  | _, t :: st' => Step n 2 t :: st'
  | _, [] => []
  end.

Definition tree_of (l : list Z) : tree := match fold_left push l [] with t :: _ => t | [] => Leaf end.

(** ** Rows of a problem *)

Definition to_z (q : Q) : option Z := let r := Qred q in if Pos.eqb (Qden r) 1 then Some (Qnum r) else None.

Lemma to_z_ok q z : to_z q = Some z -> q == inject_Z z.
Proof.
  unfold to_z. cbv zeta. destruct (Pos.eqb_spec (Qden (Qred q)) 1) as [E|]; [|discriminate]. intros H. injection H as <-.
  rewrite <- (Qred_correct q) at 1. destruct (Qred q) as [n d]. cbn [Qnum Qden] in *. subst d. reflexivity.
Qed.

(** The variables of an expression with their numbers, and its coefficients times [s] as integers *)
Fixpoint number_terms (s : Q) (l : list (lpvar * Q)) (ns : list positive) : option (list (positive * Z)) :=
  match l, ns with
  | [], [] => Some []
  | (v, q) :: l', n :: ns' =>
      match to_z (s * q), number_terms s l' ns' with Some z, Some r => Some ((n, z) :: r) | _, _ => None end
  | _, _ => None
  end.

Definition number_aff (s : Q) (a : aff) (ns : list positive) : option zrow :=
  match number_terms s (a_terms a) ns, to_z (s * a_const a) with Some l, Some k => Some (l, k) | _, _ => None end.

(** Which variable has a number: the first met *)
Definition names : Type := PM.t lpvar.
Definition meet (l : list (lpvar * Q)) (ns : list positive) (T : names) : names :=
  fold_left (fun (T : names) (vn : lpvar * positive) => match PM.find (snd vn) T with Some _ => T | None => PM.add (snd vn) (fst vn) T end) (combine (map fst l) ns) T.

Definition same_vid (a b : vid) : bool := eqb a b.

(** The variables of a numbered expression are those of the table *)
Definition namedb (T : names) (l : list (lpvar * Q)) (ns : list positive) : bool :=
  forallb (fun vn : lpvar * positive => match PM.find (snd vn) T with Some u => same_vid (v_id u) (v_id (fst vn)) | None => false end) (combine (map fst l) ns).

(** The rows that a certificate uses: how many constraints to skip, whether to take the opposite, the numbers of the
    variables *)
Definition use : Type := (nat * bool * list positive)%type.

Fixpoint used (cs : list (String.string * constr)) (us : list use) : option (list (aff * Q * list positive)) :=
  match us with
  | [] => Some []
  | (gap, opp, ns) :: us' =>
      let cs' := skipn gap cs in
      match cs' with
      | [] => None
      | (_, c) :: _ =>
          match c_sense c, opp with
          | GE, false | EQ, false => match used cs' us' with Some r => Some ((c_aff c, 1, ns) :: r) | None => None end
          | LE, true | EQ, true => match used cs' us' with Some r => Some ((c_aff c, -1, ns) :: r) | None => None end
          | _, _ => None
          end
      end
  end.

Fixpoint number_rows (l : list (aff * Q * list positive)) (n : positive) (acc : PM.t zrow) : option (PM.t zrow) :=
  match l with
  | [] => Some acc
  | (a, s, ns) :: l' => match number_aff s a ns with Some rw => number_rows l' (Pos.succ n) (PM.add n rw acc) | None => None end
  end.

(** The ranges of the variables of the table *)
Definition start (T : names) : option ranges :=
  PM.fold (fun n v R =>
    match R, v_lo v, v_up v, v_cat v with
    | Some R, Some lo, Some up, Integer =>
        match to_z lo, to_z up with Some lo, Some up => Some (PM.add n (lo, up) R) | _, _ => None end
    | _, _, _, _ => None
    end) T (Some (PM.empty _)).

Record certificate : Type := MkCert {
  ce_scale : positive;              (* all weights of the objective times this are integers *)
  ce_objective : list positive;     (* numbers of the variables of the objective *)
  ce_rows : list use;
  ce_tree : list Z }.

Definition bounded (p : lpproblem) (ce : certificate) (B : Z) : bool :=
  let s := inject_Z (Zpos (ce_scale ce)) in
  match used (p_constraints p) (ce_rows ce) with
  | None => false
  | Some us =>
      let T := fold_left (fun T u => meet (a_terms (fst (fst u))) (snd u) T) us
                 (meet (a_terms (p_objective p)) (ce_objective ce) (PM.empty _)) in
      if namedb T (a_terms (p_objective p)) (ce_objective ce) then
      if forallb (fun u => namedb T (a_terms (fst (fst u))) (snd u)) us then
      match number_aff s (p_objective p) (ce_objective ce), number_rows us 1 (PM.empty _), start T with
      | Some obj, Some rows, Some R => checked rows obj B (tree_of (ce_tree ce)) R
      | _, _, _ => false
      end
      else false else false
  end.

(** ** Soundness for problems *)

Lemma meet_occurs (P : lpvar -> Prop) l ns : (forall v, In v (map fst l) -> P v) -> forall T : names,
  (forall n u, PM.find n T = Some u -> P u) -> forall n u, PM.find n (meet l ns T) = Some u -> P u.
Proof.
  intros H. unfold meet. assert (G : forall vn, In vn (combine (map fst l) ns) -> P (fst vn)).
  { intros [v n] I. apply in_combine_l in I. apply H, I. }
  clear H. revert G. generalize (combine (map fst l) ns). intros c. induction c as [|vn c IH]; intros G T HT; cbn [fold_left]; [exact HT|].
  apply IH; [intros vn' I; apply G; right; exact I|]. destruct (PM.find (snd vn) T) eqn:F; [exact HT|].
  intros n u. destruct (Pos.eq_dec (snd vn) n) as [<-|N].
  - rewrite PM.gss. intros E. injection E as <-. apply G. left. reflexivity.
  - rewrite PM.gso by congruence. apply HT.
Qed.

Section Sound.
  Variables (p : lpproblem) (x : assignment) (T : names).
  Hypothesis F : feasible p x.
  Hypothesis HC : consistent p.
  Hypothesis HT : forall n u, PM.find n T = Some u -> occurs p u /\ v_cat u = Integer.

  Definition value_of (n : positive) : Z := match PM.find n T with Some u => Qfloor (x (v_id u)) | None => 0%Z end.

  Lemma occurs_ok u : occurs p u -> var_ok u (x (v_id u)).
  Proof.
    intros Hv. destruct (occurs_variables p u Hv) as (w & Hw & E). pose proof (proj2 F w Hw) as V. rewrite E in V.
    assert (N : v_name u = v_name w) by (unfold v_id in E; unfold v_name; injection E as E1 E2; rewrite E1, E2; reflexivity).
    destruct (HC u w Hv (variables_occurs p w Hw) N) as (H1 & H2 & H3). unfold var_ok. rewrite H1, H2, H3. exact V.
  Qed.

  Lemma value_ok n u : PM.find n T = Some u -> inject_Z (value_of n) == x (v_id u).
  Proof.
    intros H. unfold value_of. rewrite H. destruct (HT _ _ H) as [O C]. destruct (occurs_ok u O) as (_ & _ & I).
    destruct (I C) as [z E]. rewrite (Qfloor_comp _ _ E), Qfloor_Z. symmetry. exact E.
  Qed.

  Lemma terms_ok s l ns zl : namedb T l ns = true -> number_terms s l ns = Some zl ->
    inject_Z (zsum value_of zl) == s * eval_terms l x.
  Proof.
    revert ns zl. induction l as [|[v q] l IH]; intros [|n ns] zl; cbn [number_terms]; try discriminate.
    - intros _ H. injection H as <-. unfold eval_terms, qsum, zsum. cbn. ring.
    - unfold namedb. cbn [map combine forallb fst snd]. rewrite andb_true_iff. intros [N NS].
      destruct (to_z (s * q)) as [z|] eqn:Z; [|discriminate]. destruct (number_terms s l ns) as [r|] eqn:R; [|discriminate].
      intros H. injection H as <-. specialize (IH ns r NS R). apply to_z_ok in Z.
      destruct (PM.find n T) as [u|] eqn:E; [|discriminate]. apply eqb_eq in N.
      pose proof (value_ok _ _ E) as V. rewrite N in V.
      unfold eval_terms, qsum, zsum in *. cbn [map fold_right fst snd]. rewrite inject_Z_plus, inject_Z_mult, IH, V, <- Z. ring.
  Qed.

  Lemma aff_ok s a ns rw : namedb T (a_terms a) ns = true -> number_aff s a ns = Some rw ->
    inject_Z (zsum value_of (fst rw) + snd rw) == s * eval a x.
  Proof.
    unfold number_aff. intros N. destruct (number_terms s (a_terms a) ns) as [l|] eqn:E; [|discriminate].
    destruct (to_z (s * a_const a)) as [k|] eqn:K; [|discriminate]. intros H. injection H as <-. cbn [fst snd].
    rewrite inject_Z_plus, (terms_ok _ _ _ _ N E). apply to_z_ok in K. rewrite <- K. unfold eval. ring.
  Qed.

  Lemma used_ok us cs r : (forall nc, In nc cs -> In nc (p_constraints p)) -> used cs us = Some r ->
    forall a s ns, In (a, s, ns) r -> 0 <= s * eval a x /\ forall v, In v (map fst (a_terms a)) -> occurs p v.
  Proof.
    revert cs r. induction us as [|[[gap opp] ns] us IH]; intros cs r HI; cbn [used]; [intros H; injection H as <-; intros a s n []|].
    cbv zeta. assert (HI' : forall nc, In nc (skipn gap cs) -> In nc (p_constraints p)).
    { intros nc I. apply HI. rewrite <- (firstn_skipn gap cs). apply in_or_app. right. exact I. }
    revert HI'. generalize (skipn gap cs). intros cs' HI'. destruct cs' as [|[n c] rest] eqn:EC; [discriminate|]. rewrite <- EC in *.
    assert (IN : In (n, c) (p_constraints p)) by (apply HI'; rewrite EC; left; reflexivity).
    pose proof (proj1 F n c IN) as Hc. unfold holds in Hc.
    assert (OC : forall v, In v (map fst (a_terms (c_aff c))) -> occurs p v).
    { intros v I. right. exists n, c. split; [exact IN|]. exact I. }
    assert (K : forall s, 0 <= s * eval (c_aff c) x ->
      match used cs' us with Some r0 => Some ((c_aff c, s, ns) :: r0) | None => None end = Some r ->
      forall a s' ns', In (a, s', ns') r -> 0 <= s' * eval a x /\ forall v, In v (map fst (a_terms a)) -> occurs p v).
    { intros s S. destruct (used cs' us) as [r0|] eqn:U; [|discriminate]. intros H. injection H as <-. intros a s' ns' [E|I].
      - inversion E; subst. split; [exact S|exact OC].
      - exact (IH cs' r0 HI' U a s' ns' I). }
    destruct (c_sense c), opp; try discriminate; apply K; lra.
  Qed.

  Lemma number_rows_ok l : (forall a s ns, In (a, s, ns) l -> 0 <= s * eval a x /\ namedb T (a_terms a) ns = true) ->
    forall n acc rows, (forall r rw, PM.find r acc = Some rw -> row_holds value_of rw) -> number_rows l n acc = Some rows ->
    forall r rw, PM.find r rows = Some rw -> row_holds value_of rw.
  Proof.
    induction l as [|[[a s] ns] l IH]; intros H n acc rows HA; cbn [number_rows]; [intros E; injection E as <-; exact HA|].
    destruct (number_aff s a ns) as [rw|] eqn:N; [|discriminate].
    apply IH; [intros a' s' ns' I; apply H; right; exact I|]. intros r rw'. destruct (Pos.eq_dec n r) as [<-|D].
    - rewrite PM.gss. intros E. injection E as <-. destruct (H a s ns (or_introl eq_refl)) as [S ND].
      pose proof (aff_ok _ _ _ _ ND N) as V. unfold row_holds. rewrite Zle_Qle, V. exact S.
    - rewrite PM.gso by congruence. apply HA.
  Qed.

  Lemma start_ok R : start T = Some R -> within value_of R.
  Proof.
    unfold start. rewrite PM.fold_1. set (f := fun a p0 => _).
    assert (HE : forall n u, In (n, u) (PM.elements T) -> PM.find n T = Some u) by (intros n u I; apply PM.elements_complete, I).
    assert (G : forall l R0, (forall n u, In (n, u) l -> PM.find n T = Some u) ->
      (forall R1, R0 = Some R1 -> within value_of R1) -> forall R1, fold_left f l R0 = Some R1 -> within value_of R1).
    { induction l as [|[n u] l IH]; intros R0 HL H0 R1; cbn [fold_left]; [apply H0|].
      apply IH; [intros n' u' I; apply HL; right; exact I|]. clear R1. intros R1. unfold f. cbn [fst snd].
      destruct R0 as [R0|]; [|discriminate]. specialize (H0 _ eq_refl). pose proof (HL n u (or_introl eq_refl)) as FU.
      destruct (HT _ _ FU) as [O C]. destruct (occurs_ok u O) as (Lo & Up & _).
      destruct (v_lo u) as [lo|]; [|discriminate]. destruct (v_up u) as [up|]; [|discriminate]. rewrite C.
      destruct (to_z lo) as [zl|] eqn:ZL; [|discriminate]. destruct (to_z up) as [zu|] eqn:ZU; [|discriminate]. intros H. injection H as <-.
      apply within_add; [exact H0|]. specialize (Lo _ eq_refl). specialize (Up _ eq_refl). apply to_z_ok in ZL, ZU.
      pose proof (value_ok _ _ FU) as V. rewrite ZL, <- V in Lo. rewrite ZU, <- V in Up. rewrite !Zle_Qle. split; assumption. }
    apply (G _ _ HE). intros R1 H. injection H as <-. intros v lo up H. rewrite PM.gempty in H. discriminate H.
  Qed.
End Sound.

(** A certificate that passes the check proves its bound. *)
Theorem bounded_ok p ce B x : consistent p -> (forall v, occurs p v -> v_cat v = Integer) -> bounded p ce B = true -> feasible p x ->
  inject_Z B <= inject_Z (Zpos (ce_scale ce)) * obj_value p x.
Proof.
  intros HC HI. unfold bounded. cbv zeta. destruct (used (p_constraints p) (ce_rows ce)) as [us|] eqn:U; [|discriminate].
  set (T := fold_left _ us _).
  destruct (namedb T (a_terms (p_objective p)) (ce_objective ce)) eqn:NO; [|discriminate].
  destruct (forallb (fun u => namedb T (a_terms (fst (fst u))) (snd u)) us) eqn:NU; [|discriminate].
  destruct (number_aff (inject_Z (Zpos (ce_scale ce))) (p_objective p) (ce_objective ce)) as [obj|] eqn:O; [|discriminate].
  destruct (number_rows us 1 (PM.empty zrow)) as [rows|] eqn:RW; [|discriminate]. destruct (start T) as [R|] eqn:S; [|discriminate].
  intros CH F. rewrite forallb_forall in NU.
  assert (HU : forall a s ns, In (a, s, ns) us -> 0 <= s * eval a x /\ forall v, In v (map fst (a_terms a)) -> occurs p v)
    by exact (used_ok p x F _ _ _ (fun nc I => I) U).
  assert (HT : forall n u, PM.find n T = Some u -> occurs p u /\ v_cat u = Integer).
  { intros n u H. assert (OC : occurs p u); [|split; [exact OC|apply HI, OC]]. revert n u H. unfold T.
    assert (G : forall (l : list (aff * Q * list positive)) (T0 : names), (forall a s ns, In (a, s, ns) l -> forall v, In v (map fst (a_terms a)) -> occurs p v) ->
      (forall n u, PM.find n T0 = Some u -> occurs p u) ->
      forall n u, PM.find n (fold_left (fun T u => meet (a_terms (fst (fst u))) (snd u) T) l T0) = Some u -> occurs p u).
    { induction l as [|[[a s] ns] l IH]; intros T0 HL H0; cbn [fold_left]; [exact H0|]. apply IH.
      - intros a' s' ns' I. apply (HL a' s' ns'). right. exact I.
      - apply meet_occurs; [apply (HL a s ns); left; reflexivity|exact H0]. }
    apply G; [intros a s ns I; apply (proj2 (HU a s ns I))|]. apply meet_occurs; [intros v I; left; exact I|].
    intros n u H. rewrite PM.gempty in H. discriminate H. }
  clearbody T. unfold obj_value. rewrite <- (aff_ok p x T F HC HT _ _ _ _ NO O). rewrite <- Zle_Qle.
  apply (checked_ok rows obj B (value_of x T)) with (t := tree_of (ce_tree ce)) (R := R); [|exact (start_ok p x T F HC HT R S)|exact CH].
  apply (number_rows_ok p x T F HC HT us) with (n := 1%positive) (acc := PM.empty zrow); [|intros r rw H; rewrite PM.gempty in H; discriminate H|exact RW].
  intros a s ns I. split; [apply (proj1 (HU a s ns I))|exact (NU _ I)].
Qed.
Print Assumptions bounded_ok.
