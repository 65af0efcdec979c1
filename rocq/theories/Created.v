(** * Created: problems made by create_linear_problem meet the conditions of the conversion theorems *)

From Coq Require Import List String Ascii ZArith QArith Bool Lqa.
From Verif Require Import Base Pulp Helpers LinearSolver BaseFacts Spec OrderVars Emit Origin Sound SpecNames Names
  Converters SpecQubo ConstraintNames QuboModel.
Import ListNotations.
Open Scope string_scope.
Open Scope list_scope.

Section Created.
  Variables (ts : train_sets) (tt : timetable) (d_max : Q) (cat : vcat) (p : lpproblem).
  Hypothesis RF : reserved_free ts.
  Hypothesis Hp : create_linear_problem ts tt d_max cat = Ok p.

  Lemma occurs_canon v : occurs p v -> canon ts d_max cat v.
  Proof.
    intros Hv. destruct (create_inv _ _ _ _ _ Hp) as (dv & y & H1 & H2 & H3 & _ & _ & H5).
    destruct Hv as [Hv|(n & c & Hc & Hv)].
    - eapply obj_canon; eauto.
    - rewrite H3 in Hc. apply somes_emitted in Hc as (m & Hc & _).
      apply emission_origin in Hc as [[e He]|Ho]; [discriminate|].
      eapply origin_canon; [exact H1| |exact Ho|exact Hv]. eapply order_variables_ok; eauto.
  Qed.

  Definition first (s : string) : option ascii := match s with String c _ => Some c | EmptyString => None end.

  Lemma canon_first v : canon ts d_max cat v ->
    (first (v_name v) = Some "D"%char /\ v_lo v = Some 0 /\ v_up v = Some d_max /\ v_cat v = cat) \/
    ((first (v_name v) = Some "y"%char \/ first (v_name v) = Some "z"%char) /\
     v_lo v = Some 0 /\ v_up v = Some 1 /\ v_cat v = Integer).
  Proof.
    intros [(j & s & _ & ->)|(q & [->| ->])]; [left|right|right]; cbn.
    - auto.
    - destruct q; cbn; auto.
    - destruct q; cbn; auto.
  Qed.

  Theorem created_consistent : consistent p.
  Proof.
    intros v w Hv Hw E. apply occurs_canon, canon_first in Hv. apply occurs_canon, canon_first in Hw.
    rewrite E in Hv.
    destruct Hv as [(A1 & A2 & A3 & A4)|(A1 & A2 & A3 & A4)], Hw as [(B1 & B2 & B3 & B4)|(B1 & B2 & B3 & B4)].
    - rewrite A2, A3, A4, B2, B3, B4. auto.
    - rewrite A1 in B1. destruct B1; discriminate.
    - rewrite B1 in A1. destruct A1; discriminate.
    - rewrite A2, A3, A4, B2, B3, B4. auto.
  Qed.

  Theorem created_apart : apart p.
  Proof.
    split; [eapply names_nodup; eassumption|]. intros v n Hv Hn E.
    apply in_map_iff in Hn as ([n' c] & En & Hn). cbn in En. subst n'.
    destruct (every_name _ _ _ _ _ _ _ Hp Hn) as (rule & HR & rest & En).
    apply occurs_canon, canon_first in Hv. rewrite E, En in Hv.
    cbn [rule_names In] in HR. intuition subst; discriminate.
  Qed.

  Theorem created_names : plain_names ts -> names_distinct p.
  Proof.
    intros PN v w Hv Hw E. destruct (occurs_variables p v Hv) as (v' & Hv' & Ev).
    destruct (occurs_variables p w Hw) as (w' & Hw' & Ew). rewrite <- Ev, <- Ew. f_equal.
    apply (names_differ ts tt d_max cat p RF PN Hp); try assumption.
    rewrite (same_id_name v' v Ev), (same_id_name w' w Ew). exact E.
  Qed.

  (** Lower bounds are 0, upper bounds d_max or 1 *)
  Theorem created_bounds v : occurs p v ->
    v_lo v = Some 0 /\ ((v_up v = Some d_max /\ v_cat v = cat) \/ (v_up v = Some 1 /\ v_cat v = Integer)).
  Proof.
    intros Hv. apply occurs_canon, canon_first in Hv. tauto.
  Qed.
End Created.
