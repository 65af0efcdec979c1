(** * SpecOrder: the order in which the input lists two trains (C53) *)

From Coq Require Import List.
From Verif Require Import Base Helpers LinearSolver Spec.
Import ListNotations.

(** Wherever both trains are listed together (lines, station tracks, switches), [j] comes before [k]. *)
Definition listed_in_order (ts : train_sets) (j k : pv) : Prop :=
  (forall s inner sp groups js, In (s, inner) (ts_Jd ts) -> In (sp, groups) inner -> In js groups ->
     ~ listed js k j) /\
  (forall s groups js, In (s, groups) (ts_Jtrack ts) -> In js groups -> ~ listed js k j) /\
  (forall s l a b, In (s, l) (ts_Jswitch ts) -> ~ In [(k, a); (j, b)] l).
