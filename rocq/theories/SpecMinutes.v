(** * SpecMinutes: tables and scenarios in whole minutes (C81, C82) *)

From Coq Require Import List ZArith QArith.
From Verif Require Import Base Pulp DataTables SpecTables.

(** The times to turn around are whole minutes. *)
Definition whole_turns (td : train_dict) : Prop :=
  forall i tb r q, runs td i tb -> In r tb -> r_turn r = Some q -> is_int q.

(** The delays of a scenario are whole minutes. *)
Definition whole_delays (delays : list (Z * Q)) : Prop := forall i q, In (i, q) delays -> is_int q.
