(** * SpecNames: printable identifiers, and the objective in plain words (C14, C18, C19) *)

From Coq Require Import List String Ascii ZArith QArith Bool.
From Verif Require Import Base Pulp Helpers Spec.
Import ListNotations.
Open Scope string_scope.
Open Scope list_scope.

Fixpoint all_chars (f : ascii -> bool) (s : string) : bool :=
  match s with
  | EmptyString => true
  | String c r => f c && all_chars f r
  end.

(** Neither an underscore nor one of the characters - + [ ] blank > / *)
Definition plain_char (c : ascii) : bool :=
  negb (lmem (nat_of_ascii c) [95; 45; 43; 91; 93; 32; 62; 47]%nat).

(** The identifier prints without such characters. *)
Definition plain (x : pv) : Prop := all_chars plain_char (str x) = true.

(** All identifiers are plain, and different ones print differently (the integer 5 and the string
    "5", say, are not both trains, and no station is called "None"). *)
Definition plain_names (ts : train_sets) : Prop :=
  (forall j, In j (mentioned_trains ts) -> plain j) /\
  (forall s, In s (mentioned_stations ts) -> plain s) /\
  (forall j k, In j (mentioned_trains ts) -> In k (mentioned_trains ts) -> str j = str k -> j = k) /\
  (forall s t, In s (PNone :: mentioned_stations ts) -> In t (PNone :: mentioned_stations ts) ->
     str s = str t -> s = t).

(** Station names in the path of train [j]. *)
Definition stations_of (ts : train_sets) (j : pv) : list pv :=
  match dget j (ts_Paths ts) with Some p => p | None => [] end.

(** All pairs of a train and a station it visits. *)
Definition visits (ts : train_sets) : list (pv * pv) :=
  flat_map (fun j => map (fun s => (j, s)) (stations_of ts j)) (ts_J ts).

(** ** Characters with a meaning in LP files (C62) *)

Definition has_char (n : nat) (s : string) : Prop :=
  exists u c v, s = (u ++ String c v)%string /\ nat_of_ascii c = n.

(** [t] is [s] with each character of [bad] replaced by an underscore. *)
Inductive replaced (bad : list nat) : string -> string -> Prop :=
  | replaced_end : replaced bad "" ""
  | replaced_bad c s t : In (nat_of_ascii c) bad -> replaced bad s t -> replaced bad (String c s) (String "_"%char t)
  | replaced_good c s t : ~ In (nat_of_ascii c) bad -> replaced bad s t -> replaced bad (String c s) (String c t).

(** - + [ ] and blank; for variables also > and / *)
Definition lp_chars : list nat := [45; 43; 91; 93; 32]%nat.
Definition lp_var_chars : list nat := [45; 43; 91; 93; 32; 62; 47]%nat.

(** The identifiers printed, with underscores between *)
Fixpoint underscored (l : list string) : string :=
  match l with
  | [] => ""
  | [a] => a
  | a :: r => (a ++ "_" ++ underscored r)%string
  end.
