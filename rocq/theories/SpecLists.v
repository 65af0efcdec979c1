(** * SpecLists: what the list helpers of data_formatting should return (C51, C63-C65) *)

From Coq Require Import List String ZArith.
From Verif Require Import Base DataTables SpecTables SpecSets.
Import ListNotations.

(** The elements of a nested list that are no lists, from left to right *)
Fixpoint leaves_of {A : Type} (n : nested A) : list A :=
  match n with
  | NElem a => [a]
  | NList l => flat_map leaves_of l
  end.

(** [x] is listed in order of [l], each element as often as the list it owns has [v]. *)
Definition owners {A B : Type} `{EqDec B} (d : list (A * list B)) (v : B) : list A :=
  flat_map (fun e => repeat (fst e) (count_occ eq_dec (snd e) v)) d.

(** The train runs from [s] to [s2], with block [b] between them. *)
Definition between (tt : table) (s s2 b : string) : Prop :=
  exists mid, goes tt s s2 mid /\ In b (map r_block mid).

(** The two trains run between [s] and [s2] in the same direction. *)
Definition same_way (tt tt' : table) (s s2 : string) : Prop :=
  ((exists m, goes tt s s2 m) /\ (exists m, goes tt' s s2 m)) \/
  ((exists m, goes tt s2 s m) /\ (exists m, goes tt' s2 s m)).

(** [l1] is a consecutive part of [l2], but its first element may have lost its beginning and its
    last element its end. *)
Definition part_up_to_ends (l1 l2 : list string) : Prop :=
  (exists a pre post x y, l1 = [a] /\ l2 = pre ++ [(x ++ a ++ y)%string] ++ post) \/
  (exists a mid b pre post x y, l1 = a :: mid ++ [b] /\ l2 = pre ++ (x ++ a)%string :: mid ++ (b ++ y)%string :: post).

Definition no_blank (s : string) : Prop := forall a b, s <> (a ++ " " ++ b)%string.
