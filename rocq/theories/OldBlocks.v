(** * OldBlocks: model of the functions of data_formatting/data_formatting/utils.py that the
    rest of the repository has stopped calling (lines 187-229, 303-304, 342-346)

    blocks_list_4station_depr (lines 148-159) is left out: it calls train_time_table with one of
    its two parameters, so every call raises a TypeError.
    The file ./important_stations.npz the old functions read is the argument [st]. *)

From Coq Require Import List String ZArith QArith Bool.
From Verif Require Import Base DataTables.
Import ListNotations.
Open Scope string_scope.
Open Scope list_scope.

(** The first loop, utils.py:213-217: blocks are left out up to the first one of the station;
    IndexError if there is none (or no block at all, line 214). *)
Fixpoint from_station (bs1 : list string) (blocks : list string) : res (list string) :=
  match blocks with
  | [] => Err IndexError
  | b :: r => if lmem b bs1 then Ok blocks else from_station bs1 r
  end.

(** The second loop, utils.py:218-221: blocks are taken up to the first one of the station; the
    last block of the train is never taken. *)
Fixpoint up_to_station (bs2 : list string) (blocks : list string) : list string :=
  match blocks with
  | [] => []
  | b :: r =>
      if lmem b bs2 then []
      else match r with [] => [] | _ => b :: up_to_station bs2 r end
  end.

(** utils.py:222-226: pop(0) and pop(-1) *)
Definition pop_ends (bs1 bs2 : list string) (l : list string) : list string :=
  let l1 := match l with b :: r => if lmem b bs1 then r else l | [] => [] end in
  match rev l1 with b :: r => if lmem b bs2 then rev r else l1 | [] => [] end.

(** get_blocks_b2win_station4train_deprecable, utils.py:187-227; printing is left out.  Lines
    196-206 return the same for each way of a missing station. *)
Definition get_blocks_b2win_station4train_deprecable (data : train_dict) (st : station_blocks)
    (train : Z) (station1 station2 : string) : res (list string * option bool) :=
  do sts <- dlookup train (get_Paths data);
  if negb (lmem station1 sts) then Ok ([], None)
  else if negb (lmem station2 sts) then Ok ([], None)
  else
    do i1 <- lindex station1 sts;
    do i2 <- lindex station2 sts;
    if (i2 <? i1)%nat then Ok ([], Some true)
    else
      do tt <- train_time_table data train;
      do bs1 <- dlookup station1 st;
      do rest <- from_station bs1 (path_of tt);
      do bs2 <- dlookup station2 st;
      Ok (pop_ends bs1 bs2 (up_to_station bs2 rest), Some false).

(** get_block_speed, utils.py:303-304: the speed of the first row with the block; IndexError if
    there is none; NaN is [None] *)
Definition get_block_speed (time_table : table) (block : string) : res (option string) :=
  match filter (fun r => eqb (r_block r) block) time_table with
  | [] => Err IndexError
  | r :: _ => Ok (r_speed r)
  end.

(** get_all_important_station, utils.py:342-346 *)
Definition get_all_important_station (st : station_blocks) : list string := dkeys st.
