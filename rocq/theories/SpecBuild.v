(** * SpecBuild: input on which the solver is meant to work (C17) *)

From Coq Require Import List String ZArith QArith Bool.
From Verif Require Import Base Pulp Helpers Spec SpecNames SpecTimes.
Import ListNotations.
Open Scope string_scope.
Open Scope list_scope.

(** Train [j] ends at [s]. *)
Definition ends_here (ts : train_sets) (j s : pv) : Prop :=
  exists l, dget j (ts_Paths ts) = Some (l ++ [s]).

(** The pairs of a list, in its order. *)
Fixpoint pairs_in {A : Type} (l : list A) : list (A * A) :=
  match l with
  | [] => []
  | x :: r => map (fun z => (x, z)) r ++ pairs_in r
  end.

(** The groups list trains in the order of [J], and no two trains twice. *)
Definition proper_groups (ts : train_sets) (groups : list (list pv)) : Prop :=
  (forall js j k, In js groups -> listed js j k -> listed (ts_J ts) j k) /\
  NoDup (flat_map pairs_in groups).

(** At [s] the train uses the switches when leaving or when entering. *)
Definition proper_place (ts : train_sets) (s j place : pv) : Prop :=
  (place = PStr "out" /\ decided ts j s) \/
  (place = PStr "in" /\ exists sp, comes_before ts j sp s).

Record well_formed (ts : train_sets) (tt : timetable) (d_max : Q) : Prop := {
  (** Identifiers: no keyword, no underscore or other character that PuLP replaces, all printed
      differently; no train is called as a station, and no station "p". *)
  wf_reserved : reserved_free ts;
  wf_plain : plain_names ts;
  wf_apart : forall j s, In j (mentioned_trains ts) -> In s (mentioned_stations ts) -> str j <> str s;
  wf_p : forall s, In s (mentioned_stations ts) -> str s <> "p";

  (** Python dictionaries have each key once. *)
  wf_Jd_keys : NoDup (dkeys (ts_Jd ts));
  wf_inner_keys : forall s inner, In (s, inner) (ts_Jd ts) -> NoDup (dkeys inner);
  wf_line_keys : NoDup (dkeys (ts_Josingle ts));
  wf_round_keys : NoDup (dkeys (ts_Jround ts));
  wf_track_keys : NoDup (dkeys (ts_Jtrack ts));
  wf_switch_keys : NoDup (dkeys (ts_Jswitch ts));

  (** Trains: each once, with a path that visits no station twice; the sets mention no others. *)
  wf_trains : NoDup (ts_J ts);
  wf_known : forall j, In j (mentioned_trains ts) -> In j (ts_J ts);
  wf_paths : forall j, In j (ts_J ts) ->
    exists path, dget j (ts_Paths ts) = Some path /\ NoDup path;

  (** Times: where the train starts, from each station to the next, and where it stops and leaves. *)
  wf_start : forall j s, starts_at ts j s -> exists q, initially tt j s q;
  wf_run : forall j sp s, comes_before ts j sp s -> exists r, running tt j sp s r;
  wf_stop : forall j sp s, comes_before ts j sp s -> decided ts j s -> exists q, min_stop tt j s q;
  wf_reservation : exists r, reservation tt r;

  (** Only the end of a path can be skipped; where skipping is used, stations are strings. *)
  wf_skip : forall j s, skipped ts j s -> on_path ts j s -> ends_here ts j s;
  wf_skip_text : forall j s, skipped ts j s -> exists t, s = PStr t;
  wf_track_text : forall s groups, ts_skip ts <> None -> In (s, groups) (ts_Jtrack ts) ->
    exists t, s = PStr t;

  (** Lines: trains that follow each other depart there, and their headways are given. *)
  wf_Jd : forall s inner sp groups, In (s, inner) (ts_Jd ts) -> In (sp, groups) inner ->
    proper_groups ts groups /\
    forall js j k, In js groups -> listed js j k ->
      decided ts j s /\ decided ts k s /\
      (exists h, headway tt j k s sp h) /\ (exists h, headway tt k j s sp h);

  (** Single-track lines: one train runs there, the other one back; no pair is listed twice. *)
  wf_line : forall s sp l, In ((s, sp), l) (ts_Josingle ts) -> NoDup l /\
    forall j k, In (j, k) l -> comes_before ts j s sp /\ comes_before ts k sp s /\
      (forall l', In ((sp, s), l') (ts_Josingle ts) -> ~ In (k, j) l');

  (** Turnarounds: the first train ends at the station, the other one starts from there. *)
  wf_round : forall s l, In (s, l) (ts_Jround ts) -> NoDup l /\
    forall j k, In (j, k) l ->
      ends_here ts j s /\ (exists sp, comes_before ts j sp s) /\
      starts_at ts k s /\ decided ts k s /\ (exists q, preparation tt k s q);

  (** Station tracks: trains of one track visit the station; with a train that ends there its
      continuation is listed. *)
  wf_track : forall s groups, In (s, groups) (ts_Jtrack ts) ->
    proper_groups ts groups /\
    (forall js j, In js groups -> In j js -> on_path ts j s) /\
    (forall js j jn, In js groups -> In j js -> continues_as ts s j jn -> In jn js);

  (** Switches: two trains, in the order of [J], each entry once; lines on which both trains
      come to the station are listed. *)
  wf_switch : forall s l, In (s, l) (ts_Jswitch ts) -> NoDup l /\
    forall pair, In pair l -> exists j a k b, pair = [(j, a); (k, b)] /\ listed (ts_J ts) j k /\
      proper_place ts s j a /\ proper_place ts s k b /\
      (a = PStr "in" -> b = PStr "in" -> forall sp, comes_before ts j sp s -> comes_before ts k sp s ->
         ts_Jd ts = [] \/
         exists inner groups, dget sp (ts_Jd ts) = Some inner /\ dget s inner = Some groups);

  (** Weights are given for decided departures. *)
  wf_weights : forall j s w, In j (ts_J ts) -> on_path ts j s ->
    dget (joined [j; s]) (tt_weights tt) = Some w -> ~ w == 0 -> decided ts j s;
  wf_dmax : ~ d_max == 0 }.
