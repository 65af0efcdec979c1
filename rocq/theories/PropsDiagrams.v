(** * PropsDiagrams: train path diagrams and statistics of delays (C74, C75, C76) *)

From Coq Require Import List String Ascii ZArith QArith Qround Qabs Bool Lia Lqa Permutation.
From Verif Require Import Base BaseFacts Pulp Helpers LinearSolver Emit Origin Complete Spec SpecFacts DelayVars SpecCompare
  SpecNames SpecTimes SpecDurations Rules Names Objective Check Examples DataTables DataTimes Pipeline TimeFacts Compare
  PropsIlp PropsVars PropsCompare PropsQubo PropsTimes PropsPrint Diagrams SpecDiagrams DiagramFacts.
From Verif Require Import Spec.
Import ListNotations.
Open Scope string_scope.
Open Scope list_scope.

(** ** The printed schedule lists the stations in the order of the path *)

Lemma step_keys prob tt ts pass skip d t_ref value j acc s acc' :
  print_stop prob tt ts pass skip d t_ref value j acc s = Ok acc' -> ~ In s (dkeys (snd acc)) ->
  dkeys (snd acc') = dkeys (snd acc) ++ [s].
Proof.
  destruct acc as [[[sp dp] dc] sched]. unfold print_stop. destruct (match dget _ pass with Some q => _ | None => _ end) as [ar ca].
  cbn [snd]. intros H N. apply dmem_false in N.
  destruct (match dget j skip with Some _ => _ | None => _ end).
  - inversion H; subst. cbn [snd]. rewrite dkeys_dset, N. reflexivity.
  - inv_bind H. inv_bind H. destruct a0 as [[? ?] ?]. inversion H; subst. cbn [snd]. rewrite dkeys_dset, N. reflexivity.
Qed.

Lemma fold_keys prob tt ts pass skip d t_ref value j path : forall acc r,
  foldM (print_stop prob tt ts pass skip d t_ref value j) path acc = Ok r -> NoDup (dkeys (snd acc) ++ path) ->
  dkeys (snd r) = dkeys (snd acc) ++ path.
Proof.
  induction path as [|s path IH]; intros acc r H N; cbn [foldM] in H; [inversion H; rewrite app_nil_r; reflexivity|]. inv_bind H.
  assert (K : dkeys (snd a) = dkeys (snd acc) ++ [s]).
  { apply (step_keys _ _ _ _ _ _ _ _ _ _ _ _ E). apply NoDup_remove_2 in N. intros I. apply N, in_or_app. left. exact I. }
  rewrite (IH _ _ H); rewrite K, <- app_assoc; [reflexivity|exact N].
Qed.

Lemma printed_keys p tt ts pass skip d t_ref value sched j path printed :
  print_optimisation_results p tt ts pass skip d t_ref value = Ok sched -> In j (ts_J ts) -> dget j (ts_Paths ts) = Some path -> NoDup path ->
  dget j sched = Some printed ->
  exists r, foldM (print_stop p tt ts pass skip d t_ref value j) path (PInt 0, 0, 0, []) = Ok r /\ snd r = printed /\ dkeys printed = path.
Proof.
  intros HP Ij Gj ND Gp.
  assert (J : exists r, dget j sched = Some (snd r) /\
     foldM (print_stop p tt ts pass skip d t_ref value j) path (PInt 0, 0, 0, []) = Ok r).
  { unfold print_optimisation_results in HP.
    refine (foldM_reach (fun sched => exists r, dget j sched = Some (snd r) /\
      foldM (print_stop p tt ts pass skip d t_ref value j) path (PInt 0, 0, 0, []) = Ok r) (fun _ => True) _ _ _ _ j Ij Logic.I _ _ _ HP); auto.
    - intros acc acc' _ E. inv_bind E. inv_bind E. inversion E; subst; clear E. unfold dlookup in E0. rewrite Gj in E0. inversion E0; subst.
      exists a0. rewrite dget_dset. destruct (eq_dec j j); [|congruence]. auto.
    - intros acc k acc' _ _ (r & G & F) E. inv_bind E. inv_bind E. inversion E; subst; clear E. rewrite dget_dset. destruct (eq_dec j k) as [->|].
      + unfold dlookup in E0. rewrite Gj in E0. inversion E0; subst. exists a0. auto.
      + eauto. }
  destruct J as (r & G & F). exists r. split; [exact F|]. assert (snd r = printed) by congruence. subst printed. split; [reflexivity|].
  apply (fold_keys _ _ _ _ _ _ _ _ _ _ _ _ F). exact ND.
Qed.

Lemma adjacent ts j path u sp s v : dget j (ts_Paths ts) = Some path -> NoDup path -> path = u ++ sp :: s :: v -> comes_before ts j sp s.
Proof.
  intros G N E. exists path, u, v. split; [exact G|]. split; [exact E|]. subst path.
  replace (u ++ sp :: s :: v) with ((u ++ [sp]) ++ s :: v) in N by (rewrite <- app_assoc; reflexivity).
  apply NoDup_remove_2 in N. intros I. apply N, in_or_app. left. exact I.
Qed.

(** A chain, read off a dictionary *)
Lemma chain_dict conflicted (d : dict pv stop_entry) : NoDup (dkeys d) ->
  (forall u sp s v, dkeys d = u ++ sp :: s :: v -> exists ksp ks t a, dget sp d = Some ksp /\ dget s d = Some ks /\
     departure_of conflicted ksp = Some t /\ arrival_of conflicted ks = Some a /\ (t <= a)%Z /\
     forall t', departure_of conflicted ks = Some t' -> (a <= t')%Z) ->
  (forall s r k, dkeys d = s :: r -> dget s d = Some k -> arrival_of conflicted k = None) ->
  chain (stops_of conflicted d).
Proof.
  intros N H F.
  assert (G : forall l u, d = u ++ l ->
    (forall e r, l = e :: r -> forall a t, arrival_of conflicted (snd e) = Some a -> departure_of conflicted (snd e) = Some t -> (a <= t)%Z) ->
    chain (stops_of conflicted l)).
  { induction l as [|[s k] l IH]; intros u E B; [exact Logic.I|]. cbn [stops_of map chain]. split; [|split].
    - intros a t A T. unfold arr_, dep_ in A, T. cbn [fst snd] in A, T. exact (B (s, k) l eq_refl a t A T).
    - destruct l as [|[s' k'] l]; [exact Logic.I|]. cbn [map].
      destruct (H (map fst u) s s' (map fst l)) as (ksp & ks & t & a & G1 & G2 & T & A & L & _).
      { rewrite E. unfold dkeys. rewrite map_app. reflexivity. }
      assert (E1 : dget s d = Some k) by (apply in_dget; [exact N|rewrite E; apply in_or_app; right; left; reflexivity]).
      assert (E2 : dget s' d = Some k') by (apply in_dget; [exact N|rewrite E; apply in_or_app; right; right; left; reflexivity]).
      exists t, a. unfold arr_, dep_. cbn [fst snd]. split; [congruence|]. split; [congruence|exact L].
    - apply (IH (u ++ [(s, k)])); [rewrite <- app_assoc; exact E|]. intros [s' k'] r El a t A T. subst l. cbn [snd] in A, T.
      destruct (H (map fst u) s s' (map fst r)) as (ksp & ks & t0 & a0 & G1 & G2 & T0 & A0 & L & M).
      { rewrite E. unfold dkeys. rewrite map_app. reflexivity. }
      assert (E2 : dget s' d = Some k') by (apply in_dget; [exact N|rewrite E; apply in_or_app; right; right; left; reflexivity]).
      assert (ks = k') by congruence. subst ks. assert (a0 = a) by congruence. subst a0. apply M. exact T. }
  apply (G d []); [reflexivity|]. intros [s k] r E a t A T. exfalso. cbn [snd] in A.
  rewrite (F s (map fst r) k) in A; [discriminate A|rewrite E; reflexivity|]. apply in_dget; [exact N|rewrite E; left; reflexivity].
Qed.

Lemma earliest_whole ts tt j s e : integral_times tt -> earliest ts tt j s e -> exists z, e == inject_Z z.
Proof.
  intros HI H. destruct (earliest_dep_time_complete ts tt j s e H) as (e' & E & Q). destruct (int_edt ts tt HI j s e' E) as (z & Z). exists z. rewrite Q. exact Z.
Qed.

Lemma not_before_le tt j s t e : not_before_schedule tt j s t e -> t <= e.
Proof. intros [(q & _ & [[A B]|[A B]])|[_ B]]; lra. Qed.

(** C74.  Of a train whose times are whole minutes, with running times and stops that are not negative, the path that is
    drawn for a feasible solution is the path of the train, its times never go back, and they are the
    departures and arrivals of the solution.  The same holds for the drawn path without conflicts. *)
Theorem C74_drawn_path_partial : forall ts tt d_max p x value pass skip t_ref sched,
  reserved_free ts -> plain_names ts -> none_free tt -> integral_times tt ->
  create_linear_problem ts tt d_max Integer = Ok p -> feasible p x ->
  (forall v, In v (variables p) -> value v = Some (x (v_id v))) ->
  print_optimisation_results p tt ts pass skip d_max t_ref value = Ok sched ->
  forall j path, In j (ts_J ts) -> dget j (ts_Paths ts) = Some path -> NoDup path ->
  (forall s, In s path -> dget j skip = Some s -> exists u, path = u ++ [s]) ->
  (forall s, In s path -> dget j skip <> Some s -> In ("Delays", [j; s]) (map v_id (variables p))) ->
  (forall sp s, comes_before ts j sp s -> exists r q, Spec.running tt j sp s r /\ 0 <= r /\
     dget (joined [j; sp; s]) pass = Some q /\ in_resolution 1 q r) ->
  (forall s st, In s path -> min_stop tt j s st -> 0 <= st) ->
  (forall s, starts_at ts j s -> dget (joined [j; PInt 0; s]) pass = None /\ exists e, earliest ts tt j s e) ->
  (forall s i, In s path -> initially tt j s i -> starts_at ts j s) ->
  exists printed, dget j sched = Some printed /\ forall conflicted, exists tp, kdtrain2trainpath j printed conflicted = Ok tp /\
    tp_number tp = str j /\ tp_route tp = path /\ map (fun s => fst (fst s)) (tp_path tp) = path /\ never_back (moments (tp_path tp)) /\
    (conflicted = false -> forall s a d, In (s, a, d) (tp_path tp) ->
       (forall z, departs ts tt p x j s (inject_Z z) -> dget j skip <> Some s -> d = Some (t_ref + z)%Z) /\
       (forall z, arrives ts tt p x j s (inject_Z z) -> a = Some (t_ref + z)%Z)).
Proof.
  intros ts tt dm p x value pass skip t_ref sched RF PN NF HI Hp HX HV HP j path Ij Gj ND SK DV RU ST S0 IN.
  destruct (C67_printed_partial ts tt dm Integer p x value pass skip t_ref sched RF PN Hp HV HP j path Ij Gj ND) as (printed & Gp & K).
  destruct (printed_keys _ _ _ _ _ _ _ _ _ _ _ _ HP Ij Gj ND Gp) as (r & F & Er & EK).
  exists printed. split; [exact Gp|].
  assert (DEC : forall s, In s path -> dget j skip <> Some s -> decided ts j s).
  { intros s I S. specialize (DV s I S). apply in_map_iff in DV as (v & E & Iv).
    destruct (proj2 (C13_delay_variables ts dm Integer RF) tt p Hp v Iv) as (j' & s' & D & ->); [unfold v_id in E; injection E as E _; exact E|].
    unfold v_id in E. cbn in E. injection E as -> ->. exact D. }
  assert (XI : forall s, In s path -> dget j skip <> Some s -> exists z, (0 <= z)%Z /\ x ("Delays", [j; s]) == inject_Z z /\ value_in p x ("Delays", [j; s]) == inject_Z z).
  { intros s I S. pose proof (DV s I S) as D. pose proof D as D'. apply in_map_iff in D as (v & E & Iv).
    destruct (proj2 (C13_delay_variables ts dm Integer RF) tt p Hp v Iv) as (j' & s' & _ & ->); [unfold v_id in E; injection E as E _; exact E|].
    destruct (proj2 HX _ Iv) as (L & _ & W). specialize (W eq_refl). specialize (L 0 eq_refl). rewrite E in W, L. destruct W as (z & Z).
    exists z. split; [|split; [exact Z|]].
    - rewrite Zle_Qle. change (inject_Z 0) with 0. lra.
    - unfold value_in. replace (lmem ("Delays", [j; s]) (map v_id (variables p))) with true; [exact Z|]. symmetry. apply lmem_true. exact D'. }
  (* earliest departures at all stations that are not left out *)
  assert (EA : forall u s v, path = u ++ s :: v -> dget j skip <> Some s -> exists e, earliest ts tt j s e).
  { intros u s v E S. destruct u as [|b u _] using rev_ind.
    - apply (S0 s). exists v. rewrite Gj, E. reflexivity.
    - rewrite <- app_assoc in E. cbn [app] in E. pose proof (adjacent ts j path u b s v Gj ND E) as CB.
      destruct (C03_minimal_stay ts tt dm Integer p x RF NF Hp HX j b s Ij CB) as (t & t' & rr & st & _ & (e & Ee & _) & _);
        [apply DEC; [rewrite E; apply in_or_app; right; right; left; reflexivity|exact S]|]. eauto. }
  assert (SKP : forall u sp s v, path = u ++ sp :: s :: v -> dget j skip <> Some sp).
  { intros u sp s v E S. destruct (SK sp) as (w & W); [rewrite E; apply in_or_app; right; left; reflexivity|exact S|].
    assert (E' : (u ++ [sp]) ++ s :: v = w ++ [sp]) by (rewrite <- app_assoc; cbn [app]; rewrite <- E; exact W).
    rewrite E in ND. replace (u ++ sp :: s :: v) with ((u ++ [sp]) ++ s :: v) in ND by (rewrite <- app_assoc; reflexivity).
    assert (X : exists m, s :: v = m ++ [sp]).
    { clear - E'. revert w E'. induction (u ++ [sp]) as [|y m IH]; intros w E'; [exists w; exact E'|].
      destruct w as [|y' w]; cbn [app] in E'; injection E' as _ E'; [destruct m; discriminate E'|]. exact (IH w E'). }
    destruct X as (m & X). rewrite X in ND. rewrite <- app_assoc in ND. cbn [app] in ND. apply NoDup_remove_2 in ND. apply ND.
    rewrite app_nil_r || idtac. apply in_or_app. right. apply in_or_app. right. left. reflexivity. }
  (* the two neighbouring entries *)
  assert (NB : forall conflicted u sp s v, path = u ++ sp :: s :: v -> exists ksp ks t a, dget sp printed = Some ksp /\ dget s printed = Some ks /\
     departure_of conflicted ksp = Some t /\ arrival_of conflicted ks = Some a /\ (t <= a)%Z /\
     forall t', departure_of conflicted ks = Some t' -> (a <= t')%Z).
  { intros conflicted u sp s v E.
    assert (Isp : In sp path) by (rewrite E; apply in_or_app; right; left; reflexivity).
    assert (Is : In s path) by (rewrite E; apply in_or_app; right; right; left; reflexivity).
    pose proof (adjacent ts j path u sp s v Gj ND E) as CB. pose proof (SKP u sp s v E) as S.
    destruct (EA u sp (s :: v) E S) as (e & Ee). destruct (earliest_whole _ _ _ _ _ HI Ee) as (ez & Ez).
    destruct (XI sp Isp S) as (dz & Dz0 & Dz & Dv). destruct (RU sp s CB) as (rr & q & Ru & R0 & Gq & Rq).
    assert (RZ : exists w, rr == inject_Z w /\ (0 <= w)%Z).
    { destruct Rq as [_ Rq]. destruct (Rq eq_refl) as (w & Ew & _). exists w. subst rr. split; [reflexivity|]. rewrite Zle_Qle. exact R0. }
    destruct RZ as (w & Ew & W0).
    destruct (K sp Isp) as (ksp & G1 & _ & K1 & _). destruct (K s Is) as (ks & G2 & KS & K2 & K3).
    specialize (K1 S (DV sp Isp S)). destruct K1 as (KD & _ & KC). specialize (K3 sp rr q CB S (DV sp Isp S) Ru Gq Rq). destruct K3 as (KA & KCA).
    assert (DEP : departs ts tt p x j sp (inject_Z (ez + dz))) by (exists e; split; [exact Ee|]; rewrite inject_Z_plus; lra).
    assert (ARR : arrives ts tt p x j s (inject_Z (ez + dz + w))) by (exists sp, (inject_Z (ez + dz)), rr; split; [exact CB|]; split; [exact DEP|]; split; [exact Ru|]; rewrite (inject_Z_plus (ez + dz)); lra).
    specialize (KD _ DEP). specialize (KA _ ARR). specialize (KC e ez Ee Ez). specialize (KCA e (ez + w)%Z Ee). 
    assert (Ecw : e + rr == inject_Z (ez + w)) by (rewrite inject_Z_plus; lra). specialize (KCA Ecw).
    exists ksp, ks. destruct conflicted; cbn [departure_of arrival_of].
    - exists (t_ref + ez)%Z, (t_ref + (ez + w))%Z. repeat (split; [assumption|]). split; [lia|]. intros t' T'.
      destruct (eq_dec (dget j skip) (Some s)) as [Sk|Sk]; [destruct (KS Sk) as (_ & _ & N); congruence|].
      destruct (K2 Sk (DV s Is Sk)) as (_ & _ & KC2). destruct (EA (u ++ [sp]) s v) as (e2 & Ee2); [rewrite <- app_assoc; exact E|exact Sk|].
      destruct (earliest_whole _ _ _ _ _ HI Ee2) as (ez2 & Ez2). rewrite (KC2 e2 ez2 Ee2 Ez2) in T'. injection T' as <-.
      assert (L : inject_Z (ez + w) <= inject_Z ez2); [|rewrite <- Zle_Qle in L; lia].
      inversion Ee2 as [? i ? Hi Hs|? sp' e0 r0 st0 ? NI CB' Ee0 Ru' St' Hs]; subst.
      + exfalso. destruct (IN s i Is Hi) as (l & Gl). rewrite Gj in Gl. injection Gl as Gl. destruct u as [|y u]; cbn [app] in E; rewrite E in Gl; injection Gl as -> Gl.
        * rewrite E in ND. inversion ND as [|? ? X _]. apply X. left. reflexivity.
        * rewrite E in ND. inversion ND as [|? ? X _]. apply X. apply in_or_app. right. right. left. reflexivity.
      + assert (sp' = sp) by (apply (comes_before_fun ts j s); assumption). subst sp'. unfold Spec.running in Ru, Ru'. assert (r0 = rr) by congruence. subst r0.
        apply not_before_le in Hs. specialize (ST s st0 Is St'). pose proof (earliest_fun _ _ _ _ _ _ Ee0 Ee). lra.
    - exists (t_ref + (ez + dz))%Z, (t_ref + (ez + dz + w))%Z. repeat (split; [assumption|]). split; [lia|]. intros t' T'.
      destruct (eq_dec (dget j skip) (Some s)) as [Sk|Sk]; [destruct (KS Sk) as (N & _ & _); congruence|].
      destruct (K2 Sk (DV s Is Sk)) as (KD2 & _ & _). destruct (EA (u ++ [sp]) s v) as (e2 & Ee2); [rewrite <- app_assoc; exact E|exact Sk|].
      destruct (earliest_whole _ _ _ _ _ HI Ee2) as (ez2 & Ez2). destruct (XI s Is Sk) as (dz2 & _ & _ & Dv2).
      assert (DEP2 : departs ts tt p x j s (inject_Z (ez2 + dz2))) by (exists e2; split; [exact Ee2|]; rewrite inject_Z_plus; lra).
      rewrite (KD2 _ DEP2) in T'. injection T' as <-.
      destruct (C03_minimal_stay ts tt dm Integer p x RF NF Hp HX j sp s Ij CB (DEC s Is Sk)) as (t1 & t2 & r1 & st1 & (e1' & Ee1 & T1) & (e2' & Ee2' & T2) & Ru1 & St1 & LE).
      unfold Spec.running in Ru, Ru1. assert (r1 = rr) by congruence. subst r1. specialize (ST s st1 Is St1).
      pose proof (earliest_fun _ _ _ _ _ _ Ee1 Ee). pose proof (earliest_fun _ _ _ _ _ _ Ee2' Ee2).
      assert (L : inject_Z (ez + dz + w) <= inject_Z (ez2 + dz2)); [|rewrite <- Zle_Qle in L; lia]. rewrite !inject_Z_plus. lra. }
  assert (NDk : NoDup (dkeys printed)) by (rewrite EK; exact ND).
  assert (FA : forall conflicted s rest k, dkeys printed = s :: rest -> dget s printed = Some k -> arrival_of conflicted k = None).
  { intros conflicted s rest k E G. rewrite EK in E. destruct (S0 s) as [Z _]; [exists rest; rewrite Gj, E; reflexivity|].
    rewrite E in F. cbn [foldM] in F. inv_bind F.
    destruct (step_arrive _ _ _ _ _ _ _ _ _ _ _ _ _ _ _ E0) as (k' & G' & A). rewrite Z in A.
    assert (Gk : dget s (snd r) = dget s (snd a)).
    { apply (fold_other _ _ _ _ _ _ _ _ _ _ _ _ _ F). rewrite E in ND. inversion ND; assumption. }
    rewrite Er in Gk. assert (k' = k) by congruence. subst k'. destruct conflicted; cbn [arrival_of]; apply A. }
  assert (CH : forall conflicted, chain (stops_of conflicted printed)).
  { intros conflicted. apply chain_dict; [exact NDk| |exact (FA conflicted)]. intros u sp s v E. rewrite EK in E. exact (NB conflicted u sp s v E). }
  intros conflicted. exists (MkPath (str j) conflicted (dkeys printed) (stops_of conflicted printed)).
  split; [apply trainpath_chain; [exact NDk|exact (CH false)]|]. cbn [tp_number tp_route tp_path]. split; [reflexivity|]. split; [exact EK|].
  split; [unfold stops_of; rewrite map_map; cbn [fst]; exact EK|].
  split; [apply chain_never_back, CH|]. intros -> s a d I. unfold stops_of in I. apply in_map_iff in I as ([s' k] & E & I). injection E as -> <- <-. cbn [snd].
  assert (G : dget s printed = Some k) by (apply in_dget; [exact NDk|exact I]).
  assert (Is : In s path) by (rewrite <- EK; apply in_map_iff; exists (s, k); auto).
  destruct (K s Is) as (k' & G' & _ & K2 & K3). assert (k' = k) by congruence. subst k'. cbn [arrival_of departure_of]. split.
  - intros z Dz Sk. exact (proj1 (K2 Sk (DV s Is Sk)) z Dz).
  - intros z Az. pose proof Az as (sp & t0 & r0 & CB & _). pose proof CB as (path' & l1 & l2 & Gpp & Ep & _).
    rewrite Gj in Gpp. injection Gpp as <-. pose proof (SKP l1 sp s l2 Ep) as Sk. destruct (RU sp s CB) as (rr & q & Ru & _ & Gq & Rq).
    refine (proj1 (K3 sp rr q CB Sk (DV sp _ Sk) Ru Gq Rq) z Az). rewrite Ep. apply in_or_app. right. left. reflexivity.
Qed.
Print Assumptions C74_drawn_path_partial.

(** The points drawn on a segment: exactly the arrivals and departures at stations of the segment, at the
    kilometre of the station and the minute of the day; and when all times are of one day the drawn times
    of a path that never goes back never go back. *)
Theorem C74_points : forall tp seg,
  (forall km m, In (km, m) (echo_gnuplot_train tp seg) <->
     exists s a d t, In (s, a, d) (tp_path tp) /\ lies_at seg s km /\ (a = Some t \/ d = Some t) /\ minute_of_day t m) /\
  (forall day, never_back (moments (tp_path tp)) -> (forall t, In t (moments (tp_path tp)) -> 1440 * day <= t < 1440 * (day + 1))%Z ->
     never_back (map snd (echo_gnuplot_train tp seg))).
Proof.
  intros tp seg. split; [intros km m; apply drawn_iff|]. unfold echo_gnuplot_train. induction (tp_path tp) as [|[[s a] d] l IH]; intros day N B; [exact never_back_nil|].
  assert (CL : forall t, (1440 * day <= t < 1440 * (day + 1))%Z -> clock t = (t - 1440 * day)%Z).
  { intros t H. apply clock_minute. split; [lia|]. exists day. lia. }
  rewrite moments_cons in N, B. unfold arr_, dep_ in N, B. cbn [fst snd] in N, B.
  assert (T : forall u w, never_back (u ++ w) -> never_back w).
  { intros u w H l1 y l2 b l3 E. apply (H (u ++ l1) y l2 b l3). rewrite E, <- app_assoc. reflexivity. }
  assert (G : forall y z, never_back (y :: z) -> forall b, In b z -> (y <= b)%Z).
  { intros y z H b I. apply in_split in I as (v & w & ->). exact (H [] y v b w eq_refl). }
  specialize (IH day (T _ _ (T _ _ N)) (fun t I => B t (in_or_app _ _ t (or_intror (in_or_app _ _ t (or_intror I)))))).
  assert (SUB : forall m, In m (map snd (flat_map (fun s => let '(station, arrival, departure) := s in
      match station2km station seg with
      | Ok km => (match arrival with Some a => [(km, clock a)] | None => [] end) ++ (match departure with Some d => [(km, clock d)] | None => [] end)
      | Err _ => []
      end) l)) -> exists t, In t (moments l) /\ m = clock t).
  { intros m I. apply in_map_iff in I as ([km m'] & Em & I). cbn [snd] in Em. subst m'. apply in_flat_map in I as ([[s' a'] d'] & I1 & I2).
    destruct (station2km s' seg); [|destruct I2]. unfold moments. apply in_app_or in I2 as [I2|I2].
    - destruct a' as [t|]; [|destruct I2]. destruct I2 as [I2|[]]. injection I2 as _ <-. exists t. split; [|reflexivity]. apply in_flat_map. eexists. split; [exact I1|]. left. reflexivity.
    - destruct d' as [t|]; [|destruct I2]. destruct I2 as [I2|[]]. injection I2 as _ <-. exists t. split; [|reflexivity]. apply in_flat_map. eexists. split; [exact I1|].
      apply in_or_app. right. left. reflexivity. }
  cbn [flat_map]. rewrite map_app. destruct (station2km s seg) as [km|]; [|exact IH]. rewrite map_app, <- app_assoc.
  set (rest := map snd (flat_map _ l)) in *.
  assert (D : never_back (map snd (match d with Some d => [(km, clock d)] | None => [] end) ++ rest)).
  { destruct d as [d|]; [|exact IH]. cbn [map app snd]. apply never_back_cons; [|exact IH]. intros b I. destruct (SUB b I) as (t & It & ->).
    assert (L : (d <= t)%Z) by (apply (G d (moments l) (T (given a) _ N)); exact It).
    rewrite !CL; [lia|apply B; rewrite !in_app_iff; auto|apply B; rewrite !in_app_iff; right; left; left; reflexivity]. }
  destruct a as [a|]; [|exact D]. cbn [map app snd]. apply never_back_cons; [|exact D]. intros b I. cbn [given app] in N.
  assert (X : exists t, In t (given d ++ moments l) /\ b = clock t).
  { apply in_app_or in I as [I|I].
    - destruct d as [d|]; [|destruct I]. destruct I as [I|[]]. exists d. split; [left; reflexivity|]. symmetry. exact I.
    - destruct (SUB b I) as (t & It & ->). exists t. split; [apply in_or_app; right; exact It|reflexivity]. }
  destruct X as (t & It & ->). pose proof (G a _ N t It) as L. rewrite !CL; [lia|apply B; right; exact It|apply B; left; reflexivity].
Qed.
Print Assumptions C74_points.

(** Labels stand halfway between two stations drawn one after the other. *)
Theorem C74_labels : forall tp seg km m n, In (km, m, n) (echo_gnuplot_train_labels tp seg) ->
  n = tp_number tp /\ exists u s a d v s' a' d' w kms kms' t,
    tp_path tp = u ++ (s, a, Some d) :: v ++ (s', Some a', d') :: w /\
    (forall e q, In e v -> lies_at seg (fst (fst e)) q -> snd e = None) /\
    lies_at seg s kms /\ lies_at seg s' kms' /\ km == (kms + kms') / 2 /\
    (2 * t <= d + a' < 2 * t + 2)%Z /\ minute_of_day t m.
Proof.
  intros tp seg km m n. unfold echo_gnuplot_train_labels.
  set (step := fun (acc : option (Q * Z) * list (Q * Z * string)) (s : pv * option Z * option Z) => _).
  assert (G : forall l pre prev out, tp_path tp = pre ++ l ->
    (forall x, In x out -> snd x = tp_number tp /\ exists u s a d v s' a' d' w kms kms' t,
      tp_path tp = u ++ (s, a, Some d) :: v ++ (s', Some a', d') :: w /\
      (forall e q, In e v -> lies_at seg (fst (fst e)) q -> snd e = None) /\
      lies_at seg s kms /\ lies_at seg s' kms' /\ fst (fst x) == (kms + kms') / 2 /\
      (2 * t <= d + a' < 2 * t + 2)%Z /\ minute_of_day t (snd (fst x))) ->
    (forall q d, prev = Some (q, d) -> exists u s a v, pre = u ++ (s, a, Some d) :: v /\ lies_at seg s q /\
        forall e q', In e v -> lies_at seg (fst (fst e)) q' -> snd e = None) ->
    forall x, In x (snd (fold_left step l (prev, out))) -> snd x = tp_number tp /\ exists u s a d v s' a' d' w kms kms' t,
      tp_path tp = u ++ (s, a, Some d) :: v ++ (s', Some a', d') :: w /\
      (forall e q, In e v -> lies_at seg (fst (fst e)) q -> snd e = None) /\
      lies_at seg s kms /\ lies_at seg s' kms' /\ fst (fst x) == (kms + kms') / 2 /\
      (2 * t <= d + a' < 2 * t + 2)%Z /\ minute_of_day t (snd (fst x))).
  { induction l as [|[[s a] d] l IH]; intros pre prev out E HO HP x I; [exact (HO x I)|]. cbn [fold_left] in I.
    assert (E' : tp_path tp = (pre ++ [(s, a, d)]) ++ l) by (rewrite <- app_assoc; exact E).
    unfold step at 2 in I. destruct (station2km s seg) as [kms|] eqn:K.
    - apply station2km_iff in K.
      set (out' := match a, prev with Some a0, Some (prev_km, prev_t) => _ | _, _ => _ end) in I.
      apply (IH (pre ++ [(s, a, d)]) _ out' E') in I; [exact I| |].
      + intros y Iy. unfold out' in Iy. destruct a as [a|]; [|exact (HO y Iy)]. destruct prev as [[pk pt]|]; [|exact (HO y Iy)].
        apply in_app_or in Iy as [Iy|[<-|[]]]; [exact (HO y Iy)|]. cbn [fst snd]. split; [reflexivity|].
        destruct (HP pk pt eq_refl) as (u & s0 & a0 & v & Ep & L0 & Hv). exists u, s0, a0, pt, v, s, a, d, l, pk, kms, (pt + (a - pt) / 2)%Z.
        split; [rewrite E, Ep, <- app_assoc; reflexivity|]. split; [exact Hv|]. split; [exact L0|]. split; [exact K|]. split; [field|].
        split; [pose proof (Z.div_mod (a - pt) 2); pose proof (Z.mod_pos_bound (a - pt) 2); lia|]. apply clock_minute. reflexivity.
      + intros q dd Ed. destruct d as [d|].
        * injection Ed as -> ->. exists pre, s, a, []. split; [reflexivity|]. split; [exact K|]. intros e q' [].
        * destruct (HP q dd Ed) as (u & s0 & a0 & v & Ep & L0 & Hv). exists u, s0, a0, (v ++ [(s, a, None)]).
          split; [rewrite Ep, <- app_assoc; reflexivity|]. split; [exact L0|]. intros e q' Ie Lq. apply in_app_or in Ie as [Ie|[<-|[]]]; [exact (Hv e q' Ie Lq)|reflexivity].
    - apply (IH (pre ++ [(s, a, d)]) _ out E') in I; [exact I|exact HO|]. intros q dd Ed.
      destruct (HP q dd Ed) as (u & s0 & a0 & v & Ep & L0 & Hv). exists u, s0, a0, (v ++ [(s, a, d)]).
      split; [rewrite Ep, <- app_assoc; reflexivity|]. split; [exact L0|]. intros e0 q' Ie Lq. apply in_app_or in Ie as [Ie|[<-|[]]]; [exact (Hv e0 q' Ie Lq)|].
      cbn [fst] in Lq. apply station2km_iff in Lq. congruence. }
  intros I. apply (G (tp_path tp) [] None []) in I; [|reflexivity|intros y []|intros q d E; discriminate E]. exact I.
Qed.
Print Assumptions C74_labels.

Lemma on_segment_iff exc s seg b : station_on_segment exc s seg = Ok b ->
  (b = true <-> (exists km, lies_at seg s km) /\ forall e w, In e exc -> s = PStr w -> ~ same_word e w).
Proof.
  unfold station_on_segment, dlookup. destruct (dget seg RAILWAYSEGMENTS) as [l|] eqn:G; [|discriminate]. cbn [bind].
  destruct s as [|z|s]; try discriminate. intros H. injection H as <-. rewrite Nat.ltb_lt. split.
  - intros L. destruct (filter _ l) as [|x r] eqn:F; [cbn in L; lia|].
    assert (I : In x (filter (fun x => matches s x && negb (existsb (eqb (upper s)) (map upper exc))) l)) by (rewrite F; left; reflexivity).
    apply filter_In in I as [I M]. apply andb_true_iff in M as [M N]. split.
    + destruct (station2km (PStr s) seg) as [km|] eqn:K; [exists km; apply station2km_iff; exact K|]. exfalso. unfold station2km in K. rewrite G in K.
      destruct (filter (matches s) l) eqn:F2; [|discriminate K]. assert (X : In x (filter (matches s) l)) by (apply filter_In; auto). rewrite F2 in X. destruct X.
    + intros e w Ie Ew. injection Ew as <-. intros W. apply negb_true_iff in N. rewrite <- not_true_iff_false, existsb_exists in N. apply N. exists (upper e).
      split; [apply in_map; exact Ie|]. apply eqb_true. symmetry. apply upper_word. exact W.
  - intros ((km & (l' & pre & x & post & G' & -> & A & _)) & N). rewrite G in G'. injection G' as ->.
    assert (X : negb (existsb (eqb (upper s)) (map upper exc)) = true).
    { apply negb_true_iff. rewrite <- not_true_iff_false, existsb_exists. intros (u & Iu & Eu). apply in_map_iff in Iu as (e & <- & Ie). rewrite eqb_true in Eu.
      apply (N e s Ie eq_refl). apply upper_word. symmetry. exact Eu. }
    apply matches_about in A. rewrite filter_app. cbn [filter]. rewrite A, X. cbn [andb]. rewrite app_length. cbn [List.length]. lia.
Qed.

(** The station counts for the choice of trains: on the segment and neither Katowice nor its marshalling station. *)
Definition counts (seg : string) (s : pv) : Prop :=
  (exists km, lies_at seg s km) /\ forall w, s = PStr w -> ~ same_word "KO" w /\ ~ same_word "KO(STM)" w.

Lemma count_segment tp seg n : train_on_segment tp seg EXCEPTIONS = Ok n ->
  ((2 <= n)%nat <-> exists u s v s' w, tp_route tp = u ++ s :: v ++ s' :: w /\ counts seg s /\ counts seg s').
Proof.
  assert (CT : forall s b, station_on_segment EXCEPTIONS s seg = Ok b -> (b = true <-> counts seg s)).
  { intros s b H. rewrite (on_segment_iff _ _ _ _ H). unfold counts, EXCEPTIONS. split; intros [K N]; (split; [exact K|]).
    - intros w E. split; apply N; cbn; auto.
    - intros e w [<-|[<-|[]]] E; apply (N w E). }
  unfold train_on_segment. generalize (tp_route tp). intros l.
  assert (G : forall l k n, foldM (fun n s => do b <- station_on_segment EXCEPTIONS s seg; Ok (if b then S n else n)) l k = Ok n ->
     (k <= n)%nat /\ ((k < n)%nat <-> exists s, In s l /\ counts seg s) /\
     ((k + 1 < n)%nat <-> exists u s v s' w, l = u ++ s :: v ++ s' :: w /\ counts seg s /\ counts seg s')).
  { clear l n. induction l as [|s l IH]; intros k n H; cbn [foldM] in H.
    - injection H as <-. split; [lia|]. split; split; try lia.
      + intros (s & [] & _).
      + intros ([|] & s & v & s' & w & E & _); discriminate E.
    - inv_bind H. inv_bind E. inversion E; subst a; clear E. specialize (CT s a0 E0). specialize (IH _ _ H). destruct IH as (I1 & I2 & I3). destruct a0.
      + assert (Cs : counts seg s) by (apply CT; reflexivity). split; [lia|]. split; [split; [intros _; exists s; split; [left; reflexivity|exact Cs]|lia]|].
        replace (k + 1 < n)%nat with (S k < n)%nat by (rewrite Nat.add_1_r; reflexivity). rewrite I2. split.
        * intros (s' & Is & Cs'). apply in_split in Is as (v & w & ->). exists [], s, v, s', w. auto.
        * intros (u & s1 & v & s2 & w & E & C1 & C2). exists s2. split; [|exact C2]. destruct u as [|y u]; cbn [app] in E; injection E as _ ->; rewrite ?in_app_iff; cbn; rewrite ?in_app_iff; cbn; auto 6.
      + assert (Cs : ~ counts seg s) by (rewrite <- CT; discriminate). split; [exact I1|]. split.
        * rewrite I2. split; [intros (s' & Is & C'); exists s'; split; [right; exact Is|exact C']|]. intros (s' & [<-|Is] & C'); [contradiction|eauto].
        * rewrite I3. split.
          -- intros (u & s1 & v & s2 & w & -> & C1 & C2). exists (s :: u), s1, v, s2, w. auto.
          -- intros (u & s1 & v & s2 & w & E & C1 & C2). destruct u as [|y u]; cbn [app] in E; injection E as <- E; [contradiction|]. exists u, s1, v, s2, w. auto. }
  intros H. destruct (G l O n H) as (_ & _ & G3). cbn in G3. exact G3.
Qed.

(** Which trains are drawn: those with two or more stations of the segment that count, and those asked for;
    each of them twice, first as solved and then without conflicts, in the order of the schedule. *)
Theorem C74_choice : forall sched seg fixed out, echo_gnuplot sched seg fixed = Ok out ->
  forall n c pts labels, In (n, c, pts, labels) out <->
    exists j kd tp, In (j, kd) sched /\ kdtrain2trainpath j kd c = Ok tp /\ n = str j /\
      pts = echo_gnuplot_train tp seg /\ labels = echo_gnuplot_train_labels tp seg /\
      ((exists u s v s' w, tp_route tp = u ++ s :: v ++ s' :: w /\ counts seg s /\ counts seg s') \/ In n fixed).
Proof.
  intros sched seg fixed out H n c pts labels.
  set (ok := fun j kd c tp => kdtrain2trainpath j kd c = Ok tp /\
      ((exists u s v s' w, tp_route tp = u ++ s :: v ++ s' :: w /\ counts seg s /\ counts seg s') \/ In (str j) fixed)).
  assert (NUM : forall j kd c tp, kdtrain2trainpath j kd c = Ok tp -> tp_number tp = str j).
  { intros j kd c0 tp K. unfold kdtrain2trainpath in K. inv_bind K. inversion K. reflexivity. }
  assert (ST : forall j kd c0 out out', (do train <- kdtrain2trainpath j kd c0; do n <- train_on_segment train seg EXCEPTIONS;
      Ok (if (Nat.leb 2 n || existsb (eqb (str j)) fixed)%bool then
            out ++ [(tp_number train, c0, echo_gnuplot_train train seg, echo_gnuplot_train_labels train seg)] else out)) = Ok out' ->
      forall y, In y out' <-> In y out \/ exists tp, ok j kd c0 tp /\ y = (str j, c0, echo_gnuplot_train tp seg, echo_gnuplot_train_labels tp seg)).
  { intros j kd c0 o o' E y. inv_bind E. inv_bind E. rename a into tp. rename a0 into k.
    match type of E with Ok ?u = Ok _ => assert (Eo : o' = u) by congruence end. rewrite Eo. clear E Eo.
    assert (B : (Nat.leb 2 k || existsb (eqb (str j)) fixed)%bool = true <-> ok j kd c0 tp).
    { unfold ok. rewrite orb_true_iff, Nat.leb_le, (count_segment _ _ _ E1), existsb_exists. split.
      - intros [A|(z & I & Ez)]; (split; [exact E0|]); [left; exact A|right]. rewrite eqb_true in Ez. subst z. exact I.
      - intros (_ & [A|I]); [left; exact A|right]. exists (str j). split; [exact I|apply eqb_refl]. }
    destruct (Nat.leb 2 k || existsb (eqb (str j)) fixed)%bool eqn:Eb; cbv iota.
    - rewrite in_app_iff. cbn [In]. rewrite (NUM _ _ _ _ E0). split.
      + intros [I|[<-|[]]]; [left; exact I|right]. exists tp. split; [apply B; reflexivity|reflexivity].
      + intros [I|(tp' & (K & _) & ->)]; [left; exact I|right; left]. assert (tp' = tp) by congruence. subst. reflexivity.
    - split; [intros I; left; exact I|]. intros [I|(tp' & O & _)]; [exact I|]. exfalso. destruct O as (K & O). assert (tp' = tp) by congruence. subst tp'.
      assert (X : false = true) by (apply B; split; assumption). discriminate X. }
  assert (G : forall l acc r, foldM (fun out kd => foldM (fun out conflicted =>
      do train <- kdtrain2trainpath (fst kd) (snd kd) conflicted; do n <- train_on_segment train seg EXCEPTIONS;
      Ok (if (Nat.leb 2 n || existsb (eqb (str (fst kd))) fixed)%bool then
            out ++ [(tp_number train, conflicted, echo_gnuplot_train train seg, echo_gnuplot_train_labels train seg)] else out))
      [false; true] out) l acc = Ok r ->
    forall y, In y r <-> In y acc \/ exists j kd c0 tp, In (j, kd) l /\ ok j kd c0 tp /\ y = (str j, c0, echo_gnuplot_train tp seg, echo_gnuplot_train_labels tp seg)).
  { induction l as [|[j kd] l IH]; intros acc r E y; cbn [foldM] in E.
    - inversion E; subst. split; [auto|]. intros [I|(? & ? & ? & ? & [] & _)]. exact I.
    - inv_bind E. inv_bind E0. inv_bind E0. injection E0 as ->. cbn [fst snd] in *.
      rewrite (IH _ _ E y), (ST _ _ _ _ _ E2 y), (ST _ _ _ _ _ E1 y). split.
      + intros [[[I|(tp & O & ->)]|(tp & O & ->)]|(j' & kd' & c0 & tp & I & O & ->)]; [left; exact I| | |]; right.
        * exists j, kd, false, tp. cbn. auto.
        * exists j, kd, true, tp. cbn. auto.
        * exists j', kd', c0, tp. cbn. auto.
      + intros [I|(j' & kd' & c0 & tp & [Ej|I] & O & ->)]; [left; left; left; exact I| |right; eauto 8].
        injection Ej as <- <-. left. destruct c0; [right|left; right]; eauto. }
  unfold echo_gnuplot in H. rewrite (G _ _ _ H (n, c, pts, labels)). split.
  - intros [[]|(j & kd & c0 & tp & I & (K & O) & E)]. injection E as -> -> -> ->. exists j, kd, tp. repeat (split; [assumption || reflexivity|]). exact O.
  - intros (j & kd & tp & I & K & -> & -> & -> & O). right. exists j, kd, c, tp. split; [exact I|]. split; [split; assumption|reflexivity].
Qed.
Print Assumptions C74_choice.

(** ** Two trains from Gliwice to Katowice before midnight *)

Definition GLC := PStr "GLC".
Definition RCB := PStr "RCB".
Definition KO := PStr "KO".
Definition night_tt : timetable := MkTT
  [("94766_GLC_RCB", 14); ("94766_RCB_KO", 11); ("26103_GLC_RCB", 12); ("26103_RCB_KO", 9)]
  [("94766_26103_GLC_RCB", 3); ("26103_94766_GLC_RCB", 3); ("94766_26103_RCB_KO", 3); ("26103_94766_RCB_KO", 3)]
  [("94766_RCB", 1); ("26103_RCB", 1)] [] (Some 1) []
  [("94766_GLC", 0); ("26103_GLC", 2)] [("94766_RCB", 1); ("26103_RCB", 1)].
Definition night_ts : train_sets := MkTS (Some [(I 94766, KO); (I 26103, KO)])
  [(I 94766, [GLC; RCB; KO]); (I 26103, [GLC; RCB; KO])] [I 94766; I 26103]
  [(GLC, [(RCB, [[I 94766; I 26103]])]); (RCB, [(KO, [[I 94766; I 26103]])])] [] [] [] [] None.
Definition night_p : lpproblem := ok_or (create_linear_problem night_ts night_tt 10 Integer) empty_problem.
Definition night_x : assignment := Check.table
  [(("Delays", [I 94766; GLC]), 0); (("Delays", [I 94766; RCB]), 0); (("Delays", [I 26103; GLC]), 3); (("Delays", [I 26103; RCB]), 3);
   (("y", [I 94766; I 26103; PStr "one_station"; GLC]), 1); (("y", [I 94766; I 26103; PStr "one_station"; RCB]), 1)].
Definition night_value (v : lpvar) : option Q := Some (night_x (v_id v)).
Definition night_skip : dict pv pv := [(I 94766, KO); (I 26103, KO)].
Definition night_printed (t_ref : Z) : dict pv (dict pv stop_entry) :=
  ok_or (print_optimisation_results night_p night_tt night_ts (tt_pass night_tt) night_skip 10 t_ref night_value) [].

Lemma night_reserved : reserved_free night_ts.
Proof. apply reserved_freeb_ok. vm_compute. reflexivity. Qed.
Lemma night_plain : plain_names night_ts.
Proof. apply plain_namesb_ok. vm_compute. reflexivity. Qed.
Lemma night_none : none_free night_tt.
Proof. apply none_freeb_ok. vm_compute. reflexivity. Qed.
Lemma night_integral : integral_times night_tt.
Proof.
  split; [|split; [|split; [|split; [|split; [|split]]]]]; try (apply values_int; vm_compute; reflexivity).
  intros q E. inversion E. exists 1%Z. reflexivity.
Qed.
Lemma night_built : create_linear_problem night_ts night_tt 10 Integer = Ok night_p.
Proof. apply ok_or_ok. vm_compute. reflexivity. Qed.
Lemma night_feasible : feasible night_p night_x.
Proof. apply feasibleb_ok. vm_compute. reflexivity. Qed.
Lemma night_prints t_ref : is_ok (print_optimisation_results night_p night_tt night_ts (tt_pass night_tt) night_skip 10 t_ref night_value) = true ->
  print_optimisation_results night_p night_tt night_ts (tt_pass night_tt) night_skip 10 t_ref night_value = Ok (night_printed t_ref).
Proof. unfold night_printed. destruct (print_optimisation_results _ _ _ _ _ _ _ _); [reflexivity|intros E; discriminate E]. Qed.

Lemma night_before sp s : comes_before night_ts (I 26103) sp s -> (sp, s) = (GLC, RCB) \/ (sp, s) = (RCB, KO).
Proof.
  intros (path & l1 & l2 & G & E & _). cbn in G. injection G as <-.
  destruct l1 as [|a [|b l1]]; cbn in E; [left; congruence|right; congruence|].
  destruct l1 as [|c [|e l1]]; cbn in E; discriminate E.
Qed.

(** Train 26103 is drawn from 16:10 to 16:32 and, without conflicts, three minutes earlier. *)
Example C74_case :
  (exists printed, dget (I 26103) (night_printed 965) = Some printed /\ forall conflicted, exists tp,
     kdtrain2trainpath (I 26103) printed conflicted = Ok tp /\ tp_number tp = "26103" /\ tp_route tp = [GLC; RCB; KO] /\
     never_back (moments (tp_path tp))) /\
  (exists out, echo_gnuplot (night_printed 965) "137138GLYKZ" [] = Ok out /\ nth_error out 2 = Some
     ("26103", false, [(0, 970%Z); (384 # 25, 982%Z); (384 # 25, 983%Z); (2671 # 100, 992%Z)],
       [(384 # 50, 976%Z, "26103"); (2629375 # 125000, 987%Z, "26103")])).
Proof.
  split.
  - destruct (C74_drawn_path_partial night_ts night_tt 10 night_p night_x night_value (tt_pass night_tt) night_skip 965 (night_printed 965)
      night_reserved night_plain night_none night_integral night_built night_feasible (fun v _ => eq_refl) (night_prints 965 ltac:(vm_compute; reflexivity))
      (I 26103) [GLC; RCB; KO]) as (printed & G & H).
    + vm_compute. right. left. reflexivity.
    + reflexivity.
    + repeat constructor; cbn; intros H; repeat (destruct H as [H|H]; [discriminate H|]); destruct H.
    + intros s I E. vm_compute in E. injection E as <-. exists [GLC; RCB]. reflexivity.
    + intros s [<-|[<-|[<-|[]]]] N; [vm_compute; auto 10|vm_compute; auto 10|exfalso; apply N; reflexivity].
    + intros sp s B. destruct (night_before sp s B) as [E|E]; injection E as -> ->; [exists 12, 12|exists 9, 9];
        (split; [reflexivity|]); (split; [discriminate|]); (split; [reflexivity|]); (split; [reflexivity|]); intros _; [exists 12%Z|exists 9%Z];
        (split; [reflexivity|]); (split; [discriminate|]); intros X; discriminate X.
    + intros s st [<-|[<-|[<-|[]]]] E; vm_compute in E; try discriminate E. injection E as <-. discriminate.
    + intros s (l & G). cbn in G. injection G as <- _. split; [reflexivity|]. exists 2.
      eapply earliest_init; [reflexivity|]. right. split; [intros q E; discriminate E|reflexivity].
    + intros s i [<-|[<-|[<-|[]]]] E; vm_compute in E; try discriminate E. exists [RCB; KO]. reflexivity.
    + exists printed. split; [exact G|]. intros c. destruct (H c) as (tp & A & B & C & _ & D & _). exists tp. auto.
  - eexists. split; [vm_compute; reflexivity|]. vm_compute. reflexivity.
Qed.

(** After midnight the drawn times go back: only hours and minutes are printed. *)
Theorem C74_midnight_refuted : exists ts tt p x value t_ref sched j printed tp seg d,
  reserved_free ts /\ plain_names ts /\ integral_times tt /\ create_linear_problem ts tt d Integer = Ok p /\ feasible p x /\
  (forall v, In v (variables p) -> value v = Some (x (v_id v))) /\
  print_optimisation_results p tt ts (tt_pass tt) night_skip d t_ref value = Ok sched /\ dget j sched = Some printed /\
  kdtrain2trainpath j printed false = Ok tp /\ (0 <= t_ref < 1440)%Z /\ never_back (moments (tp_path tp)) /\
  ~ never_back (map snd (echo_gnuplot_train tp seg)).
Proof.
  exists night_ts, night_tt, night_p, night_x, night_value, 1425%Z, (night_printed 1425), (I 26103).
  do 2 eexists. exists "137138GLYKZ", 10. split; [exact night_reserved|]. split; [exact night_plain|]. split; [exact night_integral|].
  split; [exact night_built|]. split; [exact night_feasible|]. split; [reflexivity|]. split; [apply night_prints; vm_compute; reflexivity|].
  split; [vm_compute; reflexivity|]. split; [vm_compute; reflexivity|]. split; [lia|]. cbn [tp_path]. split.
  - apply chain_never_back. cbn. unfold arr_, dep_. cbn. repeat split; try (intros a d A D; injection A as <-; injection D as <-; lia); try (intros a d A; discriminate A);
      try (intros a d A D; discriminate D); try (do 2 eexists; split; [reflexivity|split; [reflexivity|lia]]).
  - intros N. specialize (N [] 1430%Z [] 2%Z [3%Z; 12%Z] eq_refl). lia.
Qed.
Print Assumptions C74_midnight_refuted.

(** ** Segments and lines (C75) *)

(** Looking up the position of a route on lines fails for every route. *)
Theorem C75_route_on_lines_refuted : forall route lines, route <> [] -> route_on_lines route lines = Err NameError.
Proof. intros [|s r] lines N; [congruence|reflexivity]. Qed.
Print Assumptions C75_route_on_lines_refuted.

Definition distancesb (l : list station_rec) (err : Q) : bool :=
  forallb (fun line => forallb (fun x => forallb (fun y => forallb (fun u => negb (eqb (st_name u) (st_name x)) || forallb (fun v =>
      negb (eqb (st_name v) (st_name y)) ||
      Qle_bool (Qabs (Qabs (st_km x - st_km y) - Qabs (st_km u - st_km v))) err) (snd line)) (snd line)) l) l) RAILWAYLINES.

Lemma distancesb_ok l err : distancesb l err = true ->
  forall x y line m u v, In x l -> In y l -> dget line RAILWAYLINES = Some m -> In u m -> In v m ->
    st_name u = st_name x -> st_name v = st_name y -> Qabs (Qabs (st_km x - st_km y) - Qabs (st_km u - st_km v)) <= err.
Proof.
  unfold distancesb. intros H x y line m u v Ix Iy Gm Iu Iv Eu Ev. rewrite forallb_forall in H.
  specialize (H (line, m) (dget_in _ _ _ Gm)). rewrite forallb_forall in H. specialize (H x Ix). rewrite forallb_forall in H. specialize (H y Iy).
  rewrite forallb_forall in H. specialize (H u Iu). rewrite Eu, eqb_refl in H. cbn [negb orb] in H. rewrite forallb_forall in H. specialize (H v Iv).
  rewrite Ev, eqb_refl in H. cbn [negb orb] in H. apply Qle_bool_iff. exact H.
Qed.

Definition segment_of (segment : string) : list station_rec :=
  match dget segment RAILWAYSEGMENTS with Some l => l | None => [] end.

Lemma distances_ok segment err : distancesb (segment_of segment) err = true -> true_distances segment err.
Proof.
  unfold segment_of, true_distances. intros H l x y line m u v G Ix Iy. rewrite G in H. apply (distancesb_ok _ _ H); assumption.
Qed.

Lemma distances_to_ok segment last err :
  distancesb (filter (fun x => Qle_bool (st_km x) last) (segment_of segment)) err = true -> true_distances_to segment last err.
Proof.
  unfold segment_of, true_distances_to. intros H l x y line m u v G Ix Iy Kx Ky. rewrite G in H.
  apply (distancesb_ok _ _ H); apply filter_In; split; trivial; apply Qle_bool_iff; assumption.
Qed.

(** The lookup of a station answers with the kilometre of the first record about it; on two of the three
    segments distances are those of the railway lines, up to 10 metres on one of them, and on the third up to
    Katowice Brynow. *)
Theorem C75_kilometres_partial :
  (forall seg s km, station2km s seg = Ok km <-> lies_at seg s km) /\
  (forall seg s, (forall km, ~ lies_at seg s km) <-> station2km s seg = Err ValueError) /\
  true_distances "137138GLYKZ" 0 /\ true_distances "138139KZTY" (1 # 100) /\
  lies_at "137139GLYTy" (PStr "Bry") (3059 # 100) /\ true_distances_to "137139GLYTy" (3059 # 100) 0.
Proof.
  split; [exact station2km_iff|]. split.
  - intros seg s. destruct (station2km s seg) as [km|e] eqn:E.
    + split; [|discriminate]. intros N. exfalso. apply (N km), station2km_iff. exact E.
    + assert (e = ValueError).
      { unfold station2km in E. destruct s; try congruence. destruct (dget seg RAILWAYSEGMENTS); [|congruence]. destruct (filter _ _); congruence. }
      subst e. split; [reflexivity|]. intros _ km L. apply station2km_iff in L. congruence.
  - split; [apply distances_ok; vm_compute; reflexivity|]. split; [apply distances_ok; vm_compute; reflexivity|].
    split; [apply station2km_iff; vm_compute; reflexivity|]. apply distances_to_ok. vm_compute. reflexivity.
Qed.
Print Assumptions C75_kilometres_partial.

Example C75_case : lies_at "137138GLYKZ" (PStr "zz") (409 # 50) /\ lies_at "137138GLYKZ" (PStr "Katowice") (2671 # 100) /\
  forall km, ~ lies_at "137138GLYKZ" (PStr "KL") km.
Proof.
  split; [apply station2km_iff; vm_compute; reflexivity|]. split; [apply station2km_iff; vm_compute; reflexivity|].
  apply (proj1 (proj2 C75_kilometres_partial)). vm_compute. reflexivity.
Qed.

(** On the third segment they are not: behind Katowice Brynow positions have been added up where distances
    should have been, Ligota and Tychy are 50.11 km apart instead of 10.89. *)
Theorem C75_kilometres_refuted :
  lies_at "137139GLYTy" (PStr "KL") (3667 # 100) /\ lies_at "137139GLYTy" (PStr "Ty") (4339 # 50) /\
  (exists l u v, dget "139" RAILWAYLINES = Some l /\ In u l /\ In v l /\ st_callsign u = "KL" /\ st_callsign v = "Ty" /\
     st_km u == 608 # 100 /\ st_km v == 1697 # 100) /\
  forall err, true_distances "137139GLYTy" err -> 39 <= err.
Proof.
  split; [apply station2km_iff; vm_compute; reflexivity|]. split; [apply station2km_iff; vm_compute; reflexivity|].
  assert (L : exists l u v, dget "139" RAILWAYLINES = Some l /\ In u l /\ In v l /\ st_callsign u = "KL" /\ st_callsign v = "Ty" /\
     st_km u == 608 # 100 /\ st_km v == 1697 # 100 /\ st_name u = "Katowice Ligota" /\ st_name v = "Tychy").
  { eexists. exists (MkSt "Katowice Ligota" "KL" "st" (152 # 25)), (MkSt "Tychy" "Ty" "st" (1697 # 100)). split; [vm_compute; reflexivity|].
    split; [cbn; auto 10|]. split; [cbn; auto 10|]. repeat split; vm_compute; reflexivity. }
  destruct L as (l & u & v & G & Iu & Iv & A & B & Ku & Kv & Nu & Nv). split; [exists l, u, v; auto 10|].
  intros err H. specialize (H _ (MkSt "Katowice Ligota" "KL" "st" (3667 # 100)) (MkSt "Tychy" "Ty" "st" (4339 # 50)) "139" l u v eq_refl).
  cbn [st_name st_km] in H. rewrite Ku, Kv in H. eapply Qle_trans; [|apply H]; auto; try (cbn; auto 20; fail). vm_compute. discriminate.
Qed.
Print Assumptions C75_kilometres_refuted.

(** ** Statistics of delays (C76) *)

(** From any number of schedules: at each station the secondary delays printed there, schedule by schedule and
    train by train, nothing else. *)
Theorem C76_collected : forall schedules s,
  (forall sched j kd, In sched schedules -> In (j, kd) sched -> NoDup (dkeys kd)) ->
  dget s (fold_left add_delays_one_realisation schedules []) =
  match flat_map (delays_at s) schedules with [] => None | l => Some l end.
Proof.
  intros schedules s.
  assert (G : forall l delays, (forall sched j kd, In sched l -> In (j, kd) sched -> NoDup (dkeys kd)) ->
    dget s (fold_left add_delays_one_realisation l delays) =
    match flat_map (delays_at s) l with [] => dget s delays | m => Some (match dget s delays with Some v => v | None => [] end ++ m) end).
  { induction l as [|sched l IH]; intros delays N; [reflexivity|]. cbn [fold_left flat_map].
    rewrite IH; [|intros ? ? ? I1 I2; exact (N _ _ _ (or_intror I1) I2)].
    rewrite (delays_collected s sched delays) by (intros [j kd] I; exact (N _ _ _ (or_introl eq_refl) I)).
    destruct (delays_at s sched) as [|a m]; [reflexivity|]. cbn [app]. destruct (flat_map (delays_at s) l); [rewrite app_nil_r; reflexivity|].
    rewrite <- app_assoc. reflexivity. }
  intros N. rewrite (G _ _ N). destruct (flat_map (delays_at s) schedules); reflexivity.
Qed.
Print Assumptions C76_collected.

(** The five numbers of a station. *)
Definition summary (l : list Z) (r : Z * Q * Q * Q * Z) : Prop :=
  let '(max, q75, mean, q25, min) := r in
  (In max l /\ forall z, In z l -> (z <= max)%Z) /\ (In min l /\ forall z, In z l -> (min <= z)%Z) /\
  mean * inject_Z (Z.of_nat (List.length l)) == inject_Z (fold_right Z.add 0%Z l) /\
  quantile l (1 # 4) q25 /\ quantile l (3 # 4) q75 /\
  inject_Z min <= q25 /\ q25 <= q75 /\ q75 <= inject_Z max /\ inject_Z min <= mean /\ mean <= inject_Z max.

Theorem C76_statistics : forall delays stations r,
  (forall s l, In s stations -> dget s delays = Some l -> l <> []) ->
  get_print_statistics delays stations = Ok r ->
  Forall2 (fun s five => exists l, dget s delays = Some l /\ summary l five) stations r.
Proof.
  intros delays stations. unfold get_print_statistics. induction stations as [|s st IH]; intros r N H; cbn [mapM] in H; [inversion H; constructor|].
  inv_bind H. inv_bind E. inv_bind H. injection H as <-. injection E as <-. constructor; [|apply IH; [intros s' l I; apply N; right; exact I|assumption]].
  unfold dlookup in *. destruct (dget s delays) as [l|] eqn:G; [|discriminate]. match goal with E : Ok l = Ok _ |- _ => injection E as <- end.
  exists l. split; [reflexivity|]. assert (NE : l <> []) by (apply (N s); [left; reflexivity|exact G]).
  destruct l as [|a rest]; [congruence|]. set (l := a :: rest) in *. cbn [summary].
  destruct (max_ok a rest) as [X1 X2]. destruct (min_ok a rest) as [Y1 Y2]. change (fold_left Z.max rest a) with (np_max_z l) in *. change (fold_left Z.min rest a) with (np_min l) in *.
  fold l in X1, X2, Y1, Y2.
  assert (B : forall z, In z l -> (np_min l <= z <= np_max_z l)%Z) by (intros z I; split; auto).
  destruct (mean_bounds l _ _ NE B) as [M1 M2].
  destruct (between l (1 # 4)) as [Q1 _]; [discriminate|discriminate|]. destruct (between l (3 # 4)) as [_ Q2]; [discriminate|discriminate|].
  split; [split; assumption|]. split; [split; assumption|]. split.
  { unfold np_mean. rewrite fold_symmetric by (intros; lia). field. intros W. change 0 with (inject_Z 0) in W. rewrite inject_Z_injective in W. unfold l in W. cbn [List.length] in W. rewrite Nat2Z.inj_succ in W. lia. }
  split; [apply quantile_ok; [exact NE|discriminate|discriminate]|]. split; [apply quantile_ok; [exact NE|discriminate|discriminate]|].
  split.
  { eapply Qle_trans; [|exact Q1]. rewrite <- Zle_Qle. apply B, lo_in; [exact NE|discriminate|discriminate]. }
  split; [apply quantile_mono; [exact NE|discriminate|discriminate|discriminate]|]. split; [|split; assumption].
  eapply Qle_trans; [exact Q2|]. rewrite <- Zle_Qle. apply B, hi_in; [exact NE|discriminate|discriminate].
Qed.
Print Assumptions C76_statistics.

(** Three printed schedules; the delays at Ruda Chebzie. *)
Example C76_case :
  let schedules := [night_printed 965; five_printed; night_printed 970] in
  dget RCB (fold_left add_delays_one_realisation schedules []) = Some [0; 3; 0; 3]%Z /\
  get_print_statistics (fold_left add_delays_one_realisation schedules []) [RCB] =
    Ok [(3%Z, np_quantile [0; 3; 0; 3]%Z (3 # 4), np_mean [0; 3; 0; 3]%Z, np_quantile [0; 3; 0; 3]%Z (1 # 4), 0%Z)] /\
  np_quantile [0; 3; 0; 3]%Z (3 # 4) == 3 /\ np_mean [0; 3; 0; 3]%Z == 3 # 2 /\ np_quantile [1; 5; 2; 9]%Z (3 # 4) == 6 /\
  np_quantile [1; 5; 2; 9]%Z (1 # 4) == 7 # 4.
Proof. repeat split; vm_compute; reflexivity. Qed.

(** The mean need not lie between the quantiles. *)
Example C76_mean_outside : exists l, l <> [] /\ np_quantile l (3 # 4) < np_mean l.
Proof. exists [0; 0; 0; 0; 10]%Z. split; [discriminate|]. vm_compute. reflexivity. Qed.
