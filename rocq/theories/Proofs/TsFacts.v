(** Facts of time stamp estimation. *)
From Verif.Base Require Import Prelude.
From Verif.Model Require Import TsEst.
From Verif.Spec Require Import TsSpec.
Local Open Scope Z_scope.

Lemma round_div_near k j p : 0 < p -> 2 * Z.abs j < p -> round_div (k * p + j) p = k.
Proof.
  intros P H. unfold round_div. destruct (Z_lt_le_dec j 0) as [N|N].
  - assert (E : k * p + j = (k - 1) * p + (p + j)) by lia.
    assert (Q : (k * p + j) / p = k - 1) by (symmetry; apply (Z.div_unique _ _ _ (p + j)); lia).
    assert (M : (k * p + j) mod p = p + j) by (symmetry; apply (Z.mod_unique _ _ (k - 1)); lia).
    rewrite Q, M. replace (2 * (p + j) <? p) with false by lia. replace (p <? 2 * (p + j)) with true by lia. lia.
  - assert (Q : (k * p + j) / p = k) by (symmetry; apply (Z.div_unique _ _ _ j); lia).
    assert (M : (k * p + j) mod p = j) by (symmetry; apply (Z.mod_unique _ _ k); lia).
    rewrite Q, M. replace (2 * j <? p) with true by lia. reflexivity.
Qed.

(** One step of the resolver. *)
Lemma resolve_step period s0 q0 s q off : 0 < period -> q0 <= q -> 2 * Z.abs ((q - q0) - (s - s0)) < period ->
  rs_update (Some period) {| rs_time := Some (s0 + off); rs_src := s0 mod period; rs_tgt := q0 |} (s mod period) q =
  ({| rs_time := Some (s + off); rs_src := s mod period; rs_tgt := q |}, Ok (s + off)).
Proof.
  intros P Q J. unfold rs_update. cbn [rs_time rs_src rs_tgt]. replace (q - q0 <? 0) with false by lia.
  pose proof (Z.div_mod s period ltac:(lia)) as E1. pose proof (Z.div_mod s0 period ltac:(lia)) as E0.
  set (a := s / period) in *. set (b := s0 / period) in *. set (m := s mod period) in *. set (n := s0 mod period) in *.
  clearbody a b m n.
  assert (R : round_div (q - q0 - (m - n)) period = a - b).
  { replace (q - q0 - (m - n)) with ((a - b) * period + ((q - q0) - (s - s0))) by (subst s s0; ring).
    apply round_div_near; assumption. }
  rewrite R. replace (s0 + off + (a - b) * period + (m - n)) with (s + off) by (subst s s0; ring). reflexivity.
Qed.

Lemma unwrap_from period l : 0 < period -> forall s0 q0 off, steady_from period s0 q0 l ->
  snd (rs_run (Some period) {| rs_time := Some (s0 + off); rs_src := s0 mod period; rs_tgt := q0 |} (observed period l)) =
  map (fun x => Ok (fst x + off)) l.
Proof.
  intros P. induction l as [|[s q] l IH]; intros s0 q0 off H; [reflexivity|]. destruct H as (Q & J & H).
  change (observed period ((s, q) :: l)) with ((s mod period, q) :: observed period l). cbn [rs_run].
  rewrite (resolve_step period s0 q0 s q off P Q J).
  specialize (IH s q off H). destruct (rs_run _ _ _) as [st rs] eqn:E. cbn [snd map fst] in *. congruence.
Qed.

Lemma unwrap period s0 q0 l : 0 < period -> steady period ((s0, q0) :: l) ->
  snd (rs_run (Some period) rs_new (observed period ((s0, q0) :: l))) =
  map (fun x => Ok (fst x - s0 + s0 mod period)) ((s0, q0) :: l).
Proof.
  intros P H. cbn in H. change (observed period ((s0, q0) :: l)) with ((s0 mod period, q0) :: observed period l).
  cbn [rs_run rs_update rs_new rs_time].
  pose proof (unwrap_from period l P s0 q0 (s0 mod period - s0) H) as U.
  replace (s0 + (s0 mod period - s0)) with (s0 mod period) in U by lia.
  destruct (rs_run _ _ _) as [st rs] eqn:E. cbn [snd map fst] in *.
  replace (s0 - s0 + s0 mod period) with (s0 mod period) by lia. f_equal. rewrite U. apply map_ext.
  intros [s q]. cbn [fst]. f_equal. lia.
Qed.

(** The anchor is the best sample since the estimator started over. *)
Definition best (c : est_params) (w : list (Z * Z)) (a : Z * Z) : Prop :=
  In a w /\ forall b, In b w ->
    e_scale c * snd a - (e_scale c + e_rate c) * fst a <= e_scale c * snd b - (e_scale c + e_rate c) * fst b.

Definition anchored (c : est_params) (w : list (Z * Z)) (s : estimator) : Prop :=
  match es_anchor s with None => w = [] /\ rs_time (es_resolver s) = None | Some a => best c w a end.

Definition next_segment (w : list (Z * Z)) (q : Z) (e : estimate) : list (Z * Z) :=
  if et_resync e then [(et_source e, q)] else w ++ [(et_source e, q)].

Lemma best_snoc c w p q pi b : best c w (p, q) ->
  let offset := e_scale c * (p - q - e_fixed c) - e_rate c * (pi - p) in
  let new_offset := e_scale c * (pi - b - e_fixed c) in
  best c (w ++ [(pi, b)]) (if offset <=? new_offset then (pi, b) else (p, q)).
Proof.
  intros (I & M) offset new_offset.
  destruct (offset <=? new_offset) eqn:B; unfold offset, new_offset in B; clear offset new_offset.
  - assert (G : e_scale c * b - (e_scale c + e_rate c) * pi <= e_scale c * q - (e_scale c + e_rate c) * p) by lia.
    split; [apply in_or_app; right; left; reflexivity|].
    intros x X. apply in_app_or in X as [X|[X|[]]]; [apply M in X; cbn [fst snd] in *; lia|subst x; cbn [fst snd]; lia].
  - assert (G : e_scale c * q - (e_scale c + e_rate c) * p <= e_scale c * b - (e_scale c + e_rate c) * pi) by lia.
    split; [apply in_or_app; left; exact I|].
    intros x X. apply in_app_or in X as [X|[X|[]]]; [apply M in X; cbn [fst snd] in *; lia|subst x; cbn [fst snd]; lia].
Qed.

Lemma best_one c x : best c [x] x.
Proof. split; [left; reflexivity|]. intros b [<-|[]]. lia. Qed.

(** One update. *)
Lemma update_estimate c w s a b s' r : 0 <= e_resync c -> anchored c w s -> es_update c s a b = (s', r) ->
  match r with
  | Ok e => anchored c (next_segment w b e) s' /\
      let w' := next_segment w b e in
      let value x := e_scale c * (snd x + e_fixed c) + (e_scale c + e_rate c) * (et_source e - fst x) in
      (exists x, In x w' /\ fst x <= et_source e /\ et_time e = value x) /\
      (forall x, In x w' -> et_time e <= value x)
  | Err _ => anchored c w s'
  end.
Proof.
  intros RS A. unfold es_update. destruct (rs_update _ _ _ _) as [rs [pi|x]] eqn:R.
  - (* from the anchor *)
    assert (F : forall w p q rs' n, best c w (p, q) -> p <= pi -> forall s' r,
      ({| es_resolver := rs'; es_anchor := Some (if e_scale c * (p - q - e_fixed c) - e_rate c * (pi - p) <=? e_scale c * (pi - b - e_fixed c) then (pi, b) else (p, q)); es_resyncs := n |},
       Ok {| et_time := e_scale c * pi - (if e_scale c * (p - q - e_fixed c) - e_rate c * (pi - p) <=? e_scale c * (pi - b - e_fixed c) then e_scale c * (pi - b - e_fixed c) else e_scale c * (p - q - e_fixed c) - e_rate c * (pi - p)); et_source := pi; et_resync := false |}) = (s', r) ->
      match r with
      | Ok e => anchored c (next_segment w b e) s' /\
          let w' := next_segment w b e in
          let value x := e_scale c * (snd x + e_fixed c) + (e_scale c + e_rate c) * (et_source e - fst x) in
          (exists x, In x w' /\ fst x <= et_source e /\ et_time e = value x) /\
          (forall x, In x w' -> et_time e <= value x)
      | Err _ => anchored c w s'
      end).
    { clear. intros w p q rs' n B L s' r X. injection X as <- <-. unfold next_segment. cbn [et_resync et_source et_time].
      pose proof (best_snoc c w p q pi b B) as B'. cbv zeta in B'. split; [exact B'|].
      destruct (_ <=? _) eqn:C; cbv zeta; destruct B' as (I' & M').
      - split.
        + exists (pi, b). split; [exact I'|]. cbn [fst snd]. split; [lia|]. ring.
        + intros x X. apply M' in X. cbn [fst snd] in *. lia.
      - split.
        + exists (p, q). split; [exact I'|]. cbn [fst snd]. split; [lia|]. ring.
        + intros x X. apply M' in X. cbn [fst snd] in *. lia. }
    unfold anchored in A. destruct (es_anchor s) as [[p q]|].
    + destruct (e_resync c <? _) eqn:D.
      * replace (a <? a) with false by lia.
        replace (e_scale c * (a - b - e_fixed c) - e_rate c * (a - a)) with (e_scale c * (a - b - e_fixed c)) by ring.
        rewrite Z.leb_refl. intros X. injection X as <- <-. unfold next_segment. cbn [et_resync et_source et_time].
        split; [apply best_one|]. cbv zeta. split.
        -- exists (a, b). split; [left; reflexivity|]. cbn [fst snd]. split; [lia|ring].
        -- intros x [<-|[]]. cbn [fst snd]. lia.
      * destruct (pi <? p) eqn:L; [intros X; injection X as <- <-; exact A|]. apply F; [exact A|lia].
    + destruct A as (-> & _). replace (Z.abs _) with 0 by lia. replace (e_resync c <? 0) with false by lia.
      replace (pi <? pi) with false by lia.
      replace (e_scale c * (pi - b - e_fixed c) - e_rate c * (pi - pi)) with (e_scale c * (pi - b - e_fixed c)) by ring.
      rewrite Z.leb_refl. intros X. injection X as <- <-. unfold next_segment. cbn [et_resync et_source et_time app].
      split; [apply best_one|]. cbv zeta. split.
      -- exists (pi, b). split; [left; reflexivity|]. cbn [fst snd]. split; [lia|ring].
      -- intros x [<-|[]]. cbn [fst snd]. lia.
  - intros X. injection X as <- <-. unfold anchored in *. cbn. destruct (es_anchor s) as [q|]; [exact A|].
    destruct A as (-> & N). unfold rs_update in R. rewrite N in R. discriminate.
Qed.

Lemma run_anchored c samples : 0 <= e_resync c -> forall w s, anchored c w s ->
  anchored c (segment w (combine samples (snd (es_run c s samples)))) (fst (es_run c s samples)).
Proof.
  intros RS. induction samples as [|[a b] l IH]; intros w s A; [exact A|]. cbn [es_run].
  destruct (es_update c s a b) as [s1 r] eqn:E. pose proof (update_estimate c w s a b s1 r RS A E) as U.
  destruct r as [e|x].
  - destruct U as (U & _). specialize (IH _ _ U). destruct (es_run c s1 l) as [s2 rs]. exact IH.
  - specialize (IH _ _ U). destruct (es_run c s1 l) as [s2 rs]. exact IH.
Qed.

Lemma run_app c l1 : forall s l2, es_run c s (l1 ++ l2) =
  let (s1, r1) := es_run c s l1 in let (s2, r2) := es_run c s1 l2 in (s2, r1 ++ r2).
Proof.
  induction l1 as [|[a b] l1 IH]; intros s l2; cbn [es_run app].
  - destruct (es_run c s l2). reflexivity.
  - destruct (es_update c s a b) as [s1 r]. rewrite IH. destruct (es_run c s1 l1) as [s2 r1].
    destruct (es_run c s2 l2) as [s3 r2]. reflexivity.
Qed.
Lemma run_length c l : forall s, length (snd (es_run c s l)) = length l.
Proof.
  induction l as [|[a b] l IH]; intros s; [reflexivity|]. cbn [es_run]. destruct (es_update c s a b) as [s1 r].
  specialize (IH s1). destruct (es_run c s1 l). cbn [snd length] in *. congruence.
Qed.
Lemma segment_app l1 : forall w l2, segment w (l1 ++ l2) = segment (segment w l1) l2.
Proof. induction l1 as [|[[a q] [e|x]] l1 IH]; intros w l2; cbn; auto. Qed.
Lemma combine_app {A B} (a1 a2 : list A) (b1 b2 : list B) : length a1 = length b1 ->
  combine (a1 ++ a2) (b1 ++ b2) = combine a1 b1 ++ combine a2 b2.
Proof.
  revert b1. induction a1 as [|x a1 IH]; intros [|y b1]; cbn; try discriminate; [reflexivity|].
  intros E. rewrite IH by congruence. reflexivity.
Qed.

(** The estimate is the least bound that the samples since the last start
    give. *)
Lemma estimates c samples a b s' e : 0 <= e_resync c ->
  es_update c (fst (es_run c es_new samples)) a b = (s', Ok e) ->
  let w := history c (samples ++ [(a, b)]) in
  let value x := e_scale c * (snd x + e_fixed c) + (e_scale c + e_rate c) * (et_source e - fst x) in
  In (et_source e, b) w /\
  (exists x, In x w /\ fst x <= et_source e /\ et_time e = value x) /\
  (forall x, In x w -> et_time e <= value x).
Proof.
  intros RS E. pose proof (run_anchored c samples RS [] es_new (conj eq_refl eq_refl)) as A.
  pose proof (update_estimate c _ _ _ _ _ _ RS A E) as (_ & U).
  set (w1 := segment [] (combine samples (snd (es_run c es_new samples)))) in *.
  assert (H : history c (samples ++ [(a, b)]) = next_segment w1 b e).
  { unfold history. rewrite run_app. pose proof (run_length c samples es_new) as L.
    destruct (es_run c es_new samples) as [s1 r1] eqn:R. cbn [fst snd] in *. cbn [es_run]. rewrite E. cbn [snd].
    rewrite combine_app by (symmetry; exact L). rewrite segment_app. fold w1. reflexivity. }
  cbv zeta in *. rewrite H. split; [|exact U]. unfold next_segment. destruct (et_resync e); [left; reflexivity|].
  apply in_or_app. right. left. reflexivity.
Qed.

(** Bounds in terms of true times. *)
Lemma estimate_bounds c samples a b s' e tau : 0 <= e_resync c -> 0 <= e_rate c -> 0 < e_scale c ->
  es_update c (fst (es_run c es_new samples)) a b = (s', Ok e) ->
  let w := history c (samples ++ [(a, b)]) in
  clock_map (e_rate c) (e_scale c) tau -> (forall x, In x w -> tau (fst x) <= snd x) ->
  e_scale c * (tau (et_source e) + e_fixed c) <= et_time e /\
  forall x, In x w -> fst x <= et_source e ->
    et_time e <= e_scale c * (tau (et_source e) + e_fixed c) + e_scale c * (snd x - tau (fst x)) +
                 2 * e_rate c * (et_source e - fst x).
Proof.
  intros RS RT SC E w T D. destruct (estimates c samples a b s' e RS E) as (_ & (x & I & L & V) & U). fold w in I, U. split.
  - pose proof (T _ _ L) as (_ & TU). specialize (D x I). rewrite V.
    assert (e_scale c * tau (fst x) <= e_scale c * snd x) by (apply Z.mul_le_mono_nonneg_l; lia). lia.
  - intros y Y LY. specialize (U y Y). pose proof (T _ _ LY) as (TL & _). lia.
Qed.

(** With well-behaved clocks no update fails. *)
Definition tracking (period s q : Z) (e : estimator) : Prop :=
  exists off p qa, es_resolver e = {| rs_time := Some (s + off); rs_src := s mod period; rs_tgt := q |} /\
    es_anchor e = Some (p, qa) /\ p <= s + off.

Lemma update_tracking c period s0 q0 s q e : e_period c = Some period -> 0 < period -> tracking period s0 q0 e ->
  q0 <= q -> s0 <= s -> 2 * Z.abs ((q - q0) - (s - s0)) < period ->
  exists e' t, es_update c e (s mod period) q = (e', Ok t) /\ tracking period s q e'.
Proof.
  intros P PP (off & p & qa & R & A & L) Q S J. unfold es_update. rewrite P, R, (resolve_step period s0 q0 s q off PP Q J), A.
  destruct (e_resync c <? _) eqn:D.
  - replace (s mod period <? s mod period) with false by lia. eexists _, _. split; [reflexivity|].
    exists (s mod period - s). cbn [es_resolver es_anchor rs_update rs_new rs_time fst].
    replace (s + (s mod period - s)) with (s mod period) by lia.
    destruct (_ <=? _); eexists _, _; (split; [reflexivity|split; [reflexivity|lia]]).
  - replace (s + off <? p) with false by lia. eexists _, _. split; [reflexivity|]. exists off. cbn [es_resolver es_anchor].
    destruct (_ <=? _); eexists _, _; (split; [reflexivity|split; [reflexivity|lia]]).
Qed.

Lemma first_tracking c period s q : e_period c = Some period -> 0 <= e_resync c ->
  exists e' t, es_update c es_new (s mod period) q = (e', Ok t) /\ tracking period s q e'.
Proof.
  intros P RS. unfold es_update. rewrite P. cbn [rs_update rs_new es_new es_resolver es_anchor rs_time].
  replace (Z.abs _) with 0 by lia. replace (e_resync c <? 0) with false by lia.
  replace (s mod period <? s mod period) with false by lia. eexists _, _. split; [reflexivity|].
  exists (s mod period - s). cbn [es_resolver es_anchor]. replace (s + (s mod period - s)) with (s mod period) by lia.
  destruct (_ <=? _); eexists _, _; (split; [reflexivity|split; [reflexivity|lia]]).
Qed.

Lemma run_tracking c period l : e_period c = Some period -> 0 < period -> forall s q e,
  tracking period s q e -> steady_from period s q l -> forward_from s l ->
  Forall (fun r => is_ok r = true) (snd (es_run c e (observed period l))).
Proof.
  intros P PP. induction l as [|[s1 q1] l IH]; intros s q e T S F; [constructor|].
  destruct S as (S1 & S2 & S3). destruct F as (F1 & F2).
  change (observed period ((s1, q1) :: l)) with ((s1 mod period, q1) :: observed period l). cbn [es_run].
  destruct (update_tracking c period s q s1 q1 e P PP T S1 F1 S2) as (e' & t & E & T'). rewrite E.
  specialize (IH _ _ _ T' S3 F2). destruct (es_run c e' _). cbn [snd] in *. constructor; [reflexivity|exact IH].
Qed.

Lemma no_failure c period l : e_period c = Some period -> 0 < period -> 0 <= e_resync c ->
  steady period l -> forward l ->
  Forall (fun r => is_ok r = true) (snd (es_run c es_new (observed period l))).
Proof.
  intros P PP RS S F. destruct l as [|[s q] l]; [constructor|].
  change (observed period ((s, q) :: l)) with ((s mod period, q) :: observed period l). cbn [es_run].
  destruct (first_tracking c period s q P RS) as (e' & t & E & T). rewrite E.
  pose proof (run_tracking c period l P PP s q e' T S F) as R.
  destruct (es_run c e' _). cbn [snd] in *. constructor; [reflexivity|exact R].
Qed.
