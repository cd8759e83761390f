(** The times that frames carry. *)
From Verif.Base Require Import Prelude.
From Verif.Model Require Import CanFrame TsEst Slcan Writer.
From Verif.Spec Require Import TsSpec SlcanSpec WriterSpec StampSpec.
From Verif.Proofs Require Import TsFacts SlcanFacts WriterFacts.

(** ** Writer threads *)
Section Writer.
  Variables (W : Type) (encode : cframe -> res W) (flushes : bool).
  Variables (refuses : cframe -> bool) (capacity : nat).
  Notation run := (Writer.run encode flushes refuses capacity).
  Notation step := (Writer.step encode flushes refuses capacity).

  Definition written_held (p : place W) : nat := match p with AtFlush _ | AtDone _ => 1 | _ => 0 end.
  (** More was written than is reported as sent. *)
  Definition ahead (s : state W) : Prop :=
    (length (shown (reports s)) + written_held (w_place s) <= length (wrote (w_log s)))%nat.
  Lemma look_reports s : reports (look W s) = reports s /\ wrote (w_log (look W s)) = wrote (w_log s) /\ w_place (look W s) = w_place s.
  Proof.
    pose proof (look_facts W encode refuses s) as F. cbv zeta in F. destruct F as (_ & _ & F3 & _ & F5 & F6 & _). unfold reports. auto.
  Qed.
  Lemma see_refused s f : reports (see W s (Refused f)) = reports s /\ wrote (w_log (see W s (Refused f))) = wrote (w_log s) /\
    w_place (see W s (Refused f)) = w_place s.
  Proof.
    unfold reports, see. cbn [w_log w_back w_place]. rewrite wrote_app, learned_app. cbn [wrote learned flat_map].
    rewrite !app_nil_r. auto.
  Qed.
  Lemma send_reports s f : let s' := send_frame W refuses capacity s f in
    reports s' = reports s /\ wrote (w_log s') = wrote (w_log s) /\ w_place s' = w_place s.
  Proof.
    cbv zeta. unfold send_frame. destruct (refuses f); [apply see_refused|].
    pose proof (look_reports s) as (L1 & L2 & L3). unfold look in *.
    destruct (check_write_feedback W s) as [s' [|]]; cbn [fst] in *.
    - destruct (see_refused s' f) as (R1 & R2 & R3). rewrite R1, R2, R3. auto.
    - dif.
      + rewrite <- L1, <- L2, <- L3. unfold reports, see. cbn [w_log w_back w_place].
        rewrite wrote_app, learned_app. cbn [wrote learned flat_map]. rewrite !app_nil_r. auto.
      + destruct (see_refused s' f) as (R1 & R2 & R3). rewrite R1, R2, R3. auto.
  Qed.
  Lemma shown_app a b : shown (a ++ b) = shown a ++ shown b.
  Proof. apply flat_map_app. Qed.
  (** One step adds at most one report. *)
  Lemma step_reports s a : ahead s ->
    ahead (step s a) /\
    (reports (step s a) = reports s \/
     (exists x, reports (step s a) = reports s ++ [inr x]) \/
     exists e now g, a = AWriter e now /\ reports (step s a) = reports s ++ [inl g] /\ c_ts g = now /\
       (length (shown (reports s)) < length (wrote (w_log s)))%nat).
  Proof.
    intros A. destruct a as [f| | |e now]; cbn [Writer.step].
    - pose proof (send_reports s f) as F. cbv zeta in F. destruct F as (R1 & R2 & R3). unfold ahead. rewrite R1, R2, R3. auto.
    - destruct (look_reports s) as (R1 & R2 & R3). unfold look in *. unfold ahead. rewrite R1, R2, R3. auto.
    - unfold ahead, reports in *. cbn [w_log w_back w_place]. auto.
    - unfold writer_step. destruct (w_place s) as [| |f|f w|f|f|x|] eqn:P; unfold ahead in *; rewrite P in A; cbn [written_held] in A.
      + split; [|left; reflexivity]. unfold go, reports in *. cbn [w_log w_back w_place]. destruct (w_stop s); cbn [written_held]; exact A.
      + destruct (w_queue s); (split; [|left; reflexivity]); unfold go, reports in *; cbn [w_log w_back w_place written_held]; exact A.
      + destruct (w_stop s); [|destruct (encode f)]; (split; [|left; reflexivity]); unfold go, reports in *; cbn [w_log w_back w_place written_held]; exact A.
      + destruct e; try (split; [|left; reflexivity]; unfold go, reports in *; cbn [w_log w_back w_place written_held]; exact A).
        unfold see, go, reports in *. cbn [w_log w_back w_place]. rewrite wrote_app, learned_app.
        change (learned [Wrote w]) with (@nil (cframe + exn)). change (wrote [Wrote w]) with [w].
        rewrite app_nil_r. split; [|left; reflexivity]. rewrite app_length. cbn [length].
        destruct flushes; cbn [written_held]; lia.
      + destruct e; (split; [|left; reflexivity]); unfold go, reports in *; cbn [w_log w_back w_place written_held]; lia.
      + unfold answer, reports in *. cbn [w_log w_back w_place written_held]. rewrite !app_assoc, shown_app, app_length.
        change (shown [inl (stamped f now)]) with [stamped f now]. cbn [length]. split; [lia|]. right. right. exists e, now, (stamped f now).
        split; [reflexivity|]. split; [reflexivity|]. split; [reflexivity|lia].
      + unfold answer, reports in *. cbn [w_log w_back w_place written_held]. rewrite !app_assoc, shown_app, app_length.
        change (shown [inr x]) with (@nil cframe). cbn [length]. split; [lia|]. right. left. exists x. reflexivity.
      + split; [unfold ahead; rewrite P; exact A|left; reflexivity].
  Qed.
  Lemma run_snoc acts a : run start (acts ++ [a]) = step (run start acts) a.
  Proof. unfold Writer.run. rewrite fold_left_app. reflexivity. Qed.
  Lemma ahead_run acts : ahead (run start acts).
  Proof.
    induction acts as [|a acts IH] using rev_ind; [apply le_n|]. rewrite run_snoc. apply step_reports. exact IH.
  Qed.
  Lemma stamped_after acts rs g rest : reports (run start acts) = rs ++ inl g :: rest ->
    exists pre e post, acts = pre ++ AWriter e (c_ts g) :: post /\ reports (run start pre) = rs /\
      (length (shown rs) < length (wrote (w_log (run start pre))))%nat.
  Proof.
    revert rest. induction acts as [|a acts IH] using rev_ind; intros rest E.
    - apply (f_equal (@length _)) in E. rewrite app_length in E. cbn [length] in E. change (reports (run start [])) with (@nil (cframe + exn)) in E.
      cbn [length] in E. lia.
    - rewrite run_snoc in E. destruct (step_reports (run start acts) a (ahead_run acts)) as (_ & [R|[(x & R)|(e & now & f & -> & R & T & L)]]).
      + rewrite R in E. destruct (IH rest E) as (pre & e & post & -> & P). exists pre, e, (post ++ [a]).
        split; [rewrite <- app_assoc; reflexivity|exact P].
      + rewrite R in E. destruct rest as [|r rest _] using rev_ind.
        * apply app_inj_tail in E as (_ & E). discriminate.
        * rewrite app_comm_cons, app_assoc in E. apply app_inj_tail in E as (E & _).
          destruct (IH rest E) as (pre & e & post & -> & P). exists pre, e, (post ++ [a]).
          split; [rewrite <- app_assoc; reflexivity|exact P].
      + rewrite R in E. destruct rest as [|r rest _] using rev_ind.
        * apply app_inj_tail in E as (E & E'). injection E' as <-. exists acts, e, []. rewrite T. rewrite <- E.
          split; [reflexivity|]. split; [reflexivity|exact L].
        * rewrite app_comm_cons, app_assoc in E. apply app_inj_tail in E as (E & _).
          destruct (IH rest E) as (pre & e' & post & -> & P). exists pre, e', (post ++ [AWriter e now]).
          split; [rewrite <- app_assoc; reflexivity|exact P].
  Qed.
End Writer.

(** ** SLCAN *)
Local Open Scope Z_scope.
Section Receiver.
  Variable c : est_params.

  Lemma untimed_stamps l : forall s, no_times (map fst l) ->
    rx_out (process_tagged c s l) = rx_out s ++ arrivals c l.
  Proof.
    induction l as [|[line [tm tr]] l IH]; intros s H; [cbn; rewrite app_nil_r; reflexivity|].
    cbn [map fst] in H. apply Forall_cons_iff in H as (H1 & H2). cbn [process_tagged]. rewrite IH by exact H2.
    unfold arrivals. cbn [flat_map fst snd]. rewrite app_assoc. f_equal. unfold process_line.
    destruct (slcan_parse line) as [[[f [ts|]]|]|x]; cbn [fst]; try (rewrite app_nil_r; reflexivity); [|reflexivity].
    exfalso. eapply H1; reflexivity.
  Qed.
  Lemma timed_stamps l : forall s,
    let ms := snd (es_run c (rx_mono s) (mono_samples l)) in
    let rs := snd (es_run c (rx_real s) (real_samples l)) in
    Forall (fun r => is_ok r = true) ms -> Forall (fun r => is_ok r = true) rs ->
    rx_out (process_tagged c s l) = rx_out s ++ stamps c l ms rs.
  Proof.
    unfold mono_samples, real_samples.
    induction l as [|[line [tm tr]] l IH]; intros s; cbv zeta; [intros _ _; cbn; rewrite app_nil_r; reflexivity|].
    unfold times_in. cbn [flat_map process_tagged stamps fst snd]. fold (times_in l).
    unfold process_line. destruct (slcan_parse line) as [[[f [ts|]]|]|x]; cbn [snd app fst].
    - cbn [map fst snd es_run].
      destruct (es_update c (rx_mono s) (ts * 1000) tm) as [em m] eqn:E1.
      destruct (es_update c (rx_real s) (ts * 1000) tr) as [er r] eqn:E2.
      destruct (es_run c em _) as [em' ms] eqn:R1. destruct (es_run c er _) as [er' rs] eqn:R2. cbn [snd].
      intros F1 F2. apply Forall_cons_iff in F1 as (O1 & F1). apply Forall_cons_iff in F2 as (O2 & F2).
      destruct m as [m|]; [|discriminate]. destruct r as [r|]; [|discriminate]. cbn [fst].
      specialize (IH {| rx_data := rx_data s; rx_mono := em; rx_real := er; rx_out := rx_out s ++ [(f, et_time m, et_time r)] |}).
      cbn [rx_mono rx_real rx_out] in IH. cbv zeta in IH. rewrite R1, R2 in IH. cbn [snd] in IH. rewrite (IH F1 F2).
      rewrite <- app_assoc. reflexivity.
    - intros F1 F2.
      specialize (IH {| rx_data := rx_data s; rx_mono := rx_mono s; rx_real := rx_real s;
        rx_out := rx_out s ++ [(f, e_scale c * tm, e_scale c * tr)] |}).
      cbn [rx_mono rx_real rx_out] in IH. cbv zeta in IH. rewrite (IH F1 F2), <- app_assoc. reflexivity.
    - apply IH.
    - apply IH.
  Qed.

  (** Without any assumption on the clocks. *)
  Definition some_run (s : estimator) : Prop := exists samples, s = fst (es_run c es_new samples).
  Lemma some_run_next s a b : some_run s -> some_run (fst (es_update c s a b)).
  Proof.
    intros (l & ->). exists (l ++ [(a, b)]). rewrite TsFacts.run_app. cbn [es_run].
    destruct (es_run c es_new l) as (s1 & es). cbn [fst]. destruct (es_update c s1 a b) as (s2 & e). reflexivity.
  Qed.
  Definition in_time (lines : list (list N * (Z * Z))) (x : rxframe * Z * Z) : Prop :=
    let '(f, m, r) := x in
    exists line tm tr ts, In (line, (tm, tr)) lines /\ slcan_parse line = Ok (Some (f, ts)) /\
      m <= e_scale c * (tm + e_fixed c) /\ r <= e_scale c * (tr + e_fixed c).
  Lemma in_time_more a b x : in_time a x -> in_time (a ++ b) x.
  Proof.
    destruct x as ((f & m) & r). intros (line & tm & tr & ts & I & H). exists line, tm, tr, ts.
    split; [apply in_or_app; left; exact I|exact H].
  Qed.
  Lemma not_later : 0 <= e_resync c -> 0 <= e_fixed c -> 0 <= e_scale c -> forall l,
    let s := process_tagged c rx_new l in
    some_run (rx_mono s) /\ some_run (rx_real s) /\ Forall (in_time l) (rx_out s).
  Proof.
    intros RS FX SC l. cbv zeta. induction l as [|[line [tm tr]] l IH] using rev_ind.
    - cbn. split; [exists []; reflexivity|]. split; [exists []; reflexivity|constructor].
    - rewrite process_tagged_app. cbn [process_tagged]. set (s := process_tagged c rx_new l) in *.
      destruct IH as (M & R & F). unfold process_line.
      assert (F' : Forall (in_time (l ++ [(line, (tm, tr))])) (rx_out s)) by (eapply Forall_impl; [|exact F]; intros x; apply in_time_more).
      assert (U : forall e p q e' x, some_run e -> es_update c e p q = (e', Ok x) -> et_time x <= e_scale c * (q + e_fixed c)).
      { intros e p q e' x (l' & ->) E. destruct (estimates c l' p q e' x RS E) as (I & _ & U). specialize (U _ I). cbn [fst snd] in U. lia. }
      destruct (slcan_parse line) as [[[f [ts|]]|]|x] eqn:P; cbn [fst].
      + pose proof (some_run_next (rx_mono s) (ts * 1000) tm M) as M'. pose proof (some_run_next (rx_real s) (ts * 1000) tr R) as R'.
        destruct (es_update c (rx_mono s) (ts * 1000) tm) as [em [m|]] eqn:E1; cbn [fst] in *; [|cbn [rx_mono rx_real rx_out]; auto].
        destruct (es_update c (rx_real s) (ts * 1000) tr) as [er [r|]] eqn:E2; cbn [fst] in *; [|cbn [rx_mono rx_real rx_out]; auto].
        cbn [fst rx_mono rx_real rx_out]. split; [exact M'|]. split; [exact R'|]. apply Forall_app. split; [exact F'|].
        constructor; [|constructor]. exists line, tm, tr, (Some ts). split; [apply in_or_app; right; left; reflexivity|].
        split; [exact P|]. split; [exact (U _ _ _ _ _ M E1)|exact (U _ _ _ _ _ R E2)].
      + cbn [rx_mono rx_real rx_out]. split; [exact M|]. split; [exact R|]. apply Forall_app. split; [exact F'|].
        constructor; [|constructor]. exists line, tm, tr, None. split; [apply in_or_app; right; left; reflexivity|].
        split; [exact P|]. split; apply Z.mul_le_mono_nonneg_l; lia.
      + auto.
      + auto.
  Qed.
End Receiver.
