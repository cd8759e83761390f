(** Writer threads: an invariant over all interleavings. *)
From Verif.Base Require Import Prelude Pack.
From Verif.Model Require Import CanFrame Packets Writer.
From Verif.Spec Require Import PacketSpec WriterSpec.
From Verif.Proofs Require Import PacketFacts.

Section Facts.
  Variables (W : Type) (encode : cframe -> res W) (flushes : bool).
  Variables (refuses : cframe -> bool) (capacity : nat).
  Notation run := (run encode flushes refuses capacity).
  Notation step := (step encode flushes refuses capacity).

  Lemma accepted_app (a b : list (sight W)) : accepted (a ++ b) = accepted a ++ accepted b.
  Proof. apply flat_map_app. Qed.
  Lemma wrote_app (a b : list (sight W)) : wrote (a ++ b) = wrote a ++ wrote b.
  Proof. apply flat_map_app. Qed.
  Lemma learned_app (a b : list (sight W)) : learned (a ++ b) = learned a ++ learned b.
  Proof. apply flat_map_app. Qed.

  Lemma run_app s a b : run s (a ++ b) = run (run s a) b.
  Proof. apply fold_left_app. Qed.

  (** The frame that the writer holds, and what it has written of it. *)
  Definition held (p : place W) (fs : list cframe) (ws : list W) : Prop :=
    match p with
    | AtTop | AtGet | AtEnd => fs = [] /\ ws = []
    | AtTry f => fs = [f] /\ ws = []
    | AtSend f w => fs = [f] /\ ws = [] /\ encode f = Ok w
    | AtFlush f | AtDone f => fs = [f] /\ exists w, ws = [w] /\ encode f = Ok w
    | AtRaise x => (exists f, fs = [f]) /\ ws = []
    end.
  Definition left_over (s : state W) : Prop := w_stop s = true /\ (w_place s = AtTop \/ w_place s = AtEnd).
  Definition inv (s : state W) : Prop := exists fs ws hf hw lost,
    treated encode fs ws (learned (w_log s) ++ w_back s) /\ held (w_place s) hf hw /\
    accepted (w_log s) = fs ++ hf ++ lost ++ w_queue s /\ wrote (w_log s) = ws ++ hw /\
    (lost = [] \/ left_over s).

  Definition look (s : state W) := fst (check_write_feedback W s).
  Lemma look_facts s : let s' := look s in
    w_queue s' = w_queue s /\ w_stop s' = w_stop s /\ w_place s' = w_place s /\
    accepted (w_log s') = accepted (w_log s) /\ wrote (w_log s') = wrote (w_log s) /\
    learned (w_log s') ++ w_back s' = learned (w_log s) ++ w_back s /\
    length (learned (w_log s')) = (length (learned (w_log s)) + Nat.min 1 (length (w_back s)))%nat.
  Proof.
    unfold look, check_write_feedback. destruct (w_back s) as [|[f|x] r] eqn:B; cbn [fst see w_queue w_back w_stop w_place w_log];
      unfold see; cbn [w_queue w_back w_stop w_place w_log].
    - rewrite B. repeat (split; [reflexivity|]). cbn. lia.
    - rewrite accepted_app, wrote_app, learned_app. cbn [accepted wrote learned flat_map app].
      rewrite !app_nil_r, <- !app_assoc, app_length. cbn [app length]. repeat (split; [reflexivity|]). lia.
    - rewrite accepted_app, wrote_app, learned_app. cbn [accepted wrote learned flat_map app].
      rewrite !app_nil_r, <- !app_assoc, app_length. cbn [app length]. repeat (split; [reflexivity|]). lia.
  Qed.
  Lemma inv_look s : inv s -> inv (look s).
  Proof.
    intros (fs & ws & hf & hw & lost & T & H & A & Wr & L). pose proof (look_facts s) as F. cbv zeta in F.
    destruct F as (F1 & F2 & F3 & F4 & F5 & F6 & _).
    exists fs, ws, hf, hw, lost. rewrite F1, F3, F4, F5, F6. repeat (split; [assumption|]).
    destruct L as [L|L]; [left; exact L|right]. unfold left_over in *. rewrite F2, F3. exact L.
  Qed.
  Lemma inv_refused s f : inv s -> inv (see W s (Refused f)).
  Proof.
    intros (fs & ws & hf & hw & lost & T & H & A & Wr & L). exists fs, ws, hf, hw, lost. unfold see.
    cbn [w_log w_queue w_back w_place w_stop].
    rewrite accepted_app, wrote_app, learned_app. cbn [accepted wrote learned flat_map]. rewrite !app_nil_r.
    repeat (split; [assumption|]). exact L.
  Qed.
  Lemma inv_send s f : inv s -> inv (send_frame W refuses capacity s f).
  Proof.
    intros I. unfold send_frame. destruct (refuses f); [apply inv_refused; exact I|].
    pose proof (inv_look s I) as I'. unfold look in I'.
    destruct (check_write_feedback W s) as [s' [|]]; cbn [fst] in I'; [apply inv_refused; exact I'|].
    dif; [|apply inv_refused; exact I'].
    destruct I' as (fs & ws & hf & hw & lost & T & Hh & A & Wr & L). exists fs, ws, hf, hw, lost. unfold see.
    cbn [w_log w_queue w_back w_place w_stop].
    rewrite accepted_app, wrote_app, learned_app. cbn [accepted wrote learned flat_map]. rewrite !app_nil_r.
    repeat (split; [assumption|]). split; [|split; [assumption|exact L]].
    rewrite A, <- !app_assoc. reflexivity.
  Qed.

  Lemma same_stamped f now : same f (stamped f now).
  Proof. unfold same. cbn. auto. Qed.

  Lemma inv_writer s a now : (forall f, w_place s = AtFlush f -> a = Fine) -> inv s ->
    inv (writer_step W encode flushes s a now).
  Proof.
    intros G (fs & ws & hf & hw & lost & T & Hh & A & Wr & L). unfold writer_step.
    assert (Gone : w_stop s = false \/ ~ left_over s -> lost = []).
    { intros Q. destruct L as [L|L]; [exact L|]. destruct Q as [Q|Q]; [|contradiction]. destruct L. congruence. }
    destruct (w_place s) as [| |f|f w|f|f|x|] eqn:P; cbn [held] in Hh.
    - destruct Hh; subst hf hw. exists fs, ws, [], [], lost. unfold go. cbn [w_log w_queue w_back w_place w_stop].
      split; [exact T|]. split; [destruct (w_stop s); cbn [held]; auto|]. split; [exact A|]. split; [exact Wr|].
      destruct (w_stop s) eqn:S; [right; split; auto|left; apply Gone; auto].
    - destruct Hh; subst hf hw. assert (lost = []) by (apply Gone; right; intros [_ [Q|Q]]; congruence). subst lost.
      destruct (w_queue s) as [|f q] eqn:Q.
      + exists fs, ws, [], [], []. unfold go. cbn [w_log w_queue w_back w_place w_stop held]. rewrite Q. auto 8.
      + exists fs, ws, [f], [], []. cbn [w_log w_queue w_back w_place w_stop held]. auto 8.
    - destruct Hh; subst hf hw. assert (lost = []) by (apply Gone; right; intros [_ [Q|Q]]; congruence). subst lost.
      destruct (w_stop s) eqn:S.
      + exists fs, ws, [], [], [f]. unfold go. cbn [w_log w_queue w_back w_place w_stop held].
        repeat (split; [auto|]). right. split; cbn; auto.
      + destruct (encode f) as [w|x] eqn:E.
        * exists fs, ws, [f], [], []. unfold go. cbn [w_log w_queue w_back w_place w_stop held]. auto 10.
        * exists fs, ws, [f], [], []. unfold go. cbn [w_log w_queue w_back w_place w_stop held]. eauto 10.
    - destruct Hh as (? & ? & E); subst hf hw. assert (lost = []) by (apply Gone; right; intros [_ [Q|Q]]; congruence). subst lost.
      destruct a as [| |x].
      + exists fs, ws, [f], [w], []. unfold see, go. cbn [w_log w_queue w_back w_place w_stop].
        rewrite accepted_app, wrote_app, learned_app. cbn [accepted wrote learned flat_map app]. rewrite !app_nil_r.
        rewrite app_nil_r in Wr. rewrite Wr.
        split; [exact T|]. split; [destruct flushes; cbn [held]; eauto|]. auto.
      + exists fs, ws, [f], [], []. unfold go. cbn [w_log w_queue w_back w_place w_stop held]. auto 10.
      + exists fs, ws, [f], [], []. unfold go. cbn [w_log w_queue w_back w_place w_stop held]. eauto 10.
    - rewrite (G f eq_refl). destruct Hh as (? & w & ? & E); subst hf hw.
      assert (lost = []) by (apply Gone; right; intros [_ [Q|Q]]; congruence). subst lost.
      exists fs, ws, [f], [w], []. unfold go. cbn [w_log w_queue w_back w_place w_stop held]. eauto 10.
    - destruct Hh as (? & w & ? & E); subst hf hw.
      assert (lost = []) by (apply Gone; right; intros [_ [Q|Q]]; congruence). subst lost.
      exists (fs ++ [f]), (ws ++ [w]), [], [], []. unfold answer. cbn [w_log w_queue w_back w_place w_stop held].
      split; [rewrite app_assoc; eapply tr_sent; eauto using same_stamped|]. split; [auto|].
      rewrite A, Wr, <- !app_assoc. auto.
    - destruct Hh as ((f & ?) & ?); subst hf hw.
      assert (lost = []) by (apply Gone; right; intros [_ [Q|Q]]; congruence). subst lost.
      exists (fs ++ [f]), ws, [], [], []. unfold answer. cbn [w_log w_queue w_back w_place w_stop held].
      split; [rewrite app_assoc; eapply tr_failed; eauto|]. split; [auto|].
      rewrite A, Wr, <- !app_assoc. auto.
    - exists fs, ws, hf, hw, lost. rewrite P. cbn [held]. auto 10.
  Qed.

  Notation gentle := (gentle encode flushes refuses capacity).

  Lemma inv_stop s : inv s -> inv (State (w_queue s) (w_back s) true (w_place s) (w_log s)).
  Proof.
    intros (fs & ws & hf & hw & lost & T & Hh & A & Wr & L). exists fs, ws, hf, hw, lost.
    cbn [w_log w_queue w_back w_place w_stop]. repeat (split; [assumption|]).
    destruct L as [L|L]; [left; exact L|right]. destruct L. split; [reflexivity|cbn; assumption].
  Qed.
  Lemma inv_run acts : forall s, inv s -> gentle s acts -> inv (run s acts).
  Proof.
    induction acts as [|a acts IH]; intros s I G; [exact I|]. change (run s (a :: acts)) with (run (step s a) acts).
    apply IH.
    - destruct a as [f| | |a now]; cbn [Writer.step].
      + apply inv_send, I.
      + apply (inv_look s), I.
      + apply inv_stop, I.
      + apply inv_writer; [|exact I]. intros f P. exact (G [] a now acts f eq_refl P).
    - intros pre a' now post f E P. apply (G (a :: pre) a' now post f); [rewrite E; reflexivity|exact P].
  Qed.
  Lemma inv_start : inv start.
  Proof.
    exists [], [], [], [], []. unfold start. cbn [w_log w_queue w_back w_place w_stop held learned accepted wrote flat_map app].
    split; [constructor|]. auto.
  Qed.

  (** A check of it. *)
  Fixpoint gentleb (s : state W) (acts : list act) : bool :=
    match acts with
    | [] => true
    | a :: r =>
        match a, w_place s with AWriter Fine _, _ => true | AWriter _ _, AtFlush _ => false | _, _ => true end &&
        gentleb (step s a) r
    end.
  Lemma gentleb_ok acts : forall s, gentleb s acts = true -> gentle s acts.
  Proof.
    induction acts as [|b acts IH]; intros s K pre a now post f E P; [destruct pre; discriminate|].
    cbn [gentleb] in K. apply andb_true_iff in K as (K1 & K2). destruct pre as [|c pre]; injection E as -> E.
    - change (run s []) with s in P. rewrite P in K1. destruct a; congruence.
    - subst acts. exact (IH _ K2 pre a now post f eq_refl P).
  Qed.

  (** Where nothing is flushed. *)
  Lemma no_flush_step s a : flushes = false -> (forall f, w_place s <> AtFlush f) -> forall f, w_place (step s a) <> AtFlush f.
  Proof.
    intros Nf N f. destruct a as [g| | |a now]; cbn [Writer.step].
    - unfold send_frame. destruct (refuses g); [cbn; apply N|].
      pose proof (look_facts s) as F. cbv zeta in F. destruct F as (_ & _ & F & _). unfold look in F.
      destruct (check_write_feedback W s) as [s' [|]]; cbn [fst] in F; [cbn; rewrite F; apply N|].
      dif; cbn; rewrite F; apply N.
    - destruct (look_facts s) as (_ & _ & F & _). unfold look in F. rewrite F. apply N.
    - cbn. apply N.
    - unfold writer_step. rewrite Nf. destruct (w_place s) eqn:P; try (cbn; discriminate).
      + cbn. destruct (w_stop s); discriminate.
      + destruct (w_queue s); cbn; discriminate.
      + destruct (w_stop s); [cbn; discriminate|]. destruct (encode f0); cbn; discriminate.
      + destruct a; cbn; discriminate.
      + exfalso. eapply N; eauto.
      + rewrite P. discriminate.
  Qed.
  Lemma no_flush acts : forall s, flushes = false -> (forall f, w_place s <> AtFlush f) ->
    forall f, w_place (run s acts) <> AtFlush f.
  Proof.
    induction acts as [|a acts IH]; intros s Nf N f; [apply N|]. change (run s (a :: acts)) with (run (step s a) acts).
    apply IH; [exact Nf|]. apply no_flush_step; assumption.
  Qed.
  Lemma gentle_no_flush acts : flushes = false -> gentle start acts.
  Proof.
    intros Nf pre a now post f E P. exfalso. revert P. apply no_flush; [exact Nf|]. cbn. discriminate.
  Qed.

  (** The flag is only set by [close]. *)
  Lemma stop_run acts : forall s, never_stopped acts -> w_stop (run s acts) = w_stop s.
  Proof.
    induction acts as [|a acts IH]; intros s N; [reflexivity|]. change (run s (a :: acts)) with (run (step s a) acts).
    unfold never_stopped in *. cbn [In] in N. rewrite IH by tauto.
    destruct a as [g| | |a now]; cbn [Writer.step].
    - unfold send_frame. destruct (refuses g); [reflexivity|].
      pose proof (look_facts s) as F. cbv zeta in F. destruct F as (_ & F & _). unfold look in F.
      destruct (check_write_feedback W s) as [s' [|]]; cbn [fst] in F; [exact F|]. dif; exact F.
    - apply (look_facts s).
    - exfalso. apply N. left. reflexivity.
    - unfold writer_step. destruct (w_place s); try reflexivity.
      + destruct (w_queue s); reflexivity.
      + destruct (w_stop s) eqn:S; [exact S|]. destruct (encode f); exact S.
      + destruct a; reflexivity.
      + destruct a; reflexivity.
  Qed.

  (** ** All interleavings *)

  Theorem always acts : gentle start acts ->
    let s := run start acts in
    exists fs rest extra, accepted (w_log s) = fs ++ rest /\ (length extra <= 1)%nat /\
      treated encode fs (wrote (w_log s)) (learned (w_log s) ++ w_back s ++ extra).
  Proof.
    intros G s. destruct (inv_run acts start inv_start G) as (fs & ws & hf & hw & lost & T & Hh & A & Wr & L).
    fold s in T, Hh, A, Wr, L.
    assert (Plain : hw = [] -> exists fs rest extra, accepted (w_log s) = fs ++ rest /\ (length extra <= 1)%nat /\
      treated encode fs (wrote (w_log s)) (learned (w_log s) ++ w_back s ++ extra)).
    { intros ->. exists fs, (hf ++ lost ++ w_queue s), []. rewrite app_nil_r in *. split; [exact A|].
      split; [cbn; lia|]. rewrite Wr. exact T. }
    destruct (w_place s) as [| |f|f w|f|f|x|]; cbn [held] in Hh; try (apply Plain; tauto).
    - destruct Hh as (? & w & ? & E); subst hf hw. exists (fs ++ [f]), (lost ++ w_queue s), [inl f].
      rewrite A, Wr, <- !app_assoc. split; [reflexivity|]. split; [cbn; lia|]. rewrite app_assoc.
      eapply tr_sent; eauto. unfold same. auto.
    - destruct Hh as (? & w & ? & E); subst hf hw. exists (fs ++ [f]), (lost ++ w_queue s), [inl f].
      rewrite A, Wr, <- !app_assoc. split; [reflexivity|]. split; [cbn; lia|]. rewrite app_assoc.
      eapply tr_sent; eauto. unfold same. auto.
  Qed.

  Theorem when_finished acts : gentle start acts -> never_stopped acts ->
    let s := run start acts in finished s ->
    treated encode (accepted (w_log s)) (wrote (w_log s)) (learned (w_log s) ++ w_back s).
  Proof.
    intros G N s (Q & P). destruct (inv_run acts start inv_start G) as (fs & ws & hf & hw & lost & T & Hh & A & Wr & L).
    fold s in T, Hh, A, Wr, L.
    assert (lost = []).
    { destruct L as [L|[L _]]; [exact L|]. unfold s in L. rewrite stop_run in L by exact N. discriminate. }
    assert (hf = [] /\ hw = []) as (-> & ->) by (destruct P as [P|P]; rewrite P in Hh; exact Hh).
    subst lost. rewrite Q, !app_nil_r in A. rewrite app_nil_r in Wr. rewrite A, Wr. exact T.
  Qed.

  (** ** Progress *)

  Definition cost (p : place W) : nat :=
    match p with
    | AtTop => 1 | AtGet => 0 | AtTry _ => 5 | AtSend _ _ => 4 | AtFlush _ => 3 | AtDone _ => 2 | AtRaise _ => 2 | AtEnd => 0
    end.
  Definition work (s : state W) : nat := (6 * length (w_queue s) + cost (w_place s))%nat.
  Lemma work_step s now : w_stop s = false -> w_place s <> AtEnd ->
    let s' := writer_step W encode flushes s Fine now in
    (finished s /\ finished s' \/ (work s' < work s)%nat) /\ w_stop s' = false /\ w_place s' <> AtEnd.
  Proof.
    intros S N. unfold writer_step, work, finished. destruct (w_place s) as [| |f|f w|f|f|x|] eqn:P.
    - rewrite S. cbn. split; [|split; [exact S|discriminate]]. destruct (w_queue s) eqn:Q; [left; auto|right; cbn; lia].
    - destruct (w_queue s) eqn:Q; cbn; rewrite ?Q; (split; [|split; [exact S|discriminate]]); [left; auto|right; lia].
    - rewrite S. destruct (encode f); cbn; (split; [|split; [exact S|discriminate]]); right; lia.
    - cbn. destruct flushes; cbn; (split; [|split; [exact S|discriminate]]); right; lia.
    - cbn. split; [|split; [exact S|discriminate]]; right; lia.
    - cbn. split; [|split; [exact S|discriminate]]; right; lia.
    - cbn. split; [|split; [exact S|discriminate]]; right; lia.
    - contradiction.
  Qed.
  Lemma finished_no_work s : work s = 0%nat -> w_place s <> AtEnd -> finished s.
  Proof.
    unfold work, finished. intros K N. destruct (w_queue s); [|cbn in K; lia].
    destruct (w_place s); cbn in K; auto; try lia. contradiction.
  Qed.
  Lemma writer_finishes times : forall s, w_stop s = false -> w_place s <> AtEnd ->
    (finished s \/ (work s <= length times)%nat) ->
    finished (run s (map (AWriter Fine) times)).
  Proof.
    induction times as [|now times IH]; intros s S N F; cbn [map]; [|change (run s (AWriter Fine now :: map (AWriter Fine) times)) with (run (step s (AWriter Fine now)) (map (AWriter Fine) times))].
    - destruct F as [F|F]; [exact F|]. apply finished_no_work; [apply Nat.le_0_r; exact F|exact N].
    - destruct (work_step s now S N) as (K & S' & N'). apply IH; [exact S'|exact N'|].
      destruct K as [[_ K]|K]; [left; exact K|].
      destruct F as [F|F]; [|right; apply Nat.lt_succ_r; eapply Nat.lt_le_trans; [exact K|exact F]].
      left. destruct F as (Q & [P|P]); cbn [Writer.step]; unfold writer_step, finished, go; rewrite P, ?Q, ?S; cbn; auto.
  Qed.

  Lemma alive_run acts : forall s, never_stopped acts -> w_stop s = false -> w_place s <> AtEnd -> w_place (run s acts) <> AtEnd.
  Proof.
    induction acts as [|a acts IH]; intros s N S P; [exact P|].
    change (run s (a :: acts)) with (run (step s a) acts).
    assert (N1 : never_stopped [a]) by (intros [K|[]]; apply N; left; exact K).
    pose proof (stop_run [a] s N1) as S1. change (run s [a]) with (step s a) in S1.
    apply IH; [intros K; apply N; right; exact K|congruence|].
    destruct a as [f| | |a now]; cbn [Writer.step].
    - unfold send_frame. pose proof (look_facts s) as F. cbv zeta in F. destruct F as (_ & _ & F & _). unfold look in F.
      destruct (refuses f); [exact P|].
      destruct (check_write_feedback W s) as [s' [|]]; cbn [fst] in F; [cbn; congruence|]. dif; cbn; congruence.
    - pose proof (look_facts s) as F. cbv zeta in F. destruct F as (_ & _ & F & _). unfold look in F. congruence.
    - exact P.
    - unfold writer_step. rewrite S. destruct (w_place s) eqn:Q; try (cbn; congruence).
      + destruct (w_queue s); cbn; congruence.
      + destruct (encode f); cbn; congruence.
      + destruct a; cbn; try congruence. destruct flushes; congruence.
      + destruct a; cbn; congruence.
  Qed.
  Theorem finishes acts times : never_stopped acts ->
    let s := run start acts in
    (6 * length (w_queue s) + 6 <= length times)%nat -> finished (run s (map (AWriter Fine) times)).
  Proof.
    intros N s L. apply writer_finishes.
    - unfold s. rewrite stop_run by exact N. reflexivity.
    - apply alive_run; [exact N|reflexivity|discriminate].
    - right. unfold work. destruct (w_place s); cbn [cost]; lia.
  Qed.

  (** ** Reports *)

  Definition is_look (a : act) : bool :=
    match a with ASend f => negb (refuses f) | AReceive => true | _ => false end.
  Lemma stream_step s a : exists l,
    learned (w_log (step s a)) ++ w_back (step s a) = (learned (w_log s) ++ w_back s) ++ l /\
    length (learned (w_log (step s a))) =
      (length (learned (w_log s)) + if is_look a then Nat.min 1 (length (w_back s)) else 0)%nat.
  Proof.
    destruct a as [f| | |a now]; cbn [Writer.step is_look].
    - unfold send_frame. destruct (refuses f); cbn [negb].
      + exists []. unfold see. cbn [w_log w_back]. rewrite learned_app. cbn [learned flat_map]. rewrite !app_nil_r. split; [reflexivity|lia].
      + pose proof (look_facts s) as F. cbv zeta in F. destruct F as (_ & _ & _ & _ & _ & F1 & F2). unfold look in *.
        destruct (check_write_feedback W s) as [s' [|]]; cbn [fst] in F1, F2.
        * exists []. unfold see. cbn [w_log w_back]. rewrite learned_app. cbn [learned flat_map]. rewrite !app_nil_r. auto.
        * exists []. dif; unfold see; cbn [w_log w_back]; rewrite learned_app; cbn [learned flat_map]; rewrite !app_nil_r; auto.
    - pose proof (look_facts s) as F. cbv zeta in F. destruct F as (_ & _ & _ & _ & _ & F1 & F2). unfold look in *.
      exists []. rewrite app_nil_r. auto.
    - exists []. cbn [w_log w_back]. rewrite app_nil_r. split; [reflexivity|lia].
    - unfold writer_step. assert (Same : exists l, learned (w_log s) ++ w_back s = (learned (w_log s) ++ w_back s) ++ l /\
        length (learned (w_log s)) = (length (learned (w_log s)) + 0)%nat).
      { exists []. rewrite app_nil_r. split; [reflexivity|lia]. }
      destruct (w_place s) as [| |f|f w|f|f|x|]; unfold go, answer; cbn [w_log w_back]; try exact Same.
      + destruct (w_queue s); cbn [w_log w_back]; exact Same.
      + destruct (w_stop s); [cbn [w_log w_back]; exact Same|]. destruct (encode f); cbn [w_log w_back]; exact Same.
      + destruct a; cbn [w_log w_back see]; try exact Same. exists []. unfold see. cbn [w_log w_back].
        rewrite learned_app. cbn [learned flat_map]. rewrite !app_nil_r. split; [reflexivity|lia].
      + destruct a; cbn [w_log w_back]; exact Same.
      + eexists. rewrite app_assoc. split; [reflexivity|lia].
      + eexists. rewrite app_assoc. split; [reflexivity|lia].
  Qed.
  Lemma stream_run acts : forall s, exists l,
    learned (w_log (run s acts)) ++ w_back (run s acts) = (learned (w_log s) ++ w_back s) ++ l /\
    (length (learned (w_log s)) + Nat.min (looks refuses acts) (length (w_back s)) <= length (learned (w_log (run s acts))))%nat.
  Proof.
    induction acts as [|a acts IH]; intros s.
    - exists []. rewrite app_nil_r. split; [reflexivity|]. cbn. lia.
    - change (run s (a :: acts)) with (run (step s a) acts).
      destruct (stream_step s a) as (l1 & E1 & L1). destruct (IH (step s a)) as (l2 & E2 & L2).
      exists (l1 ++ l2). split; [rewrite E2, E1, !app_assoc; reflexivity|].
      apply (f_equal (@length _)) in E1. rewrite !app_length in E1.
      assert (K : looks refuses (a :: acts) = ((if is_look a then 1 else 0) + looks refuses acts)%nat).
      { unfold looks. cbn [filter]. change (match a with ASend f => negb (refuses f) | AReceive => true | _ => false end)
          with (is_look a). destruct (is_look a); reflexivity. }
      rewrite K. destruct (is_look a); lia.
  Qed.
  Lemma treated_length fs ws rs : treated encode fs ws rs -> length rs = length fs.
  Proof. induction 1; [reflexivity| |]; rewrite !app_length; cbn; lia. Qed.

  Theorem reported acts more : gentle start acts -> never_stopped acts ->
    let s := run start acts in finished s ->
    (length (accepted (w_log s)) <= looks refuses more)%nat ->
    exists rs rest, treated encode (accepted (w_log s)) (wrote (w_log s)) rs /\
      learned (w_log (run s more)) = rs ++ rest.
  Proof.
    intros G N s F L. pose proof (when_finished acts G N F) as T. fold s in T.
    exists (learned (w_log s) ++ w_back s). destruct (stream_run more s) as (l & E & K).
    pose proof (treated_length _ _ _ T) as TL. rewrite app_length in TL.
    assert (M : (length (learned (w_log s) ++ w_back s) <= length (learned (w_log (run s more))))%nat)
      by (rewrite app_length; lia).
    exists (skipn (length (learned (w_log s) ++ w_back s)) (learned (w_log (run s more)))). split; [exact T|].
    rewrite <- (firstn_skipn (length (learned (w_log s) ++ w_back s)) (learned (w_log (run s more)))) at 1.
    f_equal. apply (f_equal (firstn (length (learned (w_log s) ++ w_back s)))) in E.
    rewrite firstn_app in E. replace (length (learned (w_log s) ++ w_back s) - length (learned (w_log (run s more))))%nat with 0%nat in E by lia.
    cbn [firstn] in E. rewrite app_nil_r in E. rewrite E. rewrite firstn_app, Nat.sub_diag, firstn_all. cbn [firstn]. apply app_nil_r.
  Qed.

  (** ** Closing *)

  Definition rounds (p : place W) : nat :=
    match p with
    | AtEnd => 0 | AtTop => 1 | AtGet => 3 | AtTry _ => 2 | AtSend _ _ => 4 | AtFlush _ => 3 | AtDone _ => 2 | AtRaise _ => 2
    end.
  Definition to_write (p : place W) : nat := match p with AtSend _ _ => 1 | _ => 0 end.
  Definition is_turn (a : act) : bool := match a with AWriter _ _ => true | _ => false end.
  Lemma stopped_step s a : w_stop s = true ->
    w_stop (step s a) = true /\
    ((if is_turn a then 1 else 0) + rounds (w_place (step s a)) <= Nat.max (if is_turn a then 1 else 0) (rounds (w_place s)))%nat /\
    (length (wrote (w_log (step s a))) + to_write (w_place (step s a)) <= length (wrote (w_log s)) + to_write (w_place s))%nat.
  Proof.
    intros S. destruct a as [f| | |a now]; cbn [Writer.step is_turn].
    - unfold send_frame. destruct (refuses f); unfold see; cbn [w_stop w_place w_log].
      + rewrite wrote_app, app_length. cbn [wrote flat_map app length]. split; [exact S|]. split; [reflexivity|lia].
      + pose proof (look_facts s) as F. cbv zeta in F. destruct F as (_ & F2 & F3 & _ & F5 & _). unfold look in *.
        destruct (check_write_feedback W s) as [s' [|]]; cbn [fst] in F2, F3, F5.
        * cbn [w_stop w_place w_log]. rewrite wrote_app, app_length, F2, F3, F5. cbn [wrote flat_map app length].
          split; [exact S|]. split; [reflexivity|lia].
        * dif; cbn [w_stop w_place w_log]; rewrite wrote_app, app_length, F2, F3, F5; cbn [wrote flat_map app length];
            (split; [exact S|]; split; [reflexivity|lia]).
    - pose proof (look_facts s) as F. cbv zeta in F. destruct F as (_ & F2 & F3 & _ & F5 & _). unfold look in *.
      rewrite F2, F3, F5. split; [exact S|]. split; [reflexivity|lia].
    - cbn [w_stop w_place w_log]. split; [reflexivity|]. split; [reflexivity|lia].
    - unfold writer_step. rewrite S. destruct (w_place s) as [| |f|f w|f|f|x|] eqn:P; unfold go, answer; cbn [w_stop w_place w_log rounds to_write].
      + (split; [first [exact S|reflexivity]|split; [cbn; lia|lia]]).
      + destruct (w_queue s); cbn [w_stop w_place w_log rounds to_write]; (split; [first [exact S|reflexivity]|split; [cbn; lia|lia]]).
      + (split; [first [exact S|reflexivity]|split; [cbn; lia|lia]]).
      + destruct a; unfold see; cbn [w_stop w_place w_log rounds to_write].
        * rewrite wrote_app, app_length. cbn [wrote flat_map length app].
          destruct flushes; cbn [rounds to_write]; (split; [first [exact S|reflexivity]|split; [cbn; lia|lia]]).
        * (split; [first [exact S|reflexivity]|split; [cbn; lia|lia]]).
        * (split; [first [exact S|reflexivity]|split; [cbn; lia|lia]]).
      + destruct a; cbn [w_stop w_place w_log rounds to_write]; (split; [first [exact S|reflexivity]|split; [cbn; lia|lia]]).
      + (split; [first [exact S|reflexivity]|split; [cbn; lia|lia]]).
      + (split; [first [exact S|reflexivity]|split; [cbn; lia|lia]]).
      + rewrite P. cbn [rounds to_write]. (split; [first [exact S|reflexivity]|split; [cbn; lia|lia]]).
  Qed.
  Lemma stopped_run acts : forall s, w_stop s = true ->
    (rounds (w_place (run s acts)) + Nat.min (turns acts) (rounds (w_place s)) <= rounds (w_place s))%nat /\
    (length (wrote (w_log (run s acts))) + to_write (w_place (run s acts)) <= length (wrote (w_log s)) + to_write (w_place s))%nat.
  Proof.
    induction acts as [|a acts IH]; intros s S; [split; cbn; lia|].
    change (run s (a :: acts)) with (run (step s a) acts).
    destruct (stopped_step s a S) as (S' & R & T). destruct (IH _ S') as (R' & T'). split; [|lia].
    assert (K : turns (a :: acts) = ((if is_turn a then 1 else 0) + turns acts)%nat).
    { unfold turns. cbn [filter]. change (match a with AWriter _ _ => true | _ => false end) with (is_turn a).
      destruct (is_turn a); reflexivity. }
    rewrite K. destruct (is_turn a); lia.
  Qed.

  Theorem closing acts more : let s := run start (acts ++ [AStop]) in
    (4 <= turns more)%nat -> w_place (run s more) = AtEnd.
  Proof.
    intros s T. assert (S : w_stop s = true) by (unfold s; rewrite run_app; reflexivity).
    destruct (stopped_run more s S) as (R & _).
    assert (rounds (w_place s) <= 4)%nat by (destruct (w_place s); cbn; lia).
    destruct (w_place (run s more)); cbn [rounds] in R; try lia. reflexivity.
  Qed.
  Theorem closing_writes acts more : let s := run start (acts ++ [AStop]) in
    (length (wrote (w_log (run s more))) <= length (wrote (w_log s)) + 1)%nat.
  Proof.
    intros s. assert (S : w_stop s = true) by (unfold s; rewrite run_app; reflexivity).
    destruct (stopped_run more s S) as (_ & R).
    assert (to_write (w_place s) <= 1)%nat by (destruct (w_place s); cbn; lia). lia.
  Qed.

  (** ** Without errors *)

  Definition encodes (f : cframe) : Prop := exists w, encode f = Ok w.
  Definition good (r : cframe + exn) : Prop := exists f, r = inl f.
  Definition smooth (s : state W) : Prop :=
    Forall encodes (w_queue s) /\
    match w_place s with AtTry f => encodes f | AtRaise _ => False | AtSend f w => encodes f | AtFlush f => encodes f | _ => True end /\
    Forall good (learned (w_log s) ++ w_back s).
  Lemma smooth_step s a : smooth s -> (forall x now, a <> AWriter (Wrong x) now) ->
    (forall f, a = ASend f -> encodes f) -> smooth (step s a).
  Proof.
    intros (Q & P & R) NW E. destruct (stream_step s a) as (l & L & _).
    assert (K : Forall encodes (w_queue (step s a)) /\
      match w_place (step s a) with AtTry f => encodes f | AtRaise _ => False | AtSend f w => encodes f | AtFlush f => encodes f | _ => True end /\
      Forall good l).
    { destruct a as [f| | |a now].
      - specialize (E f eq_refl). assert (L0 : l = []).
        { apply (f_equal (@length _)) in L. cbn [Writer.step] in L. unfold send_frame in L.
          pose proof (look_facts s) as F. cbv zeta in F. destruct F as (_ & _ & _ & _ & _ & F & _). unfold look in F.
          apply (f_equal (@length _)) in F. rewrite !app_length in F.
          destruct (refuses f); unfold see in L; [cbn [w_log w_back] in L; rewrite learned_app, !app_length in L; cbn [learned flat_map app length] in L; destruct l; [reflexivity|cbn [length] in L; lia]|].
          destruct (check_write_feedback W s) as [s' [|]]; cbn [fst] in F;
            [|destruct (length (w_queue s') <? capacity)%nat];
            cbn [w_log w_back] in L; rewrite learned_app, !app_length in L; cbn [learned flat_map app length] in L;
            (destruct l; [reflexivity|cbn [length] in L; lia]). }
        subst l. cbn [Writer.step]. unfold send_frame.
        pose proof (look_facts s) as F. cbv zeta in F. destruct F as (F1 & _ & F3 & _). unfold look in F1, F3.
        destruct (refuses f); [cbn; auto|].
        destruct (check_write_feedback W s) as [s' [|]]; cbn [fst] in F1, F3; [cbn; rewrite F1, F3; auto|].
        dif; cbn; rewrite F1, F3; auto. split; [apply Forall_app; auto|auto].
      - pose proof (look_facts s) as F. cbv zeta in F. destruct F as (F1 & _ & F3 & _ & _ & F6 & _). unfold look in F1, F3, F6.
        cbn [Writer.step] in L |- *. rewrite F1, F3. rewrite F6 in L. split; [exact Q|]. split; [exact P|].
        apply (f_equal (@length _)) in L. rewrite !app_length in L. destruct l; [constructor|cbn [length] in L; lia].
      - cbn [Writer.step w_queue w_place w_log w_back] in L |- *. split; [exact Q|]. split; [exact P|].
        apply (f_equal (@length _)) in L. rewrite !app_length in L. destruct l; [constructor|cbn [length] in L; lia].
      - cbn [Writer.step] in L |- *. unfold writer_step in *.
        assert (Nil : (learned (w_log s) ++ w_back s) = (learned (w_log s) ++ w_back s) ++ l -> Forall good l).
        { intros K. apply (f_equal (@length _)) in K. rewrite !app_length in K. destruct l; [constructor|cbn [length] in K; lia]. }
        destruct (w_place s) as [| |f|f w|f|f|x|] eqn:Pl; unfold go, answer in *; cbn [w_log w_back w_queue w_place] in L |- *.
        + split; [exact Q|]. split; [destruct (w_stop s); exact I|apply Nil, L].
        + destruct (w_queue s) as [|f q] eqn:Qu; cbn [w_log w_back w_queue w_place] in L |- *.
          * split; [exact Q|]. split; [exact I|apply Nil, L].
          * apply Forall_cons_iff in Q as (Q1 & Q2). split; [exact Q2|]. split; [exact Q1|apply Nil, L].
        + destruct (w_stop s); cbn [w_log w_back w_queue w_place] in L |- *; [split; [exact Q|]; split; [exact I|apply Nil, L]|].
          destruct P as (w & Ew). rewrite Ew in *. cbn [w_log w_back w_queue w_place] in L |- *. split; [exact Q|].
          split; [exists w; exact Ew|apply Nil, L].
        + destruct a as [| |x]; [| |exfalso; eapply NW; reflexivity]; unfold see in *; cbn [w_log w_back w_queue w_place] in L |- *.
          * split; [exact Q|]. split; [destruct flushes; [exact P|exact I]|]. apply Nil. rewrite <- L, learned_app. cbn [learned flat_map].
            rewrite app_nil_r. reflexivity.
          * split; [exact Q|]. split; [exact P|apply Nil, L].
        + destruct a as [| |x]; [| |exfalso; eapply NW; reflexivity]; cbn [w_log w_back w_queue w_place] in L |- *.
          * split; [exact Q|]. split; [exact I|apply Nil, L].
          * split; [exact Q|]. split; [exact P|apply Nil, L].
        + split; [exact Q|]. split; [exact I|]. rewrite app_assoc in L. apply app_inv_head in L. subst l.
          constructor; [eexists; reflexivity|constructor].
        + contradiction.
        + split; [exact Q|]. split; [rewrite ?Pl; exact I|apply Nil, L]. }
    destruct K as (K1 & K2 & K3). split; [exact K1|]. split; [exact K2|]. rewrite L. apply Forall_app. auto.
  Qed.
  Lemma smooth_run acts : forall s, smooth s -> never_wrong acts -> Forall encodes (handed acts) -> smooth (run s acts).
  Proof.
    induction acts as [|a acts IH]; intros s S N E; [exact S|].
    change (run s (a :: acts)) with (run (step s a) acts). unfold handed in E. cbn [flat_map] in E. apply Forall_app in E as (E1 & E2).
    apply IH; [|intros x now K; apply (N x now); right; exact K|exact E2].
    apply smooth_step; [exact S|intros x now ->; apply (N x now); left; reflexivity|].
    intros f ->. apply Forall_cons_iff in E1 as (E1 & _). exact E1.
  Qed.
  Lemma treated_good fs ws rs : treated encode fs ws rs -> Forall good rs ->
    Forall2 (fun f w => encode f = Ok w) fs ws /\ exists gs, rs = map inl gs /\ Forall2 same fs gs.
  Proof.
    induction 1 as [|f g w fs ws rs T IH E S|f x fs ws rs T IH]; intros G.
    - split; [constructor|]. exists []. split; [reflexivity|constructor].
    - apply Forall_app in G as (G & _). destruct (IH G) as (A & gs & B & C).
      split; [apply Forall2_app; auto|]. exists (gs ++ [g]). rewrite map_app, B. split; [reflexivity|]. apply Forall2_app; auto.
    - apply Forall_app in G as (_ & G). apply Forall_cons_iff in G as ((y & G) & _). discriminate.
  Qed.

  Theorem without_errors acts : gentle start acts -> never_stopped acts -> never_wrong acts ->
    Forall encodes (handed acts) ->
    let s := run start acts in finished s ->
    Forall2 (fun f w => encode f = Ok w) (accepted (w_log s)) (wrote (w_log s)) /\
    exists gs, learned (w_log s) ++ w_back s = map inl gs /\ Forall2 same (accepted (w_log s)) gs.
  Proof.
    intros G N NW E s F. apply treated_good; [apply when_finished; assumption|].
    apply smooth_run; [|exact NW|exact E]. split; [constructor|]. split; [exact I|constructor].
  Qed.

  (** Only what was handed over is accepted. *)
  Lemma accepted_handed acts : forall s f, In f (accepted (w_log (run s acts))) ->
    In f (accepted (w_log s)) \/ In f (handed acts).
  Proof.
    induction acts as [|a acts IH]; intros s f H; [left; exact H|].
    change (run s (a :: acts)) with (run (step s a) acts) in H. apply IH in H. unfold handed. cbn [flat_map].
    destruct H as [H|H]; [|right; apply in_or_app; right; exact H].
    destruct a as [g| | |a now]; cbn [Writer.step] in H.
    - unfold send_frame in H. destruct (refuses g).
      + unfold see in H. cbn [w_log] in H. rewrite accepted_app, app_nil_r in H. left; exact H.
      + pose proof (look_facts s) as F. cbv zeta in F. destruct F as (_ & _ & _ & F & _). unfold look in F.
        destruct (check_write_feedback W s) as [s' [|]]; cbn [fst] in F; unfold see in H; cbn [w_log] in H.
        * rewrite accepted_app, app_nil_r, F in H. left; exact H.
        * destruct (length (w_queue s') <? capacity)%nat; cbn [w_log] in H; rewrite accepted_app, F in H; apply in_app_or in H.
          -- destruct H as [H|[->|[]]]; [left; exact H|right; left; reflexivity].
          -- destruct H as [H|[]]. left; exact H.
    - pose proof (look_facts s) as F. cbv zeta in F. destruct F as (_ & _ & _ & F & _). unfold look in F. rewrite F in H. left; exact H.
    - left; exact H.
    - left. revert H. unfold writer_step. destruct (w_place s); try (intros H; exact H).
      + destruct (w_queue s); intros H; exact H.
      + destruct (w_stop s); [intros H; exact H|]. destruct (encode f0); intros H; exact H.
      + destruct a; try (intros H; exact H). unfold see, go. cbn [w_log]. rewrite accepted_app, app_nil_r. auto.
      + destruct a; intros H; exact H.
  Qed.
End Facts.

Lemma Forall2_imp_in {A B} (P Q : A -> B -> Prop) (l : list A) (m : list B) :
  (forall a b, In a l -> P a b -> Q a b) -> Forall2 P l m -> Forall2 Q l m.
Proof.
  intros I H. induction H; constructor; [apply I; [left; reflexivity|assumption]|].
  apply IHForall2. intros a b K. apply I. right. exact K.
Qed.

(** SocketCAN: what is written is read as the frame that was sent. *)
Theorem socketcan_writes capacity acts now : never_stopped acts -> never_wrong acts -> Forall on_bus (handed acts) ->
  let s := run sock_packet false (fun _ => false) capacity start acts in finished s ->
  Forall2 (fun f w => exists g, sock_parse now w = Ok g /\ received_at now f g) (accepted (w_log s)) (wrote (w_log s)) /\
  exists gs, learned (w_log s) ++ w_back s = map inl gs /\ Forall2 same (accepted (w_log s)) gs.
Proof.
  intros N NW B s F.
  assert (E : Forall (encodes _ sock_packet) (handed acts)).
  { eapply Forall_impl; [|exact B]. intros f Hf. destruct (sock_roundtrip f 0%Z Hf) as (p & P & _). exists p. exact P. }
  destruct (without_errors _ sock_packet false (fun _ => false) capacity acts
    (gentle_no_flush _ _ _ _ _ acts eq_refl) N NW E F) as (A & R). split; [|exact R].
  eapply Forall2_imp_in; [|exact A]. intros f w I P. cbv beta in P.
  destruct (accepted_handed _ _ _ _ _ acts start f I) as [K|K]; [destruct K|].
  rewrite Forall_forall in B. destruct (sock_roundtrip f now (B f K)) as (p & P' & Q).
  rewrite P in P'. injection P' as <-. exact Q.
Qed.

(** python-can, as long as flushing does not fail. *)
Theorem pycan_writes capacity acts :
  gentle pycan_message true c_fd capacity start acts -> never_stopped acts -> never_wrong acts ->
  let s := run pycan_message true c_fd capacity start acts in finished s ->
  Forall2 (fun f m => m = CanMsg (c_id f) (c_ext f) false false false (c_data f)) (accepted (w_log s)) (wrote (w_log s)) /\
  exists gs, learned (w_log s) ++ w_back s = map inl gs /\ Forall2 same (accepted (w_log s)) gs.
Proof.
  intros G N NW s F.
  assert (E : Forall (encodes _ pycan_message) (handed acts)) by (apply Forall_forall; intros f _; eexists; reflexivity).
  destruct (without_errors _ pycan_message true c_fd capacity acts G N NW E F) as (A & R). split; [|exact R].
  eapply Forall2_imp_in; [|exact A]. intros f w _ P. cbv beta in P. unfold pycan_message in P. injection P as <-. reflexivity.
Qed.
