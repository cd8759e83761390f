(** Facts of the serial port. *)
From Verif.Base Require Import Prelude.
From Verif.Model Require Import Serial.
From Verif.Spec Require Import SerialSpec.
Local Open Scope Z_scope.

Lemma upto_from n b : upto n b ++ from n b = b.
Proof. apply firstn_skipn. Qed.

Lemma firstn_plus {A} a k : forall w : list A, firstn (a + k) w = firstn a w ++ firstn k (skipn a w).
Proof.
  induction a as [|a IH]; intros w; [reflexivity|]. destruct w as [|x w]; cbn.
  - rewrite firstn_nil. reflexivity.
  - f_equal. apply IH.
Qed.

Section Facts.
  Variables (own : option N) (target : N) (dev : Z) (lock : N).
  Notation handle := (handle own target).
  Notation spin := (spin own target).
  Notation try_send := (try_send own target).
  Notation send_bytes := (send_bytes own target dev lock).
  Notation write := (write own target dev lock).
  Notation read := (read own target dev lock).
  Notation recv := (received_in own target).

  (** From [s] to [s'] the events [d] happened: messages came and went. *)
  Definition moved (s s' : port) (d : list sevent) : Prop :=
    p_log s' = p_log s ++ d /\ p_buf s' = p_buf s ++ recv d /\ p_baud s' = p_baud s /\
    read_in d = [] /\ ~ In EFlush d.

  Lemma recv_app a b : recv (a ++ b) = recv a ++ recv b.
  Proof. apply flat_map_app. Qed.
  Lemma sent_app a b : sent_in (a ++ b) = sent_in a ++ sent_in b.
  Proof. apply flat_map_app. Qed.
  Lemma read_app a b : read_in (a ++ b) = read_in a ++ read_in b.
  Proof. apply flat_map_app. Qed.

  Lemma moved_refl s : moved s s [].
  Proof. repeat split; cbn; rewrite ?app_nil_r; auto. Qed.
  Lemma moved_trans s1 s2 s3 d1 d2 : moved s1 s2 d1 -> moved s2 s3 d2 -> moved s1 s3 (d1 ++ d2).
  Proof.
    intros (a1 & a2 & a3 & a4 & a5) (b1 & b2 & b3 & b4 & b5). repeat split.
    - rewrite b1, a1. symmetry. apply app_assoc.
    - rewrite b2, a2, recv_app. symmetry. apply app_assoc.
    - congruence.
    - rewrite read_app, a4, b4. reflexivity.
    - rewrite in_app_iff. tauto.
  Qed.

  Lemma handle_moved s m : moved s (handle s m) [ERecv m].
  Proof.
    repeat split; cbn [handle Serial.handle p_log p_buf p_baud received_in flat_map read_in].
    - rewrite app_nil_r. dif; rewrite ?app_nil_r; reflexivity.
    - intros [A|[]]. discriminate.
  Qed.
  Lemma handles_moved ms : forall s, exists d, moved s (fold_left handle ms s) d /\ sent_in d = [].
  Proof.
    induction ms as [|m ms IH]; intros s.
    - exists []. split; [apply moved_refl|reflexivity].
    - cbn [fold_left]. destruct (IH (handle s m)) as (d & M & E). exists (ERecv m :: d). split.
      + apply (moved_trans _ _ _ [ERecv m] d (handle_moved s m) M).
      + exact E.
  Qed.
  Lemma handles_fields ms : forall s, p_last (fold_left handle ms s) = p_last s.
  Proof. induction ms as [|m ms IH]; intros s; [reflexivity|]. cbn [fold_left]. rewrite IH. reflexivity. Qed.

  Lemma try_send_moved m ts : forall s s' r ts', try_send s m ts = (s', r, ts') ->
    exists d, moved s s' d /\ sent_in d = match r with Returns _ => [m] | _ => [] end.
  Proof.
    induction ts as [|t ts IH]; intros s s' r ts' H; cbn [Serial.try_send] in H.
    - injection H as <- <- <-. exists []. split; [apply moved_refl|reflexivity].
    - destruct (handles_moved (t_arrive t) s) as (d & M & E).
      unfold Serial.spin in H.
      set (s1 := fold_left handle (t_arrive t) s) in *.
      assert (AG : forall s2, s2 = s1 -> try_send s2 m ts = (s', r, ts') ->
                   exists d, moved s s' d /\ sent_in d = match r with Returns _ => [m] | _ => [] end).
      { intros s2 -> H2. destruct (IH _ _ _ _ H2) as (d2 & M2 & E2). exists (d ++ d2). split.
        - exact (moved_trans _ _ _ _ _ M M2).
        - rewrite sent_app, E. exact E2. }
      assert (RS : forall e, (s1, Raises e, ts) = (s', r, ts') ->
                   exists d, moved s s' d /\ sent_in d = match r with Returns _ => [m] | _ => [] end).
      { intros e H2. injection H2 as <- <- <-. exists d. split; assumption. }
      assert (DN : match t_cast t with
                   | Full => try_send s1 m ts
                   | Fails e => (s1, Raises e, ts)
                   | Done => (sent s1 m (t_time t), Returns tt, ts)
                   end = (s', r, ts') ->
                   exists d, moved s s' d /\ sent_in d = match r with Returns _ => [m] | _ => [] end).
      { destruct (t_cast t) as [| |e]; intros H2; [|exact (AG s1 eq_refl H2)|exact (RS e H2)].
        injection H2 as <- <- <-. exists (d ++ [ESent m]). split; [|rewrite sent_app, E; reflexivity].
        apply (moved_trans _ s1 _ _ _ M). repeat split; cbn; rewrite ?app_nil_r; auto.
        intros [A|[]]. discriminate. }
      destruct (t_spin t) as [| |e].
      + exact (DN H).
      + exact (AG s1 eq_refl H).
      + destruct e; try exact (RS _ H). exact (DN H).
  Qed.

  Lemma try_send_returns m ts : forall s,
    Forall no_failure ts -> existsb goes_out ts = true ->
    exists s' ts', try_send s m ts = (s', Returns tt, ts') /\
      Forall no_failure ts' /\ (length (filter goes_out ts') = length (filter goes_out ts) - 1)%nat.
  Proof.
    induction ts as [|t ts IH]; intros s F X; [discriminate|].
    apply Forall_cons_iff in F as ((F1 & F2) & F). cbn [existsb] in X. cbn [Serial.try_send filter].
    unfold Serial.spin. unfold goes_out at 1 in X.
    destruct (goes_out t) eqn:G; unfold goes_out in G.
    - cbn [length]. assert (SF : match t_spin t with Fails TransferError => Done | o => o end = Done /\ t_cast t = Done).
      { destruct (t_spin t) as [| |e]; cbn in G; try discriminate.
        - destruct (t_cast t); try discriminate. auto.
        - destruct e; try discriminate; destruct (t_cast t); try discriminate; auto. }
      destruct SF as [SF1 SF2]. rewrite SF2.
      destruct (t_spin t) as [| |e]; [| discriminate |destruct e; try discriminate];
        eexists _, ts; (split; [reflexivity|split; [exact F|lia]]).
    - cbn in X. change (existsb goes_out ts) with (existsb goes_out ts) in X.
      assert (X' : existsb goes_out ts = true).
      { unfold goes_out in X at 1. rewrite G in X. exact X. }
      destruct (IH (fold_left handle (t_arrive t) s) F X') as (s' & ts' & E1 & E2 & E3).
      exists s', ts'. split; [|split; assumption].
      destruct F1 as [[F1|F1]|F1]; rewrite F1 in *; cbn in G |- *.
      + destruct F2 as [F2|F2]; rewrite F2 in *; [discriminate|exact E1].
      + destruct F2 as [F2|F2]; rewrite F2 in *; [discriminate|exact E1].
      + exact E1.
  Qed.

  Definition chunk_len (b : list N) : Z := if 120 <? Z.of_nat (length b) then 120 else Z.of_nat (length b).
  Lemma send_bytes_eq s b ts : send_bytes s b ts =
    let '(s, r, ts) := try_send s (message own target dev lock s (upto (chunk_len b) b)) ts in
    (s, match r with Returns _ => Returns (chunk_len b) | Raises e => Raises e | Waits => Waits end, ts).
  Proof. reflexivity. Qed.
  Lemma chunk_cut b : cut_at (chunk_len b) b = Nat.min 120 (length b).
  Proof. unfold cut_at, chunk_len. dif; lia. Qed.

  Lemma send_bytes_moved s b ts s' r ts' : send_bytes s b ts = (s', r, ts') ->
    exists d, moved s s' d /\
      sent_in d = match r with Returns _ => [message own target dev lock s (upto (chunk_len b) b)] | _ => [] end /\
      (forall n, r = Returns n -> n = chunk_len b).
  Proof.
    rewrite send_bytes_eq. destruct (Serial.try_send _ _ _ _ _) as [[s1 r1] ts1] eqn:E.
    intros H. apply try_send_moved in E as (d & M & E). injection H as <- <- <-. exists d. split; [exact M|].
    rewrite E. destruct r1; split; intros; congruence.
  Qed.

  (** Every message of a write is for the device; together they are what was
      written, or the beginning of it. *)
  Lemma write_fuel_moved i : own = Some i -> forall f s b total ts s' r, (length b <= f)%nat ->
    write_fuel own target dev lock f s b total ts = (s', r) ->
    exists d k, moved s s' d /\
      Forall (for_device own target dev lock (p_baud s)) (sent_in d) /\
      payload (sent_in d) = firstn k b /\
      (forall n, r = Returns n -> n = total + Z.of_nat (length b) /\ payload (sent_in d) = b).
  Proof.
    intros OW. induction f as [|f IH]; intros s b total ts s' r L H; cbn [write_fuel] in H.
    - destruct b; [|cbn in L; lia]. injection H as <- <-. exists [], O. split; [apply moved_refl|].
      cbn. split; [constructor|]. split; [reflexivity|]. intros n A. injection A as <-. split; [lia|reflexivity].
    - destruct b as [|x b].
      { injection H as <- <-. exists [], O. split; [apply moved_refl|].
        cbn. split; [constructor|]. split; [reflexivity|]. intros n A. injection A as <-. split; [lia|reflexivity]. }
      set (w := x :: b) in *.
      destruct (Serial.send_bytes _ _ _ _ _ _ _) as [[s1 r1] ts1] eqn:E.
      pose proof (chunk_cut w) as CW.
      assert (CL : chunk_len w = Z.of_nat (Nat.min 120 (length w))) by (unfold chunk_len; dif; lia).
      assert (LW : (1 <= length w)%nat) by (subst w; cbn [length]; lia).
      assert (FD : for_device own target dev lock (p_baud s) (message own target dev lock s (upto (chunk_len w) w))).
      { unfold for_device. cbn [message m_source m_target m_serial m_protocol m_options m_baud m_buffer].
        unfold upto. rewrite CW, firstn_length. rewrite OW. repeat split. lia. }
      apply send_bytes_moved in E as (d & M & E & EN).
      destruct r1 as [n|e|].
      + pose proof (EN n eq_refl) as ->. replace (chunk_len w <=? 0) with false in H by lia.
        assert (LF : (length (from (chunk_len w) w) <= f)%nat) by (unfold from; rewrite CW, skipn_length; lia).
        destruct (IH _ _ _ _ _ _ LF H) as (d2 & k & M2 & F2 & P2 & R2).
        exists (d ++ d2), (Nat.min 120 (length w) + k)%nat.
        assert (PL : forall z, z = payload (sent_in d2) -> payload (sent_in (d ++ d2)) = upto (chunk_len w) w ++ z).
        { intros z ->. rewrite sent_app, E. reflexivity. }
        split; [exact (moved_trans _ _ _ _ _ M M2)|]. split; [|split].
        * rewrite sent_app, E. constructor; [exact FD|].
          destruct M as (_ & _ & MB & _). rewrite MB in F2. exact F2.
        * rewrite (PL _ (eq_sym P2)). unfold upto, from. rewrite CW.
          symmetry. apply firstn_plus.
        * intros n Hn. destruct (R2 n Hn) as (-> & P3). split.
          -- unfold from. rewrite CW, skipn_length. lia.
          -- rewrite (PL _ (eq_sym P3)). apply upto_from.
      + injection H as <- <-. exists d, O. split; [exact M|]. rewrite E. split; [constructor|]. split; [reflexivity|]. intros n A. discriminate.
      + injection H as <- <-. exists d, O. split; [exact M|]. rewrite E. split; [constructor|]. split; [reflexivity|]. intros n A. discriminate.
  Qed.

  Lemma existsb_filter {A} (f : A -> bool) l : (0 < length (filter f l))%nat -> existsb f l = true.
  Proof.
    intros H. destruct (filter f l) as [|x r] eqn:E; [cbn in H; lia|].
    apply existsb_exists. exists x. apply filter_In. rewrite E. left. reflexivity.
  Qed.

  Lemma write_fuel_returns : forall f s b total ts, (length b <= f)%nat -> Forall no_failure ts ->
    (length b <= 120 * length (filter goes_out ts))%nat ->
    exists s', write_fuel own target dev lock f s b total ts = (s', Returns (total + Z.of_nat (length b))).
  Proof.
    induction f as [|f IH]; intros s b total ts L F G; cbn [write_fuel].
    - destruct b; [|cbn in L; lia]. exists s. f_equal. f_equal. cbn. lia.
    - destruct b as [|x b]; [exists s; f_equal; f_equal; cbn; lia|].
      set (w := x :: b) in *. assert (LW : (1 <= length w)%nat) by (subst w; cbn [length]; lia).
      pose proof (chunk_cut w) as CW.
      assert (CL : chunk_len w = Z.of_nat (Nat.min 120 (length w))) by (unfold chunk_len; dif; lia).
      rewrite send_bytes_eq.
      destruct (try_send_returns (message own target dev lock s (upto (chunk_len w) w)) ts s F) as (s1 & ts1 & E & F1 & G1).
      { apply existsb_filter. lia. }
      rewrite E. replace (chunk_len w <=? 0) with false by lia.
      destruct (IH s1 (from (chunk_len w) w) (total + chunk_len w) ts1) as (s2 & E2).
      + unfold from. rewrite CW, skipn_length. lia.
      + exact F1.
      + unfold from. rewrite CW, skipn_length. lia.
      + exists s2. rewrite E2. f_equal. f_equal. unfold from. rewrite CW, skipn_length. lia.
  Qed.

  (** What each operation does to buffer and log. *)
  Lemma finish_eq s n : exists bs, finish s n =
    ({| p_buf := skipn (length bs) (p_buf s); p_baud := p_baud s; p_last := p_last s; p_log := p_log s ++ [ERead bs] |}, Returns bs) /\
    bs = firstn (length bs) (p_buf s) /\ (0 <= n -> length bs = Nat.min (Z.to_nat n) (length (p_buf s))).
  Proof.
    unfold finish, taken. destruct (p_buf s) as [|x b] eqn:E.
    - exists []. cbn [length skipn firstn]. rewrite E. repeat split. lia.
    - set (w := x :: b) in *.
      set (n' := if Z.of_nat (length w) <? n then Z.of_nat (length w) else n).
      exists (upto n' w). cbn [p_buf p_baud p_last p_log].
      assert (CL : (cut_at n' w <= length w)%nat) by (unfold cut_at, n'; dif; lia).
      assert (UL : length (upto n' w) = cut_at n' w) by (unfold upto; rewrite firstn_length; lia).
      rewrite UL. repeat split. intros Hn. unfold cut_at, n'. dif; lia.
  Qed.

  Lemma empty_payload s ts s' r ts' : send_bytes s [] ts = (s', r, ts') ->
    exists d, moved s s' d /\ payload (sent_in d) = [].
  Proof.
    intros H. apply send_bytes_moved in H as (d & M & E & _). exists d. split; [exact M|]. rewrite E.
    destruct r; reflexivity.
  Qed.

  Lemma read_moved s n ms o now ts s' r : read s n ms o now ts = (s', r) ->
    exists d s1, moved s s1 d /\ payload (sent_in d) = [] /\
      match r with
      | Returns bs => p_log s' = p_log s1 ++ [ERead bs] /\ p_baud s' = p_baud s1 /\ p_buf s1 = bs ++ p_buf s' /\
                      (0 <= n -> length bs = Nat.min (Z.to_nat n) (length (p_buf s1)))
      | _ => s' = s1
      end.
  Proof.
    intros H. unfold Serial.read, Serial.spin in H.
    destruct (handles_moved ms s) as (d & M & E). set (s1 := fold_left handle ms s) in *.
    assert (PE : payload (sent_in d) = []) by (rewrite E; reflexivity).
    assert (FIN : forall s2 d2, moved s s2 d2 -> payload (sent_in d2) = [] -> finish s2 n = (s', r) ->
      exists d s1, moved s s1 d /\ payload (sent_in d) = [] /\
      match r with
      | Returns bs => p_log s' = p_log s1 ++ [ERead bs] /\ p_baud s' = p_baud s1 /\ p_buf s1 = bs ++ p_buf s' /\
                      (0 <= n -> length bs = Nat.min (Z.to_nat n) (length (p_buf s1)))
      | _ => s' = s1
      end).
    { intros s2 d2 M2 P2 H2. destruct (finish_eq s2 n) as (bs & F1 & F2 & F3). rewrite F1 in H2.
      injection H2 as <- <-. exists d2, s2. split; [exact M2|]. split; [exact P2|].
      cbn [p_log p_baud p_buf]. repeat split; [|exact F3]. rewrite F2 at 1. symmetry. apply firstn_skipn. }
    assert (RAI : forall e, (s1, Raises e) = (s', r) ->
      exists d s1, moved s s1 d /\ payload (sent_in d) = [] /\
      match r with
      | Returns bs => p_log s' = p_log s1 ++ [ERead bs] /\ p_baud s' = p_baud s1 /\ p_buf s1 = bs ++ p_buf s' /\
                      (0 <= n -> length bs = Nat.min (Z.to_nat n) (length (p_buf s1)))
      | _ => s' = s1
      end).
    { intros e H2. injection H2 as <- <-. exists d, s1. auto. }
    destruct (match o with Fails TransferError => Done | _ => o end) as [| |e].
    - destruct (500 <? now - p_last s1).
      + destruct (Serial.send_bytes _ _ _ _ _ _ _) as [[s2 r2] ts2] eqn:SB.
        apply empty_payload in SB as (d2 & M2 & P2).
        assert (MM : moved s s2 (d ++ d2)) by exact (moved_trans _ _ _ _ _ M M2).
        assert (PP : payload (sent_in (d ++ d2)) = []) by (rewrite sent_app, E; exact P2).
        destruct r2 as [z|e|].
        * exact (FIN s2 _ MM PP H).
        * injection H as <- <-. exists (d ++ d2), s2. auto.
        * injection H as <- <-. exists (d ++ d2), s2. auto.
      + exact (FIN s1 d M PE H).
    - exact (RAI _ H).
    - exact (RAI _ H).
  Qed.

  (** The log and the buffer after any history: since the last flush, what was
      read and what is in the buffer are what was received. *)
  Inductive segment : list sevent -> list sevent -> Prop :=
  | seg_start l : ~ In EFlush l -> segment l l
  | seg_flush a l : ~ In EFlush l -> segment (a ++ EFlush :: l) l.

  Lemma segment_app a l d : segment a l -> ~ In EFlush d -> segment (a ++ d) (l ++ d).
  Proof.
    intros [l' N|a' l' N] D.
    - constructor. rewrite in_app_iff. tauto.
    - rewrite <- app_assoc, <- app_comm_cons. constructor. rewrite in_app_iff. tauto.
  Qed.

  Lemma sstep_segment i : own = Some i -> forall s op, let s' := sstep own target dev lock s op in
    (exists l, segment (p_log s) l /\ read_in l ++ p_buf s = recv l) ->
    exists l, segment (p_log s') l /\ read_in l ++ p_buf s' = recv l.
  Proof.
    intros OW s op s' (l & SG & RL).
    assert (MV : forall s2 d, moved s s2 d -> exists l, segment (p_log s2) l /\ read_in l ++ p_buf s2 = recv l).
    { intros s2 d (M1 & M2 & M3 & M4 & M5). exists (l ++ d). split.
      - rewrite M1. apply segment_app; assumption.
      - rewrite read_app, recv_app, M2, M4, app_nil_r, app_assoc, RL. reflexivity. }
    assert (FLU : forall b t, exists l, segment (p_log s ++ [EFlush]) l /\ read_in l ++ p_buf (flush_input {| p_buf := p_buf s; p_baud := b; p_last := t; p_log := p_log s |}) = recv l).
    { intros. exists []. split; [constructor; intros []|reflexivity]. }
    subst s'. destruct op as [b ts|n ms o now ts| |b|ms o]; cbn [sstep].
    - destruct (Serial.write _ _ _ _ _ _ _) as [s2 r] eqn:E. unfold Serial.write in E.
      destruct (write_fuel_moved i OW _ _ _ _ _ _ _ (le_n _) E) as (d & k & M & _). exact (MV _ d M).
    - destruct (Serial.read _ _ _ _ _ _ _ _ _ _) as [s2 r] eqn:E.
      apply read_moved in E as (d & s1 & M & P & R). destruct (MV _ _ M) as (l1 & SG1 & RL1).
      cbn [fst]. destruct r as [bs|e|]; [|subst s2; exists l1; auto|subst s2; exists l1; auto].
      destruct R as (R1 & R2 & R3 & R4). exists (l1 ++ [ERead bs]). split.
      + rewrite R1. apply segment_app; [exact SG1|]. intros [A|[]]. discriminate.
      + rewrite read_app, recv_app. cbn [read_in received_in flat_map]. rewrite !app_nil_r.
        rewrite <- app_assoc, <- R3. exact RL1.
    - exact (FLU 0 0).
    - unfold set_baud. destruct (p_baud s =? b); [exists l; auto|exact (FLU b 0)].
    - destruct (handles_moved ms s) as (d & M & _). exact (MV _ d M).
  Qed.

  Lemma segment_since a l : segment a l -> since_flush a = l.
  Proof.
    assert (F : forall l acc, ~ In EFlush l ->
      fold_left (fun acc e => match e with EFlush => [] | _ => acc ++ [e] end) l acc = acc ++ l).
    { induction l0 as [|e l0 IH]; intros acc N; cbn [fold_left]; [symmetry; apply app_nil_r|].
      rewrite IH by (intros A; apply N; right; exact A).
      destruct e; [rewrite <- app_assoc; reflexivity..|]. contradiction N. left. reflexivity. }
    intros [l' N|a' l' N]; unfold since_flush.
    - exact (F l' [] N).
    - rewrite fold_left_app. cbn [fold_left]. exact (F l' [] N).
  Qed.

  Lemma port_stream i : own = Some i -> forall baud ops, let s := run_port own target dev lock baud ops in
    exists l, segment (p_log s) l /\ read_in l ++ p_buf s = recv l.
  Proof.
    intros OW baud ops s. subst s. unfold run_port. rewrite <- fold_left_rev_right.
    induction (rev ops) as [|op r IH].
    - exists []. split; [constructor; intros []|reflexivity].
    - cbn [fold_right]. exact (sstep_segment i OW _ op IH).
  Qed.

  Notation writes_return := (writes_return own target dev lock).
  Lemma port_sent i : own = Some i -> forall ops s, writes_return s ops ->
    payload (sent_in (p_log (fold_left (sstep own target dev lock) ops s))) =
    payload (sent_in (p_log s)) ++ written ops.
  Proof.
    intros OW. assert (PA : forall a b, payload (a ++ b) = payload a ++ payload b) by (intros; apply flat_map_app).
    induction ops as [|op ops IH]; intros s H; cbn [fold_left written flat_map].
    - symmetry. apply app_nil_r.
    - destruct H as (H & HR). rewrite IH by exact HR. change (flat_map _ ops) with (written ops). rewrite app_assoc. f_equal.
      destruct op as [b ts|n ms o now ts| |b|ms o]; cbn [sstep].
      + destruct H as (n & H). destruct (Serial.write _ _ _ _ _ _ _) as [s2 r] eqn:E. cbn in H. subst r.
        unfold Serial.write in E.
        destruct (write_fuel_moved i OW _ _ _ _ _ _ _ (le_n _) E) as (d & k & M & _ & _ & R).
        destruct M as (M1 & _). cbn [fst]. rewrite M1, sent_app, PA. f_equal. apply (R n eq_refl).
      + rewrite app_nil_r. destruct (Serial.read _ _ _ _ _ _ _ _ _ _) as [s2 r] eqn:E.
        apply read_moved in E as (d & s1 & (M1 & _) & P & R). cbn [fst].
        assert (P1 : payload (sent_in (p_log s1)) = payload (sent_in (p_log s))).
        { rewrite M1, sent_app, PA, P. apply app_nil_r. }
        destruct r as [bs|e|]; [|subst s2; exact P1|subst s2; exact P1].
        destruct R as (R1 & _). rewrite R1, sent_app. cbn [sent_in flat_map]. rewrite app_nil_r. exact P1.
      + cbn [flush_input p_log]. rewrite sent_app. cbn [sent_in flat_map]. rewrite !app_nil_r. reflexivity.
      + rewrite app_nil_r. unfold set_baud. dif; [reflexivity|]. cbn [flush_input p_log]. rewrite sent_app. cbn [sent_in flat_map].
        rewrite app_nil_r. reflexivity.
      + rewrite app_nil_r. destruct (handles_moved ms s) as (d & (M1 & _) & E). cbn [fst Serial.spin].
        rewrite M1, sent_app, PA, E. apply app_nil_r.
  Qed.

  Lemma port_since i : own = Some i -> forall baud ops, let s := run_port own target dev lock baud ops in
    read_in (since_flush (p_log s)) ++ p_buf s = recv (since_flush (p_log s)).
  Proof.
    intros OW baud ops s. unfold s. destruct (port_stream i OW baud ops) as (l & SG & E).
    rewrite (segment_since _ _ SG). exact E.
  Qed.

  Lemma device_received log : Forall (fun e => match e with
      | ERecv m => m_source m = target -> own = Some (m_target m) -> m_serial m = dev | _ => True end) log ->
    device_bytes own target dev log = recv log.
  Proof.
    induction 1 as [|e log H F IH]; [reflexivity|]. cbn [device_bytes received_in flat_map].
    unfold device_bytes in IH. rewrite IH. f_equal. destruct e as [m| | |]; try reflexivity.
    destruct (m_source m =? target)%N eqn:E1; [|reflexivity]. destruct own as [i|]; [|reflexivity].
    destruct (m_target m =? i)%N eqn:E2; [|reflexivity]. cbn [andb].
    rewrite H; [|lia|f_equal; lia]. rewrite Z.eqb_refl. reflexivity.
  Qed.

  Lemma port_device i : own = Some i -> forall baud ops, let s := run_port own target dev lock baud ops in
    Forall (fun e => match e with
      | ERecv m => m_source m = target -> own = Some (m_target m) -> m_serial m = dev | _ => True end) (p_log s) ->
    read_in (since_flush (p_log s)) ++ p_buf s = device_bytes own target dev (since_flush (p_log s)).
  Proof.
    intros OW baud ops s F. unfold s in *. rewrite (port_since i OW). symmetry. apply device_received.
    destruct (port_stream i OW baud ops) as (l & SG & E). rewrite (segment_since _ _ SG).
    destruct SG as [l' N|a' l' N]; [exact F|]. apply Forall_app in F as (_ & F). apply Forall_cons_iff in F as (_ & F). exact F.
  Qed.

  Lemma write_sends i : own = Some i -> forall s b ts,
    exists d, p_log (fst (write s b ts)) = p_log s ++ d /\
      Forall (for_device own target dev lock (p_baud s)) (sent_in d) /\
      (exists k, payload (sent_in d) = firstn k b) /\
      (forall n, snd (write s b ts) = Returns n -> n = Z.of_nat (length b) /\ payload (sent_in d) = b).
  Proof.
    intros OW s b ts. destruct (write s b ts) as [s' r] eqn:E. unfold Serial.write in E.
    destruct (write_fuel_moved i OW _ _ _ _ _ _ _ (le_n _) E) as (d & k & (M & _) & F & P & R).
    exists d. repeat split; auto; [exists k; exact P| |]; intros; apply (R n H).
  Qed.

  Lemma write_completes s b ts : Forall no_failure ts -> (length b <= 120 * length (filter goes_out ts))%nat ->
    snd (write s b ts) = Returns (Z.of_nat (length b)).
  Proof.
    intros F G. destruct (write_fuel_returns (length b) s b 0 ts (le_n _) F G) as (s' & E).
    unfold Serial.write. rewrite E. reflexivity.
  Qed.

  Lemma read_amount s n ms o now ts bs : 0 <= n -> snd (read s n ms o now ts) = Returns bs ->
    exists d, p_log (fst (read s n ms o now ts)) = p_log s ++ d ++ [ERead bs] /\
      length bs = Nat.min (Z.to_nat n) (length (p_buf s ++ recv d)).
  Proof.
    intros Hn H. destruct (read s n ms o now ts) as [s' r] eqn:E. cbn in H. subst r.
    apply read_moved in E as (d & s1 & (M1 & M2 & _) & _ & R1 & _ & _ & R4). exists d. cbn [fst].
    rewrite R1, M1, <- app_assoc, <- M2. split; [reflexivity|exact (R4 Hn)].
  Qed.

  (** Whatever is sent is for the device, with the speed asked for. *)
  Lemma message_for i s b : own = Some i -> for_device own target dev lock (p_baud s) (message own target dev lock s (upto (chunk_len b) b)).
  Proof.
    intros OW. unfold for_device. cbn [message m_source m_target m_serial m_protocol m_options m_baud m_buffer].
    unfold upto. rewrite chunk_cut, firstn_length. rewrite OW. repeat split. lia.
  Qed.
  Lemma sstep_told i : own = Some i -> forall s op, exists d, p_log (sstep own target dev lock s op) = p_log s ++ d /\
    Forall (for_device own target dev lock (p_baud s)) (sent_in d) /\
    p_baud (sstep own target dev lock s op) = match op with OSetBaud b => b | _ => p_baud s end.
  Proof.
    intros OW s op. destruct op as [b ts|n ms o now ts| |b|ms o]; cbn [sstep].
    - destruct (write s b ts) as [s' r] eqn:E. unfold Serial.write in E. cbn [fst].
      destruct (write_fuel_moved i OW _ _ _ _ _ _ _ (le_n _) E) as (d & k & M & F & _). destruct M as (M & _ & B & _). eauto.
    - unfold Serial.read, Serial.spin. destruct (handles_moved ms s) as (d & M & E). set (s1 := fold_left handle ms s) in *.
      assert (FIN : forall s2 d2, moved s s2 d2 -> Forall (for_device own target dev lock (p_baud s)) (sent_in d2) ->
        exists d, p_log (fst (finish s2 n)) = p_log s ++ d /\ Forall (for_device own target dev lock (p_baud s)) (sent_in d) /\
          p_baud (fst (finish s2 n)) = p_baud s).
      { intros s2 d2 M2 F2. destruct (finish_eq s2 n) as (bs & F1 & _). rewrite F1. cbn [fst p_log p_baud]. destruct M2 as (L & _ & B & _).
        exists (d2 ++ [ERead bs]). rewrite L, <- app_assoc. split; [reflexivity|]. rewrite sent_app. cbn [sent_in flat_map]. rewrite app_nil_r. auto. }
      assert (F1 : Forall (for_device own target dev lock (p_baud s)) (sent_in d)) by (rewrite E; constructor).
      destruct (match o with Fails TransferError => Done | _ => o end) as [| |e].
      + destruct (500 <? now - p_last s1); [|apply (FIN _ _ M F1)].
        destruct (Serial.send_bytes _ _ _ _ _ _ _) as [[s2 r2] ts2] eqn:SB.
        apply send_bytes_moved in SB as (d2 & M2 & E2 & _).
        assert (F2 : Forall (for_device own target dev lock (p_baud s)) (sent_in (d ++ d2))).
        { rewrite sent_app. apply Forall_app. split; [exact F1|]. rewrite E2. destruct r2; try constructor; [|constructor].
          destruct M as (_ & _ & B & _). rewrite <- B. apply (message_for i). exact OW. }
        pose proof (moved_trans _ _ _ _ _ M M2) as MM.
        destruct r2 as [z|e|]; cbn [fst]; [exact (FIN _ _ MM F2)| |]; destruct MM as (L & _ & B & _); eauto.
      + destruct M as (L & _ & B & _). cbn [fst]. eauto.
      + destruct M as (L & _ & B & _). cbn [fst]. eauto.
    - exists [EFlush]. cbn. auto.
    - unfold set_baud. destruct (p_baud s =? b) eqn:E.
      + exists []. rewrite app_nil_r. split; [reflexivity|]. split; [constructor|lia].
      + exists [EFlush]. cbn. auto.
    - unfold Serial.spin. cbn [fst]. destruct (handles_moved ms s) as (d & (L & _ & B & _) & E). exists d. rewrite E. auto.
  Qed.
  Lemma port_told i : own = Some i -> forall baud ops op, exists d,
    p_log (run_port own target dev lock baud (ops ++ [op])) = p_log (run_port own target dev lock baud ops) ++ d /\
    Forall (for_device own target dev lock (speed baud ops)) (sent_in d).
  Proof.
    intros OW baud ops op. unfold run_port, speed. rewrite fold_left_app. cbn [fold_left].
    destruct (sstep_told i OW (fold_left (sstep own target dev lock) ops (fresh baud)) op) as (d & L & F & _).
    exists d. split; [exact L|].
    assert (S : forall ops s, p_baud (fold_left (sstep own target dev lock) ops s) =
       fold_left (fun b o => match o with OSetBaud b' => b' | _ => b end) ops (p_baud s)).
    { induction ops0 as [|o ops0 IH]; intros s; [reflexivity|]. cbn [fold_left]. rewrite IH. f_equal.
      destruct (sstep_told i OW s o) as (_ & _ & _ & ->). reflexivity. }
    rewrite S in F. exact F.
  Qed.

  (** A read after more than half a second without a message sends one. *)
  Lemma read_alive s n ms o now ts : spin_fine o -> 500 < now - p_last s -> Forall no_failure ts -> existsb goes_out ts = true ->
    exists bs d, snd (read s n ms o now ts) = Returns bs /\ p_log (fst (read s n ms o now ts)) = p_log s ++ d /\
      map m_buffer (sent_in d) = [[]].
  Proof.
    intros Fo Hn F G. unfold Serial.read, Serial.spin.
    destruct (handles_moved ms s) as (d & M & E). pose proof (handles_fields ms s) as PL. set (s1 := fold_left handle ms s) in *.
    replace (match o with Fails TransferError => Done | _ => o end) with Done by (destruct Fo as [->| ->]; reflexivity).
    rewrite PL. replace (500 <? now - p_last s) with true by lia.
    rewrite send_bytes_eq.
    destruct (try_send_returns (message own target dev lock s1 (upto (chunk_len []) [])) ts s1 F G) as (s2 & ts2 & T & _).
    rewrite T. apply try_send_moved in T as (d2 & M2 & E2). destruct (finish_eq s2 n) as (bs & F1 & _). rewrite F1.
    cbn [fst snd p_log]. exists bs, (d ++ d2 ++ [ERead bs]). split; [reflexivity|]. destruct M as (L & _), M2 as (L2 & _).
    rewrite L2, L, <- !app_assoc. split; [reflexivity|]. rewrite !sent_app, E, E2. reflexivity.
  Qed.
End Facts.
