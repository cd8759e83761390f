(** Proofs about the driver for CAN over MAVLink as user code has it. *)
From Verif.Base Require Import Prelude.
From Verif.Model Require Import CanFrame Packets Mavcan MavDriver.
From Verif.Spec Require Import PacketSpec MavcanSpec MavDriverSpec.
From Verif.Proofs Require Import PacketFacts MavcanFacts.
Local Open Scope Z_scope.

Section Facts.
  Variable K : Type.
  Variable sha256 : list N -> K.
  Notation mavdrv := (mavdrv K).
  Notation key_told := (key_told K sha256).
  Notation frames_told := (frames_told K sha256).
  Notation dstep := (dstep K sha256).
  Notation drv_run := (drv_run K sha256).

  (** What the queue will make of key, bus and filter, and the frames in it. *)
  Fixpoint next_key (q : list (qitem K)) (k : option K) : option K :=
    match q with [] => k | QKey k' :: r => next_key r (Some k') | _ :: r => next_key r k end.
  Fixpoint next_bus (q : list (qitem K)) (b : Z) : Z :=
    match q with [] => b | QItem (BusNum b') :: r => next_bus r b' | _ :: r => next_bus r b end.
  Fixpoint next_filter (q : list (qitem K)) (f : option (list Z)) : option (list Z) :=
    match q with [] => f | QItem (FilterList f') :: r => next_filter r f' | _ :: r => next_filter r f end.
  Fixpoint pending (q : list (qitem K)) (k : option K) (b : Z) : list (option K * Z * cframe) :=
    match q with
    | [] => []
    | QKey k' :: r => pending r (Some k') b
    | QItem (BusNum b') :: r => pending r k b'
    | QItem (FilterList _) :: r => pending r k b
    | QItem (Frame f) :: r => (k, b, f) :: pending r k b
    end.
  Lemma next_key_app q x k : next_key (q ++ [x]) k = match x with QKey k' => Some k' | _ => next_key q k end.
  Proof. revert k. induction q as [|[i|y] q IH]; intros k; cbn; rewrite ?IH; destruct x; reflexivity. Qed.
  Lemma next_bus_app q x b : next_bus (q ++ [x]) b = match x with QItem (BusNum b') => b' | _ => next_bus q b end.
  Proof. revert b. induction q as [|[[f|c|g]|y] q IH]; intros b; cbn; rewrite ?IH; destruct x as [[| |]|]; reflexivity. Qed.
  Lemma next_filter_app q x b : next_filter (q ++ [x]) b = match x with QItem (FilterList b') => b' | _ => next_filter q b end.
  Proof. revert b. induction q as [|[[f|c|g]|y] q IH]; intros b; cbn; rewrite ?IH; destruct x as [[| |]|]; reflexivity. Qed.
  Lemma pending_app q x k b : pending (q ++ [x]) k b =
    pending q k b ++ match x with QItem (Frame f) => [(next_key q k, next_bus q b, f)] | _ => [] end.
  Proof.
    revert k b. induction q as [|[[f|c|g]|y] q IH]; intros k b; cbn [app pending next_key next_bus].
    - destruct x as [[| |]|]; reflexivity.
    - rewrite IH. reflexivity.
    - apply IH.
    - apply IH.
    - apply IH.
  Qed.
  Lemma pending_waiting q : forall k b, length (pending q k b) = waiting K q.
  Proof. unfold waiting. induction q as [|[[f|c|g]|y] q IH]; intros k b; cbn [pending filter length]; rewrite ?IH; reflexivity. Qed.

  (** Calls added. *)
  Lemma key_snoc l c : key_told (l ++ [c]) = match c with (DPass p, Done) => Some (sha256 p) | _ => key_told l end.
  Proof. unfold MavDriverSpec.key_told. rewrite fold_left_app. reflexivity. Qed.
  Lemma bus_snoc2 b l c : bus_told b (l ++ [c]) = match c with (DBus n, Done) => n - 1 | _ => bus_told b l end.
  Proof. unfold bus_told. rewrite fold_left_app. reflexivity. Qed.
  Lemma filter_snoc2 l c : filter_told (l ++ [c]) = match c with (DFilter g, Done) => g | _ => filter_told l end.
  Proof. unfold filter_told. rewrite fold_left_app. reflexivity. Qed.
  Lemma frames_snoc bus l c : frames_told bus (l ++ [c]) =
    frames_told bus l ++ match c with (DSend f, Done) => [(key_told l, bus_told bus l, f)] | _ => [] end.
  Proof.
    unfold MavDriverSpec.frames_told. rewrite fold_left_app. cbn [fold_left].
    match goal with |- context [fold_left ?g l ?a] => set (F := fold_left g l a) end.
    assert (E : fst F = l).
    { unfold F. clear F. assert (G : forall a out, fst (fold_left (fun a c =>
        let '(before, out) := a in
        (before ++ [c], out ++ match c with (DSend f, Done) => [(key_told before, bus_told bus before, f)] | _ => [] end)) l (a, out)) = a ++ l).
      { clear. induction l as [|c l IH]; intros a out; cbn [fold_left]; [rewrite app_nil_r; reflexivity|]. rewrite IH, <- app_assoc. reflexivity. }
      apply G. }
    destruct F as [before out]. cbn in E. subst before. reflexivity.
  Qed.
  Lemma frames_out_app a b : frames_out K (a ++ b) = frames_out K a ++ frames_out K b.
  Proof. unfold frames_out. apply flat_map_app. Qed.
  Lemma frames_out_tag k l : frames_out K (map (pair k) l) = map (fun x => (k, snd x)) (can_sent l).
  Proof.
    induction l as [|x l IH]; [reflexivity|]. unfold frames_out, can_sent in *. cbn [map flat_map snd fst].
    rewrite IH, map_app. destruct x; reflexivity.
  Qed.

  (** What a step of the process writes. *)
  Lemma go_log (s : mavdrv) q e : v_readonly (m_mav K s) = false ->
    m_log K (go K s q (mav_step (m_mav K s) e)) = m_log K s ++ map (pair (m_conn K s)) (event_sends (m_mav K s) e).
  Proof.
    intros R. cbn. destruct (step_sends (m_mav K s) e R) as (-> & _).
    rewrite skipn_app, skipn_all, Nat.sub_diag. reflexivity.
  Qed.

  Variables bus target start : Z.
  Notation run l := (drv_run (drv_new K bus target false start) l).
  Lemma drv_snoc s l e : drv_run s (l ++ [e]) = dstep (drv_run s l) e.
  Proof. unfold MavDriver.drv_run. rewrite fold_left_app. reflexivity. Qed.

  Definition item_ok (x : qitem K) : Prop :=
    match x with QItem (Frame f) => on_bus f | QItem (BusNum b) => bus_ok b | _ => True end.
  Record inv (s : mavdrv) : Prop := {
    i_ro : v_readonly (m_mav K s) = false;
    i_conn : m_conn K s = m_key K s;
    i_key : next_key (m_queue K s) (m_key K s) = key_told (m_calls K s);
    i_bus : next_bus (m_queue K s) (v_bus (m_mav K s)) = bus_told bus (m_calls K s);
    i_filter : next_filter (m_queue K s) (v_filter (m_mav K s)) = filter_told (m_calls K s) }.

  Lemma put_cases s x : (exists s', put K s x = (s', Done) /\ m_bus K s' = m_bus K s /\ m_filter K s' = m_filter K s /\ m_queue K s' = m_queue K s ++ [x] /\
      m_quit K s' = m_quit K s /\ m_alive K s' = m_alive K s /\ m_mav K s' = m_mav K s /\ m_key K s' = m_key K s /\ m_conn K s' = m_conn K s /\ m_log K s' = m_log K s /\ m_calls K s' = m_calls K s) \/
    put K s x = (s, Full) /\ (tx_queue_size <= length (m_queue K s))%nat.
  Proof.
    unfold put. destruct (Nat.ltb_spec (length (m_queue K s)) tx_queue_size) as [H|H]; [left|right; auto].
    eexists. split; [reflexivity|]. cbn. auto 12.
  Qed.
  (** A call leaves the process alone and adds what it says to the queue. *)
  Definition item_of (c : dcall) : option (qitem K) :=
    match c with
    | DSend f => Some (QItem (Frame f)) | DFilter g => Some (QItem (FilterList g)) | DBus n => Some (QItem (BusNum (n - 1)))
    | DPass p => Some (QKey (sha256 p)) | DClose => None
    end.
  Lemma call_cases s c : exists a,
    m_calls K (dstep s (ECall c)) = m_calls K s ++ [(c, a)] /\
    m_queue K (dstep s (ECall c)) = m_queue K s ++ (match a, item_of c with Done, Some x => [x] | _, _ => [] end) /\
    m_alive K (dstep s (ECall c)) = m_alive K s /\ m_mav K (dstep s (ECall c)) = m_mav K s /\ m_key K (dstep s (ECall c)) = m_key K s /\
    m_conn K (dstep s (ECall c)) = m_conn K s /\ m_log K (dstep s (ECall c)) = m_log K s /\
    (a = Done -> forall n, c = DBus n -> 0 < n) /\
    (m_bus K (dstep s (ECall c)) = match c, a with DBus n, Done => n - 1 | DBus n, Full => n - 1 | _, _ => m_bus K s end) /\
    (m_filter K (dstep s (ECall c)) = match c, a with DFilter g, _ => g | _, _ => m_filter K s end) /\
    m_quit K (dstep s (ECall c)) = match c with DClose => true | _ => m_quit K s end /\
    a = snd (dcall_step K sha256 s c).
  Proof.
    destruct c as [f|g|n|p|]; cbn [dstep MavDriver.dstep dcall_step item_of].
    - destruct (put_cases s (QItem (Frame f))) as [(s' & -> & H1 & H2 & H3 & H4 & H5 & H6 & H7 & H8 & H9 & H10)|(-> & _)]; cbn; eexists; rewrite ?H1, ?H2, ?H3, ?H4, ?H5, ?H6, ?H7, ?H8, ?H9, ?H10, ?app_nil_r; repeat split; intros; try discriminate; symmetry; apply app_nil_r.
    - destruct (put_cases (set_own K s (m_bus K s) g) (QItem (FilterList g))) as [(s' & -> & H1 & H2 & H3 & H4 & H5 & H6 & H7 & H8 & H9 & H10)|(-> & _)]; cbn in *; eexists; rewrite ?H1, ?H2, ?H3, ?H4, ?H5, ?H6, ?H7, ?H8, ?H9, ?H10, ?app_nil_r; repeat split; intros; try discriminate; symmetry; apply app_nil_r.
    - destruct (Z.leb_spec n 0) as [H|H].
      + exists (Raised DriverError). cbn. rewrite app_nil_r. repeat split; intros; try discriminate; symmetry; apply app_nil_r.
      + destruct (put_cases (set_own K s (n - 1) (m_filter K s)) (QItem (BusNum (n - 1)))) as [(s' & -> & H1 & H2 & H3 & H4 & H5 & H6 & H7 & H8 & H9 & H10)|(-> & _)]; cbn in *; eexists; rewrite ?H1, ?H2, ?H3, ?H4, ?H5, ?H6, ?H7, ?H8, ?H9, ?H10, ?app_nil_r; repeat split; intros; try discriminate; try (symmetry; apply app_nil_r).
        match goal with E : DBus n = DBus _ |- _ => injection E as <- end. lia.
    - unfold passphrase_to_key. destruct (forallb _ p).
      + destruct (put_cases s (QKey (sha256 p))) as [(s' & -> & H1 & H2 & H3 & H4 & H5 & H6 & H7 & H8 & H9 & H10)|(-> & _)]; cbn; eexists; rewrite ?H1, ?H2, ?H3, ?H4, ?H5, ?H6, ?H7, ?H8, ?H9, ?H10, ?app_nil_r; repeat split; intros; try discriminate; symmetry; apply app_nil_r.
      + exists (Raised UnicodeError). cbn. rewrite app_nil_r. repeat split; intros; try discriminate; symmetry; apply app_nil_r.
    - destruct (m_quit K s) eqn:Q; cbn; eexists; rewrite ?Q, ?app_nil_r; repeat split; intros; try discriminate; symmetry; apply app_nil_r.
  Qed.

  (** A step of the process: nothing; the end; a key; or an event of Mavcan.v. *)
  Definition process (s s' : mavdrv) : Prop :=
    m_calls K s' = m_calls K s /\ m_bus K s' = m_bus K s /\ m_filter K s' = m_filter K s /\
    ((m_queue K s' = m_queue K s /\ m_mav K s' = m_mav K s /\ m_key K s' = m_key K s /\ (m_conn K s' = m_conn K s \/ m_conn K s' = m_key K s) /\ m_log K s' = m_log K s) \/
     (exists k q, m_queue K s = QKey k :: q /\ m_queue K s' = q /\ m_mav K s' = m_mav K s /\ m_key K s' = Some k /\ m_conn K s' = Some k /\ m_log K s' = m_log K s) \/
     (exists e, m_mav K s' = mav_step (m_mav K s) e /\ m_key K s' = m_key K s /\ m_conn K s' = m_conn K s /\
        m_log K s' = m_log K s ++ map (pair (m_conn K s)) (event_sends (m_mav K s) e) /\
        ((exists now r, e = Recv now r /\ m_queue K s' = m_queue K s) \/ exists now i, e = Take now i /\ m_queue K s = QItem i :: m_queue K s'))).
  Lemma process_step s e : v_readonly (m_mav K s) = false -> (forall c, e <> ECall c) -> process s (dstep s e).
  Proof.
    intros R N. unfold process. destruct e as [c| |now|now r]; [contradiction (N c eq_refl)|..];
      cbn [dstep MavDriver.dstep]; destruct (m_alive K s); cbn [negb]; try (repeat (split; [reflexivity|]); left; auto 10; fail).
    - destruct (m_quit K s); repeat (split; [reflexivity|]); left; auto 10.
    - destruct (m_quit K s); [repeat (split; [reflexivity|]); left; auto 10|].
      destruct (m_queue K s) as [|[i|k] q] eqn:Q; [repeat (split; [reflexivity|]); left; auto 10|..].
      + repeat (split; [reflexivity|]). right. right. exists (Take now i).
        split; [reflexivity|]. do 2 (split; [reflexivity|]). split; [exact (go_log s q (Take now i) R)|]. right. eauto.
      + rewrite R. repeat (split; [reflexivity|]). right. left. exists k, q. auto 10.
    - destruct r as [| |sys m].
      + destruct (m_quit K s); repeat (split; [reflexivity|]); left; auto 10.
      + repeat (split; [reflexivity|]). right. right. exists (Recv now NoMessage).
        split; [reflexivity|]. do 2 (split; [reflexivity|]). split; [exact (go_log s (m_queue K s) (Recv now NoMessage) R)|]. left. eauto.
      + repeat (split; [reflexivity|]). right. right. exists (Recv now (Message sys m)).
        split; [reflexivity|]. do 2 (split; [reflexivity|]). split; [exact (go_log s (m_queue K s) (Recv now (Message sys m)) R)|]. left. eauto.
  Qed.
  Lemma is_call e : (exists c, e = ECall c) \/ forall c, e <> ECall c.
  Proof. destruct e; [left; eauto|right; discriminate..]. Qed.

  Lemma inv_step s e : inv s -> inv (dstep s e).
  Proof.
    intros [H1 H2 H3 H4 H5]. destruct (is_call e) as [(c & ->)|N].
    - destruct (call_cases s c) as (a & E1 & E2 & _ & E4 & E5 & E6 & _ & P & _).
      constructor; rewrite ?E1, ?E2, ?E4, ?E5, ?E6; auto.
      + rewrite key_snoc. destruct c, a; cbn [item_of]; rewrite ?app_nil_r; try (rewrite next_key_app; cbn); auto.
      + rewrite bus_snoc2. destruct c, a; cbn [item_of]; rewrite ?app_nil_r; try (rewrite next_bus_app; cbn); auto.
      + rewrite filter_snoc2. destruct c, a; cbn [item_of]; rewrite ?app_nil_r; try (rewrite next_filter_app; cbn); auto.
    - destruct (process_step s e H1 N) as (E1 & _ & _ & [(Q & M & Ky & C & L)|[(k & q & Q & Q' & M & Ky & C & L)|(ev & M & Ky & C & L & Q)]]).
      + constructor; rewrite ?E1, ?Q, ?M, ?Ky; auto. destruct C as [->| ->]; auto.
      + rewrite Q in H3, H4, H5. constructor; rewrite ?E1, ?Q', ?M, ?Ky, ?C; auto.
      + destruct (step_sends (m_mav K s) ev H1) as (_ & R' & B' & _ & F' & _).
        constructor; rewrite ?E1, ?M, ?Ky, ?C, ?B', ?F'; auto.
        * destruct Q as [(now & r & -> & ->)|(now & i & -> & Q)]; [exact H3|]. rewrite Q in H3. exact H3.
        * destruct Q as [(now & r & -> & ->)|(now & i & -> & Q)]; [exact H4|]. rewrite Q in H4. cbn in H4. destruct i; exact H4.
        * destruct Q as [(now & r & -> & ->)|(now & i & -> & Q)]; [exact H5|]. rewrite Q in H5. cbn in H5. destruct i; exact H5.
  Qed.
  Lemma inv_new : inv (drv_new K bus target false start).
  Proof. constructor; reflexivity. Qed.
  Lemma inv_run l : inv (run l).
  Proof. induction l as [|e l IH] using rev_ind; [exact inv_new|]. rewrite drv_snoc. apply inv_step, IH. Qed.

  (** The frames. *)
  Definition framed (s : mavdrv) : Prop :=
    Forall item_ok (m_queue K s) /\ bus_ok (v_bus (m_mav K s)) /\
    exists out, frames_told bus (m_calls K s) = out ++ pending (m_queue K s) (m_key K s) (v_bus (m_mav K s)) /\
      Forall2 (as_told K) out (frames_out K (m_log K s)).
  Lemma framed_step s e : inv s -> (forall c, e = ECall c -> call_ok c) -> framed s -> framed (dstep s e).
  Proof.
    intros [H1 H2 H3 H4 H5] OKc (QO & BO & out & FT & F2). destruct (is_call e) as [(c & ->)|N].
    - destruct (call_cases s c) as (a & E1 & E2 & _ & E4 & E5 & E6 & E7 & P & _). unfold framed. rewrite E1, E2, E4, E5, E7.
      split; [|split; [exact BO|exists out; split; [|exact F2]]].
      + apply Forall_app. split; [exact QO|]. specialize (OKc c eq_refl).
        destruct c, a; cbn [item_of]; try apply Forall_nil; (apply Forall_cons; [|apply Forall_nil]); cbn in OKc |- *; auto.
        pose proof (P eq_refl _ eq_refl) as P'. clear - OKc P'. unfold bus_ok. lia.
      + rewrite frames_snoc, FT, <- app_assoc. f_equal.
        destruct c, a; cbn [item_of]; rewrite ?app_nil_r; try reflexivity; rewrite pending_app; rewrite ?app_nil_r; try reflexivity.
        rewrite H3, H4. reflexivity.
    - destruct (process_step s e H1 N) as (E1 & _ & _ & [(Q & M & Ky & C & L)|[(k & q & Q & Q' & M & Ky & C & L)|(ev & M & Ky & C & L & Q)]]);
        unfold framed.
      + rewrite E1, Q, M, Ky, L. eauto 10.
      + rewrite E1, Q', M, Ky, L. rewrite Q in QO, FT. split; [inversion QO; assumption|]. eauto.
      + rewrite E1, M, Ky, L. destruct (step_sends (m_mav K s) ev H1) as (_ & _ & -> & _).
        rewrite frames_out_app, frames_out_tag.
        assert (NF : forall b : bool, can_sent (if b then request (m_mav K s) else []) = []) by (intros []; [apply (filter_no_frames (m_mav K s))|reflexivity]).
        destruct Q as [(now & r & -> & ->)|(now & i & -> & Q)].
        * split; [exact QO|]. split; [exact BO|]. exists out. split; [exact FT|].
          replace (can_sent (event_sends (m_mav K s) (Recv now r))) with (@nil (Z * mavmsg)); [cbn; rewrite app_nil_r; exact F2|].
          destruct r; cbn [event_sends]; rewrite ?NF; reflexivity.
        * rewrite Q in QO, FT. apply Forall_cons_iff in QO as (IO & QO). split; [exact QO|].
          destruct i as [f|b|g]; cbn [event_sends pending] in FT |- *.
          -- split; [exact BO|]. exists (out ++ [(m_key K s, v_bus (m_mav K s), f)]). split; [rewrite FT, <- app_assoc; reflexivity|].
             apply Forall2_app; [exact F2|]. destruct BO as (B1 & B2).
             assert (X : (0 <=? v_bus (m_mav K s)) && (v_bus (m_mav K s) <? 256) = true) by (clear - B1 B2; lia). rewrite X.
             destruct (mav_roundtrip (Z.to_N (v_bus (m_mav K s))) f 0 IO) as (m & E & M1 & M2 & M3). rewrite E, can_app, NF.
             cbn [app map can_sent flat_map snd]. constructor; [|constructor]. unfold as_told. cbn [fst snd].
             split; [exact H2|]. split; [rewrite M1; clear - B1; lia|].
             intros now'. destruct (mav_roundtrip (Z.to_N (v_bus (m_mav K s))) f now' IO) as (m' & E' & _ & _ & M4). congruence.
          -- split; [exact IO|]. exists out. split; [exact FT|]. cbn. rewrite app_nil_r. exact F2.
          -- split; [exact BO|]. exists out. split; [exact FT|]. cbn. rewrite app_nil_r. exact F2.
  Qed.
  Lemma all_framed l : bus_ok bus -> calls_ok l -> framed (run l).
  Proof.
    intros B. induction l as [|e l IH] using rev_ind; intros O.
    - split; [constructor|]. split; [exact B|]. exists []. split; constructor.
    - rewrite drv_snoc. apply framed_step; [apply inv_run| |apply IH].
      + intros c ->. apply O. apply in_or_app. right. now left.
      + intros c I. apply O. apply in_or_app. auto.
  Qed.
  (** C142 *)
  Lemma frames_as_told l : bus_ok bus -> calls_ok l ->
    exists out rest, frames_told bus (m_calls K (run l)) = out ++ rest /\ Forall2 (as_told K) out (frames_out K (m_log K (run l))) /\
      length rest = waiting K (m_queue K (run l)).
  Proof.
    intros B O. destruct (all_framed l B O) as (_ & _ & out & E & F). exists out. eexists. split; [exact E|]. split; [exact F|].
    apply pending_waiting.
  Qed.

  (** Signing. *)
  Definition key_given (s : mavdrv) (k : K) : Prop := exists p, In (DPass p, Done) (m_calls K s) /\ k = sha256 p.
  Definition signed (s : mavdrv) : Prop :=
    (m_conn K s = None -> Forall (fun x => fst x = None) (m_log K s)) /\
    (forall a x b, m_log K s = a ++ x :: b -> fst x <> None -> Forall (fun y => fst y <> None) b) /\
    (forall k, m_conn K s = Some k -> key_given s k) /\
    (forall k, In (QKey k) (m_queue K s) -> key_given s k) /\
    (forall k y, In (Some k, y) (m_log K s) -> key_given s k).
  Lemma given_more s s' k : (exists t, m_calls K s' = m_calls K s ++ t) -> key_given s k -> key_given s' k.
  Proof. intros (t & E) (p & I & ->). exists p. split; [rewrite E; apply in_or_app; auto|reflexivity]. Qed.
  Lemma app_split {A} (a b c : list A) x d : a ++ b = c ++ x :: d ->
    (exists d1, a = c ++ x :: d1 /\ d = d1 ++ b) \/ exists c1, c = a ++ c1 /\ b = c1 ++ x :: d.
  Proof.
    revert c. induction a as [|y a IH]; intros c E; cbn in E; [right; exists c; auto|].
    destruct c as [|z c]; cbn in E; injection E as -> E.
    - left. exists a. auto.
    - destruct (IH c E) as [(d1 & -> & ->)|(c1 & -> & ->)]; [left; exists d1; auto|right; exists c1; auto].
  Qed.
  Lemma signed_step s e : inv s -> signed s -> signed (dstep s e).
  Proof.
    intros H (A1 & A2 & A3 & A4 & A5). destruct (is_call e) as [(c & ->)|N].
    - destruct (call_cases s c) as (a & E1 & E2 & _ & E4 & E5 & E6 & E7 & _). unfold signed. rewrite E2, E6, E7.
      assert (G : forall k, key_given s k -> key_given (dstep s (ECall c)) k) by (intros k; apply given_more; eauto).
      split; [exact A1|]. split; [exact A2|]. split; [auto|]. split; [|eauto].
      intros k I. apply in_app_or in I as [I|I]; [auto|]. destruct a, c; cbn in I; try contradiction I; destruct I as [I|[]]; try discriminate I.
      injection I as <-. exists p. split; [rewrite E1; apply in_or_app; right; now left|reflexivity].
    - destruct H as [H1 H2 _ _ _].
      destruct (process_step s e H1 N) as (E1 & _ & _ & [(Q & M & Ky & C & L)|[(k & q & Q & Q' & M & Ky & C & L)|(ev & M & Ky & C & L & Q)]]); unfold signed.
      + assert (G : forall k, key_given s k -> key_given (dstep s e) k) by (intros k; apply given_more; exists []; rewrite app_nil_r; exact E1).
        rewrite Q, L. assert (C' : m_conn K (dstep s e) = m_conn K s) by (destruct C as [->| ->]; auto). rewrite C'.
        split; [exact A1|]. split; [exact A2|]. split; [auto|]. split; eauto.
      + assert (G : forall k, key_given s k -> key_given (dstep s e) k) by (intros k'; apply given_more; exists []; rewrite app_nil_r; exact E1).
        rewrite Q', L, C. split; [discriminate|]. split; [exact A2|]. rewrite Q in A4.
        split; [intros k' E; injection E as <-; apply G, A4; now left|]. split; [intros k' I; apply G, A4; now right|eauto].
      + assert (G : forall k, key_given s k -> key_given (dstep s e) k) by (intros k'; apply given_more; exists []; rewrite app_nil_r; exact E1).
        rewrite L, C. split; [|split; [|split; [auto|split]]].
        * intros X. apply Forall_app. split; [exact (A1 X)|]. rewrite X. clear. apply Forall_forall. intros x I. apply in_map_iff in I as (y & <- & _). reflexivity.
        * intros a x b E X. apply app_split in E as [(d1 & E & ->)|(c1 & -> & E)].
          -- apply Forall_app. split; [exact (A2 _ _ _ E X)|].
             assert (Y : m_conn K s <> None).
             { intros Y. apply X. refine (proj1 (Forall_forall _ _) (A1 Y) x _). rewrite E. apply in_or_app. right. now left. }
             apply Forall_forall. intros y I. apply in_map_iff in I as (z & <- & _). exact Y.
          -- assert (T : forall y, In y (c1 ++ x :: b) -> fst y = m_conn K s).
             { intros y I. rewrite <- E in I. apply in_map_iff in I as (z & <- & _). reflexivity. }
             apply Forall_forall. intros y I. rewrite (T y), <- (T x); [exact X| |]; apply in_or_app; right; [now left|now right].
        * intros k I. apply G, A4. destruct Q as [(now & r & _ & Q)|(now & i & _ & Q)]; [rewrite <- Q; exact I|rewrite Q; now right].
        * intros k y I. apply G. apply in_app_or in I as [I|I]; [eauto|]. apply in_map_iff in I as (z & E & _).
          apply (f_equal fst) in E. cbn [fst] in E. auto.
  Qed.
  Lemma all_signed l : signed (run l).
  Proof.
    induction l as [|e l IH] using rev_ind.
    - split; [|split; [|split; [|split]]]; cbn -[enable_can_forward].
      + intros _. apply Forall_forall. intros x I. cbn in I. destruct I as [<-|[]]. reflexivity.
      + intros a x b E X. exfalso. apply X. cbn in E.
        assert (I : In x [(@None K, Forward target (bus + 1))]) by (rewrite E; apply in_or_app; right; now left).
        destruct I as [<-|[]]. reflexivity.
      + discriminate.
      + intros k [].
      + cbn. intros k y [E|[]]. discriminate.
    - rewrite drv_snoc. apply signed_step; [apply inv_run|exact IH].
  Qed.

  (** A passphrase from the environment. *)
  Definition env_inv (s : mavdrv) : Prop :=
    (m_conn K s = None -> (exists k q, m_queue K s = QKey k :: q) /\ v_filter (m_mav K s) = None) /\
    forall y, In (None, y) (m_log K s) -> is_forward y.
  Lemma env_step s e : inv s -> env_inv s -> env_inv (dstep s e).
  Proof.
    intros H (A1 & A2). destruct (is_call e) as [(c & ->)|N].
    - destruct (call_cases s c) as (a & E1 & E2 & _ & E4 & E5 & E6 & E7 & _). unfold env_inv. rewrite E2, E4, E6, E7.
      split; [|exact A2]. intros C. destruct (A1 C) as ((k & q & ->) & F). split; [|exact F]. cbn. eauto.
    - destruct H as [H1 H2 _ _ _].
      destruct (process_step s e H1 N) as (E1 & _ & _ & [(Q & M & Ky & C & L)|[(k & q & Q & Q' & M & Ky & C & L)|(ev & M & Ky & C & L & Q)]]); unfold env_inv.
      + assert (C' : m_conn K (dstep s e) = m_conn K s) by (destruct C as [->| ->]; auto). rewrite Q, M, L, C'. auto.
      + rewrite L, C. split; [discriminate|exact A2].
      + rewrite L, C, M. destruct (step_sends (m_mav K s) ev H1) as (_ & _ & _ & _ & F' & _).
        split.
        * intros X. destruct (A1 X) as ((k & q & B1) & B2). rewrite F'. destruct Q as [(now & r & -> & ->)|(now & i & -> & Q)]; [eauto|]. rewrite B1 in Q. discriminate.
        * intros y I. apply in_app_or in I as [I|I]; [auto|]. apply in_map_iff in I as (z & E & I).
          assert (X : m_conn K s = None) by (apply (f_equal fst) in E; exact E). apply (f_equal snd) in E. cbn in E. subst z.
          destruct (A1 X) as ((k & q & B1) & B2). destruct Q as [(now & r & -> & _)|(now & i & -> & Q)]; [|rewrite B1 in Q; discriminate].
          destruct r; cbn [event_sends] in I; try contradiction I. destruct (due now (m_mav K s)); [|contradiction I].
          unfold request in I. cbn in I. unfold filter_message in I. rewrite B2 in I. destruct I as [<-|[]]. exact I.
  Qed.
  Lemma env_signed p l : p <> [] -> Forall (fun c => (c < 128)%N) p ->
    forall y, In (None, y) (m_log K (run (with_env p l))) -> is_forward y.
  Proof.
    intros Hp A. enough (G : env_inv (run (with_env p l))) by exact (proj2 G).
    unfold with_env. destruct p as [|c p]; [contradiction|]. cbn [length Nat.ltb Nat.leb].
    assert (W : forall s l, inv s -> env_inv s -> env_inv (drv_run s l)).
    { clear l. intros s l. revert s. induction l as [|e l IH]; intros s I J; [exact J|]. apply (IH (dstep s e)); [apply inv_step, I|apply env_step; assumption]. }
    change (env_inv (drv_run (dstep (drv_new K bus target false start) (ECall (DPass (c :: p)))) l)).
    apply W; [apply inv_step, inv_new|].
    cbn [MavDriver.dstep dcall_step]. unfold passphrase_to_key.
    assert (E : forallb (fun c => (c <? 128)%N) (c :: p) = true) by (apply forallb_forall; intros x I; apply N.ltb_lt; exact (proj1 (Forall_forall _ _) A x I)).
    rewrite E. unfold put. cbn -[enable_can_forward tx_queue_size]. change (0 <? tx_queue_size)%nat with true. cbn.
    unfold env_inv. split.
    { intros _. split; [|reflexivity]. eexists. eexists. reflexivity. }
    intros y J. cbn in J. destruct J as [J|[]]. injection J as <-. exact I.
  Qed.

  (** C143 *)
  Lemma reported l : (forall n, ~ In (DBus n, Full) (m_calls K (run l))) -> get_bus K (run l) = bus_told bus (m_calls K (run l)) + 1.
  Proof.
    intros NF. enough (G : m_bus K (run l) = bus_told bus (m_calls K (run l))) by (unfold get_bus; lia). revert NF.
    induction l as [|e l IH] using rev_ind; [reflexivity|]. rewrite drv_snoc. intros NF.
    destruct (is_call e) as [(c & ->)|N].
    - destruct (call_cases (run l) c) as (a & E1 & _ & _ & _ & _ & _ & _ & _ & E9 & _). rewrite E1 in NF |- *. rewrite bus_snoc2, E9, <- IH.
      + destruct c, a; try reflexivity. exfalso. apply (NF n). apply in_or_app. right. now left.
      + intros n I. apply (NF n). apply in_or_app. auto.
    - destruct (process_step (run l) e (i_ro _ (inv_run l)) N) as (E1 & -> & _). rewrite E1 in NF |- *. auto.
  Qed.
  Lemma reported_filter l : (forall g, ~ In (DFilter g, Full) (m_calls K (run l))) -> get_filter_list K (run l) = filter_told (m_calls K (run l)).
  Proof.
    unfold get_filter_list. 
    induction l as [|e l IH] using rev_ind; [reflexivity|]. rewrite drv_snoc. intros NF.
    destruct (is_call e) as [(c & ->)|N].
    - destruct (call_cases (run l) c) as (a & E1 & _ & _ & _ & _ & _ & _ & _ & _ & E9 & _ & E12). rewrite E1 in NF |- *. rewrite filter_snoc2, E9, <- IH.
      + destruct c; try (destruct a; reflexivity). destruct a; [reflexivity| |].
        * exfalso. apply (NF ids). apply in_or_app. right. now left.
        * exfalso. clear - E12. cbn [dcall_step] in E12. destruct (put_cases (set_own K (run l) (m_bus K (run l)) ids) (QItem (FilterList ids))) as [(s' & E & _)|(E & _)]; rewrite E in E12; discriminate.
      + intros n I. apply (NF n). apply in_or_app. auto.
    - destruct (process_step (run l) e (i_ro _ (inv_run l)) N) as (E1 & _ & -> & _). rewrite E1 in NF |- *. auto.
  Qed.
  (** When the queue is empty the process has what was told. *)
  Lemma arrived l : m_queue K (run l) = [] ->
    v_bus (m_mav K (run l)) = bus_told bus (m_calls K (run l)) /\ v_filter (m_mav K (run l)) = filter_told (m_calls K (run l)) /\
    m_conn K (run l) = key_told (m_calls K (run l)).
  Proof.
    intros Q. destruct (inv_run l) as [_ H2 H3 H4 H5]. rewrite Q in *. rewrite H2. auto.
  Qed.
End Facts.

Section Close.
  Variable K : Type.
  Variable sha256 : list N -> K.
  Notation dstep := (dstep K sha256).
  Notation drv_run := (drv_run K sha256).
  Lemma dead_step s e : m_alive K s = false -> m_alive K (dstep s e) = false /\ m_log K (dstep s e) = m_log K s /\
    v_received (m_mav K (dstep s e)) = v_received (m_mav K s).
  Proof.
    intros D. destruct e as [c| |now|now r]; cbn [MavDriver.dstep]; rewrite ?D; cbn [negb]; auto.
    destruct (call_cases K sha256 s c) as (a & _ & _ & E3 & E4 & _ & _ & E7 & _).
    cbn [MavDriver.dstep] in E3, E4, E7. rewrite E3, E4, E7. auto.
  Qed.
  Lemma dead_stays s l : m_alive K s = false -> m_log K (drv_run s l) = m_log K s /\ v_received (m_mav K (drv_run s l)) = v_received (m_mav K s).
  Proof.
    revert s. induction l as [|e l IH]; intros s D; [auto|]. destruct (dead_step s e D) as (D' & E1 & E2).
    destruct (IH (dstep s e) D') as (F1 & F2). split; [etransitivity; eassumption|etransitivity; eassumption].
  Qed.
  (** The process looks at the exit queue in these. *)
  Definition looks (e : devent) : Prop := match e with ECheck | ETake _ | ERecv _ LinkLost => True | _ => False end.
  Lemma closes s e : looks e -> m_quit K s = true -> m_alive K (dstep s e) = false.
  Proof.
    intros L Q. destruct e as [c| |now|now [| |]]; try contradiction L; cbn [MavDriver.dstep]; destruct (m_alive K s) eqn:A; cbn [negb]; rewrite ?Q; auto.
  Qed.
  Lemma quit_calls bus target ro start l : m_quit K (drv_run (drv_new K bus target ro start) l) = true ->
    exists a, In (DClose, a) (m_calls K (drv_run (drv_new K bus target ro start) l)).
  Proof.
    induction l as [|e l IH] using rev_ind; [discriminate|]. unfold MavDriver.drv_run in *. rewrite fold_left_app. cbn [fold_left].
    set (s := fold_left dstep l _) in *. intros Q.
    destruct (is_call e) as [(c & ->)|N].
    - destruct (call_cases K sha256 s c) as (a & E1 & _ & _ & _ & _ & _ & _ & _ & _ & _ & E10 & _). rewrite E1.
      rewrite E10 in Q. destruct c; try (destruct (IH Q) as (x & I); exists x; apply in_or_app; auto).
      exists a. apply in_or_app. right. now left.
    - assert (E : m_calls K (dstep s e) = m_calls K s /\ (m_quit K (dstep s e) = true -> m_quit K s = true)).
      { clear - N. destruct e as [c| |now|now r]; [contradiction (N c eq_refl)|..]; cbn [MavDriver.dstep]; destruct (m_alive K s); cbn [negb]; auto.
        - destruct (m_quit K s) eqn:Q; (split; [reflexivity|]); intros; congruence.
        - destruct (m_quit K s) eqn:Q; [auto|]. destruct (m_queue K s) as [|[i|k] q]; [| |destruct (v_readonly _)]; (split; [reflexivity|]); cbn; intros; congruence.
        - destruct r; [destruct (m_quit K s) eqn:Q|..]; (split; [reflexivity|]); cbn; intros; congruence. }
      destruct E as (-> & E). auto.
  Qed.
  Lemma first_close bus target ro start l : (forall a, ~ In (DClose, a) (m_calls K (drv_run (drv_new K bus target ro start) l))) ->
    snd (dcall_step K sha256 (drv_run (drv_new K bus target ro start) l) DClose) = Done.
  Proof.
    intros N. cbn. destruct (m_quit K _) eqn:Q; [|reflexivity]. apply quit_calls in Q as (a & I). contradiction (N a I).
  Qed.
End Close.
