(** The messages of one type of a node that does other things as well. *)
From Verif.Base Require Import Prelude Bits.
From Verif.Model Require Import Types Codec MsgId Frames TransferManager Sched Node.
From Verif.Spec Require Import CodecSpec MsgIdSpec FrameSpec ReassemblySpec SendingSpec NodeSpec CallSpec StreamSpec.
From Verif.Proofs Require Import MsgIdFacts FrameFacts ReassemblyFacts ManagerFacts TransferTop NodeFacts RequestFacts NodeRequests NodeDispatch NodeTop NodeNet NodeCallTop StreamFacts.
Local Open Scope Z_scope.

(** A property of the node id and the log that is kept by everything the node
    does on its own, if the operations are [ok]. *)
Section Keep.
  Variable clk : nat -> Z.
  Variable beh : list nobs -> list (nop * bool) * outcome.
  Variable drv : list nobs -> list frame -> option exn.
  Variable status : list nobs -> value.
  Variable status_dt : datatype.
  Variable types : datatypes.
  Variable second : Z.

  Notation apply_nop := (apply_nop clk drv second).
  Notation recv_transfer := (recv_transfer clk beh drv second).
  Notation recv_frame := (recv_frame clk beh drv types second).
  Notation nexec := (nexec clk beh drv status status_dt second).
  Notation call_handler := (call_handler clk beh drv second).
  Notation call_handlers := (call_handlers clk beh drv second).
  Notation react := (react clk beh drv second).
  Notation respond := (respond drv).

  Variable ok : nop -> Prop.
  Variable Q : option N -> list nobs -> Prop.
  Let P (s : node) : Prop := Q (n_id s) (n_log s).
  Hypothesis Hbeh : forall l op c, In (op, c) (fst (beh l)) -> ok op.
  Hypothesis Pop : forall s op, ok op -> P s -> P (fst (apply_nop s op)).
  Hypothesis Prep : forall s dt v dest tid prio canfd, P s -> P (fst (respond s dt v dest tid prio canfd)).
  Hypothesis Qsee : forall i l o, is_call o -> Q i l -> Q i (l ++ [o]).
  Hypothesis Hstatus : forall v p c, ok (NBroadcast status_dt v p c).

  Lemma keep_react s : P s -> P (fst (react s)).
  Proof. apply (react_ind_if clk beh drv second ok P Pop Hbeh). Qed.
  Lemma keep_call s hd t : P s -> P (fst (call_handler s hd t)).
  Proof.
    intros H. unfold Node.call_handler.
    assert (H1 : P (fst (react (see s (OHandled hd t))))) by (apply keep_react; apply Qsee; [exact I|exact H]).
    destruct (react (see s (OHandled hd t))) as [s1 [result|x]]; cbn [fst] in *; auto.
    destruct (_ && _).
    - destruct (negb _); auto. destruct result as [[dt v]|]; auto.
    - destruct result; auto.
  Qed.
  Lemma keep_calls fuel : forall s o i t, P s -> P (fst (call_handlers fuel s o i t)).
  Proof.
    induction fuel as [|fuel IH]; cbn [Node.call_handlers]; intros s o i t H; auto.
    destruct (nth_error (handler_list s o) i) as [hd|]; auto. destruct (accepts hd t); auto.
    pose proof (keep_call s hd t H) as H1. destruct (call_handler s hd t) as [s1 [x|]]; cbn [fst] in *; auto.
    destruct (n_catch s1); auto.
  Qed.
  Lemma keep_recv fuel s t : P s -> P (fst (recv_transfer fuel s t)).
  Proof.
    intros H. unfold Node.recv_transfer. destruct (_ && _ && _).
    - destruct (find_request t (n_requests s)) as [k|]; auto.
      destruct (dget key_eqb (n_callbacks s) k) as [[r ev]|]; auto.
      fold (called s r ev t).
      assert (H1 : P (called s r ev t)).
      { unfold called. destruct (cancel ev (n_queue s)); unfold P; cbn [n_id n_log see set_pending set_queue]; apply Qsee; try exact I; exact H. }
      apply keep_react in H1. destruct (react (called s r ev t)) as [s2 [y|x]]; cbn [fst] in *; auto.
      destruct (negb _); auto. destruct (negb _); auto.
    - destruct (_ || _ || _); auto. now apply keep_calls.
  Qed.
  Lemma keep_exec s e q now : P s -> n_queue s = e :: q -> P (fst (nexec e now (npop s))).
  Proof.
    intros H Eq. unfold Node.nexec. destruct (ev_act e).
    - destruct (anonymous _); auto.
      match goal with |- context [broadcast _ ?s1 ?d ?v ?p ?c0] =>
        change (broadcast drv s1 d v p c0) with (apply_nop s1 (NBroadcast d v p c0)) end. apply Pop; [apply Hstatus|exact H].
    - match goal with |- context [react ?s1] => assert (H0 : P s1) by (apply Qsee; [exact I|exact H]);
        pose proof (keep_react s1 H0) as H1; destruct (react s1) end. exact H1.
    - match goal with |- context [react ?s1] => assert (H0 : P s1) by (apply Qsee; [exact I|exact H]);
        pose proof (keep_react s1 H0) as H1; destruct (react s1) end. exact H1.
    - match goal with |- context [react ?s1] => assert (H0 : P s1) by (apply Qsee; [exact I|exact H]);
        pose proof (keep_react s1 H0) as H1; destruct (react s1) end. exact H1.
  Qed.
  Lemma keep_frame fuel s x f : P s -> P (fst (recv_frame fuel s x f)).
  Proof.
    intros H. unfold Node.recv_frame. destruct x; cbn [negb]; [|exact H]. cbn [nread].
    destruct (receive_frame _ _ _) as [m [[|f0 fs]|]]; try exact H.
    destruct (from_frames types (f0 :: fs)); [|exact H]. apply keep_recv. exact H.
  Qed.
  Lemma keep_input fuel s i : match i with IOp op => ok op | _ => True end ->
    P s -> P (apply_input clk beh drv status status_dt types second fuel s i).
  Proof.
    intros Hi H. destruct i; cbn [apply_input].
    - now apply Pop.
    - now apply keep_frame.
    - now apply keep_recv.
    - apply npoll_ind; auto. intros; eapply keep_exec; eauto.
    - exact H.
  Qed.
End Keep.

(** Identifiers of what a node with an id sends. *)
Lemma plain_id p svc r a dest d i : (1 <= a < 128)%N -> (svc = false -> dest = None /\ r = false) ->
  message_id (Header p svc r (Some a) dest d None) = Ok i ->
  i = can_id (Header (N.land p 0x1F) svc r (Some a) dest d None) /\ legal (Header (N.land p 0x1F) svc r (Some a) dest d None).
Proof.
  intros Ha Hm H.
  assert (E : message_id (Header (N.land p 0x1F) svc r (Some a) dest d None) = Ok i).
  { rewrite <- H. unfold message_id. cbn [h_priority h_service h_request h_source h_dest h_dtid h_discriminator].
    rewrite <- N.land_assoc, N.land_diag. reflexivity. }
  assert (Hp : (N.land p 0x1F < 32)%N).
  { change 0x1F%N with (2 ^ 5 - 1)%N. rewrite land_mask. apply N.mod_lt. discriminate. }
  assert (L : legal (Header (N.land p 0x1F) svc r (Some a) dest d None)).
  { clear E. unfold message_id in H. cbn [h_priority h_service h_request h_source h_dest h_dtid h_discriminator] in H.
    destruct svc.
    - destruct (N.leb_spec d 255); [|discriminate]. cbn [negb] in H. destruct dest as [dst|]; [|discriminate].
      destruct ((1 <=? dst) && (dst <=? 127))%N eqn:Ed; [|discriminate]. constructor; lia.
    - destruct (Hm eq_refl) as [-> ->]. destruct (N.eqb_spec a 0); [lia|]. destruct (N.leb_spec d 65535); [|discriminate].
      constructor; lia. }
  split; [|exact L]. rewrite (message_id_layout _ L) in E. injection E as <-. reflexivity.
Qed.

(** Transfers of which some are cut short. *)
Section Parts.
  Variable clk : nat -> Z.
  Variable beh : list nobs -> list (nop * bool) * outcome.
  Variable drv : list nobs -> list frame -> option exn.
  Variable status : list nobs -> value.
  Variable status_dt : datatype.
  Variable types : datatypes.
  Variable second : Z.
  Hypothesis Hbeh : forall l op c, In (op, c) (fst (beh l)) -> keeps_handlers op.
  Variables (id : option N) (canfd : bool) (interval : Z) (info : typeid) (fuel : nat).
  Notation after := (started clk beh drv status status_dt types second id canfd true interval info fuel).
  Variables (mine : N -> bool) (ours : header -> bool).
  Hypothesis Hdec : forall f fs t, from_frames types (f :: fs) = Ok t -> h_service (rx_header t) = false ->
    ours (rx_header t) = mine (f_id f).
  Hypothesis Henc : forall h, legal h -> ours h = true -> mine (can_id h) = true.

  Inductive parts : list sending -> list (list frame) -> list bool -> Prop :=
  | parts_nil : parts [] [] []
  | parts_whole sd fs sds rcv oks : heard_by types ours sd fs -> parts sds rcv oks -> parts (sd :: sds) (fs :: rcv) (true :: oks)
  | parts_cut sd fs post sds rcv oks : heard_by types ours sd (fs ++ post) -> post <> [] -> parts sds rcv oks ->
      parts (sd :: sds) (fs :: rcv) (false :: oks).

  Lemma heard_split : forall ins x y, filter (fun f => mine (f_id f)) (heard ins) = x ++ y ->
    exists i1 i2, ins = i1 ++ i2 /\ filter (fun f => mine (f_id f)) (heard i1) = x /\ filter (fun f => mine (f_id f)) (heard i2) = y.
  Proof.
    induction ins as [|i ins IH]; intros x y E.
    - cbn in E. symmetry in E. apply app_eq_nil in E as [-> ->]. exists [], []. auto.
    - change (i :: ins) with ([i] ++ ins) in E. rewrite heard_app, filter_app in E.
      destruct (filter (fun f => mine (f_id f)) (heard [i])) as [|f [|g l]] eqn:Ei.
      + cbn [app] in E. destruct (IH x y E) as (i1 & i2 & -> & H1 & H2). exists (i :: i1), i2. split; [reflexivity|].
        split; [|exact H2]. change (i :: i1) with ([i] ++ i1). rewrite heard_app, filter_app, Ei. exact H1.
      + destruct x as [|x0 x].
        * exists [], (i :: ins). split; [reflexivity|]. split; [reflexivity|].
          change (i :: ins) with ([i] ++ ins). rewrite heard_app, filter_app, Ei. exact E.
        * cbn [app] in E. injection E as -> E. destruct (IH x y E) as (i1 & i2 & -> & H1 & H2). exists (i :: i1), i2.
          split; [reflexivity|]. split; [|exact H2]. change (i :: i1) with ([i] ++ i1). rewrite heard_app, filter_app, Ei, H1. reflexivity.
      + exfalso. destruct i as [|[|]| | |]; try discriminate. cbn in Ei. destruct (mine _); discriminate.
  Qed.

  Lemma parts_heard : forall sds rcv oks, parts sds rcv oks -> forall ins0 ins1,
    (length (handlers_of (after ins0)) < fuel)%nat ->
    (forall i, In i ins1 -> match i with IOp op => keeps_handlers op | ITransfer _ => False | _ => True end) ->
    filter (fun f => mine (f_id f)) (heard ins1) = concat rcv ->
    exists rs, Forall2 faithful (filter is_message (those sds oks)) rs /\
      filter (said ours) (handled (n_log (after (ins0 ++ ins1)))) =
      filter (said ours) (handled (n_log (after ins0))) ++ flat_map (to_all (handlers_of (after ins0))) rs.
  Proof.
    induction 1 as [|sd fs sds rcv oks Hw P IH|sd fs post sds rcv oks Hc Hp P IH]; intros ins0 ins1 Hf Hst E.
    - destruct (all_heard clk beh drv status status_dt types second Hbeh id canfd interval info fuel mine ours ins0 Hdec Henc Hf ins1 Hst
        [] [] [] (Forall2_nil _) (or_introl eq_refl) E) as (_ & H). exact H.
    - cbn [concat] in E. destruct (heard_split _ _ _ E) as (i1 & i2 & -> & E1 & E2).
      destruct (all_heard clk beh drv status status_dt types second Hbeh id canfd interval info fuel mine ours ins0 Hdec Henc Hf i1)
        with (sds := [sd]) (received := [fs]) (pre := @nil frame) as (K & rs & F1 & H1).
      { intros i Hi. apply Hst, in_or_app. left. exact Hi. }
      { constructor; [exact Hw|constructor]. }
      { left. reflexivity. }
      { cbn [concat]. rewrite !app_nil_r. exact E1. }
      assert (Eh : handlers_of (after (ins0 ++ i1)) = handlers_of (after ins0)).
      { destruct K as [K1 K2]. unfold handlers_of, handler_list. rewrite K1, K2. reflexivity. }
      destruct (IH (ins0 ++ i1) i2) as (rs2 & F2 & H2).
      { rewrite Eh. exact Hf. }
      { intros i Hi. apply Hst, in_or_app. right. exact Hi. }
      { exact E2. }
      exists (rs ++ rs2). split.
      + assert (Et : those (sd :: sds) (true :: oks) = [sd] ++ those sds oks) by reflexivity. rewrite Et, filter_app. apply Forall2_app; assumption.
      + rewrite app_assoc, H2, H1, Eh, flat_map_app, app_assoc. reflexivity.
    - cbn [concat] in E. destruct (heard_split _ _ _ E) as (i1 & i2 & -> & E1 & E2).
      destruct (all_heard clk beh drv status status_dt types second Hbeh id canfd interval info fuel mine ours ins0 Hdec Henc Hf i1)
        with (sds := @nil sending) (received := @nil (list frame)) (pre := fs) as (K & rs & F1 & H1).
      { intros i Hi. apply Hst, in_or_app. left. exact Hi. }
      { constructor. }
      { right. exists sd, post. split; assumption. }
      { exact E1. }
      assert (Eh : handlers_of (after (ins0 ++ i1)) = handlers_of (after ins0)).
      { destruct K as [K1 K2]. unfold handlers_of, handler_list. rewrite K1, K2. reflexivity. }
      cbn [filter] in F1. inversion F1; subst rs. cbn [flat_map] in H1. rewrite app_nil_r in H1.
      destruct (IH (ins0 ++ i1) i2) as (rs2 & F2 & H2).
      { rewrite Eh. exact Hf. }
      { intros i Hi. apply Hst, in_or_app. right. exact Hi. }
      { exact E2. }
      exists rs2. split; [exact F2|]. rewrite app_assoc, H2, H1, Eh. reflexivity.
  Qed.
End Parts.

Section Typed.
  Variables (a d : N).
  Hypothesis Ha : (1 <= a < 128)%N.
  Definition mine (i : N) : bool := (i mod 128 =? a)%N && ((i / 128) mod 2 =? 0)%N && ((i / 256) mod 2 ^ 16 =? d)%N.
  Definition ours (h : header) : bool := negb (h_service h) && optN_eqb (h_source h) (Some a) && (h_dtid h =? d)%N.

  Lemma mine_head p dt : (p < 32)%N -> (dt < 2 ^ 16)%N ->
    mine (can_id (Header p false false (Some a) None dt None)) = (dt =? d)%N.
  Proof.
    intros Hp Hd. unfold mine, can_id. cbn [h_priority h_service h_request h_source h_dest h_dtid h_discriminator].
    change (2 ^ 16)%N with 65536%N in *. change (2 ^ 24)%N with 16777216%N. change (2 ^ 8)%N with 256%N.
    destruct (N.eqb_spec a 0); [lia|].
    assert (E1 : ((p * 16777216 + dt * 256 + a) mod 128 = a)%N) by lia.
    assert (E2 : (((p * 16777216 + dt * 256 + a) / 128) mod 2 = 0)%N) by lia.
    assert (E3 : (((p * 16777216 + dt * 256 + a) / 256) mod 65536 = dt)%N) by lia.
    rewrite E1, E2, E3, N.eqb_refl. reflexivity.
  Qed.
  Lemma service_not_mine p r dest dt : legal (Header p true r (Some a) dest dt None) ->
    mine (can_id (Header p true r (Some a) dest dt None)) = false.
  Proof.
    intros L. inversion L; subst. unfold mine, can_id. cbn [h_priority h_service h_request h_source h_dest h_dtid h_discriminator].
    change (2 ^ 16)%N with 65536%N in *. change (2 ^ 24)%N with 16777216%N. change (2 ^ 8)%N with 256%N in *.
    change (2 ^ 15)%N with 32768%N. change (2 ^ 7)%N with 128%N.
    assert (E2 : (((p * 16777216 + (dt * 65536 + (if r then 32768 else 0) + dst * 256 + 128) + a) / 128) mod 2 = 1)%N) by (destruct r; lia).
    rewrite E2. cbn. rewrite andb_false_r. reflexivity.
  Qed.
  Lemma ours_mine h : legal h -> ours h = true -> mine (can_id h) = true.
  Proof.
    intros L O. unfold ours in O. apply andb_true_iff in O as (O & Ed). apply andb_true_iff in O as (Es & Eo).
    apply optN_eqb_spec in Eo. apply N.eqb_eq in Ed. inversion L; subst; cbn in Es, Eo; try discriminate.
    - injection Eo as ->. cbn [h_dtid] in Ed. rewrite mine_head by assumption. apply N.eqb_eq. exact Ed.
    - injection Eo as <-. lia.
  Qed.
  Lemma decoded_ours types f fs t : by_id types -> from_frames types (f :: fs) = Ok t -> h_service (rx_header t) = false ->
    ours (rx_header t) = mine (f_id f).
  Proof.
    intros Hk E Hs.
    assert (Hh : rx_header t = set_message_id fresh_header (f_id f)).
    { unfold from_frames in E. apply bind_ok in E as (tid & _ & E). apply bind_ok in E as (u & _ & E).
      set (h := set_message_id fresh_header (f_id f)) in *. clearbody h. destruct (types (h_dtid h) (h_service h)) as [dt|] eqn:Et; [|discriminate].
      apply bind_ok in E as (p & _ & E). apply bind_ok in E as ([v rest] & _ & E). injection E as <-. cbn [rx_header].
      rewrite (Hk _ _ _ Et). destruct h; reflexivity. }
    destruct (decoded_source _ _ _ _ E) as (_ & Hf). rewrite Hs in Hf. symmetry in Hf.
    unfold ours. rewrite Hs, Hh. unfold mine. set (i := f_id f) in *. clearbody i. clear E Hs Hh Hk t fs f types.
    unfold set_message_id. rewrite Hf.
    assert (E2 : ((i / 128) mod 2 = 0)%N).
    { unfold flag in Hf. apply negb_false_iff, N.eqb_eq in Hf.
      assert (T : N.testbit i 7 = false).
      { assert (N.testbit (N.land i 0x80) 7 = false) by (rewrite Hf; reflexivity). rewrite N.land_spec in H.
        change (N.testbit 128 7) with true in H. rewrite andb_true_r in H. exact H. }
      rewrite N.testbit_eqb in T. change (2 ^ 7)%N with 128%N in T. apply N.eqb_neq in T.
      pose proof (N.mod_lt (i / 128) 2). lia. }
    rewrite E2. change 0x7F%N with (2 ^ 7 - 1)%N. rewrite land_mask. change (2 ^ 7)%N with 128%N.
    cbn [N.eqb negb andb].
    destruct (N.eqb_spec (i mod 128) 0) as [E0|E0]; cbn [h_service h_source h_dtid negb andb optN_eqb].
    - rewrite E0. destruct (N.eqb_spec 0 a); [lia|]. reflexivity.
    - change 0xFFFF%N with (2 ^ 16 - 1)%N. rewrite land_mask, N.shiftr_div_pow2. change (2 ^ 8)%N with 256%N.
      rewrite andb_true_r. reflexivity.
  Qed.

  Section Sender.
    Variable clk : nat -> Z.
    Variable beh : list nobs -> list (nop * bool) * outcome.
    Variable drv : list nobs -> list frame -> option exn.
    Variable status : list nobs -> value.
    Variable status_dt : datatype.
    Variable types types' : datatypes.
    Variable second : Z.
    Notation apply_nop := (apply_nop clk drv second).
    Notation apply_input := (apply_input clk beh drv status status_dt types second).

    Definition other (op : nop) : Prop := match op with NBroadcast dt _ _ _ => dt_id dt <> d | _ => True end.
    Definition same_out (b0 : list frame) (o0 : list bool) (i : option N) (l : list nobs) : Prop :=
      i = Some a /\ filter (of_type a d) (bus l) = b0 /\ outcomes d l = o0.
    Lemma outcomes_app l l' : outcomes d (l ++ l') = outcomes d l ++ outcomes d l'.
    Proof. apply flat_map_app. Qed.

    Lemma mine_frame f : of_type a d f = mine (f_id f).
    Proof. reflexivity. Qed.
    Lemma fine_frames h tid fs err f : sent_fine h tid fs err -> In f fs -> message_id h = Ok (f_id f).
    Proof.
      intros [[-> _]|(i & fd & body & rest & Hi & Hc & _)] Hf; [destruct Hf|].
      assert (Hf' : In f (fs ++ rest)) by (apply in_or_app; auto). apply In_nth_error in Hf' as (j & Hj).
      destruct (c_frame _ _ _ _ _ Hc j f Hj) as (E1 & _). subst i. exact Hi.
    Qed.
    Lemma fine_not_mine p svc r dest dt tid fs err : (svc = false -> dest = None /\ r = false) ->
      (svc = true \/ dt <> d) -> sent_fine (Header p svc r (Some a) dest dt None) tid fs err -> filter (of_type a d) fs = [].
    Proof.
      intros Hm Hd Hs. apply filter_none, Forall_forall. intros f Hf. rewrite mine_frame.
      apply (fine_frames _ _ _ _ _ Hs) in Hf. destruct (plain_id _ _ _ _ _ _ _ Ha Hm Hf) as (E & L). rewrite E.
      destruct svc; [apply service_not_mine; exact L|].
      destruct Hd as [Hd|Hd]; [discriminate|]. destruct (Hm eq_refl) as [-> ->]. inversion L; subst.
      rewrite mine_head by assumption. apply N.eqb_neq. exact Hd.
    Qed.

    Lemma no_service (r : bool) (dest : option N) : true = false -> dest = None /\ r = false.
    Proof. discriminate. Qed.
    (** One more transfer that is not of the type. *)
    Lemma same_send b0 o0 s session h tid fs err : n_id s = Some a -> filter (of_type a d) fs = [] ->
      match session with Some (x, None) => x <> d | _ => True end ->
      same_out b0 o0 (n_id s) (n_log s) -> same_out b0 o0 (n_id s) (n_log s ++ [OSend session h tid fs err]).
    Proof.
      intros _ F0 Hx (Hi & Hb & Ho). split; [exact Hi|]. split.
      - rewrite bus_app. cbn [bus]. rewrite app_nil_r, filter_app, Hb, F0, app_nil_r. reflexivity.
      - rewrite outcomes_app, Ho. cbn. destruct session as [[x [y|]]|]; try (rewrite !app_nil_r; reflexivity).
        destruct (N.eqb_spec x d); [contradiction|]. rewrite !app_nil_r. reflexivity.
    Qed.
    Lemma same_see b0 o0 i l o : is_call o -> same_out b0 o0 i l -> same_out b0 o0 i (l ++ [o]).
    Proof.
      intros Hc (Hi & Hb & Ho). split; [exact Hi|]. rewrite bus_app, outcomes_app.
      destruct o; try destruct Hc; cbn; rewrite !app_nil_r; split; assumption.
    Qed.
    Lemma same_respond b0 o0 s dt v dest tid prio canfd : same_out b0 o0 (n_id s) (n_log s) ->
      same_out b0 o0 (n_id (fst (respond drv s dt v dest tid prio canfd))) (n_log (fst (respond drv s dt v dest tid prio canfd))).
    Proof.
      intros H. unfold Node.respond. destruct (anonymous s); auto.
      destruct (send _ _ _ _ _ _ _ _) as [s' r] eqn:E. apply send_shape in E. destruct E as (fs & err & -> & Hs & Hr).
      pose proof (proj1 H) as Hi. cbn in Hs. unfold sent_header in Hs. cbn in Hs. rewrite Hi in Hs.
      assert (F0 : filter (of_type a d) fs = []).
      { apply (fine_not_mine _ _ _ _ _ _ _ _ (no_service _ _) (or_introl eq_refl) Hs). }
      destruct r; cbn [fst]; exact (same_send b0 o0 s None _ tid fs err Hi F0 I H).
    Qed.
    Lemma same_nop b0 o0 s op : other op -> same_out b0 o0 (n_id s) (n_log s) ->
      same_out b0 o0 (n_id (fst (apply_nop s op))) (n_log (fst (apply_nop s op))).
    Proof.
      intros Ho H. destruct op; cbn [Node.apply_nop]; try exact H.
      - unfold Node.request. destruct (anonymous s); auto. cbn [next_transfer_id].
        destruct (send _ _ _ _ _ _ _ _) as [s' r] eqn:E. apply send_shape in E. destruct E as (fs & err & -> & Hs & Hr).
        assert (H1 : same_out b0 o0 (n_id s) (n_log s ++ [OSend (Some (dt_id dt, Some dest)) (sent_header (Header (or_default prio) true true (n_id s) (Some dest) 0 None) dt)
          (match dget key_eqb (n_next s) (dt_id dt, Some dest) with Some t => t | None => 0%N end) fs err])).
        { pose proof (proj1 H) as Hi. unfold sent_header in Hs. cbn in Hs. rewrite Hi in Hs.
          exact (same_send b0 o0 s (Some (dt_id dt, Some dest)) _ _ fs err Hi (fine_not_mine _ _ _ _ _ _ _ _ (no_service _ _) (or_introl eq_refl) Hs) I H). }
        destruct r as [t|x0]; cbn [fst]; [|exact H1].
        destruct (message_id (tx_header t)) as [id|x0]; cbn [fst]; [|exact H1].
        cbn. apply same_see; [exact I|exact H1].
      - unfold Node.broadcast. destruct (anonymous s); auto. cbn [next_transfer_id].
        destruct (send _ _ _ _ _ _ _ _) as [s' r] eqn:E. apply send_shape in E. destruct E as (fs & err & -> & Hs & Hr).
        pose proof (proj1 H) as Hi. cbn in Hs. unfold sent_header in Hs. cbn in Hs. rewrite Hi in Hs.
        assert (F0 : filter (of_type a d) fs = []).
        { apply (fine_not_mine _ _ _ _ _ _ _ _ (fun _ => conj eq_refl eq_refl) (or_intror Ho) Hs). }
        destruct r; cbn [fst]; exact (same_send b0 o0 s (Some (dt_id dt, None)) _ _ fs err Hi F0 Ho H).
      - apply same_respond. exact H.
      - destruct (dget Nat.eqb (n_holders s) h); auto. destruct (cancel _ _); auto.
      - destruct (remove_entry _ _); auto.
      - unfold set_node_id. pose proof (proj1 H) as Hi. unfold anonymous. rewrite Hi.
        destruct (N.eqb_spec a 0); [lia|exact H].
    Qed.

    (** A broadcast of the type: the frames on the bus are the first ones. *)
    Definition part (sd : sending) (fs : list frame) (ok : bool) : Prop :=
      exists rest, sent sd (fs ++ rest) /\ if ok then rest = [] else rest <> [].
    Lemma send_frames_cut log rest : forall pre fs err, send_frames drv log pre rest = (fs, err) ->
      exists more, pre ++ rest = fs ++ more /\
        match err with None => more = [] | Some x => more <> [] /\ exists fs', drv log fs' = Some x end.
    Proof.
      induction rest as [|f rest IH]; cbn; intros pre fs err H.
      - injection H as <- <-. exists []. auto.
      - destruct (drv log pre) as [x|] eqn:Ex.
        + injection H as <- <-. exists (f :: rest). split; [reflexivity|]. split; [discriminate|]. exists pre. exact Ex.
        + apply IH in H. rewrite <- app_assoc in H. exact H.
    Qed.
    Lemma broadcast_tried s b : n_id s = Some a -> fit types' b ->
      let s' := fst (apply_nop s (broadcasting b)) in
      n_id s' = Some a /\ exists sd fs ok, carried a b sd /\ part sd fs ok /\ bus (n_log s') = bus (n_log s) ++ fs /\
        outcomes (dt_id (b_type b)) (n_log s') = outcomes (dt_id (b_type b)) (n_log s) ++ [ok] /\
        (ok = false -> exists l fs, drv l fs <> None).
    Proof.
      intros Hid F. cbn [broadcasting Node.apply_nop]. unfold Node.broadcast.
      assert (An : anonymous s = false).
      { unfold anonymous. rewrite Hid. destruct (N.eqb_spec a 0); [lia|reflexivity]. }
      rewrite An. cbn [next_transfer_id]. set (tid := match _ with Some t => t | None => 0%N end).
      set (s1 := set_next _ _). unfold Node.send. set (fd := match b_canfd b with Some c => c | None => n_canfd s1 end).
      set (sd := Sending (Header (or_default (b_prio b)) false false (Some a) None (dt_id (b_type b)) None) tid (b_type b) (b_value b) fd).
      assert (C : carried a b sd).
      { split; [|split; reflexivity]. exists (or_default (b_prio b)). split; [|reflexivity].
        destruct F as (_ & _ & _ & _ & _ & Fp). unfold or_default. destruct (b_prio b) as [p|]; [|lia]. destruct (N.eqb p 0); lia. }
      destruct (sent_received types' sd (carried_proper types' a b sd Ha F C)) as (fs & Hs & _).
      pose proof Hs as Hs0. destruct Hs as (t & padded & Em & Ef). cbn [sd s_header s_tid s_datatype s_value s_canfd] in Em.
      change (n_id s1) with (n_id s). rewrite Hid.
      assert (Em' : make_tx (Header (or_default (b_prio b)) false false (Some a) None 0 None) tid (b_type b) (b_value b) fd = Ok t).
      { rewrite <- Em. reflexivity. }
      rewrite Em', Ef. destruct (send_frames drv (n_log s1) [] fs) as [fs1 err] eqn:Es.
      destruct (send_frames_cut _ _ _ _ _ Es) as (more & E1 & E2). cbn [app] in E1. subst fs.
      assert (G : forall h o, let l := n_log s1 ++ [OSend (Some (dt_id (b_type b), None)) h tid fs1 o] in
        bus l = bus (n_log s) ++ fs1 /\
        outcomes (dt_id (b_type b)) l = outcomes (dt_id (b_type b)) (n_log s) ++ [match o with None => true | Some _ => false end]).
      { intros h o l. unfold l. rewrite bus_app. cbn [bus]. rewrite app_nil_r. split; [reflexivity|].
        unfold outcomes. rewrite flat_map_app. cbn. rewrite N.eqb_refl. reflexivity. }
      destruct err as [x|]; cbn [fst]; (split; [exact Hid|]); exists sd, fs1.
      - destruct E2 as (E2 & fs' & Ed). exists false. split; [exact C|]. split; [exists more; split; assumption|].
        cbn [n_log see]. split; [exact (proj1 (G _ (Some x)))|]. split; [exact (proj2 (G _ (Some x)))|].
        intros _. exists (n_log s1), fs'. rewrite Ed. discriminate.
      - exists true. split; [exact C|]. split; [exists more; split; assumption|].
        cbn [n_log see]. split; [exact (proj1 (G _ None))|]. split; [exact (proj2 (G _ None))|discriminate].
    Qed.

    Hypothesis Hbeh : leaves_type d beh.
    Hypothesis Hstatus : dt_id status_dt <> d.

    Lemma typed_tried fuel ins : Forall (fit types') (casts d ins) -> forall s, n_id s = Some a ->
      exists sds fss oks, Forall2 (carried a) (casts d ins) sds /\ Forall2 (fun sd p => part sd (fst p) (snd p)) sds (combine fss oks) /\
        length fss = length sds /\ length oks = length sds /\
        filter (of_type a d) (bus (n_log (fold_left (apply_input fuel) ins s))) = filter (of_type a d) (bus (n_log s)) ++ concat fss /\
        outcomes d (n_log (fold_left (apply_input fuel) ins s)) = outcomes d (n_log s) ++ oks /\
        (In false oks -> exists l fs, drv l fs <> None).
    Proof.
      induction ins as [|i ins IH]; intros F s Hi.
      - exists [], [], []. cbn. rewrite !app_nil_r. repeat split; try constructor. intros [].
      - cbn [fold_left]. destruct (casts d [i]) as [|b [|]] eqn:Ec.
        + (* something else *)
          assert (Ec' : casts d (i :: ins) = casts d ins).
          { change (casts d (i :: ins)) with (casts d ([i] ++ ins)). unfold casts at 1. rewrite flat_map_app. fold (casts d [i]). rewrite Ec. reflexivity. }
          rewrite Ec' in *.
          assert (K : same_out (filter (of_type a d) (bus (n_log s))) (outcomes d (n_log s)) (n_id (apply_input fuel s i)) (n_log (apply_input fuel s i))).
          { apply (keep_input clk beh drv status status_dt types second other).
            - intros l op c Hin. destruct op; cbn; auto. eapply Hbeh. exact Hin.
            - intros s1 op. apply same_nop.
            - intros s1 dt v dest tid prio canfd. apply same_respond.
            - apply same_see.
            - intros v p c. exact Hstatus.
            - destruct i as [op| | | |]; auto. destruct op; cbn; auto. cbn in Ec. destruct (N.eqb_spec (dt_id dt) d); [discriminate|assumption].
            - split; [exact Hi|]. split; reflexivity. }
          destruct K as (Ki & Kb & Ko). destruct (IH F _ Ki) as (sds & fss & oks & C & Sd & L1 & L2 & B & O & D). exists sds, fss, oks.
          rewrite B, Kb, O, Ko. auto 10.
        + assert (Ec' : casts d (i :: ins) = b :: casts d ins).
          { change (casts d (i :: ins)) with (casts d ([i] ++ ins)). unfold casts at 1. rewrite flat_map_app. fold (casts d [i]). rewrite Ec. reflexivity. }
          rewrite Ec' in *. apply Forall_cons_iff in F as (F1 & F2).
          assert (Ei : i = IOp (broadcasting b) /\ dt_id (b_type b) = d).
          { destruct i as [op| | | |]; try discriminate. destruct op; try discriminate. cbn in Ec. destruct (N.eqb_spec (dt_id dt) d); [|discriminate].
            injection Ec as <-. auto. }
          destruct Ei as (-> & Ed). cbn [Node.apply_input].
          destruct (broadcast_tried s b Hi F1) as (Hi1 & sd & fs & ok & C1 & S1 & B1 & O1 & D1). rewrite Ed in O1.
          destruct (IH F2 _ Hi1) as (sds & fss & oks & C & Sd & L1 & L2 & B & O & D). exists (sd :: sds), (fs :: fss), (ok :: oks).
          split; [constructor; assumption|]. split; [cbn [combine]; constructor; assumption|].
          split; [cbn; lia|]. split; [cbn; lia|]. split; [|split].
          * rewrite B, B1, filter_app, <- app_assoc. cbn [concat]. do 2 f_equal.
            apply filter_all, Forall_forall. intros f Hf. rewrite mine_frame.
            pose proof (carried_proper types' a b sd Ha F1 C1) as P1. destruct S1 as (rest & S1 & _). destruct (sent_carries types' sd _ P1 S1) as [body Hc].
            assert (Hf' : In f (fs ++ rest)) by (apply in_or_app; auto).
            apply In_nth_error in Hf' as (j & Hj). destruct (c_frame _ _ _ _ _ Hc j f Hj) as (E1 & _). rewrite E1.
            apply ours_mine; [apply (p_legal _ _ P1)|]. destruct C1 as ((p & _ & Eh) & _). rewrite Eh. unfold ours.
            cbn [h_service h_source h_dtid]. rewrite Ed, N.eqb_refl. cbn. rewrite N.eqb_refl. reflexivity.
          * rewrite O, O1, <- app_assoc. reflexivity.
          * intros [->|Hin]; [apply D1; reflexivity|apply D; exact Hin].
        + exfalso. destruct i as [op| | | |]; try discriminate. destruct op; try discriminate. cbn in Ec. destruct (_ =? _)%N; discriminate.
    Qed.
  End Sender.
End Typed.

Lemma typed_refused A insA insA1 a d out oks B ins0 ins1 :
  n_id (ran A insA) = Some a -> (1 <= a < 128)%N ->
  leaves_type d (st_beh A) -> dt_id (st_status_dt A) <> d -> Forall (fit (st_types B)) (casts d insA1) ->
  bus (n_log (ran A (insA ++ insA1))) = bus (n_log (ran A insA)) ++ out ->
  outcomes d (n_log (ran A (insA ++ insA1))) = outcomes d (n_log (ran A insA)) ++ oks ->
  st_catch B = true -> steady (st_beh B) ins1 -> (length (handlers_of (ran B ins0)) < st_fuel B)%nat -> by_id (st_types B) ->
  Forall2 same_frame (filter (of_type a d) out) (filter (of_type a d) (heard ins1)) ->
  length oks = length (casts d insA1) /\ (In false oks -> exists l fs, st_drv A l fs <> None) /\
  exists rs, Forall2 (conveys a) (those (casts d insA1) oks) rs /\
    filter (said_of a d) (handled (n_log (ran B (ins0 ++ ins1)))) =
    filter (said_of a d) (handled (n_log (ran B ins0))) ++ flat_map (to_all (handlers_of (ran B ins0))) rs.
Proof.
  intros Hid Ha Hb Hs F Eo Eoks Hc [S1 S2] Hf Hk Hsame.
  destruct (typed_tried a d Ha (st_clk A) (st_beh A) (st_drv A) (st_status A) (st_status_dt A) (st_types A) (st_types B) (st_second A) Hb Hs
    (st_fuel A) insA1 F (ran A insA) Hid) as (sds & fss & oks' & C & Sd & L1 & L2 & B' & O & D).
  assert (Er0 : fold_left (apply_input (st_clk A) (st_beh A) (st_drv A) (st_status A) (st_status_dt A) (st_types A) (st_second A) (st_fuel A)) insA1 (ran A insA)
    = ran A (insA ++ insA1)) by (unfold ran, node_history; rewrite fold_left_app; reflexivity).
  rewrite Er0, Eoks in O. apply app_inv_head in O. subst oks'.
  rewrite Er0, Eo, filter_app in B'. apply app_inv_head in B'. rewrite B' in Hsame.
  destruct (split_concat _ _ _ Hsame) as (received & Er & Hr). clear B' Er0 Eo Eoks.
  assert (Lc : length (casts d insA1) = length sds).
  { clear - C. induction C; cbn; congruence. }
  split; [congruence|]. split; [exact D|].
  assert (P : parts (st_types B) (ours a d) sds received oks).
  { assert (Ed : Forall (fun b => dt_id (b_type b) = d) (casts d insA1)).
    { apply Forall_forall. intros b Hin. apply in_flat_map in Hin as (i & _ & Hin). destruct i as [op| | | |]; try destruct Hin.
      destruct op; try destruct Hin. destruct (N.eqb_spec (dt_id dt) d); [|destruct Hin]. destruct Hin as [<-|[]]. assumption. }
    clear - C Sd Hr F Ha Ed L1 L2. revert fss oks received Sd Hr L1 L2. induction C as [|b sd bs sds C1 C IH]; intros fss oks received Sd Hr L1 L2.
    - destruct fss; [|discriminate]. destruct oks; [|discriminate]. inversion Hr; subst. constructor.
    - destruct fss as [|fs fss]; [discriminate|]. destruct oks as [|ok oks]; [discriminate|]. cbn in L1, L2.
      cbn [combine] in Sd. inversion Sd as [|? ? ? ? P1 P2]; subst. inversion Hr as [|? r ? rcv R1 R2]; subst.
      apply Forall_cons_iff in F as [F1 F2]. apply Forall_cons_iff in Ed as [Ed1 Ed2].
      assert (Q : parts (st_types B) (ours a d) sds rcv oks).
      { apply (IH F2 Ed2 fss oks); auto; lia. }
      destruct P1 as (rest & Hsent & Hrest). cbn [fst snd] in *.
      assert (Ho : ours a d (s_header sd) = true).
      { destruct C1 as ((p & _ & ->) & _). unfold ours. cbn [h_service h_source h_dtid]. rewrite Ed1, N.eqb_refl. cbn. rewrite N.eqb_refl. reflexivity. }
      pose proof (carried_proper _ a b sd Ha F1 C1) as Pr.
      destruct ok.
      + subst rest. rewrite app_nil_r in Hsent. constructor; [|exact Q]. split; [exact Pr|]. split; [exact Ho|]. exists fs. split; assumption.
      + apply parts_cut with (post := rest); [|exact Hrest|exact Q]. split; [exact Pr|]. split; [exact Ho|]. exists (fs ++ rest).
        split; [exact Hsent|]. apply Forall2_app; [exact R1|]. clear. induction rest; constructor; [repeat split|assumption]. }
  unfold ran in *. rewrite Hc in *.
  destruct (parts_heard (st_clk B) (st_beh B) (st_drv B) (st_status B) (st_status_dt B) (st_types B) (st_second B) S1
    (st_id B) (st_canfd B) (st_interval B) (st_info B) (st_fuel B) (mine a d) (ours a d)) with (sds := sds) (rcv := received) (oks := oks)
    (ins0 := ins0) (ins1 := ins1) as (rs & Hrs & Hh).
  - intros f fs t Ef. exact (decoded_ours a d Ha _ f fs t Hk Ef).
  - exact (ours_mine a d Ha).
  - exact P.
  - exact Hf.
  - exact S2.
  - exact Er.
  - exists rs. split.
    + assert (C' : Forall2 (carried a) (those (casts d insA1) oks) (those sds oks)).
      { clear - C L2. revert oks L2. induction C as [|b sd bs sds C1 C IH]; intros [|ok oks] L2; try discriminate; [constructor|].
        cbn in L2. specialize (IH oks ltac:(lia)). unfold those in *. cbn [combine filter snd]. destruct ok; cbn [map fst]; [constructor; assumption|exact IH]. }
      assert (Em : filter is_message (those sds oks) = those sds oks).
      { apply filter_all, Forall_forall. intros sd Hi. clear - C' Hi. induction C' as [|b s bs sds' C1 C IH]; [destruct Hi|].
        destruct Hi as [->|Hi]; [|exact (IH Hi)]. destruct C1 as ((p & _ & E) & _). unfold is_message. rewrite E. reflexivity. }
      rewrite Em in Hrs. clear - C' Hrs. revert rs Hrs. induction C' as [|b sd bs sds' ((p & _ & E) & Ed & Ev) C IH]; intros rs Hrs; inversion Hrs as [|? r ? rs' Fa Hrs']; subst.
      * constructor.
      * constructor; [|apply IH; assumption]. unfold conveys. rewrite (f_header _ _ Fa), E. cbn [h_service h_source].
        split; [reflexivity|]. split; [reflexivity|]. split; [rewrite (f_datatype _ _ Fa); exact Ed|].
        pose proof (f_content _ _ Fa) as Q. rewrite E, Ed, Ev in Q. exact Q.
    + assert (Es : forall l, filter (said_of a d) l = filter (said (ours a d)) l).
      { intros l. apply filter_ext. intros [hd r]. unfold said_of, said_by, said, ours. cbn [snd].
        destruct (h_service (rx_header r)); cbn; reflexivity. }
      rewrite !Es. exact Hh.
Qed.

Lemma those_all {X} (xs : list X) oks : ~ In false oks -> length oks = length xs -> those xs oks = xs.
Proof.
  revert oks. induction xs as [|x xs IH]; intros [|ok oks] H L; try discriminate; [reflexivity|].
  cbn in L. unfold those in *. cbn [combine filter snd]. destruct ok; [|exfalso; apply H; left; reflexivity].
  cbn [map fst]. f_equal. apply IH; [|lia]. intros I. apply H. right. exact I.
Qed.

Lemma typed_heard A insA insA1 a d out B ins0 ins1 :
  (forall l fs, st_drv A l fs = None) -> n_id (ran A insA) = Some a -> (1 <= a < 128)%N ->
  leaves_type d (st_beh A) -> dt_id (st_status_dt A) <> d -> Forall (fit (st_types B)) (casts d insA1) ->
  bus (n_log (ran A (insA ++ insA1))) = bus (n_log (ran A insA)) ++ out ->
  st_catch B = true -> steady (st_beh B) ins1 -> (length (handlers_of (ran B ins0)) < st_fuel B)%nat -> by_id (st_types B) ->
  Forall2 same_frame (filter (of_type a d) out) (filter (of_type a d) (heard ins1)) ->
  exists rs, Forall2 (conveys a) (casts d insA1) rs /\
    filter (said_of a d) (handled (n_log (ran B (ins0 ++ ins1)))) =
    filter (said_of a d) (handled (n_log (ran B ins0))) ++ flat_map (to_all (handlers_of (ran B ins0))) rs.
Proof.
  intros Hd Hid Ha Hb Hs F Eo Hc Hst Hf Hk Hsame.
  destruct (typed_tried a d Ha (st_clk A) (st_beh A) (st_drv A) (st_status A) (st_status_dt A) (st_types A) (st_types B) (st_second A) Hb Hs
    (st_fuel A) insA1 F (ran A insA) Hid) as (_ & _ & oks & _ & _ & _ & _ & _ & O & _).
  assert (Er0 : fold_left (apply_input (st_clk A) (st_beh A) (st_drv A) (st_status A) (st_status_dt A) (st_types A) (st_second A) (st_fuel A)) insA1 (ran A insA)
    = ran A (insA ++ insA1)) by (unfold ran, node_history; rewrite fold_left_app; reflexivity).
  rewrite Er0 in O.
  destruct (typed_refused A insA insA1 a d out oks B ins0 ins1 Hid Ha Hb Hs F Eo O Hc Hst Hf Hk Hsame) as (L & D & H).
  rewrite those_all in H; [exact H| |exact L]. intros I. destruct (D I) as (l & fs & E). apply E, Hd.
Qed.
