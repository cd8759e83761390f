(** Proofs about CAN over MAVLink. *)
From Coq Require Import Sorting.Sorted Sorting.Permutation.
From Verif.Base Require Import Prelude.
From Verif.Model Require Import CanFrame Packets Mavcan.
From Verif.Spec Require Import PacketSpec MavcanSpec.
From Verif.Proofs Require Import PacketFacts.
Local Open Scope Z_scope.

Lemma bus_snoc l e bus : bus_after bus (l ++ [e]) = match e with Take _ (BusNum b) => b | _ => bus_after bus l end.
Proof. revert bus. induction l as [|x l IH]; intros bus; [destruct e as [n [| |]|n r]; reflexivity|]. cbn [app bus_after]. destruct x as [n [| |]|n r]; apply IH. Qed.
Lemma target_snoc l e target : target_after target (l ++ [e]) =
  match e with Recv _ (Message system _) => if target_after target l =? 0 then system else target_after target l | _ => target_after target l end.
Proof. revert target. induction l as [|x l IH]; intros target; [destruct e as [n i|n [| |]]; reflexivity|]. cbn [app target_after]. destruct x as [n i|n [| |]]; apply IH. Qed.
Lemma filter_snoc l e f : filter_after f (l ++ [e]) = match e with Take _ (FilterList g) => g | _ => filter_after f l end.
Proof. revert f. induction l as [|x l IH]; intros f; [destruct e as [n [| |]|n r]; reflexivity|]. cbn [app filter_after]. destruct x as [n [| |]|n r]; apply IH. Qed.

Lemma given_snoc l e : frames_given (l ++ [e]) = frames_given l ++ match e with Take _ (Frame f) => [(l, f)] | _ => [] end.
Proof.
  assert (G : forall before, given_after before (l ++ [e]) = given_after before l ++ match e with Take _ (Frame f) => [(before ++ l, f)] | _ => [] end).
  { induction l as [|x l IH]; intros before; cbn [app given_after]; [now rewrite !app_nil_r|]. rewrite IH, <- !app_assoc. reflexivity. }
  apply (G []).
Qed.
Lemma run_snoc s l e : mav_run s (l ++ [e]) = mav_step (mav_run s l) e.
Proof. unfold mav_run. now rewrite fold_left_app. Qed.
Lemma can_app a b : can_sent (a ++ b) = can_sent a ++ can_sent b.
Proof. apply flat_map_app. Qed.
Lemma messages_snoc l e : messages (l ++ [e]) = messages l ++ messages [e].
Proof. apply flat_map_app. Qed.

(** ** One request *)
Definition request (s : mav) : list sending := Forward (v_target s) (v_bus s + 1) :: filter_message s.
Definition due (now : Z) (s : mav) : bool := v_last s + 1000000 <? now.
Lemma filter_no_frames s : can_sent (filter_message s) = [] /\ Forall (fun x => ~ is_forward x) (filter_message s).
Proof.
  unfold filter_message. destruct (v_filter s); [|split; [reflexivity|constructor]]. destruct (forallb _ _); split; try reflexivity; repeat constructor. intros [].
Qed.

Definition event_sends (s : mav) (e : mav_event) : list sending :=
  match e with
  | Take now (Frame f) =>
      (if (0 <=? v_bus s) && (v_bus s <? 256) then match mav_message (Z.to_N (v_bus s)) f with Some m => [CanSent (v_target s) m] | None => [] end else [])
      ++ if due now s then request s else []
  | Recv now NoMessage => if due now s then request s else []
  | _ => []
  end.
Definition due_at (s : mav) (e : mav_event) : Prop := checks e /\ due (time_of e) s = true.

Lemma enable_if_due_sends now s : v_readonly s = false -> v_sent (enable_if_due now s) = v_sent s ++ (if due now s then request s else []) /\
  v_last (enable_if_due now s) = (if due now s then now else v_last s) /\ v_bus (enable_if_due now s) = v_bus s /\ v_target (enable_if_due now s) = v_target s /\
  v_filter (enable_if_due now s) = v_filter s /\ v_readonly (enable_if_due now s) = false /\ v_received (enable_if_due now s) = v_received s.
Proof.
  intros R. unfold enable_if_due, enable_can_forward, due. rewrite R. destruct (v_last s + 1000000 <? now); cbn; [auto 10|]. rewrite app_nil_r. auto 10.
Qed.

Lemma step_sends s e : v_readonly s = false ->
  v_sent (mav_step s e) = v_sent s ++ event_sends s e /\ v_readonly (mav_step s e) = false /\
  v_bus (mav_step s e) = match e with Take _ (BusNum b) => b | _ => v_bus s end /\
  v_target (mav_step s e) = match e with Recv _ (Message system _) => if v_target s =? 0 then system else v_target s | _ => v_target s end /\
  v_filter (mav_step s e) = match e with Take _ (FilterList g) => g | _ => v_filter s end /\
  v_last (mav_step s e) = match e with Take now (Frame _) | Recv now NoMessage => if due now s then now else v_last s | _ => v_last s end.
Proof.
  intros R. destruct e as [now [f|b|g]|now [| |system m]]; cbn [mav_step mav_recv event_sends].
  - unfold take. rewrite R.
    set (s1 := if _ && _ then _ else s).
    assert (E : v_readonly s1 = false /\ v_sent s1 = v_sent s ++ (if (0 <=? v_bus s) && (v_bus s <? 256) then match mav_message (Z.to_N (v_bus s)) f with Some m => [CanSent (v_target s) m] | None => [] end else [])
      /\ v_bus s1 = v_bus s /\ v_target s1 = v_target s /\ v_filter s1 = v_filter s /\ v_last s1 = v_last s).
    { unfold s1. destruct ((0 <=? v_bus s) && (v_bus s <? 256)); [destruct (mav_message _ f)|]; cbn; rewrite ?app_nil_r; auto 10. }
    destruct E as (E1 & E2 & E3 & E4 & E5 & E6). destruct (enable_if_due_sends now s1 E1) as (D1 & D2 & D3 & D4 & D5 & D6 & _).
    rewrite D1, D2, D3, D4, D5, E2. unfold due, request, filter_message. rewrite E3, E4, E5, E6, <- app_assoc. auto 10.
  - unfold take. rewrite R. cbn. rewrite app_nil_r. auto 10.
  - unfold take. rewrite R. cbn. rewrite app_nil_r. auto 10.
  - rewrite app_nil_r. auto 10.
  - destruct (enable_if_due_sends now s R) as (D1 & D2 & D3 & D4 & D5 & D6 & _). auto 10.
  - cbn. rewrite app_nil_r. auto 10.
Qed.
Lemma sends_forward s e : Exists is_forward (event_sends s e) <-> due_at s e.
Proof.
  assert (Q : forall l, Forall (fun x => ~ is_forward x) l -> ~ Exists is_forward l).
  { intros l F X. rewrite Forall_forall in F. apply Exists_exists in X as (x & I & P). exact (F x I P). }
  unfold due_at. destruct e as [now [f|b|g]|now [| |system m]]; cbn [event_sends checks time_of]; split; try (intros X; inversion X; fail); try (intros ([] & _); fail).
  - intros X. apply Exists_app in X as [X|X].
    + exfalso. revert X. apply Q. destruct (_ && _); [destruct (mav_message _ f)|]; repeat constructor. intros [].
    + destruct (due now s); [auto|inversion X].
  - intros (_ & ->). apply Exists_app. right. constructor. exact I.
  - destruct (due now s); [auto|intros X; inversion X].
  - intros (_ & ->). constructor. exact I.
Qed.
Lemma sends_request s e : Exists is_forward (event_sends s e) -> exists front, event_sends s e = front ++ request s /\ Forall (fun x => ~ is_forward x) front.
Proof.
  intros X. apply sends_forward in X as (C & D). destruct e as [now [f|b|g]|now [| |system m]]; try contradiction C; cbn [event_sends time_of] in *; rewrite D.
  - eexists. split; [reflexivity|]. destruct (_ && _); [destruct (mav_message _ f)|]; repeat constructor. intros [].
  - exists []. split; [reflexivity|constructor].
Qed.

(** ** Histories *)
Section History.
  Variables bus target start : Z.
  Notation run l := (mav_run (mav_new bus target false start) l).

  Lemma run_state l : v_readonly (run l) = false /\ v_bus (run l) = bus_after bus l /\ v_target (run l) = target_after target l /\ v_filter (run l) = filter_after None l.
  Proof.
    induction l as [|e l (R & B & T & F)] using rev_ind; [repeat split; reflexivity|]. rewrite run_snoc, bus_snoc, target_snoc, filter_snoc.
    destruct (step_sends (run l) e R) as (_ & R2 & B2 & T2 & F2 & _). rewrite R2, B2, T2, F2, B, T, F. auto.
  Qed.
  Lemma run_sends l e : v_sent (run (l ++ [e])) = v_sent (run l) ++ event_sends (run l) e.
  Proof. rewrite run_snoc. apply step_sends, run_state. Qed.
  Lemma added_iff l e new : added bus target start l e new <-> new = event_sends (run l) e.
  Proof.
    unfold added. rewrite run_sends. split; [intros H; apply app_inv_head in H; auto|intros ->; reflexivity].
  Qed.

  Lemma all_sent l : bus_ok bus -> buses_ok l -> frames_ok l -> Forall2 (carries bus target) (frames_given l) (can_sent (v_sent (run l))).
  Proof.
    intros B. induction l as [|e l IH] using rev_ind; intros BS FS; [constructor|].
    rewrite given_snoc, run_sends, can_app. apply Forall2_app.
    { apply IH; [intros now b I; apply (BS now b); apply in_or_app; auto|intros now f I; apply (FS now f); apply in_or_app; auto]. }
    assert (BO : bus_ok (bus_after bus l)).
    { clear IH FS. assert (G : forall b, bus_ok b -> buses_ok l -> bus_ok (bus_after b l)).
      { clear. induction l as [|x l IH]; intros b B BS; [exact B|]. assert (BS' : buses_ok l) by (intros n c I; apply (BS n c); now right).
        cbn [bus_after]. destruct x as [n [f|c|g]|n r]; apply IH; auto. apply (BS n c). now left. }
      apply G; [exact B|]. intros n c I. apply (BS n c). apply in_or_app. auto. }
    destruct (run_state l) as (_ & SB & ST & _).
    assert (Q : forall b : bool, can_sent (if b then request (run l) else []) = []) by (intros []; [apply (filter_no_frames (run l))|reflexivity]).
    destruct e as [now [f|b|g]|now [| |system m]]; cbn [event_sends]; rewrite ?Q; try constructor.
    rewrite can_app, Q, app_nil_r, SB, ST.
    assert (OB : on_bus f) by (apply (FS now f); apply in_or_app; right; now left).
    destruct BO as (B1 & B2). assert (X : (0 <=? bus_after bus l) && (bus_after bus l <? 256) = true) by lia. rewrite X.
    destruct (mav_roundtrip (Z.to_N (bus_after bus l)) f 0 OB) as (m & E & M1 & M2 & M3). rewrite E.
    constructor; [|constructor]. unfold carries. cbn [fst snd]. split; [reflexivity|]. split; [rewrite M1; lia|].
    split; [destruct M3 as (_ & _ & _ & M3 & _); exact M3|]. split; [exact M2|].
    intros now'. destruct (mav_roundtrip (Z.to_N (bus_after bus l)) f now' OB) as (m' & E' & _ & _ & M4). congruence.
  Qed.

  Lemma all_received l : v_received (run l) = map (fun x => mav_parse (fst x) (snd x)) (messages l).
  Proof.
    induction l as [|e l IH] using rev_ind; [reflexivity|]. rewrite run_snoc, messages_snoc, map_app, <- IH.
    destruct (run_state l) as (R & _). destruct e as [now [f|b|g]|now [| |system m]]; cbn [mav_step mav_recv messages flat_map map app]; rewrite ?app_nil_r.
    - unfold take. rewrite R. set (s1 := if _ && _ then _ else _). assert (E : v_readonly s1 = false /\ v_received s1 = v_received (run l)).
      { unfold s1. destruct (_ && _); [destruct (mav_message _ f)|]; auto. }
      destruct E as (E1 & E2). destruct (enable_if_due_sends now s1 E1) as (_ & _ & _ & _ & _ & _ & D). congruence.
    - unfold take. now rewrite R.
    - unfold take. now rewrite R.
    - reflexivity.
    - apply (enable_if_due_sends now (run l) R).
    - reflexivity.
  Qed.

  (** The last request. *)
  Lemma last_requested l : requested_at bus target start l (v_last (run l)).
  Proof.
    induction l as [|e l IH] using rev_ind; [left; reflexivity|].
    destruct (run_state l) as (R & _). destruct (step_sends (run l) e R) as (_ & _ & _ & _ & _ & L). rewrite run_snoc, L.
    assert (Old : requested_at bus target start (l ++ [e]) (v_last (run l))).
    { destruct IH as [IH|(a & x & b & new & -> & A & F & T)]; [left; exact IH|]. right. exists a, x, (b ++ [e]), new. rewrite <- app_assoc. auto. }
    assert (New : due_at (run l) e -> requested_at bus target start (l ++ [e]) (time_of e)).
    { intros D. right. exists l, e, [], (event_sends (run l) e). split; [reflexivity|]. split; [now apply added_iff|]. split; [now apply sends_forward|reflexivity]. }
    destruct e as [now [f|b|g]|now [| |system m]]; try exact Old; destruct (due now (run l)) eqn:D; try exact Old; apply New; (split; [exact I|exact D]).
  Qed.
  Lemma in_order_app a b : in_order start (a ++ b) -> in_order start a.
  Proof.
    unfold in_order. rewrite map_app. intros S. apply StronglySorted_Sorted. apply Sorted_StronglySorted in S; [|intros x y z; lia].
    change (start :: map time_of a ++ map time_of b) with ((start :: map time_of a) ++ map time_of b) in S.
    revert S. generalize (start :: map time_of a). intros l. induction l as [|x l IH]; intros S; [constructor|]. apply StronglySorted_inv in S as (S & F).
    constructor; [apply IH, S|]. rewrite Forall_app in F. apply F.
  Qed.
  Lemma order_last l e : in_order start (l ++ [e]) -> Forall (fun t => t <= time_of e) (start :: map time_of l).
  Proof.
    unfold in_order. rewrite map_app. cbn [map]. intros S. apply Sorted_StronglySorted in S; [|intros x y z; lia].
    change (start :: map time_of l ++ [time_of e]) with ((start :: map time_of l) ++ [time_of e]) in S. revert S. generalize (start :: map time_of l). intros k.
    induction k as [|x k IH]; intros S; [constructor|]. apply StronglySorted_inv in S as (S & F). constructor; [|apply IH, S].
    rewrite Forall_forall in F. apply F. apply in_or_app. right. now left.
  Qed.
  Lemma none_later l t : in_order start l -> requested_at bus target start l t -> t <= v_last (run l).
  Proof.
    revert t. induction l as [|e l IH] using rev_ind; intros t O Q.
    - destruct Q as [->|(a & x & b & new & E & _)]; [cbn; lia|destruct a; discriminate].
    - assert (O' := in_order_app _ _ O). assert (OL := order_last _ _ O).
      destruct (run_state l) as (R & _). destruct (step_sends (run l) e R) as (_ & _ & _ & _ & _ & L). rewrite run_snoc, L.
      assert (Mono : v_last (run l) <= time_of e).
      { destruct (last_requested l) as [->|(a & x & b & new & -> & _ & _ & ->)].
        - apply Forall_inv in OL. exact OL.
        - apply Forall_inv_tail in OL. rewrite Forall_forall in OL. apply OL, in_map, in_or_app. right. now left. }
      assert (Bound : v_last (run l) <= match e with Take now (Frame _) | Recv now NoMessage => if due now (run l) then now else v_last (run l) | _ => v_last (run l) end).
      { destruct e as [now [f|b|g]|now [| |system m]]; cbn [time_of] in Mono; try lia; destruct (due now (run l)); lia. }
      destruct Q as [->|(a & x & b & new & E & A & F & ->)]; [specialize (IH start O' (or_introl eq_refl)); lia|].
      destruct b as [|y b] using rev_ind.
      + apply app_inj_tail in E as (-> & ->). apply added_iff in A. subst new. apply sends_forward in F as (C & D).
        destruct x as [now [f|b|g]|now [| |system m]]; try contradiction C; cbn [time_of] in D |- *; rewrite D; lia.
      + clear IHb. rewrite app_comm_cons, app_assoc in E. apply app_inj_tail in E as (E & ->). enough (time_of x <= v_last (run l)) by lia.
        apply IH; [exact O'|]. right. exists a, x, b, new. auto.
  Qed.

  Lemma checked l e : checks e -> exists t, requested_at bus target start (l ++ [e]) t /\ time_of e - 1000000 <= t.
  Proof.
    intros C. exists (v_last (run (l ++ [e]))). split; [apply last_requested|].
    destruct (run_state l) as (R & _). destruct (step_sends (run l) e R) as (_ & _ & _ & _ & _ & L). rewrite run_snoc, L.
    destruct e as [now [f|b|g]|now [| |system m]]; try contradiction C; unfold due; cbn [time_of]; dif; lia.
  Qed.
  Lemma request_right l e new : in_order start (l ++ [e]) -> added bus target start l e new -> Exists is_forward new ->
    requests bus target l new /\ checks e /\ forall t, requested_at bus target start l t -> t + 1000000 < time_of e.
  Proof.
    intros O A F. apply added_iff in A. subst new. destruct (run_state l) as (_ & B & T & _).
    destruct (sends_request _ _ F) as (front & E & _). apply sends_forward in F as (C & D). split; [|split; [exact C|]].
    - unfold requests. rewrite E. apply in_or_app. right. left. now rewrite B, T.
    - intros t Q. apply none_later in Q; [|exact (in_order_app _ _ O)]. unfold due in D. lia.
  Qed.

  (** ** Filters *)
  Lemma insert_perm x l : Permutation (insert x l) (x :: l).
  Proof.
    induction l as [|y l IH]; cbn; [reflexivity|]. destruct (x <=? y); [reflexivity|]. rewrite IH. apply perm_swap.
  Qed.
  Lemma sorted_perm l : Permutation (sorted l) l.
  Proof. induction l as [|x l IH]; cbn; [reflexivity|]. fold (sorted l). rewrite insert_perm. now constructor. Qed.
  Lemma insert_sorted x l : Sorted Z.le l -> Sorted Z.le (insert x l).
  Proof.
    induction l as [|y l IH]; intros S; cbn; [repeat constructor|]. destruct (Z.leb_spec x y).
    - constructor; [exact S|]. constructor. exact H.
    - apply Sorted_inv in S as (S & R). constructor; [apply IH, S|]. destruct l as [|z l]; cbn; [constructor; lia|].
      apply HdRel_inv in R. destruct (x <=? z); constructor; lia.
  Qed.
  Lemma sorted_sorted l : Sorted Z.le (sorted l).
  Proof. induction l as [|x l IH]; cbn; [constructor|]. apply insert_sorted, IH. Qed.

  Lemma filter_right l e new ids : added bus target start l e new -> Exists is_forward new -> filter_after None l = Some ids ->
    (length ids <= 16)%nat -> Forall (fun i => 0 <= i < 65536) ids ->
    exists front num out, new = front ++ [Forward (target_after target l) (bus_after bus l + 1); Filter (target_after target l) (bus_after bus l + 1) num out] /\ filter_of ids num out.
  Proof.
    intros A F FA L R. apply added_iff in A. subst new. destruct (run_state l) as (_ & B & T & FF).
    destruct (sends_request _ _ F) as (front & E & _). rewrite E. unfold request, filter_message. rewrite FF, FA, B, T, firstn_all2 by exact L.
    assert (P := sorted_perm ids).
    replace (forallb _ (sorted ids)) with true.
    2: { symmetry. apply forallb_forall. intros i I. apply (Permutation_in _ P) in I. rewrite Forall_forall in R. specialize (R i I). lia. }
    rewrite (Permutation_length P). exists front. eexists. eexists. split; [reflexivity|]. exists (sorted ids). split; [exact P|]. split; [apply sorted_sorted|auto].
  Qed.
End History.
