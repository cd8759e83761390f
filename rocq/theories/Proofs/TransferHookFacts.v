(** Facts of the transfer hooks. *)
From Verif.Base Require Import Prelude.
From Verif.Model Require Import Hooks.
From Verif.Proofs Require Import HookFacts.
From Verif.Model Require Import Types Codec MsgId Frames TransferManager TransferHooks.
From Verif.Spec Require Import TransferHookSpec.

Definition numbered (s : monitored) : Prop :=
  NoDup (tm_hooks s) /\ Forall (fun h => (h < tm_next s)%nat) (tm_hooks s) /\
  Forall (fun e => match e with THook h _ => (h < tm_next s)%nat | _ => True end) (tm_log s).
Definition is_hook (x : shown) (e : tevent) : Prop := exists h, e = THook h x.

Lemma numbered_add s : numbered s -> numbered (add_transfer_hook s).
Proof.
  intros (A & B & C). split; [|split]; cbn.
  - assert (X : ~ In (tm_next s) (tm_hooks s)) by (intros J; apply (proj1 (Forall_forall _ _) B) in J; lia).
    apply NoDup_rev in A. rewrite <- (rev_involutive (tm_hooks s ++ _)). apply NoDup_rev. rewrite rev_app_distr. cbn.
    constructor; [|exact A]. intros J. apply X. apply in_rev. exact J.
  - apply Forall_app. split; [|repeat constructor]. eapply Forall_impl; [|exact B]. cbn. lia.
  - eapply Forall_impl; [|exact C]. intros [h x|f|t]; cbn; lia.
Qed.
Lemma numbered_remove s h s' : numbered s -> remove_transfer_hook s h = Ok s' -> numbered s'.
Proof.
  unfold remove_transfer_hook. destruct (existsb _ _); [|discriminate]. intros (A & B & C) E. injection E as <-.
  split; [|split]; cbn; [apply remove_first_nodup; exact A| |exact C].
  apply Forall_forall. intros x J. apply remove_first_in in J. exact (proj1 (Forall_forall _ _) B x J).
Qed.
Lemma numbered_ops ops : forall s, numbered s -> numbered (hook_ops s ops).
Proof.
  induction ops as [|[|h] ops IH]; intros s H; cbn; [exact H|apply IH, numbered_add, H|].
  destruct (remove_transfer_hook s h) eqn:E; [|exact H]. apply IH. eapply numbered_remove; eauto.
Qed.
Lemma numbered_note s e : numbered s -> match e with THook h _ => In h (tm_hooks s) | _ => True end -> numbered (note s e).
Proof.
  intros (A & B & C) H. split; [exact A|]. split; [exact B|]. cbn. apply Forall_app. split; [exact C|]. constructor; [|constructor].
  destruct e as [h x|f|t]; [|exact I|exact I]. exact (proj1 (Forall_forall _ _) B h H).
Qed.

Lemma ops_log ops : forall s, tm_log (hook_ops s ops) = tm_log s /\ tm_manager (hook_ops s ops) = tm_manager s.
Proof.
  induction ops as [|[|h] ops IH]; intros s; cbn; [split; reflexivity|destruct (IH (add_transfer_hook s)) as (A & B); split; [exact A|exact B]|].
  unfold remove_transfer_hook. destruct (existsb _ _); [|split; reflexivity].
  destruct (IH (with_list s (remove_first h (tm_hooks s)) (tm_next s))) as (A & B). split; [exact A|exact B].
Qed.
Lemma ops_extra ops : forall s, (forall h, ~ In (HRemove h) ops) ->
  exists extra, tm_hooks (hook_ops s ops) = tm_hooks s ++ extra.
Proof.
  induction ops as [|[|h] ops IH]; intros s H; cbn.
  - exists []. rewrite app_nil_r. reflexivity.
  - destruct (IH (add_transfer_hook s)) as (extra & C); [intros h J; apply (H h); right; exact J|].
    exists (tm_next s :: extra). rewrite C. cbn. rewrite <- app_assoc. reflexivity.
  - exfalso. apply (H h). left. reflexivity.
Qed.

Section Facts.
  Variable beh : list tevent -> list hook_op * bool.
  Variable drv : list tevent -> option exn.
  Variable types : datatypes.

  Lemma numbered_call fuel : forall s i x s', numbered s -> call_hooks beh fuel s i x = Some s' -> numbered s'.
  Proof.
    induction fuel as [|fuel IH]; intros s i x s' H; cbn [call_hooks]; [discriminate|].
    destruct (nth_error (tm_hooks s) i) as [h|] eqn:E; [|intros X; injection X as <-; exact H].
    cbn zeta. destruct (beh _) as [ops b]. apply IH. apply numbered_ops. apply numbered_note; [exact H|].
    eapply nth_error_In; exact E.
  Qed.
  Lemma call_log fuel : forall s i x s', call_hooks beh fuel s i x = Some s' ->
    tm_manager s' = tm_manager s /\ exists calls, tm_log s' = tm_log s ++ calls /\ Forall (is_hook x) calls.
  Proof.
    induction fuel as [|fuel IH]; intros s i x s'; cbn [call_hooks]; [discriminate|].
    destruct (nth_error (tm_hooks s) i) as [h|] eqn:E.
    - cbn zeta. destruct (beh _) as [ops b]. intros X. apply IH in X as (M & calls & L & F).
      destruct (ops_log ops (note s (THook h x))) as (A & B). split; [rewrite M, B; reflexivity|].
      exists (THook h x :: calls). rewrite L, A. cbn. rewrite <- app_assoc. split; [reflexivity|].
      constructor; [exists h; reflexivity|exact F].
    - intros X. injection X as <-. split; [reflexivity|]. exists []. rewrite app_nil_r. split; [reflexivity|constructor].
  Qed.
  Lemma call_all fuel : leaves_hooks beh -> forall s i x s', call_hooks beh fuel s i x = Some s' ->
    tm_log s' = tm_log s ++ map (fun h => THook h x) (skipn i (tm_hooks s')) /\
    exists extra, tm_hooks s' = tm_hooks s ++ extra.
  Proof.
    intros NR. induction fuel as [|fuel IH]; intros s i x s'; cbn [call_hooks]; [discriminate|].
    destruct (nth_error (tm_hooks s) i) as [h|] eqn:E.
    - cbn zeta. destruct (beh _) as [ops b] eqn:B. intros X. apply IH in X as (A & extra & C).
      destruct (ops_log ops (note s (THook h x))) as (A1 & _).
      destruct (ops_extra ops (note s (THook h x))) as (extra1 & C1).
      { intros h' J. apply (NR (tm_log (note s (THook h x))) h'). rewrite B. exact J. }
      cbn [tm_hooks tm_log note] in *. split.
      + rewrite A, A1, <- app_assoc. f_equal. rewrite (skipn_nth (tm_hooks s') i h); [reflexivity|].
        rewrite C, C1, <- app_assoc. rewrite nth_error_app1; [exact E|]. apply nth_error_Some. congruence.
      + exists (extra1 ++ extra). rewrite C, C1, <- app_assoc. reflexivity.
    - intros X. injection X as <-. apply nth_error_None in E. rewrite skipn_all2 by exact E. cbn. rewrite app_nil_r.
      split; [reflexivity|]. exists []. rewrite app_nil_r. reflexivity.
  Qed.
  Lemma ops_fewer ops : forall s, ~ In HAdd ops -> (length (tm_hooks (hook_ops s ops)) <= length (tm_hooks s))%nat.
  Proof.
    induction ops as [|[|h] ops IH]; intros s H; cbn; [lia|exfalso; apply H; left; reflexivity|].
    destruct (remove_transfer_hook s h) as [s'|] eqn:E; [|lia].
    assert (length (tm_hooks s') <= length (tm_hooks s))%nat as L.
    { unfold remove_transfer_hook in E. destruct (existsb _ _); [|discriminate]. injection E as <-. cbn.
      clear. induction (tm_hooks s) as [|x l IH]; cbn; [lia|]. destruct (Nat.eqb x h); cbn; lia. }
    assert (~ In HAdd ops) as O by (intros J; apply H; right; exact J). specialize (IH s' O). lia.
  Qed.
  Lemma calls_end : adds_none beh -> forall fuel s i x, (length (tm_hooks s) - i < fuel)%nat ->
    exists s', call_hooks beh fuel s i x = Some s'.
  Proof.
    intros NA. induction fuel as [|fuel IH]; intros s i x L; [lia|]. cbn [call_hooks].
    destruct (nth_error (tm_hooks s) i) as [h|] eqn:E; [|eexists; reflexivity].
    assert (i < length (tm_hooks s))%nat as Li by (apply nth_error_Some; congruence). cbn zeta.
    destruct (beh _) as [ops b] eqn:B. apply IH.
    pose proof (ops_fewer ops (note s (THook h x))) as O. cbn [tm_hooks note] in O.
    assert (~ In HAdd ops) as NO by (specialize (NA (tm_log (note s (THook h x)))); rewrite B in NA; exact NA).
    specialize (O NO). lia.
  Qed.

  Lemma give_log fs : forall s s' r, give drv s fs = (s', r) ->
    tm_hooks s' = tm_hooks s /\ tm_next s' = tm_next s /\ tm_manager s' = tm_manager s /\
    exists a b, fs = a ++ b /\ tm_log s' = tm_log s ++ map TSent a /\ (r = Ok tt -> b = []).
  Proof.
    induction fs as [|f fs IH]; intros s s' r; cbn [give].
    - intros E. injection E as <- <-. do 3 (split; [reflexivity|]). exists [], []. cbn. rewrite app_nil_r. repeat split.
    - destruct (drv _) as [x|].
      + intros E. injection E as <- <-. do 3 (split; [reflexivity|]). exists [], (f :: fs). cbn. rewrite app_nil_r.
        split; [reflexivity|]. split; [reflexivity|]. discriminate.
      + intros E. apply IH in E as (A & B & C & a & b & D & L & R). do 3 (split; [assumption|]).
        exists (f :: a), b. rewrite D, L. cbn. rewrite <- app_assoc. repeat split. exact R.
  Qed.
  Lemma give_numbered fs : forall s, numbered s -> numbered (fst (give drv s fs)).
  Proof.
    induction fs as [|f fs IH]; intros s H; cbn [give]; [exact H|]. destruct (drv _); [exact H|].
    apply IH. apply numbered_note; [exact H|exact I].
  Qed.

  Lemma shown_app h a b : shown_to h (a ++ b) = shown_to h a ++ shown_to h b.
  Proof. apply flat_map_app. Qed.
  Lemma shown_calls h x l : NoDup l -> In h l -> shown_to h (map (fun k => THook k x) l) = [x].
  Proof.
    induction l as [|y l IH]; intros N J; [destruct J|]. apply NoDup_cons_iff in N as (A & B). cbn.
    destruct (Nat.eqb y h) eqn:E.
    - apply Nat.eqb_eq in E. subst y.
      assert (Z : shown_to h (map (fun k => THook k x) l) = []); [|unfold shown_to in Z; rewrite Z; reflexivity].
      clear -A. induction l as [|y l IH]; [reflexivity|]. cbn in *.
      replace (Nat.eqb y h) with false by (symmetry; apply Nat.eqb_neq; intros E; apply A; left; congruence).
      apply IH. intros J. apply A. right. exact J.
    - apply IH; [exact B|]. destruct J as [J|J]; [|exact J]. apply Nat.eqb_neq in E. congruence.
  Qed.
  Lemma shown_sent h a : shown_to h (map TSent a) = [].
  Proof. induction a as [|f a IH]; [reflexivity|exact IH]. Qed.
  Lemma call_shown fuel h s x s' : leaves_hooks beh -> numbered s -> In h (tm_hooks s) ->
    call_hooks beh fuel s 0 x = Some s' ->
    shown_to h (tm_log s') = shown_to h (tm_log s) ++ [x] /\ In h (tm_hooks s') /\ numbered s' /\ tm_manager s' = tm_manager s.
  Proof.
    intros NR W J E. destruct (call_all fuel NR s 0 x s' E) as (L & extra & C).
    pose proof (numbered_call fuel s 0 x s' W E) as W'.
    assert (J' : In h (tm_hooks s')) by (rewrite C; apply in_app_iff; left; exact J).
    split; [|split; [exact J'|split; [exact W'|exact (proj1 (call_log fuel s 0 x s' E))]]].
    rewrite L, shown_app. f_equal. apply shown_calls; [exact (proj1 W')|exact J'].
  Qed.

  Lemma step_flow fuel h s a s' r : leaves_hooks beh -> numbered s -> In h (tm_hooks s) -> a <> DoRemove h ->
    tstep beh drv types fuel s a = Some (s', r) ->
    numbered s' /\ In h (tm_hooks s') /\
    forall rest, shown_to h (tm_log s) ++ flow types (tm_manager s) (a :: rest) =
                 shown_to h (tm_log s') ++ flow types (tm_manager s') rest.
  Proof.
    intros NR W J NE. destruct a as [hd tid dt v c|x f now| |h'].
    - cbn [tstep flow]. destruct (make_tx hd tid dt v c) as [t|e].
      2:{ intros E. injection E as <- <-. split; [exact W|]. split; [exact J|]. reflexivity. }
      destruct (call_hooks beh fuel s 0 (Outgoing t)) as [s1|] eqn:EC; [|discriminate].
      destruct (call_shown fuel h s _ s1 NR W J EC) as (L & J1 & W1 & M1).
      destruct (to_frames t) as [[fs t']|e].
      + intros E. assert (E' : give drv s1 fs = (s', r)) by congruence.
        pose proof (give_numbered fs s1 W1) as W2. rewrite E' in W2.
        destruct (give_log fs s1 s' r E') as (A & B & C & a & b & D & LL & _).
        split; [exact W2|]. split; [rewrite A; exact J1|]. intros rest. rewrite LL, shown_app, shown_sent, app_nil_r, L, C, M1.
        rewrite <- app_assoc. reflexivity.
      + intros E. injection E as <- <-. split; [exact W1|]. split; [exact J1|]. intros rest. rewrite L, M1, <- app_assoc. reflexivity.
    - destruct x; cbn [tstep flow negb].
      2:{ intros E. injection E as <- <-. split; [exact W|]. split; [exact J|]. reflexivity. }
      destruct (receive_frame (tm_manager s) f now) as [m done]. cbn zeta.
      assert (W0 : numbered (with_manager s m)) by exact W.
      destruct done as [[|f0 fs]|].
      + intros E. injection E as <- <-. split; [exact W|]. split; [exact J|]. reflexivity.
      + destruct (from_frames types (f0 :: fs)) as [t|e].
        * destruct (call_hooks beh fuel (with_manager s m) 0 (Incoming t)) as [s1|] eqn:EC; [|discriminate].
          destruct (call_shown fuel h _ _ s1 NR W0 J EC) as (L & J1 & W1 & M1).
          intros E. injection E as <- <-. split; [apply numbered_note; [exact W1|exact I]|]. split; [exact J1|].
          intros rest. cbn [tm_log note tm_manager]. rewrite shown_app, L, M1. cbn [tm_log tm_manager with_manager]. cbn [shown_to flat_map]. rewrite app_nil_r, <- app_assoc. reflexivity.
        * intros E. injection E as <- <-. split; [exact W|]. split; [exact J|]. reflexivity.
      + intros E. injection E as <- <-. split; [exact W|]. split; [exact J|]. reflexivity.
    - cbn [tstep]. intros E. injection E as <- <-. split; [apply numbered_add; exact W|].
      split; [apply in_app_iff; left; exact J|reflexivity].
    - cbn [tstep flow]. destruct (remove_transfer_hook s h') as [s1|e] eqn:ER.
      + intros E. injection E as <- <-. split; [eapply numbered_remove; eauto|]. unfold remove_transfer_hook in ER.
        destruct (existsb _ _); [|discriminate]. injection ER as <-. split; [|reflexivity].
        apply remove_first_other; [exact J|]. congruence.
      + intros E. injection E as <- <-. split; [exact W|]. split; [exact J|]. reflexivity.
  Qed.
  Lemma run_flow fuel h l : leaves_hooks beh -> ~ In (DoRemove h) l -> forall s s', numbered s -> In h (tm_hooks s) ->
    trun beh drv types fuel s l = Some s' ->
    shown_to h (tm_log s') = shown_to h (tm_log s) ++ flow types (tm_manager s) l.
  Proof.
    intros NR. induction l as [|a l IH]; intros NI s s' W J; cbn [trun].
    - intros E. injection E as <-. cbn. rewrite app_nil_r. reflexivity.
    - destruct (tstep beh drv types fuel s a) as [[s1 r]|] eqn:E; [|discriminate]. intros R.
      assert (NE : a <> DoRemove h) by (intros ->; apply NI; left; reflexivity).
      destruct (step_flow fuel h s a s1 r NR W J NE E) as (W1 & J1 & X).
      rewrite (X l). apply IH; [intros K; apply NI; right; exact K|exact W1|exact J1|exact R].
  Qed.

  Lemma step_numbered fuel s a s' r : numbered s -> tstep beh drv types fuel s a = Some (s', r) -> numbered s'.
  Proof.
    intros W. destruct a as [hd tid dt v c|x f now| |h']; cbn [tstep].
    - destruct (make_tx hd tid dt v c) as [t|e]; [|intros E; injection E as <- <-; exact W].
      destruct (call_hooks beh fuel s 0 (Outgoing t)) as [s1|] eqn:EC; [|discriminate].
      apply numbered_call in EC; [|exact W]. destruct (to_frames t) as [[fs t']|e].
      + intros E. pose proof (give_numbered fs s1 EC) as W2. assert (E' : give drv s1 fs = (s', r)) by congruence.
        rewrite E' in W2. exact W2.
      + intros E. injection E as <- <-. exact EC.
    - destruct (negb x); [intros E; injection E as <- <-; exact W|].
      destruct (receive_frame (tm_manager s) f now) as [m done]. cbn zeta.
      destruct done as [[|f0 fs]|]; try (intros E; injection E as <- <-; exact W).
      destruct (from_frames types (f0 :: fs)) as [t|e]; [|intros E; injection E as <- <-; exact W].
      destruct (call_hooks beh fuel (with_manager s m) 0 (Incoming t)) as [s1|] eqn:EC; [|discriminate].
      apply numbered_call in EC; [|exact W]. intros E. injection E as <- <-. apply numbered_note; [exact EC|exact I].
    - intros E. injection E as <- <-. apply numbered_add. exact W.
    - destruct (remove_transfer_hook s h') as [s1|e] eqn:ER; intros E; injection E as <- <-; [|exact W].
      eapply numbered_remove; eauto.
  Qed.
  Lemma run_numbered fuel l : forall s s', numbered s -> trun beh drv types fuel s l = Some s' -> numbered s'.
  Proof.
    induction l as [|a l IH]; intros s s' W; cbn [trun]; [intros E; injection E as <-; exact W|].
    destruct (tstep beh drv types fuel s a) as [[s1 r]|] eqn:E; [|discriminate]. apply IH. eapply step_numbered; eauto.
  Qed.
  Lemma shown_new h s : numbered s -> (tm_next s <= h)%nat -> shown_to h (tm_log s) = [].
  Proof.
    intros (_ & _ & C) L. induction (tm_log s) as [|e l IH]; [reflexivity|]. apply Forall_cons_iff in C as (C1 & C2).
    change (shown_to h (e :: l)) with (match e with THook h' x => if Nat.eqb h' h then [x] else [] | _ => [] end ++ shown_to h l).
    rewrite (IH C2). destruct e as [h' x|f|t]; try reflexivity.
    replace (Nat.eqb h' h) with false by (symmetry; apply Nat.eqb_neq; lia). reflexivity.
  Qed.
  Lemma numbered_start : numbered new_monitored.
  Proof. repeat constructor. Qed.

  (** A hook sees every transfer from its registration on. *)
  Lemma hook_sees fuel es1 es2 s1 s2 : leaves_hooks beh ->
    trun beh drv types fuel new_monitored es1 = Some s1 -> ~ In (DoRemove (tm_next s1)) es2 ->
    trun beh drv types fuel s1 (DoAdd :: es2) = Some s2 ->
    shown_to (tm_next s1) (tm_log s2) = flow types (tm_manager s1) es2.
  Proof.
    intros NR R1 NI R2. pose proof (run_numbered fuel es1 _ _ numbered_start R1) as W.
    cbn [trun tstep] in R2. pose proof (numbered_add s1 W) as W'.
    assert (J : In (tm_next s1) (tm_hooks (add_transfer_hook s1))) by (apply in_app_iff; right; left; reflexivity).
    rewrite (run_flow fuel (tm_next s1) es2 NR NI _ s2 W' J R2). cbn [tm_log tm_manager add_transfer_hook with_list].
    rewrite (shown_new (tm_next s1) s1 W (le_n _)). reflexivity.
  Qed.

  (** Whatever hooks do, the transfer goes out, and after they saw it. *)
  Lemma hooks_pass_out fuel s h tid dt v c s' r : tstep beh drv types fuel s (DoTransfer h tid dt v c) = Some (s', r) ->
    match make_tx h tid dt v c with
    | Err x => s' = s /\ r = Err x
    | Ok t => exists calls sent, tm_log s' = tm_log s ++ calls ++ map TSent sent /\ Forall (is_hook (Outgoing t)) calls /\
        match to_frames t with
        | Err x => r = Err x /\ sent = []
        | Ok (fs, _) => (exists left, fs = sent ++ left) /\ (r = Ok tt -> sent = fs) /\
                        ((forall l, drv l = None) -> r = Ok tt)
        end
    end.
  Proof.
    cbn [tstep]. destruct (make_tx h tid dt v c) as [t|x]; [|intros E; injection E as <- <-; split; reflexivity].
    destruct (call_hooks beh fuel s 0 (Outgoing t)) as [s1|] eqn:EC; [|discriminate].
    apply call_log in EC as (_ & calls & L & F). destruct (to_frames t) as [[fs t']|x].
    - intros E. assert (E' : give drv s1 fs = (s', r)) by congruence.
      destruct (give_log fs s1 s' r E') as (_ & _ & _ & a & b & D & LL & R).
      exists calls, a. split; [rewrite LL, L, app_assoc; reflexivity|]. split; [exact F|].
      split; [exists b; exact D|]. split; [intros O; rewrite (R O), app_nil_r in D; congruence|]. intros ND.
      clear - E' ND. revert s1 E'. induction fs as [|f fs IH]; intros s1; cbn [give]; [intros E; injection E as _ <-; reflexivity|].
      rewrite ND. apply IH.
    - intros E. injection E as <- <-. exists calls, []. rewrite L. cbn. rewrite app_nil_r. repeat split; assumption.
  Qed.
  (** And a transfer that comes in is handled, after they saw it. *)
  Lemma hooks_pass_in fuel s f now s' r : tstep beh drv types fuel s (DoFrame true f now) = Some (s', r) ->
    tm_manager s' = fst (receive_frame (tm_manager s) f now) /\
    match snd (receive_frame (tm_manager s) f now) with
    | None | Some [] => tm_log s' = tm_log s /\ r = Ok tt
    | Some fs => match from_frames types fs with
                 | Err x => tm_log s' = tm_log s /\ r = Err x
                 | Ok t => r = Ok tt /\ exists calls, tm_log s' = tm_log s ++ calls ++ [TDispatched t] /\
                                                  Forall (is_hook (Incoming t)) calls
                 end
    end.
  Proof.
    cbn [tstep negb]. destruct (receive_frame (tm_manager s) f now) as [m done]. cbn [fst snd]. cbn zeta.
    destruct done as [[|f0 fs]|]; try (intros E; injection E as <- <-; repeat split).
    destruct (from_frames types (f0 :: fs)) as [t|x]; [|intros E; injection E as <- <-; repeat split].
    destruct (call_hooks beh fuel (with_manager s m) 0 (Incoming t)) as [s1|] eqn:EC; [|discriminate].
    apply call_log in EC as (M & calls & L & F). intros E. injection E as <- <-. split; [exact M|]. split; [reflexivity|].
    exists calls. cbn [tm_log note]. rewrite L, <- app_assoc. split; [reflexivity|exact F].
  Qed.
End Facts.

(** ** Two nodes *)
From Verif.Spec Require Import CodecSpec FrameSpec MsgIdSpec ReassemblySpec SendingSpec.
From Verif.Proofs Require Import ReassemblyFacts ManagerFacts TransferTop.

Lemma flow_feed types fs r l : from_frames types fs = Ok r -> forall m,
  In (Some fs) (map snd (snd (feed m (frames_in l)))) -> In (Incoming r) (flow types m l).
Proof.
  intros F. induction l as [|a l IH]; intros m; [intros []|].
  destruct a as [hd tid dt v c|x f now| |h]; cbn [frames_in flat_map flow app].
  - intros J. apply in_app_iff. right. apply IH. exact J.
  - destruct x; [|apply IH]. change (frames_in (DoFrame true f now :: l)) with ((f, now) :: frames_in l).
    cbn [feed app]. destruct (receive_frame m f now) as [m' done] eqn:E. specialize (IH m').
    change (flat_map _ l) with (frames_in l). destruct (feed m' (frames_in l)) as [m2 outs]. cbn [map snd].
    intros [J|J]; apply in_app_iff; [left|right; apply IH; exact J].
    cbn [snd] in J. subst done. rewrite F. left. reflexivity.
  - apply IH.
  - apply IH.
Qed.
Lemma in_somes {A} (l : list (option A)) x : In x (somes l) -> In (Some x) l.
Proof. induction l as [|[a|] l IH]; cbn; [tauto| |]; intuition congruence. Qed.

Lemma sent_out_app a b : sent_out (a ++ b) = sent_out a ++ sent_out b.
Proof. apply flat_map_app. Qed.
Lemma sent_out_calls x l : Forall (is_hook x) l -> sent_out l = [].
Proof. induction 1 as [|e l (h & ->) H IH]; [reflexivity|exact IH]. Qed.
Lemma sent_out_frames l : sent_out (map TSent l) = l.
Proof. induction l as [|f l IH]; [reflexivity|]. cbn. f_equal. exact IH. Qed.

Lemma both_hooks behA drvA typesA fuelA es1 sA sA' hA behB drvB typesB fuelB es sB sd fs fs' :
  proper typesB sd -> leaves_hooks behA -> leaves_hooks behB ->
  trun behA drvA typesA fuelA new_monitored es1 = Some sA -> In hA (tm_hooks sA) ->
  tstep behA drvA typesA fuelA sA (DoTransfer (s_header sd) (s_tid sd) (s_datatype sd) (s_value sd) (s_canfd sd)) = Some (sA', Ok tt) ->
  sent_out (tm_log sA') = sent_out (tm_log sA) ++ fs -> Forall2 same_frame fs fs' ->
  ~ In (DoRemove 0) es -> trun behB drvB typesB fuelB new_monitored (DoAdd :: es) = Some sB ->
  frames_with (sending_key sd) (frames_in es) = fs' ->
  exists t r, shown_to hA (tm_log sA') = shown_to hA (tm_log sA) ++ [Outgoing t] /\
    In (Incoming r) (shown_to 0 (tm_log sB)) /\ faithful sd r /\ tx_header t = rx_header r /\ (tx_tid t mod 32 = rx_tid r)%N.
Proof.
  intros P NA NB RA JA TA OUT SAME NI RB K.
  pose proof (run_numbered behA drvA typesA fuelA es1 _ _ numbered_start RA) as WA.
  pose proof (hooks_pass_out behA drvA typesA fuelA _ _ _ _ _ _ _ _ TA) as H.
  assert (NE : DoTransfer (s_header sd) (s_tid sd) (s_datatype sd) (s_value sd) (s_canfd sd) <> DoRemove hA) by discriminate.
  assert (FL := step_flow behA drvA typesA fuelA hA sA _ sA' _ NA WA JA NE TA).
  destruct FL as (_ & _ & FL). specialize (FL []). cbn [flow] in FL.
  destruct (make_tx (s_header sd) (s_tid sd) (s_datatype sd) (s_value sd) (s_canfd sd)) as [t|x] eqn:MK; [|destruct H as (_ & H); discriminate].
  destruct H as (calls & sent0 & L & F & H). destruct (to_frames t) as [[fs0 padded]|x] eqn:TF; [|destruct H as (H & _); discriminate].
  destruct H as (_ & H & _). specialize (H eq_refl). rewrite H in L. clear H sent0.
  rewrite L, !sent_out_app, (sent_out_calls _ _ F), sent_out_frames in OUT. cbn [app] in OUT. apply app_inv_head in OUT. subst fs0.
  assert (SN : sent sd fs) by (exists t, padded; split; [exact MK|exact TF]).
  destruct (sent_received typesB sd P) as (fs1 & S1 & R). rewrite (sent_det _ _ _ S1 SN) in R.
  destruct (R fs' SAME) as (r & FR & FA & _).
  destruct (sent_carries typesB sd fs P SN) as (body & C).
  assert (ONE : one_transfer (sending_key sd) fs').
  { apply (carries_one_transfer _ (s_canfd sd) _ body). eapply carries_same; eassumption. }
  exists t, r. rewrite !app_nil_r in FL. split; [symmetry; exact FL|]. split; [|split; [exact FA|]].
  - pose proof (hook_sees behB drvB typesB fuelB [] es new_monitored sB NB eq_refl NI RB) as HS.
    cbn [tm_manager tm_next new_monitored] in HS. rewrite HS. clear HS.
    eapply flow_feed; [exact FR|].
    assert (D : delivered (sending_key sd) (frames_in es) = [fs']).
    { apply delivered_in_order; [cbn; rewrite app_nil_r; exact K|constructor; [exact ONE|constructor]]. }
    assert (J : In fs' (delivered (sending_key sd) (frames_in es))) by (rewrite D; left; reflexivity).
    unfold delivered in J. apply in_somes in J. apply in_map_iff in J as (p & E & J). apply filter_In in J as (J & _).
    apply in_map_iff. exists p. split; [exact E|exact J].
  - destruct FA as [A1 A2 _ _ _]. unfold make_tx in MK. apply bind_ok in MK as (q & _ & MK). injection MK as <-.
    cbn [tx_header tx_tid]. split; [|symmetry; exact A2]. rewrite A1, <- (p_dtid _ _ P). destruct (s_header sd); reflexivity.
Qed.
