(** The firmware update program. *)
From Verif.Base Require Import Prelude.
From Verif.Model Require Import FwUpdate.
From Verif.Spec Require Import FwSpec.
Local Open Scope Z_scope.

Lemma run_snoc target s evs e : run target s (evs ++ [e]) = step target (run target s evs) e.
Proof. unfold run. apply fold_left_app. Qed.
Lemma run_app target s evs evs' : run target s (evs ++ evs') = run target (run target s evs) evs'.
Proof. unfold run. apply fold_left_app. Qed.
Lemma statuses_app target a b : statuses target (a ++ b) = statuses target a ++ statuses target b.
Proof. apply flat_map_app. Qed.
Lemma talk_app a b : talk (a ++ b) = talk a ++ talk b.
Proof. apply filter_app. Qed.
Lemma requests_app a b : requests (a ++ b) = requests a ++ requests b.
Proof. apply filter_app. Qed.
Lemma printed_app a b : printed (a ++ b) = printed a ++ printed b.
Proof. apply flat_map_app. Qed.

(** Where the exchange stands. *)
Definition stands (s : updater) : Prop :=
  (u_waiting s = 1%nat /\ u_deferred s = [] /\ exists l t, talk (u_log s) = l ++ [LRequest t]) \/
  (u_waiting s = 0%nat /\ exists l t e, u_deferred s = [t + 4000] /\ talk (u_log s) = l ++ [LAnswer t (Some e)] /\ e <> 2%N) \/
  (u_waiting s = 0%nat /\ u_deferred s = [] /\ forall l t, talk (u_log s) <> l ++ [LRequest t]).
Definition paced (l : list entry) : Prop :=
  (forall l1 t l2, l = l1 ++ LRequest t :: l2 ->
     l1 = [] \/ exists l0 t0 e, l1 = l0 ++ [LAnswer t0 (Some e)] /\ e <> 2%N /\ t0 + 4000 <= t) /\
  (forall l1 t e l2, l = l1 ++ LAnswer t e :: l2 -> exists l0 t0, l1 = l0 ++ [LRequest t0]).

Lemma snoc_split {T} (l : list T) x l1 y l2 : l ++ [x] = l1 ++ y :: l2 ->
  (l2 = [] /\ l1 = l /\ y = x) \/ exists l2', l2 = l2' ++ [x] /\ l = l1 ++ y :: l2'.
Proof.
  destruct (exists_last (l := y :: l2)) as (l3 & z & E); [discriminate|]. rewrite E. rewrite app_assoc. intros H.
  apply app_inj_tail in H as [H ->]. destruct l3 as [|w l3].
  - cbn [app] in E. injection E as E1 E2. left. rewrite app_nil_r in H. subst. repeat split.
  - cbn [app] in E. injection E as E1 E2. right. exists l3. subst. split; reflexivity.
Qed.
Lemma paced_request l t : paced l -> (l = [] \/ exists l0 t0 e, l = l0 ++ [LAnswer t0 (Some e)] /\ e <> 2%N /\ t0 + 4000 <= t) ->
  paced (l ++ [LRequest t]).
Proof.
  intros [P1 P2] H. split.
  - intros l1 t' l2 E. apply snoc_split in E as [(-> & -> & [= ->])|(l2' & -> & E)]; [exact H|apply (P1 _ _ _ E)].
  - intros l1 t' e l2 E. apply snoc_split in E as [(_ & _ & E)|(l2' & -> & E)]; [discriminate|apply (P2 _ _ _ _ E)].
Qed.
Lemma paced_answer l t e : paced l -> (exists l0 t0, l = l0 ++ [LRequest t0]) -> paced (l ++ [LAnswer t e]).
Proof.
  intros [P1 P2] H. split.
  - intros l1 t' l2 E. apply snoc_split in E as [(_ & _ & E)|(l2' & -> & E)]; [discriminate|apply (P1 _ _ _ E)].
  - intros l1 t' e' l2 E. apply snoc_split in E as [(-> & -> & _)|(l2' & -> & E)]; [exact H|apply (P2 _ _ _ _ E)].
Qed.

Definition good (s : updater) : Prop := stands s /\ paced (talk (u_log s)).

Lemma status_good target s t src mode : good s -> good (on_node_status target s t src mode).
Proof.
  intros [G P]. unfold on_node_status. destruct (match src with Some n => N.eqb n target | None => false end); [|split; assumption].
  destruct (N.eqb mode mode_software_update), (u_started s); try (split; assumption).
  destruct (u_start_time s); [|split; assumption].
  unfold good, stands. cbn [u_waiting u_deferred u_log]. rewrite talk_app. cbn [talk filter]. rewrite app_nil_r. split; assumption.
Qed.
Lemma step_good target s e : good s -> good (step target s e).
Proof.
  intros H. unfold step. destruct (u_raised s); [exact H|]. destruct e as [t src mode|t error|t sent|]; [apply status_good, H| | |exact H].
  - destruct (u_waiting s) eqn:W; [exact H|]. destruct H as [[(W1 & D & l & t0 & T)|[(W1 & _)|(W1 & _)]] P]; try (rewrite W1 in W; discriminate).
    rewrite W1 in W. injection W as <-.
    assert (E : paced (talk (u_log s) ++ [LAnswer t error])) by (apply paced_answer; [exact P|exists l, t0; exact T]).
    unfold on_response, good, stands. destruct error as [er|].
    + destruct (N.eqb er error_in_progress) eqn:Ee; cbn [u_waiting u_deferred u_log]; rewrite talk_app; cbn [talk filter]; (split; [|exact E]).
      * right. right. rewrite W1. split; [reflexivity|]. split; [exact D|]. intros l1 t1 X. apply app_inj_tail in X as [_ X]. discriminate.
      * right. left. rewrite W1. split; [reflexivity|]. exists (talk (u_log s)), t, er. rewrite D. split; [reflexivity|].
        split; [reflexivity|]. apply N.eqb_neq, Ee.
    + cbn [u_waiting u_deferred u_log]. rewrite talk_app. cbn [talk filter]. split; [|exact E].
      right. right. rewrite W1. split; [reflexivity|]. split; [exact D|]. intros l1 t1 X. apply app_inj_tail in X as [_ X]. discriminate.
  - destruct (u_deferred s) as [|d l'] eqn:D; [exact H|]. destruct (t <? d) eqn:Et; [exact H|].
    destruct H as [[(_ & D' & _)|[(W & l & t0 & er & D' & T & Ne)|(_ & D' & _)]] P]; try congruence.
    rewrite D' in D. injection D as <- <-.
    unfold request_update. cbn [u_started u_complete u_start_time u_waiting u_deferred u_log u_raised].
    assert (K : forall l1 t1, talk (u_log s) <> l1 ++ [LRequest t1]) by (intros l1 t1 X; rewrite T in X; apply app_inj_tail in X as [_ X]; discriminate).
    assert (Q : good (Updater (u_started s) (u_complete s) (u_start_time s) (u_waiting s) [] (u_log s) (u_raised s))).
    { split; [right; right; split; [exact W|split; [reflexivity|exact K]]|exact P]. }
    destruct (u_started s) eqn:Es; [exact Q|].
    destruct sent as [[]|[]]; try (split; [right; right; split; [exact W|split; [reflexivity|exact K]]|exact P]).
    split; cbn [u_log].
    + left. cbn [u_waiting u_deferred u_log]. rewrite W. split; [reflexivity|]. split; [reflexivity|].
      exists (talk (u_log s)), t. rewrite talk_app. reflexivity.
    + rewrite talk_app. cbn [talk filter]. apply paced_request; [exact P|]. right. exists l, t0, er.
      split; [exact T|]. split; [exact Ne|lia].
Qed.
Lemma begin_good t sent : good (begin t sent).
Proof.
  assert (N0 : paced []) by (split; intros; destruct l1; discriminate).
  unfold begin. destruct sent as [[]|e].
  - split; [|apply (paced_request [] t N0); left; reflexivity]. left. split; [reflexivity|]. split; [reflexivity|]. exists [], t. reflexivity.
  - split; [|exact N0]. right. right. split; [reflexivity|]. split; [reflexivity|]. intros l1 t1 X. destruct l1; discriminate.
Qed.
Lemma run_good target t sent evs : good (run target (begin t sent) evs).
Proof. induction evs as [|e evs IH] using rev_ind; [apply begin_good|]. rewrite run_snoc. apply step_good, IH. Qed.

(** Silence. *)
Definition silent (s : updater) : Prop := u_waiting s = 0%nat /\ u_deferred s = [].
Lemma step_silent target s e : silent s -> silent (step target s e) /\ talk (u_log (step target s e)) = talk (u_log s).
Proof.
  intros [W D]. unfold step. destruct (u_raised s); [repeat split; assumption|].
  destruct e as [t src mode|t error|t sent|].
  - unfold on_node_status. destruct (match src with Some n => N.eqb n target | None => false end); [|repeat split; assumption].
    destruct (N.eqb mode mode_software_update), (u_started s); try (repeat split; assumption).
    destruct (u_start_time s); [|repeat split; assumption]. cbn [u_log]. rewrite talk_app. cbn [talk filter]. rewrite app_nil_r.
    repeat split; assumption.
  - rewrite W. repeat split; assumption.
  - rewrite D. repeat split; assumption.
  - repeat split; assumption.
Qed.
Lemma run_silent target s evs : silent s -> talk (u_log (run target s evs)) = talk (u_log s).
Proof.
  revert s. induction evs as [|e evs IH]; intros s H; [reflexivity|]. cbn [run fold_left].
  destruct (step_silent target s e H) as [H1 H2]. change (talk (u_log (run target (step target s e) evs)) = talk (u_log s)).
  rewrite (IH _ H1). exact H2.
Qed.
Lemma requests_talk l : requests (talk l) = requests l.
Proof.
  induction l as [|x l IH]; [reflexivity|]. destruct x; cbn [talk requests filter]; [f_equal|..]; exact IH.
Qed.
Lemma answered_last target t sent evs l ta er : let s := run target (begin t sent) evs in
  talk (u_log s) = l ++ [LAnswer ta er] -> (er = None \/ er = Some 2%N) -> silent s.
Proof.
  intros s E H. pose proof (run_good target t sent evs) as G; fold s in G; destruct G as [[(_ & _ & l' & t' & T)|[(_ & l' & t' & e & _ & T & Ne)|(G1 & G2 & _)]] _].
  - rewrite E in T. apply app_inj_tail in T as [_ T]. discriminate.
  - rewrite E in T. apply app_inj_tail in T as [_ T]. injection T as -> ->. destruct H as [H|H]; [discriminate|]. injection H as ->. congruence.
  - split; assumption.
Qed.
Theorem gives_up target t sent evs l ta er more : let s := run target (begin t sent) evs in
  talk (u_log s) = l ++ [LAnswer ta er] -> er = None \/ er = Some 2%N ->
  requests (u_log (run target (begin t sent) (evs ++ more))) = requests (u_log s).
Proof.
  intros s E H. rewrite run_app. rewrite <- requests_talk. rewrite run_silent by (apply (answered_last target t sent evs l ta er E H)).
  apply requests_talk.
Qed.

(** Modes. *)
Definition tracks (target : N) (evs : list event) (s : updater) : Prop :=
  u_raised s = None ->
  if u_started s then
    if u_complete s then exists t1 t2, updated target evs t1 t2 /\ u_start_time s = Some t1 /\ exists l, printed (u_log s) = (t2 - t1) :: l
    else exists t1 p q, statuses target evs = p ++ (t1, 3%N) :: q /\ Forall (fun s => snd s <> 3%N) p /\
      Forall (fun s => snd s = 3%N) q /\ u_start_time s = Some t1 /\ printed (u_log s) = []
  else u_complete s = false /\ Forall (fun s => snd s <> 3%N) (statuses target evs) /\ printed (u_log s) = [].

Lemma updated_app target evs e t1 t2 : updated target evs t1 t2 -> updated target (evs ++ e) t1 t2.
Proof.
  intros (p & q & r & m & E & H). exists p, q, (r ++ statuses target e), m. split; [|exact H].
  rewrite statuses_app, E. rewrite <- app_assoc. cbn [app]. rewrite <- app_assoc. reflexivity.
Qed.
(** Events without a status of the target, and the fields that they keep. *)
Definition keeps (s s' : updater) : Prop :=
  u_started s' = u_started s /\ u_complete s' = u_complete s /\ u_start_time s' = u_start_time s /\
  printed (u_log s') = printed (u_log s) /\ (u_raised s' = None -> u_raised s = None).
Lemma keeps_refl s : keeps s s. Proof. repeat split; auto. Qed.
Lemma tracks_keeps target evs e s s' : statuses target [e] = [] -> keeps s s' -> tracks target evs s -> tracks target (evs ++ [e]) s'.
Proof.
  intros E (K1 & K2 & K3 & K4 & K5) H R. unfold tracks, updated in H. rewrite K1, K2, K3, K4. unfold updated. rewrite statuses_app, E, app_nil_r. apply H, K5, R.
Qed.
Lemma step_keeps target s e : statuses target [e] = [] -> keeps s (step target s e).
Proof.
  intros E. unfold step. destruct (u_raised s) eqn:Er; [apply keeps_refl|].
  destruct e as [t src mode|t error|t sent|].
  - unfold on_node_status. destruct src as [n|]; [|apply keeps_refl]. cbn in E. destruct (N.eqb n target); [discriminate|apply keeps_refl].
  - destruct (u_waiting s); [apply keeps_refl|]. unfold on_response.
    destruct error as [er|]; [destruct (N.eqb er error_in_progress)|];
      (split; [reflexivity|]; split; [reflexivity|]; split; [reflexivity|]; split; [cbn [u_log]; rewrite printed_app; cbn; apply app_nil_r|auto]).
  - destruct (u_deferred s); [apply keeps_refl|]. destruct (t <? z); [apply keeps_refl|].
    unfold request_update. cbn [u_started u_complete u_start_time u_waiting u_deferred u_log u_raised].
    destruct (u_started s) eqn:Es; [|destruct sent as [u|x]; [|destruct x]];
      (split; [symmetry; assumption || reflexivity|]; split; [reflexivity|]; split; [reflexivity|]; split;
        [cbn [u_log]; rewrite ?printed_app; cbn; rewrite ?app_nil_r; reflexivity|auto]).
  - apply keeps_refl.
Qed.
Lemma step_tracks target evs s e : tracks target evs s -> tracks target (evs ++ [e]) (step target s e).
Proof.
  intros H. destruct (statuses target [e]) as [|[t mode] l] eqn:E; [apply (tracks_keeps _ _ _ s); [exact E|apply step_keeps, E|exact H]|].
  destruct e as [t' src m'| | |]; try discriminate. destruct src as [n|]; [|discriminate].
  cbn in E. destruct (N.eqb n target) eqn:En; [|discriminate]. injection E as -> -> <-.
  assert (E : statuses target [EStatus t (Some n) mode] = [(t, mode)]) by (cbn; rewrite En; reflexivity).
  unfold step. destruct (u_raised s) eqn:Er; [intros R; congruence|]. specialize (H Er).
  unfold on_node_status. rewrite En. change mode_software_update with 3%N. destruct (N.eqb mode 3) eqn:Em.
  - apply N.eqb_eq in Em. subst mode. destruct (u_started s) eqn:Es; intros _.
    + rewrite Es. destruct (u_complete s).
      * destruct H as (t1 & t2 & U & H). exists t1, t2. split; [apply updated_app, U|exact H].
      * destruct H as (t1 & p & q & S1 & S2 & S3 & S4). exists t1, p, (q ++ [(t, 3%N)]). rewrite statuses_app, E, S1.
        rewrite <- app_assoc. split; [reflexivity|]. split; [exact S2|]. split; [|exact S4].
        apply Forall_app. split; [exact S3|]. constructor; [reflexivity|constructor].
    + cbn [u_started u_complete u_start_time u_log]. destruct H as (Hc & Hf & Hp). rewrite Hc. exists t, (statuses target evs), [].
      rewrite statuses_app, E. split; [reflexivity|]. split; [exact Hf|]. split; [constructor|]. split; [reflexivity|exact Hp].
  - apply N.eqb_neq in Em. destruct (u_started s) eqn:Es; intros R.
    + destruct (u_complete s) eqn:Ec.
      * destruct H as (t1 & t2 & U & H1 & l & H2). rewrite H1. cbn [u_started u_complete u_start_time u_log].
        exists t1, t2. split; [apply updated_app, U|]. split; [reflexivity|]. rewrite printed_app, H2. cbn. eexists. reflexivity.
      * destruct H as (t1 & p & q & S1 & S2 & S3 & S4 & S5). rewrite S4. cbn [u_started u_complete u_start_time u_log].
        exists t1, t. split.
        { exists p, q, [], mode. rewrite statuses_app, E, S1. rewrite <- app_assoc. cbn [app].
          split; [reflexivity|]. split; [exact S2|]. split; [exact S3|exact Em]. }
        split; [reflexivity|]. rewrite printed_app, S5. cbn. exists []. reflexivity.
    + rewrite Es. destruct H as (Hc & Hf & Hp). split; [exact Hc|]. split; [|exact Hp]. rewrite statuses_app, E.
      apply Forall_app. split; [exact Hf|]. constructor; [exact Em|constructor].
Qed.
Lemma run_tracks target t sent evs : tracks target evs (run target (begin t sent) evs).
Proof.
  induction evs as [|e evs IH] using rev_ind.
  - unfold run, begin. cbn [fold_left]. intros _. destruct sent as [u|x]; cbn; repeat split; constructor.
  - rewrite run_snoc. apply step_tracks, IH.
Qed.

Lemma no_three {A} (l : list (A * N)) x : Forall (fun s => snd s <> 3%N) l -> In (x, 3%N) l -> False.
Proof. rewrite Forall_forall. intros H I. apply (H _ I). reflexivity. Qed.
Theorem ends target t sent evs : let s := run target (begin t sent) evs in u_raised s = None ->
  finished s = true <-> exists t1 t2, updated target evs t1 t2.
Proof.
  intros s R. pose proof (run_tracks target t sent evs R) as H. fold s in H. unfold finished.
  destruct (u_started s), (u_complete s); cbn [andb].
  - destruct H as (t1 & t2 & U & _). split; [intros _; exists t1, t2; exact U|reflexivity].
  - destruct H as (t1 & p & q & S1 & S2 & S3 & _). split; [discriminate|].
    intros (t1' & t2 & p' & q' & r & m & E & _ & _ & Hm). exfalso. rewrite S1 in E.
    revert p' E. clear - S2 S3 Hm. induction S2 as [|[a b] p Hb S2 IH]; intros p' E.
    + destruct p' as [|x p']; cbn [app] in E; injection E as _ E.
      * assert (I : In (t2, m) q) by (rewrite E; apply in_or_app; right; left; reflexivity).
        rewrite Forall_forall in S3. apply Hm, (S3 _ I).
      * assert (I : In (t2, m) q) by (rewrite E; apply in_or_app; right; right; apply in_or_app; right; left; reflexivity).
        rewrite Forall_forall in S3. apply Hm, (S3 _ I).
    + destruct p' as [|x p']; cbn [app] in E.
      * injection E as _ E _. apply Hb. exact E.
      * injection E as _ E. apply (IH p' E).
  - destruct H as (H & _). discriminate.
  - destruct H as (_ & H & _). split; [discriminate|]. intros (t1 & t2 & p & q & r & m & E & _). exfalso.
    apply (no_three _ t1 H). rewrite E. apply in_or_app. right. left. reflexivity.
Qed.
Theorem elapsed target t sent evs d l : let s := run target (begin t sent) evs in u_raised s = None ->
  printed (u_log s) = d :: l -> exists t1 t2, updated target evs t1 t2 /\ d = t2 - t1.
Proof.
  intros s R P. pose proof (run_tracks target t sent evs R) as H. fold s in H.
  destruct (u_started s), (u_complete s).
  - destruct H as (t1 & t2 & U & _ & l' & H). rewrite P in H. injection H as -> _. exists t1, t2. split; [exact U|reflexivity].
  - destruct H as (t1 & p & q & _ & _ & _ & _ & H). congruence.
  - destruct H as (H & _). discriminate.
  - destruct H as (_ & _ & H). congruence.
Qed.

(** No exception but those of the request. *)
Lemma step_raised target s e : (u_started s = true -> u_start_time s <> None) -> u_raised s = None ->
  (u_started (step target s e) = true -> u_start_time (step target s e) <> None) /\
  (forall x, u_raised (step target s e) = Some x -> exists t, e = EDue t (Err x) /\ x <> TransferError).
Proof.
  intros H R. unfold step. rewrite R. destruct e as [t src mode|t error|t sent|].
  - unfold on_node_status. destruct (match src with Some n => N.eqb n target | None => false end); [|split; [exact H|rewrite ?R; discriminate]].
    destruct (N.eqb mode mode_software_update), (u_started s) eqn:Es.
    + split; [intros _; apply H; reflexivity|rewrite ?R; discriminate].
    + split; cbn; [discriminate|rewrite ?R; discriminate].
    + destruct (u_start_time s) eqn:Et; [|exfalso; apply H; reflexivity]. split; cbn; [discriminate|rewrite ?R; discriminate].
    + split; [rewrite Es; discriminate|rewrite ?R; discriminate].
  - destruct (u_waiting s); [split; [exact H|rewrite ?R; discriminate]|]. unfold on_response.
    destruct error as [er|]; [destruct (N.eqb er error_in_progress)|]; (split; [exact H|cbn; rewrite ?R; discriminate]).
  - destruct (u_deferred s); [split; [exact H|rewrite ?R; discriminate]|]. destruct (t <? z); [split; [exact H|rewrite ?R; discriminate]|].
    unfold request_update. cbn [u_started u_complete u_start_time u_waiting u_deferred u_log u_raised].
    destruct (u_started s) eqn:Es; [split; cbn; [intros _; apply H; reflexivity|rewrite ?R; discriminate]|].
    destruct sent as [u|x]; [split; cbn; [discriminate|rewrite ?R; discriminate]|].
    destruct x; (split; cbn; [discriminate|rewrite ?R; first [discriminate|intros x [= <-]; exists t; split; [reflexivity|discriminate]]]).
  - split; [exact H|rewrite ?R; discriminate].
Qed.
Theorem survives target t evs : (forall t x, In (EDue t (Err x)) evs -> x = TransferError) ->
  u_raised (run target (begin t (Ok tt)) evs) = None.
Proof.
  intros H. assert (G : u_raised (run target (begin t (Ok tt)) evs) = None /\
    (u_started (run target (begin t (Ok tt)) evs) = true -> u_start_time (run target (begin t (Ok tt)) evs) <> None)); [|apply G].
  induction evs as [|e evs IH] using rev_ind; [split; [reflexivity|discriminate]|].
  destruct IH as [R K]; [intros; eapply H, in_or_app; left; eassumption|].
  rewrite run_snoc. destruct (step_raised target _ e K R) as [G1 G2]. split; [|exact G1].
  destruct (u_raised (step target (run target (begin t (Ok tt)) evs) e)) as [x|]; [|reflexivity].
  destruct (G2 x eq_refl) as (t' & -> & Nx). exfalso. apply Nx, (H t'), in_or_app. right. left. reflexivity.
Qed.

(** Requests end when the update begins, and go on after a refusal. *)
Lemma seen_started target t sent evs : u_raised (run target (begin t sent) evs) = None -> seen_updating target evs ->
  u_started (run target (begin t sent) evs) = true.
Proof.
  intros R (t1 & I). pose proof (run_tracks target t sent evs R) as H.
  destruct (u_started (run target (begin t sent) evs)); [reflexivity|]. destruct H as (_ & H & _). exfalso. apply (no_three _ _ H I).
Qed.
Lemma step_quiet target s e : u_started s = true \/ u_raised s <> None ->
  requests (u_log (step target s e)) = requests (u_log s) /\ (u_started (step target s e) = true \/ u_raised (step target s e) <> None).
Proof.
  intros H. unfold step. destruct (u_raised s) eqn:R; [split; [reflexivity|right; rewrite R; discriminate]|].
  assert (Es : u_started s = true) by (destruct H as [H|H]; [exact H|congruence]). clear H.
  destruct e as [t src mode|t error|t sent|].
  - unfold on_node_status. destruct (match src with Some n => N.eqb n target | None => false end); [|split; [reflexivity|left; exact Es]].
    rewrite Es. destruct (N.eqb mode mode_software_update); [split; [reflexivity|left; exact Es]|].
    destruct (u_start_time s); cbn [u_log u_started]; (split; [|left; reflexivity]); [|reflexivity].
    rewrite requests_app. apply app_nil_r.
  - destruct (u_waiting s); [split; [reflexivity|left; exact Es]|]. unfold on_response.
    destruct error as [er|]; [destruct (N.eqb er error_in_progress)|]; cbn [u_log u_started];
      (split; [rewrite requests_app; apply app_nil_r|left; exact Es]).
  - destruct (u_deferred s); [split; [reflexivity|left; exact Es]|]. destruct (t <? z); [split; [reflexivity|left; exact Es]|].
    unfold request_update. cbn [u_started]. rewrite Es. split; [reflexivity|left; reflexivity].
  - split; [reflexivity|left; exact Es].
Qed.
Lemma run_quiet target s evs : u_started s = true \/ u_raised s <> None -> requests (u_log (run target s evs)) = requests (u_log s).
Proof.
  revert s. induction evs as [|e evs IH]; intros s H; [reflexivity|].
  destruct (step_quiet target s e H) as [H1 H2]. change (requests (u_log (run target (step target s e) evs)) = requests (u_log s)).
  rewrite (IH _ H2). exact H1.
Qed.
Theorem asks_until target t sent evs more : seen_updating target evs ->
  requests (u_log (run target (begin t sent) (evs ++ more))) = requests (u_log (run target (begin t sent) evs)).
Proof.
  intros H. rewrite run_app. apply run_quiet. destruct (u_raised (run target (begin t sent) evs)) eqn:R; [right; discriminate|].
  left. apply seen_started; assumption.
Qed.

(** A refusal: the next request is due, and nothing else happens to it. *)
Definition due (target : N) (t0 : Z) (s : updater) : Prop :=
  u_waiting s = 0%nat /\ u_deferred s = [t0 + 4000] /\ u_raised s = None /\ u_started s = false.
Lemma step_due target t0 s e : due target t0 s ->
  (forall t, e = EStatus t (Some target) 3 -> False) -> (forall t r, e = EDue t r -> t < t0 + 4000) -> due target t0 (step target s e).
Proof.
  intros (W & D & R & St) H1 H2. unfold step. rewrite R. destruct e as [t src mode|t error|t sent|].
  - unfold on_node_status. destruct src as [n|]; [|repeat split; assumption].
    destruct (N.eqb n target) eqn:En; [|repeat split; assumption]. apply N.eqb_eq in En. subst n. rewrite St.
    destruct (N.eqb mode mode_software_update) eqn:Em; [|repeat split; assumption].
    apply N.eqb_eq in Em. subst mode. exfalso. apply (H1 t). reflexivity.
  - rewrite W. repeat split; assumption.
  - rewrite D. pose proof (H2 t sent eq_refl) as H. apply Z.ltb_lt in H. rewrite H. repeat split; assumption.
  - repeat split; assumption.
Qed.
Lemma run_due target t0 s evs : due target t0 s -> (forall t, ~ In (EStatus t (Some target) 3) evs) ->
  (forall t r, In (EDue t r) evs -> t < t0 + 4000) -> due target t0 (run target s evs).
Proof.
  intros H H1 H2. induction evs as [|e evs IH] using rev_ind; [exact H|]. rewrite run_snoc. apply step_due.
  - apply IH; [intros t I; apply (H1 t), in_or_app; left; exact I|intros t r I; apply (H2 t r), in_or_app; left; exact I].
  - intros t ->. apply (H1 t), in_or_app. right. left. reflexivity.
  - intros t r ->. apply (H2 t r), in_or_app. right. left. reflexivity.
Qed.
Lemma statuses_In target evs t : In (EStatus t (Some target) 3) evs -> In (t, 3%N) (statuses target evs).
Proof.
  intros I. unfold statuses. apply in_flat_map. eexists. split; [exact I|]. cbn. rewrite N.eqb_refl. left. reflexivity.
Qed.
Theorem asks_again target t sent evs l tr t0 e mid t1 :
  let s := run target (begin t sent) evs in
  let s' := run target (begin t sent) (evs ++ EAnswer t0 (Some e) :: mid) in
  u_raised s = None -> talk (u_log s) = l ++ [LRequest tr] -> e <> 2%N -> ~ seen_updating target (evs ++ mid) ->
  (forall t r, In (EDue t r) mid -> t < t0 + 4000) -> t0 + 4000 <= t1 ->
  u_log (run target (begin t sent) ((evs ++ EAnswer t0 (Some e) :: mid) ++ [EDue t1 (Ok tt)])) = u_log s' ++ [LRequest t1].
Proof.
  intros s s' R T Ne Hs Hd Ht. rewrite run_snoc. fold s'.
  assert (Q : due target t0 s').
  { unfold s'. change (EAnswer t0 (Some e) :: mid) with ([EAnswer t0 (Some e)] ++ mid). rewrite app_assoc, run_app.
    apply run_due; [|intros t' I; apply Hs; exists t'; rewrite statuses_app; apply in_or_app; right; apply statuses_In, I|exact Hd].
    rewrite run_snoc. fold s. pose proof (run_good target t sent evs) as G; fold s in G; destruct G as [[(W & D & _)|[(_ & l' & t' & e' & _ & T' & _)|(_ & _ & T')]] _].
    - unfold step. rewrite R, W. unfold on_response. change error_in_progress with 2%N. apply N.eqb_neq in Ne. rewrite Ne.
      unfold due. cbn [u_waiting u_deferred u_raised u_started pred]. rewrite W, D. split; [reflexivity|]. split; [reflexivity|]. split; [exact R|].
      pose proof (run_tracks target t sent evs R) as K. fold s in K. destruct (u_started s); [|reflexivity]. exfalso. apply Hs.
      destruct (u_complete s).
      + destruct K as (a & b & (p & q & r & m & E & _) & _). exists a. rewrite statuses_app, E. apply in_or_app. left. apply in_or_app. right. left. reflexivity.
      + destruct K as (a & p & q & E & _). exists a. rewrite statuses_app, E. apply in_or_app. left. apply in_or_app. right. left. reflexivity.
    - rewrite T in T'. apply app_inj_tail in T' as [_ T']. discriminate.
    - exfalso. apply (T' _ _ T). }
  destruct Q as (W & D & R' & St). unfold step. rewrite R', D. apply Z.ltb_ge in Ht. rewrite Ht.
  unfold request_update. cbn [u_started]. rewrite St. reflexivity.
Qed.

(** *** The program that has ended with an exception *)
Lemma run_raised target evs : forall s e, u_raised s = Some e -> run target s evs = s.
Proof.
  unfold run. induction evs as [|ev evs IH]; intros s e H; cbn [fold_left]; [reflexivity|].
  unfold step at 2. rewrite H. exact (IH s e H).
Qed.
Lemma first_raises target t x evs : let s := run target (begin t (Err x)) evs in
  u_raised s = Some x /\ u_log s = [] /\ finished s = false.
Proof.
  cbv zeta. rewrite (run_raised target evs (begin t (Err x)) x eq_refl). repeat split.
Qed.
