(** Service calls: a request and the response to it. *)
From Verif.Base Require Import Prelude Bits.
From Verif.Model Require Import Types Codec MsgId Frames TransferManager Sched Node.
From Verif.Spec Require Import CodecSpec MsgIdSpec FrameSpec ReassemblySpec SendingSpec NodeSpec.
From Verif.Proofs Require Import MsgIdFacts ReassemblyFacts ManagerFacts TransferTop SchedFacts NodeFacts RequestFacts NodeRequests NodeDispatch NodeTop NodeNet.
Require Import Coq.Sorting.Permutation.
Local Open Scope Z_scope.

(** ** The keys of requests *)

Definition clip (h : header) : header :=
  Header (N.land (h_priority h) 0x1F) (h_service h) (h_request h) (h_source h) (h_dest h) (h_dtid h) (h_discriminator h).

Lemma clip_id h : message_id (clip h) = message_id h.
Proof.
  unfold message_id, clip. cbn [h_priority h_service h_request h_source h_dest h_dtid h_discriminator].
  replace (N.land (N.land (h_priority h) 31) 31) with (N.land (h_priority h) 31); [reflexivity|].
  rewrite <- N.land_assoc. reflexivity.
Qed.

(** A request as a node makes it. *)
Definition request_header (a : N) (h : header) : Prop :=
  h_service h = true /\ h_request h = true /\ h_source h = Some a /\ h_discriminator h = None.

Lemma request_legal a h i : request_header a h -> (a < 128)%N -> message_id h = Ok i -> MsgIdSpec.legal (clip h).
Proof.
  intros (A & B & C & D) Ha H. destruct h as [p s r src dst d disc]. cbn in *. subst.
  unfold message_id in H. cbn in H.
  destruct (d <=? 255)%N eqn:Ed; [|discriminate]. cbn in H.
  destruct dst as [dst|]; [|discriminate].
  destruct ((1 <=? dst) && (dst <=? 127))%N eqn:Edst; [|discriminate].
  unfold clip. cbn. constructor; try lia.
  change 31%N with (N.ones 5). rewrite N.land_ones. apply N.mod_lt. discriminate.
Qed.

Lemma key_session a h h' i : (a < 128)%N -> request_header a h -> request_header a h' ->
  message_id h = Ok i -> message_id h' = Ok i -> h_dest h' = h_dest h /\ h_dtid h' = h_dtid h.
Proof.
  intros Ha H H' E E'.
  pose proof (request_legal a h i H Ha E) as L. pose proof (request_legal a h' i H' Ha E') as L'.
  assert (X : clip h = clip h').
  { apply can_id_injective; auto. rewrite !clip_id. congruence. }
  destruct h, h'. cbn in *. injection X; intros; subst; auto.
Qed.

(** ** What operations do to the requests *)

Definition no_request (l : list nobs) : Prop := forall r h tid dl, ~ In (ORequest r h tid dl) l.

Record mild (s s' : node) : Prop := {
  m_log : exists l, n_log s' = n_log s ++ l /\ no_request l;
  m_cb : n_callbacks s' = n_callbacks s;
  m_rq : n_requests s' = n_requests s;
  m_ev : forall e r k, In e (n_queue s') -> ev_act e = ATimeout r k -> In e (n_queue s);
  m_reqs : n_reqs s' = n_reqs s;
  m_id : anonymous s = false -> n_id s' = n_id s
}.

Record registers (s s' : node) (h : header) (tid i : N) (dl : Z) : Prop := {
  r_log : exists sess fs, n_log s' = n_log s ++ [OSend sess h tid fs None; ORequest (n_reqs s) h tid dl];
  r_cb : n_callbacks s' = dset key_eqb (n_callbacks s) (i, Some tid) (n_reqs s, n_seq s);
  r_rq : n_requests s' = dset key_eqb (n_requests s) (i, Some tid) (h, tid);
  r_ev : n_queue s' = heappush (Event dl 1 (n_seq s) (ATimeout (n_reqs s) (i, Some tid))) (n_queue s);
  r_reqs : n_reqs s' = S (n_reqs s);
  r_id : n_id s' = n_id s;
  r_anon : anonymous s = false;
  r_header : h_service h = true /\ h_request h = true /\ h_source h = n_id s /\ h_discriminator h = None;
  r_key : message_id h = Ok i
}.

Lemma mild_refl s : mild s s.
Proof.
  constructor; auto. exists []. rewrite app_nil_r. split; auto. intros ? ? ? ? [].
Qed.

Lemma mild_see s s' o : mild s s' -> (forall r h tid dl, o <> ORequest r h tid dl) -> mild s (see s' o).
Proof.
  intros [(l & E & N) B C D F G] Ho. constructor; auto. exists (l ++ [o]). cbn. rewrite E, app_assoc. split; auto.
  intros r h tid dl Hi. apply in_app_or in Hi. destruct Hi as [Hi|[Hi|[]]]; [exact (N _ _ _ _ Hi)|]. exact (Ho _ _ _ _ Hi).
Qed.

Lemma cancel_In ev (q q' : list (event nact)) e : cancel ev q = Some q' -> In e q' -> In e q.
Proof.
  revert q'. induction q as [|x q IH]; cbn; intros q' H Hi; [discriminate|].
  destruct (Nat.eqb _ _); [injection H as <-; auto|].
  destruct (cancel ev q) as [q2|]; [|discriminate]. injection H as <-. destruct Hi as [->|Hi]; eauto.
Qed.

Lemma push_In (e x : event nact) q : In x (heappush e q) <-> x = e \/ In x q.
Proof.
  pose proof (heappush_perm e q) as P. split; intros H.
  - apply (Permutation_in _ P) in H. destruct H as [->|H]; auto.
  - apply (Permutation_in _ (Permutation_sym P)). destruct H as [->|H]; [left; reflexivity|right; auto].
Qed.

Lemma key_neq a b : key_eqb a b = false -> a <> b.
Proof. intros H ->. rewrite (proj2 (key_eqb_spec b b) eq_refl) in H. discriminate. Qed.

Section Call.
  Variable clk : nat -> Z.
  Variable beh : list nobs -> list (nop * bool) * outcome.
  Variable drv : list nobs -> list frame -> option exn.
  Variable status : list nobs -> value.
  Variable status_dt : datatype.
  Variable types : datatypes.
  Variable second : Z.

  Notation apply_nop := (apply_nop clk drv second).
  Notation recv_transfer := (recv_transfer clk beh drv second).
  Notation recv_frame := (recv_frame clk beh drv types second).
  Notation nexec := (nexec clk beh drv status status_dt second).
  Notation npoll := (npoll clk beh drv status status_dt second).
  Notation node_history := (node_history clk beh drv status status_dt types second).
  Notation call_handler := (call_handler clk beh drv second).
  Notation call_handlers := (call_handlers clk beh drv second).
  Notation react := (react clk beh drv second).
  Notation request := (request clk drv second).
  Notation respond := (respond drv).
  Notation broadcast := (broadcast drv).
  Notation send := (send drv).

  Lemma request_kind s dt v dest prio timeout canfd : let s' := fst (request s dt v dest prio timeout canfd) in
    mild s s' \/ exists h tid i dl, registers s s' h tid i dl.
  Proof.
    cbv zeta. unfold Node.request. destruct (anonymous s) eqn:Ea; [left; apply mild_refl|].
    cbn [next_transfer_id].
    destruct (send _ _ _ _ _ _ _) as [s1 r] eqn:E. apply send_shape in E.
    destruct E as (fs & err & -> & _ & Hr).
    assert (M : forall nx o, (forall r h tid dl, o <> ORequest r h tid dl) -> mild s (see (set_next s nx) o)).
    { intros nx o Ho. apply (mild_see s (set_next s nx)); auto.
      destruct (mild_refl s). constructor; auto. }
    destruct r as [t|x]; [|left; apply M; discriminate].
    destruct Hr as (-> & Eh & _ & _).
    destruct (message_id (tx_header t)) as [i|x] eqn:Ei; [|left; apply M; discriminate].
    right. cbn [nread fst]. rewrite Eh in *. do 4 eexists. constructor; cbn.
    - do 2 eexists. rewrite <- app_assoc. reflexivity.
    - reflexivity.
    - reflexivity.
    - reflexivity.
    - reflexivity.
    - reflexivity.
    - exact Ea.
    - repeat split.
    - exact Ei.
  Qed.

  Lemma respond_mild s0 s dt v dest tid prio canfd : mild s0 s -> mild s0 (fst (respond s dt v dest tid prio canfd)).
  Proof.
    intros H. unfold Node.respond. destruct (anonymous s); auto.
    destruct (send _ _ _ _ _ _ _) as [s' r] eqn:E. apply send_shape in E.
    destruct E as (fs & err & -> & _). destruct r; apply mild_see; auto; discriminate.
  Qed.

  Lemma nop_kind s op : let s' := fst (apply_nop s op) in
    mild s s' \/ exists h tid i dl, registers s s' h tid i dl.
  Proof.
    cbv zeta.
    assert (Henter : forall t p a, (forall r k, a <> ATimeout r k) -> forall e r k, In e (heappush (Event t p (n_seq s) a) (n_queue s)) ->
      ev_act e = ATimeout r k -> In e (n_queue s)).
    { intros t p a Ha e r k Hi E. apply push_In in Hi. destruct Hi as [->|Hi]; auto. destruct (Ha _ _ E). }
    pose proof (mild_refl s) as R. pose proof R as R'. destruct R'.
    destruct op; cbn [Node.apply_nop].
    - apply request_kind.
    - left. unfold Node.broadcast. destruct (anonymous s) eqn:Ea; auto. cbn [next_transfer_id].
      destruct (send _ _ _ _ _ _ _) as [s' r] eqn:E. apply send_shape in E.
      destruct E as (fs & err & -> & _). destruct r; apply mild_see; try discriminate; constructor; auto.
    - left. now apply respond_mild.
    - left. constructor; cbn; auto. intros e r k. apply Henter. discriminate.
    - left. constructor; cbn; auto. intros e r k. apply Henter. discriminate.
    - left. destruct (dget Nat.eqb _ _) as [ev|]; auto. destruct (cancel _ _) as [q|] eqn:Ec; auto.
      constructor; cbn; auto. intros e r k Hi _. eapply cancel_In; eauto.
    - left. constructor; cbn; auto.
    - left. destruct (remove_entry _ _); auto. constructor; cbn; auto.
    - left. constructor; cbn; auto.
    - left. unfold set_node_id. destruct (anonymous s) eqn:Ea; auto. destruct (_ && _); auto.
      constructor; cbn; auto; [|congruence]. exists [ONodeId (Z.to_N v)]. split; auto. intros ? ? ? ? [H|[]]; discriminate.
    - left. constructor; cbn; auto.
  Qed.

  (** ** What is known about every request *)
  Record W (s : node) : Prop := {
    w_log : forall r h tid dl, In (ORequest r h tid dl) (n_log s) ->
      anonymous s = false /\ (exists a, n_id s = Some a /\ request_header a h) /\ (exists i, message_id h = Ok i) /\ (r < n_reqs s)%nat;
    w_ev : forall e r k, In e (n_queue s) -> ev_act e = ATimeout r k ->
      exists h tid dl i, In (ORequest r h tid dl) (n_log s) /\ message_id h = Ok i /\ k = (i, Some tid);
    w_cb : forall k r ev, dget key_eqb (n_callbacks s) k = Some (r, ev) ->
      exists h tid dl i, In (ORequest r h tid dl) (n_log s) /\ message_id h = Ok i /\ k = (i, Some tid)
  }.

  Lemma anon_id s s' : n_id s' = n_id s -> anonymous s' = anonymous s.
  Proof. unfold anonymous. now intros ->. Qed.

  Lemma W_mild s s' : mild s s' -> W s -> W s'.
  Proof.
    intros [(l & E & N) B C D F G] [H1 H2 H3].
    assert (X : forall r h tid dl, In (ORequest r h tid dl) (n_log s') <-> In (ORequest r h tid dl) (n_log s)).
    { intros. rewrite E, in_app_iff. split; auto. intros [?|Hi]; auto. destruct (N _ _ _ _ Hi). }
    constructor.
    - intros r h tid dl Hi. apply X in Hi. destruct (H1 _ _ _ _ Hi) as (A1 & (a & A2 & A3) & A4 & A5).
      specialize (G A1). rewrite (anon_id _ _ G), F. split; auto. split; auto. exists a. rewrite G. auto.
    - intros e r k Hi Ea. destruct (H2 e r k (D _ _ _ Hi Ea) Ea) as (h & tid & dl & i & A1 & A2). exists h, tid, dl, i. rewrite X. auto.
    - intros k r ev Hd. rewrite B in Hd. destruct (H3 _ _ _ Hd) as (h & tid & dl & i & A1 & A2). exists h, tid, dl, i. rewrite X. auto.
  Qed.

  Lemma W_registers s s' h tid i dl : registers s s' h tid i dl -> W s -> W s'.
  Proof.
    intros [(sess & fs & E) B C D F G A Hh Hi] [H1 H2 H3].
    assert (X : forall r h tid dl, In (ORequest r h tid dl) (n_log s) -> In (ORequest r h tid dl) (n_log s')).
    { intros. rewrite E, in_app_iff. auto. }
    assert (Y : In (ORequest (n_reqs s) h tid dl) (n_log s')).
    { rewrite E, in_app_iff. cbn. auto. }
    constructor.
    - intros r h1 tid1 dl1 Hin. rewrite (anon_id _ _ G), A, G, F. split; auto. rewrite E in Hin. apply in_app_or in Hin.
      destruct Hin as [Hin|[Hin|[Hin|[]]]]; [|discriminate|].
      + destruct (H1 _ _ _ _ Hin) as (A1 & A2 & A4 & A5). split; auto.
      + injection Hin; intros; subst. destruct Hh as (Q1 & Q2 & Q3 & Q4).
        split; [|split; [eauto|lia]]. unfold anonymous in A. destruct (n_id s) as [a|]; [|discriminate].
        exists a. split; auto. repeat split; auto.
    - intros e r k Hin Ea. rewrite D in Hin. apply push_In in Hin. destruct Hin as [->|Hin].
      + cbn in Ea. injection Ea; intros; subst. exists h, tid, dl, i. auto.
      + destruct (H2 _ _ _ Hin Ea) as (h' & tid' & dl' & i' & A1 & A2). exists h', tid', dl', i'. auto.
    - intros k r ev Hd. rewrite B in Hd. destruct (key_eqb (i, Some tid) k) eqn:Ek.
      + apply key_eqb_spec in Ek. subst k. rewrite (dget_dset_same _ key_eqb_spec) in Hd. injection Hd; intros; subst.
        exists h, tid, dl, i. auto.
      + rewrite (dget_dset_other _ key_eqb_spec) in Hd by (now apply key_neq).
        destruct (H3 _ _ _ Hd) as (h' & tid' & dl' & i' & A1 & A2). exists h', tid', dl', i'. auto.
  Qed.

  Lemma W_nop s op : W s -> W (fst (apply_nop s op)).
  Proof.
    intros H. destruct (nop_kind s op) as [M|(h & tid & i & dl & M)]; [eapply W_mild|eapply W_registers]; eauto.
  Qed.
  Lemma W_see s o : (forall r h tid dl, o <> ORequest r h tid dl) -> W s -> W (see s o).
  Proof. intros Ho. apply W_mild. apply mild_see; auto. apply mild_refl. Qed.
  Lemma W_react s : W s -> W (fst (react s)).
  Proof. apply react_ind. apply W_nop. Qed.

  Lemma called_mild s r ev t : mild s (called s r ev t).
  Proof.
    unfold called. destruct (mild_refl s). apply mild_see; [|discriminate].
    destruct (cancel ev (n_queue s)) as [q|] eqn:E; [|apply mild_refl].
    constructor; auto. intros e r' k Hi _. cbn in Hi. eapply cancel_In; eauto.
  Qed.

  Lemma W_forget s k R : NoDup (map fst (n_callbacks s)) -> W s -> W (set_pending s R (ddel key_eqb (n_callbacks s) k)).
  Proof.
    intros Nd [H1 H2 H3]. constructor; cbn; auto. intros k' r ev Hd. destruct (key_eqb k k') eqn:Ek.
    - apply key_eqb_spec in Ek. subst k'. rewrite (dget_ddel_same _ key_eqb_spec) in Hd; [discriminate|auto].
    - rewrite (dget_ddel_other _ key_eqb_spec) in Hd by (now apply key_neq).
      eauto.
  Qed.

  Lemma W_recv fuel s t : GS s -> W s -> W (fst (recv_transfer fuel s t)).
  Proof.
    intros HG H. unfold Node.recv_transfer. destruct (_ && _ && _).
    - destruct (find_request t (n_requests s)) as [k|] eqn:Ef; auto.
      destruct (dget key_eqb (n_callbacks s) k) as [[r ev]|] eqn:Ec; auto.
      fold (called s r ev t).
      pose proof (W_react _ (W_mild _ _ (called_mild s r ev t) H)) as H2.
      pose proof (GS_react clk beh drv second _ (GS_called s r ev k t HG Ec Ef)) as G2.
      destruct (react (called s r ev t)) as [s2 [y|x]]; cbn [fst] in *; auto.
      destruct (negb _); auto. destruct (negb _).
      + destruct H2. constructor; auto.
      + cbn [fst]. apply W_forget; auto. apply (g_ndC _ _ _ _ _ _ _ G2).
    - destruct (_ || _ || _); auto. apply call_handlers_ind; auto.
      + apply W_nop.
      + intros. apply W_see; auto. discriminate.
      + intros. eapply W_mild; [|eassumption]. apply respond_mild, mild_refl.
  Qed.

  Lemma W_exec s e q now : GS s -> W s -> n_queue s = e :: q -> ev_time e <= now ->
    W (fst (nexec e now (npop s))).
  Proof.
    intros HG H Eq Hdue. unfold Node.nexec.
    assert (Hpop : W (npop s)).
    { apply (W_mild s); auto. destruct (mild_refl s). constructor; auto.
      cbn. rewrite Eq. cbn. auto. }
    assert (Hen : forall t p a, (forall r k, a <> ATimeout r k) -> W (nenter (npop s) t p a)).
    { intros t p a Ha. apply (W_mild (npop s)); auto. destruct (mild_refl (npop s)). constructor; auto.
      intros e' r k Hi Ea. cbn in Hi. apply push_In in Hi. destruct Hi as [->|Hi]; auto. destruct (Ha _ _ Ea). }
    destruct (ev_act e) as [p|h|h p|r k] eqn:Ea.
    - destruct (anonymous _); [apply Hen; discriminate|].
      match goal with |- context [broadcast ?s1 ?d ?v ?p0 ?c0] =>
        change (broadcast s1 d v p0 c0) with (apply_nop s1 (NBroadcast d v p0 c0)) end.
      apply W_nop, Hen. discriminate.
    - match goal with |- context [react ?s1] => assert (H1 : W (fst (react s1))); [|destruct (react s1); exact H1] end.
      apply W_react, W_see; auto. discriminate.
    - match goal with |- context [react ?s1] => assert (H1 : W (fst (react s1))); [|destruct (react s1); exact H1] end.
      apply W_react, W_see; [discriminate|].
      specialize (Hen (ev_time e + p) 0 (AEvery h p) ltac:(discriminate)). destruct Hen. constructor; auto.
    - match goal with |- context [react ?s1] => assert (H1 : W (fst (react s1))); [|destruct (react s1); exact H1] end.
      apply W_react, W_see; [discriminate|]. apply W_forget; auto. apply (g_ndC _ _ _ _ _ _ _ HG).
  Qed.

  Lemma W_history fuel s ins : GS s -> W s -> W (node_history fuel s ins).
  Proof.
    intros HG H.
    enough (X : (fun s => GS s /\ W s) (node_history fuel s ins)) by apply X.
    apply history_ind; auto.
    - intros s' op [A B]. split; [now apply GS_nop|now apply W_nop].
    - intros s' t [A B]. split; [now apply GS_recv|now apply W_recv].
    - intros s' m [A B]. split; [exact A|]. destruct B. constructor; auto.
    - intros s' [A B]. split; [exact A|]. destruct B. constructor; auto.
    - intros s' e q now [A B] Eq Hd. split; [eapply GS_exec; eauto|eapply W_exec; eauto].
  Qed.

  Lemma W_new id canfd catch interval info : W (new_node clk id canfd catch interval info).
  Proof.
    constructor; cbn.
    - intros ? ? ? ? [].
    - intros e r k [<-|[]] E. discriminate.
    - discriminate.
  Qed.

  (** ** One request *)
  Section One.
    Variables (a : N) (r0 : nat) (h0 : header) (tid0 i0 : N) (dl0 : Z) (L : list nobs).
    Hypothesis Ha : (a < 128)%N.
    Hypothesis Hh0 : request_header a h0.
    Hypothesis Hi0 : message_id h0 = Ok i0.
    Let k0 : key := (i0, Some tid0).

    (** A later request that has the same session and transfer id. *)
    Definition clash (s : node) : Prop :=
      exists r h dl, (r0 < r)%nat /\ In (ORequest r h tid0 dl) (n_log s) /\ h_dest h = h_dest h0 /\ h_dtid h = h_dtid h0.
    Definition answered (s : node) : Prop := (0 < responses r0 (n_log s) + timeouts r0 (n_log s))%nat.
    Definition waiting (s : node) : Prop :=
      (exists ev, dget key_eqb (n_callbacks s) k0 = Some (r0, ev)) /\
      dget key_eqb (n_requests s) k0 = Some (h0, tid0) /\
      forall e r, In e (n_queue s) -> ev_act e = ATimeout r k0 -> r = r0.

    Record J (s : node) : Prop := {
      j_id : n_id s = Some a /\ anonymous s = false;
      j_log : exists l, n_log s = L ++ l /\ forall r h tid dl, In (ORequest r h tid dl) l -> (r0 < r)%nat;
      j_reqs : (r0 < n_reqs s)%nat;
      j_state : clash s \/ answered s \/ waiting s
    }.

    Lemma answered_mono s s' l : n_log s' = n_log s ++ l -> answered s -> answered s'.
    Proof. unfold answered. intros ->. rewrite responses_app, timeouts_app. lia. Qed.
    Lemma clash_mono s s' l : n_log s' = n_log s ++ l -> clash s -> clash s'.
    Proof. intros E (r & h & dl & A & B & C). exists r, h, dl. rewrite E, in_app_iff. auto. Qed.

    Lemma J_mild s s' : mild s s' -> J s -> J s'.
    Proof.
      intros [(l & E & N) B C D F G] [(H1 & H1') (l2 & H2 & H2') H3 H4]. specialize (G H1').
      constructor.
      - rewrite G, (anon_id _ _ G). auto.
      - exists (l2 ++ l). rewrite E, H2, app_assoc. split; auto. intros r h tid dl Hi.
        apply in_app_or in Hi. destruct Hi as [Hi|Hi]; [eapply H2'; eauto|destruct (N _ _ _ _ Hi)].
      - now rewrite F.
      - destruct H4 as [H4|[H4|(X & Y & Z)]].
        + left. eapply clash_mono; eauto.
        + right; left. eapply answered_mono; eauto.
        + right; right. unfold waiting. rewrite B, C. split; auto. split; auto. intros e r Hi Ea. eapply Z; eauto.
    Qed.

    Lemma J_registers s s' h tid i dl : registers s s' h tid i dl -> J s -> J s'.
    Proof.
      intros [(sess & fs & E) B C D F G A Hh Hi] [(H1 & H1') (l2 & H2 & H2') H3 H4].
      constructor.
      - rewrite G, (anon_id _ _ G). auto.
      - eexists. rewrite E, H2, <- app_assoc. split; [reflexivity|]. intros r h' tid' dl' Hin.
        apply in_app_or in Hin. destruct Hin as [Hin|[Hin|[Hin|[]]]]; [eapply H2'; eauto|discriminate|]. injection Hin; intros; subst; auto.
      - rewrite F. lia.
      - destruct H4 as [H4|[H4|(X & Y & Z)]].
        + left. eapply clash_mono; eauto.
        + right; left. eapply answered_mono; eauto.
        + destruct (key_eqb (i, Some tid) k0) eqn:Ek.
          * left. apply key_eqb_spec in Ek. unfold k0 in Ek. injection Ek as -> ->.
            exists (n_reqs s), h, dl. split; auto. split; [rewrite E, in_app_iff; cbn; auto|].
            eapply (key_session a h0 h i0); eauto. destruct Hh as (Q1 & Q2 & Q3 & Q4). repeat split; auto. congruence.
          * right; right. apply key_neq in Ek. unfold waiting. rewrite B, C, D.
            rewrite !(dget_dset_other _ key_eqb_spec) by auto. split; auto. split; auto.
            intros e r Hin Ea. apply push_In in Hin. destruct Hin as [->|Hin]; eauto. cbn in Ea. congruence.
    Qed.

    Lemma J_nop s op : J s -> J (fst (apply_nop s op)).
    Proof.
      intros H. destruct (nop_kind s op) as [M|(h & tid & i & dl & M)]; [eapply J_mild|eapply J_registers]; eauto.
    Qed.
    Lemma J_see s o : (forall r h tid dl, o <> ORequest r h tid dl) -> J s -> J (see s o).
    Proof. intros Ho. apply J_mild. apply mild_see; auto. apply mild_refl. Qed.
    Lemma J_react s : J s -> J (fst (react s)).
    Proof. apply react_ind. apply J_nop. Qed.

    Lemma J_finish s k : k <> k0 \/ answered s ->
      J s -> J (set_pending s (ddel key_eqb (n_requests s) k) (ddel key_eqb (n_callbacks s) k)).
    Proof.
      intros Hk [H1 H2 H3 H4]. constructor; auto. destruct H4 as [H4|[H4|(X & Y & Z)]]; auto.
      destruct Hk as [Hk|Hk]; auto. right; right. unfold waiting. cbn.
      rewrite !(dget_ddel_other _ key_eqb_spec) by auto. auto.
    Qed.
    Lemma J_finish1 s k : k <> k0 \/ answered s ->
      J s -> J (set_pending s (ddel key_eqb (n_requests s) k) (n_callbacks s)).
    Proof.
      intros Hk [H1 H2 H3 H4]. constructor; auto. destruct H4 as [H4|[H4|(X & Y & Z)]]; auto.
      destruct Hk as [Hk|Hk]; auto. right; right. unfold waiting. cbn.
      rewrite !(dget_ddel_other _ key_eqb_spec) by auto. auto.
    Qed.

    Lemma log_called s r ev t : n_log (called s r ev t) = n_log s ++ [OResponse r t].
    Proof. unfold called. destruct (cancel _ _); reflexivity. Qed.

    Lemma J_recv fuel s t : GS s -> J s -> J (fst (recv_transfer fuel s t)).
    Proof.
      intros HG H. unfold Node.recv_transfer. destruct (_ && _ && _).
      - destruct (find_request t (n_requests s)) as [k|] eqn:Ef; auto.
        destruct (dget key_eqb (n_callbacks s) k) as [[r ev]|] eqn:Ec; auto.
        fold (called s r ev t).
        pose proof (J_mild _ _ (called_mild s r ev t) H) as H1.
        pose proof (J_react _ H1) as H2.
        assert (Hx : (k <> k0 \/ answered (fst (react (called s r ev t)))) \/ clash (fst (react (called s r ev t)))).
        { destruct (log_react clk beh drv second (n_log (called s r ev t)) (called s r ev t)) as (l' & El).
          { exists []. now rewrite app_nil_r. }
          destruct (j_state _ H) as [X|[X|(X & Y & Z)]].
          - right. eapply clash_mono; [exact El|]. eapply clash_mono; [apply log_called|auto].
          - left; right. eapply answered_mono; [exact El|]. eapply answered_mono; [apply log_called|auto].
          - left. destruct (key_eqb k k0) eqn:Ek; [|left; now apply key_neq].
            apply key_eqb_spec in Ek. subst k. destruct X as (ev' & X). right.
            eapply answered_mono; [exact El|]. unfold answered. rewrite log_called, responses_app.
            rewrite X in Ec. injection Ec as <- <-. cbn. rewrite Nat.eqb_refl. lia. }
        destruct (react (called s r ev t)) as [s2 [y|x]]; cbn [fst] in *; auto.
        destruct (negb _); auto. destruct Hx as [Hx|Hx].
        + destruct (negb _); [now apply J_finish1|now apply J_finish].
        + destruct H2. destruct (negb _); constructor; auto; left; exact Hx.
      - destruct (_ || _ || _); auto. apply call_handlers_ind; auto.
        + apply J_nop.
        + intros. apply J_see; auto. discriminate.
        + intros. eapply J_mild; [|eassumption]. apply respond_mild, mild_refl.
    Qed.

    Lemma J_exec s e q now : J s -> n_queue s = e :: q -> J (fst (nexec e now (npop s))).
    Proof.
      intros H Eq. unfold Node.nexec.
      assert (Hpop : J (npop s)).
      { apply (J_mild s); auto. destruct (mild_refl s). constructor; auto. cbn. rewrite Eq. cbn. auto. }
      assert (Hen : forall t p a, (forall r k, a <> ATimeout r k) -> J (nenter (npop s) t p a)).
      { intros t p a0 Ha0. apply (J_mild (npop s)); auto. destruct (mild_refl (npop s)). constructor; auto.
        intros e' r k Hi Ea. cbn in Hi. apply push_In in Hi. destruct Hi as [->|Hi]; auto. destruct (Ha0 _ _ Ea). }
      destruct (ev_act e) as [p|h|h p|r k] eqn:Ea.
      - destruct (anonymous _); [apply Hen; discriminate|].
        match goal with |- context [broadcast ?s1 ?d ?v ?p0 ?c0] =>
          change (broadcast s1 d v p0 c0) with (apply_nop s1 (NBroadcast d v p0 c0)) end.
        apply J_nop, Hen. discriminate.
      - match goal with |- context [react ?s1] => assert (H1 : J (fst (react s1))); [|destruct (react s1); exact H1] end.
        apply J_react, J_see; auto. discriminate.
      - match goal with |- context [react ?s1] => assert (H1 : J (fst (react s1))); [|destruct (react s1); exact H1] end.
        apply J_react, J_see; [discriminate|].
        specialize (Hen (ev_time e + p) 0 (AEvery h p) ltac:(discriminate)). destruct Hen. constructor; auto.
      - match goal with |- context [react ?s1] => assert (H1 : J (fst (react s1))); [|destruct (react s1); exact H1] end.
        apply J_react. destruct (Nat.eq_dec r r0) as [->|Hne].
        + destruct Hpop as [A (l & B & B') C _]. constructor; auto.
          * exists (l ++ [OTimeout r0 now]). cbn in *. rewrite B, app_assoc. split; auto. intros r h' tid' dl' Hin.
            apply in_app_or in Hin. destruct Hin as [Hin|[Hin|[]]]; [eapply B'; eauto|discriminate].
          * right; left. unfold answered. cbn. rewrite timeouts_app. cbn. rewrite Nat.eqb_refl. lia.
        + apply J_see; [discriminate|]. destruct (key_eqb k k0) eqn:Ek.
          * apply key_eqb_spec in Ek. subst k. destruct Hpop as [A B C D]. constructor; auto.
            destruct (j_state _ H) as [X|[X|(X & Y & Z)]]; auto.
            exfalso. apply Hne. apply (Z e r); auto. rewrite Eq. now left.
          * apply J_finish; auto. left. now apply key_neq.
    Qed.

    Lemma J_history fuel s ins : GS s -> J s -> J (node_history fuel s ins).
    Proof.
      intros HG H.
      enough (X : (fun s => GS s /\ J s) (node_history fuel s ins)) by apply X.
      apply history_ind; auto.
      - intros s' op [A B]. split; [now apply GS_nop|now apply J_nop].
      - intros s' t [A B]. split; [now apply GS_recv|now apply J_recv].
      - intros s' m [A B]. split; [exact A|]. destruct B. constructor; auto.
      - intros s' [A B]. split; [exact A|]. destruct B. constructor; auto.
      - intros s' e q now [A B] Eq Hd. split; [eapply GS_exec; eauto|eapply J_exec; eauto].
    Qed.
  End One.
End Call.
