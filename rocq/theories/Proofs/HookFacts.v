(** Facts of the I/O hooks. *)
From Verif.Base Require Import Prelude.
From Verif.Model Require Import CanFrame Hooks.
From Verif.Spec Require Import HookSpec.

Definition wf (k : hooks) : Prop :=
  NoDup (hk_list k) /\ Forall (fun h => (h < hk_next k)%nat) (hk_list k) /\
  Forall (fun c => (fst (fst c) < hk_next k)%nat) (hk_log k).

Lemma wf_add k : wf k -> wf (add_hook k).
Proof.
  intros (A & B & C). unfold wf, add_hook. cbn. split; [|split].
  - assert (N : ~ In (hk_next k) (hk_list k)).
    { intros I. rewrite Forall_forall in B. specialize (B _ I). lia. }
    clear -A N. induction (hk_list k) as [|x l IH]; cbn; [repeat constructor; intros []|].
    apply NoDup_cons_iff in A as (A1 & A2). constructor.
    + rewrite in_app_iff. intros [I|[I|[]]]; [contradiction|]. apply N. left. congruence.
    + apply IH; [exact A2|]. intros I. apply N. right. exact I.
  - apply Forall_app. split; [|repeat constructor]. eapply Forall_impl; [|exact B]. cbn. lia.
  - eapply Forall_impl; [|exact C]. cbn. lia.
Qed.

Lemma remove_first_in h l x : In x (remove_first h l) -> In x l.
Proof.
  induction l as [|y l IH]; cbn; [auto|]. destruct (Nat.eqb y h); [auto|]. intros [E|I]; auto.
Qed.
Lemma remove_first_other h l x : In x l -> x <> h -> In x (remove_first h l).
Proof.
  induction l as [|y l IH]; cbn; [auto|]. intros [E|I] N.
  - subst y. replace (Nat.eqb x h) with false by (symmetry; apply Nat.eqb_neq; exact N). left. reflexivity.
  - destruct (Nat.eqb y h); [exact I|right; auto].
Qed.
Lemma remove_first_nodup h l : NoDup l -> NoDup (remove_first h l).
Proof.
  induction l as [|y l IH]; cbn; [auto|]. intros N. apply NoDup_cons_iff in N as (A & B).
  destruct (Nat.eqb y h); [exact B|]. constructor; [|auto]. intros I. apply A. eapply remove_first_in; exact I.
Qed.
Lemma wf_remove k h k' : wf k -> remove_hook k h = Ok k' -> wf k'.
Proof.
  unfold remove_hook. destruct (existsb _ _); [|discriminate]. intros (A & B & C) E. injection E as <-.
  unfold wf. cbn. split; [apply remove_first_nodup; exact A|]. split; [|exact C].
  rewrite Forall_forall in *. intros x I. apply B. eapply remove_first_in; exact I.
Qed.
Lemma wf_ops ops : forall k, wf k -> wf (apply_ops k ops).
Proof.
  induction ops as [|[|h] ops IH]; intros k H; cbn; [exact H|apply IH, wf_add, H|].
  destruct (remove_hook k h) eqn:E; [|exact H]. apply IH. eapply wf_remove; eauto.
Qed.

Section Calls.
  Variable beh : list hook_call -> list hook_op * bool.

  Lemma wf_logged k h d f : wf k -> In h (hk_list k) ->
    wf {| hk_list := hk_list k; hk_next := hk_next k; hk_log := hk_log k ++ [(h, d, f)] |}.
  Proof.
    intros (A & B & C) I. unfold wf. cbn. split; [exact A|]. split; [exact B|]. apply Forall_app. split; [exact C|].
    repeat constructor. cbn. rewrite Forall_forall in B. apply B. exact I.
  Qed.

  Lemma wf_call fuel : forall k i d f k', wf k -> call_io_hooks beh fuel k i d f = Some k' -> wf k'.
  Proof.
    induction fuel as [|fuel IH]; intros k i d f k' H; cbn; [discriminate|].
    destruct (nth_error (hk_list k) i) as [h|] eqn:E; [|intros X; injection X as <-; exact H].
    destruct (beh _) as [ops b]. apply IH. apply wf_ops. apply wf_logged; [exact H|]. eapply nth_error_In; exact E.
  Qed.

  Lemma ops_add ops : forall k, (forall h, ~ In (HRemove h) ops) ->
    hk_log (apply_ops k ops) = hk_log k /\ (hk_next k <= hk_next (apply_ops k ops))%nat /\
    exists extra, hk_list (apply_ops k ops) = hk_list k ++ extra /\
      Forall (fun h => (hk_next k <= h)%nat) extra.
  Proof.
    induction ops as [|[|h] ops IH]; intros k H; cbn.
    - split; [reflexivity|]. split; [lia|]. exists []. rewrite app_nil_r. split; [reflexivity|constructor].
    - destruct (IH (add_hook k)) as (A & B & extra & C & D); [intros h I; apply (H h); right; exact I|].
      cbn in *. split; [exact A|]. split; [lia|]. exists (hk_next k :: extra). rewrite C, <- app_assoc.
      split; [reflexivity|]. constructor; [lia|]. eapply Forall_impl; [|exact D]. cbn. lia.
    - exfalso. apply (H h). left. reflexivity.
  Qed.

  Lemma skipn_nth {A} (l : list A) i x : nth_error l i = Some x -> skipn i l = x :: skipn (S i) l.
  Proof.
    revert i. induction l as [|y l IH]; intros [|i]; cbn; try discriminate.
    - intros E. injection E as <-. reflexivity.
    - intros E. apply IH in E. exact E.
  Qed.

  (** All hooks are called in order, then those that were added meanwhile. *)
  Lemma call_sees fuel : never_removes beh -> forall k i d f k', call_io_hooks beh fuel k i d f = Some k' ->
    hk_log k' = hk_log k ++ map (fun h => (h, d, f)) (skipn i (hk_list k')) /\
    (hk_next k <= hk_next k')%nat /\
    exists extra, hk_list k' = hk_list k ++ extra /\ Forall (fun h => (hk_next k <= h)%nat) extra.
  Proof.
    intros NR. induction fuel as [|fuel IH]; intros k i d f k'; cbn [call_io_hooks]; [discriminate|].
    destruct (nth_error (hk_list k) i) as [h|] eqn:E.
    - cbn zeta. cbn [hk_log]. destruct (beh _) as [ops b] eqn:B. intros X. apply IH in X as (A & N & extra & C & D).
      set (k1 := {| hk_list := hk_list k; hk_next := hk_next k; hk_log := hk_log k ++ [(h, d, f)] |}) in *.
      destruct (ops_add ops k1) as (A1 & N1 & extra1 & C1 & D1).
      { intros h' I. apply (NR (hk_log k ++ [(h, d, f)]) h'). rewrite B. exact I. }
      cbn [hk_list hk_next hk_log k1] in *. split; [|split].
      + rewrite A, A1, <- app_assoc. f_equal. rewrite (skipn_nth (hk_list k') i h); [reflexivity|].
        rewrite C, C1, <- app_assoc. rewrite nth_error_app1; [exact E|]. apply nth_error_Some. congruence.
      + lia.
      + exists (extra1 ++ extra). rewrite C, C1, <- app_assoc. split; [reflexivity|]. apply Forall_app. split; [exact D1|].
        eapply Forall_impl; [|exact D]. cbn. lia.
    - intros X. injection X as <-. apply nth_error_None in E. rewrite skipn_all2 by exact E. cbn. rewrite app_nil_r.
      split; [reflexivity|]. split; [lia|]. exists []. rewrite app_nil_r. split; [reflexivity|constructor].
  Qed.

  Lemma ops_length ops : forall k, ~ In HAdd ops -> (length (hk_list (apply_ops k ops)) <= length (hk_list k))%nat.
  Proof.
    induction ops as [|[|h] ops IH]; intros k H; cbn; [lia|exfalso; apply H; left; reflexivity|].
    destruct (remove_hook k h) as [k'|] eqn:E; [|lia].
    assert (length (hk_list k') <= length (hk_list k))%nat.
    { unfold remove_hook in E. destruct (existsb _ _); [|discriminate]. injection E as <-. cbn.
      clear. induction (hk_list k) as [|x l IH]; cbn; [lia|]. destruct (Nat.eqb x h); cbn; lia. }
    assert (~ In HAdd ops) by (intros I; apply H; right; exact I). specialize (IH k' H1). lia.
  Qed.

  (** The loop ends unless hooks keep adding hooks. *)
  Lemma call_ends : never_adds beh -> forall fuel k i d f, (length (hk_list k) - i < fuel)%nat ->
    exists k', call_io_hooks beh fuel k i d f = Some k'.
  Proof.
    intros NA. induction fuel as [|fuel IH]; intros k i d f L; [lia|]. cbn [call_io_hooks].
    destruct (nth_error (hk_list k) i) as [h|] eqn:E; [|eexists; reflexivity].
    assert (i < length (hk_list k))%nat by (apply nth_error_Some; congruence). cbn zeta. cbn [hk_log].
    destruct (beh _) as [ops b] eqn:B. apply IH.
    match goal with |- context [apply_ops ?k1 ops] => pose proof (ops_length ops k1) as O end.
    cbn [hk_list] in O. assert (~ In HAdd ops).
    { specialize (NA (hk_log k ++ [(h, d, f)])). rewrite B in NA. exact NA. }
    specialize (O H0). lia.
  Qed.
End Calls.

(** What one hook sees. *)
Lemma seen_app h d a b : seen h d (a ++ b) = seen h d a ++ seen h d b.
Proof. apply flat_map_app. Qed.

Definition same (a b : direction) : bool := match a, b with RX, RX | TX, TX => true | _, _ => false end.

Lemma seen_calls h d d' f l : NoDup l -> In h l ->
  seen h d (map (fun x => (x, d', f)) l) = if same d d' then [f] else [].
Proof.
  induction l as [|x l IH]; intros N I; [destruct I|]. apply NoDup_cons_iff in N as (A & B).
  change (seen h d (map (fun x => (x, d', f)) (x :: l))) with
    ((if Nat.eqb x h && same d d' then [f] else []) ++ seen h d (map (fun x => (x, d', f)) l)).
  destruct (Nat.eqb x h) eqn:E.
  - apply Nat.eqb_eq in E. subst x. cbn [andb].
    assert (Z : seen h d (map (fun x => (x, d', f)) l) = []).
    { clear -A. induction l as [|y l IH]; [reflexivity|]. cbn in *.
      replace (Nat.eqb y h) with false by (symmetry; apply Nat.eqb_neq; intros E; apply A; left; congruence).
      cbn. apply IH. intros I. apply A. right. exact I. }
    rewrite Z, app_nil_r. reflexivity.
  - cbn [andb app]. apply IH; [exact B|]. destruct I as [I|I]; [|exact I]. apply Nat.eqb_neq in E. congruence.
Qed.

Lemma seen_fresh k h d : wf k -> (hk_next k <= h)%nat -> seen h d (hk_log k) = [].
Proof.
  intros (_ & _ & C) L. induction (hk_log k) as [|[[h' d'] f] l IH]; [reflexivity|].
  apply Forall_cons_iff in C as (C1 & C2). cbn in C1. cbn.
  replace (Nat.eqb h' h) with false by (symmetry; apply Nat.eqb_neq; lia). cbn. apply IH. exact C2.
Qed.

Ltac five := split; [assumption|split; [assumption|split; [assumption|split; assumption]]].

Section Driver.
  Variable beh : list hook_call -> list hook_op * bool.
  Variables (kind : driver_kind) (capacity fuel : nat).
  Hypothesis NR : never_removes beh.

  Lemma one_call k h d f k' : wf k -> In h (hk_list k) -> call_io_hooks beh fuel k 0 d f = Some k' ->
    wf k' /\ In h (hk_list k') /\
    forall d', seen h d' (hk_log k') = seen h d' (hk_log k) ++ if same d' d then [f] else [].
  Proof.
    intros W I E. pose proof (wf_call beh fuel _ _ _ _ _ W E) as W'. split; [exact W'|].
    destruct (call_sees beh fuel NR _ _ _ _ _ E) as (A & _ & extra & C & _).
    assert (I' : In h (hk_list k')) by (rewrite C; apply in_or_app; left; exact I). split; [exact I'|].
    intros d'. rewrite A, seen_app. f_equal. cbn [skipn]. apply seen_calls; [apply W'|exact I'].
  Qed.

  Definition watched (h : nat) (got0 acc0 told0 : list cframe) (s : driver) : Prop :=
    wf (dr_hooks s) /\ In h (hk_list (dr_hooks s)) /\
    (kind <> NoHooks -> dr_got s = got0 ++ seen h RX (hk_log (dr_hooks s))) /\
    (kind = QueueFirst -> dr_accepted s = acc0 ++ seen h TX (hk_log (dr_hooks s))) /\
    (kind = Feedback -> dr_sent s = told0 ++ seen h TX (hk_log (dr_hooks s)) ++ frames_of (dr_fb s)).

  Lemma watched_hook h g0 a0 t0 s k : watched h g0 a0 t0 s -> wf k -> In h (hk_list k) ->
    hk_log k = hk_log (dr_hooks s) -> watched h g0 a0 t0 (with_hooks s k).
  Proof.
    intros (A & B & C & D & E) W I L. unfold watched, with_hooks. cbn. rewrite L. five.
  Qed.

  Lemma check_watched h g0 a0 t0 s s' r : kind = Feedback -> watched h g0 a0 t0 s ->
    check_feedback beh fuel s = Some (s', r) -> watched h g0 a0 t0 s'.
  Proof.
    intros K (A & B & C & D & E). unfold check_feedback. destruct (dr_fb s) as [|[f|x] fb] eqn:F.
    - intros X. injection X as <- <-. unfold watched. rewrite F. five.
    - destruct (call_io_hooks _ _ _ _ _ _) as [k|] eqn:G; [|discriminate]. intros X. injection X as <- <-.
      cbn [dr_hooks] in G. destruct (one_call _ h _ _ _ A B G) as (W & I & S). unfold watched. cbn.
      split; [exact W|]. split; [exact I|]. rewrite !S. cbn [same]. rewrite app_nil_r. split; [exact C|].
      split; [intros Q; congruence|]. intros _. rewrite (E K). cbn. rewrite <- !app_assoc. reflexivity.
    - intros X. injection X as <- <-. unfold watched. cbn. split; [exact A|]. split; [exact B|]. split; [exact C|].
      split; [exact D|]. intros _. rewrite (E K). reflexivity.
  Qed.

  Lemma take_watched h g0 a0 t0 s s' r : watched h g0 a0 t0 s ->
    take_frame beh kind fuel s = Some (s', r) -> watched h g0 a0 t0 s'.
  Proof.
    intros (A & B & C & D & E). unfold take_frame. destruct (dr_rx s) as [|f rx] eqn:F.
    - intros X. injection X as <- <-. five.
    - assert (Y : match call_io_hooks beh fuel (dr_hooks s) 0 RX f with
                  | None => None
                  | Some k => Some (with_hooks {| dr_hooks := dr_hooks s; dr_rx := rx; dr_tx := dr_tx s; dr_fb := dr_fb s;
                      dr_got := dr_got s ++ [f]; dr_accepted := dr_accepted s; dr_sent := dr_sent s |} k, Ok tt)
                  end = Some (s', r) -> kind <> NoHooks -> watched h g0 a0 t0 s').
      { destruct (call_io_hooks _ _ _ _ _ _) as [k|] eqn:G; [|discriminate]. intros X N. injection X as <- <-.
        destruct (one_call _ h _ _ _ A B G) as (W & I & S). unfold watched. cbn. split; [exact W|]. split; [exact I|].
        rewrite !S. cbn [same]. rewrite app_nil_r. split; [|split; assumption]. intros _. rewrite (C N), <- app_assoc. reflexivity. }
      cbn zeta. destruct kind eqn:K; try (intros X; apply Y; [exact X|discriminate]).
      intros X. injection X as <- <-. unfold watched. cbn. rewrite K in *. split; [exact A|]. split; [exact B|].
      split; [intros Q; contradiction|]. split; discriminate.
  Qed.

  Lemma put_watched h g0 a0 t0 s f x s' r : kind <> QueueFirst -> watched h g0 a0 t0 s ->
    put capacity s f x = (s', r) -> watched h g0 a0 t0 s'.
  Proof.
    intros K (A & B & C & D & E). unfold put. destruct (_ <? _)%nat; intros X; injection X as <- <-; [|five].
    unfold watched. cbn. split; [exact A|]. split; [exact B|]. split; [exact C|]. split; [intros Q; contradiction|exact E].
  Qed.

  Lemma step_watched h g0 a0 t0 s e s' r : watched h g0 a0 t0 s -> e <> ERemoveHook h ->
    step beh kind capacity fuel s e = Some (s', r) -> watched h g0 a0 t0 s'.
  Proof.
    intros W NE. pose proof W as (A & B & C & D & E). destruct e as [f| |f| |x| |h']; cbn [step].
    - intros X. injection X as <- <-. five.
    - assert (T : take_frame beh kind fuel s = Some (s', r) -> watched h g0 a0 t0 s') by (apply take_watched; exact W).
      destruct kind eqn:K; try exact T. rewrite <- K in *.
      destruct (check_feedback beh fuel s) as [[s1 [u|x]]|] eqn:F; [| |discriminate].
      + intros X. eapply take_watched; [eapply check_watched; eauto|exact X].
      + intros X. injection X as <- <-. eapply check_watched; eauto.
    - destruct kind eqn:K; rewrite <- K in *.
      + destruct (call_io_hooks _ _ _ _ _ _) as [k|] eqn:G; [|discriminate]. intros X.
        destruct (one_call _ h _ _ _ A B G) as (W' & I & S).
        assert (W1 : watched h g0 a0 t0 (with_hooks s k)).
        { unfold watched. cbn. split; [exact W'|]. split; [exact I|]. rewrite !S. cbn [same]. rewrite app_nil_r.
          split; [exact C|]. split; intros Q; congruence. }
        destruct (put _ _ _ _) as [s1 r1] eqn:P. injection X as <- <-. eapply put_watched; [|exact W1|exact P]. congruence.
      + unfold put. destruct (_ <? _)%nat; [|intros X; injection X as <- <-; exact W]. cbn [dr_hooks].
        destruct (call_io_hooks _ _ _ _ _ _) as [k|] eqn:G; [|discriminate]. intros X. injection X as <- <-.
        destruct (one_call _ h _ _ _ A B G) as (W' & I & S). unfold watched. cbn. split; [exact W'|]. split; [exact I|].
        rewrite !S. cbn [same]. rewrite app_nil_r. split; [exact C|]. split; [|intros Q; congruence].
        intros _. rewrite (D eq_refl), <- app_assoc. reflexivity.
      + destruct (check_feedback beh fuel s) as [[s1 [u|x]]|] eqn:F; [| |discriminate].
        * intros X. destruct (put _ _ _ _) as [s2 r2] eqn:P. injection X as <- <-.
          eapply put_watched; [|eapply check_watched; eauto|exact P]. congruence.
        * intros X. injection X as <- <-. eapply check_watched; eauto.
      + intros X. injection X as <- <-. exact W.
    - destruct (dr_tx s) as [|f tx]; intros X; injection X as <- <-; [exact W|]. unfold watched. cbn.
      split; [exact A|]. split; [exact B|]. split; [exact C|]. split; [exact D|]. intros K. rewrite (E K), K.
      unfold frames_of. rewrite flat_map_app. cbn. rewrite <- !app_assoc. reflexivity.
    - destruct (dr_tx s) as [|f tx]; intros X; injection X as <- <-; [exact W|]. unfold watched. cbn.
      split; [exact A|]. split; [exact B|]. split; [exact C|]. split; [exact D|]. intros K. rewrite (E K), K.
      unfold frames_of. rewrite flat_map_app. cbn. rewrite app_nil_r. reflexivity.
    - intros X. injection X as <- <-. apply watched_hook; [exact W|apply wf_add; exact A|cbn; apply in_or_app; left; exact B|reflexivity].
    - destruct (remove_hook (dr_hooks s) h') as [k|x] eqn:R; intros X; injection X as <- <-; [|exact W].
      apply watched_hook; [exact W|eapply wf_remove; eauto| |].
      + unfold remove_hook in R. destruct (existsb _ _); [|discriminate]. injection R as <-. cbn.
        apply remove_first_other; [exact B|congruence].
      + unfold remove_hook in R. destruct (existsb _ _); [|discriminate]. injection R as <-. reflexivity.
  Qed.

  Lemma run_watched h g0 a0 t0 es : ~ In (ERemoveHook h) es -> forall s s', watched h g0 a0 t0 s ->
    run beh kind capacity fuel s es = Some s' -> watched h g0 a0 t0 s'.
  Proof.
    induction es as [|e es IH]; intros NI s s' W; cbn; [intros X; injection X as <-; exact W|].
    destruct (step _ _ _ _ s e) as [[s1 r]|] eqn:E; [|discriminate]. apply IH; [intros I; apply NI; right; exact I|].
    eapply step_watched; [exact W| |exact E]. intros Q. apply NI. left. exact Q.
  Qed.
End Driver.

(** Every reachable state is well formed, whatever hooks do. *)
Section Reach.
  Variable beh : list hook_call -> list hook_op * bool.
  Variables (kind : driver_kind) (capacity fuel : nat).

  Lemma step_wf s e s' r : wf (dr_hooks s) -> step beh kind capacity fuel s e = Some (s', r) -> wf (dr_hooks s').
  Proof.
    intros W.
    assert (CH : forall s s' r, wf (dr_hooks s) -> check_feedback beh fuel s = Some (s', r) -> wf (dr_hooks s')).
    { clear s s' r W. intros s s' r W. unfold check_feedback. destruct (dr_fb s) as [|[f|x] fb].
      - intros X. injection X as <- <-. exact W.
      - destruct (call_io_hooks _ _ _ _ _ _) as [k|] eqn:G; [|discriminate]. intros X. injection X as <- <-. cbn.
        eapply wf_call; [|exact G]. exact W.
      - intros X. injection X as <- <-. exact W. }
    assert (TK : forall s s' r, wf (dr_hooks s) -> take_frame beh kind fuel s = Some (s', r) -> wf (dr_hooks s')).
    { clear s s' r W CH. intros s s' r W. unfold take_frame. destruct (dr_rx s) as [|f rx].
      - intros X. injection X as <- <-. exact W.
      - cbn zeta. cbn [dr_hooks]. destruct kind;
          try (destruct (call_io_hooks _ _ _ _ _ _) as [k|] eqn:G; [|discriminate]; intros X; injection X as <- <-; cbn;
               eapply wf_call; [|exact G]; exact W).
        intros X. injection X as <- <-. exact W. }
    assert (PU : forall s f x s' r, wf (dr_hooks s) -> put capacity s f x = (s', r) -> wf (dr_hooks s')).
    { clear s s' r W CH TK. intros s f x s' r W. unfold put. destruct (_ <? _)%nat; intros X; injection X as <- <-; exact W. }
    destruct e as [f| |f| |x| |h]; cbn [step].
    - intros X. injection X as <- <-. exact W.
    - destruct kind eqn:K; try (apply TK; exact W).
      destruct (check_feedback beh fuel s) as [[s1 [u|x]]|] eqn:F; [| |discriminate].
      + intros X. eapply TK; [|exact X]. eapply CH; eauto.
      + intros X. injection X as <- <-. eapply CH; eauto.
    - destruct kind.
      + destruct (call_io_hooks _ _ _ _ _ _) as [k|] eqn:G; [|discriminate]. destruct (put _ _ _ _) as [s1 r1] eqn:P.
        intros X. injection X as <- <-. eapply PU; [|exact P]. cbn. eapply wf_call; eauto.
      + destruct (put _ _ _ _) as [s1 [u|x]] eqn:P.
        * destruct (call_io_hooks _ _ _ _ _ _) as [k|] eqn:G; [|discriminate]. intros X. injection X as <- <-. cbn.
          eapply wf_call; [|exact G]. eapply PU; eauto.
        * intros X. injection X as <- <-. eapply PU; eauto.
      + destruct (check_feedback beh fuel s) as [[s1 [u|x]]|] eqn:F; [| |discriminate].
        * destruct (put _ _ _ _) as [s2 r2] eqn:P. intros X. injection X as <- <-. eapply PU; [|exact P]. eapply CH; eauto.
        * intros X. injection X as <- <-. eapply CH; eauto.
      + intros X. injection X as <- <-. exact W.
    - destruct (dr_tx s); intros X; injection X as <- <-; exact W.
    - destruct (dr_tx s); intros X; injection X as <- <-; exact W.
    - intros X. injection X as <- <-. apply wf_add. exact W.
    - destruct (remove_hook _ _) eqn:R; intros X; injection X as <- <-; [|exact W]. eapply wf_remove; eauto.
  Qed.

  Lemma run_wf es : forall s s', wf (dr_hooks s) -> run beh kind capacity fuel s es = Some s' -> wf (dr_hooks s').
  Proof.
    induction es as [|e es IH]; intros s s' W; cbn; [intros X; injection X as <-; exact W|].
    destruct (step _ _ _ _ s e) as [[s1 r]|] eqn:E; [|discriminate]. apply IH. eapply step_wf; eauto.
  Qed.

  Lemma new_wf : wf (dr_hooks new_driver).
  Proof. split; [constructor|split; constructor]. Qed.

  (** Feedback that is pending is about frames that were sent. *)
  Lemma step_told s e s' r : kind = Feedback -> (exists p, dr_sent s = p ++ frames_of (dr_fb s)) ->
    step beh kind capacity fuel s e = Some (s', r) -> exists p, dr_sent s' = p ++ frames_of (dr_fb s').
  Proof.
    intros K (p & H).
    assert (CH : forall s1 r, check_feedback beh fuel s = Some (s1, r) -> exists p, dr_sent s1 = p ++ frames_of (dr_fb s1)).
    { intros s1 r1. unfold check_feedback. destruct (dr_fb s) as [|[f|x] fb] eqn:F.
      - intros X. injection X as <- <-. exists p. rewrite F. exact H.
      - destruct (call_io_hooks _ _ _ _ _ _) as [k|]; [|discriminate]. intros X. injection X as <- <-. cbn.
        exists (p ++ [f]). rewrite H, <- app_assoc. reflexivity.
      - intros X. injection X as <- <-. cbn. exists p. exact H. }
    assert (TK : forall s s' r, take_frame beh kind fuel s = Some (s', r) -> dr_sent s' = dr_sent s /\ dr_fb s' = dr_fb s).
    { clear. intros s s' r. unfold take_frame. destruct (dr_rx s); [intros X; injection X as <- <-; auto|].
      destruct kind; try (destruct (call_io_hooks _ _ _ _ _ _); [|discriminate]);
        intros X; injection X as <- <-; auto. }
    assert (PU : forall s f x s' r, put capacity s f x = (s', r) -> dr_sent s' = dr_sent s /\ dr_fb s' = dr_fb s).
    { clear. intros s f x s' r. unfold put. destruct (_ <? _)%nat; intros X; injection X as <- <-; auto. }
    destruct e as [f| |f| |x| |h]; cbn [step]; rewrite ?K.
    - intros X. injection X as <- <-. exists p. exact H.
    - destruct (check_feedback beh fuel s) as [[s1 [u|x]]|] eqn:F; [| |discriminate].
      + intros X. rewrite <- K in X. apply TK in X as (X1 & X2). rewrite X1, X2. eapply CH; reflexivity.
      + intros X. injection X as <- <-. eapply CH; reflexivity.
    - destruct (check_feedback beh fuel s) as [[s1 [u|x]]|] eqn:F; [| |discriminate].
      + destruct (put _ _ _ _) as [s2 r2] eqn:P. intros X. injection X as <- <-.
        apply PU in P as (X1 & X2). rewrite X1, X2. eapply CH; reflexivity.
      + intros X. injection X as <- <-. eapply CH; reflexivity.
    - destruct (dr_tx s) as [|f tx]; intros X; injection X as <- <-; [exists p; exact H|]. cbn. exists p.
      rewrite H. unfold frames_of. rewrite flat_map_app. cbn. rewrite <- app_assoc. reflexivity.
    - destruct (dr_tx s) as [|f tx]; intros X; injection X as <- <-; [exists p; exact H|]. cbn. exists p.
      rewrite H. unfold frames_of. rewrite flat_map_app. cbn. rewrite app_nil_r. reflexivity.
    - intros X. injection X as <- <-. exists p. exact H.
    - destruct (remove_hook _ _); intros X; injection X as <- <-; exists p; exact H.
  Qed.

  Lemma run_told es : kind = Feedback -> forall s s', (exists p, dr_sent s = p ++ frames_of (dr_fb s)) ->
    run beh kind capacity fuel s es = Some s' -> exists p, dr_sent s' = p ++ frames_of (dr_fb s').
  Proof.
    intros K. induction es as [|e es IH]; intros s s' W; cbn; [intros X; injection X as <-; exact W|].
    destruct (step _ _ _ _ s e) as [[s1 r]|] eqn:E; [|discriminate]. apply IH. eapply step_told; eauto.
  Qed.

  (** What was accepted is sent in order. *)
  Lemma step_queue s e s' r : (forall x, e <> EFail x) -> dr_accepted s = dr_sent s ++ dr_tx s ->
    step beh kind capacity fuel s e = Some (s', r) -> dr_accepted s' = dr_sent s' ++ dr_tx s'.
  Proof.
    intros NF H.
    assert (CH : forall s1 r, check_feedback beh fuel s = Some (s1, r) -> dr_accepted s1 = dr_sent s1 ++ dr_tx s1).
    { intros s1 r1. unfold check_feedback. destruct (dr_fb s) as [|[f|x] fb] eqn:F.
      - intros X. injection X as <- <-. exact H.
      - destruct (call_io_hooks _ _ _ _ _ _) as [k|]; [|discriminate]. intros X. injection X as <- <-. exact H.
      - intros X. injection X as <- <-. exact H. }
    assert (TK : forall s s' r, take_frame beh kind fuel s = Some (s', r) ->
        dr_sent s' = dr_sent s /\ dr_tx s' = dr_tx s /\ dr_accepted s' = dr_accepted s).
    { clear. intros s s' r. unfold take_frame. destruct (dr_rx s); [intros X; injection X as <- <-; auto|].
      destruct kind; try (destruct (call_io_hooks _ _ _ _ _ _); [|discriminate]);
        intros X; injection X as <- <-; auto. }
    assert (PU : forall s f x s' r, dr_accepted s = dr_sent s ++ dr_tx s -> put capacity s f x = (s', r) ->
        dr_accepted s' = dr_sent s' ++ dr_tx s').
    { clear. intros s f x s' r H. unfold put. destruct (_ <? _)%nat; intros X; injection X as <- <-; [|exact H].
      cbn. rewrite H, app_assoc. reflexivity. }
    destruct e as [f| |f| |x| |h]; cbn [step].
    - intros X. injection X as <- <-. exact H.
    - destruct kind eqn:K; rewrite <- K in *;
        try (intros X; apply TK in X as (X1 & X2 & X3); rewrite X1, X2, X3; exact H).
      destruct (check_feedback beh fuel s) as [[s1 [u|x]]|] eqn:F; [| |discriminate].
      + intros X. apply TK in X as (X1 & X2 & X3). rewrite X1, X2, X3. eapply CH; reflexivity.
      + intros X. injection X as <- <-. eapply CH; reflexivity.
    - destruct kind.
      + destruct (call_io_hooks _ _ _ _ _ _) as [k|] eqn:G; [|discriminate]. destruct (put _ _ _ _) as [s1 r1] eqn:P.
        intros X. injection X as <- <-. eapply PU; [|exact P]. exact H.
      + destruct (put _ _ _ _) as [s1 [u|x]] eqn:P; apply PU in P; auto.
        * destruct (call_io_hooks _ _ _ _ _ _) as [k|] eqn:G; [|discriminate]. intros X. injection X as <- <-. exact P.
        * intros X. injection X as <- <-. exact P.
      + destruct (check_feedback beh fuel s) as [[s1 [u|x]]|] eqn:F; [| |discriminate].
        * destruct (put _ _ _ _) as [s2 r2] eqn:P. intros X. injection X as <- <-. eapply PU; [|exact P]. eapply CH; reflexivity.
        * intros X. injection X as <- <-. eapply CH; reflexivity.
      + intros X. injection X as <- <-. exact H.
    - destruct (dr_tx s) as [|f tx] eqn:T; intros X; injection X as <- <-; [rewrite T; exact H|]. cbn.
      rewrite H, <- app_assoc. reflexivity.
    - exfalso. exact (NF x eq_refl).
    - intros X. injection X as <- <-. exact H.
    - destruct (remove_hook _ _); intros X; injection X as <- <-; exact H.
  Qed.

  Lemma run_queue es : (forall x, ~ In (EFail x) es) -> forall s s', dr_accepted s = dr_sent s ++ dr_tx s ->
    run beh kind capacity fuel s es = Some s' -> dr_accepted s' = dr_sent s' ++ dr_tx s'.
  Proof.
    induction es as [|e es IH]; intros NF s s' W; cbn; [intros X; injection X as <-; exact W|].
    destruct (step _ _ _ _ s e) as [[s1 r]|] eqn:E; [|discriminate]. apply IH; [intros x I; apply (NF x); right; exact I|].
    eapply step_queue; eauto. intros x Q. apply (NF x). left. exact Q.
  Qed.

  (** Frames are received in the order of arrival. *)
  Definition arrivals (es : list driver_event) : list cframe :=
    flat_map (fun e => match e with EArrive f => [f] | _ => [] end) es.

  Lemma step_rx s e s' r : step beh kind capacity fuel s e = Some (s', r) ->
    dr_got s' ++ dr_rx s' = dr_got s ++ dr_rx s ++ arrivals [e].
  Proof.
    assert (CH : forall s1 r, check_feedback beh fuel s = Some (s1, r) -> dr_got s1 = dr_got s /\ dr_rx s1 = dr_rx s).
    { intros s1 r1. unfold check_feedback. destruct (dr_fb s) as [|[f|x] fb] eqn:F.
      - intros X. injection X as <- <-. auto.
      - destruct (call_io_hooks _ _ _ _ _ _) as [k|]; [|discriminate]. intros X. injection X as <- <-. auto.
      - intros X. injection X as <- <-. auto. }
    assert (TK : forall s s' r, take_frame beh kind fuel s = Some (s', r) -> dr_got s' ++ dr_rx s' = dr_got s ++ dr_rx s).
    { clear. intros s s' r. unfold take_frame. destruct (dr_rx s) as [|f rx] eqn:E; [intros X; injection X as <- <-; rewrite E; reflexivity|].
      destruct kind; try (destruct (call_io_hooks _ _ _ _ _ _); [|discriminate]);
        intros X; injection X as <- <-; cbn; rewrite <- app_assoc; reflexivity. }
    assert (PU : forall s f x s' r, put capacity s f x = (s', r) -> dr_got s' = dr_got s /\ dr_rx s' = dr_rx s).
    { clear. intros s f x s' r. unfold put. destruct (_ <? _)%nat; intros X; injection X as <- <-; auto. }
    destruct e as [f| |f| |x| |h]; cbn [step arrivals flat_map app]; rewrite ?app_nil_r.
    - intros X. injection X as <- <-. reflexivity.
    - destruct kind eqn:K; rewrite <- K in *; try (apply TK).
      destruct (check_feedback beh fuel s) as [[s1 [u|x]]|] eqn:F; [| |discriminate].
      + intros X. apply TK in X. rewrite X. destruct (CH _ _ eq_refl) as (-> & ->). reflexivity.
      + intros X. injection X as <- <-. destruct (CH _ _ eq_refl) as (-> & ->). reflexivity.
    - destruct kind.
      + destruct (call_io_hooks _ _ _ _ _ _) as [k|] eqn:G; [|discriminate]. destruct (put _ _ _ _) as [s1 r1] eqn:P.
        intros X. injection X as <- <-. apply PU in P as (-> & ->). reflexivity.
      + destruct (put _ _ _ _) as [s1 [u|x]] eqn:P; apply PU in P as (X1 & X2).
        * destruct (call_io_hooks _ _ _ _ _ _) as [k|] eqn:G; [|discriminate]. intros X. injection X as <- <-. cbn.
          rewrite X1, X2. reflexivity.
        * intros X. injection X as <- <-. rewrite X1, X2. reflexivity.
      + destruct (check_feedback beh fuel s) as [[s1 [u|x]]|] eqn:F; [| |discriminate].
        * destruct (put _ _ _ _) as [s2 r2] eqn:P. intros X. injection X as <- <-. apply PU in P as (-> & ->).
          destruct (CH _ _ eq_refl) as (-> & ->). reflexivity.
        * intros X. injection X as <- <-. destruct (CH _ _ eq_refl) as (-> & ->). reflexivity.
      + intros X. injection X as <- <-. reflexivity.
    - destruct (dr_tx s); intros X; injection X as <- <-; reflexivity.
    - destruct (dr_tx s); intros X; injection X as <- <-; reflexivity.
    - intros X. injection X as <- <-. reflexivity.
    - destruct (remove_hook _ _); intros X; injection X as <- <-; reflexivity.
  Qed.

  Lemma run_rx es : forall s s', run beh kind capacity fuel s es = Some s' ->
    dr_got s' ++ dr_rx s' = dr_got s ++ dr_rx s ++ arrivals es.
  Proof.
    induction es as [|e es IH]; intros s s'; cbn [run]; [intros X; injection X as <-; cbn; rewrite app_nil_r; reflexivity|].
    destruct (step _ _ _ _ s e) as [[s1 r]|] eqn:E; [|discriminate]. intros X. apply IH in X. rewrite X.
    apply step_rx in E. rewrite app_assoc, E. change (arrivals (e :: es)) with (arrivals ([e] ++ es)).
    unfold arrivals. rewrite flat_map_app, <- !app_assoc. reflexivity.
  Qed.
End Reach.

(** A hook registered at some time sees all that follows. *)
Lemma registered beh kind capacity fuel es1 es2 s1 s2 : never_removes beh ->
  run beh kind capacity fuel new_driver es1 = Some s1 ->
  let h := hk_next (dr_hooks s1) in
  ~ In (ERemoveHook h) es2 ->
  run beh kind capacity fuel s1 (EAddHook :: es2) = Some s2 ->
  (kind <> NoHooks -> dr_got s2 = dr_got s1 ++ seen h RX (hk_log (dr_hooks s2))) /\
  (kind = QueueFirst -> dr_accepted s2 = dr_accepted s1 ++ seen h TX (hk_log (dr_hooks s2))) /\
  (kind = Feedback -> exists told, dr_sent s1 = told ++ frames_of (dr_fb s1) /\
     dr_sent s2 = told ++ seen h TX (hk_log (dr_hooks s2)) ++ frames_of (dr_fb s2)).
Proof.
  intros NR R1 h NI R2. pose proof (run_wf _ _ _ _ _ _ _ new_wf R1) as W1.
  assert (T1 : exists told, kind = Feedback -> dr_sent s1 = told ++ frames_of (dr_fb s1)).
  { destruct kind eqn:K; try (exists []; intros Q; discriminate).
    destruct (run_told beh Feedback capacity fuel es1 eq_refl new_driver s1) as (p & P); [exists []; reflexivity|exact R1|].
    exists p. intros _. exact P. }
  destruct T1 as (told & T1).
  assert (WA : watched kind h (dr_got s1) (dr_accepted s1) told (with_hooks s1 (add_hook (dr_hooks s1)))).
  { unfold watched. cbn [with_hooks dr_hooks dr_got dr_accepted dr_sent dr_fb add_hook hk_log hk_list]. split; [apply wf_add; exact W1|]. split; [apply in_or_app; right; left; reflexivity|].
    rewrite !(seen_fresh _ h _ W1) by (unfold h; lia). rewrite !app_nil_r. split; [reflexivity|]. split; [reflexivity|]. exact T1. }
  cbn [run step] in R2. pose proof (run_watched beh kind capacity fuel NR h _ _ _ es2 NI _ _ WA R2) as (_ & _ & A & B & C).
  split; [exact A|]. split; [exact B|]. intros K. exists told. split; [exact (T1 K)|exact (C K)].
Qed.

(** Drivers that call hooks first show all that was to be sent. *)
Definition sends (es : list driver_event) : list cframe :=
  flat_map (fun e => match e with ESend f => [f] | _ => [] end) es.

Lemma step_shown beh capacity fuel h s e s' r : never_removes beh -> wf (dr_hooks s) -> In h (hk_list (dr_hooks s)) ->
  e <> ERemoveHook h -> step beh HookFirst capacity fuel s e = Some (s', r) ->
  wf (dr_hooks s') /\ In h (hk_list (dr_hooks s')) /\
  seen h TX (hk_log (dr_hooks s')) = seen h TX (hk_log (dr_hooks s)) ++ sends [e].
Proof.
  intros NR W B NE X. split; [eapply step_wf; eauto|]. revert X.
  destruct e as [f| |f| |x| |h']; cbn [step sends flat_map app]; rewrite ?app_nil_r.
  - intros X. injection X as <- <-. auto.
  - unfold take_frame. destruct (dr_rx s) as [|f rx]; [intros X; injection X as <- <-; auto|]. cbn [dr_hooks].
    destruct (call_io_hooks _ _ _ _ _ _) as [k|] eqn:G; [|discriminate]. intros X. injection X as <- <-.
    destruct (one_call beh fuel NR _ h _ _ _ W B G) as (_ & I & S). cbn [with_hooks dr_hooks]. split; [exact I|].
    rewrite S. cbn [same]. apply app_nil_r.
  - destruct (call_io_hooks _ _ _ _ _ _) as [k|] eqn:G; [|discriminate]. intros X.
    destruct (one_call beh fuel NR _ h _ _ _ W B G) as (_ & I & S).
    unfold put in X. destruct (_ <? _)%nat; injection X as <- <-; cbn [with_hooks dr_hooks]; (split; [exact I|apply S]).
  - destruct (dr_tx s) as [|f tx]; intros X; injection X as <- <-; auto.
  - destruct (dr_tx s) as [|f tx]; intros X; injection X as <- <-; auto.
  - intros X. injection X as <- <-. cbn [with_hooks dr_hooks add_hook hk_list hk_log]. split; [apply in_or_app; auto|reflexivity].
  - destruct (remove_hook (dr_hooks s) h') as [k|x] eqn:R; intros X; injection X as <- <-; [|auto].
    unfold remove_hook in R. destruct (existsb _ _); [|discriminate]. injection R as <-.
    cbn [with_hooks dr_hooks hk_list hk_log]. split; [apply remove_first_other; [exact B|congruence]|reflexivity].
Qed.

Lemma run_shown beh capacity fuel h es : never_removes beh -> ~ In (ERemoveHook h) es -> forall s s',
  wf (dr_hooks s) -> In h (hk_list (dr_hooks s)) -> run beh HookFirst capacity fuel s es = Some s' ->
  seen h TX (hk_log (dr_hooks s')) = seen h TX (hk_log (dr_hooks s)) ++ sends es.
Proof.
  intros NR. induction es as [|e es IH]; intros NI s s' W B; cbn [run]; [intros X; injection X as <-; cbn [sends flat_map]; rewrite app_nil_r; reflexivity|].
  destruct (step _ _ _ _ s e) as [[s1 r]|] eqn:E; [|discriminate]. intros X.
  destruct (step_shown beh capacity fuel h s e s1 r NR W B) as (W1 & B1 & S1); [intros Q; apply NI; left; exact Q|exact E|].
  apply IH in X; [|intros I; apply NI; right; exact I|exact W1|exact B1]. rewrite X, S1, <- app_assoc. f_equal.
  change (sends (e :: es)) with (sends ([e] ++ es)). unfold sends. rewrite flat_map_app. reflexivity.
Qed.

Lemma shown beh capacity fuel es1 es2 s1 s2 : never_removes beh ->
  run beh HookFirst capacity fuel new_driver es1 = Some s1 ->
  let h := hk_next (dr_hooks s1) in
  ~ In (ERemoveHook h) es2 ->
  run beh HookFirst capacity fuel s1 (EAddHook :: es2) = Some s2 ->
  seen h TX (hk_log (dr_hooks s2)) = sends es2.
Proof.
  intros NR R1 h NI R2. pose proof (run_wf _ _ _ _ _ _ _ new_wf R1) as W1. cbn [run step] in R2.
  apply (run_shown beh capacity fuel h es2 NR NI) in R2.
  - rewrite R2. cbn [with_hooks dr_hooks add_hook hk_log]. rewrite (seen_fresh _ h _ W1) by (unfold h; lia). reflexivity.
  - apply wf_add. exact W1.
  - cbn. apply in_or_app. right. left. reflexivity.
Qed.
