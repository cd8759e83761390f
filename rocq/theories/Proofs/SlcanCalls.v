(** Every command line request is answered once. *)
From Verif.Base Require Import Prelude.
From Verif.Model Require Import TsEst Slcan Utf8 SlcanCli.
From Verif.Spec Require Import SlcanSpec SlcanCliSpec.
From Verif.Proofs Require Import SlcanFacts SlcanCliFacts SlcanCliTop.
Local Open Scope N_scope.

(** The requests in the receiver, oldest first. *)
Definition in_receiver (s : cli) : list request :=
  map a_request (k_answers s) ++ (match k_outstanding s with Some q => [q] | None => [] end) ++ k_pending s.

Lemma text_keeps s x s' : cli_text s x = Ok s' -> in_receiver s' = in_receiver s /\ exists more, k_answers s' = k_answers s ++ more /\
  Forall (fun a => a_expired a = false) more.
Proof.
  unfold cli_text. intros H. assert (Same : in_receiver s = in_receiver s /\ exists more, k_answers s = k_answers s ++ more /\ Forall (fun a => a_expired a = false) more).
  { split; [reflexivity|]. exists []. rewrite app_nil_r. auto. }
  destruct (k_lines s) as [|e out].
  - destruct (k_outstanding s) eqn:K; [|injection H as <-; exact Same].
    apply bind_ok in H as (e & _ & H). destruct (list_eqb x e); injection H as <-; [|exact Same].
    unfold in_receiver in *. cbn [k_answers k_outstanding k_pending]. rewrite K in *. exact Same.
  - destruct (list_eqb x [END_OF_TEXT]); [|injection H as <-; exact Same].
    destruct (k_outstanding s) as [q|] eqn:K; [|discriminate]. apply bind_ok in H as (t & _ & H). injection H as <-.
    unfold in_receiver. cbn [k_answers k_outstanding k_pending]. split; [|eexists; split; [reflexivity|]; constructor; [reflexivity|constructor]].
    rewrite K, map_app, <- app_assoc. cbn [map a_request app]. destruct (k_pending s); reflexivity.
Qed.
Lemma pieces_keep c tm tr p : forall s, in_receiver (fst (cli_pieces c s p tm tr)) = in_receiver s /\
  exists more, k_answers (fst (cli_pieces c s p tm tr)) = k_answers s ++ more /\ Forall (fun a => a_expired a = false) more.
Proof.
  induction p as [|x p IH]; intros s; cbn [cli_pieces].
  - split; [reflexivity|]. exists []. rewrite app_nil_r. auto.
  - set (s1 := with_rx s _). destruct (cli_text s1 (last (split_cr x) [])) as [s2|e] eqn:E.
    + apply text_keeps in E as (E & m1 & A1 & B1). destruct (IH s2) as (I1 & m2 & A2 & B2). split; [rewrite I1; exact E|].
      exists (m1 ++ m2). rewrite A2, A1, app_assoc. split; [reflexivity|]. apply Forall_app. auto.
    + split; [reflexivity|]. exists []. rewrite app_nil_r. auto.
Qed.
Lemma check_keeps s now : in_receiver (cli_check s now) = in_receiver s.
Proof.
  pose proof (check_spec s now) as K. cbn zeta in K. destruct K as (_ & _ & [(-> & _)|(gone & A1 & _ & _ & A3 & _)]); [reflexivity|].
  unfold in_receiver. rewrite A1, A3, map_app, <- !app_assoc. reflexivity.
Qed.
(** Requests stay, in order; answers are added, and those of expired requests
    only at that time. *)
Lemma read_keeps c s r : in_receiver (cli_read c s r) = in_receiver s /\
  exists more, k_answers (cli_read c s r) = k_answers s ++ more /\
    Forall (fun a => a_expired a = true -> (q_deadline (a_request a) <= rd_now r)%Z) more.
Proof.
  assert (CA : exists m, k_answers (cli_check s (rd_now r)) = k_answers s ++ m /\ Forall (fun a => a_expired a = true -> (q_deadline (a_request a) <= rd_now r)%Z) m).
  { pose proof (check_spec s (rd_now r)) as K. cbn zeta in K. destruct K as (_ & _ & [(-> & _)|(gone & A1 & _ & A2 & _)]).
    - exists []. rewrite app_nil_r. auto.
    - exists gone. split; [exact A1|]. eapply Forall_impl; [|exact A2]. intros a X _. unfold expired in X. cbv beta in X. lia. }
  destruct CA as (m & CA & FM). pose proof (check_keeps s (rd_now r)) as CK.
  unfold cli_read. destruct (k_outstanding (cli_check s (rd_now r))) eqn:K.
  - set (s1 := with_data _ _). match goal with |- context [cli_pieces c s1 ?p ?x ?y] => pose proof (pieces_keep c x y p s1) as (P & m2 & A2 & F2); destruct (cli_pieces c s1 p x y) as [s2 [e|]] end;
    cbn [fst] in P, A2.
    all: split; [rewrite <- CK; exact P|exists (m ++ m2)].
    all: cbn [with_error with_rx with_data k_answers] in *; rewrite A2; cbn [s1 with_data with_rx k_answers]; rewrite CA, app_assoc;
      split; [reflexivity|]; apply Forall_app; split; [exact FM|]; eapply Forall_impl; [|exact F2]; intros a X Y; cbv beta in X; congruence.
  - split; [exact CK|]. exists m. split; [exact CA|exact FM].
Qed.

(** ** The driver *)
Definition call_of (q : request) : list N * nat := (q_command q, q_tag q).
Definition driver_inv (l : list event) (s : driver) : Prop :=
  all_requests l = map (fun x => a_request (snd x)) (d_calls s) ++ in_receiver (d_cli s) ++ d_tx s /\
  d_requests s = map call_of (in_receiver (d_cli s) ++ d_tx s) /\
  Forall (fun x => fst x = q_tag (a_request (snd x))) (d_calls s) /\
  Forall (expired_at (port_times l)) (map snd (d_calls s) ++ k_answers (d_cli s)).

Lemma expired_more t t' a : expired_at t a -> expired_at (t ++ t') a.
Proof. intros H X. destruct (H X) as (n & I & L). exists n. split; [apply in_app_iff; left; exact I|exact L]. Qed.

Lemma driver_holds c l : driver_inv l (driver_run c driver_new l).
Proof.
  induction l as [|e l IH] using rev_ind; [repeat split; constructor|].
  unfold driver_run in *. rewrite fold_left_app. cbn [fold_left]. set (s := fold_left (driver_step c) l driver_new) in *.
  destruct IH as (A & B & C & D). unfold driver_inv, all_requests, port_times. rewrite !flat_map_app. fold (all_requests l) (port_times l).
  cbn [flat_map]. destruct e as [t cmd dl| |r|]; cbn [driver_step]; rewrite ?app_nil_r.
  - cbn [d_calls d_cli d_tx d_requests]. split; [rewrite A, !app_assoc; reflexivity|]. split; [|split; assumption].
    rewrite B, app_assoc, (map_app _ _ [_]). reflexivity.
  - destruct (d_tx s) as [|q r] eqn:T; [rewrite T; split; [exact A|]; split; [exact B|]; split; assumption|].
    cbn [d_calls d_cli d_tx d_requests].
    assert (K : in_receiver (cli_queue (d_cli s) q) ++ r = in_receiver (d_cli s) ++ q :: r).
    { unfold in_receiver. cbn [cli_queue k_answers k_outstanding k_pending]. rewrite <- !app_assoc. reflexivity. }
    rewrite K. split; [exact A|]. split; [exact B|]. split; assumption.
  - cbn [d_calls d_cli d_tx d_requests]. destruct (read_keeps c (d_cli s) r) as (K & more & M & F). rewrite K, M.
    split; [exact A|]. split; [exact B|]. split; [exact C|]. rewrite app_assoc. apply Forall_app. split.
    + eapply Forall_impl; [|exact D]. intros a. apply expired_more.
    + eapply Forall_impl; [|exact F]. intros a X Y. exists (rd_now r). split; [apply in_app_iff; right; left; reflexivity|exact (X Y)].
  - destruct (k_answers (d_cli s)) as [|a rest] eqn:K; [rewrite K; split; [exact A|]; split; [exact B|]; split; assumption|].
    unfold in_receiver in A, B. rewrite K in A, B. cbn [map app] in A, B.
    rewrite B. cbn [match_response call_of].
    replace (list_eqb (q_command (a_request a)) (q_command (a_request a))) with true by (symmetry; apply list_eqb_spec; reflexivity).
    unfold in_receiver. cbn [d_calls d_cli d_tx d_requests k_answers k_outstanding k_pending].
    split; [rewrite A, map_app, <- !app_assoc; reflexivity|]. split; [reflexivity|]. split.
    + apply Forall_app. split; [exact C|]. constructor; [reflexivity|constructor].
    + rewrite map_app, <- app_assoc. exact D.
Qed.

(** Once the time is past the deadline of everything, nothing is left. *)
Lemma fetch_all now p : Forall (fun q => expired now q = true) p -> exists a, fetch now p = (None, [], a).
Proof.
  induction p as [|q p IH]; intros H; [exists []; reflexivity|]. apply Forall_cons_iff in H as (E & H). destruct (IH H) as (a & A).
  cbn [fetch]. rewrite E, A. eexists. reflexivity.
Qed.
Lemma read_last c s r : Forall (fun q => (q_deadline q <= rd_now r)%Z) (in_receiver s) ->
  k_outstanding (cli_read c s r) = None /\ k_pending (cli_read c s r) = [].
Proof.
  intros H. unfold in_receiver in H. apply Forall_app in H as (_ & H). apply Forall_app in H as (H1 & H2).
  assert (F : Forall (fun q => expired (rd_now r) q = true) (k_pending s)).
  { eapply Forall_impl; [|exact H2]. intros q X. unfold expired. cbv beta in X. lia. }
  destruct (fetch_all _ _ F) as (a & A).
  assert (K : k_outstanding (cli_check s (rd_now r)) = None /\ k_pending (cli_check s (rd_now r)) = []).
  { unfold cli_check. rewrite A. destruct (k_outstanding s) as [q|]; [|split; reflexivity].
    apply Forall_cons_iff in H1 as (X & _). unfold expired. replace (q_deadline q <=? rd_now r)%Z with true by lia. split; reflexivity. }
  destruct K as (K1 & K2). unfold cli_read. rewrite K1. cbn [with_rx with_data k_outstanding k_pending]. auto.
Qed.
Lemma receive_all c n : forall l, length (k_answers (d_cli (driver_run c driver_new l))) = n ->
  k_answers (d_cli (driver_run c driver_new (l ++ repeat Receive n))) = [] /\
  k_outstanding (d_cli (driver_run c driver_new (l ++ repeat Receive n))) = k_outstanding (d_cli (driver_run c driver_new l)) /\
  k_pending (d_cli (driver_run c driver_new (l ++ repeat Receive n))) = k_pending (d_cli (driver_run c driver_new l)) /\
  d_tx (driver_run c driver_new (l ++ repeat Receive n)) = d_tx (driver_run c driver_new l).
Proof.
  induction n as [|n IH]; intros l H.
  - cbn [repeat]. rewrite app_nil_r. destruct (k_answers _); [auto|discriminate].
  - cbn [repeat]. change (Receive :: repeat Receive n) with ([Receive] ++ repeat Receive n). rewrite app_assoc.
    assert (E : driver_run c driver_new (l ++ [Receive]) = driver_step c (driver_run c driver_new l) Receive).
    { unfold driver_run. rewrite fold_left_app. reflexivity. }
    cbn [driver_step] in E. destruct (k_answers (d_cli (driver_run c driver_new l))) as [|a rest] eqn:K; [discriminate|].
    destruct (match_response (d_requests (driver_run c driver_new l)) a) as [rq calls].
    destruct (IH (l ++ [Receive])) as (A & B & C & D).
    { rewrite E. cbn [d_cli k_answers]. cbn in H. lia. }
    split; [exact A|]. rewrite B, C, D, E. auto.
Qed.
Lemma all_called c l r : d_tx (driver_run c driver_new l) = [] -> Forall (fun q => (q_deadline q <= rd_now r)%Z) (all_requests l) ->
  exists n, forall m, (n <= m)%nat -> let s := driver_run c driver_new (l ++ Port r :: repeat Receive m) in
    map (fun x => a_request (snd x)) (d_calls s) = all_requests l /\ d_requests s = [].
Proof.
  intros T F. set (l1 := l ++ [Port r]).
  assert (E1 : driver_run c driver_new l1 = driver_step c (driver_run c driver_new l) (Port r)).
  { unfold driver_run, l1. rewrite fold_left_app. reflexivity. }
  exists (length (k_answers (d_cli (driver_run c driver_new l1)))). intros m M.
  destruct (receive_all c _ l1 eq_refl) as (A & B & C & D).
  set (n := length (k_answers (d_cli (driver_run c driver_new l1)))) in *.
  assert (Same : forall k, driver_run c driver_new ((l1 ++ repeat Receive n) ++ repeat Receive k) = driver_run c driver_new (l1 ++ repeat Receive n)).
  { induction k as [|k IHk]; [cbn [repeat]; rewrite app_nil_r; reflexivity|]. cbn [repeat].
    replace (Receive :: repeat Receive k) with (repeat Receive k ++ [Receive]) by (symmetry; apply repeat_cons).
    rewrite app_assoc. unfold driver_run. rewrite fold_left_app. fold (driver_run c driver_new ((l1 ++ repeat Receive n) ++ repeat Receive k)).
    rewrite IHk. cbn [fold_left driver_step]. rewrite A. reflexivity. }
  assert (EQ : l ++ Port r :: repeat Receive m = (l1 ++ repeat Receive n) ++ repeat Receive (m - n)).
  { unfold l1. rewrite <- !app_assoc. cbn [app]. do 2 f_equal. rewrite <- repeat_app. f_equal. lia. }
  cbn zeta. rewrite EQ, Same.
  assert (L := driver_holds c l). destruct L as (LA & _).
  assert (K : Forall (fun q => (q_deadline q <= rd_now r)%Z) (in_receiver (d_cli (driver_run c driver_new l)))).
  { rewrite LA in F. apply Forall_app in F as (_ & F). apply Forall_app in F as (F & _). exact F. }
  destruct (read_last c _ r K) as (K1 & K2).
  assert (H := driver_holds c (l1 ++ repeat Receive n)). destruct H as (HA & HB & _).
  assert (IR : in_receiver (d_cli (driver_run c driver_new (l1 ++ repeat Receive n))) = []).
  { unfold in_receiver. rewrite A, B, C, E1. cbn [driver_step d_cli]. rewrite K1, K2. reflexivity. }
  rewrite IR, D, E1 in HA, HB. cbn [driver_step d_tx] in HA, HB. rewrite T in HA, HB. cbn [app map] in HA, HB. rewrite app_nil_r in HA.
  split; [|exact HB]. rewrite <- HA. unfold all_requests, l1. rewrite !flat_map_app. cbn [flat_map].
  assert (Z : flat_map (fun e => match e with Execute t cmd d => [request_new t cmd d] | _ => [] end) (repeat Receive n) = []).
  { clear. induction n; [reflexivity|exact IHn]. }
  rewrite Z, !app_nil_r. reflexivity.
Qed.

(** The requests are what the program asked for. *)
Lemma blank_white c : is_blank c = true <-> In c white.
Proof.
  split.
  - unfold is_blank. intros H. repeat (apply orb_true_iff in H as [H|H]);
      repeat match goal with H : _ && _ = true |- _ => apply andb_true_iff in H as [? ?] end;
      repeat match goal with H : (_ =? _) = true |- _ => apply N.eqb_eq in H | H : (_ <=? _) = true |- _ => apply N.leb_le in H end;
      subst; unfold white; cbn [In]; lia.
  - intros H. assert (E : forallb is_blank white = true) by reflexivity. rewrite forallb_forall in E. apply E, H.
Qed.
Lemma stripped_command command : exists b, command = b ++ drop_while is_blank command /\ Forall (fun c => In c white) b /\
  match drop_while is_blank command with c :: _ => ~ In c white | [] => True end.
Proof.
  induction command as [|c l (b & E & H1 & H2)]; [exists []; repeat split; constructor|].
  cbn [drop_while]. destruct (is_blank c) eqn:B.
  - exists (c :: b). split; [cbn [app]; f_equal; exact E|]. split; [constructor; [apply blank_white, B|exact H1]|exact H2].
  - exists []. split; [reflexivity|]. split; [constructor|]. intros I. apply blank_white in I. congruence.
Qed.
Lemma requests_made l : Forall2 made_of (executed l) (all_requests l).
Proof.
  induction l as [|e l IH]; [constructor|]. unfold executed, all_requests. cbn [flat_map].
  destruct e as [tag command deadline| | |]; try exact IH. cbn [app]. constructor; [|exact IH].
  split; [reflexivity|]. split; [reflexivity|]. apply stripped_command.
Qed.
