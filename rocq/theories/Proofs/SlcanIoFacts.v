(** The transmitting worker of the SLCAN driver. *)
From Verif.Base Require Import Prelude.
From Verif.Model Require Import CanFrame TsEst Slcan SlcanCli SlcanIo.
From Verif.Spec Require Import PacketSpec SlcanSpec SlcanIoSpec LinkSpec.
From Verif.Proofs Require Import SlcanFacts SlcanCliFacts LinkFacts.

Lemma taken_app a b : taken_jobs (a ++ b) = taken_jobs a ++ taken_jobs b.
Proof. apply flat_map_app. Qed.
Lemma complaints_app a b : complaints (a ++ b) = complaints a ++ complaints b.
Proof. apply flat_map_app. Qed.
Lemma junk_app line a b : junk line (a ++ b) = junk line a ++ junk line b.
Proof. apply flat_map_app. Qed.

Section Facts.
  Variables (retry : bool) (tx_size rx_size : nat).
  (** [trouble]: the port may fail; [lonely]: parent or receiving thread may be lost. *)
  Variables (trouble lonely : Prop).
  Notation run := (io_run retry tx_size rx_size).
  Notation step := (happen retry tx_size rx_size).

  Definition clean (pieces : list (nat * list N)) (after : list N) : Prop :=
    pieces = [] /\ after = [] \/ retry = true /\ trouble.

  Definition at_place (p : spot) (tx : list job) (rest : list job) (out0 out : list N) : Prop :=
    match p with
    | OnGet => rest = tx /\ out = out0
    | OnWrite bs => exists j pieces, rest = j :: tx /\ j <> JStop /\ job_line j = Ok bs /\
        out = out0 ++ junk bs pieces /\ clean pieces []
    | OnFlush => exists j bs pieces after, rest = j :: tx /\ j <> JStop /\ job_line j = Ok bs /\
        out = out0 ++ junk bs pieces ++ bs ++ after /\ clean pieces after
    | OnStop => (rest = JStop :: tx \/ lonely /\ rest = tx) /\
        exists pieces, out = out0 ++ junk closing pieces /\ clean pieces []
    | Gone => (rest = JStop :: tx \/ lonely /\ rest = tx) /\
        exists pieces tail, out = out0 ++ junk closing pieces ++ tail /\ clean pieces [] /\ (tail = closing \/ trouble)
    end.
  Definition io_inv (s : io) : Prop := exists done rest out0,
    taken_jobs (i_log s) = done ++ rest /\ ~ In JStop done /\
    served retry trouble done out0 (complaints (i_log s)) /\ at_place (i_spot s) (i_tx s) rest out0 (i_out s).

  Lemma inv_start_io : io_inv io_start.
  Proof. exists [], [], []. split; [reflexivity|]. split; [intros []|]. split; [constructor|]. split; reflexivity. Qed.

  Lemma place_put p tx rest out0 out j : at_place p tx rest out0 out -> at_place p (tx ++ [j]) (rest ++ [j]) out0 out.
  Proof.
    destruct p; cbn [at_place].
    - intros (-> & ->). auto.
    - intros (j0 & pieces & -> & H). exists j0, pieces. split; [reflexivity|exact H].
    - intros (j0 & bs & pieces & after & -> & H). exists j0, bs, pieces, after. split; [reflexivity|exact H].
    - intros ([->|(L & ->)] & H); (split; [|exact H]); auto.
    - intros ([->|(L & ->)] & H); (split; [|exact H]); auto.
  Qed.
  Lemma inv_put s j more : taken_jobs more = [] -> complaints more = [] -> io_inv s -> io_inv (put_tx tx_size s j more).
  Proof.
    intros Hm Hc (done & rest & out0 & T & N & S & P). unfold put_tx. destruct (_ <? _)%nat.
    - exists done, (rest ++ [j]), out0. cbn [i_log i_tx i_spot i_out].
      assert (taken_jobs (Took j :: more) = [j]) as K1 by (cbn [taken_jobs flat_map]; unfold taken_jobs in Hm; rewrite Hm; reflexivity).
      assert (complaints (Took j :: more) = []) as K2 by exact Hc.
      rewrite taken_app, complaints_app, K1, K2, T, <- app_assoc, app_nil_r.
      split; [reflexivity|]. split; [exact N|]. split; [exact S|]. apply place_put; exact P.
    - exists done, rest, out0. unfold noted. cbn [i_log i_tx i_spot i_out].
      rewrite taken_app, complaints_app. cbn [taken_jobs complaints flat_map]. rewrite !app_nil_r. auto.
  Qed.

  (** A report, after [out] was written for the job [j]. *)
  Lemma inv_report s x done rest out1 : taken_jobs (i_log s) = done ++ rest -> ~ In JStop done -> rest = i_tx s ->
    i_out s = out1 -> served retry trouble done out1 (complaints (i_log s) ++ [x]) -> io_inv (report rx_size s x).
  Proof.
    intros T N R O S. unfold report. exists done, rest, out1. destruct (_ <? _)%nat; cbn [i_log i_tx i_spot i_out];
      rewrite taken_app, complaints_app; cbn [taken_jobs complaints flat_map]; rewrite app_nil_r; cbn [app];
      (split; [exact T|]); (split; [exact N|]); (split; [exact S|]); (split; [exact R|exact O]).
  Qed.

  Lemma not_in_snoc {A} (x y : A) l : ~ In x l -> y <> x -> ~ In x (l ++ [y]).
  Proof. intros H K I. apply in_app_or in I as [I|[I|[]]]; auto. Qed.

  Lemma inv_worker s a over : io_inv s -> (a <> Smooth -> trouble) -> (over = true -> lonely) ->
    io_inv (worker retry rx_size s a over).
  Proof.
    intros (done & rest & out0 & T & N & S & P) Ht Hl. unfold worker. destruct (i_spot s) eqn:Ep; cbn [at_place] in P.
    - destruct P as (-> & E). destruct (i_tx s) as [|j q] eqn:Eq.
      + destruct over.
        * exists done, [], out0. cbn [at_spot i_log i_tx i_spot i_out at_place]. rewrite Eq.
          split; [exact T|]. split; [exact N|]. split; [exact S|]. split; [right; auto|].
          exists []. rewrite E. cbn. rewrite app_nil_r. split; [reflexivity|]. left. auto.
        * exists done, [], out0. rewrite Ep, Eq. cbn [at_place]. auto.
      + cbv zeta. set (pending := match j with JCommand c => i_pending s ++ [c] | _ => i_pending s end).
        assert (forall x, j <> JStop -> job_line j = Err x ->
                  io_inv (report rx_size (Io q (i_rx s) pending OnGet (i_out s) (i_log s)) x)) as KE.
        { intros x Hj Hx. apply (inv_report _ _ (done ++ [j]) q out0); cbn [i_log i_tx i_out]; auto.
          - rewrite T, <- app_assoc. reflexivity.
          - apply not_in_snoc; assumption.
          - apply sv_bad; assumption. }
        assert (forall bs, j <> JStop -> job_line j = Ok bs ->
                  io_inv (at_spot (Io q (i_rx s) pending OnGet (i_out s) (i_log s)) (OnWrite bs))) as KO.
        { intros bs Hj Hx. exists done, (j :: q), out0. cbn [at_spot i_log i_tx i_spot i_out at_place].
          split; [exact T|]. split; [exact N|]. split; [exact S|]. exists j, []. split; [reflexivity|]. split; [exact Hj|].
          split; [exact Hx|]. cbn. rewrite app_nil_r. split; [exact E|]. left. auto. }
        destruct j as [f|c|].
        * destruct (job_line (JFrame f)) as [bs|x] eqn:Ej; [apply KO|apply KE]; congruence.
        * destruct (job_line (JCommand c)) as [bs|x] eqn:Ej; [apply KO|apply KE]; congruence.
        * exists done, (JStop :: q), out0. cbn [at_spot i_log i_tx i_spot i_out at_place].
          split; [exact T|]. split; [exact N|]. split; [exact S|]. split; [left; reflexivity|].
          exists []. rewrite E. cbn. rewrite app_nil_r. split; [reflexivity|]. left. auto.
    - destruct P as (j & pieces & R & Hj & Hb & O & C). destruct a as [|n x again].
      + exists done, rest, out0. cbn [at_spot emit i_log i_tx i_spot i_out at_place].
        split; [exact T|]. split; [exact N|]. split; [exact S|]. exists j, bs, pieces, [].
        rewrite app_nil_r, O, <- app_assoc. auto.
      + assert trouble as Tr by (apply Ht; discriminate). destruct (Bool.bool_dec retry true) as [Er|Er]; [|apply Bool.not_true_is_false in Er]; rewrite Er.
        * exists done, rest, out0. cbn [emit i_log i_tx i_spot i_out]. rewrite Ep. cbn [at_place].
          split; [exact T|]. split; [exact N|]. split; [exact S|]. exists j, (pieces ++ [(n, again)]).
          split; [exact R|]. split; [exact Hj|]. split; [exact Hb|]. split; [|right; auto].
          rewrite O, junk_app, <- app_assoc. cbn. rewrite app_nil_r. reflexivity.
        * destruct C as [(-> & _)|(C & _)]; [|congruence]. cbn in O. rewrite app_nil_r in O.
          apply (inv_report _ _ (done ++ [j]) (i_tx s) (out0 ++ firstn n bs)); cbn [emit i_log i_tx i_out]; auto.
          -- rewrite T, R, <- app_assoc. reflexivity.
          -- apply not_in_snoc; assumption.
          -- rewrite O. reflexivity.
          -- apply sv_cut; auto.
    - destruct P as (j & bs & pieces & after & R & Hj & Hb & O & C). destruct a as [|n x again].
      + exists (done ++ [j]), (i_tx s), (i_out s). cbn [at_spot i_log i_tx i_spot i_out at_place].
        rewrite T, R, <- app_assoc. split; [reflexivity|]. split; [apply not_in_snoc; assumption|].
        split; [|auto]. rewrite O. apply sv_sent; auto.
      + assert trouble as Tr by (apply Ht; discriminate). destruct (Bool.bool_dec retry true) as [Er|Er]; [|apply Bool.not_true_is_false in Er]; rewrite Er.
        * exists done, rest, out0. cbn [emit i_log i_tx i_spot i_out]. rewrite Ep. cbn [at_place].
          split; [exact T|]. split; [exact N|]. split; [exact S|]. exists j, bs, pieces, (after ++ again).
          split; [exact R|]. split; [exact Hj|]. split; [exact Hb|]. split; [|right; auto].
          rewrite O, <- !app_assoc. reflexivity.
        * destruct C as [(-> & ->)|(C & _)]; [|congruence]. cbn in O. rewrite app_nil_r in O.
          apply (inv_report _ _ (done ++ [j]) (i_tx s) (out0 ++ bs)); auto.
          -- rewrite T, R, <- app_assoc. reflexivity.
          -- apply not_in_snoc; assumption.
          -- apply sv_flush; auto.
    - destruct P as (R & pieces & O & C). destruct a as [|n x again].
      + exists done, rest, out0. cbn [at_spot emit i_log i_tx i_spot i_out at_place].
        split; [exact T|]. split; [exact N|]. split; [exact S|]. split; [exact R|].
        exists pieces, closing. rewrite O, <- app_assoc. auto.
      + assert trouble as Tr by (apply Ht; discriminate). destruct (Bool.bool_dec retry true) as [Er|Er]; [|apply Bool.not_true_is_false in Er]; rewrite Er.
        * exists done, rest, out0. cbn [emit i_log i_tx i_spot i_out]. rewrite Ep. cbn [at_place].
          split; [exact T|]. split; [exact N|]. split; [exact S|]. split; [exact R|].
          exists (pieces ++ [(n, again)]). split; [|right; auto].
          rewrite O, junk_app, <- app_assoc. unfold junk at 3. cbn [flat_map fst snd]. rewrite app_nil_r. reflexivity.
        * exists done, rest, out0. cbn [at_spot emit i_log i_tx i_spot i_out at_place].
          split; [exact T|]. split; [exact N|]. split; [exact S|]. split; [exact R|].
          exists pieces, (firstn n closing). rewrite O, <- app_assoc. auto.
    - exists done, rest, out0. rewrite Ep. cbn [at_place]. auto.
  Qed.

  Lemma inv_noted s l : taken_jobs l = [] -> complaints l = [] -> io_inv s -> io_inv (noted s l).
  Proof.
    intros Hm Hc (done & rest & out0 & T & N & S & P). exists done, rest, out0. cbn [noted i_log i_tx i_spot i_out].
    rewrite taken_app, complaints_app, Hm, Hc, !app_nil_r. auto.
  Qed.

  Definition allowed (e : happening) : Prop :=
    match e with
    | HKill => False
    | HWorker a over => (a <> Smooth -> trouble) /\ (over = true -> lonely)
    | _ => True
    end.
  Lemma inv_happen s e : io_inv s -> allowed e -> io_inv (step s e).
  Proof.
    intros I A. destruct e; cbn [happen allowed] in *.
    - destruct (alive s); [apply inv_put; auto|apply inv_noted; auto].
    - destruct (alive s); [apply inv_put; auto|apply inv_noted; auto].
    - destruct (alive s); [apply inv_put; auto|exact I].
    - contradiction.
    - destruct (_ <? _)%nat; exact I.
    - exact I.
    - destruct A. apply inv_worker; assumption.
  Qed.
  Lemma inv_io_run l : forall s, io_inv s -> Forall allowed l -> io_inv (run s l).
  Proof.
    induction l as [|e l IH]; intros s I A; [exact I|]. apply Forall_cons_iff in A as (A1 & A2).
    unfold io_run. cbn [fold_left]. apply IH; [|exact A2]. apply inv_happen; assumption.
  Qed.
End Facts.

Lemma allowed_in (trouble lonely : Prop) l : unharmed l ->
  (forall a over, In (HWorker a over) l -> (a <> Smooth -> trouble) /\ (over = true -> lonely)) -> Forall (allowed trouble lonely) l.
Proof.
  intros U A. apply Forall_forall. intros e He. destruct e; try exact I.
  - exact (U He).
  - exact (A _ _ He).
Qed.
Lemma smooth_no l a over : smooth l -> In (HWorker a over) l -> a <> Smooth -> False.
Proof. intros S H N. destruct a as [|n x again]; [congruence|]. exact (S _ _ _ _ H). Qed.
Lemma attended_no l a over : attended l -> In (HWorker a over) l -> over = true -> False.
Proof. intros S H ->. exact (S _ H). Qed.
Lemma allowed_all l : unharmed l -> Forall (allowed True True) l.
Proof. intros U. apply allowed_in; auto. Qed.
Lemma allowed_attended l : unharmed l -> attended l -> Forall (allowed True False) l.
Proof. intros U A. apply allowed_in; [exact U|]. intros a over H. split; [auto|]. apply (attended_no l a over A H). Qed.
Lemma allowed_smooth l : unharmed l -> smooth l -> Forall (allowed False True) l.
Proof. intros U A. apply allowed_in; [exact U|]. intros a over H. split; [|auto]. apply (smooth_no l a over A H). Qed.
Lemma allowed_good l : unharmed l -> smooth l -> attended l -> Forall (allowed False False) l.
Proof.
  intros U A B. apply allowed_in; [exact U|]. intros a over H.
  split; [apply (smooth_no l a over A H)|apply (attended_no l a over B H)].
Qed.

Lemma served_smooth retry js out xs : served retry False js out xs -> out = lines_of js /\ xs = faults_of js.
Proof.
  induction 1 as [|j line pieces after js out xs S (-> & ->) E C|j line x js out xs S _ E R T|j line n x js out xs S _ E R T|j x js out xs S (-> & ->) E];
    try contradiction.
  - auto.
  - destruct C as [(-> & ->)|(_ & [])]. unfold lines_of, faults_of. rewrite !flat_map_app. cbn. rewrite E, !app_nil_r. auto.
  - unfold lines_of, faults_of. rewrite !flat_map_app. cbn. rewrite E, !app_nil_r. auto.
Qed.

Lemma idle_served retry tx_size rx_size l : unharmed l ->
  let s := io_run retry tx_size rx_size io_start l in idle_io s ->
  served retry True (taken_jobs (i_log s)) (i_out s) (complaints (i_log s)).
Proof.
  intros U s (Hp & Hq).
  destruct (inv_io_run retry tx_size rx_size True True l io_start (inv_start_io _ _ _) (allowed_all l U))
    as (done & rest & out0 & T & N & S & P).
  fold s in T, S, P. rewrite Hp in P. cbn [at_place] in P. destruct P as (-> & ->). rewrite Hq, app_nil_r in T. rewrite T. exact S.
Qed.

Lemma idle_smooth retry tx_size rx_size l : unharmed l -> smooth l ->
  let s := io_run retry tx_size rx_size io_start l in idle_io s ->
  i_out s = lines_of (taken_jobs (i_log s)) /\ complaints (i_log s) = faults_of (taken_jobs (i_log s)).
Proof.
  intros U A s (Hp & Hq).
  destruct (inv_io_run retry tx_size rx_size False True l io_start (inv_start_io _ _ _) (allowed_smooth l U A))
    as (done & rest & out0 & T & N & S & P).
  fold s in T, S, P. rewrite Hp in P. cbn [at_place] in P. destruct P as (-> & ->). rewrite Hq, app_nil_r in T.
  apply served_smooth in S. rewrite T. exact S.
Qed.

Lemma always_smooth retry tx_size rx_size l : unharmed l -> smooth l ->
  let s := io_run retry tx_size rx_size io_start l in
  exists done rest, taken_jobs (i_log s) = done ++ rest /\ ~ In JStop done /\ complaints (i_log s) = faults_of done /\
    (i_out s = lines_of done \/ (exists j, rest = j :: i_tx s /\ i_out s = lines_of (done ++ [j])) \/
     i_spot s = Gone /\ i_out s = lines_of done ++ closing).
Proof.
  intros U A s.
  destruct (inv_io_run retry tx_size rx_size False True l io_start (inv_start_io _ _ _) (allowed_smooth l U A))
    as (done & rest & out0 & T & N & S & P).
  fold s in T, S, P. apply served_smooth in S as (-> & S). exists done, rest.
  split; [exact T|]. split; [exact N|]. split; [exact S|].
  destruct (i_spot s); cbn [at_place] in P.
  - left. apply P.
  - left. destruct P as (j & pieces & _ & _ & _ & O & [(-> & _)|(_ & [])]). cbn in O. rewrite app_nil_r in O. exact O.
  - right. left. destruct P as (j & bs & pieces & after & R & _ & Hb & O & [(-> & ->)|(_ & [])]). cbn in O. rewrite app_nil_r in O.
    exists j. split; [exact R|]. unfold lines_of. rewrite flat_map_app. cbn [flat_map]. rewrite Hb, app_nil_r. exact O.
  - left. destruct P as (_ & pieces & O & [(-> & _)|(_ & [])]). cbn in O. rewrite app_nil_r in O. exact O.
  - right. right. destruct P as (_ & pieces & tail & O & [(-> & _)|(_ & [])] & [->|[]]). split; [reflexivity|]. exact O.
Qed.

(** The process ended because of a request to stop: all before it was done. *)
Lemma closed_served retry tx_size rx_size l : unharmed l -> attended l ->
  let s := io_run retry tx_size rx_size io_start l in i_spot s = Gone ->
  exists done rest out tail, taken_jobs (i_log s) = done ++ JStop :: rest /\ ~ In JStop done /\
    served retry True done out (complaints (i_log s)) /\ i_out s = out ++ tail.
Proof.
  intros U A s Hp.
  destruct (inv_io_run retry tx_size rx_size True False l io_start (inv_start_io _ _ _) (allowed_attended l U A))
    as (done & rest & out0 & T & N & S & P).
  fold s in T, S, P. rewrite Hp in P. cbn [at_place] in P. destruct P as ([->|([] & _)] & pieces & tail & O & _).
  exists done, (i_tx s), out0, (junk closing pieces ++ tail). auto.
Qed.
Lemma closed_smooth retry tx_size rx_size l : unharmed l -> attended l -> smooth l ->
  let s := io_run retry tx_size rx_size io_start l in i_spot s = Gone ->
  exists done rest, taken_jobs (i_log s) = done ++ JStop :: rest /\ ~ In JStop done /\
    complaints (i_log s) = faults_of done /\ i_out s = lines_of done ++ closing.
Proof.
  intros U A B s Hp.
  destruct (inv_io_run retry tx_size rx_size False False l io_start (inv_start_io _ _ _) (allowed_good l U B A))
    as (done & rest & out0 & T & N & S & P).
  fold s in T, S, P. rewrite Hp in P. cbn [at_place] in P.
  destruct P as ([->|([] & _)] & pieces & tail & O & [(-> & _)|(_ & [])] & [->|[]]).
  apply served_smooth in S as (-> & S). exists done, (i_tx s). auto.
Qed.
(** ** The worker ends *)

Section Ends.
  Variables (retry : bool) (tx_size rx_size : nat).
  Notation run := (io_run retry tx_size rx_size).
  Definition spot_work (p : spot) : nat := match p with OnGet => 0 | OnWrite _ => 2 | OnFlush => 1 | OnStop => 1 | Gone => 0 end.
  Definition io_work (s : io) : nat := (3 * length (i_tx s) + spot_work (i_spot s))%nat.
  Lemma work_less s : idle_io s \/ i_spot s = Gone \/ (io_work (worker retry rx_size s Smooth false) < io_work s)%nat.
  Proof.
    unfold worker, io_work, idle_io. destruct (i_spot s) eqn:Ep.
    - destruct (i_tx s) as [|j q] eqn:Eq; [left; auto|]. right. right. cbv zeta. destruct j as [f|c|].
      + destruct (job_line _); [cbn; lia|]. unfold report. destruct (_ <? _)%nat; cbn; lia.
      + destruct (job_line _); [cbn; lia|]. unfold report. destruct (_ <? _)%nat; cbn; lia.
      + cbn. lia.
    - right. right. cbn. lia.
    - right. right. cbn. lia.
    - right. right. cbn. lia.
    - right. left. reflexivity.
  Qed.
  Lemma work_done n : forall s, idle_io s \/ i_spot s = Gone \/ (io_work s <= n)%nat ->
    let s' := run s (repeat (HWorker Smooth false) n) in idle_io s' \/ i_spot s' = Gone.
  Proof.
    induction n as [|n IH]; intros s H; cbn [repeat]; cbv zeta.
    - change (run s []) with s. destruct H as [H|[H|H]]; auto.
      destruct (work_less s) as [K|[K|K]]; auto. lia.
    - change (run s (HWorker Smooth false :: repeat (HWorker Smooth false) n))
        with (run (worker retry rx_size s Smooth false) (repeat (HWorker Smooth false) n)).
      apply IH. destruct H as [(P & Q)|[H|H]].
      + left. unfold worker, idle_io. rewrite P, Q. auto.
      + right. left. unfold worker. rewrite H. exact H.
      + destruct (work_less s) as [(P & Q)|[K|K]].
        * left. unfold worker, idle_io. rewrite P, Q. auto.
        * right. left. unfold worker. rewrite K. exact K.
        * right. right. lia.
  Qed.
  Lemma worker_taken s a over : taken_jobs (i_log (worker retry rx_size s a over)) = taken_jobs (i_log s).
  Proof.
    assert (R : forall s x, taken_jobs (i_log (report rx_size s x)) = taken_jobs (i_log s)).
    { intros s0 x. unfold report. destruct (_ <? _)%nat; cbn [i_log]; rewrite taken_app; cbn; rewrite app_nil_r; reflexivity. }
    unfold worker. destruct (i_spot s).
    - destruct (i_tx s) as [|j q]; [destruct over; reflexivity|]. cbv zeta. destruct j; try reflexivity;
        (destruct (job_line _); [reflexivity|]; rewrite R; reflexivity).
    - destruct a; [reflexivity|]. destruct retry; [reflexivity|]. rewrite R. reflexivity.
    - destruct a; [reflexivity|]. destruct retry; [reflexivity|]. rewrite R. reflexivity.
    - destruct a; [reflexivity|]. destruct retry; reflexivity.
    - reflexivity.
  Qed.
  Lemma workers_taken n : forall s, taken_jobs (i_log (run s (repeat (HWorker Smooth false) n))) = taken_jobs (i_log s).
  Proof.
    induction n as [|n IH]; intros s; [reflexivity|]. cbn [repeat].
    change (run s (HWorker Smooth false :: repeat (HWorker Smooth false) n))
      with (run (worker retry rx_size s Smooth false) (repeat (HWorker Smooth false) n)).
    rewrite IH. apply worker_taken.
  Qed.
  Lemma run_app s a b : run s (a ++ b) = run (run s a) b.
  Proof. apply fold_left_app. Qed.

  Lemma unharmed_more l n : unharmed l -> unharmed (l ++ repeat (HWorker Smooth false) n).
  Proof. intros U K. apply in_app_or in K as [K|K]; [exact (U K)|]. apply repeat_spec in K. discriminate. Qed.
  Lemma smooth_more l n : smooth l -> smooth (l ++ repeat (HWorker Smooth false) n).
  Proof. intros U m x again over K. apply in_app_or in K as [K|K]; [exact (U _ _ _ _ K)|]. apply repeat_spec in K. discriminate. Qed.
  Lemma attended_more l n : attended l -> attended (l ++ repeat (HWorker Smooth false) n).
  Proof. intros U a K. apply in_app_or in K as [K|K]; [exact (U _ K)|]. apply repeat_spec in K. discriminate. Qed.

  (** What was accepted before the request to stop is written. *)
  Theorem close_finishes l n : unharmed l -> attended l -> smooth l ->
    let s := run io_start l in In JStop (taken_jobs (i_log s)) -> (3 * length (i_tx s) + 2 <= n)%nat ->
    let s' := run s (repeat (HWorker Smooth false) n) in
    i_spot s' = Gone /\ exists before rest, taken_jobs (i_log s) = before ++ JStop :: rest /\ ~ In JStop before /\
      i_out s' = lines_of before ++ closing /\ complaints (i_log s') = faults_of before.
  Proof.
    intros U A B s I L s'.
    assert (G : i_spot s' = Gone).
    { destruct (work_done n s) as [H|H]; [right; right; unfold io_work; destruct (i_spot s); cbn [spot_work]; lia| |exact H].
      exfalso. fold s' in H. destruct H as (P & Q).
      destruct (inv_io_run retry tx_size rx_size True True _ io_start (inv_start_io _ _ _) (allowed_all _ (unharmed_more l n U)))
        as (done & rest & out0 & T & N & S & X).
      rewrite run_app in T, X. fold s in T, X. fold s' in T, X. rewrite P in X. cbn [at_place] in X. destruct X as (-> & _).
      rewrite Q, app_nil_r in T. unfold s' in T. rewrite workers_taken in T. apply N. rewrite <- T. exact I. }
    split; [exact G|].
    destruct (closed_smooth retry tx_size rx_size (l ++ repeat (HWorker Smooth false) n)) as (d & r & T & N & C & O);
      [apply unharmed_more|apply attended_more|apply smooth_more| |]; auto.
    - rewrite run_app. exact G.
    - rewrite run_app in T, C, O. fold s in T, C, O. fold s' in T, C, O. exists d, r. unfold s' in T. rewrite workers_taken in T. auto.
  Qed.
  Theorem worker_finishes l n : unharmed l -> smooth l -> ~ In JStop (taken_jobs (i_log (run io_start l))) -> attended l ->
    let s := run io_start l in (3 * length (i_tx s) + 2 <= n)%nat ->
    let s' := run s (repeat (HWorker Smooth false) n) in
    idle_io s' /\ i_out s' = lines_of (taken_jobs (i_log s)) /\ complaints (i_log s') = faults_of (taken_jobs (i_log s)).
  Proof.
    intros U B NS A s L s'.
    assert (G : idle_io s').
    { destruct (work_done n s) as [H|H]; [right; right; unfold io_work; destruct (i_spot s); cbn [spot_work]; lia|exact H|].
      exfalso. destruct (closed_smooth retry tx_size rx_size (l ++ repeat (HWorker Smooth false) n)) as (d & r & T & _);
      [apply unharmed_more|apply attended_more|apply smooth_more| |]; auto.
      - rewrite run_app. exact H.
      - rewrite run_app, workers_taken in T. apply NS. rewrite T. apply in_or_app. right. left. reflexivity. }
    split; [exact G|].
    destruct (idle_smooth retry tx_size rx_size (l ++ repeat (HWorker Smooth false) n)) as (O & C);
      [apply unharmed_more|apply smooth_more| |]; auto.
    - rewrite run_app. exact G.
    - rewrite run_app in O, C. fold s in O, C. fold s' in O, C. unfold s' in O, C at 2. rewrite workers_taken in O, C. auto.
  Qed.
End Ends.

(** ** What the other side reads *)

Lemma frame_lines fs : Forall sendable fs -> exists lines, lines_of (frame_jobs fs) = concat lines /\
  Forall2 (fun f l => exists line line' r, slcan_encode f = Ok (line ++ [CR]) /\
     frame_line r None line /\ frame_line r None line' /\ l = line' ++ [CR]) fs lines.
Proof.
  induction 1 as [|f fs (Hb & He & Hl) F (lines & E & H)].
  - exists []. split; [reflexivity|constructor].
  - destruct (encoded f Hb He Hl) as (line & g & E1 & Hg & L). exists ((line ++ [CR]) :: lines). split.
    + unfold lines_of, frame_jobs in *. cbn [map flat_map concat job_line]. rewrite E1, E. reflexivity.
    + constructor; [|exact H]. exists line, line, g. auto.
Qed.
Lemma closing_lines : complete_lines [] closing = repeat [67%N] 10.
Proof. reflexivity. Qed.
Lemma closed_off lines : Forall (fun l => exists line r, frame_line r None line /\ l = line ++ [CR]) lines ->
  forall t, complete_lines [] (concat lines ++ t) = complete_lines [] (concat lines) ++ complete_lines [] t.
Proof.
  induction 1 as [|l lines (line & r & L & ->) F IH]; intros t; [reflexivity|].
  apply line_parsed in L as (_ & C). cbn [concat]. rewrite <- !app_assoc. cbn [app].
  rewrite !(proj1 (complete_cr _ _ C)), IH. reflexivity.
Qed.
Theorem frames_arrive fs tail params reads : Forall sendable fs -> tail = [] \/ tail = closing ->
  stream reads = lines_of (frame_jobs fs) ++ tail ->
  Forall2 as_received fs (delivered (rx_reads params rx_new reads)).
Proof.
  intros F T S. destruct (frame_lines fs F) as (lines & E & H). destruct (slcan_lines fs lines F H) as (NT & A).
  assert (C : complete_lines [] (stream reads) = complete_lines [] (concat lines) ++ complete_lines [] tail).
  { rewrite S, E. apply closed_off. clear -H. induction H as [|f l fs ls (line & line' & r & _ & _ & L & ->) H IH]; constructor; eauto. }
  assert (NT' : no_times (complete_lines [] (stream reads))).
  { rewrite C. apply Forall_app. split; [exact NT|]. destruct T as [-> | ->]; [constructor|]. rewrite closing_lines.
    apply Forall_forall. intros x Hx. apply repeat_spec in Hx as ->. intros f t. discriminate. }
  assert (FI : frames_in (complete_lines [] (stream reads)) = frames_in (complete_lines [] (concat lines))).
  { rewrite C. unfold frames_in. rewrite flat_map_app. destruct T as [-> | ->]; cbn; apply app_nil_r. }
  assert (Ed : delivered (rx_reads params rx_new reads) = frames_in (complete_lines [] (stream reads))).
  { rewrite (reads_tagged params reads rx_new (fun x => x)). rewrite <- tagged_lines in *. exact (untimed params _ rx_new NT'). }
  rewrite Ed, FI. exact A.
Qed.

(** ** [receive] *)

Section ReceiveFacts.
  Variable callback : nat -> answer -> option exn.
  Notation loop := (receive_loop callback).
  Definition quiet : Prop := forall t a, callback t a = None.

  Lemma answer_quiet reqs a : quiet -> exists reqs' new, answer_calls callback reqs a = (reqs', new, None).
  Proof.
    intros Q. unfold answer_calls. destruct (match_response reqs a) as [rest calls]. exists rest, calls.
    destruct calls as [|[t a'] r]; [reflexivity|]. rewrite Q. reflexivity.
  Qed.

  Lemma loop_gives q : quiet -> forall now w reqs calls, let c := loop q now w reqs calls in
    exists used, q = used ++ c_left c /\ flat_map meaning (map snd used) = given_by c.
  Proof.
    intros Q. induction q as [|[t o] r IH]; intros now w reqs calls; cbv zeta.
    - exists []. cbn. destruct w; auto.
    - cbn [receive_loop]. set (patience := match w with Forever => None | Poll => Some 1000%Z | Until d => Some (Z.max 1000 (d - now)) end).
      destruct (match patience with None => false | Some p => (now + p <? t)%Z end); [exists []; auto|].
      destruct o as [f|x|a|];
        [exists [(t, XFrame f)]; split; reflexivity|exists [(t, XError x)]; split; reflexivity| |exists [(t, XOther)]; split; reflexivity].
      destruct (answer_quiet reqs a Q) as (reqs' & new & ->).
      assert (K : exists used, (t, XAnswer a) :: r = used ++ c_left (loop r (Z.max now t) w reqs' (calls ++ new)) /\
                flat_map meaning (map snd used) = given_by (loop r (Z.max now t) w reqs' (calls ++ new))).
      { destruct (IH (Z.max now t) w reqs' (calls ++ new)) as (used & E & M). exists ((t, XAnswer a) :: used).
        split; [cbn [app]; rewrite <- E; reflexivity|exact M]. }
      destruct w as [| |d]; [exact K|exists [(t, XAnswer a)]; split; reflexivity|].
      destruct (d <=? Z.max now t)%Z; [exists [(t, XAnswer a)]; split; reflexivity|exact K].
  Qed.

  Theorem receive_order ws : quiet -> forall q now reqs, let cs := receive_all callback q now reqs ws in
    exists used, q = used ++ left_after q cs /\ flat_map meaning (map snd used) = flat_map given_by cs.
  Proof.
    intros Q. induction ws as [|[pause timeout] ws IH]; intros q now reqs; cbv zeta; cbn [receive_all].
    - exists []. auto.
    - unfold receive at 2. cbv zeta. set (c := receive_loop callback q (now + pause) (wait_for (now + pause) timeout) reqs []).
      change (receive callback true q (now + pause) timeout reqs) with c.
      destruct (loop_gives q Q (now + pause) (wait_for (now + pause) timeout) reqs []) as (u & E & M). fold c in E, M.
      destruct (IH (c_left c) (c_when c) (c_requests c)) as (used & E' & M'). exists (u ++ used).
      split.
      + rewrite <- app_assoc. unfold left_after in *. cbn [map].
        set (rest := receive_all callback (c_left c) (c_when c) (c_requests c) ws) in *.
        assert (X : last (c_left c :: map c_left rest) q = last (map c_left rest) (c_left c)).
        { destruct (map c_left rest) as [|a l]; [reflexivity|]. change (last (a :: l) q = last (a :: l) (c_left c)).
          clear. revert a. induction l as [|b l IH]; intros a; [reflexivity|]. exact (IH b). }
        rewrite X, <- E'. exact E.
      + rewrite map_app, flat_map_app, M, M'. reflexivity.
  Qed.

  (** An object that is there in time is not missed because of answers. *)
  Definition patient (w : wait) (t : Z) : Prop := match w with Forever => True | Poll => False | Until d => (t < d)%Z end.
  Lemma prompt q : quiet -> forall now w reqs calls answers t f rest,
    q = answers ++ (t, XFrame f) :: rest -> forallb (fun p => is_answer (snd p)) answers = true ->
    Forall (fun p => patient w (fst p)) answers -> patient w t -> patient w now ->
    let c := loop q now w reqs calls in
    c_end c = Gave f /\ c_left c = rest /\ c_when c = fold_left Z.max (map fst answers ++ [t]) now.
  Proof.
    intros Q. induction q as [|[t0 o] r IH]; intros now w reqs calls answers t f rest E A F Pt Pn; cbv zeta.
    - destruct answers; discriminate.
    - cbn [receive_loop].
      set (patience := match w with Forever => None | Poll => Some 1000%Z | Until d => Some (Z.max 1000 (d - now)) end).
      assert (L : forall t1, patient w t1 -> match patience with None => false | Some p => (now + p <? t1)%Z end = false).
      { intros t1 H. unfold patience. destruct w; cbn [patient] in *; [reflexivity|contradiction|]. apply Z.ltb_ge. lia. }
      destruct answers as [|[t1 o1] answers]; cbn [app] in E.
      + injection E as -> -> ->. rewrite (L t Pt). auto.
      + injection E as <- <- Er. cbn [forallb snd] in A. apply andb_true_iff in A as (A1 & A2).
        apply Forall_cons_iff in F as (F1 & F2). cbn [fst] in F1. rewrite (L t0 F1).
        destruct o as [| |a|]; try discriminate. destruct (answer_quiet reqs a Q) as (reqs' & new & ->).
        assert (Pm : patient w (Z.max now t0)) by (destruct w; cbn [patient] in *; auto; lia).
        destruct (IH (Z.max now t0) w reqs' (calls ++ new) answers t f rest Er A2 F2 Pt Pm) as (G1 & G2 & G3).
        destruct w as [| |d]; [exact (conj G1 (conj G2 G3))|contradiction|].
        cbn [patient] in Pm. replace (d <=? Z.max now t0)%Z with false by lia. exact (conj G1 (conj G2 G3)).
  Qed.

  (** The time a call takes. *)
  Lemma until_ends q : forall now d reqs calls, (now < d)%Z ->
    let c := loop q now (Until d) reqs calls in
    c_end c <> Stuck /\ (now <= c_when c <= d + 1000)%Z /\ (c_end c = Nothing -> (d <= c_when c)%Z).
  Proof.
    induction q as [|[t o] r IH]; intros now d reqs calls H; cbv zeta; cbn [receive_loop].
    - cbn [c_end c_when]. repeat split; try discriminate; lia.
    - destruct (now + Z.max 1000 (d - now) <? t)%Z eqn:Lt; [cbn [c_end c_when]; repeat split; try discriminate; lia|].
      destruct o as [f|x|a|]; try (cbn [c_end c_when]; repeat split; try discriminate; lia).
      destruct (answer_calls callback reqs a) as [[reqs' new] [x|]]; [cbn [c_end c_when]; repeat split; try discriminate; lia|].
      destruct (d <=? Z.max now t)%Z eqn:Le; [cbn [c_end c_when]; repeat split; try discriminate; lia|].
      destruct (IH (Z.max now t) d reqs' (calls ++ new)) as (K1 & K2 & K3); [lia|]. split; [exact K1|]. split; [lia|exact K3].
  Qed.
  Lemma poll_ends q now reqs calls : let c := loop q now Poll reqs calls in
    c_end c <> Stuck /\ (now <= c_when c <= now + 1000)%Z.
  Proof.
    cbv zeta. destruct q as [|[t o] r]; cbn [receive_loop]; [cbn; split; [discriminate|lia]|].
    destruct (now + 1000 <? t)%Z eqn:Lt; [cbn; split; [discriminate|lia]|].
    destruct o as [f|x|a|]; try (cbn; split; [discriminate|lia]).
    destruct (answer_calls callback reqs a) as [[reqs' new] [x|]]; cbn; split; try discriminate; lia.
  Qed.
  Lemma forever_ends q : quiet -> forall now reqs calls, let c := loop q now Forever reqs calls in
    c_end c <> Nothing /\
    (c_end c = Stuck -> flat_map meaning (map snd q) = [] /\ c_left c = []).
  Proof.
    intros Q. induction q as [|[t o] r IH]; intros now reqs calls; cbv zeta; cbn [receive_loop].
    - cbn. split; [discriminate|auto].
    - destruct o as [f|x|a|]; try (cbn [c_end]; split; discriminate).
      destruct (answer_quiet reqs a Q) as (reqs' & new & ->). exact (IH (Z.max now t) reqs' (calls ++ new)).
  Qed.

  (** Waiting without a limit, as often as there are objects, gives all of them. *)
  Lemma forever_all ws : quiet -> forall q now reqs, Forall (fun w => snd w = None) ws ->
    (length (flat_map meaning (map snd q)) <= length ws)%nat ->
    flat_map given_by (receive_all callback q now reqs ws) = flat_map meaning (map snd q).
  Proof.
    intros Q. induction ws as [|[pause timeout] ws IH]; intros q now reqs F L.
    - destruct (flat_map meaning (map snd q)); [reflexivity|cbn in L; lia].
    - apply Forall_cons_iff in F as (F1 & F2). cbn [snd] in F1. subst timeout. cbn [receive_all flat_map].
      change (receive callback true q (now + pause) None reqs) with (loop q (now + pause)%Z Forever reqs []).
      destruct (loop_gives q Q (now + pause)%Z Forever reqs []) as (u & E & M).
      destruct (forever_ends q Q (now + pause)%Z reqs []) as (K1 & K2).
      set (c := loop q (now + pause)%Z Forever reqs []) in *.
      assert (X : flat_map meaning (map snd q) = given_by c ++ flat_map meaning (map snd (c_left c))).
      { rewrite E at 1. rewrite map_app, flat_map_app, M. reflexivity. }
      rewrite X. f_equal. apply IH; [exact F2|].
      rewrite X, app_length in L. unfold given_by in L. destruct (c_end c) eqn:Ec; cbn [length] in L; try lia.
      + congruence.
      + destruct (K2 eq_refl) as (_ & ->). cbn. lia.
  Qed.
  (** So does asking, as often as there are objects and answers. *)
  Lemma poll_all ws : quiet -> forall q now reqs, Forall (fun w => snd w = Some 0%Z /\ (0 <= fst w)%Z) ws ->
    Forall (fun p => (fst p <= now)%Z) q -> (length q <= length ws)%nat ->
    flat_map given_by (receive_all callback q now reqs ws) = flat_map meaning (map snd q).
  Proof.
    intros Q. induction ws as [|[pause timeout] ws IH]; intros q now reqs F A L.
    - destruct q; [reflexivity|cbn in L; lia].
    - apply Forall_cons_iff in F as (F1 & F2). cbn [fst snd] in F1. destruct F1 as (-> & F1). cbn [receive_all flat_map].
      change (receive callback true q (now + pause) (Some 0%Z) reqs) with (loop q (now + pause)%Z Poll reqs []).
      destruct (loop_gives q Q (now + pause)%Z Poll reqs []) as (u & E & M).
      destruct (poll_ends q (now + pause)%Z reqs []) as (_ & K2).
      assert (Y : q = [] \/ (length (c_left (loop q (now + pause)%Z Poll reqs [])) < length q)%nat).
      { destruct q as [|[t o] r]; [left; reflexivity|right]. apply Forall_cons_iff in A as (A1 & _). cbn [fst] in A1.
        cbn [receive_loop]. replace (now + pause + 1000 <? t)%Z with false by lia.
        destruct o; try (cbn; lia). destruct (answer_quiet reqs a Q) as (reqs' & new & ->). cbn. lia. }
      set (c := loop q (now + pause)%Z Poll reqs []) in *.
      assert (X : flat_map meaning (map snd q) = given_by c ++ flat_map meaning (map snd (c_left c))).
      { rewrite E at 1. rewrite map_app, flat_map_app, M. reflexivity. }
      rewrite X. f_equal. apply IH; [exact F2| |].
      + rewrite E in A. apply Forall_app in A as (_ & A). revert A. apply Forall_impl. intros p Hp. cbv beta in Hp. lia.
      + destruct Y as [-> |Y]; [|cbn in L; lia]. destruct u; [|discriminate]. cbn [app] in E. rewrite <- E. cbn. lia.
  Qed.
End ReceiveFacts.

(** ** The hooks *)
Definition frames_of (js : list job) : list cframe := flat_map (fun j => match j with JFrame f => [f] | _ => [] end) js.
Lemma hooked_app a b : hooked (a ++ b) = hooked a ++ hooked b.
Proof. apply flat_map_app. Qed.
Lemma frames_of_app a b : frames_of (a ++ b) = frames_of a ++ frames_of b.
Proof. apply flat_map_app. Qed.
Lemma hooks_run retry tx_size rx_size l : forall s, hooked (i_log s) = frames_of (taken_jobs (i_log s)) ->
  let s' := io_run retry tx_size rx_size s l in hooked (i_log s') = frames_of (taken_jobs (i_log s')).
Proof.
  induction l as [|e l IH]; intros s H; [exact H|].
  change (io_run retry tx_size rx_size s (e :: l)) with (io_run retry tx_size rx_size (happen retry tx_size rx_size s e) l).
  apply IH. destruct e as [f|c| | |o| |a over]; cbn [happen].
  - destruct (alive s); [unfold put_tx; destruct (_ <? _)%nat|]; unfold noted; cbn [i_log];
      rewrite hooked_app, taken_app, frames_of_app, H; cbn; rewrite ?app_nil_r; reflexivity.
  - destruct (alive s); [unfold put_tx; destruct (_ <? _)%nat|]; unfold noted; cbn [i_log];
      rewrite hooked_app, taken_app, frames_of_app, H; cbn; rewrite ?app_nil_r; reflexivity.
  - destruct (alive s); [unfold put_tx; destruct (_ <? _)%nat|exact H]; unfold noted; cbn [i_log];
      rewrite hooked_app, taken_app, frames_of_app, H; cbn; rewrite ?app_nil_r; reflexivity.
  - exact H.
  - destruct (_ <? _)%nat; exact H.
  - exact H.
  - rewrite worker_taken, <- H. clear. unfold worker, report.
    destruct (i_spot s); repeat match goal with |- context [match ?x with _ => _ end] => destruct x end;
      cbn [at_spot emit i_log]; rewrite ?hooked_app; cbn [hooked flat_map]; rewrite ?app_nil_r; reflexivity.
Qed.
