(** Proofs about the waiting of a spinning node. *)
From Verif.Base Require Import Prelude Bits.
From Verif.Model Require Import Types Codec MsgId Frames TransferManager Sched Node.
From Verif.Spec Require Import NodeSpec SpinSpec.
From Verif.Proofs Require Import SchedFacts NodeFacts RequestFacts NodeRequests NodeTop.
Require Import Coq.Sorting.Sorted.
Local Open Scope Z_scope.

Section Spin.
  Variable clk : nat -> Z.
  Variable beh : list nobs -> list (nop * bool) * outcome.
  Variable drv : list nobs -> list frame -> option exn.
  Variable status : list nobs -> value.
  Variable status_dt : datatype.
  Variable types : datatypes.
  Variable second : Z.
  Notation nexec := (nexec clk beh drv status status_dt second).
  Notation npoll := (npoll clk beh drv status status_dt second).

  Lemma run_next fuel : forall s s' r, GS s -> run n_queue npop (nread clk) nexec fuel s = (s', Remaining r) ->
    (0 < n_reads s')%nat /\ 0 < r /\ (exists e, In e (n_queue s') /\ r = ev_time e - clk (pred (n_reads s'))) /\
    Forall (fun e => r <= ev_time e - clk (pred (n_reads s'))) (n_queue s').
  Proof.
    induction fuel as [|fuel IH]; cbn [run]; intros s s' r HG H; [discriminate|].
    destruct (n_queue s) as [|e q] eqn:Eq; [discriminate|]. cbn [nread] in H.
    set (s1 := set_reads s (S (n_reads s))) in *.
    destruct (Z.ltb_spec (clk (n_reads s)) (ev_time e)) as [L|L].
    - injection H as <- <-. subst s1. cbn [set_reads n_reads n_queue pred]. rewrite Eq. split; [lia|]. split; [lia|].
      split; [exists e; split; [now left|reflexivity]|].
      pose proof (g_sorted _ _ _ _ _ _ _ HG) as Ss. rewrite Eq in Ss. inversion Ss as [|? ? _ S2]; subst.
      constructor; [lia|]. eapply Forall_impl; [|exact S2]. unfold ev_lt. intros; lia.
    - assert (G2 : GS (fst (nexec e (clk (n_reads s)) (npop s1)))) by (eapply GS_exec; eauto).
      destruct (nexec e (clk (n_reads s)) (npop s1)) as [s2 [x|]]; [discriminate|]. exact (IH s2 s' r G2 H).
  Qed.
  (** [late]: between the two readings of the clock in a poll. *)
  Lemma poll_next fuel s s' next : GS s -> npoll fuel s = (s', Ok next) ->
    (2 <= n_reads s')%nat /\
    let late := clk (n_reads s' - 1)%nat - clk (n_reads s' - 2)%nat in
    (exists e, In e (n_queue s') /\ next = ev_time e + late) /\ Forall (fun e => next <= ev_time e + late) (n_queue s').
  Proof.
    intros G H. unfold Node.npoll in H. destruct (run n_queue npop (nread clk) nexec fuel s) as [s1 r] eqn:R.
    destruct r as [t| |x|]; try discriminate. cbn [nread] in H. injection H as <- <-.
    destruct (run_next fuel s s1 t G R) as (P & _ & (e & E1 & E2) & F).
    cbn [set_reads n_reads n_queue]. split; [lia|].
    replace (S (n_reads s1) - 1)%nat with (n_reads s1) by lia. replace (S (n_reads s1) - 2)%nat with (pred (n_reads s1)) by lia.
    cbv zeta. split; [exists e; split; [exact E1|lia]|].
    eapply Forall_impl; [|exact F]. cbv beta. intros a. lia.
  Qed.

  Variable receive : list nobs -> nat -> Z -> res (option (bool * frame)).
  Lemma once fuel deadline s got n s1 next : 0 <= second -> GS s -> npoll fuel s = (s1, Ok next) ->
    let now := clk (n_reads s1) in
    let late := clk (n_reads s1 - 1)%nat - clk (n_reads s1 - 2)%nat in
    exists t, wakes_in_time second late deadline s1 now t /\ waits_for_something second late deadline s1 now t /\
      execute_once clk beh drv status status_dt types second receive fuel deadline s got n =
      (let s2 := set_reads s1 (S (n_reads s1)) in
       match receive (n_log s1) n t with
       | Err x => (s2, got, Err x)
       | Ok None => (s2, got, Ok 0%N)
       | Ok (Some (x, f)) =>
           match recv_frame clk beh drv types second fuel s2 x f with
           | (s3, Some e) => (s3, got ++ [(x, f)], Err e)
           | (s3, None) => (s3, got ++ [(x, f)], Ok 1%N)
           end
       end).
  Proof.
    intros SE G H now late. destruct (poll_next fuel s s1 next G H) as (_ & (e & E1 & E2) & F). fold late in E2, F.
    exists (Z.min (Z.max ((match deadline with Some d => Z.min next d | None => next end) - now) 0) second).
    split; [|split].
    - split; [lia|]. split; [intros d ->; lia|]. intros e' I. pose proof (proj1 (Forall_forall _ _) F e' I) as N. cbn in N. destruct deadline; lia.
    - unfold waits_for_something. destruct deadline as [d|].
      + destruct (Z.le_gt_cases second (Z.max (Z.min next d - now) 0)) as [L|L]; [left; lia|].
        destruct (Z.le_gt_cases next d) as [L2|L2].
        * right. right. exists e. split; [exact E1|]. lia.
        * right. left. exists d. split; [reflexivity|]. lia.
      + destruct (Z.le_gt_cases second (Z.max (next - now) 0)) as [L|L]; [left; lia|].
        right. right. exists e. split; [exact E1|]. lia.
    - unfold execute_once. rewrite H. reflexivity.
  Qed.
End Spin.
