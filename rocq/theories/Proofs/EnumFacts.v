(** Proofs about giving indices to motor controllers (C127). *)
From Verif.Base Require Import Prelude.
From Verif.Model Require Import EscEnum.
From Verif.Spec Require Import EnumSpec.
Local Open Scope nat_scope.

Lemma asked_app a b : asked (a ++ b) = asked a ++ asked b.
Proof. apply filter_app. Qed.
Lemma told_app a b : told (a ++ b) = told a ++ told b.
Proof. apply filter_app. Qed.
Lemma rounds_app f a : forall k b, rounds f k (a ++ b) = rounds f k a ++ rounds f (k + Z.of_nat (length a))%Z b.
Proof.
  induction a as [|[n name] a IH]; intros k b; cbn [rounds app length].
  - now rewrite Z.add_0_r.
  - rewrite IH, <- app_assoc. do 3 f_equal. lia.
Qed.

Definition current (f : Z -> N -> pname -> list entry) (s : enum) : list entry :=
  match e_heard s with Some (n, name) => f (e_next s) n name | None => [] end.

Section Facts.
  Variables (esc : list N) (timeout start : Z).

  (** [ns] has the nodes done with their parameters, [bs] those that have
      confirmed the beginning; [a] and [c] count the requests and confirmations
      of the present round. *)
  Record common (hist : list happening) (s : enum) (ns : list (N * pname)) (bs : list N) (a c : nat) : Prop := {
    c_done : e_done s = map fst ns;
    c_nodup : NoDup (e_done s);
    c_next : e_next s = Z.of_nat (length ns);
    c_asked : asked (e_log s) = map (fun n => AskBegin n timeout) esc ++ rounds round_asked 0 ns ++ firstn a (current round_asked s);
    c_told : told (e_log s) = map Begun bs ++ rounds round_told 0 ns ++ firstn c (current round_told s);
    c_open : (a <> 0 \/ c <> 0) -> exists n name, e_heard s = Some (n, name) /\ ~ In n (e_done s);
    c_names : forall n name, In (n, name) ns -> In (Indicated n name) hist;
    c_heard : forall n name, e_heard s = Some (n, name) -> In (Indicated n name) hist
  }.
  Definition placed (s : enum) (bs : list N) (a c : nat) : Prop :=
    match e_place s with
    | Starting => e_done s = [] /\ a = 0 /\ c = 0 /\ e_count s = length bs /\
        Forall (fun q => q_call q = CBegin) (e_waiting s) /\ Permutation (bs ++ map q_node (e_waiting s)) esc
    | Listening => Permutation bs esc /\ e_waiting s = [] /\ a = 0 /\ c = 0 /\
        (forall n name, e_heard s = Some (n, name) -> ~ In n (e_done s)) /\ same_set (e_done s) esc = false
    | Stopping => Permutation bs esc /\ exists n name, e_heard s = Some (n, name) /\ ~ In n (e_done s) /\ a = 1 /\
        ((c = 0 /\ e_count s = 0 /\ e_waiting s = [Pending n CBegin]) \/ (c = 1 /\ e_count s = 1 /\ e_waiting s = []))
    | Configuring => Permutation bs esc /\ exists n name, e_heard s = Some (n, name) /\ ~ In n (e_done s) /\
        ((a = 2 /\ c = 1 /\ e_set s = false /\ e_waiting s = [Pending n CSet]) \/
         (a = 3 /\ c = 2 /\ e_set s = false /\ e_waiting s = [Pending n CSave]) \/
         (a = 3 /\ c = 3 /\ e_set s = true /\ e_waiting s = []))
    | Returned => Permutation bs esc /\ a = 0 /\ c = 0 /\ same_set (e_done s) esc = true
    | Raised _ => True
    end.
  Definition inv (hist : list happening) (s : enum) : Prop :=
    exists ns bs a c, common hist s ns bs a c /\ placed s bs a c.

  Lemma inv_raised hist s e : inv hist s -> inv hist (put s (Raised e)).
  Proof. intros (ns & bs & a & c & [] & P). exists ns, bs, a, c. split; [constructor; auto|exact I]. Qed.
  Lemma inv_more hist h s : inv hist s -> inv (hist ++ h) s.
  Proof.
    intros (ns & bs & a & c & [] & P). exists ns, bs, a, c. split; [constructor; auto|exact P];
      intros; apply in_or_app; left; eauto.
  Qed.
  Lemma common_raised hist s ns bs a c e : common hist s ns bs a c -> inv hist (put s (Raised e)).
  Proof. intros []. exists ns, bs, a, c. split; [constructor; auto|exact I]. Qed.

  Lemma filter_one f (x : entry) l : filter f (l ++ [x]) = filter f l ++ (if f x then [x] else []).
  Proof. rewrite filter_app. reflexivity. Qed.

  Lemma unwait_common hist s ns bs a c j : common hist s ns bs a c -> common hist (unwait s j) ns bs a c.
  Proof. intros []. constructor; auto. Qed.

  Lemma split_nth {A} (l : list A) j x : nth_error l j = Some x ->
    Permutation (x :: firstn j l ++ skipn (S j) l) l.
  Proof.
    revert l. induction j as [|j IH]; intros [|y l] H; try discriminate; cbn in *.
    - injection H as ->. reflexivity.
    - etransitivity; [apply perm_swap|]. constructor. exact (IH l H).
  Qed.

  Lemma firstn_snoc {A} k (l : list A) x : nth_error l k = Some x -> firstn (S k) l = firstn k l ++ [x].
  Proof.
    revert l. induction k as [|k IH]; intros [|y l] H; try discriminate; cbn in *; [congruence|]. f_equal. auto.
  Qed.

  Lemma inv_happen hist s h : inv hist s -> inv (hist ++ [h]) (happen s h).
  Proof.
    intros V. assert (V' := inv_more hist [h] s V). unfold happen.
    destruct (e_place s) eqn:PL; try exact V'.
    all: destruct h as [j a0|src name|e]; try (apply inv_raised; exact V').
    all: try (unfold indicated; rewrite PL; exact V').
    - (* Starting *)
      destruct (nth_error (e_waiting s) j) as [q|] eqn:Q; [|exact V']. 
      destruct V' as (ns & bs & a & c & C & P). unfold placed in P. rewrite PL in P.
      destruct P as (P1 & -> & -> & P4 & P5 & P6). unfold called.
      assert (QC : q_call q = CBegin). { rewrite Forall_forall in P5. apply P5. eapply nth_error_In; eauto. }
      rewrite QC. apply (unwait_common _ _ _ _ _ _ j) in C.
      destruct a0 as [r|]; [|eapply common_raised; exact C].
      destruct (a_ok r); [|eapply common_raised; exact C].
      destruct C. exists ns, (bs ++ [q_node q]), 0, 0. split.
      + constructor; auto; cbn [logged count unwait e_log e_heard e_done e_next] in *.
        * rewrite asked_app, c_asked0. cbn. rewrite ?app_nil_r; reflexivity.
        * rewrite told_app, c_told0. cbn. rewrite P1 in c_done0. cbn in c_done0. destruct ns; [|discriminate]. cbn [rounds]. rewrite map_app. rewrite !app_nil_r. reflexivity.
      + unfold placed. cbn [logged count unwait e_place e_done e_count e_waiting]. rewrite PL. repeat split; auto.
        * rewrite app_length. cbn. lia.
        * apply Forall_forall. intros x I. rewrite Forall_forall in P5. apply P5.
          apply (Permutation_in _ (split_nth _ _ _ Q)). right. exact I.
        * etransitivity; [|exact P6]. rewrite <- app_assoc. apply Permutation_app_head. cbn [app].
          change (q_node q :: map q_node (firstn j (e_waiting s) ++ skipn (S j) (e_waiting s)))
            with (map q_node (q :: firstn j (e_waiting s) ++ skipn (S j) (e_waiting s))).
          apply Permutation_map. apply split_nth. exact Q.
    - (* Listening, answered *)
      destruct V' as (ns & bs & a & c & C & P). unfold placed in P. rewrite PL in P. destruct P as (P0 & P1 & P2).
      rewrite P1. destruct j; cbn; (exists ns, bs, a, c; split; [exact C|unfold placed; rewrite PL; auto]).
    - (* Listening, indicated *)
      unfold indicated. rewrite PL. destruct (existsb (N.eqb src) (e_done s)) eqn:EX; [exact V'|].
      destruct V' as (ns & bs & a & c & C & P). unfold placed in P. rewrite PL in P. destruct P as (P0 & P1 & -> & -> & P2 & P3).
      destruct C. exists ns, bs, 0, 0. split.
      + constructor; auto; cbn [hear e_log e_heard e_done e_next firstn] in *; auto.
        * intros [X|X]; congruence.
        * intros n nm E. injection E as <- <-. apply in_or_app. right. left. reflexivity.
      + unfold placed. cbn [hear e_place e_waiting e_heard e_done]. rewrite PL. repeat split; auto.
        intros n nm E. injection E as <- <-. intros I. apply Bool.not_true_iff_false in EX. apply EX. apply existsb_exists. exists src. split; [exact I|apply N.eqb_refl].
    - (* Stopping *)
      destruct V' as (ns & bs & a & c & C & P). unfold placed in P. rewrite PL in P.
      destruct P as (P0 & n & name & P1 & P2 & -> & P3).
      assert (STAY : inv (hist ++ [Answered j a0]) s).
      { exists ns, bs, 1, c. split; [exact C|]. unfold placed. rewrite PL. eauto 10. }
      destruct (nth_error (e_waiting s) j) as [q|] eqn:Q; [|exact STAY].
      destruct P3 as [(-> & P3 & P4)|(_ & _ & P4)]; [|rewrite P4 in Q; destruct j; discriminate].
      rewrite P4 in Q. destruct j as [|[|]]; try discriminate. injection Q as <-. apply (unwait_common _ _ _ _ _ _ 0) in C.
      unfold called. cbn [q_call q_node].
      destruct a0 as [r|]; [|eapply common_raised; exact C].
      destruct (a_ok r); [|eapply common_raised; exact C].
      destruct C. exists ns, bs, 1, 1. split.
      + constructor; auto; unfold current in *; cbn [logged count e_log e_heard e_done e_next unwait] in *.
        * rewrite asked_app, c_asked0. cbn. rewrite ?app_nil_r; reflexivity.
        * rewrite told_app, c_told0, P1. cbn. rewrite ?app_nil_r, <- ?app_assoc; reflexivity.
      + unfold placed. cbn [logged count unwait e_place e_done e_count e_waiting e_heard]. rewrite PL, P3, P4. eauto 10.
    - (* Configuring *)
      destruct V' as (ns & bs & a & c & C & P). unfold placed in P. rewrite PL in P.
      destruct P as (P0 & n & name & P1 & P2 & P3).
      assert (STAY : inv (hist ++ [Answered j a0]) s).
      { exists ns, bs, a, c. split; [exact C|]. unfold placed. rewrite PL. eauto 10. }
      destruct (nth_error (e_waiting s) j) as [q|] eqn:Q; [|exact STAY].
      destruct P3 as [(-> & -> & P3 & P4)|[(-> & -> & P3 & P4)|(_ & _ & _ & P4)]]; [| |rewrite P4 in Q; destruct j; discriminate].
      + rewrite P4 in Q. destruct j as [|[|]]; try discriminate. injection Q as <-. apply (unwait_common _ _ _ _ _ _ 0) in C.
        unfold called. cbn [q_call q_node unwait e_heard e_next]. rewrite P1.
        destruct a0 as [r|]; [|eapply common_raised; exact C].
        destruct (list_eq_dec N.eq_dec (a_name r) name) as [EN|]; [|eapply common_raised; exact C].
        destruct (a_value r =? e_next s)%Z eqn:EV; [|eapply common_raised; exact C]. cbn [andb].
        apply Z.eqb_eq in EV. rewrite EN, EV.
        destruct C. exists ns, bs, 3, 2. split.
        * constructor; auto; unfold current in *; cbn [ask logged count e_log e_heard e_done e_next unwait] in *.
          -- rewrite !asked_app, c_asked0, P1. cbn. rewrite ?app_nil_r, <- ?app_assoc; reflexivity.
          -- rewrite !told_app, c_told0, P1. cbn. rewrite ?app_nil_r, <- ?app_assoc; reflexivity.
        * unfold placed. cbn [ask logged count unwait e_place e_done e_count e_waiting e_heard e_set]. rewrite PL, P4.
          split; [exact P0|]. exists n, name. split; [exact P1|]. split; [exact P2|]. cbn [firstn skipn app]. auto 10.
      + rewrite P4 in Q. destruct j as [|[|]]; try discriminate. injection Q as <-. apply (unwait_common _ _ _ _ _ _ 0) in C.
        unfold called. cbn [q_call q_node].
        destruct a0 as [r|]; [|eapply common_raised; exact C].
        destruct (a_ok r); [|eapply common_raised; exact C].
        destruct C. exists ns, bs, 3, 3. split.
        * constructor; auto; unfold current in *; cbn [settle logged count e_log e_heard e_done e_next unwait] in *.
          -- rewrite !asked_app, c_asked0, P1. cbn. rewrite ?app_nil_r, <- ?app_assoc; reflexivity.
          -- rewrite !told_app, c_told0, P1. cbn. rewrite ?app_nil_r, <- ?app_assoc; reflexivity.
        * unfold placed. cbn [settle logged count unwait e_place e_done e_count e_waiting e_heard e_set]. rewrite PL, P4.
          split; [exact P0|]. exists n, name. split; [exact P1|]. split; [exact P2|]. cbn [firstn skipn app]. auto 10.
  Qed.

  Lemma inv_happens hs : forall hist s, inv hist s -> inv (hist ++ hs) (fold_left happen hs s).
  Proof.
    induction hs as [|h hs IH]; intros hist s V; cbn [fold_left]; [now rewrite app_nil_r|].
    change (h :: hs) with ([h] ++ hs). rewrite app_assoc. apply IH. apply inv_happen. exact V.
  Qed.

  (** The program has nothing to do but wait. *)
  Definition waits (s : enum) : Prop :=
    match e_place s with
    | Starting => e_count s < length esc
    | Listening => e_heard s = None
    | Stopping => e_count s = 0
    | Configuring => e_set s = false
    | _ => True
    end.

  Lemma next_round_inv hist s ns bs : common hist s ns bs 0 0 -> Permutation bs esc -> e_waiting s = [] ->
    inv hist (next_round esc s) /\ waits (next_round esc s).
  Proof.
    intros C P W. unfold next_round. destruct (same_set (e_done s) esc) eqn:E.
    - split; [|exact I]. exists ns, bs, 0, 0. destruct C. split; [constructor; auto|]. unfold placed. cbn. auto.
    - split; [|reflexivity]. exists ns, bs, 0, 0. destruct C. split.
      + constructor; auto; cbn [put hear e_heard e_log e_done]; auto; [intros [X|X]; congruence|discriminate].
      + unfold placed. cbn. repeat split; auto. discriminate.
  Qed.

  Lemma inv_resume hist s now : inv hist s -> inv hist (resume esc timeout start s now) /\ waits (resume esc timeout start s now).
  Proof.
    intros V. unfold resume. destruct (e_place s) eqn:PL.
    5: { split; [exact V|]. unfold waits. rewrite PL. exact I. }
    5: { split; [exact V|]. unfold waits. rewrite PL. exact I. }
    - destruct (e_count s <? length esc) eqn:E.
      + split; [exact V|]. unfold waits. rewrite PL. lia.
      + destruct V as (ns & bs & a & c & C & P). unfold placed in P. rewrite PL in P.
        destruct P as (P1 & -> & -> & P4 & P5 & P6).
        assert (W : e_waiting s = []).
        { apply Permutation_length in P6. rewrite app_length, map_length in P6. destruct (e_waiting s); [reflexivity|cbn in P6; lia]. }
        rewrite W in P6. cbn in P6. rewrite app_nil_r in P6. eapply next_round_inv; eauto.
    - destruct (start + timeout <? now)%Z; [split; [apply inv_raised; exact V|exact I]|].
      destruct (e_heard s) as [[n name]|] eqn:H; [|split; [exact V|unfold waits; rewrite PL; exact H]].
      split; [|reflexivity].
      destruct V as (ns & bs & a & c & C & P). unfold placed in P. rewrite PL in P. destruct P as (P0 & P1 & -> & -> & P2 & P3).
      destruct C. exists ns, bs, 1, 0. split.
      + constructor; auto; unfold current in *; cbn [put ask count e_log e_heard e_done e_next] in *.
        * rewrite asked_app, c_asked0, H. cbn. rewrite <- ?app_assoc; reflexivity.
        * rewrite told_app, c_told0, H. cbn. rewrite ?app_nil_r; reflexivity.
        * eauto.
      + unfold placed. cbn [put ask count e_place e_waiting e_heard e_done e_count]. rewrite P1. split; [exact P0|]. exists n, name. split; [assumption|]. split; [eauto|]. auto 10.
    - destruct (e_count s <? 1) eqn:E.
      + split; [exact V|]. unfold waits. rewrite PL. lia.
      + destruct V as (ns & bs & a & c & C & P). unfold placed in P. rewrite PL in P.
        destruct P as (P0 & n & name & P1 & P2 & -> & [(_ & P3 & _)|(-> & P3 & P4)]); [lia|]. rewrite P1. split; [|reflexivity].
        destruct C. exists ns, bs, 2, 1. split.
        * constructor; auto; unfold current in *; cbn [put ask settle e_log e_heard e_done e_next] in *.
          -- rewrite asked_app, c_asked0, P1. cbn. rewrite <- ?app_assoc; reflexivity.
          -- rewrite told_app, c_told0, P1. cbn. rewrite ?app_nil_r; reflexivity.
        * unfold placed. cbn [put ask settle e_place e_waiting e_heard e_done e_count e_set]. rewrite P4. split; [exact P0|]. exists n, name. split; [assumption|]. split; [eauto|]. auto 10.
    - destruct (e_set s) eqn:E; [|split; [exact V|unfold waits; rewrite PL; exact E]].
      destruct V as (ns & bs & a & c & C & P). unfold placed in P. rewrite PL in P.
      destruct P as (P0 & n & name & P1 & P2 & [(_ & _ & P3 & _)|[(_ & _ & P3 & _)|(-> & -> & _ & P4)]]); [congruence|congruence|].
      rewrite P1. destruct C. apply (next_round_inv hist _ (ns ++ [(n, name)]) bs); [|exact P0|exact P4].
      constructor; unfold current in *; cbn [e_log e_heard e_done e_next] in *.
      + rewrite c_done0, map_app. reflexivity.
      + apply (Permutation_NoDup (l := n :: e_done s)); [|constructor; assumption].
        apply Permutation_cons_append.
      + rewrite c_next0, app_length. cbn. lia.
      + rewrite c_asked0, P1, rounds_app, c_next0. cbn. rewrite ?app_nil_r; reflexivity.
      + rewrite c_told0, P1, rounds_app, c_next0. cbn. rewrite ?app_nil_r; reflexivity.
      + intros [X|X]; congruence.
      + intros m nm I. apply in_app_or in I as [I|[I|[]]]; [eauto|]. injection I as <- <-. eauto.
      + intros m nm EQ. injection EQ as <- <-. auto.
  Qed.

  Lemma inv_start : inv [] (begin_all esc timeout start) /\ waits (begin_all esc timeout start).
  Proof.
    unfold begin_all.
    set (s0 := Enum Starting 0 [] 0 None false [] []).
    assert (F : forall ns s, let s' := fold_left (fun s n => ask s n CBegin (AskBegin n timeout)) ns s in
      e_place s' = e_place s /\ e_count s' = e_count s /\ e_done s' = e_done s /\ e_next s' = e_next s /\ e_heard s' = e_heard s /\
      e_waiting s' = e_waiting s ++ map (fun n => Pending n CBegin) ns /\ e_log s' = e_log s ++ map (fun n => AskBegin n timeout) ns).
    { induction ns as [|n ns IH]; intros s; cbn [fold_left map].
      - rewrite !app_nil_r. auto 10.
      - destruct (IH (ask s n CBegin (AskBegin n timeout))) as (A1 & A2 & A3 & A4 & A5 & A6 & A7).
        cbn [ask e_place e_count e_done e_next e_heard e_waiting e_log] in *. rewrite A6, A7, <- !app_assoc. auto 10. }
    destruct (F esc s0) as (A1 & A2 & A3 & A4 & A5 & A6 & A7). unfold s0 in *. cbn [e_place e_count e_done e_next e_heard e_waiting e_log app] in *.
    apply inv_resume. exists [], [], 0, 0. split.
    - constructor; auto.
      + rewrite A3. constructor.
      + rewrite A7. cbn. rewrite app_nil_r. unfold asked. clear. induction esc; cbn; congruence.
      + rewrite A7. cbn. unfold told. clear. induction esc; cbn; congruence.
      + intros [X|X]; congruence.
      + rewrite A5. discriminate.
    - unfold placed. rewrite A1. repeat split; auto.
      + rewrite A6. clear. induction esc; cbn; constructor; auto.
      + rewrite A6. cbn. rewrite map_map. cbn. rewrite map_id. reflexivity.
  Qed.

  Lemma enum_inv spins : inv (happened spins) (enumerate esc timeout start spins) /\ waits (enumerate esc timeout start spins).
  Proof.
    induction spins as [|[hs t] spins IH] using rev_ind; [apply inv_start|].
    unfold enumerate, happened in *. rewrite fold_left_app, flat_map_app. cbn [fold_left flat_map fst]. rewrite app_nil_r.
    unfold spin_once. cbn [fst snd]. apply inv_resume. apply inv_happens. apply IH.
  Qed.

  Notation run := (enumerate esc timeout start).

  Lemma same_set_iff a b : same_set a b = true -> forall n, In n a <-> In n b.
  Proof.
    unfold same_set. intros H n. apply andb_true_iff in H as (H1 & H2). rewrite forallb_forall in H1, H2.
    split; intros I; [apply H1 in I|apply H2 in I]; apply existsb_exists in I as (m & I & E); apply N.eqb_eq in E; subst; exact I.
  Qed.
  Lemma same_set_of a b : (forall n, In n a <-> In n b) -> same_set a b = true.
  Proof.
    intros H. apply andb_true_iff. split; apply forallb_forall; intros n I; apply existsb_exists; exists n;
      (split; [apply H; exact I|apply N.eqb_refl]).
  Qed.

  (** What holds when the function has returned. *)
  Lemma enum_returned spins : e_place (run spins) = Returned ->
    exists ns bs, e_done (run spins) = map fst ns /\ NoDup (map fst ns) /\ (forall n, In n (map fst ns) <-> In n esc) /\
      Permutation bs esc /\
      (forall n name, In (n, name) ns -> In (Indicated n name) (happened spins)) /\
      asked (e_log (run spins)) = map (fun n => AskBegin n timeout) esc ++ rounds round_asked 0 ns /\
      told (e_log (run spins)) = map Begun bs ++ rounds round_told 0 ns.
  Proof.
    intros R. destruct (enum_inv spins) as ((ns & bs & a & c & C & P) & _). unfold placed in P. rewrite R in P.
    destruct P as (P1 & -> & -> & P2), C. exists ns, bs. rewrite <- c_done0. cbn [firstn] in *. rewrite !app_nil_r in *.
    split; [reflexivity|]. split; [assumption|]. split; [apply same_set_iff; exact P2|]. auto.
  Qed.

  Lemma indices_app a b : indices (a ++ b) = indices a ++ indices b.
  Proof. apply flat_map_app. Qed.
  Lemma indices_asked log : indices (asked log) = indices log.
  Proof.
    induction log as [|l log IH]; [reflexivity|]. cbn. destruct l; cbn; rewrite ?IH; try reflexivity;
      change (indices (asked log) = indices log) in IH; cbn in IH; unfold asked, indices in *; rewrite ?IH; reflexivity.
  Qed.
  Lemma indices_rounds ns : forall k, indices (rounds round_asked k ns) = combine (map fst ns) (map (fun j => k + Z.of_nat j)%Z (seq 0 (length ns))).
  Proof.
    induction ns as [|[n name] ns IH]; intros k; [reflexivity|]. cbn [rounds length seq map]. rewrite indices_app, IH.
    cbn. rewrite Z.add_0_r. f_equal. f_equal. rewrite <- seq_shift, map_map. apply map_ext. intros j. lia.
  Qed.
  Lemma indices_begin : indices (map (fun n => AskBegin n timeout) esc) = [].
  Proof. induction esc; cbn; auto. Qed.

  (** Whatever happens, the indices are given in order, and no node is given
      two. *)
  Lemma enum_indices spins : let g := indices (e_log (run spins)) in
    NoDup (map fst g) /\ map snd g = map Z.of_nat (seq 0 (length g)).
  Proof.
    intros g. destruct (enum_inv spins) as ((ns & bs & a & c & C & _) & _). destruct C.
    assert (E : g = combine (map fst ns) (map (fun j => 0 + Z.of_nat j)%Z (seq 0 (length ns))) ++ indices (firstn a (current round_asked (run spins)))).
    { unfold g. rewrite <- indices_asked, c_asked0, !indices_app, indices_begin, indices_rounds. reflexivity. }
    assert (B : forall l, map fst (combine (map fst ns) (map (fun j => 0 + Z.of_nat j)%Z (seq 0 (length ns))) ++ l) = map fst ns ++ map fst l /\
      map snd (combine (map fst ns) (map (fun j => 0 + Z.of_nat j)%Z (seq 0 (length ns))) ++ l) = map Z.of_nat (seq 0 (length ns)) ++ map snd l).
    { intros l. rewrite !map_app. split; f_equal.
      - clear. generalize 0 as k. induction ns as [|[n name] ns IH]; intros k; [reflexivity|]. cbn. f_equal. apply IH.
      - clear. generalize 0 as k. induction ns as [|[n name] ns IH]; intros k; [reflexivity|]. cbn. f_equal. apply IH. }
    assert (LEN : length g = length ns + length (indices (firstn a (current round_asked (run spins))))).
    { rewrite E, app_length, combine_length, !map_length, seq_length. lia. }
    assert (CUR : indices (firstn a (current round_asked (run spins))) = [] \/
      exists n name, e_heard (run spins) = Some (n, name) /\ ~ In n (e_done (run spins)) /\
        indices (firstn a (current round_asked (run spins))) = [(n, e_next (run spins))]).
    { destruct a as [|[|a]]; [left; reflexivity| |].
      - unfold current. destruct (e_heard _) as [[n name]|]; left; reflexivity.
      - right. destruct (c_open0 ltac:(left; discriminate)) as (n & name & H1 & H2). exists n, name. split; [exact H1|]. split; [exact H2|].
        unfold current. rewrite H1. destruct a as [|a]; [reflexivity|]. cbn. destruct a; reflexivity. }
    destruct (B (indices (firstn a (current round_asked (run spins))))) as (B1 & B2).
    rewrite <- E in B1, B2. rewrite B1, B2, LEN.
    destruct CUR as [->|(n & name & H1 & H2 & ->)]; cbn [map length fst snd].
    - rewrite !app_nil_r, Nat.add_0_r. rewrite <- c_done0. auto.
    - rewrite <- c_done0. split.
      + apply (Permutation_NoDup (l := n :: e_done (run spins))); [apply Permutation_cons_append|constructor; assumption].
      + rewrite seq_app, map_app. cbn. rewrite c_next0. reflexivity.
  Qed.

  (** When the program waits, it waits for an answer that is outstanding, or
      for an indication. *)
  Lemma enum_waits spins : ~ over (run spins) ->
    (e_place (run spins) = Listening /\ e_heard (run spins) = None) \/ e_waiting (run spins) <> [].
  Proof.
    intros O. destruct (enum_inv spins) as ((ns & bs & a & c & C & P) & W). unfold over, placed, waits in *.
    destruct (e_place (run spins)); try (exfalso; apply O; exact I).
    - right. destruct P as (_ & _ & _ & P4 & _ & P6). intros E. rewrite E in P6. apply Permutation_length in P6.
      rewrite app_length in P6. cbn in P6. lia.
    - left. auto.
    - right. destruct P as (_ & n & name & _ & _ & _ & [(_ & _ & E)|(_ & P & _)]); [rewrite E; discriminate|lia].
    - right. destruct P as (_ & n & name & _ & _ & [(_ & _ & _ & E)|[(_ & _ & _ & E)|(_ & _ & E & _)]]); [rewrite E; discriminate..|congruence].
  Qed.

  Lemma over_stays spins more : over (run spins) -> run (spins ++ more) = run spins.
  Proof.
    intros O. unfold enumerate. rewrite fold_left_app. fold (run spins). set (s := run spins) in *. clearbody s.
    induction more as [|[hs t] more IH]; [reflexivity|]. cbn [fold_left].
    assert (E : spin_once esc timeout start s (hs, t) = s); [|rewrite E; exact IH].
    unfold spin_once. cbn [fst snd]. assert (F : fold_left happen hs s = s).
    { clear -O. unfold over in O. induction hs as [|h hs IH]; [reflexivity|]. cbn [fold_left].
      replace (happen s h) with s; [exact IH|]. unfold happen. destruct (e_place s); [contradiction..| |]; reflexivity. }
    rewrite F. unfold resume, over in *. destruct (e_place s); [contradiction..| |]; reflexivity.
  Qed.

  (** It ends at the latest when a request stays without answer, or when the
      time is up while it waits for an indication. *)
  Lemma raised_spin s hs t e : e_place s = Raised e -> spin_once esc timeout start s (hs, t) = s.
  Proof.
    intros O. unfold spin_once. cbn [fst snd]. assert (F : fold_left happen hs s = s).
    { induction hs as [|h hs IH]; [reflexivity|]. cbn [fold_left].
      replace (happen s h) with s; [exact IH|]. unfold happen. rewrite O. reflexivity. }
    rewrite F. unfold resume. rewrite O. reflexivity.
  Qed.
  Lemma enum_unanswered spins j hs t : ~ over (run spins) -> j < length (e_waiting (run spins)) ->
    e_place (run (spins ++ [(Answered j None :: hs, t)])) = Raised UserException.
  Proof.
    intros O L. unfold enumerate. rewrite fold_left_app. fold (run spins). set (s := run spins) in *. clearbody s.
    cbn [fold_left]. unfold spin_once. cbn [fst snd fold_left].
    assert (H : happen s (Answered j None) = put (unwait s j) (Raised UserException)).
    { unfold happen. destruct (nth_error (e_waiting s) j) eqn:E; [|apply nth_error_None in E; lia].
      unfold over in O. destruct (e_place s); try reflexivity; exfalso; apply O; exact I. }
    rewrite H. pose proof (raised_spin (put (unwait s j) (Raised UserException)) hs t UserException eq_refl) as R.
    unfold spin_once in R. cbn [fst snd] in R. rewrite R. reflexivity.
  Qed.
  Lemma enum_deadline spins hs t : e_place (run spins) = Listening -> (start + timeout < t)%Z ->
    over (run (spins ++ [(hs, t)])).
  Proof.
    intros P L. unfold enumerate. rewrite fold_left_app. fold (run spins). set (s := run spins) in *. 
    assert (V : inv (happened spins) s) by apply enum_inv. clearbody s.
    cbn [fold_left]. unfold spin_once. cbn [fst snd].
    assert (K : forall hs s, e_waiting s = [] -> e_place s = Listening ->
      (e_place (fold_left happen hs s) = Listening \/ exists e, e_place (fold_left happen hs s) = Raised e)).
    { clear. induction hs as [|h hs IH]; intros s W P; [left; exact P|]. cbn [fold_left].
      assert (R : forall s e, e_place s = Raised e -> e_place (fold_left happen hs s) = Raised e).
      { clear. induction hs as [|h hs IH]; intros s e P; [exact P|]. cbn [fold_left]. apply IH. unfold happen. rewrite P. exact P. }
      unfold happen at 2 4. rewrite P. destruct h as [j a|src name|e].
      - rewrite W. replace (nth_error [] j) with (@None pending) by (destruct j; reflexivity). apply IH; assumption.
      - unfold indicated. rewrite P. destruct (existsb _ _); apply IH; assumption.
      - right. exists e. apply R. reflexivity. }
    destruct V as (ns & bs & a & c & C & PP). unfold placed in PP. rewrite P in PP.
    destruct (K hs s (proj1 (proj2 PP)) P) as [E|(e & E)]; unfold over, resume; rewrite E.
    - replace (start + timeout <? t)%Z with true by lia. exact I.
    - rewrite E. exact I.
  Qed.

  (** A node that is no motor controller and was given an index is the end of
      all hope. *)
  Lemma done_grows s hs t : exists d, e_done (spin_once esc timeout start s (hs, t)) = e_done s ++ d.
  Proof.
    unfold spin_once. cbn [fst snd].
    assert (F : forall hs s, e_done (fold_left happen hs s) = e_done s).
    { clear. induction hs as [|h hs IH]; intros s; [reflexivity|]. cbn [fold_left]. rewrite IH. clear.
      unfold happen. destruct (e_place s); try reflexivity; destruct h as [j a|src name|e]; try reflexivity;
        try (destruct (nth_error _ _) as [q|]; [|reflexivity]; unfold called; destruct a as [r|]; [|reflexivity];
             destruct (q_call q); try (destruct (a_ok r); reflexivity);
             cbn [unwait e_heard]; destruct (e_heard s) as [[n name]|]; [|reflexivity]; destruct (_ && _)%bool; reflexivity);
        unfold indicated; destruct (e_place s); try reflexivity; destruct (existsb _ _); reflexivity. }
    rewrite <- (F hs s). set (s' := fold_left happen hs s). clearbody s'. clear.
    unfold resume, next_round. destruct (e_place s').
    - exists []. rewrite app_nil_r. destruct (_ <? _); [reflexivity|]. destruct (same_set _ _); reflexivity.
    - exists []. rewrite app_nil_r. destruct (_ <? _)%Z; [reflexivity|]. destruct (e_heard s') as [[n name]|]; reflexivity.
    - exists []. rewrite app_nil_r. destruct (_ <? _); [reflexivity|]. destruct (e_heard s') as [[n name]|]; reflexivity.
    - destruct (e_set s'); [|exists []; symmetry; apply app_nil_r]. destruct (e_heard s') as [[n name]|]; [|exists []; symmetry; apply app_nil_r].
      exists [n]. cbn [e_done]. destruct (same_set _ _); reflexivity.
    - exists []. symmetry. apply app_nil_r.
    - exists []. symmetry. apply app_nil_r.
  Qed.
  Lemma enum_foreign spins n : In n (e_done (run spins)) -> ~ In n esc ->
    forall more, e_place (run (spins ++ more)) <> Returned.
  Proof.
    intros I N more R. destruct (enum_returned _ R) as (ns & bs & E & _ & S & _). apply N. apply S. rewrite <- E.
    clear -I. unfold enumerate in *. rewrite fold_left_app. revert I. generalize (fold_left (spin_once esc timeout start) spins (begin_all esc timeout start)).
    induction more as [|[hs t] more IH]; intros s I; [exact I|]. cbn [fold_left]. apply IH.
    destruct (done_grows s hs t) as (d & ->). apply in_or_app. auto.
  Qed.

  (** Nodes that do as they are asked all get their index. *)
  Lemma run_from spins more : run (spins ++ more) = fold_left (spin_once esc timeout start) more (run spins).
  Proof. unfold enumerate. apply fold_left_app. Qed.

  Lemma polite_starts t : forall k log c w, c + k = length esc -> k = length w -> Forall (fun q => q_call q = CBegin) w ->
    (0 < k) -> exists s, 
    fold_left (spin_once esc timeout start) (repeat ([Answered 0 (Some fine)], t) k) (Enum Starting c [] 0 None false w log) = next_round esc s /\
    e_done s = [] /\ e_next s = 0%Z /\ e_waiting s = [].
  Proof.
    induction k as [|k IH]; intros log c w L K F P; [lia|]. destruct w as [|q w]; [discriminate|]. cbn [repeat fold_left].
    apply Forall_cons_iff in F as (Q & F). injection K as K.
    unfold spin_once at 2. cbn [fst snd fold_left happen e_place e_waiting nth_error]. unfold called. rewrite Q. cbn [fine a_ok].
    unfold resume. cbn [logged count unwait e_place e_count e_done e_next e_heard e_set e_waiting e_log firstn skipn app].
    destruct k as [|k].
    - replace (S c <? length esc) with false by (symmetry; apply Nat.ltb_ge; lia). destruct w; [|discriminate]. cbn [repeat fold_left].
      eexists. split; [reflexivity|]. auto.
    - replace (S c <? length esc) with true by (symmetry; apply Nat.ltb_lt; lia). apply IH; [| |exact F|]; [cbn [e_count count]; lia|exact K|lia].
  Qed.

  Lemma polite_1 t n name ct dn nx st lg : (t <= start + timeout)%Z -> existsb (N.eqb n) dn = false ->
    spin_once esc timeout start (Enum Listening ct dn nx None st [] lg) ([Indicated n name], t) =
    Enum Stopping 0 dn nx (Some (n, name)) st [Pending n CBegin] (lg ++ [AskBegin n 0]).
  Proof.
    intros T NI. unfold spin_once. cbn [fst snd fold_left]. unfold happen. cbn [e_place]. unfold indicated. cbn [e_place e_done]. rewrite NI.
    unfold resume. cbn [hear e_place e_heard]. replace (start + timeout <? t)%Z with false by (symmetry; apply Z.ltb_ge; exact T). reflexivity.
  Qed.
  Lemma polite_2 t n name dn nx st lg :
    spin_once esc timeout start (Enum Stopping 0 dn nx (Some (n, name)) st [Pending n CBegin] lg) ([Answered 0 (Some fine)], t) =
    Enum Configuring 1 dn nx (Some (n, name)) false [Pending n CSet] ((lg ++ [Begun n]) ++ [AskSet n name nx]).
  Proof. reflexivity. Qed.
  Lemma polite_3 t n name dn nx lg :
    spin_once esc timeout start (Enum Configuring 1 dn nx (Some (n, name)) false [Pending n CSet] lg) ([Answered 0 (Some (Reply true name nx))], t) =
    Enum Configuring 1 dn nx (Some (n, name)) false [Pending n CSave] ((lg ++ [SetTo n name nx]) ++ [AskSave n]).
  Proof.
    unfold spin_once. cbn [fst snd fold_left]. unfold happen. cbn [e_place e_waiting nth_error]. unfold called. cbn [q_call unwait e_heard a_name a_value e_next].
    destruct (list_eq_dec N.eq_dec name name) as [_|X]; [|contradiction]. rewrite Z.eqb_refl. reflexivity.
  Qed.
  Lemma polite_4 t n name dn nx lg :
    spin_once esc timeout start (Enum Configuring 1 dn nx (Some (n, name)) false [Pending n CSave] lg) ([Answered 0 (Some fine)], t) =
    next_round esc (Enum Configuring 1 (dn ++ [n]) (nx + 1)%Z (Some (n, name)) true [] (lg ++ [Saved n])).
  Proof. reflexivity. Qed.

  Lemma polite_rounds_run t : (t <= start + timeout)%Z -> forall ns s, e_waiting s = [] ->
    NoDup (e_done s ++ map fst ns) -> (forall n, In n (e_done s ++ map fst ns) <-> In n esc) ->
    let s' := fold_left (spin_once esc timeout start) (polite_rounds t (e_next s) ns) (next_round esc s) in
    e_place s' = Returned /\ e_done s' = e_done s ++ map fst ns.
  Proof.
    intros T. induction ns as [|[n name] ns IH]; intros s W ND SS; cbn [polite_rounds fold_left map fst].
    - cbn [map] in *. rewrite app_nil_r in *. unfold next_round. rewrite (same_set_of _ _ SS). auto.
    - rewrite fold_left_app.
      assert (NS : same_set (e_done s) esc = false).
      { apply not_true_iff_false. intros H. apply NoDup_remove_2 in ND. apply ND. apply in_or_app. left.
        apply (same_set_iff _ _ H). apply SS. apply in_or_app. right. left. reflexivity. }
      assert (NR : next_round esc s = put (hear s None) Listening) by (unfold next_round; rewrite NS; reflexivity). rewrite NR.
      assert (NI : existsb (N.eqb n) (e_done s) = false).
      { apply not_true_iff_false. intros H. apply existsb_exists in H as (m & I & E). apply N.eqb_eq in E. subst m.
        apply NoDup_remove_2 in ND. apply ND. apply in_or_app. auto. }
      set (s3 := Enum Configuring 1 (e_done s ++ [n]) (e_next s + 1) (Some (n, name)) true []
        ((((((e_log s ++ [AskBegin n 0]) ++ [Begun n]) ++ [AskSet n name (e_next s)]) ++ [SetTo n name (e_next s)]) ++ [AskSave n]) ++ [Saved n])).
      assert (R : fold_left (spin_once esc timeout start) (polite_round t (e_next s) n name) (put (hear s None) Listening) = next_round esc s3).
      { destruct s as [pl ct dn nx hd st wt lg]. cbn [e_waiting e_done e_next e_log] in *. subst wt.
        unfold polite_round. cbn [fold_left put hear e_place e_heard e_count e_done e_next e_set e_waiting e_log].
        unfold put, hear. cbn [e_place e_heard e_count e_done e_next e_set e_waiting e_log].
        rewrite (polite_1 t n name ct dn nx st lg T NI), polite_2, polite_3, polite_4. reflexivity. }
      rewrite R. change (e_next s + 1)%Z with (e_next s3).
      assert (SP : e_done s3 ++ map fst ns = e_done s ++ n :: map fst ns) by (unfold s3; cbn [e_done]; rewrite <- app_assoc; reflexivity).
      destruct (IH s3 eq_refl) as (A & B); [rewrite SP; exact ND|rewrite SP; exact SS|]. split; [exact A|]. rewrite SP in B. exact B.
  Qed.

  Lemma enum_polite t ns : (t <= start + timeout)%Z -> NoDup esc -> Permutation (map fst ns) esc ->
    e_place (run (polite t esc ns)) = Returned /\ e_done (run (polite t esc ns)) = map fst ns.
  Proof.
    intros T ND P. unfold enumerate, polite. rewrite fold_left_app.
    assert (MR : map (fun _ : N => ([Answered 0 (Some fine)], t)) esc = repeat ([Answered 0 (Some fine)], t) (length esc)).
    { clear. induction esc; cbn; congruence. }
    rewrite MR.
    assert (B : exists s, fold_left (spin_once esc timeout start) (repeat ([Answered 0 (Some fine)], t) (length esc)) (begin_all esc timeout start) =
      next_round esc s /\ e_done s = [] /\ e_next s = 0%Z /\ e_waiting s = []).
    { unfold begin_all.
      assert (F : forall l s, fold_left (fun s n => ask s n CBegin (AskBegin n timeout)) l s =
        Enum (e_place s) (e_count s) (e_done s) (e_next s) (e_heard s) (e_set s) (e_waiting s ++ map (fun n => Pending n CBegin) l)
          (e_log s ++ map (fun n => AskBegin n timeout) l)).
      { clear. induction l as [|n l IH]; intros s; cbn [fold_left map]; [rewrite !app_nil_r; destruct s; reflexivity|].
        rewrite IH. cbn [ask e_place e_count e_done e_next e_heard e_set e_waiting e_log]. rewrite <- !app_assoc. reflexivity. }
      rewrite F. cbn [e_place e_count e_done e_next e_heard e_set e_waiting e_log app]. unfold resume. cbn [e_place e_count].
      destruct (0 <? length esc) eqn:E.
      - apply polite_starts; [reflexivity|now rewrite map_length| |apply Nat.ltb_lt; exact E].
        clear. induction esc; cbn; constructor; auto.
      - apply Nat.ltb_ge in E. destruct esc; [|cbn in E; lia]. cbn [length repeat fold_left map]. eexists. split; [reflexivity|]. auto. }
    destruct B as (s & -> & D & X & W). rewrite <- X.
    destruct (polite_rounds_run t T ns s W) as (A1 & A2); rewrite ?D; cbn [app].
    - apply (Permutation_NoDup (Permutation_sym P) ND).
    - intros n. split; apply Permutation_in; [exact P|apply Permutation_sym; exact P].
    - rewrite A2, D. auto.
  Qed.
End Facts.
