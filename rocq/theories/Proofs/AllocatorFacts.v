(** Facts about the allocator. *)
From Verif.Base Require Import Prelude.
From Verif.Model Require Import Allocator.
From Verif.Spec Require Import AllocatorSpec.
Local Open Scope N_scope.

Lemma uid_eqb_spec a b : uid_eqb a b = true <-> a = b.
Proof. unfold uid_eqb. destruct (list_eq_dec _ _ _); split; congruence. Qed.

Lemma Neqb_spec a b : (a =? b) = true <-> a = b.
Proof. apply N.eqb_eq. Qed.

Lemma all_zero_identifies u : all_zero u = negb (identifies u).
Proof.
  unfold all_zero, identifies. induction u as [|b u IH]; [reflexivity|]. cbn [forallb existsb].
  rewrite IH, negb_orb, negb_involutive, (N.eqb_sym 0 b). reflexivity.
Qed.

Lemma stored_Some u v : stored u = Some v <-> u = Some v /\ identifies v = true.
Proof.
  unfold stored. destruct u as [u|]; [|split; [discriminate|intros [[=] _]]].
  rewrite all_zero_identifies. destruct (identifies u) eqn:E; cbn; split.
  - intros [= <-]. auto.
  - intros [[= <-] _]. reflexivity.
  - discriminate.
  - intros [[= <-] H]. congruence.
Qed.

Lemma in_row_at t n u : In u (row_at t n) <-> exists ts, In (n, (u, ts)) t.
Proof.
  unfold row_at. rewrite in_flat_map. split.
  - intros ([n' [u' ts]] & Hi & H). cbn in H. destruct (n' =? n) eqn:E; [|destruct H].
    apply N.eqb_eq in E as ->. destruct H as [->|[]]. eauto.
  - intros (ts & H). exists (n, (u, ts)). split; [exact H|]. cbn. rewrite N.eqb_refl. left. reflexivity.
Qed.

Lemma row_at_none t n : ~ In n (map fst t) -> row_at t n = [].
Proof.
  intros H. destruct (row_at t n) as [|u l] eqn:E; [reflexivity|]. exfalso. apply H.
  assert (Hi : In u (row_at t n)) by (rewrite E; left; reflexivity).
  apply in_row_at in Hi as (ts & Hi). apply in_map_iff. exists (n, (u, ts)). auto.
Qed.

Lemma row_at_get t n : NoDup (map fst t) ->
  row_at t n = match dget N.eqb t n with Some (u, _) => [u] | None => [] end.
Proof.
  induction t as [|[n' [u ts]] t IH]; cbn; [reflexivity|]. intros H. inversion H as [|? ? Hn Hd]; subst.
  rewrite (N.eqb_sym n n'). destruct (n' =? n) eqn:E.
  - apply N.eqb_eq in E as ->. fold (row_at t n). rewrite row_at_none by exact Hn. reflexivity.
  - apply IH. exact Hd.
Qed.

Section Facts.
  Variable tie : list N -> nat.
  Variable tmo : Z.
  Variables lo hi : N.
  Notation gid := (get_node_id tie).
  Notation pick := (choose tie lo hi).
  Notation run := (served tie tmo lo hi).
  Notation step := (astep tie tmo lo hi).

  Lemma in_rows_of t u n ts : In (n, ts) (rows_of t u) <-> In (n, (Some u, ts)) t.
  Proof.
    unfold rows_of. rewrite in_flat_map. split.
    - intros ([n' [u' ts']] & Hi & H). cbn in H. destruct u' as [u'|]; [|destruct H].
      destruct (uid_eqb u' u) eqn:E; [|destruct H]. apply uid_eqb_spec in E as ->.
      destruct H as [[= -> ->]|[]]. exact Hi.
    - intros H. exists (n, (Some u, ts)). split; [exact H|]. cbn.
      rewrite (proj2 (uid_eqb_spec u u) eq_refl). left. reflexivity.
  Qed.

  Lemma newest_in rows n : In n (newest rows) -> exists ts, In (n, ts) rows.
  Proof.
    unfold newest. intros H. apply in_map_iff in H as ([n' ts] & <- & H).
    apply filter_In in H as (H & _). eauto.
  Qed.

  Lemma newest_nonempty rows : rows <> [] -> newest rows <> [].
  Proof.
    intros H. assert (E : exists r, In r rows /\ forall r', In r' rows -> (snd r' <= snd r)%Z).
    { clear -H. induction rows as [|r rows IH]; [congruence|]. destruct rows as [|r2 rows].
      - exists r. split; [left; reflexivity|]. intros r' [<-|[]]. lia.
      - destruct IH as (m & Hm & Hx); [discriminate|].
        destruct (Z.le_gt_cases (snd r) (snd m)).
        + exists m. split; [right; exact Hm|]. intros r' [<-|Hr]; [assumption|auto].
        + exists r. split; [left; reflexivity|]. intros r' [<-|Hr]; [lia|]. specialize (Hx r' Hr). lia. }
    destruct E as (r & Hi & Hm). intros En.
    assert (Hin : In (fst r) (newest rows)).
    { unfold newest. apply in_map. apply filter_In. split; [exact Hi|].
      apply forallb_forall. intros r' Hr. apply Z.leb_le. auto. }
    rewrite En in Hin. destruct Hin.
  Qed.

  Lemma gid_in t u n : gid t u = Some n -> exists ts, In (n, (Some u, ts)) t.
  Proof.
    unfold get_node_id. intros H. apply nth_error_In in H. apply newest_in in H as (ts & H).
    exists ts. apply in_rows_of. exact H.
  Qed.

  Lemma gid_some t u n ts : In (n, (Some u, ts)) t -> gid t u <> None.
  Proof.
    intros H. apply in_rows_of in H. unfold get_node_id.
    destruct (newest (rows_of t u)) as [|x l] eqn:E.
    - exfalso. apply (newest_nonempty (rows_of t u)); [|exact E]. intros E'. rewrite E' in H. destruct H.
    - apply nth_error_Some. apply Nat.mod_upper_bound. discriminate.
  Qed.

  Lemma in_range_up a b n : In n (range_up a b) <-> a <= n < b.
  Proof.
    unfold range_up. rewrite in_map_iff. split.
    - intros (i & <- & H). apply in_seq in H. lia.
    - intros H. exists (N.to_nat (n - a)). split; [lia|]. apply in_seq. lia.
  Qed.

  Lemma in_range_down a b n : In n (range_down a b) <-> b < n <= a.
  Proof.
    unfold range_down. rewrite in_map_iff. split.
    - intros (i & <- & H). apply in_seq in H. lia.
    - intros H. exists (N.to_nat (a - n)). split; [lia|]. apply in_seq. lia.
  Qed.

  Lemma truthy_Some x n : truthy x = Some n <-> x = Some n /\ n <> 0.
  Proof.
    unfold truthy. destruct x as [m|]; [|split; [discriminate|intros [[=] _]]].
    destruct (m =? 0) eqn:E; split.
    - discriminate.
    - intros [[= ->] H]. lia.
    - intros [= ->]. split; [reflexivity|lia].
    - intros [[= ->] _]. reflexivity.
  Qed.

  Lemma find_unknown t l n : find (fun n => negb (is_known t n)) l = Some n -> In n l /\ is_known t n = false.
  Proof. intros H. apply find_some in H as (H & E). apply negb_true_iff in E. auto. Qed.

  (** The chosen id is on record for the device, or free and found by one of
      the two searches. *)
  Lemma choose_cases t req u n : pick t req u = Some n ->
    n <> 0 /\
    (gid t u = Some n \/
     truthy (gid t u) = None /\ is_known t n = false /\ (req <> 0 /\ req <= n < hi \/ lo < n <= hi)).
  Proof.
    unfold choose. destruct (truthy (gid t u)) as [g|] eqn:Eg.
    - rewrite Eg. intros [= ->]. apply truthy_Some in Eg as (Eg & Hz). auto.
    - destruct (req =? 0) eqn:Er.
      + rewrite Eg. intros H. apply truthy_Some in H as (H & Hz). split; [exact Hz|].
        destruct (find _ _) as [k|] eqn:Ef; [|auto]. injection H as ->.
        apply find_unknown in Ef as (Hi & Hk). apply in_range_down in Hi. auto.
      + destruct (find _ (range_up req hi)) as [k|] eqn:Ef.
        * apply find_unknown in Ef as (Hi & Hk). apply in_range_up in Hi.
          destruct (truthy (Some k)) as [k'|] eqn:Ek.
          -- intros [= ->]. apply truthy_Some in Ek as ([= ->] & Hz). split; [exact Hz|].
             right. repeat split; auto. left. lia.
          -- exfalso. unfold truthy in Ek. destruct (k =? 0) eqn:E; [|discriminate]. lia.
        * rewrite Eg. intros H. apply truthy_Some in H as (H & Hz). split; [exact Hz|].
          destruct (find _ (range_down hi lo)) as [k|] eqn:Ef'; [|auto]. injection H as ->.
          apply find_unknown in Ef' as (Hi & Hk). apply in_range_down in Hi. auto.
  Qed.

  Lemma choose_None t req u : pick t req u = None ->
    (forall n, lo < n <= hi -> is_known t n = true) /\
    (req <> 0 -> forall n, req <= n < hi -> is_known t n = true) /\
    truthy (gid t u) = None.
  Proof.
    unfold choose. destruct (truthy (gid t u)) as [g|] eqn:Eg; [rewrite Eg; discriminate|].
    set (up := find _ (range_up req hi)). set (down := find _ (range_down hi lo)). intros H.
    assert (Hup : req <> 0 -> up = None).
    { intros Hr. destruct up as [k|] eqn:Eu; [exfalso|reflexivity].
      destruct (req =? 0) eqn:Er; [lia|]. subst up. apply find_unknown in Eu as (Hi & _).
      apply in_range_up in Hi. unfold truthy in H. destruct (k =? 0) eqn:E; [lia|discriminate]. }
    assert (Hd : down = None).
    { destruct down as [k|] eqn:Ed; [exfalso|reflexivity].
      subst down. apply find_unknown in Ed as (Hi & _). apply in_range_down in Hi.
      destruct (req =? 0) eqn:Er.
      - rewrite Eg in H. cbn in H. destruct (k =? 0) eqn:E; [lia|discriminate].
      - rewrite Hup in H by lia. rewrite Eg in H. cbn in H. destruct (k =? 0) eqn:E; [lia|discriminate]. }
    assert (Hall : forall l, find (fun n => negb (is_known t n)) l = None -> forall n, In n l -> is_known t n = true).
    { intros l Hl n Hn. apply (find_none _ _ Hl) in Hn. apply negb_false_iff in Hn. exact Hn. }
    split; [|split]; [| |reflexivity].
    - intros n Hn. apply (Hall _ Hd). apply in_range_down. exact Hn.
    - intros Hr n Hn. apply (Hall _ (Hup Hr)). apply in_range_up. exact Hn.
  Qed.

  Lemma choose_recorded t req u n : gid t u = Some n -> n <> 0 -> pick t req u = Some n.
  Proof.
    intros H Hz. assert (E : truthy (gid t u) = Some n) by (apply truthy_Some; auto).
    unfold choose. rewrite E. rewrite E. reflexivity.
  Qed.

  (** Tables. *)
  Lemma known_In t n : is_known t n = true <-> In n (map fst t).
  Proof.
    unfold is_known, dmem. destruct (dget N.eqb t n) eqn:E; split; intros H; try discriminate; auto.
    - apply (dget_In _ Neqb_spec) in E. apply in_map_iff. eexists. split; [|exact E]. reflexivity.
    - exfalso. apply (dget_None_keys _ Neqb_spec) in E. auto.
  Qed.

  Lemma known_set t u n w m : is_known (table_set t u n w) m = (n =? m) || is_known t m.
  Proof.
    unfold is_known, dmem, table_set. destruct (n =? m) eqn:E.
    - apply N.eqb_eq in E as ->. rewrite (dget_dset_same _ Neqb_spec). reflexivity.
    - rewrite (dget_dset_other _ Neqb_spec) by lia. reflexivity.
  Qed.

  Lemma uid_set t u n w m :
    get_unique_id (table_set t u n w) m = if n =? m then stored u else get_unique_id t m.
  Proof.
    unfold get_unique_id, table_set. destruct (n =? m) eqn:E.
    - apply N.eqb_eq in E as ->. rewrite (dget_dset_same _ Neqb_spec). reflexivity.
    - rewrite (dget_dset_other _ Neqb_spec) by lia. reflexivity.
  Qed.

  Lemma in_set t u n w r : NoDup (map fst t) ->
    In r (table_set t u n w) <-> r = (n, (stored u, w)) \/ (In r t /\ fst r <> n).
  Proof.
    intros Hd. pose proof (dset_nodup _ Neqb_spec t n (stored u, w) Hd) as Hd'. destruct r as [m v].
    unfold table_set. split.
    - intros H. apply (dget_nodup_In _ Neqb_spec _ _ _ Hd') in H.
      destruct (N.eq_dec n m) as [->|Hn].
      + rewrite (dget_dset_same _ Neqb_spec) in H. left. congruence.
      + rewrite (dget_dset_other _ Neqb_spec) in H by exact Hn. right.
        split; [apply (dget_In _ Neqb_spec); exact H|cbn; congruence].
    - intros [[= -> ->]|(H & Hn)].
      + apply (dget_In _ Neqb_spec). apply (dget_dset_same _ Neqb_spec).
      + cbn in Hn. apply (dget_In _ Neqb_spec). rewrite (dget_dset_other _ Neqb_spec) by congruence.
        apply (dget_nodup_In _ Neqb_spec); assumption.
  Qed.

  Lemma good_set t u n w : good_table t -> n <= 127 -> good_table (table_set t u n w).
  Proof.
    intros (Hd & Ht) Hn. split; [apply (dset_nodup _ Neqb_spec); exact Hd|].
    intros m v ts H. apply in_set in H as [[= -> -> ->]|(H & _)]; [| |exact Hd].
    - split; [exact Hn|]. intros u' Hu. apply stored_Some in Hu as (_ & Hu). exact Hu.
    - exact (Ht _ _ _ H).
  Qed.

  Lemma uid_row t n u ts : NoDup (map fst t) -> In (n, (u, ts)) t -> get_unique_id t n = u.
  Proof.
    intros Hd H. unfold get_unique_id. rewrite (dget_nodup_In _ Neqb_spec _ _ _ Hd H). reflexivity.
  Qed.

  Lemma uid_row_inv t n u : get_unique_id t n = Some u -> exists ts, In (n, (Some u, ts)) t.
  Proof.
    unfold get_unique_id. destruct (dget N.eqb t n) as [[v ts]|] eqn:E; [|discriminate].
    intros ->. exists ts. apply (dget_In _ Neqb_spec). exact E.
  Qed.

  Lemma known_row t n u ts : In (n, (u, ts)) t -> is_known t n = true.
  Proof. intros H. apply known_In. apply in_map_iff. eexists. split; [|exact H]. reflexivity. Qed.

  Lemma uid_known t n u : get_unique_id t n = Some u -> is_known t n = true.
  Proof. intros H. apply uid_row_inv in H as (ts & H). eapply known_row. exact H. Qed.

  (** What one event does. *)
  Inductive outcome (s : server) : aevent -> server -> Prop :=
  | o_quiet e q ts : (q = sv_query s /\ ts = sv_query_ts s \/ q = [] /\ ts = sv_query_ts s) ->
      (forall n u w, e <> AMonitor false n u w) ->
      (forall m, e = AMessage m -> heeded m -> am_first m = false) ->
      outcome s e (Server (sv_table s) q ts (sv_log s))
  | o_first m : heeded m -> am_first m = true ->
      outcome s (AMessage m) (Server (sv_table s) (am_uid m) (am_ts m) (sv_log s ++ [OQuery (am_uid m)]))
  | o_second m : heeded m -> am_first m = false -> length (am_uid m) = 6%nat -> length (sv_query s) = 6%nat ->
      (am_now m - sv_query_ts s <= tmo)%Z ->
      outcome s (AMessage m) (Server (sv_table s) (sv_query s ++ am_uid m) (am_ts m)
                                     (sv_log s ++ [OQuery (sv_query s ++ am_uid m)]))
  | o_alloc m n : heeded m -> am_first m = false -> length (am_uid m) = 4%nat -> length (sv_query s) = 12%nat ->
      (am_now m - sv_query_ts s <= tmo)%Z ->
      pick (sv_table s) (am_node m) (sv_query s ++ am_uid m) = Some n ->
      outcome s (AMessage m)
        (Server (table_set (sv_table s) (Some (sv_query s ++ am_uid m)) n (am_wall m))
                (if am_sent m then [] else sv_query s ++ am_uid m) (am_ts m)
                (sv_log s ++ [OAlloc (N.min n 127) (sv_query s ++ am_uid m)]))
  | o_fail m : heeded m -> am_first m = false -> length (am_uid m) = 4%nat -> length (sv_query s) = 12%nat ->
      (am_now m - sv_query_ts s <= tmo)%Z ->
      pick (sv_table s) (am_node m) (sv_query s ++ am_uid m) = None ->
      outcome s (AMessage m) (Server (sv_table s) (sv_query s ++ am_uid m) (am_ts m) (sv_log s))
  | o_report n u w :
      outcome s (AMonitor false n u w)
        (Server (match get_unique_id (sv_table s) n with
                 | None => table_set (sv_table s) u n w | Some _ => sv_table s end)
                (sv_query s) (sv_query_ts s) (sv_log s ++ [OReport n u])).

  Lemma step_outcome s e : outcome s e (step s e).
  Proof.
    destruct s as [t q qt l]. destruct e as [m|off n u w]; cbn [astep].
    - unfold on_message. cbn.
      destruct (am_source m =? 0) eqn:Es; cbn [negb].
      2:{ apply (o_quiet (Server t q qt l)); cbn; [auto|discriminate|].
          intros m' [= <-] (H & _). lia. }
      destruct (am_discovered m) eqn:Ed; cbn [negb].
      2:{ apply (o_quiet (Server t q qt l)); cbn; [auto|discriminate|].
          intros m' [= <-] (_ & H). congruence. }
      assert (Hh : heeded m) by (split; [lia|exact Ed]).
      destruct (am_first m) eqn:Ef; [apply (o_first (Server t q qt l)); assumption|].
      set (late := negb (Nat.eqb (length q) 0) && (tmo <? am_now m - qt)%Z).
      destruct late eqn:El.
      + cbn [length Nat.eqb]. rewrite !andb_false_r.
        apply (o_quiet (Server t q qt l)); cbn; [auto|discriminate|]. intros m' [= <-] _. exact Ef.
      + assert (Ht : length q <> 0%nat -> (am_now m - qt <= tmo)%Z).
        { intros Hq. subst late. destruct (Nat.eqb (length q) 0) eqn:E0; [apply Nat.eqb_eq in E0; lia|].
          cbn in El. lia. }
        destruct (Nat.eqb (length (am_uid m)) 6 && Nat.eqb (length q) 6) eqn:E2.
        { apply andb_true_iff in E2 as (Ea & Eb). apply Nat.eqb_eq in Ea, Eb.
          apply (o_second (Server t q qt l)); cbn; auto. apply Ht. lia. }
        destruct (Nat.eqb (length (am_uid m)) 4 && Nat.eqb (length q) 12) eqn:E3.
        { apply andb_true_iff in E3 as (Ea & Eb). apply Nat.eqb_eq in Ea, Eb.
          assert (Ht' : (am_now m - qt <= tmo)%Z) by (apply Ht; lia).
          destruct (choose tie lo hi t (am_node m) (q ++ am_uid m)) as [n|] eqn:Ec.
          - apply (o_alloc (Server t q qt l)); cbn; auto.
          - apply (o_fail (Server t q qt l)); cbn; auto. }
        apply (o_quiet (Server t q qt l)); cbn; [auto|discriminate|]. intros m' [= <-] _. exact Ef.
    - unfold on_monitor. cbn. destruct off.
      + apply (o_quiet (Server t q qt l)); cbn; [auto|discriminate|discriminate].
      + apply (o_report (Server t q qt l)).
  Qed.

  Lemma served_app s a b : run s (a ++ b) = run (run s a) b.
  Proof. apply fold_left_app. Qed.
  Lemma served_snoc s a e : run s (a ++ [e]) = step (run s a) e.
  Proof. apply served_app. Qed.

  Lemma pick_bound t req u n : good_table t -> hi <= 127 -> pick t req u = Some n -> n <= 127.
  Proof.
    intros (_ & Ht) Hh H. apply choose_cases in H as (_ & [H|(_ & _ & H)]).
    - apply gid_in in H as (ts & H). exact (proj1 (Ht _ _ _ H)).
    - lia.
  Qed.

  Lemma good_run t q ts evs : hi <= 127 -> good_table t -> Forall good_event evs ->
    good_table (sv_table (run (Server t q ts []) evs)).
  Proof.
    intros Hh Ht. induction evs as [|e evs IH] using rev_ind; [intros _; exact Ht|].
    intros He. apply Forall_app in He as (He & Hl). inversion Hl as [|? ? Hx _]; subst.
    rewrite served_snoc. specialize (IH He). set (s := run _ evs) in *.
    destruct (step_outcome s e); cbn; try exact IH.
    - apply good_set; [exact IH|]. eapply pick_bound; eauto.
    - destruct (get_unique_id _ _); [exact IH|]. apply good_set; [exact IH|]. exact Hx.
  Qed.

  (** The log at node [n] and the table say the same. *)
  Lemma said_snoc t l n o : said t (l ++ [o]) n = said t l n ++ said_at n [o].
  Proof. unfold said, said_at. rewrite flat_map_app, app_assoc. reflexivity. Qed.

  Lemma belongs_snoc t l n o :
    belongs t (l ++ [o]) n =
    match belongs t l n with
    | Some u => Some u
    | None => match said_at n [o] with
              | Some u :: _ => if identifies u then Some u else None
              | _ => None end
    end.
  Proof.
    unfold belongs. rewrite said_snoc, flat_map_app. destruct (flat_map _ (said t l n)) as [|x r]; [|reflexivity].
    cbn. destruct o as [u|n' u|n' u]; cbn; [reflexivity| |]; destruct (n' =? n); cbn; try reflexivity.
    - destruct (identifies u); reflexivity.
    - destruct u as [u|]; [|reflexivity]. destruct (identifies u); reflexivity.
  Qed.

  Lemma stored_if u : stored (Some u) = if identifies u then Some u else None.
  Proof. cbn. rewrite all_zero_identifies. destruct (identifies u); reflexivity. Qed.

  Lemma known_said t q ts evs n : hi <= 127 -> good_table t -> Forall good_event evs ->
    let s := run (Server t q ts []) evs in
    (is_known (sv_table s) n = false <-> said t (sv_log s) n = []) /\
    get_unique_id (sv_table s) n = belongs t (sv_log s) n.
  Proof.
    intros Hh Ht. induction evs as [|e evs IH] using rev_ind.
    - intros _. cbn. unfold belongs, said. cbn. rewrite app_nil_r, row_at_get by apply Ht.
      unfold is_known, dmem, get_unique_id.
      destruct (dget N.eqb t n) as [[u w]|] eqn:E; cbn.
      + split; [split; discriminate|]. destruct u as [u|]; [|reflexivity].
        apply (dget_In _ Neqb_spec) in E. rewrite (proj2 (proj2 Ht _ _ _ E) _ eq_refl). reflexivity.
      + split; [tauto|reflexivity].
    - intros He. apply Forall_app in He as (He & Hl). inversion Hl as [|? ? Hx _]; subst. clear Hl.
      pose proof (good_run t q ts evs Hh Ht He) as Hg. cbn zeta. rewrite served_snoc.
      specialize (IH He). cbn zeta in IH. set (s := run _ evs) in *. destruct IH as (IHk & IHb).
      destruct (step_outcome s e); cbn [sv_table sv_log]; [tauto| | | |tauto|].
      + rewrite said_snoc, belongs_snoc, <- IHb. cbn. rewrite app_nil_r. split; [exact IHk|].
        destruct (get_unique_id _ _); reflexivity.
      + rewrite said_snoc, belongs_snoc, <- IHb. cbn. rewrite app_nil_r. split; [exact IHk|].
        destruct (get_unique_id _ _); reflexivity.
      + rewrite said_snoc, belongs_snoc, <- IHb, known_set, uid_set.
        assert (Hb : n0 <= 127) by (eapply pick_bound; eauto).
        rewrite N.min_l by exact Hb. cbn. destruct (n0 =? n) eqn:E; cbn.
        * apply N.eqb_eq in E as ->. split.
          { split; [discriminate|]. intros E. apply app_eq_nil in E as (_ & E). discriminate. }
          fold (stored (Some (sv_query s ++ am_uid m))). rewrite stored_if.
          match goal with H : pick _ _ _ = Some n |- _ => apply choose_cases in H as (_ & [H|(_ & H & _)]) end.
          -- apply gid_in in H4 as (w & H4). rewrite (uid_row _ _ _ _ (proj1 Hg) H4).
             rewrite (proj2 (proj2 Hg _ _ _ H4) _ eq_refl). reflexivity.
          -- destruct (get_unique_id (sv_table s) n) eqn:Eu; [|reflexivity].
             apply uid_known in Eu. congruence.
        * rewrite app_nil_r. split; [exact IHk|]. destruct (get_unique_id _ _); reflexivity.
      + rewrite said_snoc, belongs_snoc, <- IHb. cbn. destruct (n0 =? n) eqn:E.
        * apply N.eqb_eq in E as ->. destruct (get_unique_id (sv_table s) n) eqn:Eu.
          -- split; [|exact Eu]. apply uid_known in Eu. rewrite Eu. split; [discriminate|].
             intros E. apply app_eq_nil in E as (_ & E). discriminate.
          -- rewrite known_set, uid_set, N.eqb_refl. cbn [orb]. split.
             ++ split; [discriminate|]. intros E. apply app_eq_nil in E as (_ & E). discriminate.
             ++ destruct u as [u|]; [|reflexivity]. apply stored_if.
        * rewrite app_nil_r. destruct (get_unique_id (sv_table s) n0) eqn:Eu.
          -- split; [exact IHk|]. destruct (get_unique_id _ _); reflexivity.
          -- rewrite known_set, uid_set, E. cbn. split; [exact IHk|]. destruct (get_unique_id _ _); reflexivity.
  Qed.

  Lemma log_grows s evs : exists l, sv_log (run s evs) = sv_log s ++ l.
  Proof.
    induction evs as [|e evs (l & IH)] using rev_ind; [exists []; symmetry; apply app_nil_r|].
    rewrite served_snoc. destruct (step_outcome (run s evs) e); cbn; rewrite IH;
      rewrite <- ?app_assoc; eauto.
  Qed.

  (** An element of the log was put there by one event. *)
  Lemma log_split s evs l1 o l2 : sv_log s = [] -> sv_log (run s evs) = l1 ++ o :: l2 ->
    exists a e b, evs = a ++ e :: b /\ sv_log (run s a) = l1 /\ sv_log (run s (a ++ [e])) = l1 ++ [o].
  Proof.
    intros H0. revert l1 o l2. induction evs as [|e evs IH] using rev_ind.
    - intros l1 o l2 H. change (sv_log s = l1 ++ o :: l2) in H. rewrite H0 in H. destruct l1; discriminate.
    - intros l1 o l2 H.
      assert (Hc : (exists r, sv_log (run s evs) = l1 ++ o :: r) \/
                   (sv_log (run s evs) = l1 /\ sv_log (run s (evs ++ [e])) = l1 ++ [o])).
      { rewrite served_snoc in *. set (s' := run s evs) in *.
        assert (Hs : sv_log (step s' e) = sv_log s' \/ exists o', sv_log (step s' e) = sv_log s' ++ [o']).
        { destruct (step_outcome s' e); cbn; eauto. }
        destruct Hs as [Hs|(o' & Hs)]; rewrite Hs in H; [left; eauto|].
        destruct l2 as [|x l2] using rev_ind.
        - change (l1 ++ [o]) with (l1 ++ [o]) in H. apply app_inj_tail in H as (<- & ->). right. auto.
        - left. exists l2. rewrite app_comm_cons, app_assoc in H. apply app_inj_tail in H as (H & _). exact H. }
      destruct Hc as [(r & Hc)|(Ha & Hb)].
      + apply IH in Hc as (a & e' & b & -> & Ha & Hb). exists a, e', (b ++ [e]).
        rewrite <- app_assoc. auto.
      + exists evs, e, []. auto.
  Qed.

  (** An allocation goes to a free id, or to the id of the device. *)
  Theorem alloc_owner t q ts evs n u l1 l2 : hi <= 127 -> good_table t -> Forall good_event evs ->
    sv_log (run (Server t q ts []) evs) = l1 ++ OAlloc n u :: l2 ->
    said t l1 n = [] \/ belongs t l1 n = Some u.
  Proof.
    intros Hh Ht He H. apply log_split in H as (a & e & b & -> & Ha & Hb); [|reflexivity].
    apply Forall_app in He as (Hea & He). 
    pose proof (good_run t q ts a Hh Ht Hea) as Hg.
    pose proof (known_said t q ts a n Hh Ht Hea) as Hk. cbn zeta in Hk.
    rewrite served_snoc in Hb. set (s := run _ a) in *. rewrite Ha in Hk. destruct Hk as (Hk & Hu).
    destruct (step_outcome s e); cbn [sv_log] in Hb; rewrite Ha in Hb;
      try (exfalso; apply (f_equal (@length _)) in Hb; rewrite app_length in Hb; cbn in Hb; lia);
      apply app_inj_tail in Hb as (_ & Hb); try discriminate.
    injection Hb as Hn Hq. subst u. pose proof (pick_bound _ _ _ _ Hg Hh H4) as Hn0.
    rewrite N.min_l in Hn by exact Hn0. subst n0.
    apply choose_cases in H4 as (_ & [H4|(_ & H4 & _)]).
    - right. apply gid_in in H4 as (w & H4). rewrite <- Hu. exact (uid_row _ _ _ _ (proj1 Hg) H4).
    - left. apply Hk. exact H4.
  Qed.

  Lemma in_said_alloc t l n u : In (OAlloc n u) l -> said t l n <> [].
  Proof.
    intros H E. unfold said in E. apply app_eq_nil in E as (_ & E).
    assert (Hi : In (Some u) (said_at n l)).
    { unfold said_at. apply in_flat_map. exists (OAlloc n u). split; [exact H|]. rewrite N.eqb_refl.
      left. reflexivity. }
    rewrite E in Hi. destruct Hi.
  Qed.

  Lemma belongs_app t l1 l2 n u : belongs t l1 n = Some u -> belongs t (l1 ++ l2) n = Some u.
  Proof.
    intros H. induction l2 as [|o l2 IH] using rev_ind; [rewrite app_nil_r; exact H|].
    rewrite app_assoc, belongs_snoc, IH. reflexivity.
  Qed.

  Lemma belongs_alloc t q ts evs n u l1 l2 : hi <= 127 -> good_table t -> Forall good_event evs ->
    sv_log (run (Server t q ts []) evs) = l1 ++ OAlloc n u :: l2 -> identifies u = true ->
    belongs t (l1 ++ [OAlloc n u]) n = Some u.
  Proof.
    intros Hh Ht He H Hi. destruct (alloc_owner _ _ _ _ _ _ _ _ Hh Ht He H) as [E|E].
    - rewrite belongs_snoc. unfold belongs. rewrite E. cbn. rewrite N.eqb_refl. cbn. rewrite Hi. reflexivity.
    - apply belongs_app. exact E.
  Qed.

  Theorem alloc_unique t q ts evs n u1 u2 : hi <= 127 -> good_table t -> Forall good_event evs ->
    let l := sv_log (run (Server t q ts []) evs) in
    In (OAlloc n u1) l -> In (OAlloc n u2) l -> identifies u1 = true -> identifies u2 = true -> u1 = u2.
  Proof.
    intros Hh Ht He l H1 H2 I1 I2.
    assert (B : forall u, In (OAlloc n u) l -> identifies u = true -> belongs t l n = Some u).
    { intros u H Hi. apply in_split in H as (a & b & E).
      pose proof (belongs_alloc _ _ _ _ _ _ _ _ Hh Ht He E Hi) as Hb.
      rewrite E. change (OAlloc n u :: b) with ([OAlloc n u] ++ b). rewrite app_assoc.
      apply belongs_app. exact Hb. }
    pose proof (B _ H1 I1). pose proof (B _ H2 I2). congruence.
  Qed.

  (** Stability. *)
  Lemma stable_row t q ts evs u n : hi <= 127 -> good_table t -> Forall good_event evs ->
    identifies u = true -> only_at t evs u n -> (exists w, In (n, (Some u, w)) t) -> n <> 0 ->
    let s := run (Server t q ts []) evs in
    (exists w, In (n, (Some u, w)) (sv_table s)) /\
    (forall n' w, In (n', (Some u, w)) (sv_table s) -> n' = n) /\
    forall n', In n' (given_to u (sv_log s)) -> n' = n.
  Proof.
    intros Hh Ht He Hi Ho Hr Hz. destruct Ho as (Ho & Ho'). induction evs as [|e evs IH] using rev_ind.
    - cbn. split; [exact Hr|]. split; [exact Ho|tauto].
    - apply Forall_app in He as (He & Hl). inversion Hl as [|? ? Hx _]; subst. clear Hl.
      pose proof (good_run t q ts evs Hh Ht He) as Hg. cbn zeta. rewrite served_snoc.
      specialize (IH He). destruct IH as (IHa & IHb & IHc).
      { intros n' w Hin. eapply Ho'. apply in_or_app. left. exact Hin. }
      set (s := run _ evs) in *.
      assert (Hgid : gid (sv_table s) u = Some n).
      { destruct IHa as (w & IHa). pose proof (gid_some _ _ _ _ IHa) as Hs.
        destruct (gid (sv_table s) u) as [n'|] eqn:E; [|congruence].
        apply gid_in in E as (w' & E). apply IHb in E. congruence. }
      destruct (step_outcome s e); cbn [sv_table sv_log]; try (split; [exact IHa|]; split; [exact IHb|]);
        try exact IHc.
      + unfold given_to. rewrite flat_map_app. cbn. rewrite app_nil_r. exact IHc.
      + unfold given_to. rewrite flat_map_app. cbn. rewrite app_nil_r. exact IHc.
      + pose proof (pick_bound _ _ _ _ Hg Hh H4) as Hb. rewrite N.min_l by exact Hb.
        assert (Hn : sv_query s ++ am_uid m = u -> n0 = n).
        { intros E. rewrite E in H4. rewrite (choose_recorded _ _ _ _ Hgid Hz) in H4. congruence. }
        assert (Hn' : n0 = n -> sv_query s ++ am_uid m = u).
        { intros ->. destruct IHa as (w & IHa). apply choose_cases in H4 as (_ & [H4|(_ & H4 & _)]).
          - apply gid_in in H4 as (w' & H4). apply (uid_row _ _ _ _ (proj1 Hg)) in H4, IHa. congruence.
          - apply known_row in IHa. congruence. }
        split; [|split].
        * destruct (N.eq_dec n0 n) as [E|Hd].
          -- specialize (Hn' E). subst n0. exists (am_wall m). apply in_set; [apply Hg|]. left.
             rewrite Hn', stored_if, Hi. reflexivity.
          -- destruct IHa as (w & IHa). exists w. apply in_set; [apply Hg|]. right. split; [exact IHa|].
             cbn. congruence.
        * intros n' w Hin. apply in_set in Hin as [[= -> E _]|(Hin & _)]; [| |apply Hg].
          -- fold (stored (Some (sv_query s ++ am_uid m))) in E. symmetry in E.
             apply stored_Some in E as ([= E] & _). auto.
          -- eapply IHb. exact Hin.
        * intros n' Hin. unfold given_to in Hin. rewrite flat_map_app in Hin. apply in_app_or in Hin as [Hin|Hin].
          -- apply IHc. exact Hin.
          -- cbn in Hin. destruct (list_eq_dec _ _ _) as [E|_]; [|destruct Hin].
             destruct Hin as [<-|[]]. auto.
      + destruct (get_unique_id (sv_table s) n0) as [u'|] eqn:Eu.
        * split; [exact IHa|]. split; [exact IHb|]. unfold given_to. rewrite flat_map_app. cbn.
          rewrite app_nil_r. exact IHc.
        * split; [|split].
          -- destruct IHa as (w' & IHa). exists w'. apply in_set; [apply Hg|]. right. split; [exact IHa|].
             cbn. intros <-. rewrite (uid_row _ _ _ _ (proj1 Hg) IHa) in Eu. discriminate.
          -- intros n' w' Hin. apply in_set in Hin as [[= -> E _]|(Hin & _)]; [| |apply Hg].
             ++ symmetry in E. apply stored_Some in E as (-> & _).
                eapply Ho'. apply in_or_app. right. left. reflexivity.
             ++ eapply IHb. exact Hin.
          -- unfold given_to. rewrite flat_map_app. cbn. rewrite app_nil_r. exact IHc.
  Qed.

  (** The log so far plays no part. *)
  Lemma shift_step t q ts l l' e :
    let s := step (Server t q ts l') e in
    step (Server t q ts (l ++ l')) e = Server (sv_table s) (sv_query s) (sv_query_ts s) (l ++ sv_log s).
  Proof.
    destruct e as [m|off n u w]; cbn.
    - unfold on_message. cbn. destruct (negb (am_source m =? 0)); [reflexivity|].
      destruct (negb (am_discovered m)); [reflexivity|].
      destruct (am_first m); [cbn; rewrite app_assoc; reflexivity|].
      set (q' := if negb (Nat.eqb (length q) 0) && (tmo <? am_now m - ts)%Z then [] else q). clearbody q'.
      destruct (Nat.eqb (length (am_uid m)) 6 && Nat.eqb (length q') 6); cbn; [rewrite app_assoc; reflexivity|].
      destruct (Nat.eqb (length (am_uid m)) 4 && Nat.eqb (length q') 12); cbn; [|reflexivity].
      destruct (pick _ _ _); cbn; [rewrite app_assoc|]; reflexivity.
    - unfold on_monitor. destruct off; cbn; [|rewrite app_assoc]; reflexivity.
  Qed.

  Lemma shift_run t q ts l evs :
    let s := run (Server t q ts []) evs in
    run (Server t q ts l) evs = Server (sv_table s) (sv_query s) (sv_query_ts s) (l ++ sv_log s).
  Proof.
    induction evs as [|e evs IH] using rev_ind; [cbn; rewrite app_nil_r; reflexivity|].
    cbn zeta in *. rewrite !served_snoc, IH. destruct (run (Server t q ts []) evs) as [t' q' ts' l'].
    cbn [sv_table sv_query sv_query_ts sv_log]. rewrite shift_step. reflexivity.
  Qed.

  Lemma rows_only t q ts evs u n : hi <= 127 -> good_table t -> Forall good_event evs ->
    only_at t evs u n ->
    let s := run (Server t q ts []) evs in
    (forall n', In n' (given_to u (sv_log s)) -> n' = n) ->
    forall n' w, In (n', (Some u, w)) (sv_table s) -> n' = n.
  Proof.
    intros Hh Ht He (Ho & Ho'). cbn zeta. induction evs as [|e evs IH] using rev_ind.
    - intros _. exact Ho.
    - apply Forall_app in He as (He & _).
      pose proof (good_run t q ts evs Hh Ht He) as Hg. rewrite served_snoc.
      specialize (IH He (fun n' w H => Ho' n' w (in_or_app _ _ _ (or_introl H)))).
      set (s := run _ evs) in *.
      destruct (step_outcome s e); cbn [sv_table sv_log]; try exact IH; unfold given_to;
        rewrite ?flat_map_app; cbn [flat_map]; rewrite ?app_nil_r; try exact IH; intros Hgv.
      + pose proof (pick_bound _ _ _ _ Hg Hh H4) as Hb. rewrite N.min_l in Hgv by exact Hb.
        assert (IH' : forall n' w, In (n', (Some u, w)) (sv_table s) -> n' = n).
        { apply IH. intros n' Hn. apply Hgv. apply in_or_app. left. exact Hn. }
        intros n' w Hin. apply in_set in Hin as [[= -> E _]|(Hin & _)]; [| |apply Hg].
        * fold (stored (Some (sv_query s ++ am_uid m))) in E. symmetry in E.
          apply stored_Some in E as ([= E] & _). apply Hgv. apply in_or_app. right.
          destruct (list_eq_dec _ _ _) as [_|Hd]; [left; reflexivity|contradiction].
        * eapply IH'. exact Hin.
      + specialize (IH Hgv). destruct (get_unique_id (sv_table s) n0); [exact IH|].
        intros n' w' Hin. apply in_set in Hin as [[= -> E _]|(Hin & _)]; [| |apply Hg].
        * symmetry in E. apply stored_Some in E as (-> & _).
          eapply Ho'. apply in_or_app. right. left. reflexivity.
        * eapply IH. exact Hin.
  Qed.

  Lemma given_first u l n r : given_to u l = n :: r ->
    exists l1 l2, l = l1 ++ OAlloc n u :: l2 /\ given_to u l1 = [] /\ given_to u l2 = r.
  Proof.
    induction l as [|o l IH]; [discriminate|]. cbn. fold (given_to u l).
    destruct o as [v|n' v|n' v]; cbn.
    - intros H. destruct (IH H) as (l1 & l2 & -> & H1 & H2). exists (OQuery v :: l1), l2. auto.
    - destruct (list_eq_dec _ _ _) as [->|Hd]; cbn.
      + intros [= -> <-]. exists [], l. auto.
      + intros H. destruct (IH H) as (l1 & l2 & -> & H1 & H2). exists (OAlloc n' v :: l1), l2.
        split; [reflexivity|]. split; [|exact H2]. cbn. destruct (list_eq_dec _ _ _); [contradiction|exact H1].
    - intros H. destruct (IH H) as (l1 & l2 & -> & H1 & H2). exists (OReport n' v :: l1), l2. auto.
  Qed.

  (** A device that is at one node id gets the same id each time. *)
  Theorem alloc_stable t q ts evs u n r : hi <= 127 -> good_table t -> Forall good_event evs ->
    identifies u = true -> only_at t evs u n ->
    given_to u (sv_log (run (Server t q ts []) evs)) = n :: r ->
    forall n', In n' r -> n' = n.
  Proof.
    intros Hh Ht He Hi Ho Hg n' Hn'. apply given_first in Hg as (l1 & l2 & El & E1 & E2).
    destruct (log_split (Server t q ts []) _ _ _ _ eq_refl El) as (a & e & b & Ev & Ha & Hb).
    subst evs. apply Forall_app in He as (Hea & Heb). apply Forall_cons_iff in Heb as (Hex & Heb').
    assert (Hoa : only_at t (a ++ [e]) u n).
    { split; [apply Ho|]. intros m w H. apply (proj2 Ho m w). apply in_app_or in H as [H|[H|[]]];
        apply in_or_app; [left; exact H|right; left; exact H]. }
    assert (Hea' : Forall good_event (a ++ [e])) by (apply Forall_app; auto).
    pose proof (good_run t q ts _ Hh Ht Hea') as Hgt.
    pose proof (rows_only t q ts _ u n Hh Ht Hea' Hoa) as Hro. cbn zeta in Hro.
    assert (Hz : n <> 0 /\ exists w, In (n, (Some u, w)) (sv_table (run (Server t q ts []) (a ++ [e])))).
    { rewrite served_snoc in *. pose proof (good_run t q ts a Hh Ht Hea) as Hg0.
      set (s := run _ a) in *.
      destruct (step_outcome s e); cbn [sv_log] in Hb; rewrite Ha in Hb;
        try (exfalso; apply (f_equal (@length _)) in Hb; rewrite !app_length in Hb; cbn in Hb; lia);
        apply app_inj_tail in Hb as (_ & Hb); try discriminate.
      injection Hb as Hn Hq. rewrite N.min_l in Hn by (eapply pick_bound; eauto). subst n0.
      split; [apply choose_cases in H4; apply H4|]. exists (am_wall m). cbn [sv_table].
      apply in_set; [apply Hg0|]. left. rewrite Hq, stored_if, Hi. reflexivity. }
    destruct Hz as (Hz & Hrow).
    change (a ++ e :: b) with (a ++ [e] ++ b) in El. rewrite app_assoc, served_app in El.
    destruct (run (Server t q ts []) (a ++ [e])) as [t' q' ts' l'] eqn:Er.
    cbn [sv_table sv_log] in *. rewrite Hb in *.
    rewrite shift_run in El. cbn [sv_log] in El.
    assert (Hl2 : sv_log (run (Server t' q' ts' []) b) = l2).
    { rewrite <- app_assoc in El. apply app_inv_head in El. cbn in El. injection El as El. exact El. }
    assert (Hob : only_at t' b u n).
    { split.
      - apply Hro. intros m Hm. unfold given_to in Hm. rewrite flat_map_app in Hm.
        fold (given_to u l1) in Hm. rewrite E1 in Hm. cbn in Hm. destruct (list_eq_dec _ _ _); [|destruct Hm].
        destruct Hm as [<-|[]]. reflexivity.
      - intros m w H. apply (proj2 Ho m w). apply in_or_app. right. right. exact H. }
    destruct (stable_row t' q' ts' b u n Hh Hgt Heb' Hi Hob Hrow Hz) as (_ & _ & Hs).
    apply Hs. rewrite Hl2. subst r. exact Hn'.
  Qed.

  (** The constructor. *)
  Lemma good_start db own ou w known : good_table db -> own <= 127 ->
    Forall (fun e => fst (fst e) <= 127) known ->
    good_table (sv_table (start db own ou w known)).
  Proof.
    intros Hd Ho Hk. cbn. assert (Hg := good_set _ (Some ou) own w Hd Ho). revert Hg.
    generalize (table_set db (Some ou) own w). induction Hk as [|e known He Hk IH]; [auto|].
    intros t Ht. cbn. apply IH. apply good_set; assumption.
  Qed.

  Lemma start_known t known e : NoDup (map (fun e : N * option uid * Z => fst (fst e)) known) -> In e known ->
    let t' := fold_left (fun t e => table_set t (snd (fst e)) (fst (fst e)) (snd e)) known t in
    is_known t' (fst (fst e)) = true /\ get_unique_id t' (fst (fst e)) = stored (snd (fst e)).
  Proof.
    revert t. induction known as [|x known IH]; [intros t _ []|]. intros t Hd. cbn.
    inversion Hd as [|? ? Hn Hd']; subst. intros [->|H]; [|apply IH; assumption].
    assert (Hk : forall t0, ~ In (fst (fst e)) (map (fun e => fst (fst e)) known) ->
              dget N.eqb (fold_left (fun t e => table_set t (snd (fst e)) (fst (fst e)) (snd e)) known t0)
                   (fst (fst e)) = dget N.eqb t0 (fst (fst e))).
    { clear. induction known as [|x known IH]; [reflexivity|]. intros t0 Hn. cbn in Hn |- *.
      rewrite IH by tauto. unfold table_set. apply (dget_dset_other _ Neqb_spec). tauto. }
    unfold is_known, dmem, get_unique_id. rewrite (Hk _ Hn). unfold table_set.
    rewrite (dget_dset_same _ Neqb_spec). auto.
  Qed.

  Lemma start_other db own ou w known n : n <> own ->
    ~ In n (map (fun e : N * option uid * Z => fst (fst e)) known) ->
    dget N.eqb (sv_table (start db own ou w known)) n = dget N.eqb db n.
  Proof.
    intros Ho Hn. cbn.
    assert (Hk : forall t0,
              dget N.eqb (fold_left (fun t e => table_set t (snd (fst e)) (fst (fst e)) (snd e)) known t0) n
              = dget N.eqb t0 n).
    { clear Ho. induction known as [|x known IH]; [reflexivity|]. intros t0. cbn in Hn |- *.
      rewrite IH by tauto. unfold table_set. apply (dget_dset_other _ Neqb_spec). tauto. }
    rewrite Hk. unfold table_set. apply (dget_dset_other _ Neqb_spec). congruence.
  Qed.

  Lemma start_own db own ou w known :
    ~ In own (map (fun e : N * option uid * Z => fst (fst e)) known) ->
    dget N.eqb (sv_table (start db own ou w known)) own = Some (stored (Some ou), w).
  Proof.
    intros Hn. cbn.
    assert (Hk : forall t0,
              dget N.eqb (fold_left (fun t e => table_set t (snd (fst e)) (fst (fst e)) (snd e)) known t0) own
              = dget N.eqb t0 own).
    { induction known as [|x known IH]; [reflexivity|]. intros t0. cbn in Hn |- *.
      rewrite IH by tauto. unfold table_set. apply (dget_dset_other _ Neqb_spec). tauto. }
    rewrite Hk. apply (dget_dset_same _ Neqb_spec).
  Qed.

  (** Nodes that are on the bus when the allocator starts, and the allocator
      itself, keep their ids. *)
  Theorem alloc_spares db own ou w known evs n u : hi <= 127 -> good_table db -> own <= 127 ->
    Forall (fun e : N * option uid * Z => fst (fst e) <= 127) known ->
    NoDup (own :: map (fun e => fst (fst e)) known) -> Forall good_event evs ->
    identifies u = true ->
    In (OAlloc n u) (sv_log (run (start db own ou w known) evs)) ->
    (n = own -> identifies ou = true -> u = ou) /\
    (forall v w', In (n, Some v, w') known -> identifies v = true -> u = v).
  Proof.
    intros Hh Hd Ho Hk Hnd He Hi Hin. inversion Hnd as [|? ? Hno Hnk]; subst.
    pose proof (good_start db own ou w known Hd Ho Hk) as Hg.
    assert (B : forall v, get_unique_id (sv_table (start db own ou w known)) n = Some v -> v = u).
    { intros v Hv. apply in_split in Hin as (l1 & l2 & E).
      change (start db own ou w known) with (Server (sv_table (start db own ou w known)) [] 0 []) in E.
      destruct (alloc_owner _ _ _ _ _ _ _ _ Hh Hg He E) as [E'|E'].
      - exfalso. unfold said in E'. apply app_eq_nil in E' as (E' & _).
        rewrite row_at_get in E' by apply Hg. unfold get_unique_id in Hv.
        destruct (dget _ _ _) as [[? ?]|]; [discriminate|discriminate].
      - unfold belongs, said in E'. rewrite row_at_get in E' by apply Hg.
        apply uid_row_inv in Hv as Hv'. destruct Hv' as (ts & Hv').
        unfold get_unique_id in Hv. destruct (dget _ _ _) as [[v' ?]|] eqn:Eg; [|discriminate].
        subst v'. cbn in E'. rewrite (proj2 (proj2 Hg _ _ _ Hv') _ eq_refl) in E'. cbn in E'. congruence. }
    split.
    - intros -> Hio. symmetry. apply B. unfold get_unique_id. rewrite (start_own _ _ _ _ _ Hno).
      rewrite stored_if, Hio. reflexivity.
    - intros v w' Hin' Hiv. symmetry. apply B.
      destruct (start_known (table_set db (Some ou) own w) known (n, Some v, w') Hnk Hin') as (_ & Hu).
      cbn [fst snd] in Hu. rewrite stored_if, Hiv in Hu. exact Hu.
  Qed.

  (** A recorded device keeps its id over a restart on the same table, unless
      the monitor or the own node says otherwise. *)
  Theorem alloc_restart db own ou w known evs n u wr : hi <= 127 -> good_table db -> own <= 127 ->
    Forall (fun e : N * option uid * Z => fst (fst e) <= 127) known -> Forall good_event evs ->
    identifies u = true -> n <> 0 -> In (n, (Some u, wr)) db -> only_at db evs u n ->
    n <> own -> ou <> u ->
    (forall v w', In (n, v, w') known -> v = Some u) ->
    (forall n' w', In (n', Some u, w') known -> n' = n) ->
    forall n', In n' (given_to u (sv_log (run (start db own ou w known) evs))) -> n' = n.
  Proof.
    intros Hh Hd Ho Hk He Hi Hz Hr (Hot & Hoe) Hno Hou Hk1 Hk2.
    pose proof (good_start db own ou w known Hd Ho Hk) as Hg.
    assert (Hs : forall t, good_table t -> (exists w, In (n, (Some u, w)) t) ->
                 (forall n' w, In (n', (Some u, w)) t -> n' = n) ->
                 let t' := fold_left (fun t e => table_set t (snd (fst e)) (fst (fst e)) (snd e)) known t in
                 (exists w, In (n, (Some u, w)) t') /\ (forall n' w, In (n', (Some u, w)) t' -> n' = n)).
    { clear -Hk Hk1 Hk2 Hi. induction known as [|[[k v] wk] known IH]; [cbn; auto|].
      inversion Hk as [|? ? Hkb Hk']; subst. intros t Ht (w0 & Hw) Hon. cbn [fold_left fst snd].
      apply IH; [exact Hk'| | | | |].
      - intros v' w' Hv. apply (Hk1 v' w'). right. exact Hv.
      - intros n' w' Hv. apply (Hk2 n' w'). right. exact Hv.
      - apply good_set; assumption.
      - destruct (N.eq_dec k n) as [->|Hkn].
        + exists wk. apply in_set; [apply Ht|]. left. rewrite (Hk1 v wk) by (left; reflexivity).
          rewrite stored_if, Hi. reflexivity.
        + exists w0. apply in_set; [apply Ht|]. right. cbn. auto.
      - intros n' w' Hin. apply in_set in Hin as [[= -> E _]|(Hin & _)]; [| |apply Ht].
        + symmetry in E. apply stored_Some in E as (-> & _). apply (Hk2 k wk). left. reflexivity.
        + eapply Hon. exact Hin. }
    destruct (Hs (table_set db (Some ou) own w)) as (Hr' & Ho').
    - apply good_set; assumption.
    - exists wr. apply in_set; [apply Hd|]. right. cbn. auto.
    - intros n' w' Hin. apply in_set in Hin as [[= -> E _]|(Hin & _)]; [| |apply Hd].
      + fold (stored (Some ou)) in E. symmetry in E. apply stored_Some in E as ([= E] & _). congruence.
      + eapply Hot. exact Hin.
    - intros n' Hn'. change (start db own ou w known) with (Server (sv_table (start db own ou w known)) [] 0 []) in Hn'.
      destruct (stable_row _ [] 0%Z evs u n Hh Hg He Hi (conj Ho' Hoe) Hr' Hz) as (_ & _ & Hx).
      apply Hx. exact Hn'.
  Qed.

  (** Nor is its id given to another device. *)
  Theorem restart_owner db own ou w known evs n u v wr : hi <= 127 -> good_table db -> own <= 127 ->
    Forall (fun e : N * option uid * Z => fst (fst e) <= 127) known -> Forall good_event evs ->
    In (n, (Some v, wr)) db -> n <> own ->
    ~ In n (map (fun e => fst (fst e)) known) ->
    In (OAlloc n u) (sv_log (run (start db own ou w known) evs)) -> u = v.
  Proof.
    intros Hh Hd Ho Hk He Hr Hno Hnk Hin.
    pose proof (good_start db own ou w known Hd Ho Hk) as Hg.
    assert (Hv : dget N.eqb (sv_table (start db own ou w known)) n = Some (Some v, wr)).
    { rewrite start_other by assumption. apply (dget_nodup_In _ Neqb_spec); [apply Hd|exact Hr]. }
    apply in_split in Hin as (l1 & l2 & E).
    change (start db own ou w known) with (Server (sv_table (start db own ou w known)) [] 0 []) in E.
    destruct (alloc_owner _ _ _ _ _ _ _ _ Hh Hg He E) as [E'|E'].
    - exfalso. unfold said in E'. apply app_eq_nil in E' as (E' & _).
      rewrite row_at_get, Hv in E' by apply Hg. discriminate.
    - unfold belongs, said in E'. rewrite row_at_get, Hv in E' by apply Hg. cbn in E'.
      apply (dget_In _ Neqb_spec) in Hv. rewrite (proj2 (proj2 Hg _ _ _ Hv) _ eq_refl) in E'. cbn in E'. congruence.
  Qed.

  (** The range. *)
  Theorem alloc_range t q ts evs n u l1 l2 : hi <= 127 -> good_table t -> Forall good_event evs ->
    (forall m, In (AMessage m) evs -> am_node m = 0 \/ lo <= am_node m) ->
    sv_log (run (Server t q ts []) evs) = l1 ++ OAlloc n u :: l2 ->
    (lo <= n <= hi /\ n <> 0) \/ belongs t l1 n = Some u.
  Proof.
    intros Hh Ht He Hm H. apply log_split in H as (a & e & b & -> & Ha & Hb); [|reflexivity].
    apply Forall_app in He as (Hea & He).
    pose proof (good_run t q ts a Hh Ht Hea) as Hg.
    pose proof (known_said t q ts a n Hh Ht Hea) as Hk. cbn zeta in Hk.
    rewrite served_snoc in Hb. set (s := run _ a) in *. rewrite Ha in Hk. destruct Hk as (Hk & Hu).
    destruct (step_outcome s e); cbn [sv_log] in Hb; rewrite Ha in Hb;
      try (exfalso; apply (f_equal (@length _)) in Hb; rewrite app_length in Hb; cbn in Hb; lia);
      apply app_inj_tail in Hb as (_ & Hb); try discriminate.
    injection Hb as Hn Hq. subst u. pose proof (pick_bound _ _ _ _ Hg Hh H4) as Hn0.
    rewrite N.min_l in Hn by exact Hn0. subst n0.
    specialize (Hm m (in_elt _ _ _)).
    apply choose_cases in H4 as (Hz & [H4|(_ & _ & H4)]).
    - right. apply gid_in in H4 as (w & H4). rewrite <- Hu. exact (uid_row _ _ _ _ (proj1 Hg) H4).
    - left. lia.
  Qed.

  (** A complete request is answered, unless nothing is left. *)
  Theorem handshake t q ts evs m1 m2 m3 : hi <= 127 -> good_table t -> Forall good_event evs ->
    heeded m1 -> heeded m2 -> heeded m3 ->
    am_first m1 = true -> am_first m2 = false -> am_first m3 = false ->
    length (am_uid m1) = 6%nat -> length (am_uid m2) = 6%nat -> length (am_uid m3) = 4%nat ->
    (am_now m2 - am_ts m1 <= tmo)%Z -> (am_now m3 - am_ts m2 <= tmo)%Z ->
    let l := sv_log (run (Server t q ts []) evs) in
    let l' := sv_log (run (Server t q ts []) (evs ++ [AMessage m1; AMessage m2; AMessage m3])) in
    let u := am_uid m1 ++ am_uid m2 ++ am_uid m3 in
    let asked := l ++ [OQuery (am_uid m1); OQuery (am_uid m1 ++ am_uid m2)] in
    (exists n, l' = asked ++ [OAlloc n u]) \/
    (l' = asked /\ forall n, lo < n <= hi -> said t l n <> []).
  Proof.
    intros Hh Ht He Hm1 Hm2 Hm3 F1 F2 F3 L1 L2 L3 T2 T3.
    cbn zeta. rewrite served_app.
    assert (Hk : forall n, is_known (sv_table (run (Server t q ts []) evs)) n = true ->
                           said t (sv_log (run (Server t q ts []) evs)) n <> []).
    { intros n Hn E. pose proof (known_said t q ts evs n Hh Ht He) as (Hk & _).
      apply Hk in E. congruence. }
    destruct (run (Server t q ts []) evs) as [t0 q0 ts0 l]. cbn [sv_log sv_table] in *.
    unfold served. cbn [fold_left].
    assert (E1 : step (Server t0 q0 ts0 l) (AMessage m1) =
                 Server t0 (am_uid m1) (am_ts m1) (l ++ [OQuery (am_uid m1)])).
    { destruct Hm1 as (Hs & Hd). cbn. unfold on_message. rewrite Hs, Hd, F1. reflexivity. }
    rewrite E1.
    assert (E2 : step (Server t0 (am_uid m1) (am_ts m1) (l ++ [OQuery (am_uid m1)])) (AMessage m2) =
                 Server t0 (am_uid m1 ++ am_uid m2) (am_ts m2)
                   ((l ++ [OQuery (am_uid m1)]) ++ [OQuery (am_uid m1 ++ am_uid m2)])).
    { destruct Hm2 as (Hs & Hd). cbn. unfold on_message. cbn. rewrite Hs, Hd, F2, L1, L2. cbn.
      rewrite (proj2 (Z.ltb_ge _ _) T2). cbn. rewrite L1. reflexivity. }
    rewrite E2.
    assert (L12 : length (am_uid m1 ++ am_uid m2) = 12%nat) by (rewrite app_length; lia).
    cbn [astep]. unfold on_message. cbn [sv_table sv_query sv_query_ts sv_log].
    destruct Hm3 as (Hs & Hd). rewrite Hs, Hd, F3, L12, L3. cbn [N.eqb negb Nat.eqb andb].
    rewrite (proj2 (Z.ltb_ge _ _) T3). rewrite L12. cbn [N.eqb negb Nat.eqb andb].
    rewrite <- !app_assoc.
    destruct (choose tie lo hi t0 (am_node m3) (am_uid m1 ++ am_uid m2 ++ am_uid m3)) as [n|] eqn:Ec.
    - left. exists (N.min n 127). cbn [sv_log app]. rewrite <- app_assoc. reflexivity.
    - right. cbn [sv_log app]. split; [reflexivity|].
      intros n Hn. apply Hk. apply choose_None in Ec as (Ec & _). auto.
  Qed.

  (** Where an allocated unique id comes from. *)
  Lemma untouched_nil u : untouched u [].
  Proof. intros m []. Qed.

  Lemma collected_snoc a q ts e : collected tmo a q ts ->
    untouched q [e] -> collected tmo (a ++ [e]) q ts.
  Proof.
    intros H Hu.
    assert (Hx : forall b, untouched q b -> untouched q (b ++ [e])).
    { intros b Hb m Hm. apply in_app_or in Hm as [Hm|Hm]; [exact (Hb m Hm)|exact (Hu m Hm)]. }
    inversion H; subst; rewrite <- app_assoc; cbn [app].
    - apply col_first; auto.
    - eapply col_next; eauto.
  Qed.

  Lemma query_collected t evs :
    let s := run (Server t [] 0 []) evs in
    length (sv_query s) = 6%nat \/ length (sv_query s) = 12%nat ->
    collected tmo evs (sv_query s) (sv_query_ts s).
  Proof.
    cbn zeta. induction evs as [|e evs IH] using rev_ind; [cbn; lia|].
    rewrite served_snoc. set (s := run _ evs) in *. destruct e as [m|off n u w].
    2:{ destruct (step s (AMonitor off n u w)) as [t' q' ts' l'] eqn:E.
        assert (Hq : q' = sv_query s /\ ts' = sv_query_ts s).
        { cbn in E. unfold on_monitor in E. destruct off; [|injection E; intros; subst; auto].
          subst s. rewrite E. auto. }
        destruct Hq as (-> & ->). cbn. intros H. apply collected_snoc; [apply IH; exact H|].
        intros m [Hm|[]]. discriminate. }
    cbn [astep]. unfold on_message.
    assert (Hsame : (heeded m -> am_first m = false /\
              (length (sv_query s) = 6%nat -> length (am_uid m) <> 6%nat) /\
              (length (sv_query s) = 12%nat -> length (am_uid m) <> 4%nat)) ->
              length (sv_query s) = 6%nat \/ length (sv_query s) = 12%nat ->
              collected tmo (evs ++ [AMessage m]) (sv_query s) (sv_query_ts s)).
    { intros Hm Hl. apply collected_snoc; [apply IH; exact Hl|]. intros m' [[= <-]|[]]. exact Hm. }
    destruct (am_source m =? 0) eqn:Es; cbn [negb].
    2:{ apply Hsame. intros (H & _). lia. }
    destruct (am_discovered m) eqn:Ed; cbn [negb].
    2:{ apply Hsame. intros (_ & H). congruence. }
    assert (Hh : heeded m) by (split; [lia|exact Ed]).
    destruct (am_first m) eqn:Ef.
    { intros _. cbn. apply col_first; auto. apply untouched_nil. }
    destruct (negb (Nat.eqb (length (sv_query s)) 0) && (tmo <? am_now m - sv_query_ts s)%Z) eqn:El.
    { cbn [length Nat.eqb]. rewrite !andb_false_r. cbn. lia. }
    assert (Ht : length (sv_query s) <> 0%nat -> (am_now m - sv_query_ts s <= tmo)%Z).
    { intros Hq. destruct (Nat.eqb (length (sv_query s)) 0) eqn:E0; [apply Nat.eqb_eq in E0; lia|].
      cbn in El. lia. }
    destruct (Nat.eqb (length (am_uid m)) 6 && Nat.eqb (length (sv_query s)) 6) eqn:E2.
    { apply andb_true_iff in E2 as (Ea & Eb). apply Nat.eqb_eq in Ea, Eb. intros _. cbn.
      eapply col_next; eauto; [apply Ht; lia|apply untouched_nil]. }
    destruct (Nat.eqb (length (am_uid m)) 4 && Nat.eqb (length (sv_query s)) 12) eqn:E3.
    { apply andb_true_iff in E3 as (Ea & Eb). apply Nat.eqb_eq in Ea, Eb.
      assert (Hl : length (sv_query s ++ am_uid m) = 16%nat) by (rewrite app_length; lia).
      destruct (choose _ _ _ _ _ _); [destruct (am_sent m)|]; cbn [sv_query length]; lia. }
    cbn [sv_query sv_query_ts]. apply Hsame. intros _. split; [reflexivity|].
    apply andb_false_iff in E2, E3. rewrite !Nat.eqb_neq in E2, E3. split; intros; tauto.
  Qed.

  Theorem alloc_assembled t evs n u :
    In (OAlloc n u) (sv_log (run (Server t [] 0 []) evs)) ->
    exists a m b q ts, evs = a ++ AMessage m :: b /\ collected tmo a q ts /\ heeded m /\
      am_first m = false /\ length q = 12%nat /\ length (am_uid m) = 4%nat /\
      (am_now m - ts <= tmo)%Z /\ u = q ++ am_uid m.
  Proof.
    intros H. apply in_split in H as (l1 & l2 & H).
    apply log_split in H as (a & e & b & -> & Ha & Hb); [|reflexivity].
    rewrite served_snoc in Hb. pose proof (query_collected t a) as Hc. cbn zeta in Hc.
    set (s := run _ a) in *.
    destruct (step_outcome s e); cbn [sv_log] in Hb; rewrite Ha in Hb;
      try (exfalso; apply (f_equal (@length _)) in Hb; rewrite app_length in Hb; cbn in Hb; lia);
      apply app_inj_tail in Hb as (_ & Hb); try discriminate.
    injection Hb as Hn Hq. exists a, m, b, (sv_query s), (sv_query_ts s).
    repeat split; auto; apply H.
  Qed.
End Facts.
