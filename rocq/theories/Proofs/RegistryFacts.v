(** The handlers of a node, and exceptions of its tasks. *)
From Coq Require Import Sorted.
From Verif.Base Require Import Prelude.
From Verif.Model Require Import Types Codec MsgId Frames TransferManager Sched Node.
From Verif.Spec Require Import NodeSpec CallSpec RegistrySpec.
From Verif.Proofs Require Import ManagerFacts SchedFacts NodeFacts RequestFacts NodeRequests NodeDispatch.
Local Open Scope Z_scope.

Definition view (s : node) : nat * list (list handler) * nat := (n_cur s, n_lists s, n_hds s).

(** What holds of the handlers through everything but operations. *)
Section Through.
  Variable clk : nat -> Z.
  Variable beh : list nobs -> list (nop * bool) * outcome.
  Variable drv : list nobs -> list frame -> option exn.
  Variable status : list nobs -> value.
  Variable status_dt : datatype.
  Variable types : datatypes.
  Variable second : Z.
  Variable ok : nop -> Prop.
  Variable P : node -> Prop.
  Hypothesis Hok : forall l op c, In (op, c) (fst (beh l)) -> ok op.
  Hypothesis Pop : forall s op, ok op -> P s -> P (fst (apply_nop clk drv second s op)).
  Hypothesis Pview : forall s s', view s' = view s -> P s -> P s'.

  Lemma through_respond s dt v dest tid prio canfd : P s -> P (fst (respond drv s dt v dest tid prio canfd)).
  Proof.
    intros H. unfold respond. destruct (anonymous s); auto.
    destruct (send _ _ _ _ _ _ _ _) as [s' r] eqn:E. apply send_shape in E.
    destruct E as (fs & err & -> & _ & He). destruct r; (eapply Pview; [|exact H]; reflexivity).
  Qed.
  Lemma through_broadcast s dt v prio canfd : P s -> P (fst (broadcast drv s dt v prio canfd)).
  Proof.
    intros H. eapply Pview; [|exact H].
    destruct (nop_lists clk drv second s (NBroadcast dt v prio canfd) I) as (A & B & D & E). unfold view.
    change (broadcast drv s dt v prio canfd) with (apply_nop clk drv second s (NBroadcast dt v prio canfd)). congruence.
  Qed.
  Lemma through_react s : P s -> P (fst (react clk beh drv second s)).
  Proof. apply (react_ind_if clk beh drv second ok P Pop Hok). Qed.
  Lemma through_called s o : P s -> P (fst (react clk beh drv second (see s o))).
  Proof. intros H. apply through_react. eapply Pview; [|exact H]. reflexivity. Qed.
  Lemma through_call_handler s hd t : P s -> P (fst (call_handler clk beh drv second s hd t)).
  Proof.
    intros H. unfold call_handler. pose proof (through_called s (OHandled hd t) H) as H1.
    destruct (react _ _ _ _ _) as [s1 [result|x]]; cbn [fst] in *; auto.
    destruct (_ && _).
    - destruct (negb _); auto. destruct result as [[dt v]|]; auto. now apply through_respond.
    - destruct result; auto.
  Qed.
  Lemma through_call_handlers fuel : forall s o i t, P s -> P (fst (call_handlers clk beh drv second fuel s o i t)).
  Proof.
    induction fuel as [|fuel IH]; cbn; intros s o i t Hs; auto.
    destruct (nth_error (handler_list s o) i) as [hd|]; auto.
    destruct (accepts hd t); auto.
    pose proof (through_call_handler s hd t Hs) as H.
    destruct (call_handler clk beh drv second s hd t) as [s1 [x|]]; cbn [fst] in *; auto.
    destruct (n_catch s1); auto.
  Qed.
  Lemma through_recv fuel s t : P s -> P (fst (recv_transfer clk beh drv second fuel s t)).
  Proof.
    intros H. unfold recv_transfer. destruct (_ && _ && _).
    - destruct (find_request t (n_requests s)) as [k|]; auto.
      destruct (dget key_eqb (n_callbacks s) k) as [[r ev]|]; auto.
      fold (called s r ev t).
      assert (H1 : P (called s r ev t)) by (eapply Pview; [|exact H]; unfold called; destruct (cancel ev (n_queue s)); reflexivity).
      apply through_react in H1. destruct (react _ _ _ _ (called s r ev t)) as [s2 [y|x]]; cbn [fst] in *; auto.
      destruct (negb (dmem key_eqb (n_requests s2) k)); [auto|].
      destruct (negb (dmem key_eqb (n_callbacks s2) k)); (eapply Pview; [|exact H1]; reflexivity).
    - destruct (_ || _ || _); auto. apply through_call_handlers; auto.
  Qed.
  Lemma through_exec s e now : P s -> P (fst (nexec clk beh drv status status_dt second e now (npop s))).
  Proof.
    intros H. unfold nexec. destruct (ev_act e).
    - assert (H1 : P (nenter (npop s) (ev_time e + period) 0 (AStatus period))) by (eapply Pview; [|exact H]; reflexivity).
      destruct (anonymous _); [exact H1|]. now apply through_broadcast.
    - assert (H1 : P (npop s)) by (eapply Pview; [|exact H]; reflexivity).
      apply (through_called _ (OTask h now)) in H1. destruct (react _ _ _ _ _). exact H1.
    - match goal with |- context [see ?s1 (OTask h now)] =>
        assert (H1 : P s1) by (eapply Pview; [|exact H]; reflexivity) end.
      apply (through_called _ (OTask h now)) in H1. destruct (react _ _ _ _ _). exact H1.
    - match goal with |- context [see ?s1 (OTimeout r now)] =>
        assert (H1 : P s1) by (eapply Pview; [|exact H]; reflexivity) end.
      apply (through_called _ (OTimeout r now)) in H1. destruct (react _ _ _ _ _). exact H1.
  Qed.
  Lemma through_input fuel s i : match i with IOp op => ok op | _ => True end -> P s ->
    P (apply_input clk beh drv status status_dt types second fuel s i).
  Proof.
    intros Hi H. destruct i as [op|x f|t| |]; cbn [apply_input].
    - now apply Pop.
    - unfold recv_frame. destruct x; cbn [negb]; auto. cbn [nread].
      destruct (receive_frame _ f _) as [m [[|f0 fs]|]].
      + eapply Pview; [|exact H]. reflexivity.
      + destruct (from_frames types (f0 :: fs)).
        * apply through_recv. eapply Pview; [|exact H]. reflexivity.
        * eapply Pview; [|exact H]. reflexivity.
      + eapply Pview; [|exact H]. reflexivity.
    - now apply through_recv.
    - apply npoll_ind; auto.
      + intros s0 H0. eapply Pview; [|exact H0]. reflexivity.
      + intros s0 e q now H0 _ _. now apply through_exec.
    - eapply Pview; [|exact H]. reflexivity.
  Qed.
End Through.

(** ** C140 *)

Record registry (s : node) : Prop := {
  rg_cur : (n_cur s < length (n_lists s))%nat;
  rg_order : in_order (handlers_of s);
  rg_new : Forall (fun hd => (hd_id hd < n_hds s)%nat) (handlers_of s)
}.
Lemma registry_view s s' : view s' = view s -> registry s -> registry s'.
Proof.
  unfold view. intros E [A B C]. injection E as E1 E2 E3.
  assert (E : handlers_of s' = handlers_of s) by (unfold handlers_of, handler_list; congruence).
  constructor; rewrite ?E, ?E1, ?E2, ?E3; assumption.
Qed.

Lemma order_snoc l n : StronglySorted lt l -> Forall (fun x => x < n)%nat l -> StronglySorted lt (l ++ [n]).
Proof.
  induction l as [|x l IH]; intros HS F; [repeat constructor|].
  apply StronglySorted_inv in HS as [H1 H2]. apply Forall_cons_iff in F as [Hx F]. cbn [app]. constructor; [auto|].
  apply Forall_app. split; [exact H2|]. constructor; [exact Hx|constructor].
Qed.
Lemma order_filter (f : handler -> bool) l : in_order l -> in_order (filter f l).
Proof.
  unfold in_order. induction l as [|x l IH]; intros HS; [constructor|]. cbn [map] in HS. apply StronglySorted_inv in HS as [H1 H2].
  cbn [filter]. destruct (f x); [|auto]. cbn [map]. constructor; [auto|].
  rewrite Forall_map in *. apply Forall_forall. intros y Hy. apply filter_In in Hy as [Hy _].
  exact (proj1 (Forall_forall _ _) H2 y Hy).
Qed.
Lemma filter_same_list {A} (f : A -> bool) l : (forall y, In y l -> f y = true) -> filter f l = l.
Proof.
  induction l as [|x l IH]; intros H; [reflexivity|]. cbn [filter]. rewrite (H x (or_introl eq_refl)), IH; [reflexivity|].
  intros y Hy. apply H. right. exact Hy.
Qed.
Lemma remove_entry_filter i l : in_order l ->
  remove_entry i l = if existsb (fun hd => Nat.eqb (hd_id hd) i) l
    then Some (filter (fun hd => negb (Nat.eqb (hd_id hd) i)) l) else None.
Proof.
  unfold in_order. induction l as [|x l IH]; intros HS; [reflexivity|]. cbn [map] in HS. apply StronglySorted_inv in HS as [H1 H2].
  cbn [remove_entry existsb filter]. destruct (Nat.eqb_spec (hd_id x) i) as [<-|Hne]; cbn [orb negb].
  - f_equal. symmetry. apply filter_same_list. intros y Hy.
    rewrite Forall_map in H2. pose proof (proj1 (Forall_forall _ _) H2 y Hy) as L. cbv beta in L.
    destruct (Nat.eqb_spec (hd_id y) (hd_id x)); [lia|reflexivity].
  - rewrite (IH H1). destruct (existsb _ l); reflexivity.
Qed.
Lemma typeid_eqb_eq (a b : typeid) : typeid_eqb a b = true <-> a = b.
Proof.
  destruct a as [x k], b as [y k']. unfold typeid_eqb. cbn [fst snd]. rewrite andb_true_iff, N.eqb_eq, eqb_true_iff. split; [intros []; congruence|].
  intros E. injection E as -> ->. auto.
Qed.
Lemma opttype_eqb_eq a b : opttype_eqb a b = true <-> a = b.
Proof.
  destruct a, b; cbn; split; try discriminate; auto.
  - intros H. apply typeid_eqb_eq in H. congruence.
  - intros H. apply typeid_eqb_eq. congruence.
Qed.

(** What an operation does. *)
Lemma operation clk drv second s op : registry s ->
  let s' := fst (apply_nop clk drv second s op) in
  registry s' /\
  (forall hd, In hd (handlers_of s') <-> In hd (handlers_of s) /\ ~ takes_away op hd \/ adds op (n_hds s) hd) /\
  n_hds s' = (n_hds s + additions [op])%nat /\
  (forall i, op = NRemoveHandler i ->
     snd (apply_nop clk drv second s op) = if existsb (fun hd => Nat.eqb (hd_id hd) i) (handlers_of s) then None else Some ValueError).
Proof.
  intros [A B C]. cbv zeta.
  assert (K : match op with NAddHandler _ _ | NRemoveHandler _ | NRemoveHandlers _ => False | _ => True end ->
    registry (fst (apply_nop clk drv second s op)) /\
    (forall hd, In hd (handlers_of (fst (apply_nop clk drv second s op))) <->
       In hd (handlers_of s) /\ ~ takes_away op hd \/ adds op (n_hds s) hd) /\
    n_hds (fst (apply_nop clk drv second s op)) = (n_hds s + additions [op])%nat /\
    (forall i, op = NRemoveHandler i -> snd (apply_nop clk drv second s op) =
       if existsb (fun hd => Nat.eqb (hd_id hd) i) (handlers_of s) then None else Some ValueError)).
  { intros Hop. destruct (nop_lists clk drv second s op Hop) as (E1 & _ & E3 & E4). cbv zeta in E1, E3, E4.
    assert (V : view (fst (apply_nop clk drv second s op)) = view s) by (unfold view; congruence).
    split; [eapply registry_view; [exact V|constructor; assumption]|].
    assert (E : handlers_of (fst (apply_nop clk drv second s op)) = handlers_of s) by (unfold handlers_of, handler_list; congruence).
    rewrite E, E1. split; [|split].
    - intros hd. destruct op; cbn [takes_away adds]; tauto.
    - destruct op; cbn; try lia; tauto.
    - intros i ->. destruct Hop. }
  destruct op as [| | | | | |ty sniff|i|ty| |]; try exact (K I); clear K; cbn [apply_nop].
  - set (hd0 := Handler (n_hds s) ty (sniff && match ty with Some (_, k) => k | None => false end)).
    cbn [fst].
    assert (E : handlers_of (set_lists s (update_list s (n_cur s) (handler_list s (n_cur s) ++ [hd0])) (n_cur s) (S (n_hds s))) =
      handlers_of s ++ [hd0]).
    { unfold handlers_of at 1, handler_list at 1. cbn [n_lists n_cur set_lists]. rewrite update_list_nth by exact A.
      rewrite Nat.eqb_refl. reflexivity. }
    split; [|split; [|split]].
    + constructor; rewrite ?E.
      * cbn [n_cur n_lists set_lists]. rewrite update_list_length by exact A. exact A.
      * unfold in_order. rewrite map_app. apply order_snoc; [exact B|]. rewrite Forall_map. exact C.
      * cbn [n_hds set_lists]. apply Forall_app. split; [|constructor; [cbn; lia|constructor]].
        eapply Forall_impl; [|exact C]. cbn. intros hd Hh. lia.
    + intros hd. rewrite E, in_app_iff. cbn [takes_away adds In].
      assert (Q : hd0 = hd <-> hd_id hd = n_hds s /\ hd_type hd = ty /\
        (hd_sniff hd = true <-> sniff = true /\ exists id, ty = Some (id, true))).
      { unfold hd0. split.
        - intros <-. cbn [hd_id hd_type hd_sniff]. split; [reflexivity|]. split; [reflexivity|]. rewrite andb_true_iff.
          destruct ty as [[x k]|]; split; intros [H1 H2]; try discriminate.
          + subst. eauto.
          + destruct H2 as (id & H2). injection H2 as -> ->. auto.
          + destruct H2 as (id & H2). discriminate.
        - destruct hd as [n t b]. cbn [hd_id hd_type hd_sniff]. intros (-> & -> & H). f_equal.
          apply eq_iff_eq_true. rewrite H, andb_true_iff. destruct ty as [[x k]|]; split; intros [H1 H2]; try discriminate.
          + subst. eauto.
          + destruct H2 as (id & H2). injection H2 as -> ->. auto.
          + destruct H2 as (id & H2). discriminate. }
      rewrite <- Q. tauto.
    + cbn. lia.
    + intros i H. discriminate H.
  - rewrite (remove_entry_filter i (handler_list s (n_cur s)) B). fold (handlers_of s).
    destruct (existsb (fun hd => Nat.eqb (hd_id hd) i) (handlers_of s)) eqn:Ex; cbn [fst snd].
    + set (l := filter _ (handlers_of s)).
      assert (E : handlers_of (set_lists s (update_list s (n_cur s) l) (n_cur s) (n_hds s)) = l).
      { unfold handlers_of at 1, handler_list at 1. cbn [n_lists n_cur set_lists]. rewrite update_list_nth by exact A.
        rewrite Nat.eqb_refl. reflexivity. }
      split; [|split; [|split]].
      * constructor; rewrite ?E.
        -- cbn [n_cur n_lists set_lists]. rewrite update_list_length by exact A. exact A.
        -- apply order_filter. exact B.
        -- apply Forall_forall. intros hd Hh. apply filter_In in Hh as [Hh _]. exact (proj1 (Forall_forall _ _) C hd Hh).
      * intros hd. rewrite E. unfold l. rewrite filter_In. cbn [takes_away adds].
        destruct (Nat.eqb_spec (hd_id hd) i) as [<-|Hne]; cbn [negb].
        -- split; [intros [_ H]; discriminate|]. intros [[_ H]|[]]. destruct H. reflexivity.
        -- split; [intros [H _]; left; split; [exact H|congruence]|]. intros [[H _]|[]]. auto.
      * cbn. lia.
      * intros j H. injection H as <-. rewrite Ex. reflexivity.
    + split; [constructor; assumption|]. split; [|split].
      * intros hd. cbn [takes_away adds]. split; [|tauto]. intros H. left. split; [exact H|]. intros ->.
        apply not_true_iff_false in Ex. apply Ex. apply existsb_exists. exists hd. split; [exact H|apply Nat.eqb_refl].
      * cbn. lia.
      * intros j H. injection H as <-. rewrite Ex. reflexivity.
  - cbn [fst snd]. set (l := filter _ (handler_list s (n_cur s))).
    assert (E : handlers_of (set_lists s (n_lists s ++ [l]) (length (n_lists s)) (n_hds s)) = l).
    { unfold handlers_of, handler_list. cbn [n_lists n_cur set_lists]. rewrite app_nth2 by lia. rewrite Nat.sub_diag. reflexivity. }
    split; [|split; [|split]].
    + constructor; rewrite ?E.
      * cbn [n_cur n_lists set_lists]. rewrite app_length. cbn. lia.
      * apply order_filter. exact B.
      * apply Forall_forall. intros hd Hh. apply filter_In in Hh as [Hh _]. exact (proj1 (Forall_forall _ _) C hd Hh).
    + intros hd. rewrite E. unfold l. rewrite filter_In. fold (handlers_of s). cbn [takes_away adds].
      rewrite negb_true_iff, <- not_true_iff_false, opttype_eqb_eq. split; [intros [H1 H2]; left; split; [exact H1|congruence]|].
      intros [[H1 H2]|[]]. split; [exact H1|congruence].
    + cbn. lia.
    + intros i H. discriminate H.
Qed.

Lemma ran_snoc A ins i : ran A (ins ++ [i]) =
  apply_input (st_clk A) (st_beh A) (st_drv A) (st_status A) (st_status_dt A) (st_types A) (st_second A) (st_fuel A) (ran A ins) i.
Proof. unfold ran, node_history. rewrite fold_left_app. reflexivity. Qed.

Lemma registry_ran A ins : registry (ran A ins).
Proof.
  induction ins as [|i ins IH] using rev_ind.
  - constructor; cbn; [lia|repeat constructor|constructor; [cbn; lia|constructor]].
  - rewrite ran_snoc. apply (through_input _ _ _ _ _ _ _ (fun _ => True) registry); auto.
    + intros s op _ H. exact (proj1 (operation (st_clk A) (st_drv A) (st_second A) s op H)).
    + exact registry_view.
    + destruct i; exact I.
Qed.

Lemma one_operation A ins op :
  let s := ran A ins in
  let s' := ran A (ins ++ [IOp op]) in
  in_order (handlers_of s') /\
  (exists n, (forall hd, In hd (handlers_of s) -> (hd_id hd < n)%nat) /\
    forall hd, In hd (handlers_of s') <-> In hd (handlers_of s) /\ ~ takes_away op hd \/ adds op n hd) /\
  (forall i, op = NRemoveHandler i ->
     snd (apply_nop (st_clk A) (st_drv A) (st_second A) s op) = None /\ (exists hd, In hd (handlers_of s) /\ hd_id hd = i) \/
     snd (apply_nop (st_clk A) (st_drv A) (st_second A) s op) = Some ValueError /\ (forall hd, In hd (handlers_of s) -> hd_id hd <> i)).
Proof.
  cbv zeta. rewrite ran_snoc. cbn [apply_input].
  destruct (operation (st_clk A) (st_drv A) (st_second A) (ran A ins) op (registry_ran A ins)) as (R & H & _ & F).
  split; [apply R|]. split.
  - exists (n_hds (ran A ins)). split; [|exact H]. intros hd Hh. exact (proj1 (Forall_forall _ _) (rg_new _ (registry_ran A ins)) hd Hh).
  - intros i Hi. specialize (F i Hi). destruct (existsb _ _) eqn:E.
    + left. split; [exact F|]. apply existsb_exists in E as (hd & Hh & E). exists hd. split; [exact Hh|]. now apply Nat.eqb_eq.
    + right. split; [exact F|]. intros hd Hh <-. apply not_true_iff_false in E. apply E. apply existsb_exists. exists hd.
      split; [exact Hh|apply Nat.eqb_refl].
Qed.

Lemma ops_of_snoc ins i : ops_of (ins ++ [i]) = ops_of ins ++ match i with IOp op => [op] | _ => [] end.
Proof. unfold ops_of. rewrite flat_map_app. cbn [flat_map]. rewrite app_nil_r. reflexivity. Qed.
Lemma additions_app a b : additions (a ++ b) = (additions a + additions b)%nat.
Proof. unfold additions. rewrite filter_app, app_length. reflexivity. Qed.

Lemma registered_snoc own ops op hd :
  registered own (ops ++ [op]) hd <-> registered own ops hd /\ ~ takes_away op hd \/ adds op (S (additions ops)) hd.
Proof.
  unfold registered. split.
  - intros [[-> H]|(ops1 & o & ops2 & E & Ha & H)].
    + left. split; [left; split; [reflexivity|intros o Ho; apply H; apply in_or_app; auto]|apply H; apply in_or_app; right; left; reflexivity].
    + destruct ops2 as [|x ops2 _] using rev_ind.
      * apply app_inj_tail in E as [-> ->]. right. exact Ha.
      * rewrite app_comm_cons, app_assoc in E. apply app_inj_tail in E as [-> ->]. left. split.
        -- right. exists ops1, o, ops2. split; [reflexivity|]. split; [exact Ha|]. intros y Hy. apply H. apply in_or_app. auto.
        -- apply H. apply in_or_app. right. left. reflexivity.
  - intros [[[[-> H]|(ops1 & o & ops2 & -> & Ha & H)] Hn]|Ha].
    + left. split; [reflexivity|]. intros o Ho. apply in_app_or in Ho as [Ho|[<-|[]]]; auto.
    + right. exists ops1, o, (ops2 ++ [op]). split; [rewrite <- app_assoc; reflexivity|]. split; [exact Ha|].
      intros y Hy. apply in_app_or in Hy as [Hy|[<-|[]]]; auto.
    + right. exists ops, op, []. split; [reflexivity|]. split; [exact Ha|]. intros y [].
Qed.

Lemma all_registered A ins : leaves_handlers (st_beh A) ->
  in_order (handlers_of (ran A ins)) /\
  forall hd, In hd (handlers_of (ran A ins)) <-> registered (Handler 0 (Some (st_info A)) false) (ops_of ins) hd.
Proof.
  intros Hb. split; [apply registry_ran|].
  assert (G : (forall hd, In hd (handlers_of (ran A ins)) <-> registered (Handler 0 (Some (st_info A)) false) (ops_of ins) hd) /\
    n_hds (ran A ins) = S (additions (ops_of ins))); [|apply G].
  induction ins as [|i ins [IH IHn]] using rev_ind.
  - split; [|reflexivity]. intros hd. cbn. unfold registered. split.
    + intros [<-|[]]. left. split; [reflexivity|]. intros op [].
    + intros [[-> _]|(ops1 & op & ops2 & E & _)]; [auto|]. destruct ops1; discriminate E.
  - rewrite ran_snoc, ops_of_snoc. destruct i as [op|x f|t| |].
    { cbn [apply_input]. destruct (operation (st_clk A) (st_drv A) (st_second A) (ran A ins) op (registry_ran A ins)) as (_ & H & Hn & _).
      split.
      - intros hd. rewrite H, IH, IHn. symmetry. apply registered_snoc.
      - rewrite Hn, IHn, additions_app. reflexivity. }
    all: rewrite app_nil_r.
    all: match goal with |- context [apply_input _ _ _ _ _ _ _ _ ?s ?i] =>
      assert (V : view (apply_input (st_clk A) (st_beh A) (st_drv A) (st_status A) (st_status_dt A) (st_types A) (st_second A) (st_fuel A) s i) = view s)
        by (apply (through_input (st_clk A) (st_beh A) (st_drv A) (st_status A) (st_status_dt A) (st_types A) (st_second A)
              (fun op => match op with NAddHandler _ _ | NRemoveHandler _ | NRemoveHandlers _ => False | _ => True end)
              (fun s' => view s' = view s) Hb);
            [intros s' op Hop Hv; destruct (nop_lists (st_clk A) (st_drv A) (st_second A) s' op Hop) as (E1 & _ & E3 & E4);
               cbv zeta in E1, E3, E4; unfold view in *; congruence
            |intros s1 s2 E1 E2; congruence|exact I|reflexivity]) end.
    all: pose proof (f_equal (fun p => fst (fst p)) V) as V1; pose proof (f_equal (fun p => snd (fst p)) V) as V2; pose proof (f_equal snd V) as V3.
    all: cbv beta delta [view] in V1, V2, V3; cbn [fst snd] in V1, V2, V3; rewrite V3, IHn; split; [|reflexivity].
    all: intros hd; rewrite <- IH; unfold handlers_of, handler_list; rewrite V1, V2; reflexivity.
Qed.
