(** Shared Python semantics: results with exceptions as values, chunking,
    ordered dictionaries, and a few list facts used everywhere. *)
From Coq Require Export List ZArith NArith Arith Lia Bool.
From Coq Require Export ZifyBool ZifyNat ZifyN.
Export ListNotations.
Ltac Zify.zify_post_hook ::= Z.div_mod_to_equations.

(** ** Exceptions as values *)

(** The Python exception classes that the modelled code raises or lets
    escape. *)
Inductive exn : Type :=
| ValueError | IndexError | AttributeError | TypeError | KeyError
| AssertionError | RuntimeError | TransferError | UAVCANException
| DriverError | DsdlException | OverflowError | NameError | UnicodeError
| StructError | OSError | UserException.

(** Result of an operation that may raise. *)
Inductive res (A : Type) : Type :=
| Ok (a : A)
| Err (e : exn).
Arguments Ok {A} a.
Arguments Err {A} e.

Definition bind {A B} (r : res A) (f : A -> res B) : res B :=
  match r with Ok a => f a | Err e => Err e end.

Declare Scope py_scope.
Notation "x <- e1 ;; e2" := (bind e1 (fun x => e2))
  (at level 61, e1 at next level, right associativity) : py_scope.
Notation "' p <- e1 ;; e2" := (bind e1 (fun p => e2))
  (at level 61, p pattern, e1 at next level, right associativity) : py_scope.
Open Scope py_scope.

Lemma bind_ok {A B} (r : res A) (f : A -> res B) b :
  bind r f = Ok b -> exists a, r = Ok a /\ f a = Ok b.
Proof. destruct r; cbn; eauto; discriminate. Qed.

Ltac inv_bind H :=
  let a := fresh "a" in let H1 := fresh H in let H2 := fresh H in
  apply bind_ok in H; destruct H as (a & H1 & H2).

(** Case analysis on every [if] of the goal. *)
Ltac dif :=
  repeat match goal with |- context [if ?b then _ else _] => destruct b eqn:? end.

Definition is_ok {A} (r : res A) : bool :=
  match r with Ok _ => true | Err _ => false end.

(** ** Chunking *)

(** [[s[i:i+n] for i in range(0, len(s), n)]]; the fuel [length l] suffices
    for [n > 0]. *)
Fixpoint chunks_fuel {A} (fuel n : nat) (l : list A) : list (list A) :=
  match fuel with
  | O => []
  | S f =>
      match l with
      | [] => []
      | _ => firstn n l :: chunks_fuel f n (skipn n l)
      end
  end.
Definition chunks {A} (n : nat) (l : list A) := chunks_fuel (length l) n l.

(** [[s[max(0, i-n):i] for i in range(len(s), 0, -n)]]: chunks taken from the
    right end. *)
Fixpoint rchunks_fuel {A} (fuel n : nat) (l : list A) : list (list A) :=
  match fuel with
  | O => []
  | S f =>
      match l with
      | [] => []
      | _ => skipn (length l - n) l :: rchunks_fuel f n (firstn (length l - n) l)
      end
  end.
Definition rchunks {A} (n : nat) (l : list A) := rchunks_fuel (length l) n l.

(** A list of lists that is what chunking by [n] produces: all but the last
    have length [n], the last has length between 1 and [n]. *)
Fixpoint chunked {A} (n : nat) (ls : list (list A)) : Prop :=
  match ls with
  | [] => True
  | [l] => 1 <= length l <= n
  | l :: ls' => length l = n /\ chunked n ls'
  end.

Lemma chunks_fuel_enough {A} n : 0 < n -> forall f g (l : list A),
  length l <= f -> length l <= g -> chunks_fuel f n l = chunks_fuel g n l.
Proof.
  intros Hn. induction f as [|f IH]; intros g l Hf Hg.
  - destruct l; cbn in Hf; [|lia]. destruct g; reflexivity.
  - destruct g as [|g].
    + destruct l; cbn in Hg; [reflexivity|lia].
    + cbn [chunks_fuel]. destruct l as [|a l]; [reflexivity|].
      f_equal. apply IH; rewrite skipn_length; cbn [length] in *; lia.
Qed.

Lemma chunks_nil {A} n : @chunks A n [] = [].
Proof. reflexivity. Qed.

Lemma chunks_cons {A} n (l : list A) : 0 < n -> l <> [] ->
  chunks n l = firstn n l :: chunks n (skipn n l).
Proof.
  intros Hn Hl. destruct l as [|a l]; [congruence|].
  unfold chunks at 1. cbn [length chunks_fuel]. f_equal.
  unfold chunks. apply chunks_fuel_enough; try lia.
  rewrite skipn_length. cbn [length]. lia.
Qed.

Lemma chunks_ind {A} n (Hn : 0 < n) (P : list A -> Prop) :
  P [] ->
  (forall l, l <> [] -> P (skipn n l) -> P l) ->
  forall l, P l.
Proof.
  intros H0 HS l. remember (length l) as k eqn:E.
  revert l E. induction k as [k IH] using lt_wf_ind. intros l ->.
  destruct l as [|a l]; [exact H0|].
  apply HS; [discriminate|].
  eapply IH; [|reflexivity]. rewrite skipn_length. cbn [length]. lia.
Qed.

Lemma concat_chunks {A} n (l : list A) : 0 < n -> concat (chunks n l) = l.
Proof.
  intros Hn. induction l as [|l Hl IHl] using (chunks_ind n Hn); [reflexivity|].
  rewrite chunks_cons by assumption. cbn [concat].
  rewrite IHl. apply firstn_skipn.
Qed.

Lemma chunked_chunks {A} n (l : list A) : 0 < n -> chunked n (chunks n l).
Proof.
  intros Hn. induction l as [|l Hl IHl] using (chunks_ind n Hn); [exact I|].
  rewrite chunks_cons by assumption.
  destruct (chunks n (skipn n l)) as [|c cs] eqn:E.
  - cbn. rewrite firstn_length.
    destruct l; [congruence|]. cbn [length]. lia.
  - change (length (firstn n l) = n /\ chunked n (c :: cs)). split; [|exact IHl].
    rewrite firstn_length.
    assert (skipn n l <> []) as Hs.
    { intros E0. rewrite E0 in E. discriminate. }
    assert (length (skipn n l) <> 0) as Hs'.
    { destruct (skipn n l); [congruence|discriminate]. }
    rewrite skipn_length in Hs'. lia.
Qed.

Lemma chunks_concat {A} n (ls : list (list A)) : 0 < n ->
  chunked n ls -> chunks n (concat ls) = ls.
Proof.
  intros Hn. induction ls as [|l ls IH]; intros H; [reflexivity|].
  destruct ls as [|l' ls].
  - cbn in H. cbn [concat]. rewrite app_nil_r.
    rewrite chunks_cons by (try lia; intros ->; cbn in H; lia).
    rewrite firstn_all2 by lia. rewrite skipn_all2 by lia. reflexivity.
  - destruct H as [Hl H]. cbn [concat]. specialize (IH H).
    rewrite chunks_cons; [|exact Hn|].
    2:{ intros E. apply (f_equal (@length A)) in E.
        rewrite app_length in E. cbn [length] in E. lia. }
    rewrite firstn_app, skipn_app.
    replace (n - length l) with 0 by lia. cbn [firstn skipn].
    rewrite firstn_all2 by lia. rewrite skipn_all2 by lia.
    rewrite app_nil_r. cbn [app]. f_equal. exact IH.
Qed.

Lemma chunks_length_le {A} n (l : list A) c : 0 < n ->
  In c (chunks n l) -> length c <= n.
Proof.
  intros Hn. induction l as [|l Hl IHl] using (chunks_ind n Hn); [intros []|].
  rewrite chunks_cons by assumption. intros [<-|H'].
  - rewrite firstn_length. lia.
  - auto.
Qed.

Lemma rchunks_fuel_enough {A} n : 0 < n -> forall f g (l : list A),
  length l <= f -> length l <= g -> rchunks_fuel f n l = rchunks_fuel g n l.
Proof.
  intros Hn. induction f as [|f IH]; intros g l Hf Hg.
  - destruct l; cbn in Hf; [|lia]. destruct g; reflexivity.
  - destruct g as [|g].
    + destruct l; cbn in Hg; [reflexivity|lia].
    + cbn [rchunks_fuel]. destruct l as [|a l]; [reflexivity|].
      f_equal. apply IH; rewrite firstn_length; cbn [length] in *; lia.
Qed.

Lemma rchunks_cons {A} n (l : list A) : 0 < n -> l <> [] ->
  rchunks n l = skipn (length l - n) l :: rchunks n (firstn (length l - n) l).
Proof.
  intros Hn Hl. destruct l as [|a l]; [congruence|].
  unfold rchunks at 1. cbn [length rchunks_fuel]. f_equal.
  unfold rchunks. apply rchunks_fuel_enough; try lia.
  rewrite firstn_length. cbn [length]. lia.
Qed.

Lemma rchunks_ind {A} n (Hn : 0 < n) (P : list A -> Prop) :
  P [] ->
  (forall l, l <> [] -> P (firstn (length l - n) l) -> P l) ->
  forall l, P l.
Proof.
  intros H0 HS l. remember (length l) as k eqn:E.
  revert l E. induction k as [k IH] using lt_wf_ind. intros l ->.
  destruct l as [|a l]; [exact H0|].
  apply HS; [discriminate|].
  eapply IH; [|reflexivity]. rewrite firstn_length. cbn [length]. lia.
Qed.

Lemma concat_rev_rchunks {A} n (l : list A) : 0 < n ->
  concat (rev (rchunks n l)) = l.
Proof.
  intros Hn. induction l as [|l Hl IHl] using (rchunks_ind n Hn); [reflexivity|].
  rewrite rchunks_cons by assumption. cbn [rev].
  rewrite concat_app, IHl. cbn [concat]. rewrite app_nil_r.
  apply firstn_skipn.
Qed.

Lemma chunked_rchunks {A} n (l : list A) : 0 < n -> chunked n (rchunks n l).
Proof.
  intros Hn. induction l as [|l Hl IHl] using (rchunks_ind n Hn); [exact I|].
  rewrite rchunks_cons by assumption.
  destruct (rchunks n (firstn (length l - n) l)) as [|c cs] eqn:E.
  - cbn. rewrite skipn_length.
    destruct l; [congruence|]. cbn [length]. lia.
  - change (length (skipn (length l - n) l) = n /\ chunked n (c :: cs)).
    split; [|exact IHl].
    rewrite skipn_length.
    assert (length (firstn (length l - n) l) <> 0) as Hs'.
    { intros E0. apply length_zero_iff_nil in E0. rewrite E0 in E. discriminate. }
    rewrite firstn_length in Hs'. lia.
Qed.

(** Right-chunking inverts concatenation of a reversed chunk list. *)
Lemma rchunks_concat_rev {A} n (ls : list (list A)) : 0 < n ->
  chunked n ls -> rchunks n (concat (rev ls)) = ls.
Proof.
  intros Hn. induction ls as [|l ls IH]; intros H; [reflexivity|].
  cbn [rev]. rewrite concat_app. cbn [concat]. rewrite app_nil_r.
  assert (1 <= length l) as Hl1 by (destruct ls; cbn in H; lia).
  rewrite rchunks_cons; [|exact Hn|].
  2:{ intros E. apply app_eq_nil in E as [_ ->]. cbn in Hl1. lia. }
  destruct ls as [|l' ls].
  - cbn in H. cbn [rev concat app].
    replace (length l - n) with 0 by lia. reflexivity.
  - destruct H as [Hl H]. specialize (IH H).
    rewrite app_length.
    replace (length (concat (rev (l' :: ls))) + length l - n)
      with (length (concat (rev (l' :: ls)))) by lia.
    rewrite skipn_app, firstn_app, Nat.sub_diag.
    rewrite skipn_all, firstn_all. cbn [skipn firstn app].
    rewrite app_nil_r. f_equal. exact IH.
Qed.

(** ** Ordered dictionaries *)

Section Dict.
  Context {K V : Type} (keq : K -> K -> bool).

  (** [d.get(k)] *)
  Fixpoint dget (d : list (K * V)) (k : K) : option V :=
    match d with
    | [] => None
    | (k', v) :: d' => if keq k k' then Some v else dget d' k
    end.

  (** [d[k] = v]: a present key keeps its position, a new key goes last. *)
  Fixpoint dset (d : list (K * V)) (k : K) (v : V) : list (K * V) :=
    match d with
    | [] => [(k, v)]
    | (k', v') :: d' => if keq k k' then (k', v) :: d' else (k', v') :: dset d' k v
    end.

  (** [del d[k]] on a present key, no effect otherwise. *)
  Fixpoint ddel (d : list (K * V)) (k : K) : list (K * V) :=
    match d with
    | [] => []
    | (k', v') :: d' => if keq k k' then d' else (k', v') :: ddel d' k
    end.

  Definition dmem (d : list (K * V)) (k : K) : bool :=
    match dget d k with Some _ => true | None => false end.

  Hypothesis keq_spec : forall a b, keq a b = true <-> a = b.

  Lemma keq_refl k : keq k k = true.
  Proof. apply keq_spec. reflexivity. Qed.

  Lemma keq_neq a b : a <> b -> keq a b = false.
  Proof.
    intros H. destruct (keq a b) eqn:E; [|reflexivity].
    apply keq_spec in E. contradiction.
  Qed.

  Lemma dget_dset_same d k v : dget (dset d k v) k = Some v.
  Proof.
    induction d as [|[k' v'] d IH]; cbn.
    - rewrite keq_refl. reflexivity.
    - destruct (keq k k') eqn:E; cbn; rewrite E; auto.
  Qed.

  Lemma dget_dset_other d k k' v : k <> k' -> dget (dset d k v) k' = dget d k'.
  Proof.
    intros Hk. induction d as [|[k0 v0] d IH]; cbn.
    - rewrite keq_neq by congruence. reflexivity.
    - destruct (keq k k0) eqn:E; cbn; destruct (keq k' k0) eqn:E'; auto.
      apply keq_spec in E, E'. congruence.
  Qed.

  Lemma dget_ddel_other d k k' : k <> k' -> dget (ddel d k) k' = dget d k'.
  Proof.
    intros Hk. induction d as [|[k0 v0] d IH]; cbn; [reflexivity|].
    destruct (keq k k0) eqn:E; cbn; destruct (keq k' k0) eqn:E'; auto.
    apply keq_spec in E, E'. congruence.
  Qed.

  Lemma dget_In d k v : dget d k = Some v -> In (k, v) d.
  Proof.
    induction d as [|[k0 v0] d IH]; cbn; [discriminate|].
    destruct (keq k k0) eqn:E.
    - intros [= ->]. apply keq_spec in E as ->. auto.
    - auto.
  Qed.

  Lemma dget_None_keys d k : dget d k = None <-> ~ In k (map fst d).
  Proof.
    induction d as [|[k0 v0] d IH]; cbn; [tauto|].
    destruct (keq k k0) eqn:E.
    - apply keq_spec in E as ->. split; [discriminate|intros H; tauto].
    - rewrite IH. split; [|tauto]. intros H [->|H']; [|tauto].
      rewrite keq_refl in E. discriminate.
  Qed.

  Lemma dget_nodup_In d k v : NoDup (map fst d) -> In (k, v) d -> dget d k = Some v.
  Proof.
    induction d as [|[k0 v0] d IH]; cbn; [tauto|]. intros Hd [[= <- <-]|H].
    - rewrite keq_refl. reflexivity.
    - inversion Hd as [|? ? Hn Hd']; subst.
      rewrite keq_neq; [auto|]. intros ->. apply Hn.
      apply in_map_iff. exists (k0, v). auto.
  Qed.

  Lemma dset_keys_in d k v : dget d k <> None -> map fst (dset d k v) = map fst d.
  Proof.
    induction d as [|[k0 v0] d IH]; cbn; [congruence|].
    destruct (keq k k0) eqn:E; cbn; [reflexivity|]. intros H. f_equal. auto.
  Qed.

  Lemma dset_new d k v : dget d k = None -> dset d k v = d ++ [(k, v)].
  Proof.
    induction d as [|[k0 v0] d IH]; cbn; [reflexivity|].
    destruct (keq k k0) eqn:E; [discriminate|]. intros H. f_equal. auto.
  Qed.

  Lemma dset_nodup d k v : NoDup (map fst d) -> NoDup (map fst (dset d k v)).
  Proof.
    intros Hd. destruct (dget d k) eqn:E.
    - rewrite dset_keys_in; [exact Hd|congruence].
    - rewrite dset_new by exact E. rewrite map_app. cbn.
      apply dget_None_keys in E.
      apply NoDup_rev in Hd. rewrite <- (rev_involutive (_ ++ _)).
      apply NoDup_rev. rewrite rev_app_distr. cbn. constructor; [|exact Hd].
      rewrite <- in_rev. exact E.
  Qed.

  Lemma ddel_keys_sub d k k' : In k' (map fst (ddel d k)) -> In k' (map fst d).
  Proof.
    induction d as [|[k0 v0] d IH]; cbn; [tauto|].
    destruct (keq k k0); cbn; [tauto|]. intros [H|H]; auto.
  Qed.

  Lemma ddel_nodup d k : NoDup (map fst d) -> NoDup (map fst (ddel d k)).
  Proof.
    induction d as [|[k0 v0] d IH]; cbn; [auto|]. intros Hd.
    inversion Hd as [|? ? Hn Hd']; subst.
    destruct (keq k k0); cbn; [exact Hd'|]. constructor; [|auto].
    intros H. apply Hn. eapply ddel_keys_sub. exact H.
  Qed.

  Lemma dget_ddel_same d k : NoDup (map fst d) -> dget (ddel d k) k = None.
  Proof.
    induction d as [|[k0 v0] d IH]; cbn; [reflexivity|]. intros Hd.
    inversion Hd as [|? ? Hn Hd']; subst.
    destruct (keq k k0) eqn:E; cbn.
    - apply keq_spec in E as ->. apply dget_None_keys. exact Hn.
    - rewrite E. auto.
  Qed.
End Dict.

(** ** List facts *)

Lemma last_app_one {A} (l : list A) a d : last (l ++ [a]) d = a.
Proof. induction l as [|b [|c l] IH]; cbn in *; auto. Qed.

Lemma firstn_app_exact {A} (a b : list A) n :
  length a = n -> firstn n (a ++ b) = a.
Proof.
  intros <-. rewrite firstn_app, Nat.sub_diag, firstn_all. cbn.
  apply app_nil_r.
Qed.

Lemma skipn_app_exact {A} (a b : list A) n :
  length a = n -> skipn n (a ++ b) = b.
Proof.
  intros <-. rewrite skipn_app, Nat.sub_diag, skipn_all. reflexivity.
Qed.

Lemma forallb_range (f : N -> bool) (n : N) :
  forallb f (map N.of_nat (seq 0 (N.to_nat n))) = true ->
  forall x, (x < n)%N -> f x = true.
Proof.
  intros H x Hx. rewrite forallb_forall in H. apply H.
  apply in_map_iff. exists (N.to_nat x). split; [lia|].
  apply in_seq. lia.
Qed.
