(** Proofs about the time stamps of frames from a socket. *)
From Verif.Base Require Import Prelude.
From Verif.Model Require Import TsEst SockStamp.
From Verif.Spec Require Import SockStampSpec.
Local Open Scope Z_scope.

(** One update, as the anchor tells. *)
Definition anchor_of (s : estimator) (r : reading) : Z * Z :=
  match es_anchor s with
  | Some (p, q) => if 50000 <? Z.abs ((r_mono r - p) - (r_real r - q)) then (r_mono r, r_real r) else (p, q)
  | None => (r_mono r, r_real r)
  end.
Lemma convert_is s r : let (p, q) := anchor_of s r in
  let offset := 1000000 * (p - q - 1) - 100 * (r_mono r - p) in
  let new := 1000000 * (r_mono r - r_real r - 1) in
  p <= r_mono r ->
  snd (convert s r) = Ok (1000000 * r_kernel r + Z.max offset new) /\
  es_anchor (fst (convert s r)) = Some (if offset <=? new then (r_mono r, r_real r) else (p, q)).
Proof.
  destruct (anchor_of s r) as (p, q) eqn:A. intros offset new P.
  assert (E : forall x, rs_update None x (r_mono r) (r_real r) =
    ({| rs_time := Some (r_mono r); rs_src := r_mono r; rs_tgt := r_real r |}, Ok (r_mono r))) by (intros x; unfold rs_update; destruct (rs_time x); reflexivity).
  unfold convert, es_update. cbn [e_period sock_params]. rewrite !E. cbn [e_resync e_scale e_fixed e_rate sock_params es_anchor es_resolver fst snd].
  unfold anchor_of in A. destruct (es_anchor s) as [(p0, q0)|].
  - destruct (50000 <? Z.abs (r_mono r - p0 - (r_real r - q0))) eqn:D.
    + injection A as <- <-. rewrite Z.ltb_irrefl. unfold offset, new. cbn [et_time snd fst es_anchor].
      dif; cbn [et_time snd fst es_anchor]; (split; [f_equal; lia|reflexivity]) || lia.
    + injection A as <- <-. assert (F : (r_mono r <? p0) = false) by lia. rewrite F. unfold offset, new.
      destruct (Z.leb_spec (1000000 * (p0 - q0 - 1) - 100 * (r_mono r - p0)) (1000000 * (r_mono r - r_real r - 1))); cbn [et_time snd fst es_anchor];
        (split; [f_equal; lia|reflexivity]).
  - injection A as <- <-.
    assert (D : (50000 <? Z.abs (r_mono r - r_mono r - (r_real r - r_real r))) = false) by lia. rewrite D, Z.ltb_irrefl.
    unfold offset, new. destruct (Z.leb_spec (1000000 * (r_mono r - r_real r - 1) - 100 * (r_mono r - r_mono r)) (1000000 * (r_mono r - r_real r - 1)));
      cbn [et_time snd fst es_anchor]; [split; [f_equal; lia|reflexivity]|lia].
Qed.

(** The anchor is not ahead of the time [t]. *)
Definition behind (t : Z) (s : estimator) : Prop := match es_anchor s with Some (p, _) => p <= t | None => True end.
Lemma behind_ok t s r : behind t s -> t <= r_mono r -> fst (anchor_of s r) <= r_mono r.
Proof.
  unfold behind, anchor_of. destruct (es_anchor s) as [(p, q)|]; [|cbn; lia]. intros B T. destruct (50000 <? _); cbn; lia.
Qed.
Lemma step_behind t s r : behind t s -> t <= r_mono r ->
  behind (r_mono r) (fst (convert s r)) /\
  exists z, snd (convert s r) = Ok z /\
    1000000 * (direct r - 1) <= z <= 1000000 * (direct r - 1 + 50000).
Proof.
  intros B T. pose proof (behind_ok t s r B T) as P. pose proof (convert_is s r) as C.
  assert (W : let (p, q) := anchor_of s r in p - q <= r_mono r - r_real r + 50000).
  { unfold anchor_of. destruct (es_anchor s) as [(p, q)|]; [|lia].
    destruct (Z.ltb_spec 50000 (Z.abs (r_mono r - p - (r_real r - q)))); lia. }
  destruct (anchor_of s r) as (p, q). cbn [fst] in P. destruct (C P) as (C1 & C2). split.
  - unfold behind. rewrite C2. destruct (_ <=? _); cbn; lia.
  - eexists. split; [exact C1|]. unfold direct. lia.
Qed.

Lemma all_within : forall l t s, behind t s -> monotonic t l ->
  Forall2 (fun r x => exists z, x = Ok z /\ 1000000 * (direct r - 1) <= z <= 1000000 * (direct r - 1 + 50000)) l (stamps s l).
Proof.
  induction l as [|r l IH]; intros t s B M; cbn [stamps]; [constructor|]. destruct M as (M1 & M2).
  destruct (step_behind t s r B M1) as (B' & z & E & Z). destruct (convert s r) as (s', x). cbn [fst snd] in *.
  constructor; [eauto|]. exact (IH _ _ B' M2).
Qed.
Lemma within l t : monotonic t l ->
  Forall2 (fun r x => exists z, x = Ok z /\ 1000000 * (direct r - 1) <= z <= 1000000 * (direct r - 1 + 50000)) l (stamps es_new l).
Proof. apply all_within. exact I. Qed.

(** With clocks that run evenly. *)
Definition near (c d : Z) (s : estimator) : Prop := match es_anchor s with Some (p, q) => c <= q - p <= c + d | None => True end.
Lemma all_even c d : forall l t s, behind t s -> near c d s -> monotonic t l -> even c d l ->
  Forall2 (fun r x => exists z, x = Ok z /\ 1000000 * (r_kernel r - c - d - 1) <= z <= 1000000 * (r_kernel r - c - 1)) l (stamps s l).
Proof.
  induction l as [|r l IH]; intros t s B N M E; cbn [stamps]; [constructor|]. destruct M as (M1 & M2). apply Forall_cons_iff in E as (E1 & E2).
  pose proof (behind_ok t s r B M1) as P. pose proof (convert_is s r) as C.
  destruct (step_behind t s r B M1) as (B' & _).
  assert (W : let (p, q) := anchor_of s r in c <= q - p <= c + d).
  { unfold anchor_of. unfold near in N. destruct (es_anchor s) as [(p, q)|]; [|lia]. destruct (50000 <? _); lia. }
  destruct (anchor_of s r) as (p, q). cbn [fst] in P. destruct (C P) as (C1 & C2).
  destruct (convert s r) as (s', x). cbn [fst snd] in *. constructor.
  - eexists. split; [exact C1|]. clear - W E1 P. lia.
  - apply (IH (r_mono r)); [exact B'| |exact M2|exact E2]. unfold near. rewrite C2. destruct (_ <=? _); [exact E1|exact W].
Qed.
Lemma even_stamps c d l t : monotonic t l -> even c d l ->
  Forall2 (fun r x => exists z, x = Ok z /\ 1000000 * (r_kernel r - c - d - 1) <= z <= 1000000 * (r_kernel r - c - 1)) l (stamps es_new l).
Proof. intros M E. apply (all_even c d l t); [exact I|exact I|exact M|exact E]. Qed.
