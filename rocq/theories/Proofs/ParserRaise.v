(** Exceptions of the definition parser. *)
From Coq Require Import String.
From Verif.Base Require Import Prelude Bits.
From Verif.Model Require Import Types Slcan Parser.
From Verif.Spec Require Import ParserSpec PathSpec.
From Verif.Proofs Require Import ParserText PathFacts.
Open Scope list_scope.
Local Open Scope nat_scope.

Definition dsdl_only {A} (r : res A) : Prop := forall e, r = Err e -> e = DsdlException.
Lemma only_ok {A} (x : A) : dsdl_only (Ok x).
Proof. intros e E. discriminate. Qed.
Lemma only_err {A} : dsdl_only (@Err A DsdlException).
Proof. intros e E. congruence. Qed.
Lemma only_enforce b : dsdl_only (enforce b).
Proof. unfold enforce. destruct b; [apply only_ok|apply only_err]. Qed.
Lemma only_refuse {A} (r : res A) : dsdl_only (refuse r).
Proof. unfold refuse. destruct r; [apply only_ok|apply only_err]. Qed.
Lemma only_bind {A B} (r : res A) (k : A -> res B) : dsdl_only r -> (forall x, dsdl_only (k x)) -> dsdl_only (bind r k).
Proof. intros R K e E. destruct r as [x|e']; cbn [bind] in E; [exact (K x e E)|]. apply R. congruence. Qed.

Section Raise.
  Variable search_dirs : list text.
  Variable listdir : text -> option (list text).
  Variable read : text -> option text.
  Variable ev : text -> option pyv.

  Lemma only_namespace fn : dsdl_only (namespace_from_filename search_dirs fn).
  Proof.
    unfold namespace_from_filename. destruct (find _ search_dirs); [|apply only_err]. cbv zeta.
    apply only_bind; [|intros; apply only_ok]. unfold validate_namespace_name. apply only_bind; [|intros]; apply only_enforce.
  Qed.
  (** Names: another exception only for versions that are no numbers. *)
  Lemma name_raises fn e : name_from_filename search_dirs fn = Err e ->
    e = DsdlException \/ (e = TypeError /\ exists pre a b, (split_dots (basename fn) = pre ++ [a; b; txt "uavcan"%string]) /\
      ((forall z, ~ PathSpec.decimal_text a z) \/ (forall z, ~ PathSpec.decimal_text b z))).
  Proof.
    unfold name_from_filename. cbv zeta. set (items := split_dots (basename fn)). intros H.
    destruct (Nat.leb 2 (length items) && Nat.leb (length items) 5 && text_eqb (last items []) (txt "uavcan"%string))%bool eqn:EN;
      cbn [enforce bind] in H; [|left; congruence].
    apply andb_prop in EN as (EL & EU). apply text_eqb_eq in EU.
    match type of H with bind ?r _ = _ => destruct r as [[dtid nm]|e'] eqn:ED; cbn [bind] in H end.
    2: { left. destruct (_ || _)%bool; [discriminate|]. assert (e' = e) by congruence. subst e'.
         revert ED. apply (only_bind (refuse _)); [apply only_refuse|intros; apply only_ok]. }
    match type of H with bind ?r _ = _ => destruct r as [v|e'] eqn:EV; cbn [bind] in H end.
    2: { right. assert (e' = e) by congruence. subst e'. destruct (Nat.eqb (length items) 2 || Nat.eqb (length items) 3)%bool eqn:EE; [discriminate|].
         assert (exists pre a b c, items = pre ++ [a; b; c] /\ length items = length pre + 3) as (pre & a & b & c & EI & EK).
         { assert (3 <= length items) as L by lia. exists (firstn (length items - 3) items).
           pose proof (firstn_skipn (length items - 3) items) as FS. pose proof (skipn_length (length items - 3) items) as SL.
           pose proof (firstn_length (length items - 3) items) as FL.
           destruct (skipn (length items - 3) items) as [|a [|b [|c [|]]]]; cbn [length] in SL; try lia.
           exists a, b, c. split; [congruence|lia]. }
         assert (nth (length items - 3) items [] = a) as NA.
         { rewrite EK, EI. rewrite app_nth2 by lia. replace (length pre + 3 - 3 - length pre) with 0 by lia. reflexivity. }
         assert (nth (length items - 2) items [] = b) as NB.
         { rewrite EK, EI. rewrite app_nth2 by lia. replace (length pre + 3 - 2 - length pre) with 1 by lia. reflexivity. }
         rewrite NA, NB in EV.
         assert (c = txt "uavcan"%string) as ->.
         { rewrite EI in EU. replace (pre ++ [a; b; c]) with ((pre ++ [a; b]) ++ [c]) in EU by (rewrite <- app_assoc; reflexivity).
           rewrite last_last in EU. exact EU. }
         assert (forall s e', version_number s = Err e' -> e' = TypeError /\ forall z, ~ PathSpec.decimal_text s z) as VN.
         { intros s e' V. split; [unfold version_number in V; destruct (py_int 10 s); congruence|].
           intros z T. apply version_int in T. congruence. }
         destruct (version_number a) as [x|ea] eqn:VA; cbn [bind] in EV.
         - destruct (version_number b) as [y|eb] eqn:VB; cbn [bind] in EV; [discriminate|].
           destruct (VN _ _ VB) as (-> & NT). split; [congruence|]. exists pre, a, b. auto.
         - destruct (VN _ _ VA) as (-> & NT). split; [congruence|]. exists pre, a, b. auto. }
    left. revert e H. apply only_bind; [apply only_namespace|]. intros ns. apply only_bind; [|intros; apply only_ok].
    unfold validate_compound_type_full_name, validate_namespace_name.
    repeat (apply only_bind; [|intros]); apply only_enforce.
  Qed.

  Lemma source_raises parse fn source e : parse_source search_dirs listdir read ev parse fn source = Err e ->
    e = DsdlException \/ (e = TypeError /\ exists pre a b, (split_dots (basename fn) = pre ++ [a; b; txt "uavcan"%string]) /\
      ((forall z, ~ PathSpec.decimal_text a z) \/ (forall z, ~ PathSpec.decimal_text b z))).
  Proof.
    unfold parse_source. destruct (name_from_filename search_dirs fn) as [[[full v] dtid]|e'] eqn:EN; cbn [bind]; intros H.
    - left. revert e H. apply only_bind; [apply only_refuse|]. intros s. cbv zeta.
      apply only_bind; [unfold validate_union; destruct (if s_is_response s then _ else _); apply only_enforce|]. intros _.
      apply only_bind; [unfold validate_data_type_id; destruct dtid; [apply only_enforce|apply only_ok]|intros; apply only_ok].
    - assert (e' = e) as -> by congruence. exact (name_raises fn e EN).
  Qed.

  Lemma parse_raises depth fn : dsdl_only (parse search_dirs listdir read ev depth fn).
  Proof. destruct depth; cbn [parse]; [apply only_err|]. destruct (read fn); [apply only_refuse|apply only_err]. Qed.
  Lemma files_raise depth files : forall seen, dsdl_only (parse_files search_dirs listdir read ev depth seen files).
  Proof.
    induction files as [|fn files IH]; intros seen; cbn [parse_files]; [apply only_ok|].
    apply only_bind; [apply parse_raises|]. intros d. apply only_bind.
    - unfold ensure_unique. destruct (d_dtid d); [|apply only_ok]. cbv zeta. destruct (dget _ _ _); [|apply only_ok].
      apply only_bind; [apply only_enforce|intros; apply only_ok].
    - intros s. apply only_bind; [apply IH|]. intros (ds & s'). apply only_ok.
  Qed.
  Lemma namespaces_raise depth searched source e : parse_namespaces search_dirs listdir read ev depth searched source = Err e -> e = DsdlException.
  Proof.
    revert e. unfold parse_namespaces. apply only_bind; [apply files_raise|]. intros (ds & s). apply only_bind; [apply files_raise|].
    intros (ds' & s'). apply only_ok.
  Qed.
End Raise.
