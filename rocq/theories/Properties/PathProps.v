(** Names of files: properties C94 to C96. *)
From Coq Require Import String.
From Verif.Base Require Import Prelude Bits.
From Verif.Model Require Import Types Slcan Parser.
From Verif.Spec Require Import ParserSpec GrammarSpec PathSpec.
From Verif.Proofs Require Import ParserText PathFacts.
From Verif.Properties Require Import ParserProps.
Open Scope list_scope.
Open Scope N_scope.

(** ** C94: the path of a file tells name, version and id of its type *)

(** [r] is the name of the root directory [d]; the other directories are
    [subs]. *)
Theorem C94_path dirs d r subs base full version id :
  roots_ok dirs -> In d dirs -> named d r -> r <> [] -> undotted r ->
  Forall (fun w => directory w /\ undotted w) subs -> ~ In slash base ->
  name_from_filename dirs (path d (subs ++ [base])) = Ok (full, version, id) <->
  exists short, name_form base short version id /\ full = dotted r (subs ++ [short]) /\
    full_type_name full /\ (length full <= 80)%nat.
Proof. intros H1 H2 H3 H4 H5 H6. apply name_path; assumption. Qed.
Print Assumptions C94_path.

Lemma root_ok : roots_ok root.
Proof.
  intros a b r [<-|[]] [<-|[]] E. destruct r as [|c r]; [reflexivity|].
  apply (f_equal (@length N)) in E. rewrite app_length in E. cbn [length] in E. lia.
Qed.
Lemma root_named : named (txt "/r/uavcan") (txt "uavcan").
Proof. exists (txt "/r"). split; [reflexivity|]. vm_compute. intuition discriminate. Qed.
Lemma digit10 c : 48 <= c <= 57 -> digit_of 10 c (c - 48).
Proof. unfold digit_of. lia. Qed.
Example C94_path_case :
  name_from_filename root (txt "/r/uavcan/protocol/param/11.GetSet.2.1.uavcan") =
    Ok (txt "uavcan.protocol.param.GetSet", Some (2, 1)%Z, Some 11%Z) /\
  path (txt "/r/uavcan") [txt "protocol"; txt "param"; txt "11.GetSet.2.1.uavcan"] =
    txt "/r/uavcan/protocol/param/11.GetSet.2.1.uavcan" /\
  exists short, name_form (txt "11.GetSet.2.1.uavcan") short (Some (2, 1)%Z) (Some 11%Z) /\
    txt "uavcan.protocol.param.GetSet" = dotted (txt "uavcan") ([txt "protocol"; txt "param"] ++ [short]).
Proof.
  assert (E : name_from_filename root (txt "/r/uavcan/protocol/param/11.GetSet.2.1.uavcan") =
    Ok (txt "uavcan.protocol.param.GetSet", Some (2, 1)%Z, Some 11%Z)) by (vm_compute; reflexivity).
  split; [exact E|]. split; [vm_compute; reflexivity|].
  pose proof (C94_path root (txt "/r/uavcan") (txt "uavcan") [txt "protocol"; txt "param"] (txt "11.GetSet.2.1.uavcan")
    (txt "uavcan.protocol.param.GetSet") (Some (2, 1)%Z) (Some 11%Z)) as H.
  destruct H as (H & _).
  - exact root_ok.
  - left. reflexivity.
  - exact root_named.
  - discriminate.
  - vm_compute. intuition discriminate.
  - constructor; [|constructor; [|constructor]]; (split; [split; [discriminate|]|]; vm_compute; intuition discriminate).
  - vm_compute. intuition discriminate.
  - destruct (H E) as (short & H1 & H2 & _). eauto.
Qed.

(** ** C95: a type named in a definition is looked for in its place, and found there *)

Theorem C95_found dirs listdir read fn own version id t full fn' :
  roots_ok dirs -> Forall (fun d => exists r, named d r) dirs ->
  (forall dir names base, listdir dir = Some names -> In base names -> ~ In slash base) ->
  name_from_filename dirs fn = Ok (own, version, id) -> refers own t full ->
  locate dirs listdir read fn t = Ok fn' ->
  place dirs listdir read full fn' /\ full_type_name full /\ (length full <= 80)%nat.
Proof. exact (fun H1 H2 H3 => locate_found dirs listdir read H1 H2 H3 fn own version id t full fn'). Qed.
Print Assumptions C95_found.
Theorem C95_finds dirs listdir read fn own version id t full fn0 :
  roots_ok dirs ->
  (forall dir names base, listdir dir = Some names -> In base names -> ~ In slash base) ->
  name_from_filename dirs fn = Ok (own, version, id) -> refers own t full ->
  full_type_name full -> (length full <= 80)%nat ->
  place dirs listdir read full fn0 -> exists fn', locate dirs listdir read fn t = Ok fn'.
Proof. exact (fun H1 H2 => locate_finds dirs listdir read H1 H2 fn own version id t full fn0). Qed.
Print Assumptions C95_finds.

Lemma ld_slash fs dir names base : ld fs dir = Some names -> In base names -> ~ In slash base.
Proof.
  unfold ld. intros H Hb Hs.
  match type of H with match ?l with _ => _ end = _ => assert (Hl : In base l) by (destruct l; [discriminate|congruence]) end.
  apply filter_In in Hl as (_ & Hl). apply negb_true_iff in Hl.
  rewrite (proj2 (existsb_exists _ _)) in Hl; [discriminate|]. exists slash. split; [exact Hs|reflexivity].
Qed.
Example C95_case :
  locate root (ld nodes) (rd nodes) (txt "/r/uavcan/protocol/1.GetNodeInfo.uavcan") (txt "NodeStatus") =
    Ok (txt "/r/uavcan/protocol/341.NodeStatus.uavcan") /\
  place root (ld nodes) (rd nodes) (txt "uavcan.protocol.NodeStatus") (txt "/r/uavcan/protocol/341.NodeStatus.uavcan").
Proof.
  assert (E : locate root (ld nodes) (rd nodes) (txt "/r/uavcan/protocol/1.GetNodeInfo.uavcan") (txt "NodeStatus") =
    Ok (txt "/r/uavcan/protocol/341.NodeStatus.uavcan")) by (vm_compute; reflexivity).
  split; [exact E|].
  assert (En : name_from_filename root (txt "/r/uavcan/protocol/1.GetNodeInfo.uavcan") =
    Ok (txt "uavcan.protocol.GetNodeInfo", None, Some 1%Z)) by (vm_compute; reflexivity).
  refine (proj1 (C95_found root (ld nodes) (rd nodes) _ _ _ _ _ (txt "uavcan.protocol.NodeStatus") _ root_ok _ _ En _ E)).
  - constructor; [|constructor]. exists (txt "uavcan"). exact root_named.
  - intros dir names base. apply ld_slash.
  - right. split; [vm_compute; intuition discriminate|]. exists (txt "uavcan.protocol"), (txt "GetNodeInfo").
    split; [reflexivity|]. split; [vm_compute; intuition discriminate|reflexivity].
Qed.
(** The file that is there is found, whatever else is in its directory. *)
Example C95_finds_case :
  place root (ld nodes) (rd nodes) (txt "uavcan.Name") (txt "/r/uavcan/Name.uavcan") /\
  exists fn', locate root (ld nodes) (rd nodes) (txt "/r/uavcan/protocol/1.GetNodeInfo.uavcan") (txt "uavcan.Name") = Ok fn'.
Proof.
  assert (En : name_from_filename root (txt "/r/uavcan/protocol/1.GetNodeInfo.uavcan") =
    Ok (txt "uavcan.protocol.GetNodeInfo", None, Some 1%Z)) by (vm_compute; reflexivity).
  assert (Hp : place root (ld nodes) (rd nodes) (txt "uavcan.Name") (txt "/r/uavcan/Name.uavcan")).
  { exists (txt "/r/uavcan"), (txt "uavcan"), [], (txt "Name"), (txt "Name.uavcan"), [txt "Name.uavcan"], None, None.
    split; [left; reflexivity|]. split; [exact root_named|]. split; [vm_compute; intuition discriminate|].
    split; [constructor|]. split; [reflexivity|]. split; [reflexivity|]. split.
    { split; [vm_compute; intuition discriminate|]. exists [], []. split; [reflexivity|]. split; reflexivity. }
    split; [vm_compute; reflexivity|]. split; [left; reflexivity|].
    assert (E : exists s, rd nodes (txt "/r/uavcan/Name.uavcan") = Some s) by (eexists; vm_compute; reflexivity).
    destruct E as (s & E). rewrite E. discriminate. }
  split; [exact Hp|].
  refine (C95_finds root (ld nodes) (rd nodes) _ _ _ _ _ (txt "uavcan.Name") _ root_ok _ En _ _ _ Hp).
  - intros dir names base. apply ld_slash.
  - left. split; [|reflexivity]. do 6 right. left. reflexivity.
  - assert (H : validate_compound_type_full_name (txt "uavcan.Name") = Ok tt) by (vm_compute; reflexivity).
    apply valid_full_iff in H. apply H.
  - vm_compute. lia.
Qed.

(** ** C96: files of different directories define different types *)

(** Missing: directories with a dot in their names. *)
Theorem C96_apart_partial dirs d r subs base d' r' subs' base' full v id v' id' :
  roots_ok dirs -> In d dirs -> In d' dirs -> named d r -> named d' r' -> r <> [] -> r' <> [] -> undotted r -> undotted r' ->
  Forall (fun w => directory w /\ undotted w) subs -> Forall (fun w => directory w /\ undotted w) subs' ->
  ~ In slash base -> ~ In slash base' ->
  name_from_filename dirs (path d (subs ++ [base])) = Ok (full, v, id) ->
  name_from_filename dirs (path d' (subs' ++ [base'])) = Ok (full, v', id') ->
  r = r' /\ subs = subs' /\ exists short, name_form base short v id /\ name_form base' short v' id'.
Proof. exact (same_place dirs d r subs base d' r' subs' base' full v id v' id'). Qed.
Print Assumptions C96_apart_partial.
Theorem C96_apart_refuted :
  exists dirs a b full v id v' id', roots_ok dirs /\
    name_from_filename dirs (path (txt "/r/uavcan") [a; b; txt "X.uavcan"]) = Ok (full, v, id) /\
    name_from_filename dirs (path (txt "/r/uavcan") [a ++ dot :: b; txt "X.uavcan"]) = Ok (full, v', id').
Proof.
  exists root, (txt "a"), (txt "b"), (txt "uavcan.a.b.X"), None, None, None, None. split; [exact root_ok|].
  split; vm_compute; reflexivity.
Qed.
Print Assumptions C96_apart_refuted.
Example C96_apart_case :
  name_from_filename root (txt "/r/uavcan/a/7.X.uavcan") = Ok (txt "uavcan.a.X", None, Some 7%Z) /\
  name_from_filename root (txt "/r/uavcan/a/X.1.0.uavcan") = Ok (txt "uavcan.a.X", Some (1, 0)%Z, None) /\
  name_from_filename root (txt "/r/uavcan/b/X.uavcan") = Ok (txt "uavcan.b.X", None, None).
Proof. split; [|split]; vm_compute; reflexivity. Qed.
