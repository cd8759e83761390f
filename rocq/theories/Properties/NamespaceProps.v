(** C119: a loaded type is an attribute of the package. *)
From Coq Require Import String.
From Verif.Base Require Import Prelude Bits.
From Verif.Model Require Import Types Prim Float Slcan Parser Namespaces.
From Verif.Spec Require Import ParserSpec NamespaceSpec.
From Verif.Proofs Require Import ParserText ParserFacts ParserLoad NamespaceFacts.
From Verif.Properties Require Import ParserProps.
Open Scope list_scope.
Open Scope N_scope.

(** Loading succeeds, whatever was loaded before, and every type of the five
    packages is found under its name, [dronecan.a.b...Name]: the same one as
    in the table of names, of that name. Missing: types directly in a
    package, [dronecan.a.Name]. *)
Theorem C119_found_partial search_dirs listdir read ev depth search source ds d t globals n q :
  parse_namespaces search_dirs listdir read ev depth search source = Ok ds ->
  In d ds -> spells (d_name d) (n :: q) -> In n packages -> (2 <= length q)%nat ->
  exists globals' d', load_module globals ds = Ok globals' /\ type_at globals' (n :: q) = Some d' /\
    dget text_eqb (t_names (load t ds)) (d_name d) = Some d' /\ In d' ds /\ d_name d' = d_name d.
Proof.
  intros H Hd (_ & Hu & Hs) Hn Hq. apply Forall_cons_iff in Hu as (Hn' & Hu).
  destruct (load_module_ok globals ds (parsed_names _ _ _ _ _ _ _ _ H)) as (g' & E & Htop & _).
  destruct (C86_names_partial no_tables ds d Hd) as (d' & Ed & Hd' & En). exists g', d'. split; [exact E|].
  rewrite (Htop n q Hn Hu), (load_any t) by (apply in_map; exact Hd).
  change (join [46] (n :: q)) with (join [dot] (n :: q)). rewrite <- Hs. destruct q as [|a [|b q]]; cbn [length] in Hq; try lia. auto.
Qed.
Print Assumptions C119_found_partial.

(** The types of all packages but [uavcan], and of any others, also under
    [dronecan.thirdparty]. *)
Theorem C119_thirdparty_partial search_dirs listdir read ev depth search source ds d t globals n q :
  parse_namespaces search_dirs listdir read ev depth search source = Ok ds ->
  In d ds -> spells (d_name d) (n :: q) -> n <> txt "uavcan" ->
  exists globals' d', load_module globals ds = Ok globals' /\ type_at globals' (txt "thirdparty" :: n :: q) = Some d' /\
    dget text_eqb (t_names (load t ds)) (d_name d) = Some d' /\ In d' ds /\ d_name d' = d_name d.
Proof.
  intros H Hd (_ & Hu & Hs) Hn. pose proof (parsed_names _ _ _ _ _ _ _ _ H) as Hv.
  destruct (load_module_ok globals ds Hv) as (g' & E & _ & Hth & _).
  destruct (C86_names_partial no_tables ds d Hd) as (d' & Ed & Hd' & En). exists g', d'. split; [exact E|].
  rewrite (Hth n q Hu), (load_any t) by (apply in_map; exact Hd).
  change (join [46] (n :: q)) with (join [dot] (n :: q)). rewrite <- Hs.
  destruct (text_eqb n (txt "uavcan")) eqn:Eu; [apply text_eqb_eq in Eu; contradiction|].
  destruct q as [|a q]; [|auto]. exfalso. rewrite Forall_forall in Hv. apply Hv in Hd. cbn [join] in Hs.
  apply full_type_name_dot in Hd. rewrite Hs in Hd. apply Forall_cons_iff in Hu as (Hu & _). contradiction.
Qed.
Print Assumptions C119_thirdparty_partial.

(** What is found under a name is a type of that name from the last call. *)
Theorem C119_only search_dirs listdir read ev depth search source ds globals globals' (n : text) (q : list text) d :
  parse_namespaces search_dirs listdir read ev depth search source = Ok ds ->
  load_module globals ds = Ok globals' -> Forall (fun w => ~ In dot w) (n :: q) ->
  In n packages /\ type_at globals' (n :: q) = Some d \/ type_at globals' (txt "thirdparty" :: n :: q) = Some d ->
  In d ds /\ d_name d = join [dot] (n :: q).
Proof.
  intros H E Hu K. destruct (load_module_ok globals ds (parsed_names _ _ _ _ _ _ _ _ H)) as (g' & E' & Htop & Hth & _).
  rewrite E in E'. injection E' as <-. apply load_only.
  destruct K as [(Hn & K)|K].
  - apply Forall_cons_iff in Hu as (_ & Hu). specialize (Htop n q Hn Hu). rewrite Htop in K. destruct (deep q); [exact K|discriminate].
  - rewrite (Hth n q Hu) in K. destruct (negb (text_eqb n (txt "uavcan")) && _); [exact K|discriminate].
Qed.
Print Assumptions C119_only.

(** Two packages, types directly in a package, and two types of one name. *)
Definition roots2 := [txt "/r/uavcan"; txt "/r/com"].
Definition packages_disk : disk := [
("/r/uavcan/protocol/341.NodeStatus.uavcan", "uint8 a");
("/r/uavcan/Name.uavcan", "uint8 b");
("/r/com/acme/esc/20000.Status.uavcan", "uavcan.Name n");
("/r/com/acme/esc/20000.Status.1.0.uavcan", "uavcan.Name n # again");
("/r/com/Thing.uavcan", "uint8 c")]%string.
Definition loaded := parse_namespaces roots2 (ld packages_disk) (rd packages_disk) lit 4 [] (all_files packages_disk).
Definition look (ds : res (list definition)) (ws : list string) : option (text * option (Z * Z)) :=
  match ds with
  | Ok ds => match load_module [] ds with
             | Ok g => match type_at g (map txt ws) with Some d => Some (d_name d, d_version d) | None => None end
             | Err _ => None
             end
  | Err _ => None
  end.
Example C119_case : exists ds, loaded = Ok ds /\ length ds = 5%nat /\
  look loaded ["uavcan"; "protocol"; "NodeStatus"]%string = Some (txt "uavcan.protocol.NodeStatus", None) /\
  look loaded ["com"; "acme"; "esc"; "Status"]%string = Some (txt "com.acme.esc.Status", Some (1, 0)%Z) /\
  look loaded ["thirdparty"; "com"; "Thing"]%string = Some (txt "com.Thing", None).
Proof. eexists. split; [vm_compute; reflexivity|]. vm_compute. repeat (split; [reflexivity|]). reflexivity. Qed.

(** A type directly in a package is not an attribute; in [uavcan] there is no
    way to it. *)
Theorem C119_direct_refuted : exists search_dirs listdir read ev depth source ds globals d ws,
  parse_namespaces search_dirs listdir read ev depth [] source = Ok ds /\ load_module [] ds = Ok globals /\
  In d ds /\ spells (d_name d) ws /\ In (hd [] ws) packages /\
  type_at globals ws = None /\ type_at globals (txt "thirdparty" :: ws) = None /\
  dget text_eqb (t_names (load {| t_names := []; t_ids := [] |} ds)) (d_name d) = Some d.
Proof.
  exists roots2, (ld packages_disk), (rd packages_disk), lit, 4%nat, (all_files packages_disk).
  do 2 eexists. eexists _, (map txt ["uavcan"; "Name"]%string). split; [vm_compute; reflexivity|].
  split; [vm_compute; reflexivity|]. split; [right; left; reflexivity|]. split.
  { split; [discriminate|]. split; [|reflexivity].
    apply Forall_forall. intros w [<-|[<-|[]]] K; vm_compute in K; repeat (destruct K as [K|K]; [discriminate|]); exact K. }
  split; [right; left; reflexivity|]. split; [reflexivity|]. split; reflexivity.
Qed.
Print Assumptions C119_direct_refuted.

(** A type is no attribute any more after another call that did not read its
    file again; the table of names still has it. *)
Theorem C119_forgotten_refuted : exists search_dirs listdir read ev depth source1 source2 ds1 ds2 g1 g2 d ws,
  parse_namespaces search_dirs listdir read ev depth [] source1 = Ok ds1 /\
  parse_namespaces search_dirs listdir read ev depth [] source2 = Ok ds2 /\
  load_module [] ds1 = Ok g1 /\ load_module g1 ds2 = Ok g2 /\
  In d ds1 /\ spells (d_name d) ws /\ type_at g1 ws = Some d /\ type_at g2 ws = None /\ type_at g2 (txt "thirdparty" :: ws) = None /\
  dget text_eqb (t_names (load (load {| t_names := []; t_ids := [] |} ds1) ds2)) (d_name d) = Some d.
Proof.
  exists roots2, (ld packages_disk), (rd packages_disk), lit, 4%nat, (firstn 2 (all_files packages_disk)), (skipn 2 (all_files packages_disk)).
  do 5 eexists. exists (map txt ["uavcan"; "protocol"; "NodeStatus"]%string). split; [vm_compute; reflexivity|].
  split; [vm_compute; reflexivity|]. split; [vm_compute; reflexivity|]. split; [vm_compute; reflexivity|].
  split; [left; reflexivity|]. split.
  { split; [discriminate|]. split; [|reflexivity].
    apply Forall_forall. intros w [<-|[<-|[<-|[]]]] K; vm_compute in K; repeat (destruct K as [K|K]; [discriminate|]); exact K. }
  split; [reflexivity|]. split; [reflexivity|]. split; reflexivity.
Qed.
Print Assumptions C119_forgotten_refuted.
