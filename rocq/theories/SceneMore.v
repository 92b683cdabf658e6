(** C97: what is lost when a scene is written and read again. *)
From Coq Require Import String List NArith ZArith Bool Lia.
From Coq Require Import ZifyN ZifyNat ZifyBool.
From Verif Require Import Bytes BytesProofs Txt UtfModel StringModel StringProofs NumModel NumProofs FloatModel ConvModel UuidModel UuidProps EnumModel VecModel VecProps
  XmlModel XmlSpec XmlProofs ObjModel ObjSpec ObjConv SceneModel SceneSpec SceneConv SceneTree SceneProofs SceneCheck SceneProps.
Import ListNotations.
Open Scope N_scope.
Open Scope list_scope.
Ltac Zify.zify_post_hook ::= idtac.

(** ** C97: what is lost *)
(** The only scene object of a layer. *)
Definition stage (o : sobj) : scene := mkScene [] [] [] [mk SLayer [gid 1] [(5%nat, [o])]] [] [] [] [].
Definition objects (s : scene) : list sobj := concat (map (fun l => nth 5 (skids l) []) (sc_layers s)).
(** Classes are not written; the object of a class is in none afterwards. *)
Theorem C97_class_refuted : exists s n s' o o', write_scene s = Ok n /\ read_scene eqb_bytes n = Ok (s', false) /\ objects s = [o] /\ objects s' = [o'] /\
  get "fClass" (smembers o) = to_id 50 /\ map (fun c => get "fGuid" (smembers c)) (sc_classes s) = [VUuid (id 50)] /\
  get "fClass" (smembers o') = no_ref /\ sc_classes s' = [].
Proof.
  exists (mkScene [] [] [] [mk SLayer [gid 1] [(5%nat, [mk STruss [gid 2; ("fClass"%string, to_id 50)] []])]] [] [] [] [mk SClass [gid 50] []]). eexists _, _, _, _.
  split; [vm_compute; reflexivity|]. split; [vm_compute; reflexivity|]. split; [vm_compute; reflexivity|]. split; [vm_compute; reflexivity|].
  split; [vm_compute; reflexivity|]. split; [vm_compute; reflexivity|]. split; vm_compute; reflexivity.
Qed.
(** A group without objects is not written. *)
Theorem C97_group_refuted : exists s n s' o, write_scene s = Ok n /\ read_scene eqb_bytes n = Ok (s', false) /\ objects s = [o] /\ sclass o = SGroup /\ objects s' = [].
Proof.
  exists (stage (mk SGroup [gid 2; ("fName"%string, tx "Bridge")] [(0%nat, [mk SGeometry3D [] []])])). eexists _, _, _.
  split; [vm_compute; reflexivity|]. split; [vm_compute; reflexivity|]. split; [reflexivity|]. split; vm_compute; reflexivity.
Qed.
(** A multipatch parent that comes later in the file is not found. *)
Theorem C97_multipatch_refuted : exists s n s' o p o' p', write_scene s = Ok n /\ read_scene eqb_bytes n = Ok (s', false) /\ objects s = [o; p] /\ objects s' = [o'; p'] /\
  get "fMultipatchObj" (smembers o) = to_id 3 /\ get "fGuid" (smembers p) = VUuid (id 3) /\ get "fMultipatchObj" (smembers o') = no_ref.
Proof.
  exists (mkScene [] [] [] [mk SLayer [gid 1] [(5%nat, [mk STruss [gid 2; ("fMultipatchObj"%string, to_id 3)] []; mk STruss [gid 3] []])]] [] [] [] []). eexists _, _, _, _, _, _.
  split; [vm_compute; reflexivity|]. split; [vm_compute; reflexivity|]. split; [vm_compute; reflexivity|]. split; [vm_compute; reflexivity|].
  split; [vm_compute; reflexivity|]. split; vm_compute; reflexivity.
Qed.
(** The symbol of a layer loses its definition, that of a truss does not. *)
Definition definition_of (o : sobj) : list val := map (fun k => get "fSymDef" (smembers k)) (nth 0 (skids o) []).
Theorem C97_symbol_refuted : exists s n s' l l' o o', write_scene s = Ok n /\ read_scene eqb_bytes n = Ok (s', false) /\ sc_layers s = [l] /\ sc_layers s' = [l'] /\ objects s = [o] /\ objects s' = [o'] /\
  map (fun d => get "fGuid" (smembers d)) (sc_symdefs s') = [VUuid (id 30)] /\
  definition_of l = [to_id 30] /\ definition_of l' = [no_ref] /\ definition_of o = [to_id 30] /\ definition_of o' = [to_id 30].
Proof.
  exists (mkScene [] [] [] [mk SLayer [gid 1] [(0%nat, [mk SSymbol [gid 9; ("fSymDef"%string, to_id 30)] []]); (5%nat, [mk STruss [gid 2] [(0%nat, [mk SSymbol [gid 10; ("fSymDef"%string, to_id 30)] []])]])]] [] []
    [mk SSymdef [gid 30] []] []). eexists _, _, _, _, _, _.
  do 9 (split; [vm_compute; reflexivity|]). split; vm_compute; reflexivity.
Qed.
(** The function of a custom command ends at a comma. *)
Definition functions (o : sobj) : list val := map (fun k => get "fChannelFunction" (smembers k)) (nth 1 (skids o) []).
Theorem C97_command_refuted : exists o n o', write_sobj o = Ok [n] /\ sread_node STruss n = Ok o' /\ functions o = [tx "Body,Pan"] /\ functions o' = [tx "Body"].
Proof.
  exists (mk STruss [gid 2] [(1%nat, [mk SCommand [("fChannelFunction"%string, tx "Body,Pan")] []])]). eexists _, _.
  split; [vm_compute; reflexivity|]. split; [vm_compute; reflexivity|]. split; vm_compute; reflexivity.
Qed.
(** A matrix close to the identity is the identity afterwards. *)
Theorem C97_matrix_refuted : exists o n o' m, write_sobj o = Ok [n] /\ sread_node STruss n = Ok o' /\ get "fMatrix" (smembers o) = VMat m /\ m <> identity /\
  valid_mat m /\ get "fMatrix" (smembers o') = VMat identity.
Proof.
  exists (mk STruss [gid 2; ("fMatrix"%string, VMat (mkMat (VecModel.one, decimal 1 100000000, zero) (zero, VecModel.one, zero) (zero, zero, VecModel.one) (zero, zero, zero)))] []). eexists _, _, _.
  split; [vm_compute; reflexivity|]. split; [vm_compute; reflexivity|]. split; [reflexivity|]. split; [|split; [|vm_compute; reflexivity]].
  - intros E. assert (H : ObjCheck.val_eqb (VVec (VecModel.one, decimal 1 100000000, zero)) (VVec (mU identity)) = true) by (rewrite <- E; vm_compute; reflexivity). vm_compute in H. discriminate H.
  - apply ObjCheck.matb_ok. vm_compute. reflexivity.
Qed.
(** A custom id of 2^32 + 1 is 1 afterwards. *)
Theorem C97_custom_id_refuted : exists o n o', write_sobj o = Ok [n] /\ sread_node SFixture n = Ok o' /\ get "fCustomId" (smembers o) = VNat 4294967297 /\ get "fCustomId" (smembers o') = VNat 1.
Proof.
  exists (mk SFixture [gid 2; ("fCustomId"%string, VNat 4294967297)] [(7%nat, [mk SGobo [] []])]). eexists _, _. split; [vm_compute; reflexivity|]. split; [vm_compute; reflexivity|].
  split; vm_compute; reflexivity.
Qed.
(** The rotation of a gobo without a name is 0 afterwards. *)
Definition rotations (o : sobj) : list val := map (fun k => get "fGoboRotation" (smembers k)) (nth 7 (skids o) []).
Theorem C97_gobo_refuted : exists o n o', write_sobj o = Ok [n] /\ sread_node SFixture n = Ok o' /\ rotations o = [VDbl VecModel.one] /\ rotations o' = [VDbl zero].
Proof.
  exists (mk SFixture [gid 2] [(7%nat, [mk SGobo [("fGoboRotation"%string, VDbl VecModel.one)] []])]). eexists _, _. split; [vm_compute; reflexivity|]. split; [vm_compute; reflexivity|].
  split; vm_compute; reflexivity.
Qed.
(** Objects as their constructor leaves them that cannot be written: a null pointer, uninitialised members. *)
Theorem C97_new_refuted : write_sobj (sfresh SMapDef) = UB /\ write_sobj (sfresh SMapping) = UB /\ write_sobj (sfresh SSource) = UB /\ write_sobj (sfresh SProjection) = UB /\
  write_sobj (sfresh SProtocol) = UB.
Proof. repeat split; vm_compute; reflexivity. Qed.
Print Assumptions C97_class_refuted.
Print Assumptions C97_group_refuted.
Print Assumptions C97_multipatch_refuted.
Print Assumptions C97_symbol_refuted.
Print Assumptions C97_command_refuted.
Print Assumptions C97_matrix_refuted.
Print Assumptions C97_custom_id_refuted.
Print Assumptions C97_gobo_refuted.
Print Assumptions C97_new_refuted.
