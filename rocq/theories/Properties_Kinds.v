(* C59: the kind of an object.  C66: the addresses that are used.  C53: the UDP server of a controller. *)
From Coq Require Import String ZArith List Bool Lia ZifyBool ZifyNat.
From Verif Require Import CSem M_Const M_Misc M_Property M_Message M_PropertyList M_Object M_Node M_NodeListener M_Controller M_Lookup
  StdDB_Data M_Std Spec_Frame Spec_Message Spec_Map Spec_Object Spec_Node Spec_Request Spec_Controller Run_Object Run_Node
  Run_Controller P_Base P_Misc P_Message P_Encode P_MsgApi P_PropertyList P_Object P_ObjectRun P_ObjectReach P_Std P_Node
  P_Request Properties_Object P_NodeReach P_NodeProfile P_NodeInv P_NodeRun P_NodeProps P_RequestProps P_RequestApi P_NodeSafe
  P_Shadow P_Controller P_ControllerProps Properties_Message Properties_Node Properties_Request Properties_Controller P_EndToEnd
  Properties_EndToEnd P_Lookup Properties_Lookup.
Import ListNotations.
Open Scope Z_scope.
Ltac Zify.zify_post_hook ::= Z.div_mod_to_equations.

From Verif Require Import M_String Spec_String P_String P_Text M_Log M_Net Spec_Net P_Net M_Server Spec_Server Properties_Net.

(* Objects with the codes 0x000000 to 0x06FFFF are devices, those with 0x0E0000 to 0x0EFFFF profiles, none is both, and an object
   has just its own code. *)
Theorem C59_kinds : forall le net n o, api_node le net std_db n -> In o (n_objs n) ->
  let code := eoj_code (o_grp o, o_cls o, o_ins o) in
  0 <= code <= 16777215
  /\ (uecho_object_isdevice o = true <-> code <= 458751)
  /\ (uecho_object_isprofile o = true <-> 917504 <= code <= 983039)
  /\ (forall c, uecho_object_iscode o c = true <-> c = code).
Proof.
  intros le net n o H I code. destruct (api_node_ok _ _ _ _ std_db_ok H) as [N _]. destruct N as (_ & O & _). rewrite Forall_forall in O.
  pose proof (O _ I) as (_ & B & _). pose proof (ocode o B) as E. change (eoj_code (eoj_of o)) with code in E.
  destruct B as (B1 & B2 & B3). unfold is_byte in *. unfold code, eoj_code in *. clear code.
  split; [lia|]. split; [|split].
  - unfold uecho_object_isdevice, uecho_isdeviceclassgroupcode, ClassGroupDeviceMax. lia.
  - unfold uecho_object_isprofile, uecho_isprofileclassgroupcode, ClassGroupProfile. lia.
  - intros c. unfold uecho_object_iscode. rewrite E. lia.
Qed.
Print Assumptions C59_kinds.

Example C59_kinds_example : api_node true net_up std_db node2
  /\ map uecho_object_isdevice (n_objs node2) = [false; true; true]
  /\ map uecho_object_isprofile (n_objs node2) = [true; false; false].
Proof. split; [exact node2_api|]. split; vm_compute; reflexivity. Qed.

(* An address is used unless it is of a kind that was excluded: with IPv6 only, it must be an IPv6 address, and with IPv4 only, not. *)
Theorem C66_used : forall only6 only4 t rest, text_ok t -> exists b u,
  uecho_net_isipv6address (Some (block t rest)) = Ok b /\ uecho_net_isuseaddress only6 only4 (Some (block t rest)) = Ok u
  /\ (u = true <-> (only6 = true -> b = true) /\ (only4 = true -> b = false)).
Proof.
  intros only6 only4 t rest T. destruct (isipv6_spec t rest T) as (b & E & _).
  exists b. unfold uecho_net_isuseaddress. rewrite E. destruct only6, only4, b; cbn [bind negb]; eexists; (split; [reflexivity|]); (split; [reflexivity|]);
    split; try (intros [X Y]; try discriminate (X eq_refl); try discriminate (Y eq_refl)); intros; try discriminate; try (split; intros; try discriminate); reflexivity.
Qed.
Print Assumptions C66_used.

Example C66_used_example : text_ok (cstr "fe80::1")
  /\ uecho_net_isuseaddress true false (Some (block (cstr "fe80::1") [])) = Ok true
  /\ uecho_net_isuseaddress false true (Some (block (cstr "fe80::1") [])) = Ok false
  /\ uecho_net_isuseaddress false false (Some (block (cstr "10.0.0.1") [])) = Ok true.
Proof.
  split; [|split; [vm_compute; reflexivity|split; vm_compute; reflexivity]].
  repeat (constructor; [vm_compute; split; congruence|]). constructor.
Qed.

(* After the call that switches the UDP server off, the option of the controller does not want one; other options are as before. *)
Theorem C38_disableudp : forall c, ~ udp_wanted (c_option (uecho_controller_disableudpserver c))
  /\ (forall p, Z.land 1 p = 0 -> uecho_controller_isoptionenabled (uecho_controller_disableudpserver c) p = uecho_controller_isoptionenabled c p)
  /\ c_node (uecho_controller_disableudpserver c) = c_node c /\ c_nodes (uecho_controller_disableudpserver c) = c_nodes c.
Proof.
  intros c. split; [|split; [|split; reflexivity]].
  - unfold udp_wanted, uecho_controller_disableudpserver, uecho_controller_enableoption. cbn [c_with_option c_option]. rewrite Z.lor_spec.
    change (Z.testbit 1 0) with true. rewrite orb_true_r. discriminate.
  - apply (proj2 (C38_enable c 1 ltac:(lia))).
Qed.
Print Assumptions C38_disableudp.

Example C38_disableudp_example : udp_wanted (c_option ctrl1) /\ Z.land 1 2 = 0.
Proof. split; vm_compute; reflexivity. Qed.
