(* Constants of the public and private headers. *)
From Coq Require Import ZArith.
Open Scope Z_scope.

(* include/uecho/message.h, src/uecho/_message.h:28-35 *)
Definition uEchoTidMax : Z := 65535.
Definition uEchoMessageMinLen : Z := 12.
Definition uEchoEhd1 : Z := 16.   (* 0x10 *)
Definition uEchoEhd2 : Z := 129.  (* 0x81 *)
Definition uEchoEOJSize : nat := 3.

(* include/uecho/esv.h:31-50 *)
Definition ESV_SetI : Z := 96.        (* 0x60 uEchoEsvWriteRequest *)
Definition ESV_SetC : Z := 97.        (* 0x61 uEchoEsvWriteRequestResponseRequired *)
Definition ESV_Get : Z := 98.         (* 0x62 uEchoEsvReadRequest *)
Definition ESV_INF_REQ : Z := 99.     (* 0x63 uEchoEsvNotificationRequest *)
Definition ESV_SetGet : Z := 110.     (* 0x6E uEchoEsvWriteReadRequest *)
Definition ESV_Set_Res : Z := 113.    (* 0x71 uEchoEsvWriteResponse *)
Definition ESV_Get_Res : Z := 114.    (* 0x72 uEchoEsvReadResponse *)
Definition ESV_INF : Z := 115.        (* 0x73 uEchoEsvNotification *)
Definition ESV_INFC : Z := 116.       (* 0x74 uEchoEsvNotificationResponseRequired *)
Definition ESV_INFC_Res : Z := 122.   (* 0x7A uEchoEsvNotificationResponse *)
Definition ESV_SetGet_Res : Z := 126. (* 0x7E uEchoEsvWriteReadResponse *)
Definition ESV_SetI_SNA : Z := 80.    (* 0x50 uEchoEsvWriteRequestError *)
Definition ESV_SetC_SNA : Z := 81.    (* 0x51 uEchoEsvWriteRequestResponseRequiredError *)
Definition ESV_Get_SNA : Z := 82.     (* 0x52 uEchoEsvReadRequestError *)
Definition ESV_INF_SNA : Z := 83.     (* 0x53 uEchoEsvNotificationRequestError *)
Definition ESV_SetGet_SNA : Z := 94.  (* 0x5E uEchoEsvWriteReadRequestError *)

(* include/uecho/property.h:35-45 *)
Definition AttrNone : Z := 0.
Definition AttrRead : Z := 1.
Definition AttrWrite : Z := 2.
Definition AttrAnno : Z := 4.
Definition AttrReadWrite : Z := 3.
Definition AttrReadRequired : Z := 16.   (* 0x10 *)
Definition AttrWriteRequired : Z := 32.  (* 0x20 *)
Definition AttrAnnoRequired : Z := 64.   (* 0x40 *)
Definition uEchoPropertyCodeMin : Z := 128. (* 0x80 *)

(* include/uecho/object.h: super class property codes, map formats *)
Definition EPC_ManufacturerCode : Z := 138. (* 0x8A *)
Definition EPC_AnnoMap : Z := 157.  (* 0x9D *)
Definition EPC_SetMap : Z := 158.   (* 0x9E *)
Definition EPC_GetMap : Z := 159.   (* 0x9F *)
Definition MapFormat1MaxSize : Z := 15.
Definition MapFormat2MapSize : Z := 16.
Definition MapFormat2Size : Z := 17.

(* include/uecho/profile.h, node_profile.h *)
Definition uEchoNodeProfileObject : Z := 978945.   (* 0x0EF001 *)
Definition EPC_OperatingStatus : Z := 128.         (* 0x80 *)
Definition EPC_Version : Z := 130.                 (* 0x82 *)
Definition EPC_Id : Z := 131.                      (* 0x83 *)
Definition EPC_InstanceCount : Z := 211.           (* 0xD3 *)
Definition EPC_ClassCount : Z := 212.              (* 0xD4 *)
Definition EPC_InstanceListNotification : Z := 213. (* 0xD5 *)
Definition EPC_InstanceListS : Z := 214.           (* 0xD6 *)
Definition EPC_ClassListS : Z := 215.              (* 0xD7 *)
Definition InstanceListMax : Z := 255.             (* 0xFF *)

(* src/uecho/misc.c:28-44 class groups *)
Definition ClassGroupDeviceMax : Z := 6.
Definition ClassGroupProfile : Z := 14.  (* 0x0E *)
