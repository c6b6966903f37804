(** The classes of addresses of src/addr.c that the other functions do not ask for. *)
From Verif Require Import Common MapModel AddrModel.

(** addr.c:786-793 *)
Definition is_rfc3964 (a : addr) : bool := (ipb a 0 =? 32) && (ipb a 1 =? 2).
(** addr.c:39-43, 796-799 *)
Definition rfc6052 : list Z := [0; 100; 255; 155; 0; 0; 0; 0; 0; 0; 0; 0].
Definition is_rfc6052 (a : addr) : bool := starts a rfc6052.
(** addr.c:802-811 *)
Definition is_rfc4380 (a : addr) : bool := (ipb a 0 =? 32) && (ipb a 1 =? 1) && (ipb a 2 =? 0) && (ipb a 3 =? 0).
(** addr.c:50-54, 830-833 *)
Definition rfc6145 : list Z := [0; 0; 0; 0; 0; 0; 0; 0; 255; 255; 0; 0].
Definition is_rfc6145 (a : addr) : bool := starts a rfc6145.
(** addr.c:864-874 *)
Definition is_multicast (a : addr) : bool := if is_ip4 a then Z.land (ipb a 12) 240 =? 224 else ipb a 0 =? 255.
