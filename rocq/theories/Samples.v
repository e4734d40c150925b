(** Concrete values shared by the examples beside the theorems. *)
From Verif Require Export SpecIP.
Local Open Scope Z_scope.

(** Concrete networks used by the examples. *)
Definition v4 (a b c d len : Z) : net := plain V4 (((a * 256 + b) * 256 + c) * 256 + d) len.
Definition v4t (a b c d len : Z) (txt tok ptok : string) : net :=
  mkNet V4 (((a * 256 + b) * 256 + c) * 256 + d) len txt tok ptok.
Definition v6 (hi len : Z) : net := plain V6 (hi * 2 ^ 96) len.   (* hi = first 32 bits *)
Definition db8 : Z := 0x20010db8.

Ltac valid_tac := repeat (apply Forall_cons || apply Forall_nil);
  (split; [|split]; [split; vm_compute; congruence|split; [vm_compute; congruence|reflexivity]|
    apply Z.mod_divide; [vm_compute; congruence|vm_compute; reflexivity]]).

