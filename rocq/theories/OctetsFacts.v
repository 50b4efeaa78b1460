(* OctetsFacts.v - to_be_bytes gives the octets of Octets.v. *)
From Verif Require Import BaseFacts Octets.
Local Open Scope N_scope.

Lemma enc16_oct n : u16 n -> enc16 n = oct2 n.
Proof. intros H. unfold u16, enc16, oct2 in *. rewrite (N.mod_small (n / 256)) by lia. reflexivity. Qed.
Lemma enc24_oct n : n < 16777216 -> enc24 n = oct3 n.
Proof. intros H. unfold enc24, oct3 in *. rewrite (N.mod_small (n / 65536)) by lia. reflexivity. Qed.
Lemma enc32_oct n : u32 n -> enc32 n = oct4 n.
Proof. intros H. unfold u32, enc32, oct4 in *. rewrite (N.mod_small (n / 16777216)) by lia. reflexivity. Qed.
