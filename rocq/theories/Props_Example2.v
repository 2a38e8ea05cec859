(** C64: the Schnorr example program (examples/schnorr.c). *)
Require Import ZArith List String.
From Verif Require Import Spec SpecApi SpecHash SpecBip340 Curve GenModel EcdsaModel ApiModel ApiVocab ExampleModel ExampleProof SchnorrExampleModel SchnorrExampleProof.
Import ListNotations.
Local Open Scope Z_scope.

(** With a valid key the program prints the verdict true (1), the key pair and the signature that BIP 340 makes of the tagged hash of its
    message, unless BIP 340 has no signature for these inputs; with an invalid key it fails. *)
Theorem C64_schnorr_program mem rnd key aux kp0 pk0 ser0 h0 sig0 : bytes_n 32 rnd -> bytes_n 32 key -> bytes_n 32 aux ->
  (1 <= be_val key < n /\
   schnorr_main mem (Some rnd) (Some key) (Some aux) kp0 pk0 ser0 h0 sig0 =
     match bip340_sign (be_val key) (tagged_hash (ascii_bytes "my_fancy_protocol"%string) (ascii_bytes "Hello World!"%string)) aux with
     | Some sig => Success [[1]; key; be_bytes 32 (xcoord (pmul (be_val key) G)); sig]
     | None => Killed
     end) \/
  (~ 1 <= be_val key < n /\ schnorr_main mem (Some rnd) (Some key) (Some aux) kp0 pk0 ser0 h0 sig0 = Failure).
Proof. exact (schnorr_runs mem rnd key aux kp0 pk0 ser0 h0 sig0). Qed.
Print Assumptions C64_schnorr_program.

(** An assertion of the program fails only if the nonce hash of BIP 340 is 0 modulo the group order. *)
Theorem C64_schnorr_program_killed mem rnd key aux kp0 pk0 ser0 h0 sig0 : opt_bytes 32 rnd -> opt_bytes 32 key -> opt_bytes 32 aux ->
  schnorr_main mem rnd key aux kp0 pk0 ser0 h0 sig0 = Killed ->
  exists k a, key = Some k /\ aux = Some a /\ 1 <= be_val k < n /\
    be_val (bip340_nonce (be_val k) (tagged_hash (ascii_bytes "my_fancy_protocol"%string) (ascii_bytes "Hello World!"%string)) a) mod n = 0.
Proof. exact (schnorr_killed mem rnd key aux kp0 pk0 ser0 h0 sig0). Qed.
Print Assumptions C64_schnorr_program_killed.

(** Random bytes that are the key 2, and a seed. *)
Example C64_schnorr_example : bytes_n 32 (be_bytes 32 2) /\ 1 <= be_val (be_bytes 32 2) < n.
Proof. destruct keys_in_range as [_ [C D]]. destruct (key_of 2 (conj Z.le_0_2 D)) as [Y1 Y2]. rewrite Y2. exact (conj Y1 (conj C D)). Qed.
