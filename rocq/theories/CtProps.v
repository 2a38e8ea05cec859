(** The checks of the secrecy labels of Ct64_Code.v and Ct32_Code.v. *)
Require Import ZArith List Bool String.
From Verif Require Import CtLang CtCheck CtReach Ct64_Code Ct32_Code.
Import ListNotations.
Local Open Scope string_scope.
Local Open Scope list_scope.

(** Every value that is made public on purpose somewhere in the programs. *)
Definition all_tags : list string :=
  ["secp256k1_keypair_seckey_load: ret"; "secp256k1_keypair_load: pubkey"; "secp256k1_keypair_xonly_tweak_add: ret";
   "secp256k1_ecdsa_sign_inner: is_nonce_valid"; "secp256k1_ecdsa_sign_inner: ret";
   "secp256k1_ellswift_create: &p"; "secp256k1_ellswift_create: &hash"; "secp256k1_schnorrsig_sign_internal: &r";
   "secp256k1_musig_secnonce_invalidate: secnonce->data"; "secp256k1_musig_secnonce_invalidate: &secnonce->data[68]";
   "secp256k1_musig_nonce_gen_internal: &nonce_pts[i]"; "secp256k1_musig_nonce_gen: ret";
   "secp256k1_musig_nonce_gen_counter: secret key is valid"; "secp256k1_musig_secnonce_load: is_zero"].
Lemma c64_checked : chk_program c64_program all_tags = true. Proof. exact_no_check (eq_refl true). Qed.
Lemma c32_checked : chk_program c32_program all_tags = true. Proof. exact_no_check (eq_refl true). Qed.
Lemma c64_tags_right : table_right c64_tags c64_program = true. Proof. exact_no_check (eq_refl true). Qed.
Lemma c32_tags_right : table_right c32_tags c32_program = true. Proof. exact_no_check (eq_refl true). Qed.
(** In both builds. *)
Definition both_keep (tags : list string) (f : string) : Prop := keeps_secrets c64_program tags f /\ keeps_secrets c32_program tags f.
Definition is_some {A : Type} (x : option A) : bool := match x with Some _ => true | None => false end.
Definition strings_eqb (a b : list string) : bool := if list_eq_dec string_dec a b then true else false.
Definition listed (p : program) (e : table) (f : string) (ts : list string) : bool :=
  is_some (find_func p f) && match entry e f with Some us => strings_eqb us ts | None => false end.
Lemma both_keep_listed f ts : listed c64_program c64_tags f ts = true -> listed c32_program c32_tags f ts = true -> both_keep ts f.
Proof.
  unfold listed, is_some, strings_eqb. intros A B. apply andb_prop in A. apply andb_prop in B. destruct A as [A1 A2], B as [B1 B2].
  destruct (find_func c64_program f) eqn:F1; [|discriminate]. destruct (find_func c32_program f) eqn:F2; [|discriminate].
  destruct (entry c64_tags f) as [u1|] eqn:E1; [|discriminate]. destruct (entry c32_tags f) as [u2|] eqn:E2; [|discriminate].
  destruct (list_eq_dec string_dec u1 ts) as [->|]; [|discriminate]. destruct (list_eq_dec string_dec u2 ts) as [->|]; [|discriminate].
  split; [apply (checked_keeps_secrets_up_to _ _ _ _ _ c64_checked c64_tags_right)|apply (checked_keeps_secrets_up_to _ _ _ _ _ c32_checked c32_tags_right)]; congruence.
Qed.

(** * For the examples *)
Local Open Scope Z_scope.
(** A machine on which integers are unbounded, an array element takes one cell, and a library function does nothing. *)
Definition bit (b : bool) : Z := if b then 1 else 0.
Definition plain_op1 (o : string) (v : Z) : Z :=
  if String.eqb o "!" then bit (v =? 0) else if String.eqb o "~" then Z.lnot v
  else if String.eqb o "(uint64_t)" then Z.land v (2 ^ 64 - 1) else if String.eqb o "(uint32_t)" then Z.land v (2 ^ 32 - 1) else v.
Definition plain_op2 (o : string) (a b : Z) : Z :=
  if String.eqb o "<" then bit (a <? b) else if String.eqb o ">" then bit (b <? a) else if String.eqb o "<=" then bit (a <=? b) else if String.eqb o ">=" then bit (b <=? a)
  else if String.eqb o "==" then bit (a =? b) else if String.eqb o "!=" then bit (negb (a =? b)) else if String.eqb o ">>" then Z.shiftr a b else if String.eqb o "<<" then Z.shiftl a b
  else if String.eqb o "&" then Z.land a b else if String.eqb o "|" then Z.lor a b else if String.eqb o "^" then Z.lxor a b
  else if String.eqb o "*" then a * b else if String.eqb o "-" then a - b else a + b.
Definition plain : machine :=
  mkmachine (fun _ => 1000000) plain_op1 plain_op2 (fun d x => 10000 + Z.of_nat d * 10000 + Z.of_nat (String.length x) * 1000)
    (fun _ _ _ s => s) (fun _ _ p => (0, p)) (fun a _ => [a]).
(** Memory which holds a 32-byte big-endian number at address 4096. *)
Definition key_at_4096 (k : Z) : Z -> Z := fun a => if (4096 <=? a) && (a <? 4128) then Z.land (Z.shiftr k (8 * (4127 - a))) 255 else 0.
Definition verify_key (p : program) (k : Z) : outcome * state * list event := run plain p 2000 "secp256k1_ec_seckey_verify" [5; 4096] (fun _ => 0) (key_at_4096 k).
(** Functions that leak: a branch on a secret, a table lookup at a secret index, a division of a secret. *)
Definition leak_branch : func := mkfunc "leak" [("p", false)] true (If (Load Sec (Var "p")) (Return (Num 1)) (Return (Num 2))).
Definition leak_index : func := mkfunc "leak" [("p", false)] true (Return (Load Pub (Op2 "[]" (Var "p") (Load Sec (Var "p"))))).
Definition leak_divide : func := mkfunc "leak" [("p", false)] true (Return (Op2 "/" (Load Sec (Var "p")) (Num 3))).
Lemma leaks g : find_func [g] "leak" = Some g -> public_args (f_params g) [0] [0] ->
  snd (run plain [g] 3 "leak" [0] (fun _ => 0) (fun _ => 0)) <> snd (run plain [g] 3 "leak" [0] (fun _ => 0) (fun _ => 1)) -> ~ keeps_secrets [g] [] "leak".
Proof.
  intros F P N (h & F' & K). rewrite F in F'. injection F' as <-. destruct (K plain 3%nat [0] [0] (fun _ => 0) (fun _ => 0) (fun _ => 1) P) as [E|(pre & tag & v1 & v2 & r1 & r2 & [] & _)]. exact (N E).
Qed.

(** * The properties *)
Local Ltac listed := apply both_keep_listed; vm_compute; reflexivity.
Lemma prop_nothing_seen f :
  In f ["secp256k1_ec_seckey_verify"; "secp256k1_ec_pubkey_create"; "secp256k1_ec_seckey_negate"; "secp256k1_ec_seckey_tweak_add";
        "secp256k1_ec_seckey_tweak_mul"; "secp256k1_context_randomize"; "secp256k1_keypair_sec"; "secp256k1_keypair_create";
        "secp256k1_ecdh"; "secp256k1_ellswift_xdh"] -> both_keep [] f.
Proof. cbn [In]. intros H. repeat (destruct H as [<-|H]; [listed|]). destruct H. Qed.
Lemma prop_ecdsa_sign_seen f : In f ["secp256k1_ecdsa_sign"; "secp256k1_ecdsa_sign_recoverable"] ->
  both_keep ["secp256k1_ecdsa_sign_inner: is_nonce_valid"; "secp256k1_ecdsa_sign_inner: ret"] f.
Proof. cbn [In]. intros H. repeat (destruct H as [<-|H]; [listed|]). destruct H. Qed.
Lemma prop_schnorrsig_seen f : In f ["secp256k1_schnorrsig_sign32"; "secp256k1_schnorrsig_sign_custom"] ->
  both_keep ["secp256k1_keypair_seckey_load: ret"; "secp256k1_keypair_load: pubkey"; "secp256k1_schnorrsig_sign_internal: &r"] f.
Proof. cbn [In]. intros H. repeat (destruct H as [<-|H]; [listed|]). destruct H. Qed.
Lemma prop_keypair_tweak_seen : both_keep ["secp256k1_keypair_seckey_load: ret"; "secp256k1_keypair_load: pubkey"; "secp256k1_keypair_xonly_tweak_add: ret"] "secp256k1_keypair_xonly_tweak_add".
Proof. listed. Qed.
Lemma prop_ellswift_create_seen : both_keep ["secp256k1_ellswift_create: &p"; "secp256k1_ellswift_create: &hash"] "secp256k1_ellswift_create".
Proof. listed. Qed.
Lemma prop_musig_nonce_gen_seen : both_keep ["secp256k1_musig_secnonce_invalidate: secnonce->data"; "secp256k1_musig_secnonce_invalidate: &secnonce->data[68]";
  "secp256k1_musig_nonce_gen_internal: &nonce_pts[i]"; "secp256k1_musig_nonce_gen: ret"] "secp256k1_musig_nonce_gen".
Proof. listed. Qed.
Lemma prop_musig_nonce_gen_counter_seen : both_keep ["secp256k1_musig_secnonce_invalidate: secnonce->data"; "secp256k1_musig_secnonce_invalidate: &secnonce->data[68]";
  "secp256k1_musig_nonce_gen_internal: &nonce_pts[i]"; "secp256k1_musig_nonce_gen_counter: secret key is valid"] "secp256k1_musig_nonce_gen_counter".
Proof. listed. Qed.
Lemma prop_musig_partial_sign_seen : both_keep ["secp256k1_musig_secnonce_load: is_zero"; "secp256k1_keypair_seckey_load: ret"; "secp256k1_keypair_load: pubkey"] "secp256k1_musig_partial_sign".
Proof. listed. Qed.
