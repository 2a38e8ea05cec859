(** The example programs examples/ecdh.c and examples/ecdsa.c, as a test of the statements a user puts together. *)
Require Import ZArith List Bool.
From Verif Require Import Spec GenModel EcdsaModel ApiModel EcdhModel.
Import ListNotations.
Local Open Scope Z_scope.

(** How a program ends: EXIT_SUCCESS and what it printed, EXIT_FAILURE, killed by an assertion or by the default callback, or not yet
    (signing tried as many nonces as the fuel allows). *)
Inductive ending : Type := Success (printed : list (list Z)) | Failure | Killed | Running.
(** assert(return_val) after a call; the default illegal argument callback aborts (src/util.h). *)
Definition asserted {A} (r : res A) (next : A -> ending) : ending := if (r_ret r =? 0) || negb (r_ill r =? 0) then Killed else next (r_out r).
(** if (!call) return EXIT_FAILURE. *)
Definition required {A} (r : res A) (next : A -> ending) : ending :=
  if negb (r_ill r =? 0) then Killed else if r_ret r =? 0 then Failure else next (r_out r).
(** Memory written through a pointer that was not NULL. *)
Definition got (o : option (list Z)) : list Z := match o with Some l => l | None => [] end.
Definition got_len (o : option Z) : Z := match o with Some l => l | None => 0 end.
(** examples/ecdh.c:64-76, examples/ecdsa.c:69-74: serialize and check the length. *)
Definition serialized (buf pk : list Z) (next : list Z -> ending) : ending :=
  match ec_pubkey_serialize (Some buf) (Some 33) (Some pk) EC_COMPRESSED with
  | None => Killed
  | Some r => asserted r (fun o => if got_len (snd o) =? 33 then next (got (fst o)) else Killed)
  end.

(** examples/ecdh.c:20-121 main: [mem] is the memory of the context, [randomize], [seckey1] and [seckey2] what fill_random
    wrote (None if it failed), the rest the contents of the uninitialized variables.  Destroying the context and erasing the secrets are left out. *)
Definition ecdh_main (mem : context) (randomize seckey1 seckey2 : option (list Z)) (pubkey1 pubkey2 compressed1 compressed2 shared1 shared2 : list Z) : ending :=
  match context_create false mem 1 with
  | None => Killed
  | Some ctx =>
    match randomize with
    | None => Failure
    | Some rnd =>
      asserted (context_randomize ctx (Some rnd)) (fun ctx =>
      match seckey1, seckey2 with
      | Some k1, Some k2 =>
        required (ec_seckey_verify (Some k1)) (fun _ =>
        required (ec_seckey_verify (Some k2)) (fun _ =>
        asserted (ec_pubkey_create ctx (Some pubkey1) (Some k1)) (fun p1 =>
        asserted (ec_pubkey_create ctx (Some pubkey2) (Some k2)) (fun p2 =>
        serialized compressed1 (got p1) (fun c1 =>
        serialized compressed2 (got p2) (fun c2 =>
        asserted (ecdh (Some shared1) p2 (Some k1) None) (fun s1 =>
        asserted (ecdh (Some shared2) p1 (Some k2) None) (fun s2 =>
        if memcmp_var (got s1) (got s2) =? 0 then Success [k1; c1; k2; c2; got s1] else Killed))))))))
      | _, _ => Failure
      end)
    end
  end.

(** examples/ecdsa.c:25-30 the hash that is signed. *)
Definition example_hash : list Z :=
  [0x31; 0x5F; 0x5B; 0xDB; 0x76; 0xD0; 0x78; 0xC4; 0x3B; 0x8A; 0xC0; 0x06; 0x4E; 0x4A; 0x01; 0x64;
   0x61; 0x2B; 0x1F; 0xCE; 0x77; 0xC8; 0x69; 0x34; 0x5B; 0xFC; 0x94; 0xC7; 0x58; 0x94; 0xED; 0xD3].
(** examples/ecdsa.c:19-138 main, with arguments as above and fuel for signing.  The verdict is printed as one number.  Verification does
    not read the context, so the second one, with the static context, is the same call. *)
Definition ecdsa_main (fuel : nat) (mem : context) (randomize seckey : option (list Z)) (pubkey compressed sig serialized_sig : list Z) : ending :=
  match context_create false mem 1 with
  | None => Killed
  | Some ctx =>
    match randomize with
    | None => Failure
    | Some rnd =>
      asserted (context_randomize ctx (Some rnd)) (fun ctx =>
      match seckey with
      | None => Failure
      | Some key =>
        required (ec_seckey_verify (Some key)) (fun _ =>
        asserted (ec_pubkey_create ctx (Some pubkey) (Some key)) (fun p =>
        serialized compressed (got p) (fun c =>
        match ecdsa_sign fuel ctx (Some sig) (Some example_hash) (Some key) None None with
        | None => Running
        | Some signed =>
          asserted signed (fun sg =>
          asserted (ecdsa_signature_serialize_compact (Some serialized_sig) sg) (fun ser =>
          required (ecdsa_signature_parse_compact sg ser) (fun sg2 =>
          required (ec_pubkey_parse p (Some c)) (fun p2 =>
          let v := ecdsa_verify sg2 (Some example_hash) p2 in
          let v2 := ecdsa_verify sg2 (Some example_hash) p2 in
          if negb (r_ill v =? 0) || negb (r_ill v2 =? 0) then Killed else
          if r_ret v2 =? r_ret v then Success [[r_ret v]; key; c; got ser] else Killed))))
        end)))
      end)
    end
  end.
