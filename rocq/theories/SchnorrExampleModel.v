(** The example program examples/schnorr.c. *)
Require Import ZArith List Bool.
From Verif Require Import Spec GenModel EcdsaModel ApiModel ExtrakeysModel SchnorrModel ExampleModel.
Import ListNotations.
Local Open Scope Z_scope.

(** examples/schnorr.c:22 msg, "Hello World!". *)
Definition schnorr_msg : list Z := [72; 101; 108; 108; 111; 32; 87; 111; 114; 108; 100; 33].
(** examples/schnorr.c:24 tag, "my_fancy_protocol". *)
Definition schnorr_tag : list Z := [109; 121; 95; 102; 97; 110; 99; 121; 95; 112; 114; 111; 116; 111; 99; 111; 108].
(** examples/schnorr.c:21-154 main: [mem] is the memory of the context, [randomize], [seckey] and [auxiliary_rand] what fill_random wrote (None
    if it failed), the rest the contents of the uninitialized variables.  Destroying the context and erasing the secret are left out;
    verification does not read the context, so the second one, with the static context, is the same call. *)
Definition schnorr_main (mem : context) (randomize seckey auxiliary_rand : option (list Z)) (keypair pubkey serialized_pubkey msg_hash signature : list Z) : ending :=
  match context_create false mem 1 with
  | None => Killed
  | Some ctx =>
    match randomize with
    | None => Failure
    | Some rnd =>
      asserted (context_randomize ctx (Some rnd)) (fun ctx =>
      match seckey with
      | None => Failure
      | Some key =>
        required (keypair_create ctx (Some keypair) (Some key)) (fun kp =>
        asserted (keypair_xonly_pub (Some pubkey) None kp) (fun pk =>
        asserted (xonly_pubkey_serialize (Some serialized_pubkey) (fst pk)) (fun ser =>
        asserted (api_tagged_sha256 (Some msg_hash) (Some schnorr_tag) (Some schnorr_msg)) (fun h =>
        match auxiliary_rand with
        | None => Failure
        | Some aux =>
          asserted (schnorrsig_sign32 ctx (Some signature) h kp (Some aux)) (fun sig =>
          required (xonly_pubkey_parse (fst pk) ser) (fun pk2 =>
          asserted (api_tagged_sha256 h (Some schnorr_tag) (Some schnorr_msg)) (fun h2 =>
          let v := schnorrsig_verify sig h2 32 pk2 in
          let v2 := schnorrsig_verify sig h2 32 pk2 in
          if negb (r_ill v =? 0) || negb (r_ill v2 =? 0) then Killed else
          if r_ret v2 =? r_ret v then Success [[r_ret v]; key; got ser; got sig] else Killed)))
        end))))
      end)
    end
  end.
