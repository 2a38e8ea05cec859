(** Model of src/hash_impl.h: SHA-256, HMAC, the RFC 6979 generator. *)
Require Import ZArith List Bool.
From Verif Require Import Word Spec.
Import ListNotations.
Local Open Scope Z_scope.

(** src/util.h:400-405 secp256k1_read_be32, at byte offset [i] of [buf]. *)
Definition read_be32 (buf : list Z) (i : nat) : Z :=
  Z.lor (Z.lor (Z.lor (w32 (Z.shiftl (byte_at buf i) 24)) (w32 (Z.shiftl (byte_at buf (i + 1)) 16)))
               (w32 (Z.shiftl (byte_at buf (i + 2)) 8))) (byte_at buf (i + 3)).
(** src/util.h:408-413 secp256k1_write_be32: the four bytes written. *)
Definition write_be32 (x : Z) : list Z := [w8 (Z.shiftr x 24); w8 (Z.shiftr x 16); w8 (Z.shiftr x 8); w8 x].

(** The function-like macros src/hash_impl.h:17-22. *)
Definition cCh (x y z : Z) : Z := Z.lxor z (Z.land x (Z.lxor y z)).
Definition cMaj (x y z : Z) : Z := Z.lor (Z.land x y) (Z.land z (Z.lor x y)).
Definition shl32 (x k : Z) : Z := w32 (Z.shiftl x k).
Definition cSigma0 (x : Z) : Z :=
  Z.lxor (Z.lxor (Z.lor (Z.shiftr x 2) (shl32 x 30)) (Z.lor (Z.shiftr x 13) (shl32 x 19))) (Z.lor (Z.shiftr x 22) (shl32 x 10)).
Definition cSigma1 (x : Z) : Z :=
  Z.lxor (Z.lxor (Z.lor (Z.shiftr x 6) (shl32 x 26)) (Z.lor (Z.shiftr x 11) (shl32 x 21))) (Z.lor (Z.shiftr x 25) (shl32 x 7)).
Definition csigma0 (x : Z) : Z :=
  Z.lxor (Z.lxor (Z.lor (Z.shiftr x 7) (shl32 x 25)) (Z.lor (Z.shiftr x 18) (shl32 x 14))) (Z.shiftr x 3).
Definition csigma1 (x : Z) : Z :=
  Z.lxor (Z.lxor (Z.lor (Z.shiftr x 17) (shl32 x 15)) (Z.lor (Z.shiftr x 19) (shl32 x 13))) (Z.shiftr x 10).

Fixpoint upd {A} (i : nat) (v : A) (l : list A) : list A :=
  match l, i with
  | [], _ => []
  | _ :: l', O => v :: l'
  | x :: l', S i' => x :: upd i' v l'
  end.

(** src/hash_impl.h:24-29 (the Round macro).  [regs] are the variables a..h.  The
    64 calls of the macro pass the variables rotated by one more place each time
    (first a,b,..,h then h,a,..,g and so on), so in call [t] the macro parameter
    number [r] is the variable number (r - t) mod 8. *)
Definition reg_idx (t r : nat) : nat := Nat.modulo (r + 64 - t) 8.
Definition reg (t r : nat) (regs : list Z) : Z := nth (reg_idx t r) regs 0.
Definition c_round (t : nat) (k w : Z) (regs : list Z) : list Z :=
  let a := reg t 0 regs in let b := reg t 1 regs in let c := reg t 2 regs in let d := reg t 3 regs in
  let e := reg t 4 regs in let f := reg t 5 regs in let g := reg t 6 regs in let h := reg t 7 regs in
  let t1 := w32 (w32 (w32 (w32 (h + cSigma1 e) + cCh e f g) + k) + w) in
  let t2 := w32 (cSigma0 a + cMaj a b c) in
  upd (reg_idx t 7) (w32 (t1 + t2)) (upd (reg_idx t 3) (w32 (d + t1)) regs).

(** The constants in the order of the calls, src/hash_impl.h:48-114. *)
Definition c_K : list Z :=
  [0x428a2f98; 0x71374491; 0xb5c0fbcf; 0xe9b5dba5; 0x3956c25b; 0x59f111f1; 0x923f82a4; 0xab1c5ed5;
   0xd807aa98; 0x12835b01; 0x243185be; 0x550c7dc3; 0x72be5d74; 0x80deb1fe; 0x9bdc06a7; 0xc19bf174;
   0xe49b69c1; 0xefbe4786; 0x0fc19dc6; 0x240ca1cc; 0x2de92c6f; 0x4a7484aa; 0x5cb0a9dc; 0x76f988da;
   0x983e5152; 0xa831c66d; 0xb00327c8; 0xbf597fc7; 0xc6e00bf3; 0xd5a79147; 0x06ca6351; 0x14292967;
   0x27b70a85; 0x2e1b2138; 0x4d2c6dfc; 0x53380d13; 0x650a7354; 0x766a0abb; 0x81c2c92e; 0x92722c85;
   0xa2bfe8a1; 0xa81a664b; 0xc24b8b70; 0xc76c51a3; 0xd192e819; 0xd6990624; 0xf40e3585; 0x106aa070;
   0x19a4c116; 0x1e376c08; 0x2748774c; 0x34b0bcb5; 0x391c0cb3; 0x4ed8aa4a; 0x5b9cca4f; 0x682e6ff3;
   0x748f82ee; 0x78a5636f; 0x84c87814; 0x8cc70208; 0x90befffa; 0xa4506ceb; 0xbef9a3f7; 0xc67178f2].

(** src/hash_impl.h:44-124 secp256k1_sha256_transform.  The 64 macro calls are rolled
    into two loops over the call number [t]: the first 16 read w_t from the buffer,
    the others first do w_(t mod 16) += sigma1(w_(t-2)) + w_(t-7) + sigma0(w_(t-15))
    (indices mod 16; calls 62 and 63 use the sum without storing it). *)
Fixpoint rounds_read (k t : nat) (buf : list Z) (regs : list Z) : list Z :=
  match k with
  | O => regs
  | S k' => rounds_read k' (S t) buf (c_round t (nth t c_K 0) (read_be32 buf (4 * t)) regs)
  end.
Definition w_update (t : nat) (w : list Z) : list Z :=
  let i := Nat.modulo t 16 in
  upd i (w32 (nth i w 0 + w32 (w32 (csigma1 (nth (Nat.modulo (t + 14) 16) w 0) + nth (Nat.modulo (t + 9) 16) w 0)
                               + csigma0 (nth (Nat.modulo (t + 1) 16) w 0)))) w.
Fixpoint rounds_sched (k t : nat) (w : list Z) (regs : list Z) : list Z :=
  match k with
  | O => regs
  | S k' => let w' := w_update t w in
            rounds_sched k' (S t) w' (c_round t (nth t c_K 0) (nth (Nat.modulo t 16) w' 0) regs)
  end.
Definition sha256_transform (s : list Z) (buf : list Z) : list Z :=
  let regs := rounds_read 16 0 buf s in
  let w := map (fun t => read_be32 buf (4 * t)) (seq 0 16) in
  let regs := rounds_sched 48 16 w regs in
  map (fun xy => w32 (fst xy + snd xy)) (combine s regs).

(** src/hash.h:13-17 (secp256k1_sha256). *)
Record sha256 : Type := mksha { sh_s : list Z; sh_buf : list Z; sh_bytes : Z }.
(** src/hash_impl.h:31-41 secp256k1_sha256_initialize.  The C code leaves buf as it
    was; no later call reads the part of buf not yet written, the model sets it to 0. *)
Definition sha256_initialize : sha256 :=
  mksha [0x6a09e667; 0xbb67ae85; 0x3c6ef372; 0xa54ff53a; 0x510e527f; 0x9b05688c; 0x1f83d9ab; 0x5be0cd19]
        (repeat 0 64) 0.

(** memcpy of [data] over [buf] at [off]. *)
Definition copy_at (off : nat) (data buf : list Z) : list Z :=
  firstn off buf ++ data ++ skipn (off + length data) buf.
(** src/hash_impl.h:126-143 secp256k1_sha256_write.  The loop consumes at least one
    byte per iteration, so [length data + 1] iterations suffice (lemma
    write_loop_done); [fuel] is that bound. *)
Fixpoint sha256_write_loop (fuel : nat) (s buf : list Z) (bufsize : nat) (data : list Z) : list Z * list Z * nat * list Z :=
  match fuel with
  | O => (s, buf, bufsize, data)
  | S fuel' =>
    if Nat.leb (64 - bufsize) (length data) then
      let chunk_len := (64 - bufsize)%nat in
      let buf := copy_at bufsize (firstn chunk_len data) buf in
      let data := skipn chunk_len data in
      let s := sha256_transform s buf in
      sha256_write_loop fuel' s buf 0 data
    else (s, buf, bufsize, data)
  end.
Definition sha256_write (hash : sha256) (data : list Z) : sha256 :=
  let bufsize := Z.to_nat (Z.land (sh_bytes hash) 0x3F) in
  let bytes := w64 (sh_bytes hash + Z.of_nat (length data)) in
  match sha256_write_loop (S (length data)) (sh_s hash) (sh_buf hash) bufsize data with
  | (s, buf, bufsize, data) =>
    mksha s (if Nat.eqb (length data) 0 then buf else copy_at bufsize data buf) bytes
  end.

(** src/hash_impl.h:145-159 secp256k1_sha256_finalize: the 32 bytes of output (the
    clearing of the state is not modelled). *)
Definition sha256_finalize (hash : sha256) : list Z :=
  let sizedesc := write_be32 (w32 (Z.shiftr (sh_bytes hash) 29)) ++ write_be32 (w32 (w64 (Z.shiftl (sh_bytes hash) 3))) in
  let pad := 0x80 :: repeat 0 63 in
  let padlen := Z.to_nat (1 + ((119 - (sh_bytes hash mod 64)) mod 64)) in
  let hash := sha256_write hash (firstn padlen pad) in
  let hash := sha256_write hash sizedesc in
  flat_map write_be32 (sh_s hash).

(** src/hash_impl.h:163-172 secp256k1_sha256_initialize_tagged. *)
Definition sha256_initialize_tagged (tag : list Z) : sha256 :=
  let buf := sha256_finalize (sha256_write sha256_initialize tag) in
  sha256_write (sha256_write sha256_initialize buf) buf.

(** src/hash.h:24-26 (secp256k1_hmac_sha256). *)
Record hmac_sha256 : Type := mkhmac { hm_inner : sha256; hm_outer : sha256 }.
(** src/hash_impl.h:178-204 secp256k1_hmac_sha256_initialize. *)
Definition hmac_initialize (key : list Z) : hmac_sha256 :=
  let rkey := if Nat.leb (length key) 64 then key ++ repeat 0 (64 - length key)
              else sha256_finalize (sha256_write sha256_initialize key) ++ repeat 0 32 in
  let rkey := map (fun b => Z.lxor b 0x5c) rkey in
  let outer := sha256_write sha256_initialize rkey in
  let rkey := map (fun b => Z.lxor b (Z.lxor 0x5c 0x36)) rkey in
  mkhmac (sha256_write sha256_initialize rkey) outer.
(** src/hash_impl.h:206-208 secp256k1_hmac_sha256_write. *)
Definition hmac_write (h : hmac_sha256) (data : list Z) : hmac_sha256 :=
  mkhmac (sha256_write (hm_inner h) data) (hm_outer h).
(** src/hash_impl.h:210-216 secp256k1_hmac_sha256_finalize. *)
Definition hmac_finalize (h : hmac_sha256) : list Z :=
  let temp := sha256_finalize (hm_inner h) in
  sha256_finalize (sha256_write (hm_outer h) temp).

(** src/hash.h:33-37 (secp256k1_rfc6979_hmac_sha256). *)
Record rfc6979 : Type := mkrng { rng_v : list Z; rng_k : list Z; rng_retry : bool }.
(** src/hash_impl.h:222-250 secp256k1_rfc6979_hmac_sha256_initialize. *)
Definition rfc6979_initialize (key : list Z) : rfc6979 :=
  let v := repeat 1 32 in
  let k := repeat 0 32 in
  let k := hmac_finalize (hmac_write (hmac_write (hmac_write (hmac_initialize k) v) [0]) key) in
  let v := hmac_finalize (hmac_write (hmac_initialize k) v) in
  let k := hmac_finalize (hmac_write (hmac_write (hmac_write (hmac_initialize k) v) [1]) key) in
  let v := hmac_finalize (hmac_write (hmac_initialize k) v) in
  mkrng v k false.
(** src/hash_impl.h:252-281 secp256k1_rfc6979_hmac_sha256_generate.  Each loop
    iteration outputs up to 32 bytes; [fuel] bounds the iterations. *)
Fixpoint rfc6979_loop (fuel : nat) (v k : list Z) (outlen : nat) (out : list Z) : list Z * list Z :=
  match fuel with
  | O => (v, out)
  | S fuel' =>
    if Nat.eqb outlen 0 then (v, out)
    else
      let v := hmac_finalize (hmac_write (hmac_initialize k) v) in
      let now := Nat.min outlen 32 in
      rfc6979_loop fuel' v k (outlen - now) (out ++ firstn now v)
  end.
Definition rfc6979_generate (rng : rfc6979) (outlen : nat) : rfc6979 * list Z :=
  let v := rng_v rng in
  let k := rng_k rng in
  let k1 := if rng_retry rng then hmac_finalize (hmac_write (hmac_write (hmac_initialize k) v) [0]) else k in
  let v1 := if rng_retry rng then hmac_finalize (hmac_write (hmac_initialize k1) v) else v in
  let (v2, out) := rfc6979_loop (S outlen) v1 k1 outlen [] in
  (mkrng v2 k1 true, out).
