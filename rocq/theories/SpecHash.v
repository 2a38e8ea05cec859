(** Specification of SHA-256 (FIPS 180-4), HMAC-SHA-256 (RFC 2104), the
    deterministic generator of RFC 6979 section 3.2, and BIP-340 tagged hashes.
    Messages are lists of bytes; words are integers in [0, 2^32). *)
Require Import ZArith List Bool.
From Verif Require Import Spec.
Import ListNotations.
Local Open Scope Z_scope.

(** FIPS 180-4, 4.1.2. *)
Definition ROTR (k x : Z) : Z := Z.lor (Z.shiftr x k) ((Z.shiftl x (32 - k)) mod 2 ^ 32).
Definition sCh (x y z : Z) : Z := Z.lxor (Z.land x y) (Z.land (2 ^ 32 - 1 - x) z).
Definition sMaj (x y z : Z) : Z := Z.lxor (Z.lxor (Z.land x y) (Z.land x z)) (Z.land y z).
Definition bSigma0 (x : Z) : Z := Z.lxor (Z.lxor (ROTR 2 x) (ROTR 13 x)) (ROTR 22 x).
Definition bSigma1 (x : Z) : Z := Z.lxor (Z.lxor (ROTR 6 x) (ROTR 11 x)) (ROTR 25 x).
Definition lsigma0 (x : Z) : Z := Z.lxor (Z.lxor (ROTR 7 x) (ROTR 18 x)) (Z.shiftr x 3).
Definition lsigma1 (x : Z) : Z := Z.lxor (Z.lxor (ROTR 17 x) (ROTR 19 x)) (Z.shiftr x 10).

(** 4.2.2: the first 32 bits of the fractional parts of the cube roots of the first
    64 primes (checked against that description by [sha_K_check] below). *)
Definition sha_K : list Z :=
  [0x428a2f98; 0x71374491; 0xb5c0fbcf; 0xe9b5dba5; 0x3956c25b; 0x59f111f1; 0x923f82a4; 0xab1c5ed5;
   0xd807aa98; 0x12835b01; 0x243185be; 0x550c7dc3; 0x72be5d74; 0x80deb1fe; 0x9bdc06a7; 0xc19bf174;
   0xe49b69c1; 0xefbe4786; 0x0fc19dc6; 0x240ca1cc; 0x2de92c6f; 0x4a7484aa; 0x5cb0a9dc; 0x76f988da;
   0x983e5152; 0xa831c66d; 0xb00327c8; 0xbf597fc7; 0xc6e00bf3; 0xd5a79147; 0x06ca6351; 0x14292967;
   0x27b70a85; 0x2e1b2138; 0x4d2c6dfc; 0x53380d13; 0x650a7354; 0x766a0abb; 0x81c2c92e; 0x92722c85;
   0xa2bfe8a1; 0xa81a664b; 0xc24b8b70; 0xc76c51a3; 0xd192e819; 0xd6990624; 0xf40e3585; 0x106aa070;
   0x19a4c116; 0x1e376c08; 0x2748774c; 0x34b0bcb5; 0x391c0cb3; 0x4ed8aa4a; 0x5b9cca4f; 0x682e6ff3;
   0x748f82ee; 0x78a5636f; 0x84c87814; 0x8cc70208; 0x90befffa; 0xa4506ceb; 0xbef9a3f7; 0xc67178f2].
(** 5.3.3: the same for the square roots of the first 8 primes. *)
Definition sha_IV : list Z :=
  [0x6a09e667; 0xbb67ae85; 0x3c6ef372; 0xa54ff53a; 0x510e527f; 0x9b05688c; 0x1f83d9ab; 0x5be0cd19].
Definition primes64 : list Z :=
  [2; 3; 5; 7; 11; 13; 17; 19;
   23; 29; 31; 37; 41; 43; 47; 53;
   59; 61; 67; 71; 73; 79; 83; 89;
   97; 101; 103; 107; 109; 113; 127; 131;
   137; 139; 149; 151; 157; 163; 167; 173;
   179; 181; 191; 193; 197; 199; 211; 223;
   227; 229; 233; 239; 241; 251; 257; 263;
   269; 271; 277; 281; 283; 293; 307; 311].
Definition frac_root (e : Z) (q k : Z) : bool :=
  existsb (fun i => ((i * 2 ^ 32 + k) ^ e <=? q * 2 ^ (32 * e)) && (q * 2 ^ (32 * e) <? (i * 2 ^ 32 + k + 1) ^ e))
          [1; 2; 3; 4; 5; 6].
Example sha_K_check : forallb (fun qk => frac_root 3 (fst qk) (snd qk)) (combine primes64 sha_K) = true.
Proof. vm_cast_no_check (eq_refl true). Qed.
Example sha_IV_check : forallb (fun qk => frac_root 2 (fst qk) (snd qk)) (combine primes64 sha_IV) = true.
Proof. vm_cast_no_check (eq_refl true). Qed.

(** 6.2.2: one round on the eight working variables. *)
Inductive sha_state : Type := S8 (a b c d e f g h : Z).
Definition sha_round (s : sha_state) (kw : Z * Z) : sha_state :=
  let (k, w) := kw in
  match s with
  | S8 a b c d e f g h =>
    let t1 := (h + bSigma1 e + sCh e f g + k + w) mod 2 ^ 32 in
    let t2 := (bSigma0 a + sMaj a b c) mod 2 ^ 32 in
    S8 ((t1 + t2) mod 2 ^ 32) a b c ((d + t1) mod 2 ^ 32) e f g
  end.

(** The message schedule; the argument is the part already known, latest word first. *)
Definition next_W (w : list Z) : Z :=
  (lsigma1 (nth 1 w 0) + nth 6 w 0 + lsigma0 (nth 14 w 0) + nth 15 w 0) mod 2 ^ 32.
Fixpoint extend_W (k : nat) (w : list Z) : list Z :=
  match k with O => w | S k' => extend_W k' (next_W w :: w) end.
(** Big-endian words of a byte string. *)
Fixpoint be_words (k : nat) (l : list Z) : list Z :=
  match k with O => [] | S k' => be_val (firstn 4 l) :: be_words k' (skipn 4 l) end.
Definition schedule (block : list Z) : list Z := rev (extend_W 48 (rev (be_words 16 block))).

Definition add_state (s t : sha_state) : sha_state :=
  match s, t with
  | S8 a b c d e f g h, S8 a' b' c' d' e' f' g' h' =>
    S8 ((a + a') mod 2 ^ 32) ((b + b') mod 2 ^ 32) ((c + c') mod 2 ^ 32) ((d + d') mod 2 ^ 32)
       ((e + e') mod 2 ^ 32) ((f + f') mod 2 ^ 32) ((g + g') mod 2 ^ 32) ((h + h') mod 2 ^ 32)
  end.
Definition compress (s : sha_state) (block : list Z) : sha_state :=
  add_state s (fold_left sha_round (combine sha_K (schedule block)) s).

(** 5.1.1, 5.2.1: padding and parsing into 64-byte blocks. *)
Definition sha_pad (m : list Z) : list Z :=
  let len := Z.of_nat (length m) in
  m ++ [0x80] ++ repeat 0 (Z.to_nat ((55 - len) mod 64)) ++ be_bytes 8 (8 * len).
Fixpoint take_blocks (k : nat) (l : list Z) : list (list Z) :=
  match k with O => [] | S k' => firstn 64 l :: take_blocks k' (skipn 64 l) end.
Definition blocks (l : list Z) : list (list Z) := take_blocks (length l / 64) l.
Definition IV : sha_state :=
  S8 0x6a09e667 0xbb67ae85 0x3c6ef372 0xa54ff53a 0x510e527f 0x9b05688c 0x1f83d9ab 0x5be0cd19.
Definition state_bytes (s : sha_state) : list Z :=
  match s with
  | S8 a b c d e f g h => be_bytes 4 a ++ be_bytes 4 b ++ be_bytes 4 c ++ be_bytes 4 d
                       ++ be_bytes 4 e ++ be_bytes 4 f ++ be_bytes 4 g ++ be_bytes 4 h
  end.
Definition SHA256 (m : list Z) : list Z := state_bytes (fold_left compress (blocks (sha_pad m)) IV).

(** RFC 2104. *)
Definition hmac_key (key : list Z) : list Z :=
  let k0 := if (64 <? Z.of_nat (length key)) then SHA256 key else key in k0 ++ repeat 0 (64 - length k0).
Definition HMAC (key m : list Z) : list Z :=
  SHA256 (map (Z.lxor 0x5c) (hmac_key key) ++ SHA256 (map (Z.lxor 0x36) (hmac_key key) ++ m)).

(** RFC 6979 section 3.2 b-h with SHA-256: the internal (K, V) after seeding, and
    the output of successive requests. *)
Definition drbg_update (K V d : list Z) (tag : Z) : list Z * list Z :=
  let K' := HMAC K (V ++ [tag] ++ d) in (K', HMAC K' V).
Definition drbg_init (seed : list Z) : list Z * list Z :=
  let (K, V) := drbg_update (repeat 0 32) (repeat 1 32) seed 0 in drbg_update K V seed 1.
(** One 32-byte request (3.2.h): V = HMAC_K(V). *)
Definition drbg_block (KV : list Z * list Z) : list Z * list Z := let (K, V) := KV in (K, HMAC K V).
Definition drbg_retry (KV : list Z * list Z) : list Z * list Z := let (K, V) := KV in drbg_update K V [] 0.
(** The k-th candidate (k = 0, 1, ...) of 32 bytes. *)
Fixpoint drbg_state (k : nat) (seed : list Z) : list Z * list Z :=
  match k with
  | O => drbg_block (drbg_init seed)
  | S k' => drbg_block (drbg_retry (drbg_state k' seed))
  end.
Definition RFC6979 (k : nat) (seed : list Z) : list Z := snd (drbg_state k seed).

(** BIP-340 tagged hash. *)
Definition tagged_hash (tag m : list Z) : list Z := SHA256 (SHA256 tag ++ SHA256 tag ++ m).
