(** 32-bit field: byte and storage conversions. *)
Require Import ZArith List Bool Lia.
From Verif Require Import Word Word32 Bytes Spec FieldModel FieldBytes Field32Model Field32Mul Field32Proof Field32Ops.
Import ListNotations.
Local Open Scope Z_scope.

(** Splitting a word at a bit position. *)
Lemma cut x k K : 0 <= x < 2 ^ (k + K) -> 0 <= k -> 0 <= K ->
  exists l h, x = l + h * 2 ^ k /\ 0 <= l < 2 ^ k /\ 0 <= h < 2 ^ K /\ Z.land x (2 ^ k - 1) = l /\ Z.shiftr x k = h.
Proof.
  intros H Hk HK. destruct (split_word x k Hk ltac:(lia)) as (q & r & E & Hr & Hq & E1 & E2).
  exists r, q. rewrite Z.pow_add_r in H by assumption. assert (0 < 2 ^ k) by (apply Z.pow_pos_nonneg; lia).
  repeat split; try lia; try assumption. nia.
Qed.
(** The bit field of width w at position j of x. *)
Lemma field_at x l h k w m : x = l + h * 2 ^ k -> 0 <= l < 2 ^ k -> 0 <= h -> 0 <= k -> 0 <= w -> m = 2 ^ w - 1 ->
  Z.land (Z.shiftr x k) m = h mod 2 ^ w.
Proof.
  intros E Hl Hh Hk Hw ->. rewrite land_ones_mod by assumption. rewrite shiftr_div by assumption.
  f_equal. symmetry. apply Z.div_unique with l; [lia|]. rewrite E. ring.
Qed.

Lemma parts0 x : 0 <= x <= 67108863 -> exists u0 u1 u2 u3,
  x = u0 + u1 * 2 ^ 8 + u2 * 2 ^ 16 + u3 * 2 ^ 24 /\
  0 <= u0 <= 255 /\ 0 <= u1 <= 255 /\ 0 <= u2 <= 255 /\ 0 <= u3 <= 3 /\
  Z.land x 255 = u0 /\ Z.land (Z.shiftr x 8) 255 = u1 /\ Z.land (Z.shiftr x 16) 255 = u2 /\ Z.land (Z.shiftr x 24) 3 = u3.
Proof.
  intros H.
  destruct (cut x 8 18 ltac:(change (2 ^ (8 + 18)) with 67108864; lia) ltac:(lia) ltac:(lia)) as (u0 & y1 & E0 & B0 & C0 & D0 & _).
  destruct (cut y1 8 10 ltac:(change (2 ^ (8 + 10)) with (2 ^ 18); lia) ltac:(lia) ltac:(lia)) as (u1 & y2 & E1 & B1 & C1 & _ & _).
  destruct (cut y2 8 2 ltac:(change (2 ^ (8 + 2)) with (2 ^ 10); lia) ltac:(lia) ltac:(lia)) as (u2 & u3 & E2 & B2 & C2 & _ & _).
  exists u0, u1, u2, u3.
  change (2 ^ 8) with 256 in *. change (2 ^ 8) with 256 in *. change (2 ^ 8) with 256 in *. change (2 ^ 2) with 4 in *.
  change (2 ^ 16) with 65536 in *. change (2 ^ 24) with 16777216 in *.
  split; [lia|]. split; [lia|]. split; [lia|]. split; [lia|]. split; [lia|].
  split; [exact D0|].
  split; [rewrite (field_at x u0 y1 8 8); [|change (2 ^ 8) with 256; lia|change (2 ^ 8) with 256; lia|lia|lia|lia|reflexivity]; symmetry; apply Z.mod_unique with y2; [left; change (2 ^ 8) with 256; lia|change (2 ^ 8) with 256; lia]|].
  split; [rewrite (field_at x (u0 + u1 * 256) y2 16 8); [|change (2 ^ 16) with 65536; lia|change (2 ^ 16) with 65536; lia|lia|lia|lia|reflexivity]; symmetry; apply Z.mod_unique with u3; [left; change (2 ^ 8) with 256; lia|change (2 ^ 8) with 256; lia]|].
  rewrite (field_at x (u0 + u1 * 256 + u2 * 65536) u3 24 2); [|change (2 ^ 24) with 16777216; lia|change (2 ^ 24) with 16777216; lia|lia|lia|lia|reflexivity].
  apply Z.mod_small. change (2 ^ 2) with 4. lia.
Qed.
Lemma parts1 x : 0 <= x <= 67108863 -> exists u0 u1 u2 u3,
  x = u0 + u1 * 2 ^ 6 + u2 * 2 ^ 14 + u3 * 2 ^ 22 /\
  0 <= u0 <= 63 /\ 0 <= u1 <= 255 /\ 0 <= u2 <= 255 /\ 0 <= u3 <= 15 /\
  Z.land x 63 = u0 /\ Z.land (Z.shiftr x 6) 255 = u1 /\ Z.land (Z.shiftr x 14) 255 = u2 /\ Z.land (Z.shiftr x 22) 15 = u3.
Proof.
  intros H.
  destruct (cut x 6 20 ltac:(change (2 ^ (6 + 20)) with 67108864; lia) ltac:(lia) ltac:(lia)) as (u0 & y1 & E0 & B0 & C0 & D0 & _).
  destruct (cut y1 8 12 ltac:(change (2 ^ (8 + 12)) with (2 ^ 20); lia) ltac:(lia) ltac:(lia)) as (u1 & y2 & E1 & B1 & C1 & _ & _).
  destruct (cut y2 8 4 ltac:(change (2 ^ (8 + 4)) with (2 ^ 12); lia) ltac:(lia) ltac:(lia)) as (u2 & u3 & E2 & B2 & C2 & _ & _).
  exists u0, u1, u2, u3.
  change (2 ^ 6) with 64 in *. change (2 ^ 8) with 256 in *. change (2 ^ 8) with 256 in *. change (2 ^ 4) with 16 in *.
  change (2 ^ 14) with 16384 in *. change (2 ^ 22) with 4194304 in *.
  split; [lia|]. split; [lia|]. split; [lia|]. split; [lia|]. split; [lia|].
  split; [exact D0|].
  split; [rewrite (field_at x u0 y1 6 8); [|change (2 ^ 6) with 64; lia|change (2 ^ 6) with 64; lia|lia|lia|lia|reflexivity]; symmetry; apply Z.mod_unique with y2; [left; change (2 ^ 8) with 256; lia|change (2 ^ 8) with 256; lia]|].
  split; [rewrite (field_at x (u0 + u1 * 64) y2 14 8); [|change (2 ^ 14) with 16384; lia|change (2 ^ 14) with 16384; lia|lia|lia|lia|reflexivity]; symmetry; apply Z.mod_unique with u3; [left; change (2 ^ 8) with 256; lia|change (2 ^ 8) with 256; lia]|].
  rewrite (field_at x (u0 + u1 * 64 + u2 * 16384) u3 22 4); [|change (2 ^ 22) with 4194304; lia|change (2 ^ 22) with 4194304; lia|lia|lia|lia|reflexivity].
  apply Z.mod_small. change (2 ^ 4) with 16. lia.
Qed.
Lemma parts2 x : 0 <= x <= 67108863 -> exists u0 u1 u2 u3,
  x = u0 + u1 * 2 ^ 4 + u2 * 2 ^ 12 + u3 * 2 ^ 20 /\
  0 <= u0 <= 15 /\ 0 <= u1 <= 255 /\ 0 <= u2 <= 255 /\ 0 <= u3 <= 63 /\
  Z.land x 15 = u0 /\ Z.land (Z.shiftr x 4) 255 = u1 /\ Z.land (Z.shiftr x 12) 255 = u2 /\ Z.land (Z.shiftr x 20) 63 = u3.
Proof.
  intros H.
  destruct (cut x 4 22 ltac:(change (2 ^ (4 + 22)) with 67108864; lia) ltac:(lia) ltac:(lia)) as (u0 & y1 & E0 & B0 & C0 & D0 & _).
  destruct (cut y1 8 14 ltac:(change (2 ^ (8 + 14)) with (2 ^ 22); lia) ltac:(lia) ltac:(lia)) as (u1 & y2 & E1 & B1 & C1 & _ & _).
  destruct (cut y2 8 6 ltac:(change (2 ^ (8 + 6)) with (2 ^ 14); lia) ltac:(lia) ltac:(lia)) as (u2 & u3 & E2 & B2 & C2 & _ & _).
  exists u0, u1, u2, u3.
  change (2 ^ 4) with 16 in *. change (2 ^ 8) with 256 in *. change (2 ^ 8) with 256 in *. change (2 ^ 6) with 64 in *.
  change (2 ^ 12) with 4096 in *. change (2 ^ 20) with 1048576 in *.
  split; [lia|]. split; [lia|]. split; [lia|]. split; [lia|]. split; [lia|].
  split; [exact D0|].
  split; [rewrite (field_at x u0 y1 4 8); [|change (2 ^ 4) with 16; lia|change (2 ^ 4) with 16; lia|lia|lia|lia|reflexivity]; symmetry; apply Z.mod_unique with y2; [left; change (2 ^ 8) with 256; lia|change (2 ^ 8) with 256; lia]|].
  split; [rewrite (field_at x (u0 + u1 * 16) y2 12 8); [|change (2 ^ 12) with 4096; lia|change (2 ^ 12) with 4096; lia|lia|lia|lia|reflexivity]; symmetry; apply Z.mod_unique with u3; [left; change (2 ^ 8) with 256; lia|change (2 ^ 8) with 256; lia]|].
  rewrite (field_at x (u0 + u1 * 16 + u2 * 4096) u3 20 6); [|change (2 ^ 20) with 1048576; lia|change (2 ^ 20) with 1048576; lia|lia|lia|lia|reflexivity].
  apply Z.mod_small. change (2 ^ 6) with 64. lia.
Qed.
Lemma parts3 x : 0 <= x <= 67108863 -> exists u0 u1 u2 u3,
  x = u0 + u1 * 2 ^ 2 + u2 * 2 ^ 10 + u3 * 2 ^ 18 /\
  0 <= u0 <= 3 /\ 0 <= u1 <= 255 /\ 0 <= u2 <= 255 /\ 0 <= u3 <= 255 /\
  Z.land x 3 = u0 /\ Z.land (Z.shiftr x 2) 255 = u1 /\ Z.land (Z.shiftr x 10) 255 = u2 /\ Z.land (Z.shiftr x 18) 255 = u3.
Proof.
  intros H.
  destruct (cut x 2 24 ltac:(change (2 ^ (2 + 24)) with 67108864; lia) ltac:(lia) ltac:(lia)) as (u0 & y1 & E0 & B0 & C0 & D0 & _).
  destruct (cut y1 8 16 ltac:(change (2 ^ (8 + 16)) with (2 ^ 24); lia) ltac:(lia) ltac:(lia)) as (u1 & y2 & E1 & B1 & C1 & _ & _).
  destruct (cut y2 8 8 ltac:(change (2 ^ (8 + 8)) with (2 ^ 16); lia) ltac:(lia) ltac:(lia)) as (u2 & u3 & E2 & B2 & C2 & _ & _).
  exists u0, u1, u2, u3.
  change (2 ^ 2) with 4 in *. change (2 ^ 8) with 256 in *. change (2 ^ 8) with 256 in *. change (2 ^ 8) with 256 in *.
  change (2 ^ 10) with 1024 in *. change (2 ^ 18) with 262144 in *.
  split; [lia|]. split; [lia|]. split; [lia|]. split; [lia|]. split; [lia|].
  split; [exact D0|].
  split; [rewrite (field_at x u0 y1 2 8); [|change (2 ^ 2) with 4; lia|change (2 ^ 2) with 4; lia|lia|lia|lia|reflexivity]; symmetry; apply Z.mod_unique with y2; [left; change (2 ^ 8) with 256; lia|change (2 ^ 8) with 256; lia]|].
  split; [rewrite (field_at x (u0 + u1 * 4) y2 10 8); [|change (2 ^ 10) with 1024; lia|change (2 ^ 10) with 1024; lia|lia|lia|lia|reflexivity]; symmetry; apply Z.mod_unique with u3; [left; change (2 ^ 8) with 256; lia|change (2 ^ 8) with 256; lia]|].
  rewrite (field_at x (u0 + u1 * 4 + u2 * 1024) u3 18 8); [|change (2 ^ 18) with 262144; lia|change (2 ^ 18) with 262144; lia|lia|lia|lia|reflexivity].
  apply Z.mod_small. change (2 ^ 8) with 256. lia.
Qed.
Lemma join_bits lo hi k L H : 0 <= lo <= L -> 0 <= hi <= H -> (0 <=? k) && (L <? 2 ^ k) && (H * 2 ^ k + L <? 256) = true ->
  Z.lor (w32 (Z.shiftl hi k)) lo = lo + hi * 2 ^ k /\ isb (lo + hi * 2 ^ k).
Proof.
  intros Hl Hh E. apply andb_prop in E as [E E3]. apply andb_prop in E as [E1 E2]. apply Z.leb_le in E1. apply Z.ltb_lt in E2, E3.
  assert (0 < 2 ^ k) by (apply Z.pow_pos_nonneg; lia).
  rewrite Z.shiftl_mul_pow2 by lia. rewrite w32_id by nia. rewrite Z.lor_comm. split; [apply lor_disjoint; lia|unfold isb; nia].
Qed.

Lemma f26_get_b32_ok a : f26_norm a -> f26_get_b32 a = be_bytes 32 (f26val a).
Proof.
  intros (H0 & H1 & H2 & H3 & H4 & H5 & H6 & H7 & H8 & H9 & _). unfold f26_get_b32. f26const.
  assert (H9' : 0 <= m9 a <= 67108863) by (clear -H9; lia).
  destruct (parts0 (m0 a) H0) as (u00 & u01 & u02 & u03 & E0 & B00 & B01 & B02 & B03 & -> & -> & -> & ->).
  destruct (parts1 (m1 a) H1) as (u10 & u11 & u12 & u13 & E1 & B10 & B11 & B12 & B13 & -> & -> & -> & ->).
  destruct (parts2 (m2 a) H2) as (u20 & u21 & u22 & u23 & E2 & B20 & B21 & B22 & B23 & -> & -> & -> & ->).
  destruct (parts3 (m3 a) H3) as (u30 & u31 & u32 & u33 & E3 & B30 & B31 & B32 & B33 & -> & -> & -> & ->).
  destruct (parts0 (m4 a) H4) as (u40 & u41 & u42 & u43 & E4 & B40 & B41 & B42 & B43 & -> & -> & -> & ->).
  destruct (parts1 (m5 a) H5) as (u50 & u51 & u52 & u53 & E5 & B50 & B51 & B52 & B53 & -> & -> & -> & ->).
  destruct (parts2 (m6 a) H6) as (u60 & u61 & u62 & u63 & E6 & B60 & B61 & B62 & B63 & -> & -> & -> & ->).
  destruct (parts3 (m7 a) H7) as (u70 & u71 & u72 & u73 & E7 & B70 & B71 & B72 & B73 & -> & -> & -> & ->).
  destruct (parts0 (m8 a) H8) as (u80 & u81 & u82 & u83 & E8 & B80 & B81 & B82 & B83 & -> & -> & -> & ->).
  destruct (parts1 (m9 a) H9') as (u90 & u91 & u92 & u93 & E9 & B90 & B91 & B92 & B93 & -> & -> & -> & _).
  assert (Z93 : u93 = 0) by (clear -E9 H9 B90 B91 B92 B93; change (2 ^ 6) with 64 in *; change (2 ^ 14) with 16384 in *; change (2 ^ 22) with 4194304 in *; lia).
  destruct (join_bits u03 u10 2 _ _ B03 B10 eq_refl) as [-> J1].
  destruct (join_bits u13 u20 4 _ _ B13 B20 eq_refl) as [-> J2].
  destruct (join_bits u23 u30 6 _ _ B23 B30 eq_refl) as [-> J3].
  destruct (join_bits u43 u50 2 _ _ B43 B50 eq_refl) as [-> J5].
  destruct (join_bits u53 u60 4 _ _ B53 B60 eq_refl) as [-> J6].
  destruct (join_bits u63 u70 6 _ _ B63 B70 eq_refl) as [-> J7].
  destruct (join_bits u83 u90 2 _ _ B83 B90 eq_refl) as [-> J9].
  apply be_bytes_unique; [reflexivity| |].
  - repeat (apply Forall_cons; [first [assumption|unfold isb; lia]|]). apply Forall_nil.
  - unfold f26val, val26. rewrite E0, E1, E2, E3, E4, E5, E6, E7, E8, E9, Z93. unfold be_val. cbn [be_val_acc]. ring.
Qed.

Lemma cutb b k m : isb b -> 0 <= k <= 8 -> m = 2 ^ k - 1 -> exists h l, b = l + h * 2 ^ k /\ 0 <= l <= 2 ^ k - 1 /\ 0 <= h <= 2 ^ (8 - k) - 1 /\
  Z.land b m = l /\ Z.land (Z.shiftr b k) (2 ^ (8 - k) - 1) = h.
Proof.
  intros H Hk ->. destruct (cut b k (8 - k)) as (l & h & E & B1 & B2 & E1 & E2); [replace (k + (8 - k)) with 8 by lia; exact H|lia|lia|].
  exists h, l. split; [exact E|]. split; [lia|]. split; [lia|]. split; [exact E1|]. rewrite E2, land_ones_mod by lia. now apply Z.mod_small.
Qed.
Ltac lim E := lazymatch type of E with ?x = ?e =>
  let q := ibt e in let T := fresh in let B := fresh "B" x in
  pose proof (ib_elim x e _ _ E q) as T; clear E; destruct T as [E B]; norm_ub B end.
Lemma f26_set_b32_mod_ok l : byte_list l -> length l = 32%nat ->
  let r := f26_set_b32_mod l in
  f26val r = be_val l /\ (0 <= m0 r <= M26 /\ 0 <= m1 r <= M26 /\ 0 <= m2 r <= M26 /\ 0 <= m3 r <= M26 /\ 0 <= m4 r <= M26 /\ 0 <= m5 r <= M26 /\ 0 <= m6 r <= M26 /\ 0 <= m7 r <= M26 /\ 0 <= m8 r <= M26 /\ 0 <= m9 r <= M22).
Proof.
  intros H L.
  next_byte l H L x0. next_byte l H L x1. next_byte l H L x2. next_byte l H L x3. next_byte l H L x4. next_byte l H L x5. next_byte l H L x6. next_byte l H L x7. next_byte l H L x8. next_byte l H L x9. next_byte l H L x10. next_byte l H L x11. next_byte l H L x12. next_byte l H L x13. next_byte l H L x14. next_byte l H L x15. next_byte l H L x16. next_byte l H L x17. next_byte l H L x18. next_byte l H L x19. next_byte l H L x20. next_byte l H L x21. next_byte l H L x22. next_byte l H L x23. next_byte l H L x24. next_byte l H L x25. next_byte l H L x26. next_byte l H L x27. next_byte l H L x28. next_byte l H L x29. next_byte l H L x30. next_byte l H L x31. destruct l; [|discriminate L]. clear H L.
  unfold f26_set_b32_mod, byte_at. cbn [nth]. cbv zeta. cbn [m0 m1 m2 m3 m4 m5 m6 m7 m8 m9]. unfold isb in *.
  destruct (cutb x28 2 3 Hx28 ltac:(lia) eq_refl) as (h28 & l28 & E28 & Bl28 & Bh28 & -> & X28). change (2 ^ (8 - 2) - 1) with 63 in *. change (2 ^ 2 - 1) with 3 in *. rewrite X28. clear X28.
  destruct (cutb x25 4 15 Hx25 ltac:(lia) eq_refl) as (h25 & l25 & E25 & Bl25 & Bh25 & -> & X25). change (2 ^ (8 - 4) - 1) with 15 in *. change (2 ^ 4 - 1) with 15 in *. rewrite X25. clear X25.
  destruct (cutb x22 6 63 Hx22 ltac:(lia) eq_refl) as (h22 & l22 & E22 & Bl22 & Bh22 & -> & X22). change (2 ^ (8 - 6) - 1) with 3 in *. change (2 ^ 6 - 1) with 63 in *. rewrite X22. clear X22.
  destruct (cutb x15 2 3 Hx15 ltac:(lia) eq_refl) as (h15 & l15 & E15 & Bl15 & Bh15 & -> & X15). change (2 ^ (8 - 2) - 1) with 63 in *. change (2 ^ 2 - 1) with 3 in *. rewrite X15. clear X15.
  destruct (cutb x12 4 15 Hx12 ltac:(lia) eq_refl) as (h12 & l12 & E12 & Bl12 & Bh12 & -> & X12). change (2 ^ (8 - 4) - 1) with 15 in *. change (2 ^ 4 - 1) with 15 in *. rewrite X12. clear X12.
  destruct (cutb x9 6 63 Hx9 ltac:(lia) eq_refl) as (h9 & l9 & E9 & Bl9 & Bh9 & -> & X9). change (2 ^ (8 - 6) - 1) with 3 in *. change (2 ^ 6 - 1) with 63 in *. rewrite X9. clear X9.
  destruct (cutb x2 2 3 Hx2 ltac:(lia) eq_refl) as (h2 & l2 & E2 & Bl2 & Bh2 & -> & X2). change (2 ^ (8 - 2) - 1) with 63 in *. change (2 ^ 2 - 1) with 3 in *. rewrite X2. clear X2.
  assert (Bx0 : 0 <= x0 <= 255) by (clear -Hx0; lia). clear Hx0.
  assert (Bx1 : 0 <= x1 <= 255) by (clear -Hx1; lia). clear Hx1.
  assert (Bx3 : 0 <= x3 <= 255) by (clear -Hx3; lia). clear Hx3.
  assert (Bx4 : 0 <= x4 <= 255) by (clear -Hx4; lia). clear Hx4.
  assert (Bx5 : 0 <= x5 <= 255) by (clear -Hx5; lia). clear Hx5.
  assert (Bx6 : 0 <= x6 <= 255) by (clear -Hx6; lia). clear Hx6.
  assert (Bx7 : 0 <= x7 <= 255) by (clear -Hx7; lia). clear Hx7.
  assert (Bx8 : 0 <= x8 <= 255) by (clear -Hx8; lia). clear Hx8.
  assert (Bx10 : 0 <= x10 <= 255) by (clear -Hx10; lia). clear Hx10.
  assert (Bx11 : 0 <= x11 <= 255) by (clear -Hx11; lia). clear Hx11.
  assert (Bx13 : 0 <= x13 <= 255) by (clear -Hx13; lia). clear Hx13.
  assert (Bx14 : 0 <= x14 <= 255) by (clear -Hx14; lia). clear Hx14.
  assert (Bx16 : 0 <= x16 <= 255) by (clear -Hx16; lia). clear Hx16.
  assert (Bx17 : 0 <= x17 <= 255) by (clear -Hx17; lia). clear Hx17.
  assert (Bx18 : 0 <= x18 <= 255) by (clear -Hx18; lia). clear Hx18.
  assert (Bx19 : 0 <= x19 <= 255) by (clear -Hx19; lia). clear Hx19.
  assert (Bx20 : 0 <= x20 <= 255) by (clear -Hx20; lia). clear Hx20.
  assert (Bx21 : 0 <= x21 <= 255) by (clear -Hx21; lia). clear Hx21.
  assert (Bx23 : 0 <= x23 <= 255) by (clear -Hx23; lia). clear Hx23.
  assert (Bx24 : 0 <= x24 <= 255) by (clear -Hx24; lia). clear Hx24.
  assert (Bx26 : 0 <= x26 <= 255) by (clear -Hx26; lia). clear Hx26.
  assert (Bx27 : 0 <= x27 <= 255) by (clear -Hx27; lia). clear Hx27.
  assert (Bx29 : 0 <= x29 <= 255) by (clear -Hx29; lia). clear Hx29.
  assert (Bx30 : 0 <= x30 <= 255) by (clear -Hx30; lia). clear Hx30.
  assert (Bx31 : 0 <= x31 <= 255) by (clear -Hx31; lia). clear Hx31.
  repeat match goal with |- context [f26val (mkf26 ?a0 ?a1 ?a2 ?a3 ?a4 ?a5 ?a6 ?a7 ?a8 ?a9)] =>
    nm y0 Y0 a0; rewrite <- !Y0; nm y1 Y1 a1; rewrite <- !Y1; nm y2 Y2 a2; rewrite <- !Y2; nm y3 Y3 a3; rewrite <- !Y3; nm y4 Y4 a4; rewrite <- !Y4; nm y5 Y5 a5; rewrite <- !Y5; nm y6 Y6 a6; rewrite <- !Y6; nm y7 Y7 a7; rewrite <- !Y7; nm y8 Y8 a8; rewrite <- !Y8; nm y9 Y9 a9; rewrite <- !Y9; idtac end.
  ib_step Y0. ib_step Y1. ib_step Y2. ib_step Y3. ib_step Y4. ib_step Y5. ib_step Y6. ib_step Y7. ib_step Y8. ib_step Y9.
  split; [|f26const; split; [exact By0|]; split; [exact By1|]; split; [exact By2|]; split; [exact By3|]; split; [exact By4|]; split; [exact By5|]; split; [exact By6|]; split; [exact By7|]; split; [exact By8|]; exact By9].
  unfold f26val, val26, be_val. cbn [m0 m1 m2 m3 m4 m5 m6 m7 m8 m9 be_val_acc]. rewrite Y0, Y1, Y2, Y3, Y4, Y5, Y6, Y7, Y8, Y9, E28, E25, E22, E15, E12, E9, E2. ring.
Qed.

Lemma f26_set_b32_limit_ok l : byte_list l -> length l = 32%nat ->
  fst (f26_set_b32_limit l) = (be_val l <? p) /\ snd (f26_set_b32_limit l) = f26_set_b32_mod l.
Proof.
  intros H L. unfold f26_set_b32_limit. destruct (f26_set_b32_mod_ok l H L) as [E (H0 & H1 & H2 & H3 & H4 & H5 & H6 & H7 & H8 & H9)].
  set (r := f26_set_b32_mod l) in *. clearbody r. rewrite <- E. cbn [fst snd]. split; [|reflexivity]. clear E H L l.
  destruct r as [t0 t1 t2 t3 t4 t5 t6 t7 t8 t9]. unfold f26val. cbn [m0 m1 m2 m3 m4 m5 m6 m7 m8 m9] in *. f26const.
  nm k7 K7 (Z.land t8 t7). destruct (land_ones26 t8 t7 H8 H7) as [L7 N7]. rewrite <- K7 in L7, N7 |- *. clear K7.
  nm k6 K6 (Z.land k7 t6). destruct (land_ones26 k7 t6 L7 H6) as [L6 N6]. rewrite <- K6 in L6, N6 |- *. clear K6. nm k5 K5 (Z.land k6 t5). destruct (land_ones26 k6 t5 L6 H5) as [L5 N5]. rewrite <- K5 in L5, N5 |- *. clear K5. nm k4 K4 (Z.land k5 t4). destruct (land_ones26 k5 t4 L5 H4) as [L4 N4]. rewrite <- K4 in L4, N4 |- *. clear K4. nm k3 K3 (Z.land k4 t3). destruct (land_ones26 k4 t3 L4 H3) as [L3 N3]. rewrite <- K3 in L3, N3 |- *. clear K3. nm k2 K2 (Z.land k3 t2). destruct (land_ones26 k3 t2 L3 H2) as [L2 N2]. rewrite <- K2 in L2, N2 |- *. clear K2.
  rewrite (w32_id (t0 + 0x3D1)) by (clear -H0; lia). rewrite (w32_id (t1 + 0x40)) by (clear -H1; lia).
  rewrite (shiftr_div (t0 + 0x3D1)) by lia. change (2 ^ 26) with 67108864.
  pose proof (Z.div_mod (t0 + 0x3D1) 67108864 ltac:(discriminate)) as D. rewrite (Z.mul_comm 67108864) in D.
  pose proof (Z.mod_pos_bound (t0 + 0x3D1) 67108864 eq_refl) as BM.
  assert (H9' : 0 <= t9 <= 4194367) by (clear -H9; lia).
  remember ((t0 + 0x3D1) / 67108864) as c eqn:Ec. clear Ec.
  rewrite w32_id by (clear -H0 H1 D BM; lia).
  pose proof (cmp26 t0 t1 t2 t3 t4 t5 t6 t7 t8 t9 c H0 H1 H2 H3 H4 H5 H6 H7 H8 H9' D) as HP.
  remember (val26 t0 t1 t2 t3 t4 t5 t6 t7 t8 t9) as V eqn:EV.
  apply eq_true_iff_eq. rewrite negb_true_iff, Z.ltb_lt. rewrite !andb_false_iff, !Z.eqb_neq, Z.gtb_ltb, Z.ltb_ge.
  assert (K : k2 = 67108863 <-> t2 = 67108863 /\ t3 = 67108863 /\ t4 = 67108863 /\ t5 = 67108863 /\ t6 = 67108863 /\ t7 = 67108863 /\ t8 = 67108863) by (clear -N2 N3 N4 N5 N6 N7; tauto).
  rewrite K. clear -HP H9. rewrite Z.lt_nge, HP. lia.
Qed.
Lemma f26_set_b32_norm l : byte_list l -> length l = 32%nat -> be_val l < p -> f26_norm (f26_set_b32_mod l).
Proof.
  intros H L V. destruct (f26_set_b32_mod_ok l H L) as [E B]. unfold f26_norm. rewrite E. tauto.
Qed.

(** ** Storage *)
Definition s26val (s : fes26) : Z := q0 s + q1 s * 2 ^ 32 + q2 s * 2 ^ 64 + q3 s * 2 ^ 96 + q4 s * 2 ^ 128 + q5 s * 2 ^ 160 + q6 s * 2 ^ 192 + q7 s * 2 ^ 224.
Definition s26_ok (s : fes26) : Prop := 0 <= q0 s < 2 ^ 32 /\ 0 <= q1 s < 2 ^ 32 /\ 0 <= q2 s < 2 ^ 32 /\ 0 <= q3 s < 2 ^ 32 /\ 0 <= q4 s < 2 ^ 32 /\ 0 <= q5 s < 2 ^ 32 /\ 0 <= q6 s < 2 ^ 32 /\ 0 <= q7 s < 2 ^ 32.
Lemma f26_to_storage_ok a : f26_norm a -> s26_ok (f26_to_storage a) /\ s26val (f26_to_storage a) = f26val a.
Proof.
  intros (H0 & H1 & H2 & H3 & H4 & H5 & H6 & H7 & H8 & H9 & _). f26const.
  destruct (f26_to_storage a) as [y0 y1 y2 y3 y4 y5 y6 y7] eqn:E. unfold f26_to_storage in E.
  pose proof (f_equal q0 E) as Y0. cbn [q0] in Y0. symmetry in Y0. ib_step Y0. pose proof (f_equal q1 E) as Y1. cbn [q1] in Y1. symmetry in Y1. ib_step Y1. pose proof (f_equal q2 E) as Y2. cbn [q2] in Y2. symmetry in Y2. ib_step Y2. pose proof (f_equal q3 E) as Y3. cbn [q3] in Y3. symmetry in Y3. ib_step Y3. pose proof (f_equal q4 E) as Y4. cbn [q4] in Y4. symmetry in Y4. ib_step Y4. pose proof (f_equal q5 E) as Y5. cbn [q5] in Y5. symmetry in Y5. ib_step Y5. pose proof (f_equal q6 E) as Y6. cbn [q6] in Y6. symmetry in Y6. ib_step Y6. pose proof (f_equal q7 E) as Y7. cbn [q7] in Y7. symmetry in Y7. ib_step Y7. clear E.
  unfold s26_ok, s26val, f26val, val26. cbn [q0 q1 q2 q3 q4 q5 q6 q7].
  split; [change (2 ^ 32) with 4294967296; clear -By0 By1 By2 By3 By4 By5 By6 By7; repeat split; lia|].
  rewrite Y0, Y1, Y2, Y3, Y4, Y5, Y6, Y7. clear Y0 By0 Y1 By1 Y2 By2 Y3 By3 Y4 By4 Y5 By5 Y6 By6 Y7 By7.

  pose proof (Z.div_mod (m1 a) (2 ^ 6) ltac:(discriminate)) as D1.
  pose proof (Z.div_mod (m2 a) (2 ^ 12) ltac:(discriminate)) as D2.
  pose proof (Z.div_mod (m3 a) (2 ^ 18) ltac:(discriminate)) as D3.
  pose proof (Z.div_mod (m4 a) (2 ^ 24) ltac:(discriminate)) as D4.
  pose proof (Z.div_mod (m6 a) (2 ^ 4) ltac:(discriminate)) as D6.
  pose proof (Z.div_mod (m7 a) (2 ^ 10) ltac:(discriminate)) as D7.
  pose proof (Z.div_mod (m8 a) (2 ^ 16) ltac:(discriminate)) as D8.
  change (32 - 26) with 6. change (32 - 20) with 12. change (32 - 14) with 18. change (32 - 8) with 24. change (32 - 28) with 4. change (32 - 22) with 10. change (32 - 16) with 16.
  set (v1 := m1 a / 2 ^ 6) in *; set (w1 := m1 a mod 2 ^ 6) in *; clearbody v1 w1; rewrite D1. set (v2 := m2 a / 2 ^ 12) in *; set (w2 := m2 a mod 2 ^ 12) in *; clearbody v2 w2; rewrite D2. set (v3 := m3 a / 2 ^ 18) in *; set (w3 := m3 a mod 2 ^ 18) in *; clearbody v3 w3; rewrite D3. set (v4 := m4 a / 2 ^ 24) in *; set (w4 := m4 a mod 2 ^ 24) in *; clearbody v4 w4; rewrite D4. set (v6 := m6 a / 2 ^ 4) in *; set (w6 := m6 a mod 2 ^ 4) in *; clearbody v6 w6; rewrite D6. set (v7 := m7 a / 2 ^ 10) in *; set (w7 := m7 a mod 2 ^ 10) in *; clearbody v7 w7; rewrite D7. set (v8 := m8 a / 2 ^ 16) in *; set (w8 := m8 a mod 2 ^ 16) in *; clearbody v8 w8; rewrite D8.
  ring.
Qed.
Lemma f26_from_storage_ok s : s26_ok s ->
  f26val (f26_from_storage s) = s26val s /\ f26_mag 1 (f26_from_storage s) /\ (s26val s < p -> f26_norm (f26_from_storage s)).
Proof.
  intros (H0 & H1 & H2 & H3 & H4 & H5 & H6 & H7).
  assert (Bq0 : 0 <= q0 s <= 4294967295) by (clear -H0; change (2 ^ 32) with 4294967296 in *; lia). clear H0. assert (Bq1 : 0 <= q1 s <= 4294967295) by (clear -H1; change (2 ^ 32) with 4294967296 in *; lia). clear H1. assert (Bq2 : 0 <= q2 s <= 4294967295) by (clear -H2; change (2 ^ 32) with 4294967296 in *; lia). clear H2. assert (Bq3 : 0 <= q3 s <= 4294967295) by (clear -H3; change (2 ^ 32) with 4294967296 in *; lia). clear H3. assert (Bq4 : 0 <= q4 s <= 4294967295) by (clear -H4; change (2 ^ 32) with 4294967296 in *; lia). clear H4. assert (Bq5 : 0 <= q5 s <= 4294967295) by (clear -H5; change (2 ^ 32) with 4294967296 in *; lia). clear H5. assert (Bq6 : 0 <= q6 s <= 4294967295) by (clear -H6; change (2 ^ 32) with 4294967296 in *; lia). clear H6. assert (Bq7 : 0 <= q7 s <= 4294967295) by (clear -H7; change (2 ^ 32) with 4294967296 in *; lia). clear H7.
  assert (X : f26val (f26_from_storage s) = s26val s /\ 0 <= m0 (f26_from_storage s) <= M26 /\ 0 <= m1 (f26_from_storage s) <= M26 /\ 0 <= m2 (f26_from_storage s) <= M26 /\ 0 <= m3 (f26_from_storage s) <= M26 /\ 0 <= m4 (f26_from_storage s) <= M26 /\ 0 <= m5 (f26_from_storage s) <= M26 /\ 0 <= m6 (f26_from_storage s) <= M26 /\ 0 <= m7 (f26_from_storage s) <= M26 /\ 0 <= m8 (f26_from_storage s) <= M26 /\ 0 <= m9 (f26_from_storage s) <= M22).
  { destruct (f26_from_storage s) as [y0 y1 y2 y3 y4 y5 y6 y7 y8 y9] eqn:E. unfold f26_from_storage in E.
    pose proof (f_equal m0 E) as Y0. cbn [m0] in Y0. symmetry in Y0. ib_step Y0. pose proof (f_equal m1 E) as Y1. cbn [m1] in Y1. symmetry in Y1. ib_step Y1. pose proof (f_equal m2 E) as Y2. cbn [m2] in Y2. symmetry in Y2. ib_step Y2. pose proof (f_equal m3 E) as Y3. cbn [m3] in Y3. symmetry in Y3. ib_step Y3. pose proof (f_equal m4 E) as Y4. cbn [m4] in Y4. symmetry in Y4. ib_step Y4. pose proof (f_equal m5 E) as Y5. cbn [m5] in Y5. symmetry in Y5. ib_step Y5. pose proof (f_equal m6 E) as Y6. cbn [m6] in Y6. symmetry in Y6. ib_step Y6. pose proof (f_equal m7 E) as Y7. cbn [m7] in Y7. symmetry in Y7. ib_step Y7. pose proof (f_equal m8 E) as Y8. cbn [m8] in Y8. symmetry in Y8. ib_step Y8. pose proof (f_equal m9 E) as Y9. cbn [m9] in Y9. symmetry in Y9. ib_step Y9. clear E.
    unfold f26val, val26. cbn [m0 m1 m2 m3 m4 m5 m6 m7 m8 m9]. split; [|f26const; split; [exact By0|]; split; [exact By1|]; split; [exact By2|]; split; [exact By3|]; split; [exact By4|]; split; [exact By5|]; split; [exact By6|]; split; [exact By7|]; split; [exact By8|]; exact By9].
    rewrite Y0, Y1, Y2, Y3, Y4, Y5, Y6, Y7, Y8, Y9. clear Y0 By0 Y1 By1 Y2 By2 Y3 By3 Y4 By4 Y5 By5 Y6 By6 Y7 By7 Y8 By8 Y9 By9. unfold s26val.
    pose proof (Z.div_mod (q0 s) (2 ^ 26) ltac:(discriminate)) as D0.
    pose proof (Z.div_mod (q1 s) (2 ^ 20) ltac:(discriminate)) as D1.
    pose proof (Z.div_mod (q2 s) (2 ^ 14) ltac:(discriminate)) as D2.
    pose proof (Z.div_mod (q3 s) (2 ^ 8) ltac:(discriminate)) as D3.
    pose proof (Z.div_mod (q4 s) (2 ^ 2) ltac:(discriminate)) as D4.
    pose proof (Z.div_mod (q5 s) (2 ^ 22) ltac:(discriminate)) as D5.
    pose proof (Z.div_mod (q6 s) (2 ^ 16) ltac:(discriminate)) as D6.
    pose proof (Z.div_mod (q7 s) (2 ^ 10) ltac:(discriminate)) as D7.
    pose proof (Z.div_mod (q4 s / 2 ^ 2) (2 ^ 26) ltac:(discriminate)) as D4'. rewrite Z.div_div in D4' by lia.
    change (2 ^ 2 * 2 ^ 26) with (2 ^ 28) in D4'. rewrite D4' in D4 at 1.

    change (26 - 6) with 20. change (26 - 12) with 14. change (26 - 18) with 8. change (26 - 24) with 2. change (26 - 4) with 22. change (26 - 10) with 16. change (26 - 16) with 10.
    set (v0 := q0 s / 2 ^ 26) in *; set (w0 := q0 s mod 2 ^ 26) in *; clearbody v0 w0. set (v1 := q1 s / 2 ^ 20) in *; set (w1 := q1 s mod 2 ^ 20) in *; clearbody v1 w1. set (v2 := q2 s / 2 ^ 14) in *; set (w2 := q2 s mod 2 ^ 14) in *; clearbody v2 w2. set (v3 := q3 s / 2 ^ 8) in *; set (w3 := q3 s mod 2 ^ 8) in *; clearbody v3 w3. set (v5 := q5 s / 2 ^ 22) in *; set (w5 := q5 s mod 2 ^ 22) in *; clearbody v5 w5. set (v6 := q6 s / 2 ^ 16) in *; set (w6 := q6 s mod 2 ^ 16) in *; clearbody v6 w6. set (v7 := q7 s / 2 ^ 10) in *; set (w7 := q7 s mod 2 ^ 10) in *; clearbody v7 w7.
    set (w4 := (q4 s / 2 ^ 2) mod 2 ^ 26) in *. set (v4 := q4 s / 2 ^ 28) in *. set (x4 := q4 s mod 2 ^ 2) in *. clearbody v4 w4 x4.
    rewrite D0, D1, D2, D3, D4, D5, D6, D7. ring. }
  destruct X as (E & B). split; [exact E|]. split.
  - unfold f26_mag. clear -B. f26const. destruct B as (B0 & B1 & B2 & B3 & B4 & B5 & B6 & B7 & B8 & B9). repeat split; lia.
  - intros V. unfold f26_norm. rewrite E. tauto.
Qed.
Lemma f26_storage_round a : f26_norm a -> f26_from_storage (f26_to_storage a) = a.
Proof.
  intros H. destruct (f26_to_storage_ok a H) as [O V]. destruct (f26_from_storage_ok _ O) as (E & _ & N).
  apply f26_norm_inj; [apply N; rewrite V; apply f26val_norm_range; exact H|assumption|]. now rewrite E.
Qed.
Lemma f26_storage_cmov_ok r a flag : s26_ok r -> s26_ok a -> flag = 0 \/ flag = 1 ->
  f26_storage_cmov r a flag = if flag =? 0 then r else a.
Proof.
  intros (R0 & R1 & R2 & R3 & R4 & R5 & R6 & R7) (A0 & A1 & A2 & A3 & A4 & A5 & A6 & A7) Hf. unfold f26_storage_cmov.
  rewrite !cmov32_spec by assumption. destruct r, a. destruct Hf as [-> | ->]; reflexivity.
Qed.
