(** Proofs about the private key format of contrib/. *)
Require Import ZArith List Bool Lia.
From Verif Require Import Word Bytes Spec SpecApi SpecDer SpecLax ScalarModel ScalarProof HashModel EcdsaModel ApiModel ApiVocab ApiProof ApiProof2 EcdsaProof DerProof DerProps KeyProps KeyProps2 LaxModel LaxProof.
Import ListNotations.
Local Open Scope Z_scope.
Local Open Scope c_scope.
Local Notation len l := (Z.of_nat (length l)).

(** ** Import *)

Definition imp_fail : option (res (list Z)) := Some (mkres 0 0 (repeat 0 32)).
Definition imp_body (privkey : list Z) (p : Z) : option (res (list Z)) :=
  let end_ := len privkey in
  if end_ <? p + 3 then imp_fail else
  match rd privkey p, rd privkey (p + 1), rd privkey (p + 2) with
  | Some v0, Some v1, Some v2 =>
  if negb (v0 =? 0x02) || negb (v1 =? 0x01) || negb (v2 =? 0x01) then imp_fail else
  let p := p + 3 in
  if end_ <? p + 2 then imp_fail else
  match rd privkey p, rd privkey (p + 1) with
  | Some o0, Some o1 =>
  if negb (o0 =? 0x04) || (o1 >? 0x20) || (end_ <? p + 2 + o1) then imp_fail else
  match (if o1 =? 0 then Some (repeat 0 32)
         else match rd_n privkey (p + 2) o1 with None => None | Some data => wr_n (repeat 0 32) (32 - o1) data end) with
  | None => None
  | Some out32 =>
  let v := ec_seckey_verify (Some out32) in
  if r_ret v =? 0 then Some (mkres 0 (r_ill v) (repeat 0 32)) else Some (mkres 1 (r_ill v) out32)
  end
  | _, _ => None
  end
  | _, _, _ => None
  end.
Lemma import_eq privkey : ec_privkey_import_der privkey =
  let end_ := len privkey in
  if end_ <? 1 then imp_fail else
  match rd privkey 0 with None => None | Some t =>
  if negb (t =? 0x30) then imp_fail
  else if end_ <? 2 then imp_fail else
  match rd privkey 1 with None => None | Some lb =>
  if (lb &! 0x80) =? 0 then imp_fail else
  let lenb := lb &! 0x7F in
  if (lenb <? 1) || (lenb >? 2) then imp_fail
  else if end_ <? 2 + lenb then imp_fail else
  match rd privkey (2 + lenb - 1), (if lenb >? 1 then rd privkey (2 + lenb - 2) else Some 0) with
  | None, _ | _, None => None
  | Some lo, Some hi =>
  let l := lo |! (if lenb >? 1 then Z.shiftl hi 8 else 0) in
  let p := 2 + lenb in
  if end_ <? p + l then imp_fail else imp_body privkey p
  end
  end
  end.
Proof. reflexivity. Qed.
Lemma rd_cons b l i : 0 < i -> rd (b :: l) i = rd l (i - 1).
Proof.
  intro H. unfold rd. cbn [length]. destruct ((0 <=? i) && (i <? Z.of_nat (S (length l)))) eqn:E; destruct ((0 <=? i - 1) && (i - 1 <? len l)) eqn:F; rewrite ?andb_true_iff, ?andb_false_iff, ?Z.leb_le, ?Z.ltb_lt, ?Z.leb_gt, ?Z.ltb_ge in *; try lia; [|reflexivity].
  f_equal. replace (Z.to_nat i) with (S (Z.to_nat (i - 1))) by lia. reflexivity.
Qed.
Lemma rd_pre pre l i : 0 <= i -> rd (pre ++ l) (len pre + i) = rd l i.
Proof.
  intro H. induction pre as [|b pre IH]; [f_equal|]. cbn [app length]. rewrite rd_cons by lia. rewrite <- IH. f_equal. lia.
Qed.
Lemma rd_head b l : rd (b :: l) 0 = Some b. Proof. reflexivity. Qed.
Lemma rd_1 a b l : rd (a :: b :: l) 1 = Some b. Proof. exact (rd_app0 [a] b l). Qed.
Lemma rd_2 a b c l : rd (a :: b :: c :: l) 2 = Some c. Proof. exact (rd_app0 [a; b] c l). Qed.
Lemma rd_3 a b c d l : rd (a :: b :: c :: d :: l) 3 = Some d. Proof. exact (rd_app0 [a; b; c] d l). Qed.
Lemma rd_4 a b c d e l : rd (a :: b :: c :: d :: e :: l) 4 = Some e. Proof. exact (rd_app0 [a; b; c; d] e l). Qed.
Ltac rdc := rewrite ?rd_head, ?rd_1, ?rd_2, ?rd_3, ?rd_4.

Definition imp_res (c : list Z) : option (res (list Z)) :=
  if (1 <=? be_val c) && (be_val c <? n) then Some (mkres 1 0 (be_bytes 32 (be_val c))) else imp_fail.
Lemma seckey_stage out c : bytes_n 32 out -> be_val out = be_val c ->
  (let v := ec_seckey_verify (Some out) in if r_ret v =? 0 then Some (mkres 0 (r_ill v) (repeat 0 32)) else Some (mkres 1 (r_ill v) out)) = imp_res c.
Proof.
  intros B V. cbv zeta. unfold imp_res. destruct (prop_seckey_verify out B) as [(R & E)|(R & E)]; rewrite E; cbn [r_ret r_ill Z.eqb]; rewrite V in R.
  - replace ((1 <=? be_val c) && (be_val c <? n)) with true by (symmetry; apply andb_true_iff; rewrite Z.leb_le, Z.ltb_lt; exact R).
    do 2 f_equal. rewrite <- V. destruct B as [B1 B2]. apply be_val_inj; [now rewrite be_bytes_length| exact B1|apply be_bytes_byte_list|].
    rewrite be_val_be_bytes. symmetry. apply Z.mod_small. pose proof (be_val_range out B1) as H. now rewrite B2 in H.
  - replace ((1 <=? be_val c) && (be_val c <? n)) with false; [reflexivity|]. symmetry. apply andb_false_iff. rewrite Z.leb_gt, Z.ltb_ge. lia.
Qed.
Lemma imp_body_ok pre body : byte_list body ->
  (exists c rest, body = [2; 1; 1; 4; len c] ++ c ++ rest /\ (length c <= 32)%nat /\ imp_body (pre ++ body) (len pre) = imp_res c) \/
  (imp_body (pre ++ body) (len pre) = imp_fail /\ forall c rest, (length c <= 32)%nat -> body <> [2; 1; 1; 4; len c] ++ c ++ rest).
Proof.
  intro B. unfold imp_body. rewrite app_length, Nat2Z.inj_add. destruct (_ <? len pre + 3) eqn:Q0.
  { right. split; [reflexivity|]. intros c rest _ ->. apply Z.ltb_lt in Q0. cbn [app length] in Q0. lia. }
  apply Z.ltb_ge in Q0. destruct body as [|v0 [|v1 [|v2 r]]]; cbn [length] in Q0; try lia.
  replace (rd _ (len pre)) with (Some v0) by (symmetry; apply rd_app0).
  rewrite (rd_pre pre _ 1), (rd_pre pre _ 2) by lia. rdc.
  destruct (v0 =? 2) eqn:E0; cbn [negb orb]; [|right; split; [reflexivity|]; intros c rest _ E; injection E as -> _; discriminate].
  destruct (v1 =? 1) eqn:E1; cbn [negb orb]; [|right; split; [reflexivity|]; intros c rest _ E; injection E as _ -> _; discriminate].
  destruct (v2 =? 1) eqn:E2; cbn [negb orb]; [|right; split; [reflexivity|]; intros c rest _ E; injection E as _ _ -> _; discriminate].
  apply Z.eqb_eq in E0, E1, E2. subst v0 v1 v2. cbn [length]. destruct (_ <? len pre + 3 + 2) eqn:Q1.
  { right. split; [reflexivity|]. intros c rest _ E. apply Z.ltb_lt in Q1. injection E as ->. cbn [length] in Q1. lia. }
  apply Z.ltb_ge in Q1. destruct r as [|o0 [|o1 r]]; cbn [length] in Q1; try lia.
  replace (len pre + 3 + 1) with (len pre + 4) by lia. rewrite (rd_pre pre _ 3), (rd_pre pre _ 4) by lia. rdc.
  destruct (o0 =? 4) eqn:E0; cbn [negb orb]; [|right; split; [reflexivity|]; intros c rest _ E; injection E as -> _; discriminate].
  apply Z.eqb_eq in E0. subst o0. rewrite gtb_ltb. destruct (32 <? o1) eqn:E1; cbn [negb orb].
  { right. split; [reflexivity|]. intros c rest L E. injection E as -> _. apply Z.ltb_lt in E1. lia. }
  apply Z.ltb_ge in E1. cbn [length]. destruct (_ <? len pre + 3 + 2 + o1) eqn:E2.
  { right. split; [reflexivity|]. intros c rest L E. injection E as -> ->. apply Z.ltb_lt in E2. rewrite app_length in E2. lia. }
  apply Z.ltb_ge in E2. left. do 4 (apply byte_list_cons in B as [_ B]). apply byte_list_cons in B as [Bo B].
  destruct (app_split r o1 ltac:(lia)) as (c & rest & -> & LC). exists c, rest. subst o1. split; [reflexivity|]. split; [lia|].
  apply Forall_app in B as [Bc _]. destruct (len c =? 0) eqn:E3.
  - apply Z.eqb_eq in E3. destruct c; [|cbn in E3; lia]. apply (seckey_stage (repeat 0 32) []); [split; [repeat constructor; lia|reflexivity]|reflexivity].
  - apply Z.eqb_neq in E3.
    assert (RD : rd_n (pre ++ 2 :: 1 :: 1 :: 4 :: len c :: c ++ rest) (len pre + 3 + 2) (len c) = Some c).
    { replace (pre ++ 2 :: 1 :: 1 :: 4 :: len c :: c ++ rest) with ((pre ++ [2; 1; 1; 4; len c]) ++ c ++ rest) by (rewrite <- app_assoc; reflexivity).
      replace (len pre + 3 + 2) with (len (pre ++ [2; 1; 1; 4; len c])) by (rewrite app_length; cbn [length]; lia).
      rewrite rd_n_app by (rewrite app_length; lia). now rewrite firstn_app, firstn_all, Nat.sub_diag, firstn_O, app_nil_r. }
    rewrite RD. set (m := (32 - length c)%nat). replace (repeat 0 32) with (repeat 0 m ++ repeat 0 (length c)) at 1 by (rewrite <- repeat_app; f_equal; unfold m; lia).
    replace (32 - len c) with (len (repeat 0 m)) by (rewrite repeat_length; unfold m; lia).
    rewrite wr_app by (rewrite repeat_length; lia). rewrite skipn_all2 by (rewrite repeat_length; lia). rewrite app_nil_r.
    apply (seckey_stage (repeat 0 m ++ c) c); [|apply be_val_zeros]. split; [|rewrite app_length, repeat_length; unfold m; lia].
    apply Forall_app. split; [|exact Bc]. apply Forall_forall. intros x I. apply repeat_spec in I. lia.
Qed.
Lemma lax_privkey_alt c enc : lax_privkey c enc <->
  exists l body rest, enc = 0x30 :: l ++ body /\ body = [2; 1; 1; 4; len c] ++ c ++ rest /\ (length c <= 32)%nat /\
    ((exists a, l = [0x81; a] /\ a <= len body) \/ (exists a b, l = [0x82; a; b] /\ 256 * a + b <= len body)).
Proof. reflexivity. Qed.
Lemma import_ok enc : byte_list enc ->
  (exists c, lax_privkey c enc /\ ec_privkey_import_der enc = imp_res c) \/
  (ec_privkey_import_der enc = imp_fail /\ forall c, ~ lax_privkey c enc).
Proof.
  intro B. rewrite import_eq. cbv zeta.
  assert (FAIL : (forall c, ~ lax_privkey c enc) -> forall r, r = imp_fail -> (exists c, lax_privkey c enc /\ r = imp_res c) \/ (r = imp_fail /\ forall c, ~ lax_privkey c enc))
    by (intros H r ->; right; now split).
  destruct enc as [|t enc]; [apply FAIL; [intros c (l & body & rest & E & _); discriminate|reflexivity]|].
  replace (_ <? 1) with false by (symmetry; apply Z.ltb_ge; cbn [length]; lia). rewrite rd_head.
  destruct (t =? 0x30) eqn:QT; cbn [negb]. 2: { apply FAIL; [|reflexivity]. intros c (l & body & rest & E & _). injection E as -> _. discriminate. }
  apply Z.eqb_eq in QT. subst t. destruct enc as [|lb enc].
  { apply FAIL; [|reflexivity]. intros c (l & body & rest & E & _ & _ & [(a & -> & _)|(a & b & -> & _)]); discriminate. }
  replace (_ <? 2) with false by (symmetry; apply Z.ltb_ge; cbn [length]; lia). rdc.
  apply byte_list_cons in B as [_ B]. apply byte_list_cons in B as [Bl B]. destruct (land80 lb Bl) as [E1 _]. rewrite E1. destruct (lb <? 128) eqn:Q0.
  { apply Z.ltb_lt in Q0. apply FAIL; [|reflexivity]. intros c (l & body & rest & E & _ & _ & [(a & -> & _)|(a & b & -> & _)]); injection E as -> _; lia. }
  apply Z.ltb_ge in Q0. rewrite land7F by assumption.
  destruct ((lb - 128 <? 1) || (lb - 128 >? 2)) eqn:Q1.
  { apply FAIL; [|reflexivity]. intros c (l & body & rest & E & _ & _ & [(a & -> & _)|(a & b & -> & _)]); injection E as -> _; discriminate. }
  apply orb_false_elim in Q1 as [Q1 Q2]. apply Z.ltb_ge in Q1. rewrite gtb_ltb in Q2. apply Z.ltb_ge in Q2.
  assert (CS : lb = 129 \/ lb = 130) by lia. destruct CS as [->| ->].
  - change (129 - 128) with 1. change (1 >? 1) with false. cbv iota. destruct enc as [|a body].
    { apply FAIL; [|reflexivity]. intros c (l & body & rest & E & _ & _ & [(a & -> & _)|(a & b & -> & _)]); discriminate. }
    replace (_ <? 2 + 1) with false by (symmetry; apply Z.ltb_ge; cbn [length]; lia). change (2 + 1 - 1) with 2. rdc. rewrite Z.lor_0_r.
    apply byte_list_cons in B as [_ B]. destruct (_ <? 2 + 1 + a) eqn:Q3.
    { apply Z.ltb_lt in Q3. cbn [length] in Q3. apply FAIL; [|reflexivity].
      intros c (l & body' & rest & E & _ & _ & [(a' & -> & H)|(a' & b & -> & _)]); [|discriminate]. injection E as -> ->. lia. }
    apply Z.ltb_ge in Q3. cbn [length] in Q3. destruct (imp_body_ok [0x30; 0x81; a] body B) as [(c & rest & EB & LC & EI)|(EI & NO)].
    + left. exists c. split; [|exact EI]. exists [0x81; a], body, rest. split; [reflexivity|]. split; [exact EB|]. split; [exact LC|]. left. exists a. split; [reflexivity|lia].
    + right. split; [exact EI|]. intros c (l & body' & rest & E & EB & LC & [(a' & -> & _)|(a' & b & -> & _)]); [|discriminate]. injection E as -> ->. exact (NO c rest LC EB).
  - change (130 - 128) with 2. change (2 >? 1) with true. cbv iota. destruct enc as [|a [|b body]].
    { apply FAIL; [|reflexivity]. intros c (l & body & rest & E & _ & _ & [(a & -> & _)|(a & b & -> & _)]); discriminate. }
    { apply FAIL; [|reflexivity]. intros c (l & body & rest & E & _ & _ & [(a' & -> & _)|(a' & b & -> & _)]); discriminate. }
    replace (_ <? 2 + 2) with false by (symmetry; apply Z.ltb_ge; cbn [length]; lia). change (2 + 2 - 1) with 3. change (2 + 2 - 2) with 2. rdc.
    apply byte_list_cons in B as [Ba B]. apply byte_list_cons in B as [Bb B].
    assert (EL : Z.lor b (Z.shiftl a 8) = 256 * a + b).
    { rewrite Z.lor_comm, Z.shiftl_mul_pow2 by lia. rewrite lor_disjoint' by lia. lia. }
    rewrite EL. destruct (_ <? 2 + 2 + _) eqn:Q3.
    { apply Z.ltb_lt in Q3. cbn [length] in Q3. apply FAIL; [|reflexivity].
      intros c (l & body' & rest & E & _ & _ & [(a' & -> & H)|(a' & b' & -> & H)]); [discriminate|]. injection E as -> -> ->. lia. }
    apply Z.ltb_ge in Q3. cbn [length] in Q3. destruct (imp_body_ok [0x30; 0x82; a; b] body B) as [(c & rest & EB & LC & EI)|(EI & NO)].
    + left. exists c. split; [|exact EI]. exists [0x82; a; b], body, rest. split; [reflexivity|]. split; [exact EB|]. split; [exact LC|]. right. exists a, b. split; [reflexivity|lia].
    + right. split; [exact EI|]. intros c (l & body' & rest & E & EB & LC & [(a' & -> & _)|(a' & b' & -> & _)]); [discriminate|]. injection E as -> -> ->. exact (NO c rest LC EB).
Qed.
Lemma lax_privkey_unique c c' enc : lax_privkey c enc -> lax_privkey c' enc -> c = c'.
Proof.
  intros (l & b & r & E & EB & LC & C) (l' & b' & r' & E' & EB' & LC' & C'). rewrite E in E'. injection E' as E'.
  assert (b = b') as <-.
  { destruct C as [(a & -> & _)|(a & a2 & -> & _)], C' as [(a' & -> & _)|(a' & a2' & -> & _)]; try discriminate; now injection E'. }
  rewrite EB in EB'. injection EB' as L EE. apply Nat2Z.inj in L.
  apply (f_equal (firstn (length c))) in EE. rewrite firstn_app, firstn_all, Nat.sub_diag, firstn_O, app_nil_r in EE.
  rewrite L, firstn_app, firstn_all, Nat.sub_diag, firstn_O, app_nil_r in EE. exact EE.
Qed.
Lemma prop_import enc : byte_list enc ->
  (exists c, lax_privkey c enc /\ 1 <= be_val c < n /\ ec_privkey_import_der enc = Some (mkres 1 0 (be_bytes 32 (be_val c)))) \/
  ((forall c, lax_privkey c enc -> ~ 1 <= be_val c < n) /\ ec_privkey_import_der enc = Some (mkres 0 0 (repeat 0 32))).
Proof.
  intro B. destruct (import_ok enc B) as [(c & D & E)|(E & NO)].
  - unfold imp_res in E. destruct (_ && _) eqn:Q0 in E.
    + left. exists c. apply andb_prop in Q0 as [Q1 Q2]. apply Z.leb_le in Q1. apply Z.ltb_lt in Q2. now repeat split.
    + right. split; [|exact E]. intros c' D'. rewrite (lax_privkey_unique c' c enc D' D). apply andb_false_iff in Q0. rewrite Z.leb_gt, Z.ltb_ge in Q0. lia.
  - right. split; [|exact E]. intros c D. destruct (NO c D).
Qed.

(** ** Export *)

Lemma be32_lit l v : forallb (fun b => (0 <=? b) && (b <? 256)) l = true -> length l = 32%nat -> be_val l = v -> be_bytes 32 v = l.
Proof.
  intros B L V. symmetry. apply be_bytes_unique; [exact L| |exact V]. apply Forall_forall. intros x I. rewrite forallb_forall in B. specialize (B x I).
  apply andb_prop in B as [B1 B2]. apply Z.leb_le in B1. apply Z.ltb_lt in B2. lia.
Qed.
Definition lit (i : nat) (l : list Z) : list Z := firstn 32 (skipn i l).
Lemma lit_p : be_bytes 32 p = lit 23 export_middle_c. Proof. apply be32_lit; reflexivity. Qed.
Lemma lit_n : be_bytes 32 n = lit 101 export_middle_c. Proof. apply be32_lit; reflexivity. Qed.
Lemma lit_gx : be_bytes 32 Gx = lit 66 export_middle_c. Proof. apply be32_lit; reflexivity. Qed.
Lemma lit_gy : be_bytes 32 Gy = lit 98 export_middle_u. Proof. apply be32_lit; reflexivity. Qed.
Lemma odd_gy : Z.odd Gy = false. Proof. reflexivity. Qed.
Lemma params_c : tlv 0xA0 (sec1_params true) ++ [0xA1; 0x24; 0x03; 0x22; 0x00] = export_middle_c.
Proof. unfold sec1_params, tlv_int32, enc_compressed. rewrite lit_p, lit_n, lit_gx, odd_gy. lazy. reflexivity. Qed.
Lemma params_u : tlv 0xA0 (sec1_params false) ++ [0xA1; 0x44; 0x03; 0x42; 0x00] = export_middle_u.
Proof. unfold sec1_params, tlv_int32, enc_uncompressed. rewrite lit_p, lit_n, lit_gx, lit_gy. lazy. reflexivity. Qed.
Lemma tlv_short tag c k : length c = k -> (k < 128)%nat -> tlv tag c = tag :: Z.of_nat k :: c.
Proof. intros L K. unfold tlv. rewrite L. replace (_ <? 128) with true by (symmetry; apply Z.ltb_lt; lia). reflexivity. Qed.
Lemma params_len_c : length (tlv 0xA0 (sec1_params true)) = 136%nat.
Proof. pose proof (f_equal (@length Z) params_c) as H. rewrite app_length in H. cbn [length] in H. change (length export_middle_c) with 141%nat in H. lia. Qed.
Lemma params_len_u : length (tlv 0xA0 (sec1_params false)) = 168%nat.
Proof. pose proof (f_equal (@length Z) params_u) as H. rewrite app_length in H. cbn [length] in H. change (length export_middle_u) with 173%nat in H. lia. Qed.
Lemma sec1_c key pub : length key = 32%nat -> length pub = 33%nat -> sec1_privkey true key pub = export_begin_c ++ key ++ export_middle_c ++ pub.
Proof.
  intros K P. unfold sec1_privkey. rewrite (tlv_short 3 (0 :: pub) 34), (tlv_short 0xA1 _ 36), (tlv_short 4 key 32) by (cbn [length]; lia).
  assert (L : length (tlv 2 [1] ++ (4 :: Z.of_nat 32 :: key) ++ tlv 0xA0 (sec1_params true) ++ 0xA1 :: Z.of_nat 36 :: 3 :: Z.of_nat 34 :: 0 :: pub) = 211%nat).
  { rewrite !app_length, params_len_c. cbn [length]. rewrite K, P. reflexivity. }
  unfold tlv at 1. rewrite L. cbv zeta. change (Z.of_nat 211) with 211. cbn [Z.ltb Z.compare Pos.compare Pos.compare_cont].
  rewrite <- params_c, <- !app_assoc. reflexivity.
Qed.
Lemma sec1_u key pub : length key = 32%nat -> length pub = 65%nat -> sec1_privkey false key pub = export_begin_u ++ key ++ export_middle_u ++ pub.
Proof.
  intros K P. unfold sec1_privkey. rewrite (tlv_short 3 (0 :: pub) 66), (tlv_short 0xA1 _ 68), (tlv_short 4 key 32) by (cbn [length]; lia).
  assert (L : length (tlv 2 [1] ++ (4 :: Z.of_nat 32 :: key) ++ tlv 0xA0 (sec1_params false) ++ 0xA1 :: Z.of_nat 68 :: 3 :: Z.of_nat 66 :: 0 :: pub) = 275%nat).
  { rewrite !app_length, params_len_u. cbn [length]. rewrite K, P. reflexivity. }
  unfold tlv at 1. rewrite L. cbv zeta. change (Z.of_nat 275) with 275. cbn [Z.ltb Z.compare Pos.compare Pos.compare_cont].
  rewrite <- params_u, <- !app_assoc. reflexivity.
Qed.
Lemma skipn_skipn' {A} (a b : nat) (l : list A) : skipn a (skipn b l) = skipn (b + a) l.
Proof. revert l. induction b as [|b IH]; intros l; [reflexivity|]. destruct l; [now rewrite !skipn_nil|]. cbn [skipn Nat.add]. apply IH. Qed.
Lemma export_write_ok buf key pk x y begin middle flags (comp : bool) : pubkey_holds pk (Aff x y) -> length key = 32%nat ->
  Z.land flags 0xFF = 2 -> (Z.land flags 256 =? 0) = negb comp ->
  let pub := if comp then enc_compressed x y else enc_uncompressed x y in
  let enc := begin ++ key ++ middle ++ pub in
  (length enc <= length buf)%nat ->
  export_write buf key pk begin middle (len pub) flags = Some (enc ++ skipn (length enc) buf, len enc, 0).
Proof.
  intros H K F1 F2 pub enc L. unfold enc in L. rewrite !app_length in L. unfold export_write.
  pose proof (wr_app [] begin buf ltac:(lia)) as W1. cbn [app length Z.of_nat] in W1. rewrite W1.
  rewrite (wr_app begin key) by (rewrite skipn_length; lia). rewrite skipn_skipn'.
  replace (begin ++ key ++ skipn (length begin + length key) buf) with ((begin ++ key) ++ skipn (length begin + length key) buf) by (now rewrite <- app_assoc).
  replace (len begin + 32) with (len (begin ++ key)) by (rewrite app_length, K; lia).
  rewrite (wr_app (begin ++ key) middle) by (rewrite skipn_length; lia). rewrite skipn_skipn'.
  set (pre := begin ++ key ++ middle). set (tl := skipn (length begin + length key + length middle) buf).
  replace ((begin ++ key) ++ middle ++ tl) with (pre ++ tl) by (unfold pre; now rewrite <- !app_assoc).
  replace (len (begin ++ key) + len middle) with (len pre) by (unfold pre; rewrite !app_length; lia).
  rewrite Nat2Z.id, firstn_app, skipn_app, firstn_all, skipn_all, Nat.sub_diag, firstn_O, skipn_O, app_nil_r. cbn [app].
  assert (LT : (length tl = length buf - (length begin + length key + length middle))%nat) by (unfold tl; apply skipn_length).
  pose proof (pubkey_serialize_ok tl (len pub) pk x y flags H F1) as S. cbv zeta in S. rewrite F2 in S.
  replace (if negb comp then enc_uncompressed x y else enc_compressed x y) with pub in S by (unfold pub; now destruct comp).
  rewrite (S ltac:(lia) ltac:(lia)). rewrite Nat2Z.id, Nat.sub_diag. cbn [repeat app]. unfold tl. rewrite skipn_skipn'.
  f_equal. f_equal. f_equal.
  - unfold enc, pre. rewrite <- !app_assoc. do 4 f_equal. f_equal. rewrite !app_length. lia.
  - unfold enc, pre. rewrite !app_length. lia.
Qed.
Lemma enc_len_c x y : length (enc_compressed x y) = 33%nat. Proof. unfold enc_compressed. cbn [length]. now rewrite be_bytes_length. Qed.
Lemma enc_len_u x y : length (enc_uncompressed x y) = 65%nat. Proof. unfold enc_uncompressed. cbn [length]. now rewrite app_length, !be_bytes_length. Qed.
Lemma byte_lit l : forallb (fun b => (0 <=? b) && (b <? 256)) l = true -> byte_list l.
Proof. intro B. apply Forall_forall. intros x I. rewrite forallb_forall in B. specialize (B x I). apply andb_prop in B as [B1 B2]. apply Z.leb_le in B1. apply Z.ltb_lt in B2. lia. Qed.
Lemma enc_bytes (comp : bool) x y : byte_list (if comp then enc_compressed x y else enc_uncompressed x y).
Proof.
  destruct comp; [unfold enc_compressed|unfold enc_uncompressed]; apply Forall_cons; [destruct (Z.odd y); lia|apply be_bytes_byte_list|lia|].
  apply Forall_app. split; apply be_bytes_byte_list.
Qed.
Lemma pubkey_finite pk Q : pubkey_holds pk Q -> exists x y, Q = Aff x y.
Proof. destruct Q as [|x y]; [intros H; destruct H; contradiction|]. intros _. now exists x, y. Qed.
Lemma import_key enc key : byte_list enc -> bytes_n 32 key -> 1 <= be_val key < n -> lax_privkey key enc -> ec_privkey_import_der enc = Some (mkres 1 0 key).
Proof.
  intros B [K1 K2] R D. destruct (prop_import enc B) as [(c & D' & _ & E)|(NO & _)]; [|destruct (NO key D R)].
  rewrite (lax_privkey_unique c key enc D' D) in E. rewrite E. do 2 f_equal. rewrite <- K2 at 1. now apply be_bytes_be_val.
Qed.
Lemma prop_export ctx buf key (comp : bool) : usable_context ctx -> bytes_n 32 key -> 279 <= len buf ->
  (1 <= be_val key < n /\
   exists x y enc, pmul (be_val key) G = Aff x y /\ enc = sec1_privkey comp key (if comp then enc_compressed x y else enc_uncompressed x y) /\
     len enc = (if comp then 214 else 279) /\
     ec_privkey_export_der ctx buf key comp = Some (mkres 1 0 (enc ++ skipn (length enc) buf, len enc)) /\
     ec_privkey_import_der enc = Some (mkres 1 0 key)) \/
  (~ 1 <= be_val key < n /\ ec_privkey_export_der ctx buf key comp = Some (mkres 0 0 (buf, 0))).
Proof.
  intros U K L. unfold ec_privkey_export_der. destruct (prop_create ctx (repeat 0 64) key U K) as [(R & _ & pk & E & H)|(R & E)]; rewrite E; cbn [r_ret r_ill r_out Z.eqb].
  2: { right. now split. }
  left. split; [exact R|]. destruct (pubkey_finite pk _ H) as (x & y & EQ). rewrite EQ in H.
  destruct comp.
  - exists x, y, (sec1_privkey true key (enc_compressed x y)). rewrite (sec1_c key (enc_compressed x y) (proj2 K) (enc_len_c x y)).
    set (enc := export_begin_c ++ key ++ export_middle_c ++ enc_compressed x y).
    assert (LE : length enc = 214%nat) by (unfold enc; rewrite !app_length, enc_len_c, (proj2 K); reflexivity).
    split; [exact EQ|]. split; [reflexivity|]. split; [now rewrite LE|]. split.
    + pose proof (export_write_ok buf key pk x y export_begin_c export_middle_c EC_COMPRESSED true H (proj2 K) eq_refl eq_refl) as W. cbv zeta iota in W. fold enc in W.
      rewrite enc_len_c in W. change (Z.of_nat 33) with 33 in W. rewrite (W ltac:(lia)). reflexivity.
    + apply import_key; [|exact K|exact R|].
      * apply Forall_app; split; [now apply byte_lit|]. apply Forall_app; split; [apply K|]. apply Forall_app; split; [now apply byte_lit|apply (enc_bytes true)].
      * exists [0x81; 211], ([2; 1; 1; 4; 32] ++ key ++ export_middle_c ++ enc_compressed x y), (export_middle_c ++ enc_compressed x y).
        rewrite (proj2 K). split; [reflexivity|]. split; [reflexivity|]. split; [lia|]. left. exists 211. split; [reflexivity|]. rewrite !app_length, enc_len_c, (proj2 K). cbn. lia.
  - exists x, y, (sec1_privkey false key (enc_uncompressed x y)). rewrite (sec1_u key (enc_uncompressed x y) (proj2 K) (enc_len_u x y)).
    set (enc := export_begin_u ++ key ++ export_middle_u ++ enc_uncompressed x y).
    assert (LE : length enc = 279%nat) by (unfold enc; rewrite !app_length, enc_len_u, (proj2 K); reflexivity).
    split; [exact EQ|]. split; [reflexivity|]. split; [now rewrite LE|]. split.
    + pose proof (export_write_ok buf key pk x y export_begin_u export_middle_u EC_UNCOMPRESSED false H (proj2 K) eq_refl eq_refl) as W. cbv zeta iota in W. fold enc in W.
      rewrite enc_len_u in W. change (Z.of_nat 65) with 65 in W. rewrite (W ltac:(lia)). reflexivity.
    + apply import_key; [|exact K|exact R|].
      * apply Forall_app; split; [now apply byte_lit|]. apply Forall_app; split; [apply K|]. apply Forall_app; split; [now apply byte_lit|apply (enc_bytes false)].
      * exists [0x82; 1; 19], ([2; 1; 1; 4; 32] ++ key ++ export_middle_u ++ enc_uncompressed x y), (export_middle_u ++ enc_uncompressed x y).
        rewrite (proj2 K). split; [reflexivity|]. split; [reflexivity|]. split; [lia|]. right. exists 1, 19. split; [reflexivity|]. rewrite !app_length, enc_len_u, (proj2 K). cbn. lia.
Qed.

(** ** Concrete cases *)

(** A long outer length that is wrong, a negative number, an empty one, trailing bytes. *)
Definition w_lax : list Z := [0x30; 0x82; 9; 9; 2; 0x83; 0; 0; 1; 0xFF; 2; 0; 77].
Lemma w_lax_ok : lax_signature [0xFF] [] w_lax /\ byte_list w_lax /\ lax_numbers [0xFF] [] = (255, 0) /\ ecdsa_signature_parse_der (Some []) (Some w_lax) = Some (mkres 0 0 (Some (repeat 0 64))).
Proof.
  split; [|split; [|split]].
  - exists [0x82; 9; 9], [2; 0x83; 0; 0; 1; 0xFF], [2; 0], [77]. split; [right; exists [9; 9]; split; [cbn; lia|reflexivity]|].
    split; [exists [0x83; 0; 0; 1]; split; [right; exists [0; 0; 1]; split; [apply byte_lit; reflexivity|split; [cbn; lia|repeat split]]|reflexivity]|].
    split; [exists [0]; split; [left; split; [cbn; lia|reflexivity]|reflexivity]|reflexivity].
  - apply byte_lit. reflexivity.
  - reflexivity.
  - reflexivity.
Qed.
Definition w_privkey : list Z := [0x30; 0x81; 6; 2; 1; 1; 4; 1; 9].
Lemma w_privkey_ok : lax_privkey [9] w_privkey /\ byte_list w_privkey /\ ec_privkey_import_der w_privkey = Some (mkres 1 0 (be_bytes 32 9)).
Proof.
  assert (D : lax_privkey [9] w_privkey).
  { exists [0x81; 6], [2; 1; 1; 4; 1; 9], []. split; [reflexivity|]. split; [reflexivity|]. split; [cbn; lia|]. left. exists 6. split; [reflexivity|cbn; lia]. }
  assert (B : byte_list w_privkey) by (apply byte_lit; reflexivity). split; [exact D|]. split; [exact B|].
  destruct (prop_import w_privkey B) as [(c & D' & _ & E)|(NO & _)].
  - rewrite (lax_privkey_unique c [9] _ D' D) in E. exact E.
  - exfalso. apply (NO [9] D). change (be_val [9]) with 9. split; [lia|reflexivity].
Qed.
