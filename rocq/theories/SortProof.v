(** Comparing and sorting public keys: property lemmas. *)
Require Import ZArith List Bool Lia Permutation Sorted Arith.
From Verif Require Import Word Bytes Spec SpecApi SpecSort FieldModel FieldProof FieldProof2 GroupModel HashModel EcdsaModel ApiModel ApiVocab HsortModel HsortProof ApiProof ApiProof2 DerProof KeyProps KeyProps2.
Import ListNotations.
Local Open Scope Z_scope.
Local Opaque p.

(** ** Lexicographic order *)
Lemma lex_refl a : lex a a = Eq.
Proof. induction a as [|x a IH]; cbn; [reflexivity|]. now rewrite Z.compare_refl. Qed.
Lemma lex_opp a : forall b, lex b a = CompOpp (lex a b).
Proof.
  induction a as [|x a IH]; intros [|y b]; cbn; try reflexivity. rewrite (Z.compare_antisym x y). destruct (x ?= y); cbn; [apply IH|reflexivity..].
Qed.
Lemma lex_eq a : forall b, lex a b = Eq -> a = b.
Proof.
  induction a as [|x a IH]; intros [|y b]; cbn; try discriminate; [reflexivity|]. destruct (Z.compare_spec x y); try discriminate. intro H0. subst. f_equal. now apply IH.
Qed.
Lemma lex_trans a : forall b c, lex a b <> Gt -> lex b c <> Gt -> lex a c <> Gt.
Proof.
  induction a as [|x a IH]; intros [|y b] [|z c]; cbn; try congruence.
  destruct (Z.compare_spec x y), (Z.compare_spec y z), (Z.compare_spec x z); try congruence; try lia. apply IH.
Qed.
Lemma memcmp_lex a : forall b, length a = length b -> (memcmp_var a b ?= 0) = lex a b.
Proof.
  induction a as [|x a IH]; intros [|y b] L; cbn in L; try discriminate; [reflexivity|].
  cbn [memcmp_var lex]. destruct (Z.eqb_spec (x - y) 0) as [E|E].
  - replace y with x by lia. rewrite Z.compare_refl. apply IH. lia.
  - destruct (Z.compare_spec x y) as [H|H|H]; [lia| |]; [apply Z.compare_lt_iff|apply Z.compare_gt_iff]; lia.
Qed.

(** ** Comparison *)
Lemma cmp_key_total pk : exists o i, cmp_key pk = Some (o, i) /\ length o = 33%nat.
Proof.
  unfold cmp_key, ec_pubkey_serialize, zeros.
  change (negb (Z.land EC_COMPRESSED 256 =? 0)) with true. cbn [negb].
  change (33 >=? 33) with true. cbn [negb]. 
  rewrite wr_n_some by (rewrite ?repeat_length; lia). change (Z.to_nat 0) with 0%nat.
  rewrite copy_at_0 by (rewrite !repeat_length; reflexivity). rewrite repeat_length. change (Z.to_nat 33) with 33%nat.
  rewrite (skipn_all2 (n := 33)) by (rewrite repeat_length; lia). rewrite app_nil_r.
  destruct pk as [pk|]; [|cbn [r_out r_ret r_ill arg_fail]; eexists _, _; split; [reflexivity|apply repeat_length]].
  change (negb (Z.land EC_COMPRESSED 255 =? 2)) with false. cbv iota.
  destruct (pubkey_load pk) as [[] Q]; [|cbn [r_out r_ret r_ill]; eexists _, _; split; [reflexivity|apply repeat_length]].
  unfold eckey_pubkey_serialize. destruct (ge_is_infinity Q); [cbn [r_out r_ret r_ill]; eexists _, _; split; [reflexivity|apply repeat_length]|].
  cbv zeta.
  assert (L32 : forall a, length (fe_get_b32 a) = 32%nat) by reflexivity.
  set (l := (if fe_is_odd (fe_normalize_var (gy Q)) then 3 else 2) :: fe_get_b32 (fe_normalize_var (gx Q))).
  assert (L : length l = 33%nat) by (unfold l; cbn [length]; now rewrite L32).
  rewrite wr_n_some by (rewrite ?L, ?repeat_length; lia). rewrite copy_at_0 by (rewrite L, repeat_length; lia). rewrite L.
  rewrite (skipn_all2 (n := 33)) by (rewrite repeat_length; lia). rewrite app_nil_r. cbn [r_out r_ret r_ill].
  change (1 =? 0) with false. exists l, 0. split; [reflexivity|exact L].
Qed.
Definition kb (pk : option (list Z)) : list Z := match cmp_key pk with Some (o, _) => o | None => [] end.
Definition ki (pk : option (list Z)) : Z := match cmp_key pk with Some (_, i) => i | None => 0 end.
Lemma cmp_eq a b : ec_pubkey_cmp a b = Some (mkres (memcmp_var (kb a) (kb b)) (ki a + ki b) tt).
Proof.
  unfold ec_pubkey_cmp, kb, ki. destruct (cmp_key_total a) as (o & i & -> & _), (cmp_key_total b) as (o' & i' & -> & _). reflexivity.
Qed.
Lemma kb_length a : length (kb a) = 33%nat.
Proof. unfold kb. destruct (cmp_key_total a) as (o & i & -> & L). exact L. Qed.
Lemma kb_valid pk x y : pubkey_holds pk (Aff x y) -> cmp_key (Some pk) = Some (enc_compressed x y, 0).
Proof.
  intro H. destruct (prop_serialize pk (zeros 33) pk x y true H) as (L & T & _). unfold zeros in *. rewrite repeat_length in T. specialize (T (Nat.le_refl _)).
  unfold cmp_key, zeros. change (Z.of_nat 33) with 33 in T. rewrite T. cbn [r_out r_ret r_ill]. change (1 =? 0) with false. cbv iota.
  now rewrite app_nil_r.
Qed.
Lemma kb_invalid yb : bytes_n 32 yb -> cmp_key (Some (repeat 0 32 ++ yb)) = Some (repeat 0 33, 1).
Proof.
  intros (B & L).
  assert (LD : fst (pubkey_load (repeat 0 32 ++ yb)) = false).
  { unfold pubkey_load. cbv zeta. cbn [fst]. apply negb_false_iff.
    unfold ge_from_bytes. reflexivity. }
  unfold cmp_key, ec_pubkey_serialize, zeros.
  change (negb (Z.land EC_COMPRESSED 256 =? 0)) with true. cbn [negb].
  change (33 >=? 33) with true. cbn [negb]. 
  rewrite wr_n_some by (rewrite ?repeat_length; lia). change (Z.to_nat 0) with 0%nat.
  rewrite copy_at_0 by (rewrite !repeat_length; reflexivity). rewrite repeat_length. change (Z.to_nat 33) with 33%nat.
  rewrite (skipn_all2 (n := 33)) by (rewrite repeat_length; lia). rewrite app_nil_r.
  change (negb (Z.land EC_COMPRESSED 255 =? 2)) with false. cbv iota.
  destruct (pubkey_load (repeat 0 32 ++ yb)) as [ok Q]. cbn [fst] in LD. subst ok. reflexivity.
Qed.
Lemma kb_null : cmp_key None = Some (repeat 0 33, 1).
Proof. reflexivity. Qed.
Lemma kb_ok a ea : key_encoding a ea -> kb a = ea.
Proof. intros [pk x y H| |yb H]; unfold kb; [rewrite (kb_valid _ _ _ H)|rewrite kb_null|rewrite (kb_invalid _ H)]; reflexivity. Qed.
Lemma ki_valid a : key_valid a -> ki a = 0.
Proof. intros (l & x & y & -> & H). unfold ki. now rewrite (kb_valid _ _ _ H). Qed.

Lemma prop_cmp a b ea eb : key_encoding a ea -> key_encoding b eb ->
  exists c ill, ec_pubkey_cmp a b = Some (mkres c ill tt) /\ (c ?= 0) = lex ea eb /\ (key_valid a -> key_valid b -> ill = 0).
Proof.
  intros A B. eexists _, _. split; [apply cmp_eq|]. split.
  - rewrite memcmp_lex by now rewrite !kb_length. now rewrite (kb_ok _ _ A), (kb_ok _ _ B).
  - intros VA VB. now rewrite !ki_valid.
Qed.
Lemma compare_opp c c' : (c' ?= 0) = CompOpp (c ?= 0) -> Z.sgn c' = - Z.sgn c.
Proof. destruct (Z.compare_spec c 0), (Z.compare_spec c' 0); cbn; try discriminate; intros _; lia. Qed.
Lemma prop_cmp_order a b c : exists ab ba bc ac i1 i2 i3 i4,
  ec_pubkey_cmp a b = Some (mkres ab i1 tt) /\ ec_pubkey_cmp b a = Some (mkres ba i2 tt) /\ ec_pubkey_cmp b c = Some (mkres bc i3 tt) /\
  ec_pubkey_cmp a c = Some (mkres ac i4 tt) /\ Z.sgn ba = - Z.sgn ab /\ (ab <= 0 -> bc <= 0 -> ac <= 0) /\
  (ab = 0 -> key_valid a -> key_valid b -> a = b).
Proof.
  eexists _, _, _, _, _, _, _, _. split; [apply cmp_eq|]. split; [apply cmp_eq|]. split; [apply cmp_eq|]. split; [apply cmp_eq|].
  split; [apply compare_opp; rewrite !memcmp_lex by (now rewrite !kb_length); apply lex_opp|].
  assert (LE : forall a b, memcmp_var (kb a) (kb b) <= 0 <-> lex (kb a) (kb b) <> Gt).
  { intros u v. rewrite <- memcmp_lex by now rewrite !kb_length. unfold Z.le. reflexivity. }
  split; [rewrite !LE; apply lex_trans|]. intros E (pa & x & y & -> & H) (pb & x' & y' & -> & H').
  apply Z.compare_eq_iff in E. rewrite memcmp_lex in E by now rewrite !kb_length. apply lex_eq in E.
  rewrite (kb_ok _ _ (ke_valid _ _ _ H)), (kb_ok _ _ (ke_valid _ _ _ H')) in E. f_equal. exact (prop_serialize_inj pa x y pb x' y' true H H' E).
Qed.

(** ** Sorting *)
Lemma list_split {A} (d : A) (l l' : list A) k : (k <= length l)%nat -> length l' = length l -> (forall j, (k <= j)%nat -> nth j l' d = nth j l d) -> skipn k l' = skipn k l.
Proof.
  revert l l'; induction k as [|k IH]; intros l l' L E H.
  - cbn [skipn]. apply (nth_ext _ _ d d); [exact E|]. intros; apply H; lia.
  - destruct l as [|a l], l' as [|b l']; cbn in L, E; try lia. cbn [skipn]. apply IH; [lia|lia|]. intros j J. apply (H (S j)). lia.
Qed.
Lemma nth_firstn_lt {A} (d : A) k : forall (l : list A) i, (i < k)%nat -> nth i (firstn k l) d = nth i l d.
Proof. induction k as [|k IH]; intros [|a l] [|i] H; cbn; try lia; try reflexivity. apply IH. lia. Qed.
Lemma sorted_of_nth {A} (d : A) (R : A -> A -> Prop) (l : list A) : (forall i j, (i < j < length l)%nat -> R (nth i l d) (nth j l d)) -> StronglySorted R l.
Proof.
  induction l as [|a l IH]; intro H; constructor.
  - apply IH. intros i j IJ. apply (H (S i) (S j)). cbn. lia.
  - apply Forall_forall. intros x X. apply (In_nth _ _ d) in X as (j & J & <-). apply (H 0%nat (S j)). cbn. lia.
Qed.
Lemma hsort_list {A} (d : A) (cmp : A -> A -> Z * Z) arr rest :
  exists arr' ill, hsort cmp (arr ++ rest) (length arr) = Some (arr' ++ rest, ill) /\ Permutation arr arr' /\
    (noill cmp (arr ++ rest) -> ill = 0) /\ (forall le, ordered cmp le -> StronglySorted le arr').
Proof.
  destruct (hsort_ok d cmp (arr ++ rest) (length arr)) as (l' & ill & E & NI & (P & L & OUT & ALL) & ST); [rewrite app_length; lia|].
  exists (firstn (length arr) l'), ill.
  assert (SK : skipn (length arr) l' = rest).
  { rewrite (list_split d (arr ++ rest) l'); [|rewrite app_length; lia|exact L|intros j J; apply OUT; now right].
    rewrite skipn_app, skipn_all, Nat.sub_diag. reflexivity. }
  assert (EQ : l' = firstn (length arr) l' ++ rest) by (rewrite <- SK; symmetry; apply firstn_skipn).
  split; [rewrite <- EQ; exact E|]. split; [|split; [exact NI|]].
  - apply (Permutation_app_inv_r rest). rewrite <- EQ. exact P.
  - intros le O. apply (sorted_of_nth d). intros i j IJ. rewrite firstn_length in IJ. rewrite !nth_firstn_lt by lia. apply (ST le O); lia.
Qed.
Lemma prop_hsort {A} (cmp : A -> A -> Z) arr rest :
  exists arr', hsort (fun x y => (cmp x y, 0)) (arr ++ rest) (length arr) = Some (arr' ++ rest, 0) /\ Permutation arr arr' /\
    (total_preorder cmp -> StronglySorted (fun a b => cmp a b <= 0) arr').
Proof.
  destruct arr as [|d arr].
  { exists []. split; [reflexivity|]. split; [constructor|]. constructor. }
  destruct (hsort_list d (fun x y => (cmp x y, 0)) (d :: arr) rest) as (arr' & ill & E & P & NI & ST). exists arr'.
  assert (ill = 0) as -> by (apply NI; intros x y _ _; reflexivity). split; [exact E|]. split; [exact P|].
  intros (AS & TR). apply ST. cbn [fst]. split; [|split; [|split]].
  - intros x y. cbn [fst]. specialize (AS x y). destruct (Z.sgn_spec (cmp x y)) as [[? ?]|[[? ?]|[? ?]]], (Z.sgn_spec (cmp y x)) as [[? ?]|[[? ?]|[? ?]]]; lia.
  - intros x y. cbn [fst]. lia.
  - intros x y. cbn [fst]. specialize (AS x y). destruct (Z.sgn_spec (cmp x y)) as [[? ?]|[[? ?]|[? ?]]], (Z.sgn_spec (cmp y x)) as [[? ?]|[[? ?]|[? ?]]]; lia.
  - exact TR.
Qed.
Lemma prop_sort pks rest : Forall (fun pk => exists e, key_encoding pk e) pks ->
  exists pks' ill, ec_pubkey_sort (Some (pks ++ rest)) (length pks) = Some (mkres 1 ill (Some (pks' ++ rest))) /\
    Permutation pks pks' /\ StronglySorted key_le pks' /\ (Forall key_valid (pks ++ rest) -> ill = 0).
Proof.
  intro K. destruct (hsort_list None ec_pubkey_sort_cmp pks rest) as (pks' & ill & E & P & NI & ST). exists pks', ill.
  split; [unfold ec_pubkey_sort; now rewrite E|]. split; [exact P|]. split.
  - assert (O : ordered ec_pubkey_sort_cmp (fun a b => lex (kb a) (kb b) <> Gt)).
    { assert (C : forall a b, (fst (ec_pubkey_sort_cmp a b) ?= 0) = lex (kb a) (kb b)).
      { intros a b. unfold ec_pubkey_sort_cmp. rewrite cmp_eq. cbn [fst r_ret]. apply memcmp_lex. now rewrite !kb_length. }
      split; [|split; [|split]].
      - intros x y. rewrite lex_opp, <- C. destruct (Z.compare_spec (fst (ec_pubkey_sort_cmp x y)) 0); cbn [CompOpp]; split; intros; lia || congruence.
      - intros x y. rewrite <- C. destruct (Z.compare_spec (fst (ec_pubkey_sort_cmp x y)) 0); split; intro HH; try lia; try (exfalso; apply HH; congruence). intro X; apply X; reflexivity.
      - intros x y. rewrite (lex_opp (kb x) (kb y)). destruct (lex (kb x) (kb y)); cbn; [left|left|right]; congruence.
      - intros x y z. apply lex_trans. }
    specialize (ST _ O). assert (K' : Forall (fun pk => exists e, key_encoding pk e) pks') by now apply (Permutation_Forall P).
    clear - ST K'. induction pks' as [|a l IH]; constructor.
    + apply IH; [now inversion ST|now inversion K'].
    + inversion ST; subst. inversion K'; subst. destruct H3 as (ea & EA). rewrite Forall_forall in H2, H4 |- *. intros b B.
      destruct (H4 b B) as (eb & EB). exists ea, eb. split; [exact EA|]. split; [exact EB|]. rewrite <- (kb_ok _ _ EA), <- (kb_ok _ _ EB). now apply H2.
  - intros V. apply NI. rewrite Forall_forall in V. intros x y X Y. unfold ec_pubkey_sort_cmp. rewrite cmp_eq. cbn [snd r_ill]. rewrite !ki_valid by auto. reflexivity.
Qed.

(** ** The byte swap *)
Lemma rd_n_mid pre u rest k : length u = k -> rd_n (pre ++ u ++ rest) (len pre) (Z.of_nat k) = Some u.
Proof. intros <-. rewrite rd_n_app by (rewrite app_length; lia). f_equal. rewrite firstn_app, firstn_all, Nat.sub_diag. apply app_nil_r. Qed.
Lemma wr_n_mid pre u v rest : length u = length v -> wr_n (pre ++ u ++ rest) (len pre) v = Some (pre ++ v ++ rest).
Proof.
  intro L. rewrite wr_app by (rewrite app_length; lia). do 3 f_equal. rewrite skipn_app, skipn_all2 by lia. cbn [app]. rewrite L, Nat.sub_diag. reflexivity.
Qed.
Lemma swap64_ok P u Q v R k : length u = k -> length v = k ->
  heap_swap64 (P ++ u ++ Q ++ v ++ R) (len P) (len P + Z.of_nat k + len Q) (Z.of_nat k) = Some (P ++ v ++ Q ++ u ++ R) /\
  heap_swap64 (P ++ u ++ Q ++ v ++ R) (len P + Z.of_nat k + len Q) (len P) (Z.of_nat k) = Some (P ++ v ++ Q ++ u ++ R).
Proof.
  intros U V. assert (O : len P + Z.of_nat k + len Q = len (P ++ u ++ Q)) by (rewrite !app_length; lia).
  assert (O' : len P + Z.of_nat k + len Q = len (P ++ v ++ Q)) by (rewrite !app_length; lia).
  unfold heap_swap64. rewrite !(rd_n_mid P u _ k U).
  replace (P ++ u ++ Q ++ v ++ R) with ((P ++ u ++ Q) ++ v ++ R) by now rewrite <- !app_assoc.
  rewrite O, (rd_n_mid (P ++ u ++ Q) v _ k V). rewrite (wr_n_mid (P ++ u ++ Q) v u) by congruence.
  rewrite <- !app_assoc. rewrite (wr_n_mid P u v) by congruence. rewrite (wr_n_mid P u v) by congruence.
  split; [|reflexivity]. rewrite <- O, O'. replace (P ++ v ++ Q ++ v ++ R) with ((P ++ v ++ Q) ++ v ++ R) by now rewrite <- !app_assoc.
  rewrite wr_n_mid by congruence. now rewrite <- !app_assoc.
Qed.
Lemma swap_loop_ok : forall fuel P xa xb Q ya yb R k (a b : Z) (flip : bool), length xa = k -> length ya = k -> (k < fuel)%nat -> length xb = length yb ->
  let oP := len P in let oQ := len P + Z.of_nat k + len yb + len Q in
  a = (if flip then oQ else oP) -> b = (if flip then oP else oQ) ->
  heap_swap_loop fuel (P ++ xa ++ yb ++ Q ++ ya ++ xb ++ R) a b (Z.of_nat k) = Some (P ++ ya ++ yb ++ Q ++ xa ++ xb ++ R).
Proof.
  induction fuel as [|fuel IH]; intros P xa xb Q ya yb R k a b flip LX LY F LB oP oQ HA HB; [lia|]. cbn [heap_swap_loop].
  destruct (Z.ltb_spec 64 (Z.of_nat k)) as [H|H].
  - set (k' := (k - 64)%nat). assert (KK : Z.of_nat k - 64 = Z.of_nat k') by lia. rewrite KK.
    rewrite <- (firstn_skipn k' xa), <- (firstn_skipn k' ya).
    set (x1 := firstn k' xa). set (x2 := skipn k' xa). set (y1 := firstn k' ya). set (y2 := skipn k' ya).
    assert (X1 : length x1 = k') by (unfold x1; rewrite firstn_length; lia). assert (X2 : length x2 = 64%nat) by (unfold x2; rewrite skipn_length; lia).
    assert (Y1 : length y1 = k') by (unfold y1; rewrite firstn_length; lia). assert (Y2 : length y2 = 64%nat) by (unfold y2; rewrite skipn_length; lia).
    destruct (swap64_ok (P ++ x1) x2 (yb ++ Q ++ y1) y2 (xb ++ R) 64 X2 Y2) as (S1 & S2).
    change (Z.of_nat 64) with 64 in S1, S2.
    replace ((P ++ x1) ++ x2 ++ (yb ++ Q ++ y1) ++ y2 ++ xb ++ R) with (P ++ (x1 ++ x2) ++ yb ++ Q ++ (y1 ++ y2) ++ xb ++ R) in S1, S2 by now rewrite <- !app_assoc.
    assert (E : heap_swap64 (P ++ (x1 ++ x2) ++ yb ++ Q ++ (y1 ++ y2) ++ xb ++ R) (a + Z.of_nat k') (b + Z.of_nat k') 64 =
       Some ((P ++ x1) ++ y2 ++ (yb ++ Q ++ y1) ++ x2 ++ xb ++ R)).
    { rewrite !app_length in S1, S2. subst a b. unfold oP, oQ. destruct flip; [rewrite <- S2|rewrite <- S1]; f_equal; lia. }
    rewrite E.
    replace ((P ++ x1) ++ y2 ++ (yb ++ Q ++ y1) ++ x2 ++ xb ++ R) with (P ++ x1 ++ (y2 ++ yb) ++ Q ++ y1 ++ (x2 ++ xb) ++ R) by now rewrite <- !app_assoc.
    rewrite (IH P x1 (x2 ++ xb) Q y1 (y2 ++ yb) R k' a b flip); [now rewrite <- !app_assoc|assumption|assumption|lia|rewrite !app_length; lia| |];
      rewrite app_length; [rewrite HA|rewrite HB]; unfold oP, oQ; destruct flip; lia.
  - destruct (swap64_ok P xa (yb ++ Q) ya (xb ++ R) k LX LY) as (S1 & S2). rewrite <- !app_assoc in S1, S2. rewrite app_length in S1, S2.
    subst a b. unfold oP, oQ. destruct flip; [rewrite <- S2|rewrite <- S1]; f_equal; lia.
Qed.
Lemma prop_heap_swap P x Q y R i j stride : Z.of_nat (length x) = stride -> Z.of_nat (length y) = stride ->
  Z.of_nat (length P) = i * stride -> Z.of_nat (length (P ++ x ++ Q)) = j * stride ->
  heap_swap_bytes (P ++ x ++ Q ++ y ++ R) i j stride = Some (P ++ y ++ Q ++ x ++ R) /\
  heap_swap_bytes (P ++ x ++ Q ++ y ++ R) j i stride = Some (P ++ y ++ Q ++ x ++ R).
Proof.
  intros X Y I J. rewrite !app_length in J. unfold heap_swap_bytes. rewrite <- I, <- J, <- X.
  split; [apply (swap_loop_ok _ P x [] Q y [] R (length x) _ _ false)|apply (swap_loop_ok _ P x [] Q y [] R (length x) _ _ true)]; cbn [length]; lia.
Qed.

(** Concrete cases. *)
Lemma w_keys : Forall (fun pk => exists e, key_encoding pk e) [Some w_pk; None; Some (repeat 0 64)].
Proof.
  constructor; [eexists; exact (ke_valid _ _ _ w_pk_ok)|]. constructor; [eexists; exact ke_null|]. constructor; [|constructor].
  exists (repeat 0 33). change (repeat 0 64) with (repeat 0 32 ++ repeat 0 32). apply ke_invalid. split; [apply byte_list_repeat; lia|reflexivity].
Qed.
Lemma w_preorder : total_preorder (fun x y : Z => x / 2 - y / 2).
Proof. split; intros; lia. Qed.
