(** Property C101: what the SM4 modes reveal about equal blocks, how CBC plaintexts can be changed
    without the key, and what removing the padding tells. *)
From Coq Require Import ZArith List Lia String Bool.
From Verif Require Import GoBase Sm3 Sm3Proofs.
From Verif Require Sm4Spec.
From Verif Require Import Sm4 Sm4Proofs Util PropsSm4Util.
Import ListNotations.
Open Scope Z_scope.

Local Notation xor := Sm4Spec.xor_bytes.
Local Notation block := Sm4Spec.block.

(** ** Blocks *)
Lemma xor_comm : forall a b, xor a b = xor b a.
Proof.
  induction a as [|x a IH]; intros [|y b]; try reflexivity.
  change (Z.lxor x y :: xor a b = Z.lxor y x :: xor b a). rewrite IH, Z.lxor_comm. reflexivity.
Qed.
Lemma xor_assoc : forall a b c, xor (xor a b) c = xor a (xor b c).
Proof.
  induction a as [|x a IH]; intros [|y b] [|z c]; try reflexivity.
  change (Z.lxor (Z.lxor x y) z :: xor (xor a b) c = Z.lxor x (Z.lxor y z) :: xor a (xor b c)).
  rewrite IH, Z.lxor_assoc. reflexivity.
Qed.
Lemma xor_cancel : forall a b c, zlen a = zlen c -> zlen b = zlen c -> xor a c = xor b c -> a = b.
Proof.
  intros a b c La Lb E. rewrite <- (xor_bytes_twice a c La), <- (xor_bytes_twice b c Lb), E. reflexivity.
Qed.

Lemma block_len : forall m i, 0 <= i < zlen m / 16 -> zlen (block m i) = 16.
Proof.
  intros m i H. pose proof (Z.mul_div_le (zlen m) 16). unfold Sm4Spec.block. rewrite sub_length; lia.
Qed.
Lemma block_bytes : forall m i, bytes m -> bytes (block m i).
Proof. intros m i B. apply sub_bytes. exact B. Qed.

(** A ciphertext block of CBC is the image of the plaintext block xored with what precedes it. *)
Definition before (iv c : list Z) (i : Z) : list Z := if i =? 0 then iv else block c (i - 1).
Lemma before_ok : forall iv c i, zlen iv = 16 -> bytes iv -> bytes c -> 0 <= i < zlen c / 16 ->
  zlen (before iv c i) = 16 /\ bytes (before iv c i).
Proof.
  intros iv c i L B Bc H. unfold before. destruct (Z.eqb_spec i 0); [auto|].
  split; [apply block_len; lia|apply block_bytes; exact Bc].
Qed.

Lemma block_ext : forall a b, zlen a = zlen b -> zlen a mod 16 = 0 ->
  (forall i, 0 <= i < zlen a / 16 -> block a i = block b i) -> a = b.
Proof.
  intros a b L M H. destruct (blocks_of a M) as (bs & E & F & Ln).
  assert (M' : zlen b mod 16 = 0) by congruence. destruct (blocks_of b M') as (cs & E' & F' & Ln').
  subst a b. f_equal. apply nth_ext with [] [].
  - unfold zlen in *. lia.
  - intros n Hn. specialize (H (Z.of_nat n)). rewrite !block_concat in H; auto.
    + rewrite Nat2Z.id in H. apply H. unfold zlen in *. lia.
    + unfold zlen in *. lia.
    + unfold zlen in *. lia.
Qed.

Lemma ecb_out : forall key p c q, zlen key = 16 -> bytes p -> ECBEncrypt key p = Ret (Ok c, q) ->
  zlen p mod 16 = 0 /\ zlen c = zlen p /\ forall i, 0 <= i < zlen p / 16 -> block c i = Sm4Spec.sm4_enc key (block p i).
Proof.
  intros key p c q K B H. destruct (Z.eq_dec (zlen p mod 16) 0) as [M|M].
  - destruct (C11_ecb key p K B M) as (c' & E & L & X & _). assert (c' = c) by congruence. subst c'. auto.
  - destruct (C11_length_error key p [] M) as (E & _). congruence.
Qed.

Lemma cbc_out : forall key iv p c q, zlen key = 16 -> zlen iv = 16 -> bytes iv -> bytes p -> CBCEncrypt key iv p = Ret (Ok c, q) ->
  zlen p mod 16 = 0 /\ zlen c = zlen p /\ bytes c /\
  forall i, 0 <= i < zlen p / 16 -> block c i = Sm4Spec.sm4_enc key (xor (block p i) (before iv c i)).
Proof.
  intros key iv p c q K I Bi B H. destruct (Z.eq_dec (zlen p mod 16) 0) as [M|M].
  - destruct (C12_cbc key iv p K I Bi B M) as (c' & E & L & X & _). assert (c' = c) by congruence. subst c'.
    split; [exact M|]. split; [exact L|]. split; [|exact X].
    destruct (blocks_of c ltac:(congruence)) as (bs & E' & F & Ln). rewrite E'. apply Forall_concat.
    apply Forall_forall. intros b Hb. apply In_nth with (d := []) in Hb. destruct Hb as (n & Hn & <-).
    assert (R : 0 <= Z.of_nat n < zlen bs) by (unfold zlen; lia).
    rewrite <- (Nat2Z.id n). rewrite <- (block_concat bs (Z.of_nat n)) by assumption. rewrite <- E'.
    rewrite X by lia. apply crypt_bytes.
  - destruct (C11_length_error key p iv M) as (_ & _ & E & _). congruence.
Qed.

Lemma cbc_in : forall key iv c p q, zlen key = 16 -> zlen iv = 16 -> CBCDecrypt key iv c = Ret (Ok p, q) ->
  zlen c mod 16 = 0 /\ zlen p = zlen c /\
  forall i, 0 <= i < zlen c / 16 -> block p i = xor (Sm4Spec.sm4_dec key (block c i)) (before iv c i).
Proof.
  intros key iv c p q K I H. destruct (Z.eq_dec (zlen c mod 16) 0) as [M|M].
  - destruct (C12_cbc_decrypt key iv c K I M) as (p' & E & L & X). assert (p' = p) by congruence. subst p'. auto.
  - destruct (C11_length_error key c iv M) as (_ & _ & _ & E). congruence.
Qed.

(** ** C101 *)

(** ECB: two ciphertext blocks under one key are equal exactly when the plaintext blocks are. *)
Theorem C101_ecb_equal_blocks : forall key p1 p2 c1 c2 q1 q2 i j, zlen key = 16 -> bytes p1 -> bytes p2 ->
  ECBEncrypt key p1 = Ret (Ok c1, q1) -> ECBEncrypt key p2 = Ret (Ok c2, q2) ->
  0 <= i < zlen p1 / 16 -> 0 <= j < zlen p2 / 16 ->
  (block c1 i = block c2 j <-> block p1 i = block p2 j).
Proof.
  intros key p1 p2 c1 c2 q1 q2 i j K B1 B2 E1 E2 Hi Hj.
  destruct (ecb_out _ _ _ _ K B1 E1) as (M1 & L1 & X1). destruct (ecb_out _ _ _ _ K B2 E2) as (M2 & L2 & X2).
  rewrite X1, X2 by assumption. split; [|congruence].
  apply C08_permutation; try apply block_bytes; try apply block_len; assumption.
Qed.

(** CBC: two ciphertext blocks under one key are equal exactly when the two plaintext blocks
    differ by what the two preceding blocks (or ivs) differ by. *)
Theorem C101_cbc_equal_blocks : forall key iv1 iv2 p1 p2 c1 c2 q1 q2 i j, zlen key = 16 ->
  zlen iv1 = 16 -> zlen iv2 = 16 -> bytes iv1 -> bytes iv2 -> bytes p1 -> bytes p2 ->
  CBCEncrypt key iv1 p1 = Ret (Ok c1, q1) -> CBCEncrypt key iv2 p2 = Ret (Ok c2, q2) ->
  0 <= i < zlen p1 / 16 -> 0 <= j < zlen p2 / 16 ->
  (block c1 i = block c2 j <->
   xor (block p1 i) (block p2 j) = xor (if i =? 0 then iv1 else block c1 (i - 1)) (if j =? 0 then iv2 else block c2 (j - 1))).
Proof.
  intros key iv1 iv2 p1 p2 c1 c2 q1 q2 i j K I1 I2 Bi1 Bi2 B1 B2 E1 E2 Hi Hj.
  destruct (cbc_out _ _ _ _ _ K I1 Bi1 B1 E1) as (M1 & L1 & Bc1 & X1).
  destruct (cbc_out _ _ _ _ _ K I2 Bi2 B2 E2) as (M2 & L2 & Bc2 & X2).
  fold (before iv1 c1 i) (before iv2 c2 j).
  assert (H1 : 0 <= i < zlen c1 / 16) by (rewrite L1; exact Hi).
  assert (H2 : 0 <= j < zlen c2 / 16) by (rewrite L2; exact Hj).
  destruct (before_ok iv1 c1 i I1 Bi1 Bc1 H1) as (Z1 & Y1). destruct (before_ok iv2 c2 j I2 Bi2 Bc2 H2) as (Z2 & Y2).
  rewrite X1, X2 by assumption. pose proof (block_len p1 i Hi) as W1. pose proof (block_len p2 j Hj) as W2.
  pose proof (block_bytes p1 i B1) as V1. pose proof (block_bytes p2 j B2) as V2.
  revert Z1 Y1 Z2 Y2 W1 V1 W2 V2. generalize (before iv1 c1 i) (before iv2 c2 j) (block p1 i) (block p2 j).
  intros x y a b Z1 Y1 Z2 Y2 W1 V1 W2 V2. clear - Z1 Y1 Z2 Y2 W1 V1 W2 V2 K. split; intro E.
  - apply C08_permutation in E.
    + apply (xor_cancel _ _ x); [rewrite xor_bytes_len; lia|rewrite xor_bytes_len; lia|].
      rewrite xor_assoc, (xor_comm b x), <- xor_assoc, E.
      rewrite (xor_comm x y), xor_bytes_twice by lia. rewrite (xor_comm b y), xor_bytes_twice by lia. reflexivity.
    + apply xor_bytes_bytes; assumption.
    + apply xor_bytes_bytes; assumption.
    + rewrite xor_bytes_len; lia.
    + rewrite xor_bytes_len; lia.
  - f_equal. apply (xor_cancel _ _ b); [rewrite xor_bytes_len; lia|rewrite xor_bytes_len; lia|].
    rewrite xor_assoc, (xor_comm x b), <- xor_assoc, E. rewrite (xor_comm x y), xor_bytes_twice by lia.
    rewrite (xor_comm b y), xor_bytes_twice by lia. reflexivity.
Qed.

(** CBC with the same key and iv: the ciphertexts agree in their first blocks exactly as far as
    the plaintexts do. *)
Theorem C101_cbc_common_prefix : forall key iv p1 p2 c1 c2 q1 q2 n, zlen key = 16 ->
  zlen iv = 16 -> bytes iv -> bytes p1 -> bytes p2 ->
  CBCEncrypt key iv p1 = Ret (Ok c1, q1) -> CBCEncrypt key iv p2 = Ret (Ok c2, q2) ->
  n <= zlen p1 / 16 -> n <= zlen p2 / 16 ->
  ((forall i, 0 <= i < n -> block c1 i = block c2 i) <-> (forall i, 0 <= i < n -> block p1 i = block p2 i)).
Proof.
  intros key iv p1 p2 c1 c2 q1 q2 n K I Bi B1 B2 E1 E2 N1 N2.
  destruct (cbc_out _ _ _ _ _ K I Bi B1 E1) as (M1 & L1 & Bc1 & X1).
  destruct (cbc_out _ _ _ _ _ K I Bi B2 E2) as (M2 & L2 & Bc2 & X2). split; intro H.
  - intros i Hi. pose proof (H i Hi) as Ei. rewrite X1, X2 in Ei by lia.
    assert (EB : before iv c1 i = before iv c2 i).
    { unfold before. destruct (Z.eqb_spec i 0); [reflexivity|]. apply H. lia. }
    rewrite EB in Ei.
    destruct (before_ok iv c2 i I Bi Bc2) as (Z2 & Y2); [rewrite L2; lia|].
    pose proof (block_len p1 i ltac:(lia)) as W1. pose proof (block_len p2 i ltac:(lia)) as W2.
    apply (xor_cancel _ _ (before iv c2 i)); [lia|lia|].
    apply C08_permutation in Ei; [exact Ei|apply xor_bytes_bytes; [apply block_bytes; exact B1|exact Y2]
      |apply xor_bytes_bytes; [apply block_bytes; exact B2|exact Y2]|rewrite xor_bytes_len; lia|rewrite xor_bytes_len; lia].
  - assert (G : forall k : nat, forall i, Z.of_nat k = i -> 0 <= i < n -> block c1 i = block c2 i).
    { induction k as [|k IH]; intros i Ek Hi.
      - assert (E0 : i = 0) by lia. clear Ek. subst i. rewrite X1, X2 by lia. rewrite (H 0) by lia. reflexivity.
      - rewrite X1, X2 by lia. rewrite (H i) by lia. unfold before. destruct (Z.eqb_spec i 0); [reflexivity|].
        rewrite (IH (i - 1)) by lia. reflexivity. }
    intros i Hi. apply (G (Z.to_nat i)); lia.
Qed.

(** CBC decryption of a changed ciphertext. Xoring [d] into the iv xors [d] into the first
    plaintext block; xoring [d] into block [i] of the ciphertext xors [d] into block [i + 1] of the
    plaintext; besides block [i] nothing else changes. *)
Theorem C101_cbc_change_iv : forall key iv d c p p' q q', zlen key = 16 -> zlen iv = 16 -> zlen d = 16 ->
  CBCDecrypt key iv c = Ret (Ok p, q) -> CBCDecrypt key (xor iv d) c = Ret (Ok p', q') ->
  forall j, 0 <= j < zlen c / 16 -> block p' j = if j =? 0 then xor (block p 0) d else block p j.
Proof.
  intros key iv d c p p' q q' K I D E E' j Hj.
  destruct (cbc_in _ _ _ _ _ K I E) as (M & L & X). destruct (cbc_in _ (xor iv d) _ _ _ K ltac:(rewrite xor_bytes_len; lia) E') as (M' & L' & X').
  rewrite X' by exact Hj. unfold before. destruct (Z.eqb_spec j 0) as [->|N].
  - rewrite X by exact Hj. unfold before. cbn [Z.eqb]. rewrite xor_assoc. reflexivity.
  - rewrite X by exact Hj. unfold before. destruct (Z.eqb_spec j 0); [lia|]. reflexivity.
Qed.

Theorem C101_cbc_change_block : forall key iv d c c' p p' q q' i, zlen key = 16 -> zlen iv = 16 -> zlen d = 16 ->
  CBCDecrypt key iv c = Ret (Ok p, q) -> CBCDecrypt key iv c' = Ret (Ok p', q') ->
  zlen c' = zlen c -> 0 <= i < zlen c / 16 ->
  (forall j, 0 <= j < zlen c / 16 -> block c' j = if j =? i then xor (block c i) d else block c j) ->
  forall j, 0 <= j < zlen c / 16 -> j <> i -> block p' j = if j =? i + 1 then xor (block p (i + 1)) d else block p j.
Proof.
  intros key iv d c c' p p' q q' i K I D E E' L Hi HC j Hj Nj.
  destruct (cbc_in _ _ _ _ _ K I E) as (M & Lp & X). destruct (cbc_in _ _ _ _ _ K I E') as (M' & Lp' & X').
  rewrite X' by (rewrite L; exact Hj). rewrite (HC j Hj). destruct (Z.eqb_spec j i); [lia|].
  unfold before. destruct (Z.eqb_spec j 0) as [->|N0].
  - destruct (Z.eqb_spec 0 (i + 1)); [lia|]. rewrite X by exact Hj. reflexivity.
  - rewrite (HC (j - 1)) by lia. destruct (Z.eqb_spec (j - 1) i) as [Ei|Ni].
    + assert (Ej : j = i + 1) by lia. rewrite <- Ej. rewrite Z.eqb_refl. rewrite X by exact Hj. unfold before.
      destruct (Z.eqb_spec j 0); [lia|]. rewrite xor_assoc. rewrite Ei. reflexivity.
    + destruct (Z.eqb_spec j (i + 1)); [lia|]. rewrite X by exact Hj. unfold before.
      destruct (Z.eqb_spec j 0); [lia|]. reflexivity.
Qed.

(** Removing the padding from a decrypted ciphertext: the length of the result tells the last
    plaintext byte, and so does the mere fact whether a panic occurs, when the iv can be chosen. *)
Definition opened (key iv c : list Z) : go (list Z) :=
  do (r, _) <- CBCDecrypt key iv c;
  match r with Ok p => PKCS5UnPadding p | Err _ => Ret [] end.

Lemma last_nth15 : forall p : list Z, zlen p = 16 -> exists a, p = a ++ [nth 15 p 0] /\ zlen a = 15.
Proof.
  intros p L. exists (firstn 15 p). split.
  - rewrite <- (firstn_skipn 15 p) at 1. f_equal. unfold zlen in L.
    do 16 (destruct p as [|? p]; [cbn [List.length] in L; lia|]). destruct p; [reflexivity|cbn [List.length] in L; lia].
  - unfold zlen in *. rewrite firstn_length. lia.
Qed.

Theorem C101_length_tells_last_byte : forall key iv c p q out, zlen key = 16 -> zlen iv = 16 -> bytes p ->
  CBCDecrypt key iv c = Ret (Ok p, q) -> opened key iv c = Ret out ->
  nth (Z.to_nat (zlen c - 1)) p 0 = zlen c - zlen out.
Proof.
  intros key iv c p q out K I B E H. unfold opened in H. rewrite E in H. cbn [bind] in H.
  destruct (cbc_in _ _ _ _ _ K I E) as (_ & L & _). rewrite <- L.
  destruct (C15_unpad_exact p B) as [[-> X]|(a & l & -> & [[_ X]|(Hl & pre & X & suf & E2 & Ls)])]; [congruence|congruence|].
  assert (pre = out) by congruence. subst pre.
  assert (LL : zlen (a ++ [l]) = zlen out + l) by (rewrite E2, zlen_app; lia). rewrite LL. rewrite zlen_app in LL. change (zlen [l]) with 1 in LL.
  replace (Z.to_nat (zlen out + l - 1)) with (List.length a) by (unfold zlen in *; lia).
  rewrite app_nth2 by lia. rewrite Nat.sub_diag. cbn [nth]. lia.
Qed.

Lemma opened_block : forall key iv c, zlen key = 16 -> zlen iv = 16 -> bytes iv -> zlen c = 16 ->
  exists p, CBCDecrypt key iv c = Ret (Ok p, c) /\ zlen p = 16 /\ p = xor (Sm4Spec.sm4_dec key c) iv /\
    ((exists k, opened key iv c = Panic k) <-> 16 < nth 15 p 0).
Proof.
  intros key iv c K I Bi L. assert (M : zlen c mod 16 = 0) by (rewrite L; reflexivity).
  destruct (C12_cbc_decrypt key iv c K I M) as (p & E & Lp & X). exists p. split; [exact E|]. split; [lia|].
  assert (F : forall m, zlen m = 16 -> block m 0 = m).
  { intros m Lm. unfold Sm4Spec.block. change (16 * 0) with 0. change (0 + 16) with 16. rewrite <- Lm. apply sub_all. }
  specialize (X 0 ltac:(rewrite L; cbn; lia)). cbn [Z.eqb] in X. rewrite !F in X by lia. split; [exact X|].
  assert (B : bytes p) by (rewrite X; apply xor_bytes_bytes; [apply crypt_bytes|exact Bi]).
  destruct (last_nth15 p ltac:(lia)) as (a & Ea & La). unfold opened. rewrite E. cbn [bind].
  destruct (C15_unpad_exact p B) as [[-> _]|(a' & l & E2 & D)]; [cbn in Lp; lia|].
  assert (l = nth 15 p 0).
  { rewrite Ea in E2 at 1. apply app_inj_tail in E2. symmetry. apply E2. }
  subst l. destruct D as [[Hl ->]|(Hl & pre & -> & _)].
  - split; [intros _; lia|intros _; eauto].
  - split; [intros [k Y]; discriminate|lia].
Qed.

Lemma small_shift : forall t, 0 <= t -> (forall x, 0 <= x <= 16 -> Z.lxor x t <= 16) -> t = 0.
Proof.
  intros t Ht H. pose proof (H 0 ltac:(lia)) as H0. rewrite Z.lxor_0_l in H0.
  pose proof (H 16 ltac:(lia)) as H16. pose proof (H 1 ltac:(lia)) as H1.
  assert (C : t = 0 \/ t = 1 \/ t = 2 \/ t = 3 \/ t = 4 \/ t = 5 \/ t = 6 \/ t = 7 \/ t = 8 \/ t = 9 \/ t = 10 \/ t = 11 \/
    t = 12 \/ t = 13 \/ t = 14 \/ t = 15 \/ t = 16) by lia. clear Ht H H0.
  repeat (destruct C as [->|C]; [try reflexivity; exfalso; revert H16 H1; cbn; lia|]).
  subst t. exfalso. revert H1. cbn. lia.
Qed.

Theorem C101_padding_oracle : forall key1 key2 c1 c2, zlen key1 = 16 -> zlen key2 = 16 -> zlen c1 = 16 -> zlen c2 = 16 ->
  (forall iv, zlen iv = 16 -> bytes iv -> ((exists k, opened key1 iv c1 = Panic k) <-> (exists k, opened key2 iv c2 = Panic k))) ->
  forall iv p1 p2 q1 q2, zlen iv = 16 -> bytes iv ->
    CBCDecrypt key1 iv c1 = Ret (Ok p1, q1) -> CBCDecrypt key2 iv c2 = Ret (Ok p2, q2) -> nth 15 p1 0 = nth 15 p2 0.
Proof.
  intros key1 key2 c1 c2 K1 K2 L1 L2 H iv p1 p2 q1 q2 I Bi E1 E2.
  set (D1 := Sm4Spec.sm4_dec key1 c1). set (D2 := Sm4Spec.sm4_dec key2 c2).
  assert (LD1 : zlen D1 = 16) by apply sm4_dec_len. assert (LD2 : zlen D2 = 16) by apply sm4_dec_len.
  assert (BD1 : bytes D1) by apply crypt_bytes. assert (BD2 : bytes D2) by apply crypt_bytes.
  assert (NX : forall a b, zlen a = 16 -> zlen b = 16 -> nth 15 (xor a b) 0 = Z.lxor (nth 15 a 0) (nth 15 b 0)).
  { intros a b La Lb. destruct (last_nth15 a La) as (a' & Ea & _). unfold zlen in *.
    do 16 (destruct a as [|? a]; [cbn [List.length] in La; lia|]). do 16 (destruct b as [|? b]; [cbn [List.length] in Lb; lia|]).
    reflexivity. }
  assert (BN : forall a, bytes a -> zlen a = 16 -> 0 <= nth 15 a 0 < 256).
  { intros a Ba La. apply (proj1 (Forall_forall byte a) Ba). apply nth_In. unfold zlen in La. lia. }
  set (t1 := nth 15 D1 0) in *. set (t2 := nth 15 D2 0) in *.
  assert (T : t1 = t2).
  { assert (Z0 : Z.lxor t1 t2 = 0).
    { apply small_shift.
      - apply Z.lxor_nonneg. pose proof (BN D1 BD1 LD1). pose proof (BN D2 BD2 LD2). split; intro; unfold t1, t2; lia.
      - intros x Hx.
        set (v := repeat 0 15 ++ [Z.lxor t1 x]).
        assert (Lv : zlen v = 16) by reflexivity.
        assert (Bx : byte (Z.lxor t1 x)).
        { pose proof (BN D1 BD1 LD1) as R. fold t1 in R. unfold byte. clearbody t1.
          split; [apply Z.lxor_nonneg; lia|]. destruct (Z.eq_dec (Z.lxor t1 x) 0) as [->|Nz]; [lia|].
          assert (0 <= Z.lxor t1 x) by (apply Z.lxor_nonneg; lia).
          change 256 with (2 ^ 8). apply Z.log2_lt_pow2; [lia|].
          pose proof (Z.log2_lxor t1 x ltac:(lia) ltac:(lia)) as LG.
          assert (Z.log2 t1 < 8) by (destruct (Z.eq_dec t1 0) as [->|]; [reflexivity|apply Z.log2_lt_pow2; lia]).
          assert (Z.log2 x < 8) by (destruct (Z.eq_dec x 0) as [->|]; [reflexivity|apply Z.log2_lt_pow2; lia]). lia. }
        assert (Bv : bytes v).
        { apply bytes_app. split; [repeat constructor; discriminate|]. constructor; [exact Bx|constructor]. }
        destruct (opened_block key1 v c1 K1 Lv Bv L1) as (a & Ea & La & Xa & Pa).
        destruct (opened_block key2 v c2 K2 Lv Bv L2) as (b & Eb & Lb & Xb & Pb).
        pose proof (H v Lv Bv) as Hv. rewrite Pa, Pb in Hv.
        assert (Na : nth 15 a 0 = x).
        { rewrite Xa. fold D1. rewrite NX by assumption. fold t1. change (nth 15 v 0) with (Z.lxor t1 x).
          rewrite <- Z.lxor_assoc, Z.lxor_nilpotent. apply Z.lxor_0_l. }
        assert (Nb : nth 15 b 0 = Z.lxor x (Z.lxor t1 t2)).
        { rewrite Xb. fold D2. rewrite NX by assumption. fold t2. change (nth 15 v 0) with (Z.lxor t1 x).
          rewrite (Z.lxor_comm t2), (Z.lxor_comm t1 x), Z.lxor_assoc. reflexivity. }
        rewrite Na, Nb in Hv. lia. }
    apply Z.lxor_eq. exact Z0. }
  destruct (opened_block key1 iv c1 K1 I Bi L1) as (a & Ea & La & Xa & _).
  destruct (opened_block key2 iv c2 K2 I Bi L2) as (b & Eb & Lb & Xb & _).
  assert (G1 : p1 = a) by congruence. assert (G2 : p2 = b) by congruence. rewrite G1, G2, Xa, Xb. fold D1 D2.
  rewrite !NX by assumption. fold t1 t2. rewrite T. reflexivity.
Qed.

(** The standard's key, with a two-block message and one change of each kind. *)
Example C101_ex : zlen vkey = 16 /\ bytes vkey /\ bytes (vkey ++ vkey) /\ zlen (vkey ++ vkey) / 16 = 2 /\
  block (vkey ++ vkey) 0 = block (vkey ++ vkey) 1 /\
  (exists c, CBCEncrypt vkey vkey (vkey ++ vkey) = Ret (Ok c, vkey ++ vkey)) /\
  (exists p, CBCDecrypt vkey vkey (vkey ++ vkey) = Ret (Ok p, vkey ++ vkey)) /\
  (exists p, CBCDecrypt vkey (xor vkey (repeat 1 16)) (vkey ++ vkey) = Ret (Ok p, vkey ++ vkey)).
Proof.
  assert (B : bytes vkey) by apply be_enc_bytes.
  assert (B2 : bytes (vkey ++ vkey)) by (apply bytes_app; auto).
  split; [reflexivity|]. split; [exact B|]. split; [exact B2|]. split; [reflexivity|]. split; [reflexivity|].
  split; [|split].
  - destruct (C12_cbc vkey vkey (vkey ++ vkey)) as (c & E & _); [reflexivity|reflexivity|exact B|exact B2|reflexivity|eauto].
  - destruct (C12_cbc_decrypt vkey vkey (vkey ++ vkey)) as (p & E & _); [reflexivity|reflexivity|reflexivity|eauto].
  - destruct (C12_cbc_decrypt vkey (xor vkey (repeat 1 16)) (vkey ++ vkey)) as (p & E & _); [reflexivity|reflexivity|reflexivity|eauto].
Qed.

Print Assumptions C101_ecb_equal_blocks.
Print Assumptions C101_cbc_equal_blocks.
Print Assumptions C101_cbc_common_prefix.
Print Assumptions C101_cbc_change_iv.
Print Assumptions C101_cbc_change_block.
Print Assumptions C101_length_tells_last_byte.
Print Assumptions C101_padding_oracle.
