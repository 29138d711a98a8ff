(** Properties C07-C17: the SM4 block cipher, its modes, and the padding helpers. *)
From Coq Require Import ZArith List Lia String Bool.
From Verif Require Import GoBase Sm3 Sm3Proofs.
From Verif Require Sm4Spec.
From Verif Require Import Sm4 Sm4Proofs Util.
Import ListNotations.
Open Scope Z_scope.
Local Ltac Zify.zify_post_hook ::= Z.div_mod_to_equations.

(** * SM4 *)

(** C07 and C09 together: what Encrypt does to memory. The heap is any byte array, dst and src any
    windows of it, overlapping or not. Nothing but the first 16 bytes of dst changes, and they
    become the standard's image of the 16 bytes src held before the call. *)
Theorem C07_encrypt_standard : forall key c h dst src,
  zlen key = 16 -> NewCipher key = Ok c ->
  window h dst -> window h src -> 16 <= len dst -> 16 <= len src ->
  Encrypt c h dst src =
    Ret (splice h (off dst) (Sm4Spec.sm4_enc key (sub h (off src) (off src + 16)))).
Proof.
  intros key c h dst src Hk E. rewrite NewCipher_ok in E by auto. injection E as <-.
  apply Encrypt_ok.
Qed.

Theorem C07_decrypt_standard : forall key c h dst src,
  zlen key = 16 -> NewCipher key = Ok c ->
  window h dst -> window h src -> 16 <= len dst -> 16 <= len src ->
  Decrypt c h dst src =
    Ret (splice h (off dst) (Sm4Spec.sm4_dec key (sub h (off src) (off src + 16)))).
Proof.
  intros key c h dst src Hk E. rewrite NewCipher_ok in E by auto. injection E as <-.
  apply Decrypt_ok.
Qed.

(** A key that does not have 16 bytes is refused with its length; a block that is too short is refused
    by a panic that says which one, whatever the key, and no byte is written. *)
Theorem C07_refusals :
  (forall key, zlen key <> 16 -> NewCipher key = Err (KeySizeError (zlen key))) /\
  (forall c h dst src, len src < 16 ->
     Encrypt c h dst src = Panic (PUser "sm4: input not full block") /\
     Decrypt c h dst src = Panic (PUser "sm4: input not full block")) /\
  (forall c h dst src, 16 <= len src -> len dst < 16 ->
     Encrypt c h dst src = Panic (PUser "sm4: output not full block") /\
     Decrypt c h dst src = Panic (PUser "sm4: output not full block")).
Proof.
  unfold NewCipher, Encrypt, Decrypt, KeySize, BlockSize. split; [|split].
  - intros key H. destruct (Z.eqb_spec (zlen key) 16); [contradiction|reflexivity].
  - intros c h dst src H. destruct (Z.ltb_spec (len src) 16); [|lia]. split; reflexivity.
  - intros c h dst src H1 H2. destruct (Z.ltb_spec (len src) 16); [lia|]. destruct (Z.ltb_spec (len dst) 16); [|lia]. split; reflexivity.
Qed.

(** The published test vector, for the specification. *)
Local Transparent Sm4Spec.round_keys Sm4Spec.crypt processBlock.
Definition vkey : list Z := be_enc 16 0x0123456789abcdeffedcba9876543210.
Example C07_vector : Sm4Spec.sm4_enc vkey vkey = be_enc 16 0x681edf34d206965e86b3e94f536e4246.
Proof. vm_compute. reflexivity. Qed.
Example C07_case : exists c, NewCipher vkey = Ok c /\
  Encrypt c (vkey ++ repeat 0 16) (mkSlice 16 16) (mkSlice 0 16) =
  Ret (vkey ++ be_enc 16 0x681edf34d206965e86b3e94f536e4246).
Proof. eexists. split; [reflexivity|]. vm_compute. reflexivity. Qed.
Local Opaque Sm4Spec.round_keys Sm4Spec.crypt processBlock.

(** C08. Decrypt undoes Encrypt and Encrypt undoes Decrypt, in place on a 16-byte buffer. *)
Theorem C08_inverse : forall key c b,
  zlen key = 16 -> NewCipher key = Ok c -> bytes b -> zlen b = 16 ->
  let s := mkSlice 0 16 in
  (do h <- Encrypt c b s s; Decrypt c h s s) = Ret b /\
  (do h <- Decrypt c b s s; Encrypt c h s s) = Ret b.
Proof.
  intros key c b Hk E Hb Hl. rewrite NewCipher_ok in E by auto. injection E as <-. cbv zeta.
  assert (W : forall h, zlen h = 16 -> window h (mkSlice 0 16))
    by (intros h Hh; unfold window; cbn [off len]; lia).
  assert (Sp : forall l h : list Z, zlen l = 16 -> zlen h = 16 -> splice h 0 l = l).
  { intros l0 h H1 H2. pose proof (splice_mid _ [] h [] l0 0 eq_refl ltac:(lia)) as S.
    rewrite !app_nil_r in S. exact S. }
  assert (Su : forall h : list Z, zlen h = 16 -> sub h 0 (0 + 16) = h).
  { intros h Hh. replace (0 + 16) with (zlen h) by lia. apply sub_all. }
  split.
  - rewrite Encrypt_ok by (cbn [off len]; auto; lia). cbn [bind off].
    rewrite Su, Sp by (auto using sm4_enc_len).
    rewrite Decrypt_ok by (cbn [off len]; auto using sm4_enc_len; lia). cbn [off].
    rewrite Su, Sp by (auto using sm4_enc_len, sm4_dec_len).
    unfold Sm4Spec.sm4_dec, Sm4Spec.sm4_enc. rewrite crypt_inverse by auto. reflexivity.
  - rewrite Decrypt_ok by (cbn [off len]; auto; lia). cbn [bind off].
    rewrite Su, Sp by (auto using sm4_dec_len).
    rewrite Encrypt_ok by (cbn [off len]; auto using sm4_dec_len; lia). cbn [off].
    rewrite Su, Sp by (auto using sm4_enc_len, sm4_dec_len).
    unfold Sm4Spec.sm4_dec, Sm4Spec.sm4_enc.
    rewrite <- (rev_involutive (Sm4Spec.round_keys key)) at 1. rewrite crypt_inverse by auto. reflexivity.
Qed.

(** Hence both are injective on blocks. *)
Theorem C08_permutation : forall key b1 b2,
  bytes b1 -> bytes b2 -> zlen b1 = 16 -> zlen b2 = 16 ->
  Sm4Spec.sm4_enc key b1 = Sm4Spec.sm4_enc key b2 -> b1 = b2.
Proof.
  intros key b1 b2 H1 H2 L1 L2 E. unfold Sm4Spec.sm4_enc in E.
  rewrite <- (crypt_inverse (Sm4Spec.round_keys key) b1) by auto. rewrite E.
  apply crypt_inverse; auto.
Qed.

Example C08_case : exists c, NewCipher vkey = Ok c /\ bytes vkey /\ zlen vkey = 16.
Proof. eexists. split; [reflexivity|]. split; [apply be_enc_bytes|reflexivity]. Qed.

(** C09. Exactly which calls panic, and that nothing outside dst[0:16] is written. *)
Theorem C09_footprint : forall key c h dst src,
  zlen key = 16 -> NewCipher key = Ok c -> window h dst -> window h src ->
  ((exists k, Encrypt c h dst src = Panic k) <-> len src < 16 \/ len dst < 16) /\
  ((exists k, Decrypt c h dst src = Panic k) <-> len src < 16 \/ len dst < 16) /\
  (forall h', Encrypt c h dst src = Ret h' \/ Decrypt c h dst src = Ret h' ->
     zlen h' = zlen h /\
     forall i, 0 <= i < zlen h -> ~ (off dst <= i < off dst + 16) ->
       nth (Z.to_nat i) h' 0 = nth (Z.to_nat i) h 0).
Proof.
  intros key c h dst src Hk E Wd Ws.
  assert (P : forall b : bool, let f := if b then Encrypt c h dst src else Decrypt c h dst src in
     (exists k, f = Panic k) /\ (len src < 16 \/ len dst < 16) \/
     16 <= len src /\ 16 <= len dst /\ exists o, zlen o = 16 /\ f = Ret (splice h (off dst) o)).
  { intro b. cbv zeta.
    destruct (Z.lt_ge_cases (len src) 16) as [A|A].
    - left. split; [|auto]. unfold Encrypt, Decrypt, BlockSize.
      destruct (Z.ltb_spec (len src) 16); [|lia]. destruct b; eauto.
    - destruct (Z.lt_ge_cases (len dst) 16) as [B|B].
      + left. split; [|auto]. unfold Encrypt, Decrypt, BlockSize.
        destruct (Z.ltb_spec (len src) 16); [lia|].
        destruct (Z.ltb_spec (len dst) 16); [|lia]. destruct b; eauto.
      + right. split; [lia|]. split; [lia|]. destruct b.
        * rewrite (C07_encrypt_standard key) by auto. eexists. split; [|reflexivity]. apply sm4_enc_len.
        * rewrite (C07_decrypt_standard key) by auto. eexists. split; [|reflexivity]. apply sm4_dec_len. }
  pose proof (P true) as Pe. pose proof (P false) as Pd. cbv zeta iota in Pe, Pd. clear P.
  assert (Q : forall f : go (list Z), ((exists k, f = Panic k) /\ (len src < 16 \/ len dst < 16) \/
     16 <= len src /\ 16 <= len dst /\ exists o, zlen o = 16 /\ f = Ret (splice h (off dst) o)) ->
     ((exists k, f = Panic k) <-> len src < 16 \/ len dst < 16) /\
     forall h', f = Ret h' -> zlen h' = zlen h /\ forall i, 0 <= i < zlen h ->
       ~ (off dst <= i < off dst + 16) -> nth (Z.to_nat i) h' 0 = nth (Z.to_nat i) h 0).
  { intros f [(Hp & Hl)|(H1 & H2 & o & Ho & ->)].
    - split; [tauto|]. destruct Hp as [k ->]. discriminate.
    - split; [split; [intros [k Hk']; discriminate|lia]|].
      intros h' E'. injection E' as <-. destruct Wd as (W1 & W2 & W3).
      split; [apply splice_length; lia|]. intros i Hi N.
      destruct (splice_decomp _ h o (off dst)) as (a & b & d & Eh & A1 & A2 & ->); [lia|lia|].
      subst h. rewrite !zlen_app in Hi. unfold zlen in *.
      destruct (Z.lt_ge_cases i (off dst)).
      + rewrite !app_nth1 by lia. reflexivity.
      + rewrite (app_nth2 a (o ++ d)), (app_nth2 a (b ++ d)) by lia.
        rewrite (app_nth2 o d), (app_nth2 b d) by lia. f_equal. lia. }
  destruct (Q _ Pe) as [Q1 Q2]. destruct (Q _ Pd) as [Q3 Q4].
  split; [exact Q1|]. split; [exact Q3|]. intros h' [H|H]; auto.
Qed.

(** C09, the value written, for every overlap: see C07_encrypt_standard (any two windows). *)
Example C09_case : exists c h', NewCipher vkey = Ok c /\
  window (repeat 7 40) (mkSlice 3 20) /\ window (repeat 7 40) (mkSlice 8 16) /\
  Encrypt c (repeat 7 40) (mkSlice 3 20) (mkSlice 8 16) = Ret h' /\ h' <> repeat 7 40.
Proof.
  Local Transparent Sm4Spec.round_keys Sm4Spec.crypt processBlock.
  destruct (NewCipher vkey) as [c|] eqn:E; [|discriminate].
  exists c, (match Encrypt c (repeat 7 40) (mkSlice 3 20) (mkSlice 8 16) with Ret x => x | _ => [] end).
  split; [reflexivity|]. injection E as <-.
  split; [unfold window; cbn; lia|]. split; [unfold window; cbn; lia|].
  split; [reflexivity|].
  intro H. apply (f_equal (fun x => nth 3 x 0)) in H. vm_compute in H. discriminate.
Qed.
Local Opaque Sm4Spec.round_keys Sm4Spec.crypt processBlock.

(** C10. Keys of any other length are refused, with the length in the error, and no data. *)
Theorem C10_key_length : forall key data iv,
  zlen key <> 16 -> zlen data mod 16 = 0 ->
  NewCipher key = Err (KeySizeError (zlen key)) /\
  ECBEncrypt key data = Ret (Err (KeySizeError (zlen key)), data) /\
  ECBDecrypt key data = Ret (Err (KeySizeError (zlen key)), data) /\
  CBCEncrypt key iv data = Ret (Err (KeySizeError (zlen key)), data) /\
  CBCDecrypt key iv data = Ret (Err (KeySizeError (zlen key)), data).
Proof.
  intros key data iv Hk Hd. unfold ECBEncrypt, ECBDecrypt, CBCEncrypt, CBCDecrypt, BlockSize.
  cbv zeta. rewrite Hd, NewCipher_err by auto. cbn [Z.eqb negb]. auto.
Qed.

Theorem C10_key_length_iff : forall key, (exists c, NewCipher key = Ok c) <-> zlen key = 16.
Proof.
  intro key. split.
  - intros [c E]. destruct (Z.eq_dec (zlen key) 16); auto. rewrite NewCipher_err in E by auto. discriminate.
  - intro H. rewrite NewCipher_ok by auto. eauto.
Qed.

Example C10_case : zlen [1; 2; 3] <> 16 /\ zlen (repeat 0 32) mod 16 = 0.
Proof. split; [discriminate|reflexivity]. Qed.

(** C11. *)
Lemma blocks_of : forall m, zlen m mod 16 = 0 ->
  exists bs, m = List.concat bs /\ Forall is_block bs /\ zlen bs = zlen m / 16.
Proof.
  intros m H. pose proof (zlen_nonneg _ m).
  destruct (to_blocks (Z.to_nat (zlen m / 16)) m) as (bs & E & F & Ln); [lia|].
  exists bs. split; [auto|]. split; [auto|]. unfold zlen at 1. lia.
Qed.

Lemma concat_bytes : forall bs, bytes (List.concat bs) -> Forall bytes bs.
Proof.
  induction bs; intro H; constructor; cbn [List.concat] in H; apply bytes_app in H; tauto.
Qed.

Theorem C11_ecb : forall key plain,
  zlen key = 16 -> bytes plain -> zlen plain mod 16 = 0 ->
  exists cipher, ECBEncrypt key plain = Ret (Ok cipher, plain) /\
    zlen cipher = zlen plain /\
    (forall i, 0 <= i < zlen plain / 16 ->
       Sm4Spec.block cipher i = Sm4Spec.sm4_enc key (Sm4Spec.block plain i)) /\
    ECBDecrypt key cipher = Ret (Ok plain, cipher).
Proof.
  intros key plain Hk Hb Hm. destruct (blocks_of plain Hm) as (bs & E & F & Ln).
  assert (F2 : Forall is_block (map (Sm4Spec.sm4_enc key) bs)) by (apply map_blocks, sm4_enc_len).
  exists (List.concat (map (Sm4Spec.sm4_enc key) bs)). rewrite E in *.
  rewrite ECBEncrypt_ok by auto. split; [reflexivity|].
  split.
  { rewrite !concat_blocks_len by auto. unfold zlen. rewrite map_length. reflexivity. }
  split.
  { intros i Hi. rewrite <- Ln in Hi. rewrite !block_concat; auto.
    - rewrite (nth_indep _ _ (Sm4Spec.sm4_enc key [])) by (rewrite map_length; unfold zlen in *; lia).
      apply map_nth.
    - unfold zlen in *. rewrite map_length. lia. }
  rewrite ECBDecrypt_ok by auto. rewrite map_map.
  replace (map _ bs) with bs; auto.
  apply concat_bytes in Hb. clear - F Hb. induction bs as [|b bs IH]; [reflexivity|].
  inversion F; inversion Hb; subst. cbn [map]. f_equal; auto.
  symmetry. apply crypt_inverse; auto.
Qed.

(** Decryption of arbitrary data of whole blocks is block-wise as well. *)
Theorem C11_ecb_decrypt : forall key cipher,
  zlen key = 16 -> zlen cipher mod 16 = 0 ->
  exists plain, ECBDecrypt key cipher = Ret (Ok plain, cipher) /\ zlen plain = zlen cipher /\
    forall i, 0 <= i < zlen cipher / 16 ->
       Sm4Spec.block plain i = Sm4Spec.sm4_dec key (Sm4Spec.block cipher i).
Proof.
  intros key cipher Hk Hm. destruct (blocks_of cipher Hm) as (bs & E & F & Ln).
  assert (F2 : Forall is_block (map (Sm4Spec.sm4_dec key) bs)) by (apply map_blocks, sm4_dec_len).
  exists (List.concat (map (Sm4Spec.sm4_dec key) bs)). rewrite E in *.
  rewrite ECBDecrypt_ok by auto. split; [reflexivity|]. split.
  { rewrite !concat_blocks_len by auto. unfold zlen. rewrite map_length. reflexivity. }
  intros i Hi. rewrite <- Ln in Hi. rewrite !block_concat; auto.
  - rewrite (nth_indep _ _ (Sm4Spec.sm4_dec key [])) by (rewrite map_length; unfold zlen in *; lia).
    apply map_nth.
  - unfold zlen in *. rewrite map_length. lia.
Qed.

Theorem C11_length_error : forall key data iv, zlen data mod 16 <> 0 ->
  ECBEncrypt key data = Ret (Err NotFullBlocks, data) /\
  ECBDecrypt key data = Ret (Err NotFullBlocks, data) /\
  CBCEncrypt key iv data = Ret (Err NotFullBlocks, data) /\
  CBCDecrypt key iv data = Ret (Err NotFullBlocks, data).
Proof.
  intros key data iv H. unfold ECBEncrypt, ECBDecrypt, CBCEncrypt, CBCDecrypt, BlockSize. cbv zeta.
  destruct (Z.eqb_spec (zlen data mod 16) 0); [lia|]. cbn [negb]. auto.
Qed.

Theorem C11_never_panics : forall key data,
  (exists r, ECBEncrypt key data = Ret r) /\ (exists r, ECBDecrypt key data = Ret r).
Proof.
  intros key data. destruct (Z.eq_dec (zlen data mod 16) 0) as [H|H].
  - destruct (Z.eq_dec (zlen key) 16) as [K|K].
    + destruct (blocks_of data H) as (bs & E & F & _). rewrite E.
      rewrite ECBEncrypt_ok, ECBDecrypt_ok by auto. eauto.
    + destruct (C10_key_length key data [] K H) as (_ & -> & -> & _). eauto.
  - destruct (C11_length_error key data [] H) as (-> & -> & _). eauto.
Qed.

Example C11_case : zlen vkey = 16 /\ bytes (vkey ++ vkey) /\ zlen (vkey ++ vkey) mod 16 = 0.
Proof. split; [reflexivity|]. split; [apply bytes_app; split; apply be_enc_bytes|reflexivity]. Qed.

(** C12. *)
Lemma cbc_enc_nth : forall key bs iv k, (k < List.length bs)%nat ->
  nth k (cbc_enc (Sm4Spec.sm4_enc key) iv bs) [] =
  Sm4Spec.sm4_enc key (Sm4Spec.xor_bytes (nth k bs [])
    (match k with O => iv | S j => nth j (cbc_enc (Sm4Spec.sm4_enc key) iv bs) [] end)).
Proof.
  induction bs as [|b bs IH]; intros iv k Hk; [cbn in Hk; lia|].
  cbn [cbc_enc]. cbv zeta. destruct k; [reflexivity|].
  cbn [nth]. cbn [List.length] in Hk. rewrite IH by lia. destruct k; reflexivity.
Qed.

Lemma cbc_enc_shape : forall key bs iv, Forall is_block (cbc_enc (Sm4Spec.sm4_enc key) iv bs) /\
  zlen (cbc_enc (Sm4Spec.sm4_enc key) iv bs) = zlen bs.
Proof.
  induction bs; intros iv; cbn [cbc_enc]; [split; [constructor|reflexivity]|].
  cbv zeta. destruct (IHbs (Sm4Spec.sm4_enc key (Sm4Spec.xor_bytes a iv))) as [I1 I2].
  rewrite !zlen_cons, I2. split; [|reflexivity]. constructor; auto. unfold is_block. apply sm4_enc_len.
Qed.

Theorem C12_cbc : forall key iv plain,
  zlen key = 16 -> zlen iv = 16 -> bytes iv -> bytes plain -> zlen plain mod 16 = 0 ->
  exists cipher, CBCEncrypt key iv plain = Ret (Ok cipher, plain) /\
    zlen cipher = zlen plain /\
    (forall i, 0 <= i < zlen plain / 16 ->
       Sm4Spec.block cipher i = Sm4Spec.sm4_enc key (Sm4Spec.xor_bytes (Sm4Spec.block plain i)
         (if i =? 0 then iv else Sm4Spec.block cipher (i - 1)))) /\
    CBCDecrypt key iv cipher = Ret (Ok plain, cipher).
Proof.
  intros key iv plain Hk Hiv Hbi Hb Hm. destruct (blocks_of plain Hm) as (bs & E & F & Ln).
  destruct (cbc_enc_shape key bs iv) as [S1 S2].
  exists (List.concat (cbc_enc (Sm4Spec.sm4_enc key) iv bs)). rewrite E in *.
  rewrite CBCEncrypt_ok by auto. split; [reflexivity|].
  split; [rewrite !concat_blocks_len, S2 by auto; reflexivity|]. split.
  - intros i Hi. rewrite <- Ln in Hi.
    rewrite (block_concat (cbc_enc _ _ _)) by (auto; lia).
    rewrite (block_concat bs) by auto.
    rewrite cbc_enc_nth by (unfold zlen in Hi; lia). f_equal. f_equal.
    destruct (Z.eqb_spec i 0) as [->|N]; [reflexivity|].
    rewrite block_concat by (auto; lia).
    replace (Z.to_nat i) with (S (Z.to_nat (i - 1))) by lia. reflexivity.
  - rewrite CBCDecrypt_ok by auto. rewrite cbc_round; auto. apply concat_bytes; auto.
Qed.

(** Decryption of arbitrary ciphertext: P[i] = D(C[i]) xor C[i-1]. *)
Lemma cbc_dec_nth : forall key bs iv k, (k < List.length bs)%nat ->
  nth k (cbc_dec (Sm4Spec.sm4_dec key) iv bs) [] =
  Sm4Spec.xor_bytes (Sm4Spec.sm4_dec key (nth k bs [])) (match k with O => iv | S j => nth j bs [] end).
Proof.
  induction bs as [|b bs IH]; intros iv k Hk; [cbn in Hk; lia|].
  cbn [cbc_dec]. destruct k; [reflexivity|].
  cbn [nth]. cbn [List.length] in Hk. rewrite IH by lia. destruct k; reflexivity.
Qed.

Theorem C12_cbc_decrypt : forall key iv cipher,
  zlen key = 16 -> zlen iv = 16 -> zlen cipher mod 16 = 0 ->
  exists plain, CBCDecrypt key iv cipher = Ret (Ok plain, cipher) /\ zlen plain = zlen cipher /\
    forall i, 0 <= i < zlen cipher / 16 ->
       Sm4Spec.block plain i = Sm4Spec.xor_bytes (Sm4Spec.sm4_dec key (Sm4Spec.block cipher i))
         (if i =? 0 then iv else Sm4Spec.block cipher (i - 1)).
Proof.
  intros key iv cipher Hk Hiv Hm. destruct (blocks_of cipher Hm) as (bs & E & F & Ln).
  destruct (cbc_dec_blocks key bs iv Hiv F) as [S1 S2].
  exists (List.concat (cbc_dec (Sm4Spec.sm4_dec key) iv bs)). rewrite E in *.
  rewrite CBCDecrypt_ok by auto. split; [reflexivity|].
  split; [rewrite !concat_blocks_len, S2 by auto; reflexivity|].
  intros i Hi. rewrite <- Ln in Hi.
  rewrite (block_concat (cbc_dec _ _ _)) by (auto; lia).
  rewrite (block_concat bs) by auto.
  rewrite cbc_dec_nth by (unfold zlen in Hi; lia). f_equal.
  destruct (Z.eqb_spec i 0) as [->|N]; [reflexivity|].
  rewrite block_concat by (auto; lia).
  replace (Z.to_nat i) with (S (Z.to_nat (i - 1))) by lia. reflexivity.
Qed.

Theorem C12_bad_iv_panics : forall key iv data,
  zlen key = 16 -> zlen data mod 16 = 0 -> zlen iv <> 16 ->
  (exists k, CBCEncrypt key iv data = Panic k) /\ (exists k, CBCDecrypt key iv data = Panic k).
Proof.
  intros key iv data Hk Hd Hiv. unfold CBCEncrypt, CBCDecrypt, BlockSize. cbv zeta.
  rewrite Hd, NewCipher_ok by auto. cbn [Z.eqb negb].
  destruct (Z.eqb_spec (zlen iv) 16); [lia|]. cbn [negb]. eauto.
Qed.

Example C12_case : zlen vkey = 16 /\ bytes vkey /\ zlen (vkey ++ vkey) mod 16 = 0.
Proof. split; [reflexivity|]. split; [apply be_enc_bytes|reflexivity]. Qed.

(** * Padding *)

(** A valid slice of a backing array. *)
Definition gwindow (h : list Z) (s : gslice) : Prop :=
  0 <= g_off s /\ 0 <= g_len s <= g_cap s /\ g_off s + g_cap s <= zlen h.

Lemma contents_len : forall h s, gwindow h s -> zlen (contents h s) = g_len s.
Proof. intros h s (H1 & H2 & H3). unfold contents. rewrite sub_length; lia. Qed.

Lemma append_contents : forall h s l, gwindow h s -> snd (append h s l) = contents h s ++ l.
Proof.
  intros h s l (H1 & H2 & H3). unfold append.
  destruct (Z.leb_spec (g_len s + zlen l) (g_cap s)) as [C|C]; [|reflexivity].
  cbn [snd]. pose proof (zlen_nonneg _ l).
  destruct (splice_decomp _ h l (g_off s + g_len s)) as (a & b & c & E & A1 & A2 & E2); [lia|lia|].
  unfold contents. cbn [g_off g_len]. rewrite E2, E.
  rewrite (sub_app_left _ a (b ++ c)) by lia.
  rewrite app_assoc. rewrite (sub_app_left _ (a ++ l) c) by (rewrite ?zlen_app; lia).
  unfold sub. rewrite skipn_app. rewrite firstn_app.
  replace (skipn (Z.to_nat (g_off s) - List.length a) l) with l
    by (replace (Z.to_nat (g_off s) - List.length a)%nat with 0%nat by (unfold zlen in *; lia); reflexivity).
  rewrite (firstn_all2 (skipn _ a)) by (rewrite skipn_length; unfold zlen in *; lia).
  rewrite (firstn_all2 (skipn _ a)) by (rewrite skipn_length; unfold zlen in *; lia).
  f_equal. apply firstn_all2. rewrite skipn_length. unfold zlen in *. lia.
Qed.

(** The padding rule. *)
Definition pad_count (len blockSize : Z) : Z := blockSize - len mod blockSize.

Lemma go_rem_ok : forall a b, 0 <= a -> 1 <= b -> go_rem a b = Ret (a mod b).
Proof.
  intros a b H1 H2. unfold go_rem. destruct (Z.eqb_spec b 0); [lia|].
  rewrite Z.rem_mod_nonneg by lia. reflexivity.
Qed.

Lemma repeatByte_ok : forall b n, 0 <= n -> repeatByte b n = Ret (repeat b (Z.to_nat n)).
Proof. intros b n H. unfold repeatByte. destruct (Z.ltb_spec n 0); [lia|reflexivity]. Qed.

Lemma pkcs5_run : forall h s b, gwindow h s -> 1 <= b ->
  PKCS5Padding h s b = Ret (append h s (repeat (pad_count (g_len s) b mod 256) (Z.to_nat (pad_count (g_len s) b)))).
Proof.
  intros h s b (H1 & H2 & H3) Hb. unfold PKCS5Padding. rewrite go_rem_ok by lia. cbn [bind].
  fold (pad_count (g_len s) b). rewrite repeatByte_ok; [reflexivity|].
  unfold pad_count. pose proof (Z.mod_pos_bound (g_len s) b). lia.
Qed.

Lemma zero_run : forall h s b, gwindow h s -> 1 <= b ->
  ZeroPadding h s b = Ret (append h s (repeat 0 (Z.to_nat (pad_count (g_len s) b)))).
Proof.
  intros h s b (H1 & H2 & H3) Hb. unfold ZeroPadding. rewrite go_rem_ok by lia. cbn [bind].
  fold (pad_count (g_len s) b). rewrite repeatByte_ok; [reflexivity|].
  unfold pad_count. pose proof (Z.mod_pos_bound (g_len s) b). lia.
Qed.

Lemma unpad_run : forall m u n, 0 <= u <= zlen m + n -> 1 <= n ->
  PKCS5UnPadding (m ++ repeat u (Z.to_nat n)) = Ret (firstn (Z.to_nat (zlen m + n - u)) (m ++ repeat u (Z.to_nat n))).
Proof.
  intros m u n H H1. unfold PKCS5UnPadding. cbv zeta.
  pose proof (zlen_nonneg _ m).
  assert (Ln : zlen (m ++ repeat u (Z.to_nat n)) = zlen m + n) by (rewrite zlen_app, zlen_repeat; lia).
  rewrite Ln. rewrite (go_index_ret _ _ _ 0) by lia. cbn [bind].
  rewrite app_nth2 by (unfold zlen in *; lia).
  rewrite (nth_indep _ 0 u) by (rewrite repeat_length; unfold zlen in *; lia). rewrite nth_repeat.
  rewrite go_slice_ret by lia. unfold sub. cbn [skipn Z.to_nat]. rewrite Z.sub_0_r. reflexivity.
Qed.

(** C14. Shape of the padded message and inversion, for every block size. *)
Theorem C14_pkcs5_shape : forall h s b,
  gwindow h s -> 1 <= b ->
  exists h' out p, PKCS5Padding h s b = Ret (h', out) /\
    out = contents h s ++ p /\ 1 <= zlen p <= b /\ zlen out mod b = 0 /\
    Forall (fun x => x = zlen p mod 256) p.
Proof.
  intros h s b W Hb. rewrite pkcs5_run by auto.
  set (n := pad_count (g_len s) b).
  assert (Hn : 1 <= n <= b) by (unfold n, pad_count; pose proof (Z.mod_pos_bound (g_len s) b); lia).
  exists (fst (append h s (repeat (n mod 256) (Z.to_nat n)))),
         (snd (append h s (repeat (n mod 256) (Z.to_nat n)))), (repeat (n mod 256) (Z.to_nat n)).
  split; [destruct (append _ _ _); reflexivity|].
  rewrite append_contents by auto. rewrite zlen_app, contents_len, zlen_repeat by auto.
  rewrite Z2Nat.id by lia. split; [reflexivity|]. split; [lia|]. split.
  - unfold n, pad_count. destruct W as (W1 & W2 & W3).
    replace (g_len s + (b - g_len s mod b)) with ((g_len s / b + 1) * b).
    + apply Z.mod_mul. lia.
    + pose proof (Z.div_mod (g_len s) b). lia.
  - apply Forall_forall. intros x Hx. apply repeat_spec in Hx. exact Hx.
Qed.

Theorem C14_pkcs5_inverse_iff : forall h s b,
  gwindow h s -> 1 <= b ->
  exists h' out, PKCS5Padding h s b = Ret (h', out) /\
    (PKCS5UnPadding out = Ret (contents h s) <-> zlen out - g_len s < 256).
Proof.
  intros h s b W Hb. rewrite pkcs5_run by auto.
  set (n := pad_count (g_len s) b).
  assert (Hn : 1 <= n <= b) by (unfold n, pad_count; pose proof (Z.mod_pos_bound (g_len s) b); lia).
  exists (fst (append h s (repeat (n mod 256) (Z.to_nat n)))),
         (snd (append h s (repeat (n mod 256) (Z.to_nat n)))).
  split; [destruct (append _ _ _); reflexivity|].
  rewrite append_contents by auto.
  set (m := contents h s). assert (Hm : zlen m = g_len s) by (apply contents_len; auto).
  pose proof (zlen_nonneg _ m).
  rewrite unpad_run by lia. rewrite zlen_app, zlen_repeat, Z2Nat.id by lia.
  split.
  - intro E. injection E as E. apply (f_equal (@List.length Z)) in E.
    rewrite firstn_length, app_length, repeat_length in E. unfold zlen in *. lia.
  - intro L. rewrite Z.mod_small by lia. f_equal.
    replace (zlen m + n - n) with (zlen m) by lia. apply firstn_app_exact. unfold zlen. lia.
Qed.

Corollary C14_pkcs5_roundtrip : forall h s b,
  gwindow h s -> 1 <= b <= 255 ->
  exists h' out, PKCS5Padding h s b = Ret (h', out) /\ PKCS5UnPadding out = Ret (contents h s).
Proof.
  intros h s b W Hb. destruct (C14_pkcs5_inverse_iff h s b W) as (h' & out & E & I); [lia|].
  destruct (C14_pkcs5_shape h s b W) as (h2 & out2 & p & E2 & -> & Hp & _); [lia|].
  rewrite E in E2. injection E2 as -> ->. eexists _, _. split; [exact E|]. apply I.
  rewrite zlen_app, contents_len by auto. lia.
Qed.

Theorem C14_zero_block_panics : forall h s, PKCS5Padding h s 0 = Panic PDiv /\ ZeroPadding h s 0 = Panic PDiv.
Proof. intros. split; reflexivity. Qed.

Theorem C14_large_block_refuted : exists h s b h' out,
  gwindow h s /\ 1 <= b /\ PKCS5Padding h s b = Ret (h', out) /\ PKCS5UnPadding out <> Ret (contents h s).
Proof.
  exists [], (mkG 0 0 0), 256. eexists _, _. split; [unfold gwindow; cbn; lia|]. split; [lia|].
  split; [vm_compute; reflexivity|]. vm_compute. discriminate.
Qed.

Example C14_case : gwindow [1; 2; 3; 4; 5] (mkG 1 2 3) /\
  PKCS5Padding [1; 2; 3; 4; 5] (mkG 1 2 3) 4 = Ret ([1; 2; 3; 4; 5], [2; 3; 2; 2]).
Proof. split; [unfold gwindow; cbn; lia|reflexivity]. Qed.

(** C15. Unpadding never looks at the removed bytes. *)
Theorem C15_unpad_exact : forall src, bytes src ->
  (src = [] /\ PKCS5UnPadding src = Panic PIndex) \/
  (exists p last, src = p ++ [last] /\
     ((zlen src < last /\ PKCS5UnPadding src = Panic PSlice) \/
      (last <= zlen src /\ exists pre, PKCS5UnPadding src = Ret pre /\
         exists suf, src = pre ++ suf /\ zlen suf = last))).
Proof.
  intros src Hb. destruct src as [|x p] using rev_ind; [left; auto|]. clear IHp.
  right. exists p, x. split; [reflexivity|].
  apply bytes_app in Hb. destruct Hb as [Hp Hx]. apply bytes_cons in Hx. destruct Hx as [Hx _].
  unfold byte in Hx. unfold PKCS5UnPadding. cbv zeta.
  assert (Ln : zlen (p ++ [x]) = zlen p + 1) by (rewrite zlen_app; reflexivity).
  pose proof (zlen_nonneg _ p).
  rewrite Ln. rewrite (go_index_ret _ _ _ 0) by lia. cbn [bind].
  rewrite app_nth2 by (unfold zlen in *; lia).
  replace (Z.to_nat (zlen p + 1 - 1) - List.length p)%nat with 0%nat by (unfold zlen; lia). cbn [nth].
  destruct (Z.lt_ge_cases (zlen p + 1) x) as [L|G].
  - left. split; [auto|]. apply go_slice_panic. lia.
  - right. split; [lia|]. rewrite go_slice_ret by lia. eexists. split; [reflexivity|].
    exists (skipn (Z.to_nat (zlen p + 1 - x)) (p ++ [x])). unfold sub. cbn [Z.to_nat skipn].
    rewrite Z.sub_0_r, firstn_skipn. split; [reflexivity|].
    rewrite zlen_skipn by (unfold zlen in *; lia). lia.
Qed.

(** Bytes that are not valid padding are accepted: the removed ones need not equal their count. *)
Theorem C15_validates_refuted : exists src out suf,
  PKCS5UnPadding src = Ret out /\ src = out ++ suf /\ ~ Forall (fun x => x = zlen suf) suf.
Proof.
  exists [9; 8; 7; 3], [9], [8; 7; 3]. split; [reflexivity|]. split; [reflexivity|].
  intro H. inversion H. discriminate.
Qed.

Example C15_case : bytes [1; 2; 200] /\ PKCS5UnPadding [1; 2; 200] = Panic PSlice /\
  PKCS5UnPadding [1; 2; 0] = Ret [1; 2; 0].
Proof. split; [repeat constructor; discriminate|]. split; reflexivity. Qed.

(** C16. *)
Theorem C16_zero_pad_shape : forall h s b,
  gwindow h s -> 1 <= b ->
  exists h' out p, ZeroPadding h s b = Ret (h', out) /\
    out = contents h s ++ p /\ 1 <= zlen p <= b /\ zlen out mod b = 0 /\ Forall (fun x => x = 0) p.
Proof.
  intros h s b W Hb. rewrite zero_run by auto.
  set (n := pad_count (g_len s) b).
  assert (Hn : 1 <= n <= b) by (unfold n, pad_count; pose proof (Z.mod_pos_bound (g_len s) b); lia).
  exists (fst (append h s (repeat 0 (Z.to_nat n)))), (snd (append h s (repeat 0 (Z.to_nat n)))),
         (repeat 0 (Z.to_nat n)).
  split; [destruct (append _ _ _); reflexivity|].
  rewrite append_contents by auto. rewrite zlen_app, contents_len, zlen_repeat by auto.
  rewrite Z2Nat.id by lia. split; [reflexivity|]. split; [lia|]. split.
  - unfold n, pad_count. destruct W as (W1 & W2 & W3).
    replace (g_len s + (b - g_len s mod b)) with ((g_len s / b + 1) * b).
    + apply Z.mod_mul. lia.
    + pose proof (Z.div_mod (g_len s) b). lia.
  - apply Forall_forall. intros x Hx. apply repeat_spec in Hx. exact Hx.
Qed.

Theorem C16_unzero : forall h s k, gwindow h s ->
  (0 <= k <= g_len s -> exists pre suf, UnZeroPadding h s k = Ret pre /\
     contents h s = pre ++ suf /\ zlen suf = k) /\
  ((exists p, UnZeroPadding h s k = Panic p) <-> g_len s < k \/ g_cap s < g_len s - k).
Proof.
  intros h s k (W1 & W2 & W3). unfold UnZeroPadding. cbv zeta. split.
  - intro Hk. destruct (Z.leb_spec 0 (g_len s - k)); [|lia].
    destruct (Z.leb_spec (g_len s - k) (g_cap s)); [|lia]. cbn [andb].
    exists (sub h (g_off s) (g_off s + (g_len s - k))),
           (sub h (g_off s + (g_len s - k)) (g_off s + g_len s)).
    split; [reflexivity|]. split; [|rewrite sub_length; lia].
    unfold contents. apply sub_split; lia.
  - destruct (Z.leb_spec 0 (g_len s - k)); destruct (Z.leb_spec (g_len s - k) (g_cap s)); cbn [andb];
      (split; [intros [p Hp]; try discriminate; lia|intro; try lia; eauto]).
Qed.

Example C16_case : gwindow [1; 2; 3; 4; 5] (mkG 1 2 3) /\
  UnZeroPadding [1; 2; 3; 4; 5] (mkG 1 2 3) (-1) = Ret [2; 3; 4].
Proof. split; [unfold gwindow; cbn; lia|reflexivity]. Qed.

(** C17. What happens to the caller's backing array: the spare capacity behind the slice is
    overwritten exactly when it is large enough. *)
Theorem C17_backing_array : forall h s b, gwindow h s -> 1 <= b ->
  exists hp op hz oz, PKCS5Padding h s b = Ret (hp, op) /\ ZeroPadding h s b = Ret (hz, oz) /\
    let n := pad_count (g_len s) b in
    (n <= g_cap s - g_len s ->
       hp = splice h (g_off s + g_len s) (repeat (n mod 256) (Z.to_nat n)) /\
       hz = splice h (g_off s + g_len s) (repeat 0 (Z.to_nat n))) /\
    (g_cap s - g_len s < n -> hp = h /\ hz = h) /\
    contents hp s = contents h s /\ contents hz s = contents h s.
Proof.
  intros h s b W Hb. rewrite pkcs5_run, zero_run by auto. cbv zeta.
  set (n := pad_count (g_len s) b).
  assert (Hn : 1 <= n <= b) by (unfold n, pad_count; pose proof (Z.mod_pos_bound (g_len s) b); lia).
  set (lp := repeat (n mod 256) (Z.to_nat n)). set (lz := repeat 0 (Z.to_nat n)).
  assert (Lp : zlen lp = n) by (unfold lp; rewrite zlen_repeat; lia).
  assert (Lz : zlen lz = n) by (unfold lz; rewrite zlen_repeat; lia).
  exists (fst (append h s lp)), (snd (append h s lp)), (fst (append h s lz)), (snd (append h s lz)).
  split; [destruct (append h s lp); reflexivity|]. split; [destruct (append h s lz); reflexivity|].
  destruct W as (W1 & W2 & W3).
  assert (K : forall l, zlen l = n -> n <= g_cap s - g_len s ->
     contents (splice h (g_off s + g_len s) l) s = contents h s).
  { intros l Ll Hl. destruct (splice_decomp _ h l (g_off s + g_len s)) as (a & d & c & E & A1 & A2 & E2); [lia|lia|].
    unfold contents. rewrite E2, E. rewrite !sub_app_left by lia. reflexivity. }
  unfold append. rewrite Lp, Lz.
  destruct (Z.leb_spec (g_len s + n) (g_cap s)); cbn [fst].
  - split; [auto|]. split; [lia|]. split; apply K; auto; lia.
  - split; [lia|]. auto.
Qed.

Example C17_case : gwindow [1; 2; 3; 4; 5; 6] (mkG 0 3 6) /\
  PKCS5Padding [1; 2; 3; 4; 5; 6] (mkG 0 3 6) 4 = Ret ([1; 2; 3; 1; 5; 6], [1; 2; 3; 1]).
Proof. split; [unfold gwindow; cbn; lia|reflexivity]. Qed.

(** C13. Encrypting a padded message and removing the padding after decryption. *)
Theorem C13_padded_roundtrip : forall key iv h s,
  zlen key = 16 -> zlen iv = 16 -> bytes iv -> bytes h -> gwindow h s ->
  exists h' padded ce cc, PKCS5Padding h s 16 = Ret (h', padded) /\
    ECBEncrypt key padded = Ret (Ok ce, padded) /\ CBCEncrypt key iv padded = Ret (Ok cc, padded) /\
    ECBDecrypt key ce = Ret (Ok padded, ce) /\ CBCDecrypt key iv cc = Ret (Ok padded, cc) /\
    PKCS5UnPadding padded = Ret (contents h s).
Proof.
  intros key iv h s Hk Hiv Hbi Hb W.
  destruct (C14_pkcs5_roundtrip h s 16 W) as (h' & out & E & U); [lia|].
  destruct (C14_pkcs5_shape h s 16 W) as (h2 & out2 & p & E2 & -> & Hp & Hm & Hv); [lia|].
  rewrite E in E2. injection E2 as -> ->.
  assert (B : bytes (contents h s ++ p)).
  { apply bytes_app. split; [apply sub_bytes; auto|].
    unfold bytes. eapply Forall_impl; [|exact Hv]. intros x ->. unfold byte. lia. }
  destruct (C11_ecb key _ Hk B Hm) as (ce & E1 & _ & _ & D1).
  destruct (C12_cbc key iv _ Hk Hiv Hbi B Hm) as (cc & E3 & _ & _ & D3).
  exists h2, (contents h s ++ p), ce, cc. auto 10.
Qed.

Theorem C13_zero_padded_roundtrip : forall key iv h s,
  zlen key = 16 -> zlen iv = 16 -> bytes iv -> bytes h -> gwindow h s ->
  exists h' padded ce cc, ZeroPadding h s 16 = Ret (h', padded) /\
    ECBEncrypt key padded = Ret (Ok ce, padded) /\ CBCEncrypt key iv padded = Ret (Ok cc, padded) /\
    ECBDecrypt key ce = Ret (Ok padded, ce) /\ CBCDecrypt key iv cc = Ret (Ok padded, cc) /\
    UnZeroPadding padded (mkG 0 (zlen padded) (zlen padded)) (zlen padded - g_len s) = Ret (contents h s).
Proof.
  intros key iv h s Hk Hiv Hbi Hb W.
  destruct (C16_zero_pad_shape h s 16 W) as (h2 & out & p & E & Eo & Hp & Hm & Hv); [lia|].
  assert (B : bytes out).
  { rewrite Eo. apply bytes_app. split; [apply sub_bytes; auto|].
    unfold bytes. eapply Forall_impl; [|exact Hv]. intros x ->. unfold byte. lia. }
  destruct (C11_ecb key _ Hk B Hm) as (ce & E1 & _ & _ & D1).
  destruct (C12_cbc key iv _ Hk Hiv Hbi B Hm) as (cc & E3 & _ & _ & D3).
  exists h2, out, ce, cc. do 5 (split; [assumption|]).
  unfold UnZeroPadding. cbn [g_len g_cap g_off]. cbv zeta.
  assert (Lo : zlen out = g_len s + zlen p) by (rewrite Eo, zlen_app, contents_len; auto).
  destruct W as (W1 & W2 & W3).
  replace (zlen out - (zlen out - g_len s)) with (g_len s) by lia.
  destruct (Z.leb_spec 0 (g_len s)); [|lia]. destruct (Z.leb_spec (g_len s) (zlen out)); [|lia].
  cbn [andb]. f_equal. rewrite Eo. apply sub_app_l. rewrite contents_len; [lia|].
  split; [|split]; auto.
Qed.

Example C13_case : zlen vkey = 16 /\ bytes vkey /\ bytes [1; 2; 3] /\ gwindow [1; 2; 3] (mkG 0 3 3).
Proof.
  split; [reflexivity|]. split; [apply be_enc_bytes|].
  split; [repeat constructor; discriminate|unfold gwindow; cbn; lia].
Qed.

Print Assumptions C07_encrypt_standard.
Print Assumptions C08_inverse.
Print Assumptions C09_footprint.
Print Assumptions C10_key_length.
Print Assumptions C11_ecb.
Print Assumptions C12_cbc.
Print Assumptions C13_padded_roundtrip.
Print Assumptions C14_pkcs5_inverse_iff.
Print Assumptions C15_unpad_exact.
Print Assumptions C16_unzero.
Print Assumptions C17_backing_array.
