(** C41-C54: keys, nonces, signatures and encryption of sm2.go. *)
From Coq Require Import ZArith Znumtheory List Lia Bool String.
From Verif Require Import GoBase BeMin FpField GoElliptic Sm3Spec Sm3 Sm3Main PropsSm3.
From Verif Require Import Primes Sm2Primes WeiGroup Sm2Group Sm2Order Sm2Spec Sm2 Sm2Proofs Sm2Proofs2 PropsCurve.
Import ListNotations.
Open Scope Z_scope.

(** * C41: raw keys *)
Lemma uncompress_ok : forall x y, Z.abs x < 2 ^ 256 -> Z.abs y < 2 ^ 256 ->
  GetUnCompressBytes (mkPub x y) = Ret (4 :: be_enc 32 (Z.abs x) ++ be_enc 32 (Z.abs y)).
Proof.
  intros x y Hx Hy. unfold GetUnCompressBytes. cbn [X Y]. rewrite !to32_abs by assumption. cbn [bind].
  cbv zeta. rewrite !b32_len. unfold KeyBytes, UnCompress. change (32 <? 32) with false. cbv iota.
  set (a := b32 (Z.abs x)). set (b := b32 (Z.abs y)). fold (b32 (Z.abs x)). fold (b32 (Z.abs y)). fold a. fold b.
  assert (La : List.length a = 32%nat) by apply b32_length. assert (Lb : List.length b = 32%nat) by apply b32_length.
  set (raw := [4] ++ a ++ repeat 0 32).
  assert (R1 : copy_at (4 :: repeat 0 64) 1 (1 + 32) a = raw).
  { unfold copy_at. unfold zlen. rewrite La. change (Z.to_nat (Z.min (1 + 32 - 1) (Z.of_nat 32))) with 32%nat.
    rewrite (firstn_all2 (n := 32) a) by lia. reflexivity. }
  assert (LR : List.length raw = 65%nat) by (unfold raw; rewrite !app_length, La; reflexivity).
  rewrite R1. unfold copy_at. unfold zlen. rewrite Lb, LR. change (Z.to_nat (Z.min (Z.of_nat 65 - (1 + 32)) (Z.of_nat 32))) with 32%nat.
  rewrite (firstn_all2 (n := 32) b) by lia. rewrite (skipn_all2 raw) by (rewrite LR; apply le_n). rewrite app_nil_r. unfold raw. rewrite app_assoc.
  rewrite firstn_app_exact by (rewrite app_length, La; reflexivity). reflexivity.
Qed.

Theorem C41_public_key_encoding : forall x y, 0 <= x < 2 ^ 256 -> 0 <= y < 2 ^ 256 ->
  GetUnCompressBytes (mkPub x y) = Ret (4 :: be_enc 32 x ++ be_enc 32 y) /\
  PublicKey_GetRawBytes (mkPub x y) = Ret (be_enc 32 x ++ be_enc 32 y) /\
  RawBytesToPublicKey (be_enc 32 x ++ be_enc 32 y) = OK (mkPub x y).
Proof.
  intros x y Hx Hy. pose proof (uncompress_ok x y ltac:(lia) ltac:(lia)) as U. rewrite !Z.abs_eq in U by lia.
  assert (L : zlen (be_enc 32 x ++ be_enc 32 y) = 64) by (rewrite zlen_app, !zlen_be_enc; reflexivity).
  split; [exact U|]. split.
  - unfold PublicKey_GetRawBytes. rewrite U. cbn [bind]. rewrite zlen_cons, L. rewrite go_slice_ret by (rewrite ?zlen_cons, ?L; lia).
    apply (f_equal Ret). unfold sub. apply firstn_all2. change (List.length (be_enc 32 x ++ be_enc 32 y) <= 64)%nat. unfold zlen in L. lia.
  - unfold RawBytesToPublicKey. rewrite L. unfold KeyBytes. change (64 =? 32 * 2) with true. cbn [negb]. f_equal.
    assert (E1 : sub (be_enc 32 x ++ be_enc 32 y) 0 32 = be_enc 32 x).
    { unfold sub. change (skipn (Z.to_nat 0) (be_enc 32 x ++ be_enc 32 y)) with (be_enc 32 x ++ be_enc 32 y).
      apply firstn_app_exact. rewrite be_enc_length. reflexivity. }
    assert (E2 : sub (be_enc 32 x ++ be_enc 32 y) 32 64 = be_enc 32 y).
    { unfold sub. rewrite skipn_app_exact by (rewrite be_enc_length; reflexivity). apply firstn_all2. rewrite be_enc_length. apply le_n. }
    rewrite E1, E2. rewrite !be_dec_enc_small by (rewrite pow256_32; assumption). reflexivity.
Qed.

Theorem C41_private_key_encoding : forall d, 0 <= d < 2 ^ 256 ->
  PrivateKey_GetRawBytes (mkPriv d) = Ret (be_enc 32 d) /\ RawBytesToPrivateKey (be_enc 32 d) = OK (mkPriv d).
Proof.
  intros d H. split.
  - unfold PrivateKey_GetRawBytes. cbn [D]. rewrite to32_ok by exact H. cbn [bind]. rewrite b32_len. reflexivity.
  - unfold RawBytesToPrivateKey. rewrite zlen_be_enc. change (negb (Z.of_nat 32 =? KeyBytes)) with false. cbv iota.
    rewrite be_dec_enc_small by (rewrite pow256_32; exact H). reflexivity.
Qed.

(** Every string of the right length is accepted and encodes back to itself. *)
Theorem C41_public_bytes_accepted : forall bs, bytes bs ->
  (zlen bs = 64 -> exists pub, RawBytesToPublicKey bs = OK pub /\ PublicKey_GetRawBytes pub = Ret bs) /\
  (zlen bs <> 64 -> exists e, RawBytesToPublicKey bs = ERR e).
Proof.
  intros bs HB. split; intro L.
  - set (x := be_dec (firstn 32 bs)). set (y := be_dec (skipn 32 bs)).
    assert (LN : List.length bs = 64%nat) by (unfold zlen in L; lia).
    assert (Ex : be_enc 32 x = firstn 32 bs).
    { apply b32_of_dec; [apply bytes_firstn, HB|rewrite firstn_length; lia]. }
    assert (Ey : be_enc 32 y = skipn 32 bs).
    { apply b32_of_dec; [apply bytes_skipn, HB|rewrite skipn_length; lia]. }
    destruct (C41_public_key_encoding x y) as (_ & E1 & E2).
    + apply be_dec_range32; [apply bytes_firstn, HB|rewrite firstn_length; lia].
    + apply be_dec_range32; [apply bytes_skipn, HB|rewrite skipn_length; lia].
    + rewrite Ex, Ey, firstn_skipn in E1, E2. eauto.
  - unfold RawBytesToPublicKey, KeyBytes. change (32 * 2) with 64. rewrite (proj2 (Z.eqb_neq _ _) L). eexists. reflexivity.
Qed.
Theorem C41_private_bytes_accepted : forall bs, bytes bs ->
  (zlen bs = 32 -> exists priv, RawBytesToPrivateKey bs = OK priv /\ PrivateKey_GetRawBytes priv = Ret bs) /\
  (zlen bs <> 32 -> exists e, RawBytesToPrivateKey bs = ERR e).
Proof.
  intros bs HB. split; intro L.
  - assert (LN : List.length bs = 32%nat) by (unfold zlen in L; lia).
    destruct (C41_private_key_encoding (be_dec bs) (be_dec_range32 bs HB LN)) as [E1 E2].
    fold (b32 (be_dec bs)) in E1, E2. rewrite b32_of_dec in E1, E2 by assumption. eauto.
  - unfold RawBytesToPrivateKey, KeyBytes. rewrite (proj2 (Z.eqb_neq _ _) L). eexists. reflexivity.
Qed.

(** Values that do not fit make the encoders panic; negative ones are encoded by absolute value. *)
Theorem C41_oversized_panics : forall x y d,
  (2 ^ 256 <= Z.abs x \/ 2 ^ 256 <= Z.abs y ->
     GetUnCompressBytes (mkPub x y) = Panic PMake /\ PublicKey_GetRawBytes (mkPub x y) = Panic PMake) /\
  (2 ^ 256 <= Z.abs d -> PrivateKey_GetRawBytes (mkPriv d) = Panic PMake).
Proof.
  intros x y d. split.
  - intro H.
    assert (E : GetUnCompressBytes (mkPub x y) = Panic PMake).
    { unfold GetUnCompressBytes. cbn [X Y]. destruct (Z.lt_ge_cases (Z.abs x) (2 ^ 256)) as [C|C].
      - rewrite to32_abs by exact C. cbn [bind]. rewrite to32_panic by lia. reflexivity.
      - rewrite to32_panic by exact C. reflexivity. }
    split; [exact E|]. unfold PublicKey_GetRawBytes. rewrite E. reflexivity.
  - intro H. unfold PrivateKey_GetRawBytes. cbn [D]. rewrite to32_panic by exact H. reflexivity.
Qed.

(** No validation: a point off the curve, the zero key and keys beyond the order are accepted. *)
Theorem C41_no_validation :
  (exists bs pub, RawBytesToPublicKey bs = OK pub /\ IsOnCurve curveP curveB (X pub) (Y pub) = false /\ (X pub, Y pub) <> (0, 0)) /\
  RawBytesToPrivateKey (repeat 0 32) = OK (mkPriv 0) /\
  (exists bs priv, RawBytesToPrivateKey bs = OK priv /\ curveN < D priv).
Proof.
  split; [|split; [reflexivity|]].
  - exists (be_enc 32 1 ++ be_enc 32 1), (mkPub 1 1). split; [vm_compute; reflexivity|]. split; [vm_compute; reflexivity|discriminate].
  - exists (repeat 255 32), (mkPriv (2 ^ 256 - 1)). split; vm_compute; reflexivity.
Qed.
Example C41_ex : 0 <= 5 < 2 ^ 256 /\ zlen (repeat 7 64) = 64 /\ bytes (repeat 7 64) /\ 2 ^ 256 <= Z.abs (- 2 ^ 256).
Proof.
  split; [lia|]. split; [reflexivity|]. split; [|vm_compute; discriminate]. apply Forall_forall. intros b H. apply repeat_spec in H. subst. unfold byte. lia.
Qed.

(** * C42: key generation *)

(** The scalar in the i-th 32-byte block of the tape: GenerateKey flips two bits of the second byte. *)
Definition key_draw (tape : list Z) (i : nat) : Z :=
  match firstn 32 (skipn (32 * i) tape) with
  | b0 :: b1 :: bs => be_dec (b0 :: Z.lxor b1 0x42 :: bs)
  | bs => be_dec bs
  end.

Lemma genkey_draw : forall tape, bytes tape -> (32 <= List.length tape)%nat ->
  let priv := firstn 32 tape in
  let priv := upd priv 0 (Z.land (nth 0 priv 0) 0xff) in
  let priv := upd priv 1 (Z.lxor (nth 1 priv 0) 0x42) in
  be_dec priv = key_draw tape 0 /\ bytes priv.
Proof.
  intros tape HB HL. unfold key_draw. change (skipn (32 * 0) tape) with tape.
  assert (B : bytes (firstn 32 tape)) by (apply bytes_firstn, HB).
  assert (L : List.length (firstn 32 tape) = 32%nat) by (rewrite firstn_length; lia).
  destruct (firstn 32 tape) as [|b0 [|b1 bs]]; try discriminate. cbn [nth upd].
  apply bytes_cons in B. destruct B as [B0 B]. apply bytes_cons in B. destruct B as [B1 B].
  assert (E : Z.land b0 0xff = b0).
  { change 0xff with (Z.ones 8). rewrite Z.land_ones by lia. apply Z.mod_small. exact B0. }
  rewrite E. split; [reflexivity|]. apply bytes_cons. split; [exact B0|]. apply bytes_cons.
  split; [apply lxor_byte; [exact B1|unfold byte; lia]|exact B].
Qed.
Lemma key_draw_skip : forall tape i, key_draw (skipn 32 tape) i = key_draw tape (S i).
Proof. intros tape i. unfold key_draw. rewrite skipn_skipn. replace (32 * i + 32)%nat with (32 * S i)%nat by lia. reflexivity. Qed.

Lemma genkey_ok : forall fuel tape, (List.length tape <= fuel)%nat -> bytes tape ->
  (exists i priv, genkey_loop fuel sm2n tape = (OK priv, skipn (32 * (i + 1)) tape) /\ bytes priv /\ be_dec priv = key_draw tape i /\
     be_dec priv < sm2n /\ (32 * (i + 1) <= List.length tape)%nat /\ forall j, (j < i)%nat -> sm2n <= key_draw tape j) \/
  (exists e, is_eof e /\ genkey_loop fuel sm2n tape = (ERR e, []) /\
     forall j, (32 * (j + 1) <= List.length tape)%nat -> sm2n <= key_draw tape j).
Proof.
  induction fuel as [|fuel IH]; intros tape HL HB; cbn [genkey_loop]; unfold ReadFull;
    destruct (Nat.ltb_spec (List.length tape) 32) as [Q|Q]; try lia;
    try (right; exists (eof_msg tape); split; [apply eof_is|split; [reflexivity|intros j Hj; lia]]; fail).
  destruct (genkey_draw tape HB Q) as [E B]. cbv zeta in E, B. cbv zeta.
  match goal with |- context [sm2n <=? be_dec ?p] => set (priv := p) in * end.
  destruct (Z.leb_spec sm2n (be_dec priv)) as [C|C].
  - destruct (IH (skipn 32 tape)) as [(i & pr & E1 & B1 & D1 & L1 & LL & J1)|(e & EE & E1 & J1)];
      [rewrite skipn_length; lia|apply bytes_skipn, HB| |].
    + left. exists (S i), pr. rewrite skipn_skipn in E1. replace (32 * (i + 1) + 32)%nat with (32 * (S i + 1))%nat in E1 by lia.
      split; [exact E1|]. split; [exact B1|]. split; [rewrite D1; apply key_draw_skip|]. split; [exact L1|].
      split; [rewrite skipn_length in LL; lia|]. intros [|j] Hj; [rewrite <- E; exact C|]. rewrite <- key_draw_skip. apply J1. lia.
    + right. exists e. split; [exact EE|]. split; [exact E1|]. intros [|j] Hj; [rewrite <- E; exact C|].
      rewrite <- key_draw_skip. apply J1. rewrite skipn_length. lia.
  - left. exists 0%nat, priv. split; [reflexivity|]. split; [exact B|]. split; [exact E|]. split; [exact C|]. split; [lia|]. intros j Hj. lia.
Qed.

(** For every random source: the key is the first block below the order, the pair matches, the
    point is on the curve, and it is infinity only for the zero key. *)
Theorem C42_generate_key : forall tape, bytes tape ->
  (exists i priv pub, GenerateKey tape = Ret (OK (priv, pub), skipn (32 * (i + 1)) tape) /\
     (32 * (i + 1) <= List.length tape)%nat /\
     D priv = key_draw tape i /\ (forall j, (j < i)%nat -> curveN <= key_draw tape j) /\
     0 <= D priv < curveN /\ CalculatePubKey priv = Ret pub /\ valid (X pub, Y pub) /\
     ((X pub, Y pub) = (0, 0) <-> D priv = 0)) \/
  (exists e, is_eof e /\ GenerateKey tape = Ret (ERR e, []) /\
     forall j, (32 * (j + 1) <= List.length tape)%nat -> curveN <= key_draw tape j).
Proof.
  intros tape HB. unfold GenerateKey, genkey_scalar. rewrite !curveN_eq.
  destruct (genkey_ok (List.length tape) tape (le_n _) HB) as [(i & pr & -> & B1 & D1 & L1 & LL & J1)|(e & EE & -> & J1)].
  - left. rewrite base_mult by exact B1. cbn [bind]. exists i. eexists _, _. split; [reflexivity|]. cbn [D X Y].
    pose proof (be_dec_bound pr B1) as [NN _]. split; [exact LL|]. split; [exact D1|]. split; [exact J1|]. split; [lia|].
    split; [unfold CalculatePubKey; cbn [D]; rewrite base_mult_z by exact NN; reflexivity|].
    assert (On : on_curve (pmul (be_dec pr) G)) by (apply pmul_on, G_on). rewrite <- enc_xy. split; [apply on_valid, On|].
    rewrite enc_O by exact On. rewrite G_mul_O by exact NN. split; [intro H|intros ->; apply Z.divide_0_r].
    destruct (Z.eq_dec (be_dec pr) 0); [assumption|]. apply Z.divide_pos_le in H; lia.
  - right. exists e. auto.
Qed.
(** Two tapes: one delivers a key at once (the all-zero block gives 0x42 shifted), one is too short. *)
Example C42_ex : key_draw (repeat 0 32) 0 = 0x42 * 2 ^ 240 /\ GenerateKey (repeat 0 31) = Ret (ERR "unexpected EOF", []).
Proof. split; vm_compute; reflexivity. Qed.

(** * C43: nonces *)
Theorem C43_nonce_is_first_draw_in_range : forall tape, bytes tape ->
  match nonces tape with
  | (k, rest) :: _ => nextK curveN tape = (OK k, rest) /\ 1 <= k < curveN
  | [] => exists e, is_eof e /\ nextK curveN tape = (ERR e, [])
  end.
Proof.
  intros tape HB. destruct (nextK_ok tape HB) as [(k & r & E & R & _ & _ & ->)|(e & EE & E & ->)].
  - split; [exact E|]. rewrite curveN_eq. exact R.
  - exists e. auto.
Qed.
(** What "in range draw" means: the i-th 32-byte block, nothing between. *)
Definition block (tape : list Z) (i : nat) : Z := be_dec (firstn 32 (skipn (32 * i) tape)).
Theorem C43_nonces_are_blocks : forall tape,
  nonces tape = map (fun i => (block tape i, skipn (32 * (i + 1)) tape))
                  (filter (fun i => (1 <=? block tape i) && (block tape i <? sm2n)) (seq 0 (List.length tape / 32))).
Proof.
  assert (W : forall n tape, (List.length tape <= n)%nat ->
    nonces tape = map (fun i => (block tape i, skipn (32 * (i + 1)) tape))
                  (filter (fun i => (1 <=? block tape i) && (block tape i <? sm2n)) (seq 0 (List.length tape / 32)))).
  { induction n as [|n IH]; intros tape HL.
    - destruct tape; [reflexivity|cbn in HL; lia].
    - destruct (Nat.lt_ge_cases (List.length tape) 32) as [Q|Q].
      + rewrite nonces_short by exact Q. rewrite Nat.div_small by exact Q. reflexivity.
      + rewrite nonces_step by exact Q. cbv zeta.
        assert (ED : (List.length tape / 32 = S (List.length (skipn 32 tape) / 32))%nat).
        { rewrite skipn_length. replace (List.length tape) with ((List.length tape - 32) + 1 * 32)%nat at 1 by lia.
          rewrite Nat.div_add by lia. lia. }
        rewrite ED. cbn [seq]. rewrite <- seq_shift.
        assert (B0 : be_dec (firstn 32 tape) = block tape 0) by reflexivity.
        assert (BS : forall i, block tape (S i) = block (skipn 32 tape) i).
        { intro i. unfold block. rewrite skipn_skipn. replace (32 * i + 32)%nat with (32 * S i)%nat by lia. reflexivity. }
        assert (SK : forall i, skipn (32 * (S i + 1)) tape = skipn (32 * (i + 1)) (skipn 32 tape)).
        { intro i. rewrite skipn_skipn. f_equal. lia. }
        rewrite B0. set (l := seq 0 (List.length (skipn 32 tape) / 32)).
        assert (T : nonces (skipn 32 tape) = map (fun i => (block tape i, skipn (32 * (i + 1)) tape))
            (filter (fun i => (1 <=? block tape i) && (block tape i <? sm2n)) (map S l))).
        { rewrite IH by (rewrite skipn_length; lia). fold l. clear -BS SK. induction l as [|i l IHl]; [reflexivity|].
          cbn [map filter]. rewrite <- BS. destruct ((1 <=? block tape (S i)) && (block tape (S i) <? sm2n)); cbn [map]; rewrite IHl; [|reflexivity].
          rewrite SK, BS. reflexivity. }
        cbn [filter]. rewrite T. destruct ((1 <=? block tape 0) && (block tape 0 <? sm2n)); reflexivity. }
  intros tape. apply (W (List.length tape)). apply le_n.
Qed.
(** Encrypt and SignToRS take their nonce from that list and leave the rest of the tape behind it. *)
Theorem C43_encrypt_nonce : forall pub m t tape c rest, bytes tape -> good_msg m -> valid (X pub, Y pub) ->
  Encrypt pub m t tape = Ret (OK c, rest) ->
  exists k, In (k, rest) (nonces tape) /\ firstn 65 c = 4 :: point_bytes (pmul k G).
Proof.
  intros pub m t tape c rest HB (Hm & NE & Lm) V E. destruct (valid_on _ _ V) as [On _].
  pose proof (Encrypt_ok pub m t tape HB Hm On Lm NE) as H.
  destruct (find _ (nonces tape)) as [[k r]|] eqn:F.
  - rewrite H in E. injection E as E1 <-. apply find_some in F. exists k. split; [apply F|].
    destruct ((t =? 1) || (t =? 2)); [|discriminate]. injection E1 as <-. apply ciphertext_parts.
  - destruct H as (e & _ & H). rewrite H in E. discriminate.
Qed.
Theorem C43_sign_nonce : forall priv id m tape r s rest, bytes tape -> good_msg m -> good_id id -> 0 <= D priv ->
  SignToRS priv id m tape = Ret (OK (r, s), rest) ->
  exists k, In (k, rest) (nonces tape) /\ r = (sig_e (D priv) id m + xc (pmul k G)) mod curveN.
Proof.
  intros priv id m tape r s rest HB Hm Hid Hd E. rewrite curveN_eq.
  destruct (SignToRS_ok priv id m tape Hd Hid Hm HB) as [(k & rest' & pre & post & r' & s' & E' & S & R & N & F)|(er & _ & E' & _)];
    rewrite E' in E; [|discriminate]. injection E as <- <- <-.
  exists k. split; [rewrite N; apply in_elt|]. apply S.
Qed.
Example C43_ex : map fst (nonces (repeat 0 32 ++ repeat 255 32 ++ be_enc 32 5)) = [5].
Proof. vm_compute. reflexivity. Qed.

(** * C44, C45: signatures *)
Theorem C44_signatures_verify : forall priv pub id m tape r s rest,
  0 <= D priv -> good_id id -> good_msg m -> bytes tape -> CalculatePubKey priv = Ret pub ->
  SignToRS priv id m tape = Ret (OK (r, s), rest) -> VerifyByRS pub id m r s = Ret true.
Proof.
  intros priv pub id m tape r s rest Hd Hid Hm HB HP E.
  unfold CalculatePubKey in HP. rewrite base_mult_z in HP by exact Hd. cbn [bind] in HP. injection HP as <-.
  destruct (SignToRS_ok priv id m tape Hd Hid Hm HB) as [(k & rest' & pre & post & r' & s' & E' & S & R & N & F)|(er & _ & E' & _)];
    rewrite E' in E; [|discriminate]. injection E as <- <- <-.
  assert (On : on_curve (pmul (D priv) G)) by (apply pmul_on, G_on).
  destruct (VerifyByRS_ok (mkPub (xc (pmul (D priv) G)) (yc (pmul (D priv) G))) id m r' s') as (b & EB & Hb);
    cbn [X Y]; try apply xc_range; try apply yc_range; try assumption.
  - rewrite dec_coords by exact On. exact On.
  - rewrite EB. f_equal. apply Hb. cbn [X Y]. rewrite dec_coords by exact On.
    apply (signature_verifies (D priv) _ k r' s' Hd R). exact S.
Qed.

(** The value hashed: SM3(Z || M) with Z the hash of the id, the curve and the public key. *)
Theorem C45_signature_equations : forall priv id m tape r s rest,
  0 <= D priv -> good_id id -> good_msg m -> bytes tape ->
  SignToRS priv id m tape = Ret (OK (r, s), rest) ->
  exists k, 1 <= k < curveN /\ signature (D priv) (sig_e (D priv) id m) k r s /\ 1 <= r < curveN /\ 1 <= s < curveN.
Proof.
  intros priv id m tape r s rest Hd Hid Hm HB E. rewrite curveN_eq.
  destruct (SignToRS_ok priv id m tape Hd Hid Hm HB) as [(k & rest' & pre & post & r' & s' & E' & S & R & N & F)|(er & _ & E' & _)];
    rewrite E' in E; [|discriminate]. injection E as <- <- <-.
  exists k. split; [exact R|]. split; [exact S|]. destruct S as (ER & R0 & _ & SR & _).
  pose proof (modn_range (sig_e (D priv) id m + xc (pmul k G))). lia.
Qed.
(** Conversely the loop stops at the first nonce that has a signature, so signing succeeds as soon
    as the tape holds one. *)
Theorem C45_first_signature : forall priv id m tape k rest pre post r s,
  0 <= D priv -> good_id id -> good_msg m -> bytes tape ->
  nonces tape = pre ++ (k, rest) :: post -> Forall (no_sig (D priv) (sig_e (D priv) id m)) pre ->
  signature (D priv) (sig_e (D priv) id m) k r s ->
  SignToRS priv id m tape = Ret (OK (r, s), rest).
Proof.
  intros priv id m tape k rest pre post r s Hd Hid Hm HB N F S. set (d := D priv) in *. set (e := sig_e d id m) in *.
  assert (NK : forall k' rest', In (k', rest') (nonces tape) -> 1 <= k' < sm2n).
  { intros k' rest' H. rewrite C43_nonces_are_blocks in H. apply in_map_iff in H. destruct H as (i & E & H).
    injection E as <- _. apply filter_In in H. destruct H as [_ H]. apply andb_prop in H. destruct H as [H1 H2].
    apply Z.leb_le in H1. apply Z.ltb_lt in H2. lia. }
  destruct (SignToRS_ok priv id m tape Hd Hid Hm HB) as [(k' & rest' & pre' & post' & r' & s' & E' & S' & R' & N' & F')|(er & _ & E' & F')].
  - fold d e in S', F'. assert (SAME : (k', rest') = (k, rest) /\ pre' = pre).
    { rewrite N in N'. clear -N' F F' S S'. revert pre' N' F'. induction pre as [|x pre IH]; intros [|x' pre'] N' F'; cbn in N'.
      - injection N' as <- <- _. auto.
      - injection N' as <- _. inversion F' as [|? ? B _]; subst. exfalso. exact (B r s S).
      - injection N' as -> _. inversion F as [|? ? B _]; subst. exfalso. exact (B r' s' S').
      - injection N' as <- N'. inversion F; inversion F'; subst. destruct (IH ltac:(assumption) pre' N') as [A B]; [assumption|]. subst. auto. }
    destruct SAME as [EK _]. injection EK as -> ->. rewrite E'.
    apply (sig_one d e k Hd R' r' s') in S'. apply (sig_one d e k Hd R' r s) in S.
    destruct S' as (-> & -> & _). destruct S as (-> & -> & _). reflexivity.
  - exfalso. rewrite Forall_forall in F'. apply (F' (k, rest)) with r s; [rewrite N; apply in_elt|exact S].
Qed.

(** The sample: D = 1, nonce 1, message "abc", default id. *)
Definition ex_priv : PrivateKey := mkPriv 1.
Definition ex_msg : list Z := [0x61; 0x62; 0x63].
Definition ex_tape : list Z := be_enc 32 1.
Lemma ex_msg_good : good_msg ex_msg.
Proof. split; [repeat constructor; unfold byte; lia|]. split; [discriminate|reflexivity]. Qed.
Lemma ex_tape_bytes : bytes ex_tape. Proof. apply be_enc_bytes. Qed.
Example C44_ex : exists r s, SignToRS ex_priv None ex_msg ex_tape = Ret (OK (r, s), []) /\
  VerifyByRS (mkPub curveGx curveGy) None ex_msg r s = Ret true.
Proof.
  destruct (SignToRS ex_priv None ex_msg ex_tape) as [[[[r s]|e] rest]|p] eqn:E; [| |].
  2,3: exfalso; revert E; vm_compute; discriminate.
  exists r, s. assert (R : rest = []).
  { assert (H : (match SignToRS ex_priv None ex_msg ex_tape with Ret (_, t) => t | _ => [0] end) = []) by (vm_compute; reflexivity).
    rewrite E in H. exact H. }
  subst rest. split; [reflexivity|].
  apply (C44_signatures_verify ex_priv (mkPub curveGx curveGy) None ex_msg ex_tape r s []).
  - cbn. lia.
  - exact I.
  - exact ex_msg_good.
  - exact ex_tape_bytes.
  - vm_compute. reflexivity.
  - exact E.
Qed.

(** * C46: verification *)
Theorem C46_verify_iff_equation : forall pub id m r s,
  0 <= X pub < 2 ^ 256 -> 0 <= Y pub < 2 ^ 256 -> IsOnCurve curveP curveB (X pub) (Y pub) = true -> good_id id -> good_msg m ->
  exists b, VerifyByRS pub id m r s = Ret b /\
    (b = true <-> verifies (A (kf (X pub)) (kf (Y pub))) (msg_e (effective_id id) (X pub) (Y pub) m) r s).
Proof.
  intros pub id m r s HX HY On Hid Hm. rewrite curveP_eq, curveB_eq in On. apply IsOnCurve_spec in On.
  rewrite <- (dec_A _ _ On). apply VerifyByRS_ok; try assumption. rewrite (dec_A _ _ On). exact On.
Qed.
(** The public key at infinity (D = 0) is treated by the same equation. *)
Theorem C46_verify_infinity_key : forall id m r s, good_id id -> good_msg m ->
  exists b, VerifyByRS (mkPub 0 0) id m r s = Ret b /\
    (b = true <-> verifies O (msg_e (effective_id id) 0 0 m) r s).
Proof. intros id m r s Hid Hm. apply (VerifyByRS_ok (mkPub 0 0)); cbn [X Y]; try lia; try assumption. exact I. Qed.
(** A key pair with D = 0: its signatures are accepted although anybody can make them. *)
Example C46_ex : 0 <= curveGx < 2 ^ 256 /\ IsOnCurve curveP curveB curveGx curveGy = true /\ good_id None /\ good_msg ex_msg.
Proof.
  split; [vm_compute; split; [discriminate|reflexivity]|]. split; [vm_compute; reflexivity|]. split; [exact I|exact ex_msg_good].
Qed.

(** * C47: D = -1 *)
Theorem C47_minus_one_never_signs : forall priv id m tape,
  0 <= D priv -> (curveN | D priv + 1) -> good_id id -> good_msg m -> bytes tape ->
  exists e, is_eof e /\ SignToRS priv id m tape = Ret (ERR e, []).
Proof.
  intros priv id m tape Hd DV Hid Hm HB. rewrite curveN_eq in DV.
  destruct (SignToRS_ok priv id m tape Hd Hid Hm HB) as [(k & rest & pre & post & r & s & E & S & R & N & F)|(er & EE & E & _)].
  - exfalso. apply sig_one in S; [|exact Hd|exact R]. destruct S as (_ & _ & _ & _ & S0). apply S0.
    unfold sig_s. rewrite inv_none; [rewrite Z.mul_0_l; apply Z.mod_0_l; pose proof sm2n_pos; lia|].
    apply Z.mod_divide; [pose proof sm2n_pos; lia|exact DV].
  - eauto.
Qed.
(** The key with that scalar is accepted from raw bytes and drawn by GenerateKey. *)
Example C47_ex : RawBytesToPrivateKey (be_enc 32 (sm2n - 1)) = OK (mkPriv (curveN - 1)) /\ (curveN | D (mkPriv (curveN - 1)) + 1) /\
  key_draw (be_enc 32 (Z.lxor (sm2n - 1) (0x42 * 2 ^ 240))) 0 = curveN - 1.
Proof.
  split; [vm_compute; reflexivity|]. split; [exists 1; cbn [D]; lia|]. vm_compute. reflexivity.
Qed.

(** * C48: empty messages *)
Theorem C48_sign_empty_panics : forall priv id tape, 0 <= D priv -> good_id id -> SignToRS priv id [] tape = Panic PIndex.
Proof.
  intros priv id tape Hd Hid. unfold SignToRS. rewrite base_mult_z by exact Hd. cbn [bind]. rewrite effective_id_eq.
  destruct (good_id_eff id Hid) as [B L].
  rewrite calculateE_empty by (apply xc_range || apply yc_range || assumption). reflexivity.
Qed.
Theorem C48_verify_empty : forall pub id r s, 0 <= X pub < 2 ^ 256 -> 0 <= Y pub < 2 ^ 256 -> good_id id ->
  VerifyByRS pub id [] r s = if (1 <=? r) && (r <? curveN) && (1 <=? s) && (s <? curveN) then Panic PIndex else Ret false.
Proof.
  intros pub id r s HX HY Hid. unfold VerifyByRS. rewrite effective_id_eq. destruct (good_id_eff id Hid) as [B L].
  rewrite calculateE_empty by assumption. cbn [bind].
  destruct (Z.ltb_spec r 1); destruct (Z.leb_spec 1 r); try lia; [reflexivity|].
  destruct (Z.leb_spec curveN r); destruct (Z.ltb_spec r curveN); try lia; [reflexivity|].
  destruct (Z.ltb_spec s 1); destruct (Z.leb_spec 1 s); try lia; [reflexivity|].
  destruct (Z.leb_spec curveN s); destruct (Z.ltb_spec s curveN); try lia; reflexivity.
Qed.
Example C48_ex : (1 <=? 1) && (1 <? curveN) && (1 <=? 1) && (1 <? curveN) = true. Proof. vm_compute. reflexivity. Qed.

(** * C49: user ids *)
Theorem C49_nil_id_is_default : forall priv pub m tape r s,
  SignToRS priv None m tape = SignToRS priv (Some default_id) m tape /\
  VerifyByRS pub None m r s = VerifyByRS pub (Some default_id) m r s.
Proof. intros. split; reflexivity. Qed.
(** The default id is the ASCII text "1234567812345678". *)
Example C49_default_text : default_id = [0x31; 0x32; 0x33; 0x34; 0x35; 0x36; 0x37; 0x38; 0x31; 0x32; 0x33; 0x34; 0x35; 0x36; 0x37; 0x38].
Proof. reflexivity. Qed.
(** An id that is empty but not nil is hashed as it is. *)
Theorem C49_id_hashed : forall x y id, 0 <= x < 2 ^ 256 -> 0 <= y < 2 ^ 256 -> bytes id -> zlen id < 2 ^ 31 ->
  exists d, getZ New x y id = Ret (d, sm3_hash (be_enc 2 (8 * zlen id) ++ id ++ be_enc 32 curveA ++ be_enc 32 curveB ++
    be_enc 32 curveGx ++ be_enc 32 curveGy ++ be_enc 32 x ++ be_enc 32 y)).
Proof.
  intros x y id Hx Hy Hid L. destruct (getZ_ok New x y id sized_New Hx Hy Hid L) as (d & E & _).
  exists d. rewrite E, curveA_eq, curveB_eq, curveGx_eq, curveGy_eq. reflexivity.
Qed.
(** The length field is the bit length modulo 2^16; it determines the length below 8192 bytes only. *)
Theorem C49_length_field : forall n m, 0 <= n -> 0 <= m ->
  be_dec (be_enc 2 (8 * n)) = 8 * (n mod 8192) /\
  (be_enc 2 (8 * n) = be_enc 2 (8 * m) <-> n mod 8192 = m mod 8192).
Proof.
  assert (W : forall n, 0 <= n -> be_dec (be_enc 2 (8 * n)) = 8 * (n mod 8192)).
  { intros n Hn. rewrite be_dec_enc. change (256 ^ Z.of_nat 2) with (8 * 8192). rewrite Zmult_mod_distr_l. reflexivity. }
  intros n m Hn Hm. split; [apply W, Hn|]. split; intro E.
  - apply (f_equal be_dec) in E. rewrite !W in E by assumption. lia.
  - rewrite <- (be_enc_mod 2 (8 * n)), <- (be_enc_mod 2 (8 * m)). change (256 ^ Z.of_nat 2) with (8 * 8192).
    rewrite !Zmult_mod_distr_l, E. reflexivity.
Qed.
Example C49_ex : be_enc 2 (8 * 8192) = be_enc 2 (8 * 0) /\ be_enc 2 (8 * 8191) <> be_enc 2 (8 * 0).
Proof. split; [reflexivity|discriminate]. Qed.

(** * C50-C54: encryption *)
Theorem C50_decrypt_inverts_encrypt : forall priv pub m t tape c rest,
  0 <= D priv -> CalculatePubKey priv = Ret pub -> bytes m -> zlen m < 2 ^ 31 - 97 -> bytes tape ->
  Encrypt pub m t tape = Ret (OK c, rest) -> Decrypt priv c t = Ret (OK m).
Proof.
  intros priv pub m t tape c rest Hd HP Hm Lm HB E.
  unfold CalculatePubKey in HP. rewrite base_mult_z in HP by exact Hd. cbn [bind] in HP. injection HP as <-.
  set (P := pmul (D priv) G) in *. assert (On : on_curve P) by (apply pmul_on, G_on).
  assert (NE : m <> []).
  { intros ->. destruct (Encrypt_empty (mkPub (xc P) (yc P)) t tape HB) as (e & _ & E'); [cbn [X Y]; rewrite dec_coords by exact On; exact On|].
    rewrite E' in E. discriminate. }
  pose proof (Encrypt_ok (mkPub (xc P) (yc P)) m t tape HB Hm) as H. cbn [X Y] in H. rewrite (dec_coords P On) in H.
  specialize (H On ltac:(lia) NE). destruct (find _ (nonces tape)) as [[k r]|] eqn:F; [|destruct H as (e & _ & H); rewrite H in E; discriminate].
  rewrite H in E. destruct ((t =? 1) || (t =? 2)) eqn:T; [|discriminate]. injection E as <- <-.
  apply find_some in F. destruct F as [F _].
  assert (RK : 1 <= k < sm2n).
  { rewrite C43_nonces_are_blocks in F. apply in_map_iff in F. destruct F as (i & E & F).
    injection E as <- _. apply filter_In in F. destruct F as [_ F]. apply andb_prop in F. destruct F as [H1 H2].
    apply Z.leb_le in H1. apply Z.ltb_lt in H2. lia. }
  destruct (ciphertext_parts P m k t) as (PL & P1 & P2 & P3).
  assert (C1 : c1_is (ciphertext P m k t) (pmul k G)).
  { split; [apply pmul_on, G_on|]. split; [|exact P1]. intro E. apply G_mul_O in E; [|lia]. apply Z.divide_pos_le in E; lia. }
  pose proof (Decrypt_long priv (ciphertext P m k t) t (pmul k G) Hd C1 (ciphertext_bytes P m k t Hm)) as DL. cbv zeta in DL.
  assert (SH : pmul (D priv) (pmul k G) = pmul k P).
  { unfold P. rewrite <- !pmul_mul by (exact G_on || lia). rewrite Z.mul_comm. reflexivity. }
  rewrite SH, P2, P3 in DL. rewrite DL.
  - rewrite enc_c2_invol. destruct (list_eq_dec Z.eq_dec (enc_c3 (pmul k P) m) (enc_c3 (pmul k P) m)); [reflexivity|contradiction].
  - unfold zlen in *. rewrite PL. destruct m; [contradiction|]. cbn [List.length] in *. lia.
  - apply orb_prop in T. destruct T as [T|T]; apply Z.eqb_eq in T; auto.
Qed.

Theorem C51_ciphertext_layout : forall pub m t tape c rest,
  valid (X pub, Y pub) -> good_msg m -> bytes tape -> Encrypt pub m t tape = Ret (OK c, rest) ->
  (t = 1 \/ t = 2) /\ exists k S, 1 <= k < curveN /\ S = pmul k (dec (X pub) (Y pub)) /\
    let c1 := 4 :: be_enc 32 (xc (pmul k G)) ++ be_enc 32 (yc (pmul k G)) in
    let c2 := map2 Z.lxor m (KDF (be_enc 32 (xc S) ++ be_enc 32 (yc S)) (List.length m)) in
    let c3 := sm3_hash (be_enc 32 (xc S) ++ m ++ be_enc 32 (yc S)) in
    c = c1 ++ (if t =? 1 then c2 ++ c3 else c3 ++ c2) /\ c2 <> m /\ zlen c = 97 + zlen m.
Proof.
  intros pub m t tape c rest V (Hm & NE & Lm) HB E. destruct (valid_on _ _ V) as [On _].
  pose proof (Encrypt_ok pub m t tape HB Hm On Lm NE) as H. set (P := dec (X pub) (Y pub)) in *.
  destruct (find _ (nonces tape)) as [[k r]|] eqn:F; [|destruct H as (e & _ & H); rewrite H in E; discriminate].
  rewrite H in E. destruct ((t =? 1) || (t =? 2)) eqn:T; [|discriminate]. injection E as <- <-.
  apply find_some in F. destruct F as [F MK]. cbn [fst] in MK.
  split; [apply orb_prop in T; destruct T as [T|T]; apply Z.eqb_eq in T; auto|].
  exists k, (pmul k P). split.
  { rewrite curveN_eq. rewrite C43_nonces_are_blocks in F. apply in_map_iff in F. destruct F as (i & E & F).
    injection E as <- _. apply filter_In in F. destruct F as [_ F]. apply andb_prop in F. destruct F as [H1 H2].
    apply Z.leb_le in H1. apply Z.ltb_lt in H2. lia. }
  split; [reflexivity|]. cbv zeta. split; [reflexivity|]. split.
  - unfold masks in MK. destruct (list_eq_dec Z.eq_dec (enc_c2 (pmul k P) m) m) as [|N]; [discriminate|exact N].
  - destruct (ciphertext_parts P m k t) as (PL & _). unfold zlen. rewrite PL. lia.
Qed.
(** The two orders on one tape: same parts, same rest of the tape. *)
Theorem C51_orders_rearrange : forall pub m tape c rest,
  valid (X pub, Y pub) -> good_msg m -> bytes tape -> Encrypt pub m 1 tape = Ret (OK c, rest) ->
  exists c1 c2 c3, zlen c1 = 65 /\ zlen c3 = 32 /\ zlen c2 = zlen m /\ c = c1 ++ c2 ++ c3 /\
    Encrypt pub m 2 tape = Ret (OK (c1 ++ c3 ++ c2), rest).
Proof.
  intros pub m tape c rest V (Hm & NE & Lm) HB E. destruct (valid_on _ _ V) as [On _].
  pose proof (Encrypt_ok pub m 1 tape HB Hm On Lm NE) as H1. pose proof (Encrypt_ok pub m 2 tape HB Hm On Lm NE) as H2.
  set (P := dec (X pub) (Y pub)) in *.
  destruct (find _ (nonces tape)) as [[k r]|] eqn:F; [|destruct H1 as (e & _ & H1); rewrite H1 in E; discriminate].
  rewrite H1 in E. cbn [Z.eqb Pos.eqb orb] in E, H2. injection E as <- <-.
  exists (4 :: point_bytes (pmul k G)), (enc_c2 (pmul k P) m), (enc_c3 (pmul k P) m).
  split; [unfold zlen; cbn [List.length]; rewrite point_bytes_length; reflexivity|].
  split; [unfold zlen; rewrite enc_c3_length; reflexivity|]. split; [unfold zlen; rewrite enc_c2_length; reflexivity|].
  split; [reflexivity|exact H2].
Qed.
(** Other order values: no ciphertext. *)
Theorem C51_unknown_order : forall pub m t tape,
  valid (X pub, Y pub) -> good_msg m -> bytes tape -> t <> 1 -> t <> 2 ->
  exists e rest, Encrypt pub m t tape = Ret (ERR e, rest).
Proof.
  intros pub m t tape V (Hm & NE & Lm) HB T1 T2. destruct (valid_on _ _ V) as [On _].
  pose proof (Encrypt_ok pub m t tape HB Hm On Lm NE) as H.
  destruct (find _ (nonces tape)) as [[k r]|]; [|destruct H as (e & _ & H); eauto].
  rewrite (proj2 (Z.eqb_neq _ _) T1), (proj2 (Z.eqb_neq _ _) T2) in H. eexists _, _. exact H.
Qed.

(** The first 32-byte draw in range whose key stream changes the message is used, so encryption
    succeeds as soon as the tape holds one. *)
Theorem C51_succeeds : forall pub m t tape k rest pre post,
  valid (X pub, Y pub) -> good_msg m -> bytes tape -> t = 1 \/ t = 2 ->
  nonces tape = pre ++ (k, rest) :: post ->
  Forall (fun kr => enc_c2 (pmul (fst kr) (dec (X pub) (Y pub))) m = m) pre ->
  enc_c2 (pmul k (dec (X pub) (Y pub))) m <> m ->
  exists c, Encrypt pub m t tape = Ret (OK c, rest).
Proof.
  intros pub m t tape k rest pre post V (Hm & NE & Lm) HB T N F HK. destruct (valid_on _ _ V) as [On _].
  pose proof (Encrypt_ok pub m t tape HB Hm On Lm NE) as H. set (P := dec (X pub) (Y pub)) in *.
  assert (FD : find (fun kr => masks P m (fst kr)) (nonces tape) = Some (k, rest)).
  { rewrite N. clear -F HK. induction pre as [|x pre IH]; cbn [app find].
    - unfold masks at 1. cbn [fst]. destruct (list_eq_dec Z.eq_dec (enc_c2 (pmul k P) m) m); [contradiction|reflexivity].
    - inversion F as [|? ? B FB]; subst. unfold masks at 1. destruct (list_eq_dec Z.eq_dec (enc_c2 (pmul (fst x) P) m) m); [|contradiction].
      apply IH. exact FB. }
  rewrite FD in H. replace ((t =? 1) || (t =? 2)) with true in H by (destruct T as [->| ->]; reflexivity). eexists. exact H.
Qed.

Definition ex_pub : PublicKey := mkPub curveGx curveGy.
Lemma ex_pub_ok : CalculatePubKey ex_priv = Ret ex_pub. Proof. vm_compute. reflexivity. Qed.
Example C50_ex : exists c, Encrypt ex_pub ex_msg 1 ex_tape = Ret (OK c, []) /\ Decrypt ex_priv c 1 = Ret (OK ex_msg) /\ c <> [].
Proof.
  destruct (Encrypt ex_pub ex_msg 1 ex_tape) as [[[c|e] rest]|p] eqn:E; [| |].
  2,3: exfalso; revert E; vm_compute; discriminate.
  assert (R : rest = []).
  { pose proof (C43_encrypt_nonce ex_pub ex_msg 1 ex_tape c rest ex_tape_bytes ex_msg_good) as N.
    destruct N as (k & N & _); [apply C39_domain_parameters|exact E|].
    assert (NE : nonces ex_tape = [(1, [])]) by (vm_compute; reflexivity). rewrite NE in N.
    destruct N as [N|[]]. injection N as _ <-. reflexivity. }
  subst rest. exists c. split; [reflexivity|]. split.
  - apply (C50_decrypt_inverts_encrypt ex_priv ex_pub ex_msg 1 ex_tape c []); try assumption.
    + cbn. lia.
    + exact ex_pub_ok.
    + apply ex_msg_good.
    + reflexivity.
    + exact ex_tape_bytes.
  - intros ->. destruct (C43_encrypt_nonce ex_pub ex_msg 1 ex_tape [] [] ex_tape_bytes ex_msg_good) as (k & _ & N);
      [apply C39_domain_parameters|exact E|discriminate].
Qed.

(** C52: what an accepted ciphertext satisfies, and conversely. *)
Theorem C52_decrypt_authenticates : forall priv c t m, 0 <= D priv -> bytes c -> zlen c < 2 ^ 31 ->
  Decrypt priv c t = Ret (OK m) <->
  (t = 1 \/ t = 2) /\ 97 < zlen c /\
  exists Q, c1_is c Q /\
    let S := pmul (D priv) Q in
    c2_of t c = map2 Z.lxor m (KDF (be_enc 32 (xc S) ++ be_enc 32 (yc S)) (List.length m)) /\
    c3_of t c = sm3_hash (be_enc 32 (xc S) ++ m ++ be_enc 32 (yc S)).
Proof.
  intros priv c t m Hd HB HL.
  assert (CQ : (exists Q, c1_is c Q) \/ (forall Q, ~ c1_is c Q)).
  { destruct (Unmarshal sm2p sm2b (firstn 65 c)) as [[x y]|] eqn:U.
    - left. apply Unmarshal_some in U; [|apply bytes_firstn, HB]. destruct U as (P & On & NO & E & _). exists P. split; [exact On|split; [exact NO|exact E]].
    - right. intros Q (On & NO & E). rewrite E, (Unmarshal_point Q On NO) in U. discriminate. }
  split.
  - intro E. destruct CQ as [[Q HQ]|NQ].
    + destruct (Z.lt_ge_cases (zlen c) 97) as [L|L]; [rewrite (Decrypt_mid priv c t Q Hd HQ HB L) in E; discriminate|].
      destruct (Z.eq_dec t 1) as [T1|T1]; [|destruct (Z.eq_dec t 2) as [T2|T2]].
      3:{ rewrite (Decrypt_97_unknown priv c t Q Hd HQ HB L T1 T2) in E. discriminate. }
      all: assert (T : t = 1 \/ t = 2) by auto.
      all: destruct (Z.eq_dec (zlen c) 97) as [L97|L97]; [rewrite (Decrypt_97 priv c t Q Hd HQ HB L97 T) in E; discriminate|].
      all: split; [exact T|]; split; [lia|]; exists Q; split; [exact HQ|].
      all: pose proof (Decrypt_long priv c t Q Hd HQ HB ltac:(lia) T) as DL; cbv zeta in DL; rewrite DL in E; cbv zeta.
      all: set (S := pmul (D priv) Q) in *.
      all: destruct (list_eq_dec Z.eq_dec (enc_c3 S (enc_c2 S (c2_of t c))) (c3_of t c)) as [E3|]; [|discriminate].
      all: injection E as <-; split; [symmetry; apply enc_c2_invol|symmetry; exact E3].
    + destruct (Z.lt_ge_cases (zlen c) 65) as [L|L].
      * rewrite Decrypt_short in E by exact L. discriminate.
      * rewrite (Decrypt_bad_c1 priv c t HB L NQ) in E. discriminate.
  - intros (T & L & Q & HQ & E2 & E3). cbv zeta in E2, E3.
    pose proof (Decrypt_long priv c t Q Hd HQ HB ltac:(lia) T) as DL. cbv zeta in DL. rewrite DL. clear DL.
    set (S := pmul (D priv) Q) in *.
    assert (EM : enc_c2 S (c2_of t c) = m) by (rewrite E2; apply enc_c2_invol). rewrite EM.
    destruct (list_eq_dec Z.eq_dec (enc_c3 S m) (c3_of t c)) as [|N]; [reflexivity|]. contradiction N. symmetry. exact E3.
Qed.

(** C53: the panics. *)
Theorem C53_short_input_panics : forall priv c t, 0 <= D priv -> bytes c -> zlen c < 97 -> exists p, Decrypt priv c t = Panic p.
Proof.
  intros priv c t Hd HB HL.
  destruct (Z.lt_ge_cases (zlen c) 65) as [L|L]; [exists PSlice; apply Decrypt_short, L|].
  destruct (Unmarshal sm2p sm2b (firstn 65 c)) as [[x y]|] eqn:U.
  - apply Unmarshal_some in U; [|apply bytes_firstn, HB]. destruct U as (P & On & NO & E & _).
    exists PMake. apply (Decrypt_mid priv c t P Hd); [split; [exact On|split; [exact NO|exact E]]|exact HB|exact HL].
  - exists PNil. apply Decrypt_bad_c1; [exact HB|exact L|]. intros Q (On & NO & E). rewrite E, (Unmarshal_point Q On NO) in U. discriminate.
Qed.
Theorem C53_invalid_c1_panics : forall priv c t, bytes c -> 65 <= zlen c ->
  (forall Q, on_curve Q -> Q <> O -> firstn 65 c <> 4 :: be_enc 32 (xc Q) ++ be_enc 32 (yc Q)) ->
  Decrypt priv c t = Panic PNil.
Proof.
  intros priv c t HB L N. apply Decrypt_bad_c1; [exact HB|exact L|]. intros Q (On & NO & E). exact (N Q On NO E).
Qed.
Theorem C53_empty_c2_panics : forall priv c t Q, 0 <= D priv -> bytes c -> zlen c = 97 -> (t = 1 \/ t = 2) -> c1_is c Q ->
  Decrypt priv c t = Panic PIndex.
Proof. intros priv c t Q Hd HB L T HQ. apply (Decrypt_97 priv c t Q); assumption. Qed.
Example C53_ex : c1_is (4 :: point_bytes G ++ repeat 0 32) G /\ zlen (4 :: point_bytes G ++ repeat 0 32) = 97 /\
  Decrypt ex_priv (repeat 0 65) 1 = Panic PNil.
Proof.
  split; [|split; [reflexivity|vm_compute; reflexivity]]. split; [exact G_on|]. split; [discriminate|].
  change (4 :: firstn 64 (point_bytes G ++ repeat 0 32) = 4 :: point_bytes G). apply (f_equal (cons 4)).
  apply firstn_app_exact. symmetry. apply point_bytes_length.
Qed.

Theorem C54_empty_message_never_encrypts : forall pub t tape, valid (X pub, Y pub) -> bytes tape ->
  exists e, is_eof e /\ Encrypt pub [] t tape = Ret (ERR e, []).
Proof. intros pub t tape V HB. destruct (valid_on _ _ V) as [On _]. apply Encrypt_empty; assumption. Qed.
Example C54_ex : valid (curveGx, curveGy) /\ bytes ex_tape.
Proof. split; [apply C39_domain_parameters|exact ex_tape_bytes]. Qed.
