(** The stream modes of crypto/cipher with this library's SM4 (C133). *)
From Coq Require Import ZArith List Lia Bool String.
From Verif Require Import GoBase Sm3 Sm3Proofs.
From Verif Require Sm4Spec.
From Verif Require Import Sm4 Sm4Proofs PropsSm4Util GoStream.
Import ListNotations.
Open Scope Z_scope.

(** * What the modes are *)

(** Byte [i] of the key stream of CTR: block [i / 16] is the image of the counter, a number of 128 bits that starts at the iv. *)
Definition ctr_byte (key iv : list Z) (i : nat) : Z :=
  nth (i mod 16) (Sm4Spec.sm4_enc key (be_enc 16 (be_dec iv + Z.of_nat (i / 16)))) 0.
(** Byte [i] of the key stream of OFB: block [j] is the image of block [j - 1]; the block before the first is the iv. *)
Definition ofb_block (key iv : list Z) (j : nat) : list Z := Nat.iter j (Sm4Spec.sm4_enc key) iv.
Definition ofb_byte (key iv : list Z) (i : nat) : Z := nth (i mod 16) (ofb_block key iv (S (i / 16))) 0.
(** CFB: a byte is encrypted with the image of the whole block of ciphertext before its block, at first of the iv. *)
Definition cfb_byte (key iv cipher : list Z) (i : nat) : Z :=
  nth (i mod 16) (Sm4Spec.sm4_enc key (if (i <? 16)%nat then iv else firstn 16 (skipn (16 * (i / 16 - 1)) cipher))) 0.

(** [d] is [s] with the key stream [f]. *)
Definition with_stream (f : nat -> Z) (s d : list Z) : Prop :=
  List.length d = List.length s /\ forall i, (i < List.length s)%nat -> nth i d 0 = Z.lxor (nth i s 0) (f i).

(** Calls one after the other, each with a dst and a src of its own; the bytes written, in one piece. *)
Fixpoint calls {S : Type} (xor : S -> list Z -> list Z -> go (S * list Z)) (x : S) (l : list (list Z * list Z)) : go (S * list (list Z)) :=
  match l with
  | [] => Ret (x, [])
  | (dst, src) :: l => do (x, d) <- xor x dst src; do (x, ds) <- calls xor x l; Ret (x, d :: ds)
  end.
Definition room (l : list (list Z * list Z)) : Prop := Forall (fun '(dst, src) => zlen src <= zlen dst) l.
(** What the calls wrote, cut out of the dsts; the rest of each dst is as it was. *)
Definition written (l : list (list Z * list Z)) (ds : list (list Z)) : list Z :=
  List.concat (map (fun '((_, src), d) => firstn (List.length src) d) (combine l ds)).
Definition rest_kept (l : list (list Z * list Z)) (ds : list (list Z)) : Prop :=
  Forall2 (fun '(dst, src) d => List.length d = List.length dst /\ skipn (List.length src) d = skipn (List.length src) dst) l ds.
Definition sources (l : list (list Z * list Z)) : list Z := List.concat (map snd l).

(** * Lists *)

Lemma bs_16 : bs = 16%nat.
Proof. reflexivity. Qed.
Lemma xor_length : forall a b, List.length (xorBytes a b) = Nat.min (List.length a) (List.length b).
Proof. intros a b. unfold xorBytes. rewrite map_length. apply combine_length. Qed.
Lemma xor_nth : forall a b i, (i < List.length a)%nat -> (i < List.length b)%nat -> nth i (xorBytes a b) 0 = Z.lxor (nth i a 0) (nth i b 0).
Proof.
  induction a as [|x a IH]; intros [|y b] i H1 H2; cbn [List.length] in *; try lia. destruct i as [|i]; [reflexivity|]. cbn [xorBytes combine map nth]. apply IH; lia.
Qed.
Lemma nth_firstn : forall (l : list Z) n i, (i < n)%nat -> nth i (firstn n l) 0 = nth i l 0.
Proof. induction l as [|x l IH]; intros [|n] [|i] H; try reflexivity; try lia. cbn. apply IH. lia. Qed.
Lemma nth_skipn : forall (l : list Z) n i, nth i (skipn n l) 0 = nth (n + i) l 0.
Proof. induction l as [|x l IH]; intros [|n] i; try reflexivity; [destruct i; reflexivity|]. cbn. apply IH. Qed.
Lemma cells_length : forall l lo hi, (lo <= hi <= List.length l)%nat -> List.length (cells l lo hi) = (hi - lo)%nat.
Proof. intros. unfold cells. rewrite firstn_length, skipn_length. lia. Qed.
Lemma cells_nth : forall l lo hi i, (lo + i < hi)%nat -> nth i (cells l lo hi) 0 = nth (lo + i) l 0.
Proof. intros. unfold cells. rewrite nth_firstn by lia. apply nth_skipn. Qed.
Lemma enc16 : forall key b, List.length (Sm4Spec.sm4_enc key b) = 16%nat.
Proof. intros. pose proof (sm4_enc_len key b) as L. unfold zlen in L. lia. Qed.

Lemma splice_second : forall (s d e : list Z) o, List.length e = 16%nat ->
  skipn (List.length s) (splice (s ++ d) (zlen s + Z.of_nat o) e) = firstn o d ++ e ++ skipn (o + 16) d.
Proof.
  intros s d e o LE. unfold splice.
  replace (Z.to_nat (zlen s + Z.of_nat o)) with (List.length s + o)%nat by (unfold zlen; lia).
  replace (Z.to_nat (zlen s + Z.of_nat o + zlen e)) with (List.length s + (o + 16))%nat by (unfold zlen; lia).
  rewrite firstn_app_2, (skipn_app (List.length s + (o + 16)) s d). rewrite (@skipn_all2 _ (List.length s + (o + 16)) s) by lia. cbn [app].
  replace (List.length s + (o + 16) - List.length s)%nat with (o + 16)%nat by lia.
  rewrite <- app_assoc, skipn_app, skipn_all, Nat.sub_diag. reflexivity.
Qed.
Lemma splice_all : forall (s e : list Z), List.length s = List.length e -> splice s 0 e = e.
Proof. intros s e L. unfold splice. rewrite skipn_all2 by (unfold zlen; lia). cbn [Z.to_nat firstn app]. apply app_nil_r. Qed.

Local Opaque Sm4Spec.sm4_enc.
Lemma iter_in : forall (f : list Z -> list Z) j g, Nat.iter j f (f g) = f (Nat.iter j f g).
Proof. intros f. induction j as [|j IH]; intros g; [reflexivity|]. change (f (Nat.iter j f (f g)) = f (f (Nat.iter j f g))). f_equal. apply IH. Qed.

Section Gen.
(** The next block, and from where it goes on. *)
Variable gen : list Z -> list Z * list Z.
Hypothesis gen_block : forall g, List.length g = 16%nat -> List.length (fst (gen g)) = 16%nat /\ List.length (snd (gen g)) = 16%nat.
Fixpoint iter (j : nat) (g : list Z) : list Z := match j with O => g | S j => iter j (snd (gen g)) end.
Definition gen_byte (g : list Z) (i : nat) : Z := nth (i mod 16) (fst (gen (iter (i / 16) g))) 0.
(** The bytes [p] and then those that are generated. *)
Definition ahead (p g : list Z) (i : nat) : Z := if (i <? List.length p)%nat then nth i p 0 else gen_byte g (i - List.length p).

Lemma gen_first : forall g i, (i < 16)%nat -> gen_byte g i = nth i (fst (gen g)) 0.
Proof. intros g i H. unfold gen_byte. rewrite Nat.div_small, Nat.mod_small by exact H. reflexivity. Qed.
Lemma gen_next : forall g i, gen_byte g (16 + i) = gen_byte (snd (gen g)) i.
Proof.
  intros g i. unfold gen_byte. replace (16 + i)%nat with (i + 1 * 16)%nat by lia. rewrite Nat.div_add, Nat.mod_add by lia.
  replace (i / 16 + 1)%nat with (S (i / 16)) by lia. reflexivity.
Qed.
Lemma ahead_block : forall p g i, List.length g = 16%nat -> ahead (p ++ fst (gen g)) (snd (gen g)) i = ahead p g i.
Proof.
  intros p g i LG. destruct (gen_block g LG) as [L1 _]. unfold ahead. rewrite app_length, L1. destruct (Nat.ltb_spec i (List.length p)) as [A|A].
  - destruct (Nat.ltb_spec i (List.length p + 16)); [|lia]. apply app_nth1, A.
  - destruct (Nat.ltb_spec i (List.length p + 16)) as [B|B].
    + rewrite app_nth2 by exact A. rewrite gen_first by lia. reflexivity.
    + rewrite <- (gen_next g). f_equal. lia.
Qed.
Lemma ahead_ext : forall p p' g, p = p' -> forall i, ahead p g i = ahead p' g i.
Proof. intros p p' g -> i. reflexivity. Qed.

Definition sound (x : stream) : Prop :=
  List.length (s_buf x) = 512%nat /\ List.length (s_block x) = 16%nat /\ (s_used x <= s_len x <= 512)%nat /\ (s_len x = 0 \/ 496 <= s_len x)%nat.
Definition pending (x : stream) : list Z := cells (s_buf x) (s_used x) (s_len x).
Definition stream_of (x : stream) : nat -> Z := ahead (pending x) (s_block x).
Lemma pending_length : forall x, sound x -> List.length (pending x) = (s_len x - s_used x)%nat.
Proof. intros x (L & _ & U & _). apply cells_length. lia. Qed.

Variable refill : stream -> go stream.
Hypothesis refill_ok : forall x, sound x -> (s_len x <= s_used x + 16)%nat -> exists x', refill x = Ret x' /\ sound x' /\ (s_used x' < s_len x')%nat /\ forall i, stream_of x' i = stream_of x i.

Lemma loop_ok : forall n x src, (List.length src <= n)%nat -> sound x ->
  exists x' d, streamLoop refill n x src = Ret (x', d) /\ sound x' /\ with_stream (stream_of x) src d /\ forall i, stream_of x' i = stream_of x (List.length src + i).
Proof.
  induction n as [|n IH]; intros x src HN HS; cbn [streamLoop].
  - destruct src; [|cbn in HN; lia]. exists x, []. split; [reflexivity|]. split; [exact HS|]. split; [split; [reflexivity|cbn; lia]|reflexivity].
  - destruct src as [|s0 src0] eqn:ES; [exists x, []; split; [reflexivity|]; split; [exact HS|]; split; [split; [reflexivity|cbn; lia]|reflexivity]|].
    rewrite <- ES in *. assert (LS : (0 < List.length src)%nat) by (rewrite ES; cbn; lia). clear ES s0 src0.
    destruct (Z.ltb_spec 0 (zlen src)) as [_|N]; [|unfold zlen in N; lia].
    assert (R : exists y, (if (s_len x <=? s_used x + bs)%nat then refill x else Ret x) = Ret y /\ sound y /\ (s_used y < s_len y)%nat /\ forall i, stream_of y i = stream_of x i).
    { rewrite bs_16. destruct (Nat.leb_spec (s_len x) (s_used x + 16)) as [L|L]; [exact (refill_ok x HS L)|]. exists x. split; [reflexivity|]. split; [exact HS|]. split; [lia|reflexivity]. }
    destruct R as (y & -> & SY & PY & EY). cbn [bind]. fold (pending y). pose proof (pending_length y SY) as LP. pose proof SY as (B1 & B2 & B3 & B4).
    assert (LD : List.length (xorBytes src (pending y)) = Nat.min (List.length src) (s_len y - s_used y)) by (rewrite xor_length, LP; reflexivity).
    assert (exists m, m = Nat.min (List.length src) (s_len y - s_used y)) as [m EM] by (eexists; reflexivity). rewrite LD, <- EM.
    set (z := mkStream (s_block y) (s_buf y) (s_len y) (s_used y + m)).
    assert (SZ : sound z) by (unfold sound, z; cbn [s_buf s_block s_used s_len]; split; [exact B1|]; split; [exact B2|]; split; [lia|exact B4]).
    assert (EZ : forall i, stream_of z i = stream_of y (m + i)).
    { intros i. unfold stream_of, ahead. rewrite (pending_length z SZ), LP. cbn [s_block z s_len s_used].
      destruct (Nat.ltb_spec i (s_len y - (s_used y + m))) as [A|A]; destruct (Nat.ltb_spec (m + i) (s_len y - s_used y)) as [A'|A']; try lia.
      - unfold pending. cbn [s_buf s_used s_len z]. rewrite !cells_nth by lia. f_equal. lia.
      - f_equal. lia. }
    destruct (IH z (skipn m src)) as (x' & ds & E & SX & [W1 W2] & EX); [rewrite skipn_length; lia|exact SZ|].
    rewrite E. cbn [bind]. rewrite skipn_length in *. exists x', (xorBytes src (pending y) ++ ds). split; [reflexivity|]. split; [exact SX|]. split.
    + split; [rewrite app_length, LD, W1; lia|]. intros i HI. destruct (Nat.lt_ge_cases i m) as [A|A].
      * rewrite app_nth1 by lia. rewrite xor_nth by lia. f_equal. rewrite <- EY. unfold stream_of, ahead. rewrite LP. destruct (Nat.ltb_spec i (s_len y - s_used y)); [reflexivity|lia].
      * rewrite app_nth2 by lia. rewrite LD, <- EM. rewrite W2 by lia. rewrite nth_skipn, EZ, EY. f_equal; f_equal; lia.
    + intros i. rewrite EX, EZ, EY. f_equal. lia.
Qed.
Lemma xor_ok : forall x dst src, sound x -> zlen src <= zlen dst ->
  exists x' d, XORKeyStream refill x dst src = Ret (x', d) /\ sound x' /\ with_stream (stream_of x) src (firstn (List.length src) d) /\
    List.length d = List.length dst /\ skipn (List.length src) d = skipn (List.length src) dst /\ forall i, stream_of x' i = stream_of x (List.length src + i).
Proof.
  intros x dst src HS HL. unfold XORKeyStream. destruct (Z.ltb_spec (zlen dst) (zlen src)); [lia|].
  destruct (loop_ok (List.length src) x src (Nat.le_refl _) HS) as (x' & d & -> & SX & [W1 W2] & EX). cbn [bind]. rewrite W1. unfold zlen in HL.
  exists x', (d ++ skipn (List.length src) dst). split; [reflexivity|]. split; [exact SX|]. split; [|split; [rewrite app_length, skipn_length; lia|split; [|exact EX]]].
  - rewrite <- W1, firstn_app, firstn_all, Nat.sub_diag. cbn [firstn]. rewrite app_nil_r. split; assumption.
  - rewrite <- W1 at 1. rewrite skipn_app, skipn_all, Nat.sub_diag. reflexivity.
Qed.
Lemma calls_ok : forall l x, sound x -> room l ->
  exists x' ds, calls (XORKeyStream refill) x l = Ret (x', ds) /\ with_stream (stream_of x) (sources l) (written l ds) /\ rest_kept l ds /\
    sound x' /\ forall i, stream_of x' i = stream_of x (List.length (sources l) + i).
Proof.
  induction l as [|[dst src] l IH]; intros x HS HR; cbn [calls].
  - exists x, []. split; [reflexivity|]. split; [split; [reflexivity|cbn; lia]|]. split; [constructor|]. split; [exact HS|reflexivity].
  - inversion_clear HR as [|? ? R1 R2]. destruct (xor_ok x dst src HS R1) as (x1 & d & -> & S1 & [W1 W2] & L1 & K1 & E1). cbn [bind].
    destruct (IH x1 S1 R2) as (x2 & ds & -> & [V1 V2] & K2 & S2 & E2). cbn [bind]. exists x2, (d :: ds). split; [reflexivity|].
    unfold sources, written in *. cbn [map List.concat combine snd]. split; [|split; [constructor; [split; assumption|exact K2]|split; [exact S2|]]].
    + split; [rewrite !app_length, W1, V1; reflexivity|]. intros i HI. destruct (Nat.lt_ge_cases i (List.length src)) as [A|A].
      * rewrite !app_nth1 by lia. apply W2, A.
      * rewrite !app_nth2 by lia. rewrite W1. rewrite V2 by (rewrite app_length in HI; lia). rewrite E1. do 2 f_equal. lia.
    + intros i. rewrite E2, E1. f_equal. rewrite app_length. lia.
Qed.
End Gen.

Lemma new_ok : forall gen text iv, zlen iv = 16 -> exists x, newStream text iv = Ret x /\ sound x /\ forall i, stream_of gen x i = gen_byte gen iv i.
Proof.
  intros gen text iv HI. unfold newStream. rewrite HI. change (negb (16 =? BlockSize)) with false. eexists. split; [reflexivity|]. split.
  - unfold sound. cbn [s_buf s_block s_len s_used]. rewrite repeat_length. unfold zlen in HI. split; [reflexivity|]. split; lia.
  - intros i. unfold stream_of, ahead, pending, cells. cbn [s_buf s_block s_len s_used Nat.sub firstn List.length]. destruct (Nat.ltb_spec i 0); [lia|]. f_equal. lia.
Qed.

Lemma copy_front : forall (l : list Z) lo hi, (lo <= hi <= List.length l)%nat ->
  List.length (copyAt l 0 (cells l lo hi)) = List.length l /\ firstn (hi - lo) (copyAt l 0 (cells l lo hi)) = cells l lo hi.
Proof.
  intros l lo hi H. pose proof (cells_length l lo hi H) as L. unfold copyAt. cbn [firstn app]. rewrite L, Nat.add_0_l.
  rewrite (firstn_all2 (cells l lo hi)) by lia. split.
  - rewrite app_length, skipn_length, L. lia.
  - rewrite <- L at 1. rewrite firstn_app, firstn_all, Nat.sub_diag. cbn [firstn]. apply app_nil_r.
Qed.
Lemma copy_block : forall (d e : list Z) o, List.length e = 16%nat -> (o + 16 <= List.length d)%nat -> copyAt d o e = firstn o d ++ e ++ skipn (o + 16) d.
Proof. intros d e o LE LD. unfold copyAt. rewrite (firstn_all2 e) by lia. rewrite LE. reflexivity. Qed.
Lemma block_in : forall (d e : list Z) o, List.length e = 16%nat -> (o + 16 <= List.length d)%nat ->
  List.length (firstn o d ++ e ++ skipn (o + 16) d) = List.length d /\ firstn (o + 16) (firstn o d ++ e ++ skipn (o + 16) d) = firstn o d ++ e.
Proof.
  intros d e o LE LD. assert (LO : List.length (firstn o d) = o) by (rewrite firstn_length; lia). split.
  - rewrite !app_length, skipn_length, LO, LE. lia.
  - rewrite app_assoc. replace (o + 16)%nat with (List.length (firstn o d ++ e)) at 1 by (rewrite app_length; lia).
    rewrite firstn_app, firstn_all, Nat.sub_diag. cbn [firstn]. apply app_nil_r.
Qed.

Section Key.
Variable key : list Z.
Hypothesis HK : zlen key = 16.
Variable c : sm4Cipher.
Hypothesis HC : NewCipher key = Ok c.

Lemma encrypt_to : forall s d o, List.length s = 16%nat -> (o + 16 <= List.length d)%nat ->
  encryptTo c s d o = Ret (firstn o d ++ Sm4Spec.sm4_enc key s ++ skipn (o + 16) d).
Proof.
  intros s d o LS LD. unfold encryptTo. assert (ZS : zlen s = 16) by (unfold zlen; lia).
  rewrite (C07_encrypt_standard key c (s ++ d)); [|exact HK|exact HC|unfold window; cbn [off len]; rewrite ?zlen_app; unfold zlen in *; lia..].
  cbn [bind off]. rewrite (sub_app_l _ s d) by lia. rewrite splice_second by apply enc16. reflexivity.
Qed.
Lemma encrypt_in : forall s, List.length s = 16%nat -> encryptIn c s = Ret (Sm4Spec.sm4_enc key s).
Proof.
  intros s LS. unfold encryptIn. assert (ZS : zlen s = 16) by (unfold zlen; lia).
  rewrite (C07_encrypt_standard key c s); [|exact HK|exact HC|unfold window; cbn [off len]; lia..]. cbn [off].
  rewrite Z.add_0_l. rewrite <- ZS at 1. rewrite sub_all, splice_all by (rewrite enc16; exact LS). reflexivity.
Qed.

(** * A buffered key stream *)

(** * CTR *)
Lemma incRev_length : forall l, List.length (incRev l) = List.length l.
Proof. induction l as [|b l IH]; [reflexivity|]. cbn [incRev]. destruct (negb _); cbn [List.length]; [reflexivity|now rewrite IH]. Qed.
Lemma increment_length : forall l, List.length (increment l) = List.length l.
Proof. intros l. unfold increment. rewrite rev_length, incRev_length, rev_length. reflexivity. Qed.
Lemma incRev_value : forall l, bytes l -> bytes (incRev l) /\ be_dec (rev (incRev l)) = (be_dec (rev l) + 1) mod 256 ^ zlen l.
Proof.
  induction l as [|b l IH]; intros HB; [split; [constructor|reflexivity]|]. inversion_clear HB as [|? ? B1 B2]. cbn [incRev]. unfold byte in B1.
  pose proof (be_dec_bound (rev l)) as BD. assert (BR : bytes (rev l)) by (apply Forall_rev; exact B2). specialize (BD BR).
  assert (ZR : zlen (rev l) = zlen l) by (unfold zlen; rewrite rev_length; reflexivity). rewrite ZR in BD.
  pose proof (zlen_nonneg _ l) as Z0. assert (P : 0 < 256 ^ zlen l) by (apply Z.pow_pos_nonneg; lia).
  rewrite zlen_cons, Z.pow_add_r by lia. change (256 ^ 1) with 256. unfold u8.
  destruct (Z.eqb_spec ((b + 1) mod 256) 0) as [E|E]; cbn [negb].
  - destruct (IH B2) as [I1 I2]. assert (b = 255). { destruct (Z.eq_dec b 255) as [Q|Q]; [exact Q|]. rewrite Z.mod_small in E by lia. lia. }
    subst b. split; [constructor; [unfold byte; rewrite E; lia|exact I1]|]. cbn [rev]. rewrite !be_dec_snoc, I2, E.
    rewrite (Z.mul_comm (256 ^ zlen l)). rewrite <- Z.add_assoc. change (255 + 1) with 256. rewrite Z.add_0_r.
    replace (be_dec (rev l) * 256 + 256) with (256 * (be_dec (rev l) + 1)) by ring. rewrite Z.mul_mod_distr_l by lia. ring.
  - assert (b < 255). { destruct (Z.eq_dec b 255) as [Q|Q]; [subst b; exfalso; apply E; reflexivity|lia]. }
    rewrite (Z.mod_small (b + 1)) by lia. split; [constructor; [unfold byte; lia|exact B2]|]. cbn [rev]. rewrite !be_dec_snoc.
    rewrite Z.mod_small by nia. ring.
Qed.
Lemma increment_value : forall l, bytes l -> List.length l = 16%nat -> increment l = be_enc 16 (be_dec l + 1).
Proof.
  intros l HB HL. destruct (incRev_value (rev l)) as [I1 I2]; [apply Forall_rev; exact HB|]. rewrite rev_involutive in I2.
  assert (ZR : zlen (rev l) = 16) by (unfold zlen; rewrite rev_length, HL; reflexivity). rewrite ZR in I2. fold (increment l) in I2.
  pose proof (be_enc_dec (increment l)) as E. rewrite increment_length, HL, I2 in E. rewrite <- E by (apply Forall_rev; exact I1).
  change 16 with (Z.of_nat 16). apply be_enc_mod.
Qed.
Definition ctr_gen (g : list Z) : list Z * list Z := (Sm4Spec.sm4_enc key g, increment g).
Lemma ctr_gen_block : forall g, List.length g = 16%nat -> List.length (fst (ctr_gen g)) = 16%nat /\ List.length (snd (ctr_gen g)) = 16%nat.
Proof. intros g H. split; [apply enc16|cbn [snd ctr_gen]; rewrite increment_length; exact H]. Qed.
Lemma be_enc_shift : forall x j, be_enc 16 (be_dec (be_enc 16 x) + j) = be_enc 16 (x + j).
Proof.
  intros x j. rewrite be_dec_enc. rewrite <- (be_enc_mod 16 (x + j)), <- (be_enc_mod 16 (_ + j)). f_equal. apply Zplus_mod_idemp_l.
Qed.
Lemma ctr_iter : forall j g, bytes g -> List.length g = 16%nat -> iter ctr_gen j g = be_enc 16 (be_dec g + Z.of_nat j).
Proof.
  induction j as [|j IH]; intros g HB HL; cbn [iter].
  - rewrite Z.add_0_r. rewrite <- HL at 1. symmetry. apply be_enc_dec, HB.
  - cbn [snd ctr_gen]. rewrite increment_value by assumption. rewrite IH; [|apply be_enc_bytes|apply be_enc_length]. rewrite be_enc_shift. f_equal. lia.
Qed.
Lemma ctr_gen_byte : forall iv i, bytes iv -> zlen iv = 16 -> gen_byte ctr_gen iv i = ctr_byte key iv i.
Proof. intros iv i HB HL. unfold gen_byte, ctr_byte. rewrite ctr_iter; [reflexivity|exact HB|unfold zlen in HL; lia]. Qed.
Lemma ctr_fill : forall n g buf remain, List.length buf = 512%nat -> List.length g = 16%nat -> (remain <= 512)%nat -> (512 <= remain + 16 * n + 15)%nat ->
  exists g' buf' r', ctrFill c n g buf remain = Ret (g', buf', r') /\ List.length buf' = 512%nat /\ List.length g' = 16%nat /\ (496 < r' <= 512)%nat /\
    forall i, ahead ctr_gen (firstn r' buf') g' i = ahead ctr_gen (firstn remain buf) g i.
Proof.
  induction n as [|n IH]; intros g buf remain LB LG LR LN; cbn [ctrFill]; rewrite bs_16, LB; destruct (Nat.leb_spec (remain + 16) 512) as [L|L]; try lia.
  - exists g, buf, remain. repeat split; try assumption; lia.
  - rewrite encrypt_to by lia. cbn [bind]. destruct (block_in buf (Sm4Spec.sm4_enc key g) remain (enc16 key g) ltac:(lia)) as [Q1 Q2].
    destruct (IH (increment g) (firstn remain buf ++ Sm4Spec.sm4_enc key g ++ skipn (remain + 16) buf) (remain + 16)%nat) as (g' & buf' & r' & E & E1 & E2 & E3 & E4);
      [lia|rewrite increment_length; exact LG|lia|lia|]. exists g', buf', r'. split; [exact E|]. split; [exact E1|]. split; [exact E2|]. split; [exact E3|].
    intros i. rewrite E4, Q2. exact (ahead_block ctr_gen ctr_gen_block (firstn remain buf) g i LG).
  - exists g, buf, remain. repeat split; try assumption; lia.
Qed.
Lemma ctr_refill : forall x, sound x -> (s_len x <= s_used x + 16)%nat ->
  exists x', ctrRefill c x = Ret x' /\ sound x' /\ (s_used x' < s_len x')%nat /\ forall i, stream_of ctr_gen x' i = stream_of ctr_gen x i.
Proof.
  intros x (S1 & S2 & S3 & S4) HL. unfold ctrRefill. destruct (copy_front (s_buf x) (s_used x) (s_len x) ltac:(lia)) as [C1 C2].
  destruct (ctr_fill (List.length (copyAt (s_buf x) 0 (cells (s_buf x) (s_used x) (s_len x)))) (s_block x) (copyAt (s_buf x) 0 (cells (s_buf x) (s_used x) (s_len x))) (s_len x - s_used x))
    as (g' & buf' & r' & -> & E1 & E2 & E3 & E4); [lia|exact S2|lia|lia|]. cbn [bind]. eexists. split; [reflexivity|]. split; [|split; [cbn [s_used s_len]; lia|]].
  - unfold sound. cbn [s_buf s_block s_len s_used]. split; [exact E1|]. split; [exact E2|]. lia.
  - intros i. unfold stream_of, pending, cells at 1. cbn [s_buf s_block s_len s_used skipn]. rewrite Nat.sub_0_r, E4, C2. reflexivity.
Qed.

(** * OFB *)
Lemma iter_snd : forall gen f, (forall g, snd (gen g) = f g) -> forall j g, iter gen j g = Nat.iter j f g.
Proof. intros gen f H. induction j as [|j IH]; intros g; [reflexivity|]. cbn [iter]. rewrite H, IH. apply iter_in. Qed.

Definition ofb_gen (g : list Z) : list Z * list Z := (Sm4Spec.sm4_enc key g, Sm4Spec.sm4_enc key g).
Lemma ofb_gen_block : forall g, List.length g = 16%nat -> List.length (fst (ofb_gen g)) = 16%nat /\ List.length (snd (ofb_gen g)) = 16%nat.
Proof. intros g H. split; apply enc16. Qed.
Lemma ofb_iter : forall j g, iter ofb_gen j g = ofb_block key g j.
Proof. intros j g. apply (iter_snd ofb_gen (Sm4Spec.sm4_enc key)). intros h. reflexivity. Qed.
Lemma ofb_gen_byte : forall iv i, gen_byte ofb_gen iv i = ofb_byte key iv i.
Proof. intros iv i. unfold gen_byte, ofb_byte. rewrite ofb_iter. reflexivity. Qed.
Lemma ofb_fill : forall n g buf remain, List.length buf = 512%nat -> List.length g = 16%nat -> (remain <= 512)%nat -> (512 <= remain + 16 * n + 15)%nat ->
  exists g' buf' r', ofbFill c n g buf remain = Ret (g', buf', r') /\ List.length buf' = 512%nat /\ List.length g' = 16%nat /\ (496 <= r' <= 512)%nat /\
    forall i, ahead ofb_gen (firstn r' buf') g' i = ahead ofb_gen (firstn remain buf) g i.
Proof.
  induction n as [|n IH]; intros g buf remain LB LG LR LN; cbn [ofbFill]; rewrite bs_16, LB; destruct (Nat.ltb_spec (remain + 16) 512) as [L|L]; try lia.
  - exists g, buf, remain. repeat split; try assumption; lia.
  - rewrite encrypt_in by exact LG. cbn [bind]. rewrite copy_block by (try apply enc16; lia). destruct (block_in buf (Sm4Spec.sm4_enc key g) remain (enc16 key g) ltac:(lia)) as [Q1 Q2].
    destruct (IH (Sm4Spec.sm4_enc key g) (firstn remain buf ++ Sm4Spec.sm4_enc key g ++ skipn (remain + 16) buf) (remain + 16)%nat) as (g' & buf' & r' & E & E1 & E2 & E3 & E4);
      [lia|apply enc16|lia|lia|]. exists g', buf', r'. split; [exact E|]. split; [exact E1|]. split; [exact E2|]. split; [exact E3|].
    intros i. rewrite E4, Q2. exact (ahead_block ofb_gen ofb_gen_block (firstn remain buf) g i LG).
  - exists g, buf, remain. repeat split; try assumption; lia.
Qed.
Lemma ofb_refill : forall x, sound x -> (s_len x <= s_used x + 16)%nat ->
  exists x', ofbRefill c x = Ret x' /\ sound x' /\ (s_used x' < s_len x')%nat /\ forall i, stream_of ofb_gen x' i = stream_of ofb_gen x i.
Proof.
  intros x (S1 & S2 & S3 & S4) HL. unfold ofbRefill. destruct (Nat.ltb_spec (s_used x) (s_len x - s_used x)) as [N|_]; [lia|].
  destruct (copy_front (s_buf x) (s_used x) (s_len x) ltac:(lia)) as [C1 C2].
  destruct (ofb_fill (List.length (copyAt (s_buf x) 0 (cells (s_buf x) (s_used x) (s_len x)))) (s_block x) (copyAt (s_buf x) 0 (cells (s_buf x) (s_used x) (s_len x))) (s_len x - s_used x))
    as (g' & buf' & r' & -> & E1 & E2 & E3 & E4); [lia|exact S2|lia|lia|]. cbn [bind]. eexists. split; [reflexivity|]. split; [|split; [cbn [s_used s_len]; lia|]].
  - unfold sound. cbn [s_buf s_block s_len s_used]. split; [exact E1|]. split; [exact E2|]. lia.
  - intros i. unfold stream_of, pending, cells at 1. cbn [s_buf s_block s_len s_used skipn]. rewrite Nat.sub_0_r, E4, C2. reflexivity.
Qed.
End Key.

Lemma with_stream_ext : forall f g s d, (forall i, f i = g i) -> with_stream f s d -> with_stream g s d.
Proof. intros f g s d E [W1 W2]. split; [exact W1|]. intros i HI. rewrite <- E. apply W2, HI. Qed.

(** CTR: whatever the cut of the message into calls, and whatever is in the slices that are written, the bytes written are the
    message with the key stream of the mode; the rest of each slice stays. *)
Theorem C133_ctr : forall key c iv l, zlen key = 16 -> NewCipher key = Ok c -> zlen iv = 16 -> bytes iv -> room l ->
  exists x x' ds, NewCTR iv = Ret x /\ calls (XORKeyStream (ctrRefill c)) x l = Ret (x', ds) /\
    with_stream (ctr_byte key iv) (sources l) (written l ds) /\ rest_kept l ds.
Proof.
  intros key c iv l HK HC HI HB HR. destruct (new_ok (ctr_gen key) "cipher.NewCTR: IV length must equal block size" iv HI) as (x & E & S & G).
  destruct (calls_ok (ctr_gen key) (ctr_gen_block key) (ctrRefill c) (ctr_refill key HK c HC) l x S HR) as (x' & ds & E' & W & K & _).
  exists x, x', ds. split; [exact E|]. split; [exact E'|]. split; [|exact K]. refine (with_stream_ext _ _ _ _ _ W). intros i. rewrite G. apply ctr_gen_byte; assumption.
Qed.
Theorem C133_ofb : forall key c iv l, zlen key = 16 -> NewCipher key = Ok c -> zlen iv = 16 -> room l ->
  exists x x' ds, NewOFB iv = Ret x /\ calls (XORKeyStream (ofbRefill c)) x l = Ret (x', ds) /\
    with_stream (ofb_byte key iv) (sources l) (written l ds) /\ rest_kept l ds.
Proof.
  intros key c iv l HK HC HI HR. destruct (new_ok (ofb_gen key) "cipher.NewOFB: IV length must equal block size" iv HI) as (x & E & S & G).
  destruct (calls_ok (ofb_gen key) (ofb_gen_block key) (ofbRefill c) (ofb_refill key HK c HC) l x S HR) as (x' & ds & E' & W & K & _).
  exists x, x', ds. split; [exact E|]. split; [exact E'|]. split; [|exact K]. refine (with_stream_ext _ _ _ _ _ W). intros i. rewrite G. apply ofb_gen_byte.
Qed.

(** * CFB *)

(** The iv and the ciphertext in one piece: a byte of the message is encrypted with the image of a block of it. *)
Lemma block_app : forall (a b : list Z) j, (16 * j + 16 <= List.length a)%nat -> firstn 16 (skipn (16 * j) (a ++ b)) = firstn 16 (skipn (16 * j) a).
Proof.
  intros a b j H. rewrite skipn_app, firstn_app, skipn_length. replace (16 - (List.length a - 16 * j))%nat with 0%nat by lia. cbn [firstn]. apply app_nil_r.
Qed.
Section Cfb.
Variable E : list Z -> list Z.
Hypothesis HE : forall b, List.length (E b) = 16%nat.
Definition fb_byte (D : list Z) (m : nat) : Z := nth (m mod 16) (E (firstn 16 (skipn (16 * (m / 16)) D))) 0.
Lemma fb_byte_app : forall a b m, (16 * (m / 16) + 16 <= List.length a)%nat -> fb_byte (a ++ b) m = fb_byte a m.
Proof. intros a b m H. unfold fb_byte. rewrite block_app by exact H. reflexivity. Qed.
(** [D] is the iv and the ciphertext so far. *)
Definition fb_state (D : list Z) (x : cfb) : Prop :=
  exists j, List.length (f_next x) = 16%nat /\ List.length (f_out x) = 16%nat /\ (1 <= f_used x <= 16)%nat /\ List.length D = (16 * j + f_used x)%nat /\
    firstn (f_used x) (f_next x) = skipn (16 * j) D /\ (16 <= List.length D)%nat /\
    (f_used x < 16 -> f_out x = E (firstn 16 (skipn (16 * (j - 1)) D)))%nat.
End Cfb.
Lemma copy_in : forall (a e t : list Z) u, List.length a = 16%nat -> (u + List.length e <= 16)%nat -> 
  List.length (copyAt a u (e ++ t)) = 16%nat /\ firstn (u + List.length e) (copyAt a u (e ++ t)) = firstn u a ++ e.
Proof.
  intros a e t u LA LE. unfold copyAt. rewrite LA. assert (LU : List.length (firstn u a) = u) by (rewrite firstn_length; lia). split.
  - rewrite !app_length, LU, (firstn_length (16 - u)), skipn_length, !app_length. lia.
  - rewrite <- LU at 1. rewrite firstn_app_2. f_equal. rewrite (firstn_app (16 - u)). rewrite (firstn_all2 e) by lia. rewrite <- app_assoc, firstn_app, Nat.sub_diag, firstn_all. cbn [firstn]. apply app_nil_r.
Qed.
Lemma if_same : forall (b : bool) (A : Type) (x : A), (if b then x else x) = x.
Proof. intros []; reflexivity. Qed.
Section CfbKey.
Variable E : list Z -> list Z.
Hypothesis HE : forall b, List.length (E b) = 16%nat.
Variable c : sm4Cipher.
Hypothesis HTo : forall s d o, List.length s = 16%nat -> (o + 16 <= List.length d)%nat -> encryptTo c s d o = Ret (firstn o d ++ E s ++ skipn (o + 16) d).

(** The first lines of an iteration: there is a free part of out then. *)
Lemma cfb_head : forall D x, fb_state E D x ->
  exists out u j, (if (f_used x =? List.length (f_out x))%nat then do out <- encryptTo c (f_next x) (f_out x) 0; Ret (out, 0%nat) else Ret (f_out x, f_used x)) = Ret (out, u) /\
    List.length out = 16%nat /\ (u < 16)%nat /\ (1 <= j)%nat /\ List.length D = (16 * j + u)%nat /\ firstn u (f_next x) = skipn (16 * j) D /\ out = E (firstn 16 (skipn (16 * (j - 1)) D)).
Proof.
  intros D x (j & N & O & U & L & F & G & Q). rewrite O. destruct (Nat.eqb_spec (f_used x) 16) as [U16|U16].
  - rewrite HTo by lia. cbn [bind]. change (firstn 0 (f_out x)) with (@nil Z). rewrite (skipn_all2 (f_out x)) by lia. rewrite app_nil_l. rewrite app_nil_r. exists (E (f_next x)), 0%nat, (S j).
    split; [reflexivity|]. split; [apply HE|]. split; [lia|]. split; [lia|]. split; [lia|]. split; [cbn [firstn]; rewrite skipn_all2 by lia; reflexivity|].
    replace (S j - 1)%nat with j by lia. rewrite <- F, U16. rewrite (firstn_all2 (f_next x)) by lia. rewrite (firstn_all2 (f_next x)) by lia. reflexivity.
  - exists (f_out x), (f_used x), j. split; [reflexivity|]. split; [exact O|]. split; [lia|]. split; [lia|]. split; [exact L|]. split; [exact F|]. apply Q. lia.
Qed.

Definition fb_cipher (x : cfb) (src d : list Z) : list Z := if f_decrypt x then src else firstn (List.length src) d.
Lemma cfb_loop : forall n x D dst src, fb_state E D x -> (List.length src <= n)%nat -> (List.length src <= List.length dst)%nat ->
  exists x' d, cfbLoop c n x dst src = Ret (x', d) /\ f_decrypt x' = f_decrypt x /\ List.length d = List.length dst /\ skipn (List.length src) d = skipn (List.length src) dst /\
    fb_state E (D ++ fb_cipher x src d) x' /\
    forall i, (i < List.length src)%nat -> nth i d 0 = Z.lxor (nth i src 0) (fb_byte E (D ++ fb_cipher x src d) (List.length D - 16 + i)).
Proof.
  induction n as [|n IH]; intros x D dst src HS HN HD; cbn [cfbLoop].
  { destruct src; [|cbn in HN; lia]. exists x, dst. split; [reflexivity|]. unfold fb_cipher. cbn [List.length firstn]. rewrite if_same, app_nil_r. repeat split; try assumption. lia. }
  destruct (Z.ltb_spec 0 (zlen src)) as [P|P]; [|destruct src; [|rewrite zlen_cons in P; pose proof (zlen_nonneg _ src); lia]].
  2: { exists x, dst. split; [reflexivity|]. unfold fb_cipher. cbn [List.length firstn]. rewrite if_same, app_nil_r. repeat split; try assumption. cbn. lia. }
  assert (N16 : List.length (f_next x) = 16%nat) by (destruct HS as (j & N & _); exact N).
  destruct (cfb_head D x HS) as (out & u & j & -> & LO & LU & LJ & LD & F & OE). cbn [bind].
  set (d := xorBytes src (cells out u (List.length out))). set (m := List.length d).
  assert (LC : List.length (cells out u (List.length out)) = (16 - u)%nat) by (rewrite cells_length; lia).
  assert (LM : m = Nat.min (List.length src) (16 - u)) by (unfold m, d; rewrite xor_length, LC; reflexivity).
  assert (M1 : (1 <= m)%nat) by (unfold zlen in P; lia).
  set (rest := skipn m dst). set (next := if negb (f_decrypt x) then _ else _).
  set (e := if f_decrypt x then firstn m src else d).
  assert (EM : List.length e = m) by (unfold e; destruct (f_decrypt x); [rewrite firstn_length; lia|reflexivity]).
  assert (NX : List.length next = 16%nat /\ firstn (u + m) next = firstn u (f_next x) ++ e).
  { rewrite <- EM. unfold next, e. destruct (f_decrypt x); cbn [negb].
    - rewrite <- (firstn_skipn m src) at 1 3. apply copy_in; [exact N16|rewrite firstn_length; lia].
    - apply copy_in; [exact N16|lia]. }
  destruct NX as [NX1 NX2].
  assert (ST : fb_state E (D ++ e) (mkCfb next out (u + m) (f_decrypt x))).
  { exists j. cbn [f_next f_out f_used]. rewrite app_length, EM, LD. split; [exact NX1|]. split; [exact LO|]. split; [lia|]. split; [lia|].
    split; [rewrite NX2, F, skipn_app; f_equal; rewrite LD; replace (16 * j - (16 * j + u))%nat with 0%nat by lia; reflexivity|]. split; [lia|].
    intros _. rewrite OE. rewrite block_app by lia. reflexivity. }
  destruct (IH _ (D ++ e) rest (skipn m src) ST) as (x' & d' & -> & X1 & X2 & X3 & X4 & X5); [rewrite skipn_length; lia|unfold rest; rewrite !skipn_length; lia|].
  cbn [bind]. exists x', (d ++ d'). cbn [f_decrypt] in X1.
  assert (FC : (D ++ e) ++ fb_cipher (mkCfb next out (u + m) (f_decrypt x)) (skipn m src) d' = D ++ fb_cipher x src (d ++ d')).
  { rewrite <- app_assoc. f_equal. unfold fb_cipher, e. cbn [f_decrypt]. destruct (f_decrypt x); [apply firstn_skipn|]. rewrite skipn_length.
    replace (List.length src) with (List.length d + (List.length src - m))%nat at 2 by (fold m; lia). rewrite firstn_app_2. reflexivity. }
  rewrite FC in X4, X5. split; [reflexivity|]. split; [exact X1|].
  assert (LR : List.length rest = (List.length dst - m)%nat) by (unfold rest; apply skipn_length).
  split; [rewrite app_length; fold m; lia|]. split; [|split; [exact X4|]].
  - rewrite skipn_app. rewrite (skipn_all2 d) by (fold m; lia). fold m. rewrite skipn_length in X3. rewrite app_nil_l, X3. unfold rest. rewrite skipn_skipn. f_equal. lia.
  - intros i HI. destruct (Nat.lt_ge_cases i m) as [L|L].
    + rewrite app_nth1 by exact L. unfold d. rewrite xor_nth by lia. f_equal. rewrite cells_nth by lia.
      assert (Q : ((List.length D - 16 + i) / 16 = j - 1)%nat /\ ((List.length D - 16 + i) mod 16 = u + i)%nat).
      { replace (List.length D - 16 + i)%nat with ((u + i) + (j - 1) * 16)%nat by lia. rewrite Nat.div_add, Nat.mod_add, Nat.div_small, Nat.mod_small by lia. lia. }
      destruct Q as [Q1 Q2]. rewrite fb_byte_app by lia. unfold fb_byte. rewrite Q1, Q2, <- OE. reflexivity.
    + rewrite app_nth2 by exact L. fold m. rewrite X5 by (rewrite skipn_length; lia). rewrite nth_skipn, app_length, EM. f_equal; f_equal; lia.
Qed.
Lemma cfb_calls : forall l x D, fb_state E D x -> room l ->
  exists x' ds, calls (cfbXORKeyStream c) x l = Ret (x', ds) /\ rest_kept l ds /\ List.length (written l ds) = List.length (sources l) /\
    let C := if f_decrypt x then sources l else written l ds in
    forall i, (i < List.length (sources l))%nat -> nth i (written l ds) 0 = Z.lxor (nth i (sources l) 0) (fb_byte E (D ++ C) (List.length D - 16 + i)).
Proof.
  induction l as [|[dst src] l IH]; intros x D HS HR; cbn [calls].
  { exists x, []. split; [reflexivity|]. split; [constructor|]. split; [reflexivity|]. cbn. lia. }
  inversion_clear HR as [|? ? R1 R2]. unfold cfbXORKeyStream at 1. destruct (Z.ltb_spec (zlen dst) (zlen src)) as [B|B]; [lia|].
  destruct (cfb_loop (List.length src) x D dst src HS ltac:(lia) ltac:(unfold zlen in B; lia)) as (x1 & d & -> & X1 & X2 & X3 & X4 & X5). cbn [bind].
  destruct (IH x1 _ X4 R2) as (x' & ds & -> & K & W & V). cbn [bind]. exists x', (d :: ds).
  assert (LF : List.length (firstn (List.length src) d) = List.length src) by (rewrite firstn_length, X2; unfold zlen in B; lia).
  assert (LFC : List.length (fb_cipher x src d) = List.length src) by (unfold fb_cipher; destruct (f_decrypt x); [reflexivity|exact LF]).
  change (written ((dst, src) :: l) (d :: ds)) with (firstn (List.length src) d ++ written l ds). change (sources ((dst, src) :: l)) with (src ++ sources l).
  split; [reflexivity|]. split; [constructor; [split; assumption|exact K]|]. split; [rewrite !app_length, LF, W; reflexivity|].
  intros i HI. set (C := if f_decrypt x then src ++ sources l else firstn (List.length src) d ++ written l ds). rewrite app_length in HI.
  assert (CC : D ++ C = (D ++ fb_cipher x src d) ++ (if f_decrypt x1 then sources l else written l ds)).
  { unfold C. rewrite <- app_assoc. f_equal. unfold fb_cipher. rewrite X1. destruct (f_decrypt x); reflexivity. }
  rewrite CC. destruct (Nat.lt_ge_cases i (List.length src)) as [L|L].
  - rewrite !app_nth1 by lia. rewrite nth_firstn by exact L. rewrite X5 by exact L. f_equal. symmetry. apply fb_byte_app.
    pose proof (Nat.mul_div_le (List.length D - 16 + i) 16 ltac:(lia)). destruct HS as (j & _ & _ & _ & _ & _ & G & _). rewrite app_length, LFC. lia.
  - rewrite !app_nth2 by lia. rewrite LF. cbv zeta in V. rewrite V by lia. f_equal. f_equal. rewrite app_length, LFC.
    destruct HS as (j & _ & _ & _ & _ & _ & G & _). lia.
Qed.
End CfbKey.
Lemma cfb_new : forall E iv decrypt, zlen iv = 16 -> exists x, newCFB iv decrypt = Ret x /\ f_decrypt x = decrypt /\ fb_state E iv x.
Proof.
  intros E iv decrypt HI. unfold newCFB. rewrite HI. change (negb (16 =? BlockSize)) with false. cbn [negb]. eexists. split; [reflexivity|]. split; [reflexivity|].
  assert (L : List.length iv = 16%nat) by (unfold zlen in HI; lia).
  exists 0%nat. cbn [f_next f_out f_used]. rewrite bs_16. rewrite copy_block; [|exact L|rewrite repeat_length; lia].
  change (skipn (0 + 16) (repeat 0 16)) with (@nil Z). change (firstn 0 (repeat 0 16)) with (@nil Z). rewrite app_nil_r, app_nil_l.
  split; [exact L|]. split; [reflexivity|]. split; [lia|]. split; [lia|]. split; [change (skipn (16 * 0) iv) with iv; rewrite (firstn_all2 iv) by lia; reflexivity|]. split; [lia|]. intros; lia.
Qed.

Lemma fb_cfb : forall key iv C i, zlen iv = 16 -> fb_byte (Sm4Spec.sm4_enc key) (iv ++ C) (List.length iv - 16 + i) = cfb_byte key iv C i.
Proof.
  intros key iv C i HI. assert (L : List.length iv = 16%nat) by (unfold zlen in HI; lia). rewrite L. change (16 - 16 + i)%nat with i. unfold fb_byte, cfb_byte.
  destruct (Nat.ltb_spec i 16) as [B|B].
  - rewrite Nat.div_small by exact B. change (skipn (16 * 0) (iv ++ C)) with (iv ++ C).
    replace (firstn 16 (iv ++ C)) with iv; [reflexivity|]. rewrite firstn_app, L. rewrite (firstn_all2 iv) by lia. symmetry. apply app_nil_r.
  - assert (1 <= i / 16)%nat by (apply Nat.div_le_lower_bound; lia). rewrite skipn_app, L. rewrite (skipn_all2 iv) by lia. rewrite app_nil_l. replace (16 * (i / 16) - 16)%nat with (16 * (i / 16 - 1))%nat by lia. reflexivity.
Qed.

Theorem C133_cfb : forall key c iv l decrypt, zlen key = 16 -> NewCipher key = Ok c -> zlen iv = 16 -> room l ->
  exists x x' ds, newCFB iv decrypt = Ret x /\ calls (cfbXORKeyStream c) x l = Ret (x', ds) /\
    with_stream (cfb_byte key iv (if decrypt then sources l else written l ds)) (sources l) (written l ds) /\ rest_kept l ds.
Proof.
  intros key c iv l decrypt HK HC HI HR. destruct (cfb_new (Sm4Spec.sm4_enc key) iv decrypt HI) as (x & E & ED & S).
  destruct (cfb_calls (Sm4Spec.sm4_enc key) (enc16 key) c (encrypt_to key HK c HC) l x iv S HR) as (x' & ds & E' & K & W & V). exists x, x', ds. split; [exact E|]. split; [exact E'|]. split; [|exact K].
  split; [exact W|]. intros i Hi. cbv zeta in V. rewrite ED in V. rewrite V by exact Hi. rewrite fb_cfb by exact HI. reflexivity.
Qed.

(** * What follows *)

Lemma with_stream_back : forall f s d, with_stream f s d -> with_stream f d s.
Proof.
  intros f s d [L W]. split; [now symmetry|]. intros i HI. rewrite W by lia. rewrite Z.lxor_assoc, Z.lxor_nilpotent, Z.lxor_0_r. reflexivity.
Qed.
Lemma with_stream_unique : forall f s d d', with_stream f s d -> with_stream f s d' -> d = d'.
Proof.
  intros f s d d' [L W] [L' W']. apply (nth_ext _ _ 0 0); [congruence|]. intros i HI. rewrite W, W' by lia. reflexivity.
Qed.
(** Decryption, cut into calls in another way, gives the message back. *)
Theorem C133_round_trip : forall key c iv l l' x ds x0, zlen key = 16 -> NewCipher key = Ok c -> zlen iv = 16 -> bytes iv -> room l -> room l' ->
  (forall s, NewCTR iv = Ret s -> calls (XORKeyStream (ctrRefill c)) s l = Ret (x, ds) -> sources l' = written l ds ->
     exists x' ds', calls (XORKeyStream (ctrRefill c)) s l' = Ret (x', ds') /\ written l' ds' = sources l) /\
  (forall s, NewOFB iv = Ret s -> calls (XORKeyStream (ofbRefill c)) s l = Ret (x, ds) -> sources l' = written l ds ->
     exists x' ds', calls (XORKeyStream (ofbRefill c)) s l' = Ret (x', ds') /\ written l' ds' = sources l) /\
  (forall s s', newCFB iv false = Ret s -> newCFB iv true = Ret s' -> calls (cfbXORKeyStream c) s l = Ret (x0, ds) -> sources l' = written l ds ->
     exists x' ds', calls (cfbXORKeyStream c) s' l' = Ret (x', ds') /\ written l' ds' = sources l).
Proof.
  intros key c iv l l' x ds x0 HK HC HI HB HR HR'. split; [|split].
  - intros s ES EC EQ. destruct (C133_ctr key c iv l HK HC HI HB HR) as (s1 & x1 & d1 & E1 & E2 & W & _).
    destruct (C133_ctr key c iv l' HK HC HI HB HR') as (s2 & x2 & d2 & E3 & E4 & W2 & _).
    assert (s1 = s) by congruence. assert (s2 = s) by congruence. subst s1 s2. rewrite EC in E2. injection E2 as <- <-.
    exists x2, d2. split; [exact E4|]. rewrite EQ in W2. symmetry. exact (with_stream_unique _ _ _ _ (with_stream_back _ _ _ W) W2).
  - intros s ES EC EQ. destruct (C133_ofb key c iv l HK HC HI HR) as (s1 & x1 & d1 & E1 & E2 & W & _).
    destruct (C133_ofb key c iv l' HK HC HI HR') as (s2 & x2 & d2 & E3 & E4 & W2 & _).
    assert (s1 = s) by congruence. assert (s2 = s) by congruence. subst s1 s2. rewrite EC in E2. injection E2 as <- <-.
    exists x2, d2. split; [exact E4|]. rewrite EQ in W2. symmetry. exact (with_stream_unique _ _ _ _ (with_stream_back _ _ _ W) W2).
  - intros s s' ES ES' EC EQ. destruct (C133_cfb key c iv l false HK HC HI HR) as (s1 & x1 & d1 & E1 & E2 & W & _).
    destruct (C133_cfb key c iv l' true HK HC HI HR') as (s2 & x2 & d2 & E3 & E4 & W2 & _).
    assert (s1 = s) by congruence. assert (s2 = s') by congruence. subst s1 s2. rewrite EC in E2. injection E2 as <- <-.
    exists x2, d2. split; [exact E4|]. cbv iota in W, W2. rewrite EQ in W2. symmetry. exact (with_stream_unique _ _ _ _ (with_stream_back _ _ _ W) W2).
Qed.
(** Two messages under one key and one iv, in CTR or OFB: the ciphertexts tell the XOR of the messages, as far as both reach. *)
Lemma stream_twice : forall f m1 m2 c1 c2, with_stream f m1 c1 -> with_stream f m2 c2 ->
  forall i, (i < List.length m1)%nat -> (i < List.length m2)%nat -> Z.lxor (nth i c1 0) (nth i c2 0) = Z.lxor (nth i m1 0) (nth i m2 0).
Proof.
  intros f m1 m2 c1 c2 [_ W1] [_ W2] i H1 H2. rewrite W1, W2 by assumption. rewrite (Z.lxor_comm (nth i m2 0)).
  rewrite Z.lxor_assoc, <- (Z.lxor_assoc (f i) (f i)), Z.lxor_nilpotent, Z.lxor_0_l. reflexivity.
Qed.
Theorem C133_iv_twice : forall key c iv l1 l2, zlen key = 16 -> NewCipher key = Ok c -> zlen iv = 16 -> bytes iv -> room l1 -> room l2 ->
  (exists s x1 ds1 x2 ds2, NewCTR iv = Ret s /\ calls (XORKeyStream (ctrRefill c)) s l1 = Ret (x1, ds1) /\ calls (XORKeyStream (ctrRefill c)) s l2 = Ret (x2, ds2) /\
     forall i, (i < List.length (sources l1))%nat -> (i < List.length (sources l2))%nat ->
       Z.lxor (nth i (written l1 ds1) 0) (nth i (written l2 ds2) 0) = Z.lxor (nth i (sources l1) 0) (nth i (sources l2) 0)) /\
  (exists s x1 ds1 x2 ds2, NewOFB iv = Ret s /\ calls (XORKeyStream (ofbRefill c)) s l1 = Ret (x1, ds1) /\ calls (XORKeyStream (ofbRefill c)) s l2 = Ret (x2, ds2) /\
     forall i, (i < List.length (sources l1))%nat -> (i < List.length (sources l2))%nat ->
       Z.lxor (nth i (written l1 ds1) 0) (nth i (written l2 ds2) 0) = Z.lxor (nth i (sources l1) 0) (nth i (sources l2) 0)).
Proof.
  intros key c iv l1 l2 HK HC HI HB R1 R2. split.
  - destruct (C133_ctr key c iv l1 HK HC HI HB R1) as (s & x1 & ds1 & E & E1 & W1 & _). destruct (C133_ctr key c iv l2 HK HC HI HB R2) as (s' & x2 & ds2 & E' & E2 & W2 & _).
    assert (s' = s) by congruence. subst s'. exists s, x1, ds1, x2, ds2. split; [exact E|]. split; [exact E1|]. split; [exact E2|]. exact (stream_twice _ _ _ _ _ W1 W2).
  - destruct (C133_ofb key c iv l1 HK HC HI R1) as (s & x1 & ds1 & E & E1 & W1 & _). destruct (C133_ofb key c iv l2 HK HC HI R2) as (s' & x2 & ds2 & E' & E2 & W2 & _).
    assert (s' = s) by congruence. subst s'. exists s, x1, ds1, x2, ds2. split; [exact E|]. split; [exact E1|]. split; [exact E2|]. exact (stream_twice _ _ _ _ _ W1 W2).
Qed.
(** No block of the CTR key stream comes twice within the 2^128 blocks there are. *)
Theorem C133_ctr_blocks : forall key iv i j,
  0 <= i < 2 ^ 128 -> 0 <= j < 2 ^ 128 ->
  Sm4Spec.sm4_enc key (be_enc 16 (be_dec iv + i)) = Sm4Spec.sm4_enc key (be_enc 16 (be_dec iv + j)) -> i = j.
Proof.
  intros key iv i j RI RJ E. apply C08_permutation in E; try assumption; try apply be_enc_bytes; try (unfold zlen; rewrite be_enc_length; reflexivity).
  apply (f_equal be_dec) in E. rewrite !be_dec_enc in E. change (256 ^ Z.of_nat 16) with (2 ^ 128) in E.
  assert (M : (i - j) mod 2 ^ 128 = 0).
  { replace (i - j) with ((be_dec iv + i) - (be_dec iv + j)) by ring. rewrite Zminus_mod, E, Z.sub_diag. reflexivity. }
  apply Z.mod_divide in M; [|lia]. destruct M as [k M]. nia.
Qed.
(** An iv of another length, and a dst shorter than the src, panic, and nothing is written. *)
Theorem C133_refused : forall c iv x y dst src,
  (zlen iv <> 16 -> NewCTR iv = Panic (PUser "cipher.NewCTR: IV length must equal block size") /\
     NewOFB iv = Panic (PUser "cipher.NewOFB: IV length must equal block size") /\
     forall decrypt, newCFB iv decrypt = Panic (PUser "cipher.newCFB: IV length must equal block size")) /\
  (zlen dst < zlen src -> XORKeyStream (ctrRefill c) x dst src = Panic (PUser "crypto/cipher: output smaller than input") /\
     XORKeyStream (ofbRefill c) x dst src = Panic (PUser "crypto/cipher: output smaller than input") /\
     cfbXORKeyStream c y dst src = Panic (PUser "crypto/cipher: output smaller than input")).
Proof.
  intros c iv x y dst src. split; intros H.
  - unfold NewCTR, NewOFB, newStream, newCFB. change BlockSize with 16. destruct (Z.eqb_spec (zlen iv) 16) as [Q|Q]; [contradiction|]. repeat split; reflexivity.
  - unfold XORKeyStream, cfbXORKeyStream. destruct (Z.ltb_spec (zlen dst) (zlen src)); [|lia]. repeat split; reflexivity.
Qed.

(** * Examples *)
Definition ex_key : list Z := [1; 35; 69; 103; 137; 171; 205; 239; 254; 220; 186; 152; 118; 84; 50; 16].
Definition ex_iv : list Z := repeat 255 16.
Definition ex_msg : list Z := map Z.of_nat (seq 0 20).
(** Twenty bytes in two calls: the first into a larger slice, the second in place. *)
Definition ex_calls : list (list Z * list Z) := [(repeat 7 9, firstn 5 ex_msg); (skipn 5 ex_msg, skipn 5 ex_msg)].
Definition ex_out {S : Type} (r : go (S * list (list Z))) : go (list Z * list (list Z)) :=
  match r with Ret (_, ds) => Ret (written ex_calls ds, ds) | Panic k => Panic k end.
Example C133_ex_hyps : zlen ex_key = 16 /\ (exists c, NewCipher ex_key = Ok c) /\ zlen ex_iv = 16 /\ bytes ex_iv /\ room ex_calls /\ sources ex_calls = ex_msg.
Proof.
  split; [reflexivity|]. split; [eexists; reflexivity|]. split; [reflexivity|]. split; [unfold ex_iv; repeat constructor; unfold byte; lia|].
  split; [repeat constructor; cbn; lia|reflexivity].
Qed.
Definition ex_run : go (list (list Z)) :=
  match NewCipher ex_key with
  | Ok c =>
      do s <- NewCTR ex_iv; do (a, _) <- ex_out (calls (XORKeyStream (ctrRefill c)) s ex_calls);
      do s <- NewOFB ex_iv; do (b, _) <- ex_out (calls (XORKeyStream (ofbRefill c)) s ex_calls);
      do s <- newCFB ex_iv false; do (d, _) <- ex_out (calls (cfbXORKeyStream c) s ex_calls);
      Ret [a; b; d]
  | _ => Panic (PUser "no cipher")
  end.
(** The bytes another implementation of the three modes gives as well: the counter wraps around after the first block. *)
Example C133_ex : ex_run = Ret
  [[104; 16; 173; 125; 13; 118; 98; 224; 142; 242; 79; 197; 81; 151; 110; 255; 54; 102; 230; 120];
   [104; 16; 173; 125; 13; 118; 98; 224; 142; 242; 79; 197; 81; 151; 110; 255; 39; 191; 195; 193];
   [104; 16; 173; 125; 13; 118; 98; 224; 142; 242; 79; 197; 81; 151; 110; 255; 69; 32; 181; 100]].
Proof. vm_compute. reflexivity. Qed.
