(** Properties C01-C06: the SM3 hash (package sm3).
    The standard is [sm3_hash] of Sm3Spec.v; the code is Sm3.v. *)
From Coq Require Import ZArith List Lia String Bool.
From Verif Require Import GoBase Sm3Spec Sm3 Sm3Proofs Sm3Main.
Import ListNotations.
Open Scope Z_scope.

Lemma write_all_sum : forall chunks, Forall good_chunk chunks -> zlen (List.concat chunks) < 2 ^ 61 ->
  exists d d1, write_all New chunks = Ret (d, map zlen chunks) /\
    (forall b, SumMethod d b = Ret (d1, b ++ sm3_hash (List.concat chunks))) /\
    rep d1 (hash_words (List.concat chunks), [], []) /\
    byteCount d1 = i64 (4 * (zlen (List.concat chunks) / 4 + 1)).
Proof.
  intros cs H L. destruct (write_all_stands cs New [] stands_New H) as (d & E & S).
  cbn [app] in S. destruct (checkSum_stands d _ S L) as (d1 & E1 & R1 & B1).
  exists d, d1. split; [exact E|]. split; [|auto]. intro b. unfold SumMethod. rewrite E1. reflexivity.
Qed.

(** C01. The one-shot function computes the standard digest. *)
Theorem C01_sum_is_standard : forall data,
  bytes data -> data <> [] -> zlen data < 2 ^ 31 ->
  Sum data = Ret (sm3_hash data).
Proof.
  intros data Hb Hne Hl.
  destruct (write_stands New [] data stands_New) as (d & E & S); [repeat split; auto|].
  cbn [app] in S. destruct (checkSum_stands d data S) as (d1 & E1 & _); [lia|].
  unfold Sum. fold New. rewrite E. cbn [bind]. rewrite E1. reflexivity.
Qed.

(** The specification itself is the published function: its two published test vectors. *)
Example C01_vector_abc : sm3_hash [97; 98; 99] =
  [0x66;0xc7;0xf0;0xf4;0x62;0xee;0xed;0xd9;0xd1;0xf2;0xd4;0x6b;0xdc;0x10;0xe4;0xe2;
   0x41;0x67;0xc4;0x87;0x5c;0xf2;0xf7;0xa2;0x29;0x7d;0xa0;0x2b;0x8f;0x4b;0xa8;0xe0].
Proof. vm_compute. reflexivity. Qed.
Example C01_vector_512 : sm3_hash (List.concat (repeat [97; 98; 99; 100] 16)) =
  be_enc 32 0xdebe9ff92275b8a138604889c18e5a4d6fdb70e5387e5765293dcba39c0c5732.
Proof. vm_compute. reflexivity. Qed.
Example C01_case : bytes [97; 98; 99] /\ [97; 98; 99] <> [] /\ zlen [97; 98; 99] < 2 ^ 31.
Proof. repeat split; try discriminate; repeat constructor; discriminate. Qed.

(** C02. Any way of cutting the message into non-empty pieces gives the standard digest,
    and every Write reports the whole piece as written. *)
Theorem C02_streaming : forall chunks,
  Forall good_chunk chunks -> zlen (List.concat chunks) < 2 ^ 61 ->
  exists d d1, write_all New chunks = Ret (d, map zlen chunks) /\
    forall b, SumMethod d b = Ret (d1, b ++ sm3_hash (List.concat chunks)).
Proof.
  intros cs H L. destruct (write_all_sum cs H L) as (d & d1 & E & F & _). eauto.
Qed.

(** In particular the digest of the empty message is available (New().Sum(nil)), although
    the one-shot function panics on it (C05). *)
Example C02_case :
  Forall good_chunk [[1; 2; 3]; [4]; [5; 6; 7; 8; 9]] /\
  (do (d, _) <- write_all New [[1; 2; 3]; [4]; [5; 6; 7; 8; 9]];
   do (_, h) <- SumMethod d [7]; Ret h) = Ret (7 :: sm3_hash [1; 2; 3; 4; 5; 6; 7; 8; 9]).
Proof.
  split; [|vm_compute; reflexivity].
  repeat constructor; discriminate.
Qed.

(** C03. Reset makes the object indistinguishable from a new one, whatever calls came before:
    every later sequence of calls returns the same results. *)
Theorem C03_reset_forgets : forall before d outs after,
  run New before = Ret (d, outs) ->
  run (Reset d) after = run New after.
Proof.
  intros before d outs after H. apply sized_run in H; [|apply sized_New].
  destruct H as (H1 & H2 & H3 & H4). rewrite reset_wf; auto.
Qed.

(** The same after a call that panicked half way: any contents of the struct will do. *)
Theorem C03_reset_any_state : forall d, sized d -> Reset d = New.
Proof. intros d (H1 & H2 & H3 & H4). apply reset_wf; auto. Qed.

Example C03_case : exists d outs,
  run New [OWrite [1; 2; 3]; OSum [9]; OWrite [4]] = Ret (d, outs) /\ d <> New.
Proof.
  assert (E : match run New [OWrite [1; 2; 3]; OSum [9]; OWrite [4]] with
              | Ret (d, outs) => byteCount d <> 0 | Panic _ => False end)
    by (vm_compute; discriminate).
  destruct (run New _) as [[d outs]|k]; [|destruct E].
  exists d, outs. split; [reflexivity|]. intros ->. apply E. reflexivity.
Qed.

(** C04. Sum finalises the object in place: a second Sum does not repeat the digest but
    compresses one more block, containing the padding and the number of bits processed so far
    (message and padding bytes). *)
Theorem C04_sum_twice : forall chunks,
  Forall good_chunk chunks -> zlen (List.concat chunks) < 2 ^ 60 ->
  exists d d1 d2, write_all New chunks = Ret (d, map zlen chunks) /\
    (forall b, SumMethod d b = Ret (d1, b ++ sm3_hash (List.concat chunks))) /\
    (forall b, SumMethod d1 b = Ret (d2, b ++ List.concat (map (be_enc 4)
       (CF (hash_words (List.concat chunks)) (second_block (zlen (List.concat chunks))))))).
Proof.
  intros cs H L. destruct (write_all_sum cs H) as (d & d1 & E & F & R & B); [lia|].
  pose proof (zlen_nonneg _ (List.concat cs)) as H0.
  pose proof (Z.mul_div_le (zlen (List.concat cs)) 4).
  pose proof (Z.div_pos (zlen (List.concat cs)) 4).
  destruct (checkSum_again d1 _ _ R B) as (d2 & E2); [lia|].
  exists d, d1, d2. split; [exact E|]. split; [exact F|].
  intro b. unfold SumMethod. rewrite E2. reflexivity.
Qed.

(** The hash.Hash contract "Sum does not change the underlying hash state" fails. *)
Theorem C04_sum_keeps_state_refuted : exists d ns d1 h1 d2 h2,
  write_all New [[97; 98; 99]] = Ret (d, ns) /\
  SumMethod d [] = Ret (d1, h1) /\ SumMethod d1 [] = Ret (d2, h2) /\ h1 <> h2.
Proof.
  assert (E : match (do (d, ns) <- write_all New [[97; 98; 99]];
                     do (d1, h1) <- SumMethod d [];
                     do (d2, h2) <- SumMethod d1 []; Ret (nth 0 h1 0, nth 0 h2 0)) with
              | Ret (x, y) => x <> y | Panic _ => False end)
    by (vm_compute; discriminate).
  destruct (write_all New [[97; 98; 99]]) as [[d ns]|k] eqn:E1; [|destruct E]. cbn [bind] in E.
  destruct (SumMethod d []) as [[d1 h1]|k] eqn:E2; [|destruct E]. cbn [bind] in E.
  destruct (SumMethod d1 []) as [[d2 h2]|k] eqn:E3; [|destruct E]. cbn [bind] in E.
  exists d, ns, d1, h1, d2, h2. repeat split; auto. intros ->. apply E. reflexivity.
Qed.

(** C05. Exactly when Write panics, after any good sequence of writes [m]: on an empty slice, or
    when a 4-byte word of the argument starts so late that its end no longer fits an int32.
    The number of bytes of [p] that go through whole words, after completing a pending word of
    [zlen m mod 4] bytes, is [direct_end (zlen m mod 4) (zlen p)]. *)
Theorem C05_write_panics : forall chunks p d ns,
  Forall good_chunk chunks -> bytes p ->
  write_all New chunks = Ret (d, ns) ->
  (p <> [] /\ direct_end (zlen (List.concat chunks) mod 4) (zlen p) < 2 ^ 31 /\
     exists d2, Write d p = Ret (d2, zlen p)) \/
  ((p = [] \/ 2 ^ 31 <= direct_end (zlen (List.concat chunks) mod 4) (zlen p)) /\
     exists k, Write d p = Panic k).
Proof.
  intros cs p d ns H Hp E.
  destruct (write_all_stands cs New [] stands_New H) as (d0 & E0 & R & B).
  rewrite E0 in E. injection E as <- _. cbn [app] in R.
  assert (X : xBufOff d0 = zlen (List.concat cs) mod 4).
  { rewrite (rep_bo _ _ R).
    destruct (absorb_pos (List.concat cs) IV) as (V1 & ws1 & bs1 & E1 & H1 & H2).
    rewrite E1. exact H1. }
  rewrite <- X.
  destruct p as [|b p'] eqn:Ep.
  - right. split; [auto|]. exists PIndex. apply Write_empty.
  - rewrite <- Ep in *. assert (p <> []) by (rewrite Ep; discriminate). clear Ep.
    destruct (Z.lt_ge_cases (direct_end (xBufOff d0) (zlen p)) (2 ^ 31)) as [L|G].
    + left. split; auto. split; auto.
      destruct (Write_ok d0 _ p R Hp) as (d2 & E2 & _); auto. eauto.
    + right. split; auto. exists PSlice. eapply Write_panic_long; eauto.
Qed.

Corollary C05_sum_panics_iff : forall data, bytes data ->
  ((exists k, Sum data = Panic k) <-> data = [] \/ 2 ^ 31 <= zlen data).
Proof.
  intros data Hb. split.
  - intros [k H]. destruct data as [|x l] eqn:E; [auto|]. right. rewrite <- E in *.
    destruct (Z.lt_ge_cases (zlen data) (2 ^ 31)); [|lia].
    rewrite C01_sum_is_standard in H; auto; [discriminate|rewrite E; discriminate].
  - intro H. destruct (C05_write_panics [] data New []) as [(H1 & H2 & _)|(_ & k & E)]; auto.
    + destruct H as [->|H]; [congruence|].
      change (zlen (List.concat []) mod 4) with 0 in H2. unfold direct_end, lead in H2.
      rewrite Z.eqb_refl, Z.sub_0_r in H2.
      exfalso. assert (2 ^ 31 / 4 <= zlen data / 4) by (apply Z.div_le_mono; lia).
      change (2 ^ 31 / 4) with (2 ^ 29) in *. lia.
    + exists k. unfold Sum. fold New. rewrite E. reflexivity.
Qed.

Example C05_case : Sum [] = Panic PIndex /\ Write New [] = Panic PIndex /\
  direct_end 3 (2 ^ 31) < 2 ^ 31 /\ 2 ^ 31 <= direct_end 0 (2 ^ 31).
Proof. repeat split; try reflexivity; vm_compute; congruence. Qed.

(** C06. Sizes: the digest is always 32 bytes, appended to the argument; Size() says 32 and
    BlockSize() says 16, which is not the 64-byte block the algorithm works on. *)
Theorem C06_sizes : forall before d outs b d' h,
  run New before = Ret (d, outs) -> SumMethod d b = Ret (d', h) ->
  exists digest, h = b ++ digest /\ zlen digest = Size d /\ bytes digest /\ Size d = 32.
Proof.
  intros before d outs b d' h H E. apply sized_run in H; [|apply sized_New].
  unfold SumMethod in E. apply bind_ret in E. destruct E as ([d1 g] & E & E1).
  injection E1 as <- <-. destruct (checkSum_len _ _ _ H E) as (L & B).
  exists g. repeat split; auto.
Qed.

Theorem C06_blocksize : forall d, BlockSizeMethod d = 16.
Proof. reflexivity. Qed.

Theorem C06_blocksize_refuted : exists d, BlockSizeMethod d <> 64.
Proof. exists New. discriminate. Qed.

Example C06_case : exists d outs d' h,
  run New [OWrite [1; 2; 3]] = Ret (d, outs) /\ SumMethod d [5; 6] = Ret (d', h) /\ zlen h = 34.
Proof.
  assert (E : match (do (d, outs) <- run New [OWrite [1; 2; 3]]; SumMethod d [5; 6]) with
              | Ret (_, h) => zlen h = 34 | Panic _ => False end) by (vm_compute; reflexivity).
  destruct (run New _) as [[d outs]|k]; [|destruct E]. cbn [bind] in E.
  destruct (SumMethod d [5; 6]) as [[d' h]|k] eqn:F; [|destruct E].
  exists d, outs, d', h. auto.
Qed.

Print Assumptions C01_sum_is_standard.
Print Assumptions C02_streaming.
Print Assumptions C03_reset_forgets.
Print Assumptions C03_reset_any_state.
Print Assumptions C04_sum_twice.
Print Assumptions C04_sum_keeps_state_refuted.
Print Assumptions C05_write_panics.
Print Assumptions C05_sum_panics_iff.
Print Assumptions C06_sizes.
Print Assumptions C06_blocksize_refuted.
