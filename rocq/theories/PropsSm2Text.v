(** Property C124: an unknown ciphertext order (sm2/sm2.go:262-439): what is done before it is noticed, and the text of the error
    (sm2/sm2.go:303, 331, 383, 437). *)
From Coq Require Import ZArith List Lia Bool Ascii String.
From Verif Require Import GoBase BeMin GoAsn1 GoText GoElliptic FpField Primes Sm2Primes WeiGroup Sm2Group Sm2Order Sm2Spec Sm3 Sm2 Sm2Proofs Sm2Proofs2 Sm2Der PropsSm2 PropsSm2Der PropsCertAttr.
Import ListNotations.
Open Scope Z_scope.

(** * Specification *)

(** The bytes of a text. *)
Definition textBytes (s : string) : list Z := map (fun c => Z.of_N (N_of_ascii c)) (list_ascii_of_string s).
(** The character with that code, or the replacement character if there is none. [scalar] and [utf8] (PropsCertAttr.v) are the
    characters of Unicode and their UTF-8 form by division. *)
Definition char_of (t c : Z) : Prop := scalar t /\ c = t \/ ~ scalar t /\ c = 0xfffd.

(** * Proofs *)
Lemma lor_lead : forall n k a b, k = 2 ^ n -> 0 <= n -> 0 <= b < k -> a mod k = 0 -> Z.lor a b = a + b.
Proof.
  intros n k a b -> Hn Hb Ha. pose proof (Z.div_mod a (2 ^ n) ltac:(lia)) as E. rewrite Ha in E.
  replace a with (a / 2 ^ n * 2 ^ n) by lia. apply lor_disjoint_add; assumption.
Qed.
Lemma land63 : forall x, Z.land x 0x3f = x mod 64.
Proof. intro x. change 0x3f with (Z.ones 6). rewrite Z.land_ones by lia. reflexivity. Qed.
Lemma cont_byte : forall x, Z.lor 0x80 (Z.land x 0x3f) = 0x80 + x mod 64.
Proof. intro x. rewrite land63. apply (lor_lead 6 64); [reflexivity|lia|apply Z.mod_pos_bound; lia|reflexivity]. Qed.
Lemma scalar_dec : forall t, scalar t \/ ~ scalar t.
Proof. intro t. unfold scalar. lia. Qed.
Lemma encodeRune_utf8 : forall t c, char_of t c -> encodeRune t = utf8 c.
Proof.
  assert (S : forall c, scalar c -> forall t, (if (t <? 0) || (0x10ffff <? t) || ((0xd800 <=? t) && (t <=? 0xdfff)) then 0xfffd else t) = c -> encodeRune t = utf8 c).
  { intros c (R & N) t E. unfold encodeRune. cbv zeta. rewrite E. clear t E. unfold utf8.
    destruct (Z.leb_spec c 0x7f) as [A|A]; [rewrite (proj2 (Z.ltb_lt c 0x80)) by lia; reflexivity|]. rewrite (proj2 (Z.ltb_ge c 0x80)) by lia.
    rewrite !Z.shiftr_div_pow2 by lia. change (2 ^ 6) with 64. change (2 ^ 12) with 4096. change (2 ^ 18) with 262144. rewrite !cont_byte.
    destruct (Z.leb_spec c 0x7ff) as [B|B].
    { rewrite (proj2 (Z.ltb_lt c 0x800)) by lia. rewrite (lor_lead 6 64); [reflexivity|reflexivity|lia| |reflexivity].
      split; [apply Z.div_pos; lia|apply Z.div_lt_upper_bound; lia]. }
    rewrite (proj2 (Z.ltb_ge c 0x800)) by lia. destruct (Z.leb_spec c 0xffff) as [D|D].
    { rewrite (proj2 (Z.ltb_lt c 0x10000)) by lia. rewrite (lor_lead 4 16); [reflexivity|reflexivity|lia| |reflexivity].
      split; [apply Z.div_pos; lia|apply Z.div_lt_upper_bound; lia]. }
    rewrite (proj2 (Z.ltb_ge c 0x10000)) by lia. rewrite (lor_lead 3 8); [reflexivity|reflexivity|lia| |reflexivity].
    split; [apply Z.div_pos; lia|apply Z.div_lt_upper_bound; lia]. }
  intros t c [[H ->]|[H ->]]; (apply S; [unfold scalar in *; lia|]); unfold scalar in H.
  - destruct (Z.ltb_spec t 0), (Z.ltb_spec 0x10ffff t), (Z.leb_spec 0xd800 t), (Z.leb_spec t 0xdfff); cbn [orb andb]; lia.
  - destruct (Z.ltb_spec t 0), (Z.ltb_spec 0x10ffff t), (Z.leb_spec 0xd800 t), (Z.leb_spec t 0xdfff); cbn [orb andb]; lia.
Qed.
Lemma utf8_bytes : forall c, scalar c -> bytes (utf8 c).
Proof.
  intros c (R & N). unfold utf8.
  assert (M : forall x, 0 <= x mod 64 < 64) by (intro; apply Z.mod_pos_bound; lia). pose proof (M c). pose proof (M (c / 64)). pose proof (M (c / 4096)).
  assert (0 <= c / 64) by (apply Z.div_pos; lia). assert (0 <= c / 4096) by (apply Z.div_pos; lia). assert (0 <= c / 262144) by (apply Z.div_pos; lia).
  destruct (Z.ltb_spec c 0x80); [|destruct (Z.ltb_spec c 0x800); [|destruct (Z.ltb_spec c 0x10000)]].
  - repeat (apply Forall_cons; [unfold byte; lia|]). apply Forall_nil.
  - assert (c / 64 < 32) by (apply Z.div_lt_upper_bound; lia). repeat (apply Forall_cons; [unfold byte; lia|]). apply Forall_nil.
  - assert (c / 4096 < 16) by (apply Z.div_lt_upper_bound; lia). repeat (apply Forall_cons; [unfold byte; lia|]). apply Forall_nil.
  - assert (c / 262144 < 8) by (apply Z.div_lt_upper_bound; lia). repeat (apply Forall_cons; [unfold byte; lia|]). apply Forall_nil.
Qed.
Lemma textBytes_app : forall s s', textBytes (s ++ s') = textBytes s ++ textBytes s'.
Proof. induction s as [|c s IH]; intro s'; [reflexivity|]. cbn [String.append]. unfold textBytes in *. cbn [list_ascii_of_string map List.app]. rewrite IH. reflexivity. Qed.
Lemma textBytes_of : forall l, bytes l -> textBytes (stringOf l) = l.
Proof.
  intros l H. unfold textBytes, stringOf. rewrite list_ascii_of_string_of_list_ascii, map_map. induction H as [|b l B H IH]; [reflexivity|].
  cbn [map]. rewrite IH. f_equal. rewrite N_ascii_embedding by (unfold byte in B; lia). unfold byte in B. lia.
Qed.

(** * The text *)

Theorem C124_text : forall t c, char_of t c ->
  textBytes (unknownType t) = textBytes "unknown cipherTextType:" ++ utf8 c /\ ValidString (textBytes (unknownType t)) = true /\
  runes (textBytes (unknownType t)) = textBytes "unknown cipherTextType:" ++ [c].
Proof.
  intros t c H. assert (S : scalar c) by (destruct H as [[H ->]|[_ ->]]; [exact H|unfold scalar; lia]).
  assert (E : textBytes (unknownType t) = textBytes "unknown cipherTextType:" ++ utf8 c).
  { unfold unknownType. rewrite textBytes_app, (encodeRune_utf8 t c H), (textBytes_of _ (utf8_bytes c S)). reflexivity. }
  split; [exact E|]. rewrite E. pose proof (decode_utf8 c [] S) as D. rewrite app_nil_r in D. change (decodeRunes []) with (@nil (Z * bool)) in D.
  unfold ValidString, runes.
  change (textBytes "unknown cipherTextType:" ++ utf8 c) with (textBytes "unknown cipherTextType:" ++ utf8 c).
  assert (A : decodeRunes (textBytes "unknown cipherTextType:" ++ utf8 c) = map (fun b => (b, true)) (textBytes "unknown cipherTextType:") ++ [(c, true)]).
  { rewrite <- D. generalize (utf8 c). intro u. vm_compute. reflexivity. }
  rewrite A. split; [vm_compute; reflexivity|]. rewrite map_app, map_map, map_id. reflexivity.
Qed.
Theorem C124_same_text : forall t t' c c', char_of t c -> char_of t' c' -> (unknownType t = unknownType t' <-> c = c').
Proof.
  intros t t' c c' H H'. destruct (C124_text t c H) as (_ & _ & R). destruct (C124_text t' c' H') as (_ & _ & R'). split.
  - intro E. rewrite E, R' in R. apply app_inv_head in R. congruence.
  - intros <-. unfold unknownType. rewrite (encodeRune_utf8 t c H), (encodeRune_utf8 t' c H'). reflexivity.
Qed.

(** * What is done before *)

(** Encrypting does all the work, uses up the same random bytes and fails in the same way as with a known order. *)
Theorem C124_encrypt : forall pub inp t tape, t <> 1 -> t <> 2 ->
  Encrypt pub inp t tape = match Encrypt pub inp 1 tape with
                           | Ret (OK _, rest) => Ret (ERR (unknownType t), rest)
                           | Ret (ERR e, rest) => Ret (ERR e, rest)
                           | Panic p => Panic p
                           end.
Proof.
  intros pub inp t tape N1 N2. unfold Encrypt. destruct (encrypt_loop (List.length tape) pub inp inp New tape) as [[[v|e] r]|p]; cbn [bind]; [|reflexivity|reflexivity].
  destruct v as [[[[c1 c2] x] y] d]. destruct (bigIntTo32Bytes x) as [xb|p]; cbn [bind]; [|reflexivity]. destruct (bigIntTo32Bytes y) as [yb|p]; cbn [bind]; [|reflexivity].
  destruct (hashOf d [xb; inp; yb]) as [[d' c3]|p]; cbn [bind]; [|reflexivity]. change C1C2C3 with 1. change C1C3C2 with 2.
  rewrite (proj2 (Z.eqb_neq t 1) N1), (proj2 (Z.eqb_neq t 2) N2). reflexivity.
Qed.
(** Decrypting notices it after the point C1 and the length, before anything is decrypted or compared. *)
Theorem C124_decrypt : forall priv c t, 0 <= D priv -> bytes c -> t <> 1 -> t <> 2 ->
  ((exists Q, c1_is c Q) /\ 97 <= zlen c -> Decrypt priv c t = Ret (ERR (unknownType t))) /\
  (~ ((exists Q, c1_is c Q) /\ 97 <= zlen c) -> exists p, Decrypt priv c t = Panic p /\ Decrypt priv c 1 = Panic p).
Proof.
  intros priv c t HD HB N1 N2. split.
  - intros [[Q HQ] L]. exact (Decrypt_97_unknown priv c t Q HD HQ HB L N1 N2).
  - intro N. destruct (Z.lt_ge_cases (zlen c) 65) as [L|L]; [exists PSlice; split; apply Decrypt_short, L|].
    destruct (Unmarshal sm2p sm2b (firstn 65 c)) as [[x y]|] eqn:U.
    + apply Unmarshal_some in U; [|apply bytes_firstn, HB]. destruct U as (P & On & NO & E & _).
      assert (HP : c1_is c P) by (split; [exact On|split; [exact NO|exact E]]).
      exists PMake. assert (L' : zlen c < 97) by (destruct (Z.lt_ge_cases (zlen c) 97) as [|G]; [assumption|exfalso; apply N; split; [exists P; exact HP|exact G]]).
      split; apply (Decrypt_mid priv c _ P HD HP HB L').
    + exists PNil. split; (apply Decrypt_bad_c1; [exact HB|exact L|]); intros Q (On & NO & E); rewrite E, (Unmarshal_point Q On NO) in U; discriminate.
Qed.
Theorem C124_der : forall t, t <> 1 -> t <> 2 ->
  (forall c, MarshalCipher c t = if zlen c <? 97 then Panic PMake else Ret (ERR (unknownType t))) /\
  (forall inp, UnmarshalCipher inp t = Ret (ERR (unknownType t))).
Proof.
  intros t N1 N2. apply Z.eqb_neq in N1 as E1. apply Z.eqb_neq in N2 as E2. split.
  - intro c. destruct (Z.ltb_spec (zlen c) 97) as [L|L]; [apply C56_short_panics, L|].
    destruct (split97 c L) as (b & x & y & r & -> & Lx & Ly & Lr). rewrite <- (firstn_skipn (List.length r - 32) r).
    rewrite MarshalCipher_eval; [rewrite E1, E2; reflexivity|exact Lx|exact Ly|].
    right. right. split; [exact N1|]. split; [exact N2|]. unfold zlen in Lr |- *. rewrite skipn_length. lia.
  - intro inp. unfold UnmarshalCipher. change C1C2C3 with 1. change C1C3C2 with 2. rewrite E1, E2. reflexivity.
Qed.

(** Type 0 is shown as a NUL byte, type 48 as the digit 0, types -1 and 0xd800 alike. *)
Example C124_ex_text : unknownType 48 = "unknown cipherTextType:0"%string /\ textBytes (unknownType 0) = textBytes "unknown cipherTextType:" ++ [0] /\
  unknownType (-1) = unknownType 0xd800 /\ char_of (-1) 0xfffd /\ char_of 0x20ac 0x20ac /\
  textBytes (unknownType 0x20ac) = textBytes "unknown cipherTextType:" ++ [0xe2; 0x82; 0xac].
Proof. repeat apply conj; try (vm_compute; reflexivity); unfold char_of, scalar; lia. Qed.
(** A ciphertext with a valid point. *)
Example C124_ex_decrypt : c1_is (4 :: point_bytes G ++ repeat 0 33) G /\ Decrypt ex_priv (4 :: point_bytes G ++ repeat 0 33) 3 = Ret (ERR (unknownType 3)).
Proof.
  assert (H : c1_is (4 :: point_bytes G ++ repeat 0 33) G).
  { split; [exact G_on|]. split; [discriminate|]. change (4 :: firstn 64 (point_bytes G ++ repeat 0 33) = 4 :: point_bytes G). apply (f_equal (cons 4)).
    apply firstn_app_exact. symmetry. apply point_bytes_length. }
  split; [exact H|]. apply C124_decrypt; [discriminate| |lia|lia|split; [exists G; exact H|]].
  - apply Forall_cons; [unfold byte; lia|]. apply Forall_app. split; [apply point_bytes_bytes|]. apply Forall_forall. intros b I. apply repeat_spec in I. subst b. unfold byte. lia.
  - reflexivity || (unfold zlen; cbn [List.length]; rewrite app_length, point_bytes_length; cbn; lia).
Qed.
