(** The sample values printed in the annexes of GB/T 32918.5 (the SM2 parameters and samples), obtained from
    the model: signature, encryption, key exchange. They tie the model, and the specification it is proved
    against, to values published independently of both. *)
From Coq Require Import ZArith List Lia Bool.
From Verif Require Import GoBase Sm3Spec Sm2Primes GoElliptic Sm2Group Sm2Spec Sm2 Sm2Order PropsCurve Sm2Proofs Sm2Proofs2 PropsSm2
  BeMin KeyExchange KexSpec KexCert PropsKex Sm2VecCert KexVecCert.
Import ListNotations.
Open Scope Z_scope.

(** * Signature *)
Definition std_priv : PrivateKey := mkPriv sd_k.
Definition std_pub : PublicKey := mkPub
  0x09f9df311e5421a150dd7d161e4bc5c672179fad1833fc076bb08ff356f35020
  0xccea490ce26775a52dc6ea718cc1aa600aed05fbf35e084a6632f6072da9ad13.
Definition std_tape : list Z := be_enc 32 0x59276E27D506861A16680F3AD9C02DCCEF3CC1FA3CDBE4CE6D54B80DEAC1BC21.
(** "message digest" *)
Definition std_msg : list Z := [109; 101; 115; 115; 97; 103; 101; 32; 100; 105; 103; 101; 115; 116].
Definition std_r : Z := 0xf5a03b0648d2c4630eeac513e1bb81a15944da3827d5b74143ac7eaceee720b3.
Definition std_s : Z := 0xb1b6aa29df212fd8763182bc0d421ca1bb9038fd1f7f42d4840b69c485bbc1aa.

Lemma std_pub_ok : CalculatePubKey std_priv = Ret std_pub.
Proof.
  unfold CalculatePubKey, std_priv. cbn [D]. rewrite base_mult_z by (vm_compute; discriminate). cbn [bind].
  rewrite (proj1 (proj2 sd_pt)), (proj2 (proj2 sd_pt)). reflexivity.
Qed.
Lemma std_tape_bytes : bytes std_tape. Proof. apply be_enc_bytes. Qed.
Lemma std_msg_good : good_msg std_msg.
Proof. split; [repeat constructor; unfold byte; lia|]. split; [discriminate|reflexivity]. Qed.
Lemma std_e : sig_e sd_k None std_msg = 0xf0b43e94ba45accaace692ed534382eb17e6ab5a19ce7b31f4486fdfc0d28640.
Proof. unfold sig_e, pub_of. rewrite (proj1 (proj2 sd_pt)), (proj2 (proj2 sd_pt)). vm_compute. reflexivity. Qed.
Lemma std_nonces : nonces std_tape = [(sk_k, [])]. Proof. vm_compute. reflexivity. Qed.
Lemma std_signature : signature sd_k (sig_e sd_k None std_msg) sk_k std_r std_s.
Proof.
  rewrite std_e. unfold signature. rewrite (proj1 (proj2 sk_pt)).
  split; [vm_compute; reflexivity|]. split; [discriminate|]. split; [discriminate|]. split; [split; vm_compute; reflexivity|].
  vm_compute. reflexivity.
Qed.
Example C45_standard_sample : SignToRS std_priv None std_msg std_tape = Ret (OK (std_r, std_s), []).
Proof.
  apply (C45_first_signature std_priv None std_msg std_tape sk_k [] [] []).
  - vm_compute. discriminate.
  - exact I.
  - exact std_msg_good.
  - exact std_tape_bytes.
  - exact std_nonces.
  - constructor.
  - exact std_signature.
Qed.
Example C44_standard_sample : VerifyByRS std_pub None std_msg std_r std_s = Ret true.
Proof.
  apply (C44_signatures_verify std_priv std_pub None std_msg std_tape std_r std_s []).
  - vm_compute. discriminate.
  - exact I.
  - exact std_msg_good.
  - exact std_tape_bytes.
  - exact std_pub_ok.
  - exact C45_standard_sample.
Qed.

(** * Encryption *)
(** "encryption standard" *)
Definition std_plain : list Z := [101; 110; 99; 114; 121; 112; 116; 105; 111; 110; 32; 115; 116; 97; 110; 100; 97; 114; 100].
Definition std_c1 : list Z := 4 :: be_enc 32 0x04ebfc718e8d1798620432268e77feb6415e2ede0e073c0f4f640ecd2e149a73 ++
  be_enc 32 0xe858f9d81e5430a57b36daab8f950a3c64e6ee6a63094d99283aff767e124df0.
Definition std_c2 : list Z := be_enc 19 0x21886ca989ca9c7d58087307ca93092d651efa.
Definition std_c3 : list Z := be_enc 32 0x59983c18f809e262923c53aec295d30383b54e39d609d160afcb1908d0bd8766.

Lemma std_dec : dec (X std_pub) (Y std_pub) = pmul sd_k G.
Proof. rewrite <- (dec_coords (pmul sd_k G)) by (apply pmul_on, G_on). rewrite (proj1 (proj2 sd_pt)), (proj2 (proj2 sd_pt)). reflexivity. Qed.
Lemma std_shared : pmul sk_k (pmul sd_k G) = pmul skd_k G.
Proof.
  rewrite <- pmul_mul by (try exact G_on; vm_compute; discriminate).
  apply (pmul_cong sm2n); [exact G_on|reflexivity|vm_compute; discriminate|vm_compute; discriminate|exact G_order|vm_compute; reflexivity].
Qed.
Lemma std_enc_c2 : enc_c2 (pmul skd_k G) std_plain = std_c2.
Proof. unfold enc_c2, point_bytes. rewrite (proj1 (proj2 skd_pt)), (proj2 (proj2 skd_pt)). vm_compute. reflexivity. Qed.
Lemma std_enc_c3 : enc_c3 (pmul skd_k G) std_plain = std_c3.
Proof. unfold enc_c3. rewrite (proj1 (proj2 skd_pt)), (proj2 (proj2 skd_pt)). vm_compute. reflexivity. Qed.
Lemma std_enc_c1 : 4 :: point_bytes (pmul sk_k G) = std_c1.
Proof. unfold point_bytes. rewrite (proj1 (proj2 sk_pt)), (proj2 (proj2 sk_pt)). reflexivity. Qed.
Lemma std_plain_good : good_msg std_plain.
Proof. split; [repeat constructor; unfold byte; lia|]. split; [discriminate|reflexivity]. Qed.

(** The standard's order of the parts, and the older one. *)
Example C51_standard_sample :
  Encrypt std_pub std_plain 2 std_tape = Ret (OK (std_c1 ++ std_c3 ++ std_c2), []) /\
  Encrypt std_pub std_plain 1 std_tape = Ret (OK (std_c1 ++ std_c2 ++ std_c3), []).
Proof.
  assert (On : on_curve (dec (X std_pub) (Y std_pub))) by (rewrite std_dec; apply pmul_on, G_on).
  destruct std_plain_good as (B & NE & L).
  assert (M : forall t, ciphertext (pmul sd_k G) std_plain sk_k t =
            std_c1 ++ (if t =? 1 then std_c2 ++ std_c3 else std_c3 ++ std_c2)).
  { intro t. unfold ciphertext. cbv zeta. rewrite std_shared, std_enc_c2, std_enc_c3. rewrite <- std_enc_c1. reflexivity. }
  pose proof (fun t => Encrypt_ok std_pub std_plain t std_tape std_tape_bytes B On L NE) as H.
  rewrite std_nonces, std_dec in H. cbn [find fst] in H.
  assert (MK : masks (pmul sd_k G) std_plain sk_k = true).
  { unfold masks. rewrite std_shared, std_enc_c2. destruct (list_eq_dec Z.eq_dec std_c2 std_plain) as [E|]; [|reflexivity].
    apply (f_equal (hd 0)) in E. revert E. vm_compute. discriminate. }
  rewrite MK in H. pose proof (H 1) as H1. pose proof (H 2) as H2. rewrite M in H1, H2. cbn [Z.eqb Pos.eqb orb] in H1, H2.
  split; [exact H2|exact H1].
Qed.
Example C50_standard_sample : Decrypt std_priv (std_c1 ++ std_c3 ++ std_c2) 2 = Ret (OK std_plain).
Proof.
  apply (C50_decrypt_inverts_encrypt std_priv std_pub std_plain 2 std_tape _ []).
  all: first [exact std_pub_ok|exact (proj1 C51_standard_sample)|exact std_tape_bytes|apply std_plain_good|exact std_plain_good|idtac].
  all: vm_compute; auto; discriminate.
Qed.

(** * Key exchange *)
Definition std_dA : PrivateKey := mkPriv kda_k.
Definition std_dB : PrivateKey := mkPriv kdb_k.
Definition std_rA : PrivateKey := mkPriv kra_k.
Definition std_rB : PrivateKey := mkPriv krb_k.
Definition std_PA : PublicKey := mkPub 0x160e12897df4edb61dd812feb96748fbd3ccf4ffe26aa6f6db9540af49c94232 0x4a7dad08bb9a459531694beb20aa489d6649975e1bfcf8c4741b78b4b223007f.
Definition std_PB : PublicKey := mkPub 0x6ae848c57c53c7b1b5fa99eb2286af078ba64c64591b8b566f7357d576f16dfb 0xee489d771621a27b36c5c7992062e9cd09a9264386f3fbea54dff69305621c4d.
Definition std_RA : PublicKey := mkPub 0x64ced1bdbc99d590049b434d0fd73428cf608a5db8fe5ce07f15026940bae40e 0x376629c7ab21e7db260922499ddb118f07ce8eaae3e7720afef6a5cc062070c0.
Definition std_RB : PublicKey := mkPub 0xacc27688a6f7b706098bc91ff3ad1bff7dc2802cdb14ccccdb0a90471f9bd707 0x2fedac0494b2ffc4d6853876c79b8f301c6573ad0aa50f39fc87181e1a1b46fe.
Definition std_K : list Z := be_enc 16 0x6c89347354de2484c60b4ab1fde4c6e5.
Definition std_S1 : list Z := be_enc 32 0xd3a0fe15dee185ceae907a6b595cc32a266ed7b3367e9983a896dc32fa20f8eb.
Definition std_S2 : list Z := be_enc 32 0x18c7894b3816df16cf07b05c5ec0bef5d655d58f779cc1b400a4f3884644db88.

Lemma std_pubs : CalculatePubKey std_dA = Ret std_PA /\ CalculatePubKey std_dB = Ret std_PB /\
  CalculatePubKey std_rA = Ret std_RA /\ CalculatePubKey std_rB = Ret std_RB.
Proof.
  unfold CalculatePubKey, std_dA, std_dB, std_rA, std_rB. cbn [D]. rewrite !base_mult_z by (vm_compute; discriminate). cbn [bind].
  rewrite (proj1 (proj2 kda_pt)), (proj2 (proj2 kda_pt)), (proj1 (proj2 kdb_pt)), (proj2 (proj2 kdb_pt)).
  rewrite (proj1 (proj2 kra_pt)), (proj2 (proj2 kra_pt)), (proj1 (proj2 krb_pt)), (proj2 (proj2 krb_pt)). repeat split.
Qed.
Definition std_ZA : list Z := ZA default_id kda_x kda_y.
Definition std_ZB : list Z := ZA default_id kdb_x kdb_y.
Lemma std_U : kex_point (kex_t kdb_k krb_k) (pmul kda_k G) (pmul kra_k G) = pmul ku_k G.
Proof.
  rewrite kex_shared by (vm_compute; discriminate). apply (pmul_cong sm2n); [exact G_on|reflexivity| | |exact G_order|].
  - unfold kex_t. rewrite (proj1 (proj2 kra_pt)), (proj1 (proj2 krb_pt)). vm_compute. discriminate.
  - vm_compute. discriminate.
  - unfold kex_t. rewrite (proj1 (proj2 kra_pt)), (proj1 (proj2 krb_pt)). vm_compute. reflexivity.
Qed.
Lemma std_key : kex_key minb (pmul ku_k G) std_ZA std_ZB (key_octets 128) = std_K.
Proof. unfold kex_key. rewrite (proj1 (proj2 ku_pt)), (proj2 (proj2 ku_pt)). vm_compute. reflexivity. Qed.
Lemma std_tags : kex_tag minb 2 (pmul ku_k G) std_ZA std_ZB (pmul kra_k G) (pmul krb_k G) = std_S1 /\
  kex_tag minb 3 (pmul ku_k G) std_ZA std_ZB (pmul kra_k G) (pmul krb_k G) = std_S2.
Proof.
  unfold kex_tag. rewrite (proj1 (proj2 ku_pt)), (proj2 (proj2 ku_pt)), (proj1 (proj2 kra_pt)), (proj2 (proj2 kra_pt)),
    (proj1 (proj2 krb_pt)), (proj2 (proj2 krb_pt)). split; vm_compute; reflexivity.
Qed.
Lemma std_nz : kex_nonzero (pmul ku_k G) (pmul kra_k G) (pmul krb_k G).
Proof.
  unfold kex_nonzero. rewrite (proj1 (proj2 ku_pt)), (proj2 (proj2 ku_pt)), (proj1 (proj2 kra_pt)), (proj2 (proj2 kra_pt)),
    (proj1 (proj2 krb_pt)), (proj2 (proj2 krb_pt)). repeat split; discriminate.
Qed.
Lemma std_id_good : good_opt (Some default_id).
Proof. split; [|reflexivity]. apply (good_id_eff None I). Qed.

(** The responder computes the sample's key and both tags; the initiator, given the responder's tag, computes
    the same key and the second tag. *)
Example C60_standard_responder :
  CalculateKeyWithConfirmation false 128 None std_dB std_rB (Some default_id) std_PA std_RA (Some default_id) =
  Ret (OK (mkExch std_K (Some std_S1) std_S2)).
Proof.
  assert (EP : mkPub (xc (pmul kda_k G)) (yc (pmul kda_k G)) = std_PA) by (rewrite (proj1 (proj2 kda_pt)), (proj2 (proj2 kda_pt)); reflexivity).
  assert (ER : mkPub (xc (pmul kra_k G)) (yc (pmul kra_k G)) = std_RA) by (rewrite (proj1 (proj2 kra_pt)), (proj2 (proj2 kra_pt)); reflexivity).
  assert (E1 : ZA default_id (xc (pmul kda_k G)) (yc (pmul kda_k G)) = std_ZA) by (rewrite (proj1 (proj2 kda_pt)), (proj2 (proj2 kda_pt)); reflexivity).
  assert (E2 : ZA default_id (xc (pmul kdb_k G)) (yc (pmul kdb_k G)) = std_ZB) by (rewrite (proj1 (proj2 kdb_pt)), (proj2 (proj2 kdb_pt)); reflexivity).
  destruct std_id_good as [NB NL].
  destruct (party false 128 None std_dB std_rB (Some default_id) (Some default_id) (pmul kda_k G) (pmul kra_k G)
    ltac:(vm_compute; discriminate) ltac:(vm_compute; discriminate) (pmul_on _ _ G_on) (pmul_on _ _ G_on) NB NL NB NL ltac:(lia) eq_refl) as [H _].
  cbv zeta iota in H. change (contentsOf (Some default_id)) with default_id in H.
  change (D std_dB) with kdb_k in H. change (D std_rB) with krb_k in H.
  rewrite E1, E2, EP, ER, std_U in H. rewrite (H std_nz ltac:(lia)). 
  rewrite (proj1 std_tags), (proj2 std_tags). rewrite std_key. reflexivity.
Qed.
Example C58_standard_initiator :
  CalculateKeyWithConfirmation true 128 (Some std_S1) std_dA std_rA (Some default_id) std_PB std_RB (Some default_id) =
  Ret (OK (mkExch std_K None std_S2)) /\ ResponderConfirm std_S2 std_S2 = true.
Proof.
  destruct std_pubs as (PA & PB & RA & RB).
  destruct (C58_both_sides_agree 128 None std_dA std_rA std_dB std_rB std_PA std_RA std_PB std_RB (Some default_id) (Some default_id) _
    ltac:(vm_compute; discriminate) ltac:(vm_compute; discriminate) ltac:(vm_compute; discriminate) ltac:(vm_compute; discriminate)
    std_id_good std_id_good ltac:(lia) PA RA PB RB C60_standard_responder) as (t & resA & E1 & E2 & E3 & _ & E4 & E5).
  cbn [exS1 exKey exS2] in *. injection E1 as <-. rewrite E2. destruct resA as [key s1 s2]. cbn [exS1 exKey exS2] in *. subst key s1.
  assert (s2 = std_S2) as -> by (symmetry; apply C58_confirm_is_equality; exact E5).
  split; [reflexivity|exact E5].
Qed.
