(** Property C116: which identifier octet stands on the wire for each type cryptobyte writes and reads, as
    X.680 numbers the universal types; and what an optional BOOLEAN that is absent gives. The numbers are
    written out here and not taken from the constants of the model (asn1/asn1.go:29-44). *)
From Coq Require Import ZArith List Lia Bool String.
From Verif Require Import GoBase BeMin CbString CbStringProofs PropsCbString.
From Verif Require Import CbBuilder CbBuilderProofs CbBuilderFixed CbBuilderGen PropsCbBuilder CbAsn1Proofs PropsCbAsn1.
From Verif Require Import GoAsn1 GoText PropsCertTime PropsCbTime.
Import ListNotations.
Open Scope Z_scope.

(** The octets of an element: the identifier, the length octets, the contents. *)
Definition octets_of (t : Z) (c : list Z) : list Z := t :: der_len (zlen c) ++ c.

Theorem C116_write_integer : forall v c, int_der v c ->
  (- 2 ^ 63 <= v < 2 ^ 63 -> writes (AddASN1Int64 v) (octets_of 2 c) /\ writes (AddASN1Enum v) (octets_of 10 c)) /\
  (0 <= v < 2 ^ 64 -> writes (AddASN1Uint64 v) (octets_of 2 c)) /\
  (v <> -1 -> zlen c <= 2 ^ 32 - 2 -> writes (AddASN1BigInt v) (octets_of 2 c)).
Proof.
  intros v c D. split; [|split].
  - intro H. exact (C33_write_signed v c H D).
  - intro H. exact (C33_write_unsigned v c H D).
  - intros H L. exact (C32_write v c H D L).
Qed.

Theorem C116_write_strings : forall d,
  (zlen d <= 2 ^ 32 - 2 -> writes (AddASN1OctetString d) (octets_of 4 d)) /\
  (zlen d <= 2 ^ 32 - 3 -> writes (AddASN1BitString d) (octets_of 3 (0 :: d))).
Proof.
  intro d. split; intro L.
  - apply (elem_writes 4 [IBytes d] d); [cbn; auto|cbn; rewrite app_nil_r; reflexivity|discriminate|lia].
  - apply (elem_writes 3 [IBytes [0]; IBytes d] (0 :: d)); [cbn; auto|cbn; rewrite app_nil_r; reflexivity|discriminate|].
    rewrite zlen_cons. lia.
Qed.

Theorem C116_write_short : forall v : bool,
  writes (AddASN1Boolean v) [1; 1; if v then 255 else 0] /\ writes AddASN1NULL [5; 0].
Proof.
  intro v. split.
  - change [1; 1; if v then 255 else 0] with (tlv 1 [if v then 255 else 0]).
    replace (AddASN1Boolean v) with (call (IASN1 1 [IBytes [if v then 255 else 0]])) by (destruct v; reflexivity).
    apply elem_writes; [cbn; auto|reflexivity|discriminate|destruct v; cbn; lia].
  - intro buf. apply (C26_growing_builder buf [IBytes [5; 0]] [5; 0]); [cbn; auto|reflexivity].
Qed.

Theorem C116_write_oid : forall oid buf, oid_ok oid -> groups_below (2 ^ 28) oid -> 4 * zlen oid <= 2 ^ 32 - 8 ->
  exists st c, execs [AddASN1ObjectIdentifier oid] (NewBuilder buf) = (st, None) /\
    Bytes st = OK (buf ++ octets_of 6 c) /\ oid_der oid c.
Proof.
  intros oid buf HO HG HL. destruct (C35_roundtrip oid buf [] HO HG HL ltac:(constructor)) as (st & c & E & B & D & _).
  exists st, c. auto.
Qed.

Theorem C116_write_time : forall t, 0 <= yearOf t <= 9999 -> writes (AddASN1GeneralizedTime t) (octets_of 24 (formatTime t)).
Proof.
  intros t HY. pose proof (formatTime_length t) as FL. unfold AddASN1GeneralizedTime.
  rewrite (proj2 (Z.ltb_ge _ 0)), (proj2 (Z.ltb_ge 9999 _)) by lia. cbn [orb].
  apply (elem_writes 24 [IBytes (formatTime t)] (formatTime t)); [cbn; auto|cbn; rewrite app_nil_r; reflexivity|discriminate|unfold zlen; lia].
Qed.

(** Reading: the next octet is that number when the read succeeds, and no value comes out otherwise. *)
Lemma element_hd : forall s t c r, element s t c r -> hd_error (contents s) = Some t.
Proof. intros s t c r (-> & _). reflexivity. Qed.

Theorem C116_read : forall s s', bytes (contents s) ->
  (forall k v, int_kind k -> ReadASN1Integer s k = Ret (Some v, s') -> hd_error (contents s) = Some 2) /\
  (forall v, ReadASN1Enum s = Ret (Some v, s') -> hd_error (contents s) = Some 10) /\
  (forall d n, ReadASN1BitString s = Ret (Some (d, n), s') -> hd_error (contents s) = Some 3) /\
  (forall d, ReadASN1BitStringAsBytes s = Ret (Some d, s') -> hd_error (contents s) = Some 3) /\
  (forall o, ReadASN1ObjectIdentifier s = Ret (Some o, s') -> hd_error (contents s) = Some 6) /\
  (forall t, ReadASN1GeneralizedTime s = Ret (Some t, s') -> hd_error (contents s) = Some 24) /\
  (forall tag o p, hd_error (contents s) = Some tag -> ReadOptionalASN1OctetString s tag = Ret (Some (o, p), s') ->
     exists d r, element s tag (octets_of 4 d) r /\ o = Some d /\ s' = Some r).
Proof.
  intros s s' HB. repeat split.
  - intros k v K H. apply C33_read_integer in H; auto. destruct H as (c & r & HE & _). apply (element_hd _ _ _ _ HE).
  - intros v H. apply C33_read_enum in H; auto. destruct H as (c & r & HE & _). apply (element_hd _ _ _ _ HE).
  - intros d n H. apply C36_read_bit_string in H; auto. destruct H as (u & r & HE & _). apply (element_hd _ _ _ _ HE).
  - intros d H. apply C36_read_bit_string_as_bytes in H; auto. destruct H as (r & HE & _). apply (element_hd _ _ _ _ HE).
  - intros o H. unfold ReadASN1ObjectIdentifier in H. destruct (element_em s HB) as [(t & c & r & HE)|HN].
    + rewrite (ReadASN1_element _ _ _ _ _ _ HB HE) in H. cbn [bind] in H.
      destruct (Z.eqb_spec t OBJECT_IDENTIFIER) as [->|]; [apply (element_hd _ _ _ _ HE)|discriminate H].
    + rewrite (ReadASN1_fail _ _ _ HB HN) in H. discriminate H.
  - intros t H. apply C84_read in H; auto. destruct H as (r & HE & _). apply (element_hd _ _ _ _ HE).
  - intros tag o p HX H. apply (proj2 (C38_optional_octet_string s tag HB)) in H.
    + destruct H as (d & r & HE & _ & -> & _ & ->). exists d, r. auto.
    + destruct (contents s) as [|x l] eqn:Es; [discriminate HX|]. injection HX as ->. exists l. exact Es.
Qed.

(** An optional BOOLEAN: absent unless the next octet is 1, and then the default is the value. *)
Theorem C116_optional_boolean_absent : forall s d, hd_error (contents s) <> Some 1 ->
  ReadOptionalASN1Boolean s d = Ret (Some d, s).
Proof.
  intros s d H. unfold ReadOptionalASN1Boolean.
  rewrite (proj1 (proj1 (C38_optional s None BOOLEAN) ltac:(intros [r E]; apply H; rewrite E; reflexivity))). reflexivity.
Qed.

Example C116_ex_write : exists st, execs [AddASN1Enum 300; AddASN1OctetString [7]; AddASN1NULL] (NewBuilder [99]) = (st, None) /\
  Bytes st = OK [99; 10; 2; 1; 44; 4; 1; 7; 5; 0].
Proof. eexists. split; vm_compute; reflexivity. Qed.
Example C116_ex_read : ReadASN1Enum (Some [10; 1; 5; 9]) = Ret (Some 5, Some [9]) /\
  ReadOptionalASN1Boolean (Some [2; 1; 0]) true = Ret (Some true, Some [2; 1; 0]) /\
  ReadOptionalASN1OctetString (Some [160; 3; 4; 1; 7; 9]) 160 = Ret (Some (Some [7], true), Some [9]).
Proof. repeat split; reflexivity. Qed.
Example C116_ex_time : exists st, execs [AddASN1GeneralizedTime (mkTime 0 0 0)] (NewBuilder []) = (st, None) /\
  Bytes st = OK [24; 15; 49; 57; 55; 48; 48; 49; 48; 49; 48; 48; 48; 48; 48; 48; 90].
Proof. eexists. split; vm_compute; reflexivity. Qed.
