(** The grammar of certificates (C94): ParseCertificate accepts exactly the byte strings in it, and what
    it returns is the stated function of the parts. *)
From Coq Require Import ZArith List Lia Bool String.
From Verif Require Import GoBase BeMin CbString CbStringProofs CbBuilder CbBuilderProofs CbAsn1Proofs GoAsn1 GoAsn1Proofs GoElliptic Sm2 GoText GoPkix CertText Cert CertRt CertRt2 DerIff.
From Verif Require Import PropsCbString PropsCbAsn1 PropsCertText PropsCertNames PropsCertSan PropsCertBuild PropsCertExt PropsCert PropsCertReq PropsCertSafe PropsCertParse PropsCertDecode PropsCertAttr.
Import ListNotations.
Open Scope Z_scope.

(** * Grammars of sequences of parts *)

(** A part reads a value from the front of the input and leaves the rest. *)
Definition partg (A : Type) := list Z -> A -> list Z -> Prop.
Definition follows {A} (G : partg A) (Q : A -> list Z -> Prop) (l : list Z) : Prop := exists a l1, G l a l1 /\ Q a l1.
Notation "'part' x 'is' G ; Q" := (follows G (fun x => Q)) (at level 200, x name, G at level 100, Q at level 200, right associativity).
(** The value; the rest, if any, is ignored. *)
Definition yields (P : Prop) (l : list Z) : Prop := P.

(** A field with an explicit tag n, which may be missing. The length in the outer header is not looked
    at unless it is zero. The field counts as missing at the end of the input, in front of another
    header that is not the end of the input, and if something else is within the explicit tag. *)
Definition explicit_of {A} (n : Z) (b : bool) (t : Z) (P : gram A) (z : A) : partg A := fun l v r =>
  (exists m h body, header 2 true n m h /\ 0 < m /\ zlen body < 2 ^ 31 /\ P body v /\ l = h ++ tlv (ident 0 t b) body ++ r) \/
  (v = z /\ r = l /\
   (l = [] \/ exists c b' t' m h q, header c b' t' m h /\ l = h ++ q /\ q <> [] /\
      (~ (c = 2 /\ t' = n /\ (m = 0 \/ b' = true)) \/
       (c = 2 /\ t' = n /\ 0 < m /\ b' = true /\ exists c2 b2 t2 m2 h2 q2, header c2 b2 t2 m2 h2 /\ q = h2 ++ q2 /\ ~ (c2 = 0 /\ b2 = b /\ t2 = t))))).
Definition any_of : partg RawValue := fun l v r => raw_item v /\ l = rv_full v ++ r.
Definition opt_any_of : partg RawValue := fun l v r => any_of l v r \/ (l = [] /\ r = [] /\ v = zeroRaw).

(** * The parsers follow them *)
Definition fieldof {A} (p : list Z -> res (A * list Z)) (G : partg A) : Prop :=
  forall l v r, bytes l -> (p l = OK (v, r) <-> G l v r) /\ (G l v r -> bytes r).
Lemma seq_iff : forall A B (p : list Z -> res (A * list Z)) G (q : A -> list Z -> res B) Q v l, fieldof p G -> bytes l ->
  (forall a l1, bytes l1 -> (q a l1 = OK v <-> Q a l1)) ->
  ((try (a, l1) <- p l; q a l1) = OK v <-> follows G Q l).
Proof.
  intros A B p G q Q v l HF HB HQ. unfold follows. split.
  - intro H. destruct (p l) as [[a l1]|e] eqn:E; [|discriminate H]. cbn [rbind] in H. destruct (HF l a l1 HB) as [F1 F2]. apply F1 in E. exists a, l1. split; [exact E|]. apply HQ; [apply F2, E|exact H].
  - intros (a & l1 & H & K). destruct (HF l a l1 HB) as [F1 F2]. pose proof (F2 H) as HB1. apply F1 in H. rewrite H. cbn [rbind]. apply HQ; assumption.
Qed.
Lemma end_iff : forall A (a v : A) l, bytes l -> (OK a = OK v <-> yields (v = a) l).
Proof. intros A a v l _. unfold yields. split; intro H; [apply ok_eq in H; congruence|congruence]. Qed.
Lemma elem_field : forall A (u : uty A) t comp P z, reads u t comp P -> fieldof (parseField u z noParams) (elem_of 0 comp t P).
Proof. intros A u t comp P z H l v r HB. split; [apply plain_of; assumption|intro K; exact (elem_rest _ _ _ _ _ _ _ _ HB K)]. Qed.
Lemma tag_field : forall A (u : uty A) t comp P n z, reads u t comp P -> 0 <= n < 31 -> fieldof (parseField u z (optTag n)) (opt_of 2 comp n P z).
Proof. intros A u t comp P n z H Hn l v r HB. split; [apply (tag_of_iff _ _ t); assumption|intro K; exact (opt_rest _ _ _ _ _ _ _ _ _ HB K)]. Qed.
Lemma opt_field : forall A (u : uty A) t comp P z, reads u t comp P -> fieldof (parseField u z optParams) (opt_of 0 comp t P z).
Proof. intros A u t comp P z H l v r HB. split; [apply opt_of_iff; assumption|intro K; exact (opt_rest _ _ _ _ _ _ _ _ _ HB K)]. Qed.
Lemma any_rest : forall l v r, bytes l -> any_of l v r -> bytes r.
Proof. intros l v r HB [_ E]. rewrite E in HB. apply bytes_app in HB. apply HB. Qed.
Lemma any_field : forall z, fieldof (parseField uRaw z noParams) any_of.
Proof. intros z l v r HB. split; [apply raw_iff, HB|intro K; exact (any_rest _ _ _ HB K)]. Qed.
Lemma opt_any_field : fieldof (parseField uRaw zeroRaw optParams) opt_any_of.
Proof.
  intros l v r HB. unfold opt_any_of. split.
  - destruct l as [|x y] eqn:El.
    + split.
      * intro H. apply ok_eq in H. right. split; [reflexivity|]. split; congruence.
      * intros [[H E]|(_ & -> & ->)]; [|reflexivity]. symmetry in E. exfalso. exact (item_nonempty _ _ _ _ _ _ H E).
    + rewrite <- El in *. assert (NE : l <> []) by (rewrite El; discriminate). clear El x y.
      assert (U : parseField uRaw zeroRaw optParams l = parseField uRaw zeroRaw noParams l).
      { unfold parseField. destruct l as [|x y] eqn:El; [congruence|]. rewrite <- El. destruct (parseTagAndLength l) as [[h q]|e]; reflexivity. }
      rewrite U, (raw_iff zeroRaw l v r HB). unfold any_of. split; [auto|]. intros [H|(E & _)]; [exact H|congruence].
  - intros [K|(_ & -> & _)]; [exact (any_rest _ _ _ HB K)|constructor].
Qed.
Lemma header_split : forall l h q, bytes l -> parseTagAndLength l = OK (h, q) -> exists hd, header (tl_class h) (tl_comp h) (tl_tag h) (tl_length h) hd /\ l = hd ++ q.
Proof. intros l h q HB H. apply header_iff in H; [|exact HB]. exact H. Qed.
Lemma header_parse : forall c b t n hd q, bytes (hd ++ q) -> header c b t n hd -> parseTagAndLength (hd ++ q) = OK (mkTL c t n b, q).
Proof. intros c b t n hd q HB H. apply header_iff; [exact HB|]. exists hd. split; [exact H|reflexivity]. Qed.
Lemma header_nonempty : forall c b t n h q, header c b t n h -> h ++ q <> [].
Proof. intros c b t n h q (i & (_ & [[_ ->]|(_ & g & _ & ->)]) & _ & ->) E; discriminate E. Qed.
Lemma explicit_field : forall A (u : uty A) t comp P n z, reads u t comp P -> 0 <= n < 31 -> fieldof (parseField u z (explicitTag n)) (explicit_of n comp t P z).
Proof.
  intros A u t comp P n z (D & (Ht & HA & HT & HC & HD) & HP) Hn l v r HB.
  assert (REST : explicit_of n comp t P z l v r -> bytes r).
  { intros [(m & h & body & _ & _ & _ & _ & E)|(_ & -> & _)]; [|exact HB]. rewrite E in HB. apply bytes_app in HB. destruct HB as [_ HB]. apply bytes_app in HB. apply HB. }
  split; [|exact REST]. unfold explicit_of. destruct l as [|x y] eqn:El.
  { unfold parseField. cbn [explicitTag fp_optional]. split.
    - intro H. apply ok_eq in H. right. split; [congruence|]. split; [congruence|]. left. reflexivity.
    - intros [(m & h & body & Hh & _ & _ & _ & E)|(-> & -> & _)]; [|reflexivity]. symmetry in E. exfalso. exact (header_nonempty _ _ _ _ _ _ Hh E). }
  rewrite <- El in *. assert (NE : l <> []) by (rewrite El; discriminate). clear El x y REST.
  assert (U : parseField u z (explicitTag n) l =
    try (h, q) <- parseTagAndLength l;
    match q with
    | [] => ERR "explicit tag has no child"
    | _ :: _ =>
        if (tl_class h =? 2) && (tl_tag h =? n) && ((tl_length h =? 0) || tl_comp h) then
          if 0 <? tl_length h then
            try (h2, q2) <- parseTagAndLength q;
            if negb ((tl_class h2 =? 0) && (tl_tag h2 =? t) && Bool.eqb (tl_comp h2) comp) then OK (z, l)
            else if zlen q2 <? tl_length h2 then ERR "data truncated"
                 else try v <- D (sub q2 0 (tl_length h2)); OK (v, sub q2 (tl_length h2) (zlen q2))
          else ERR "zero length explicit tag was not an asn1.Flag"
        else OK (z, l)
    end).
  { unfold parseField. destruct l as [|x y] eqn:El; [congruence|]. rewrite <- El. clear El NE x y HB.
    cbn [explicitTag fp_explicit fp_optional fp_set fp_tag]. destruct (parseTagAndLength l) as [[h q]|e]; [|reflexivity]. cbn [rbind].
    destruct q as [|x y] eqn:Eq; [reflexivity|]. rewrite <- Eq. destruct ((tl_class h =? 2) && (tl_tag h =? n) && ((tl_length h =? 0) || tl_comp h)); [|reflexivity].
    rewrite HA. destruct (0 <? tl_length h); [|reflexivity]. destruct (parseTagAndLength q) as [[h2 q2]|e]; [|reflexivity]. cbn [rbind]. rewrite HT, HC. cbn [negb andb].
    rewrite !negb_andb. destruct (negb (tl_class h2 =? 0) || negb (tl_tag h2 =? t) || negb (Bool.eqb (tl_comp h2) comp)); [reflexivity|].
    destruct (zlen q2 <? tl_length h2); [reflexivity|]. rewrite HD. reflexivity. }
  rewrite U. clear U. split.
  - intro H. destruct (parseTagAndLength l) as [[h q]|e] eqn:EP; [|discriminate H]. cbn [rbind] in H. apply (header_split _ _ _ HB) in EP. destruct EP as (hd & Hh & Ell).
    assert (NQ : q <> []) by (destruct q; [discriminate H|discriminate]).
    assert (HBq : bytes q) by (rewrite Ell in HB; apply bytes_app in HB; apply HB).
    destruct q as [|x y] eqn:Eq; [congruence|]. rewrite <- Eq in *. clear Eq x y.
    destruct ((tl_class h =? 2) && (tl_tag h =? n) && ((tl_length h =? 0) || tl_comp h)) eqn:M.
    + rewrite !andb_true_iff, orb_true_iff, !Z.eqb_eq in M. destruct M as [[M1 M2] M3]. destruct (Z.ltb_spec 0 (tl_length h)) as [LP|LP]; [|discriminate H].
      assert (M4 : tl_comp h = true) by (destruct M3 as [M3|M3]; [lia|exact M3]). rewrite M1, M2, M4 in Hh.
      destruct (parseTagAndLength q) as [[h2 q2]|e] eqn:EP2; [|discriminate H]. cbn [rbind] in H. apply (header_split _ _ _ HBq) in EP2. destruct EP2 as (hd2 & Hh2 & Eq).
      destruct ((tl_class h2 =? 0) && (tl_tag h2 =? t) && Bool.eqb (tl_comp h2) comp) eqn:M2'; cbn [negb] in H.
      * left. rewrite !andb_true_iff, !Z.eqb_eq in M2'. destruct M2' as [[N1 N2] N3]. apply Bool.eqb_prop in N3.
        destruct (Z.ltb_spec (zlen q2) (tl_length h2)) as [|L]; [discriminate H|]. rewrite N1, N2, N3 in Hh2. apply low_header in Hh2; [|lia]. destruct Hh2 as (_ & Ehd2 & Hn2).
        destruct (split_at _ q2 (tl_length h2) ltac:(lia)) as (body & rest & -> & Hb). rewrite sub_app_l in H by auto. rewrite (zlen_app _ body rest), sub_app_r in H by lia.
        destruct (D body) as [w|e] eqn:ED; [|discriminate H]. cbn [rbind] in H. apply ok_eq in H. assert (v = w) by congruence. assert (r = rest) by congruence. subst w rest.
        exists (tl_length h), hd, body. split; [exact Hh|]. split; [exact LP|]. split; [lia|]. split.
        -- apply HP; [|exact ED]. rewrite Eq in HBq. apply bytes_app in HBq. destruct HBq as [_ HBq]. apply bytes_app in HBq. apply HBq.
        -- rewrite Ell, Eq, Ehd2. unfold tlv. rewrite Hb. cbn [app]. rewrite <- app_assoc. reflexivity.
      * right. apply ok_eq in H. split; [congruence|]. split; [congruence|]. right. exists 2, true, n, (tl_length h), hd, q. split; [exact Hh|]. split; [exact Ell|]. split; [exact NQ|].
        right. split; [reflexivity|]. split; [reflexivity|]. split; [exact LP|]. split; [reflexivity|].
        exists (tl_class h2), (tl_comp h2), (tl_tag h2), (tl_length h2), hd2, q2. split; [exact Hh2|]. split; [exact Eq|].
        intros (Q1 & Q2 & Q3). rewrite Q1, Q2, Q3, !Z.eqb_refl, eqb_reflx in M2'. discriminate M2'.
    + right. apply ok_eq in H. split; [congruence|]. split; [congruence|]. right. exists (tl_class h), (tl_comp h), (tl_tag h), (tl_length h), hd, q.
      split; [exact Hh|]. split; [exact Ell|]. split; [exact NQ|]. left. intros (Q1 & Q2 & Q3). rewrite Q1, Q2, !Z.eqb_refl in M. cbn [andb] in M.
      apply orb_false_iff in M. destruct M as [M1 M2]. apply Z.eqb_neq in M1. destruct Q3; [contradiction|congruence].
  - intros [(m & h & body & Hh & LP & HL & HV & El)|(-> & -> & [->|(c & b' & t' & m & h & q & Hh & El & NQ & K)])]; [|congruence|].
    + rewrite El in HB. rewrite El, (header_parse _ _ _ _ _ _ HB Hh). cbn [rbind tl_class tl_tag tl_length tl_comp].
      apply bytes_app in HB. destruct HB as [_ HB]. pose proof (tlv_bytes _ _ _ HB) as [HBb _].
      destruct (tlv (ident 0 t comp) body ++ r) as [|x y] eqn:Eq; [discriminate Eq|]. rewrite <- Eq in *. clear Eq x y.
      rewrite !Z.eqb_refl, orb_true_r. cbn [andb]. rewrite (proj2 (Z.ltb_lt 0 m) LP). rewrite tlv_parse by (try assumption; split; lia).
      cbn [rbind tl_class tl_tag tl_length tl_comp]. rewrite !Z.eqb_refl, eqb_reflx. cbn [andb negb].
      rewrite DerIff.over, sub_app_l by reflexivity. rewrite sub_app_r by (rewrite ?zlen_app; lia). rewrite (proj2 (HP body v HBb) HV). reflexivity.
    + rewrite El in HB. rewrite El at 1. rewrite (header_parse _ _ _ _ _ _ HB Hh). cbn [rbind tl_class tl_tag tl_length tl_comp].
      destruct q as [|x y] eqn:Eq; [congruence|]. rewrite <- Eq in *. clear Eq x y. apply bytes_app in HB. destruct HB as [_ HBq].
      destruct K as [K|(-> & -> & LP & -> & c2 & b2 & t2 & m2 & h2 & q2 & Hh2 & Eq & K)].
      * destruct ((c =? 2) && (t' =? n) && ((m =? 0) || b')) eqn:M; [|reflexivity]. exfalso. apply K.
        rewrite !andb_true_iff, orb_true_iff, !Z.eqb_eq in M. tauto.
      * rewrite !Z.eqb_refl, orb_true_r. cbn [andb]. rewrite (proj2 (Z.ltb_lt 0 m) LP). rewrite Eq in HBq. rewrite Eq. rewrite (header_parse _ _ _ _ _ _ HBq Hh2).
        cbn [rbind tl_class tl_tag tl_length tl_comp]. destruct ((c2 =? 0) && (t2 =? t) && Bool.eqb b2 comp) eqn:M; [|cbn [negb]; reflexivity].
        exfalso. apply K. rewrite !andb_true_iff, !Z.eqb_eq in M. destruct M as [[M1 M2] M3]. apply Bool.eqb_prop in M3. auto.
Qed.

(** * The grammar of a certificate *)

(** An algorithm identifier: an object identifier, any element or none, anything. *)
Definition g_alg : gram AlgorithmIdentifier := fun l a => (part o is elem_of 0 false 6 g_oid; part p is opt_any_of; yields (a = mkAlg o p)) l.
(** A key: an algorithm identifier, a bit string, anything. *)
Definition g_spki : gram publicKeyInfo := fun l k =>
  (part a is elem_of 0 true 16 g_alg; part key is elem_of 0 false 3 g_bits; yields (k = mkPKI (tlv 48 l) a key)) l.
(** The period of validity. *)
Definition g_validity : gram (Time * Time) := fun l v => (part a is time_of; part b is time_of; yields (v = (a, b))) l.
(** An extension: an identifier, perhaps a boolean, an octet string, anything. *)
Definition g_extension : gram Extension := fun l e =>
  (part i is elem_of 0 false 6 g_oid; part c is opt_of 0 false 1 g_bool false; part v is elem_of 0 false 4 g_octets; yields (e = mkExt i c v)) l.
Definition g_extensions : gram (option (list Extension)) := fun l o => exists es, many true 16 g_extension l es /\ o = Some es.
Definition g_bigint : gram Z := fun l v => int_der v l.
(** The signed part. *)
Definition g_tbs : gram TBSCertificate := fun l t =>
  (part v is explicit_of 0 false 2 g_int 0;
   part n is elem_of 0 false 2 g_bigint;
   part a is elem_of 0 true 16 g_alg;
   part i is any_of;
   part p is elem_of 0 true 16 g_validity;
   part s is any_of;
   part k is elem_of 0 true 16 g_spki;
   part u1 is opt_of 2 false 1 g_bits zeroBits;
   part u2 is opt_of 2 false 2 g_bits zeroBits;
   part e is explicit_of 3 true 16 g_extensions None;
   yields (t = mkTBS (tlv 48 l) v (Some n) a i (fst p) (snd p) s k u1 u2 e)) l.
Definition g_cert : gram certificate := fun l c =>
  (part t is elem_of 0 true 16 g_tbs; part a is elem_of 0 true 16 g_alg; part s is elem_of 0 false 3 g_bits; yields (c = mkCert (tlv 48 l) t a s)) l.

Lemma struct_field : forall A (body : list Z -> list Z -> res A) (P : gram A) z, (forall i v, bytes i -> (body (tlv 48 i) i = OK v <-> P i v)) ->
  fieldof (parseField (uStruct body) z noParams) (elem_of 0 true 16 P).
Proof.
  intros A body P z HP l v r HB. split; [|intro K; exact (elem_rest _ _ _ _ _ _ _ _ HB K)]. split.
  - intro H. apply (field_inv _ (uStruct body) z 16 true) in H; [|exact HB|reflexivity|reflexivity|lia|reflexivity].
    destruct H as (c & El & _ & HL & HV). cbn [uStruct u_body] in HV. exists c. split; [exact HL|]. split; [|exact El].
    apply HP; [|exact HV]. rewrite El in HB. apply tlv_bytes in HB. apply HB.
  - intros (c & HL & HV & El). rewrite El in HB. assert (Bc : bytes c) by (apply tlv_bytes in HB; apply HB). apply HP in HV; [|exact Bc]. rewrite El.
    change (ident 0 16 true) with 48 in *. unfold parseField. destruct (tlv 48 c ++ r) as [|x y] eqn:Eq; [discriminate Eq|]. rewrite <- Eq in *. clear Eq x y.
    cbn [noParams fp_optional fp_tag fp_explicit fp_set]. change 48 with (ident 0 16 true). rewrite tlv_parse by (try assumption; split; lia).
    cbn [rbind uStruct u_any u_tag u_comp u_body tl_class tl_tag tl_length tl_comp]. cbn [TagSequence Z.eqb Pos.eqb Bool.eqb negb andb orb].
    rewrite DerIff.over. change (ident 0 16 true) with 48.
    assert (S1 : sub (c ++ r) 0 (zlen c) = c) by (apply sub_app_l; reflexivity).
    assert (S2 : sub (c ++ r) (zlen c) (zlen (c ++ r)) = r) by (apply sub_app_r; rewrite ?zlen_app; lia).
    assert (S3 : sub (tlv 48 c ++ r) 0 (zlen (tlv 48 c ++ r) - zlen r) = tlv 48 c) by (apply sub_app_l; rewrite zlen_app; lia).
    rewrite S1, S2, S3, HV. reflexivity.
Qed.
Lemma field_back : forall A (p : list Z -> res (A * list Z)) G l v r, fieldof p G -> bytes l -> G l v r -> p l = OK (v, r).
Proof. intros A p G l v r HF HB H. apply (proj1 (HF l v r HB)). exact H. Qed.
Lemma g_alg_iff : forall full i v, bytes i -> ((fun (_ : list Z) l => try (o, l) <- parseField uOID [] noParams l; try (p, l) <- parseField uRaw zeroRaw optParams l; OK (mkAlg o p)) full i = OK v <-> g_alg i v).
Proof.
  intros full i v HB. unfold g_alg. apply seq_iff; [apply elem_field, reads_oid|exact HB|]. intros o l1 B1.
  apply seq_iff; [apply opt_any_field|exact B1|]. intros p l2 B2. apply end_iff, B2.
Qed.
Lemma alg_field : forall z, fieldof (parseField uAlg z noParams) (elem_of 0 true 16 g_alg).
Proof. intro z. apply struct_field. intros i v HB. apply (g_alg_iff [] i v HB). Qed.
Lemma spki_field : forall z, fieldof (parseField uPKI z noParams) (elem_of 0 true 16 g_spki).
Proof.
  intro z. apply struct_field. intros i v HB. unfold g_spki. apply seq_iff; [apply alg_field|exact HB|]. intros a l1 B1.
  apply seq_iff; [apply elem_field, reads_bits|exact B1|]. intros k l2 B2. apply end_iff, B2.
Qed.
Lemma time_rest : forall l v r, bytes l -> time_of l v r -> bytes r.
Proof.
  intros l v r HB H. destruct H as [H|H]; exact (elem_rest _ _ _ _ _ _ _ _ HB H).
Qed.
Lemma time_field : forall z, fieldof (parseField uTime z noParams) time_of.
Proof. intros z l v r HB. split; [apply time_iff, HB|intro K; exact (time_rest _ _ _ HB K)]. Qed.
Lemma validity_field : forall z, fieldof (parseField uValidity z noParams) (elem_of 0 true 16 g_validity).
Proof.
  intro z. apply struct_field. intros i v HB. unfold g_validity. apply seq_iff; [apply time_field|exact HB|]. intros a l1 B1.
  apply seq_iff; [apply time_field|exact B1|]. intros b l2 B2. apply end_iff, B2.
Qed.
Lemma reads_extension : reads uExtension 16 true g_extension.
Proof.
  apply (reads_struct _ (fun l => try (i, l) <- parseField uOID [] noParams l; try (c, l) <- parseField uBool false optParams l; try (v, l) <- parseField uOctets None noParams l; OK (mkExt i c (contents v)))).
  intros i v HB. unfold g_extension. apply seq_iff; [apply elem_field, reads_oid|exact HB|]. intros o l1 B1.
  apply seq_iff; [apply opt_field, reads_bool|exact B1|]. intros c l2 B2.
  assert (F : fieldof (fun l => try (v, l) <- parseField uOctets None noParams l; OK (contents v, l)) (elem_of 0 false 4 g_octets)).
  { intros l w r HBl. split; [|intro K; exact (elem_rest _ _ _ _ _ _ _ _ HBl K)]. split.
    - intro H. destruct (parseField uOctets None noParams l) as [[o' l']|e] eqn:EP; [|discriminate H]. cbn [rbind] in H. apply ok_eq in H.
      apply (elem_field _ _ _ _ _ _ reads_octets) in EP; [|exact HBl]. destruct EP as (body & HL & HV & El). exists body. split; [exact HL|].
      assert (contents o' = w) by congruence. assert (l' = r) by congruence. subst w r o'. split; [reflexivity|exact El].
    - intros (body & HL & HV & El). unfold g_octets in HV. subst w.
      assert (EP : parseField uOctets None noParams l = OK (Some body, r)).
      { apply (elem_field _ _ _ _ _ _ reads_octets); [exact HBl|]. exists body. split; [exact HL|]. split; [reflexivity|exact El]. }
      rewrite EP. reflexivity. }
  rewrite <- (seq_iff _ _ _ _ (fun a _ => OK (mkExt o c a)) (fun a => yields (v = mkExt o c a)) v l2 F B2) by (intros; apply end_iff; assumption).
  destruct (parseField uOctets None noParams l2) as [[o' l']|e]; reflexivity.
Qed.
Lemma reads_extensions : reads (uSlice uExtension zeroExt false) 16 true g_extensions.
Proof.
  exists (fun i => try vs <- parseSequenceOf uExtension zeroExt i; OK (Some vs)). split; [split; [lia|]; repeat split|]. intros i v HB. unfold g_extensions. split.
  - intro H. destruct (parseSequenceOf uExtension zeroExt i) as [vs|e] eqn:EP; [|discriminate H]. cbn [rbind] in H. apply ok_eq in H. subst v. exists vs. split; [|reflexivity].
    apply (many_iff _ _ _ _ _ _ _ _ reads_extension HB) in EP. exact EP.
  - intros (es & H & ->). apply (many_iff _ _ _ _ _ zeroExt _ _ reads_extension HB) in H. rewrite H. reflexivity.
Qed.
Lemma reads_bigint : reads uBigInt 2 false g_bigint.
Proof. exists parseBigInt. split; [split; [lia|]; repeat split|]. intros i v HB. apply parseBigInt_iff, HB. Qed.
Lemma tbs_field : forall z, fieldof (parseField uTBS z noParams) (elem_of 0 true 16 g_tbs).
Proof.
  intro z. apply struct_field. intros i v HB. unfold g_tbs.
  apply seq_iff; [apply explicit_field; [apply reads_int|lia]|exact HB|]. intros x1 l1 B1.
  apply seq_iff; [apply elem_field, reads_bigint|exact B1|]. intros x2 l2 B2.
  apply seq_iff; [apply alg_field|exact B2|]. intros x3 l3 B3.
  apply seq_iff; [apply any_field|exact B3|]. intros x4 l4 B4.
  apply seq_iff; [apply validity_field|exact B4|]. intros x5 l5 B5.
  apply seq_iff; [apply any_field|exact B5|]. intros x6 l6 B6.
  apply seq_iff; [apply spki_field|exact B6|]. intros x7 l7 B7.
  apply seq_iff; [apply tag_field with (t := 3); [apply reads_bits|lia]|exact B7|]. intros x8 l8 B8.
  apply seq_iff; [apply tag_field with (t := 3); [apply reads_bits|lia]|exact B8|]. intros x9 l9 B9.
  apply seq_iff; [apply explicit_field; [apply reads_extensions|lia]|exact B9|]. intros x10 l10 B10.
  apply end_iff, B10.
Qed.
Lemma cert_field : forall z, fieldof (parseField uCert z noParams) (elem_of 0 true 16 g_cert).
Proof.
  intro z. apply struct_field. intros i v HB. unfold g_cert.
  apply seq_iff; [apply tbs_field|exact HB|]. intros x1 l1 B1.
  apply seq_iff; [apply alg_field|exact B1|]. intros x2 l2 B2.
  apply seq_iff; [apply elem_field, reads_bits|exact B2|]. intros x3 l3 B3. apply end_iff, B3.
Qed.

(** * The public key *)

(** The octets of a bit string as a number without its unused bits, in as many octets. *)
Definition aligned (b : BitString) (l : list Z) : Prop :=
  bytes l /\ zlen l = zlen (bs_bytes b) /\ be_dec l = be_dec (bs_bytes b) / 2 ^ (8 * zlen (bs_bytes b) - bs_len b).
(** The parameters name the SM2 curve and the bit string holds 4, x and y of one of its points. *)
Definition key_of (k : publicKeyInfo) (pub : PublicKey) : Prop :=
  whole 0 false 6 g_oid (rv_full (alg_params (pki_alg k))) [1; 2; 156; 10197; 1; 301] /\ key_ok pub /\ aligned (pki_key k) (key_bytes pub).

Lemma shift_byte : forall prev b s, byte prev -> byte b -> 1 <= s <= 7 ->
  Z.lor (u8 (Z.shiftl prev (8 - s))) (Z.shiftr b s) = (prev mod 2 ^ s) * 2 ^ (8 - s) + b / 2 ^ s.
Proof.
  intros prev b s Hp Hb Hs.
  assert (E : u8 (Z.shiftl prev (8 - s)) = (prev mod 2 ^ s) * 2 ^ (8 - s)).
  { unfold u8. rewrite Z.shiftl_mul_pow2 by lia. replace 256 with (2 ^ s * 2 ^ (8 - s)) by (rewrite <- Z.pow_add_r by lia; replace (s + (8 - s)) with 8 by lia; reflexivity).
    rewrite Z.mul_mod_distr_r by (apply Z.pow_nonzero; lia). reflexivity. }
  rewrite E, Z.shiftr_div_pow2 by lia. rewrite <- Z.lxor_lor, Z.add_nocarry_lxor; [reflexivity| |].
  - rewrite <- Z.shiftl_mul_pow2 by lia. apply Z.bits_inj'. intros n Hn. rewrite Z.land_spec, Z.bits_0.
    destruct (Z_lt_le_dec n (8 - s)) as [L|L]; [rewrite Z.shiftl_spec_low by lia; reflexivity|].
    replace (Z.testbit (b / 2 ^ s) n) with false; [apply andb_false_r|]. symmetry. rewrite <- Z.shiftr_div_pow2, Z.shiftr_spec by lia. apply byte_testbit_high; [exact Hb|lia].
  - rewrite <- Z.shiftl_mul_pow2 by lia. apply Z.bits_inj'. intros n Hn. rewrite Z.land_spec, Z.bits_0.
    destruct (Z_lt_le_dec n (8 - s)) as [L|L]; [rewrite Z.shiftl_spec_low by lia; reflexivity|].
    replace (Z.testbit (b / 2 ^ s) n) with false; [apply andb_false_r|]. symmetry. rewrite <- Z.shiftr_div_pow2, Z.shiftr_spec by lia. apply byte_testbit_high; [exact Hb|lia].
Qed.
Lemma align_value : forall s l prev, 1 <= s <= 7 -> byte prev -> bytes l ->
  zlen (alignLoop s prev l) = zlen l /\ be_dec (alignLoop s prev l) = ((prev mod 2 ^ s) * 256 ^ zlen l + be_dec l) / 2 ^ s.
Proof.
  intros s l. induction l as [|b l IH]; intros prev Hs Hp HB.
  - cbn [alignLoop]. split; [reflexivity|]. change (zlen (@nil Z)) with 0. change (be_dec []) with 0.
    pose proof (Z.mod_pos_bound prev (2 ^ s) ltac:(apply Z.pow_pos_nonneg; lia)). rewrite Z.div_small by lia. reflexivity.
  - apply bytes_cons in HB. destruct HB as [Hb HB]. cbn [alignLoop]. destruct (IH b Hs Hb HB) as [I1 I2]. rewrite !zlen_cons, !be_dec_cons, I1, I2.
    split; [reflexivity|]. rewrite shift_byte by assumption. pose proof (zlen_nonneg _ l) as Hl. assert (P : 0 < 2 ^ s) by (apply Z.pow_pos_nonneg; lia).
    rewrite Z.pow_add_r, Z.pow_1_r by lia.
    assert (P8 : 256 = 2 ^ (8 - s) * 2 ^ s) by (rewrite <- Z.pow_add_r by lia; replace (8 - s + s) with 8 by lia; reflexivity).
    replace (prev mod 2 ^ s * (256 ^ zlen l * 256) + (b * 256 ^ zlen l + be_dec l))
      with (b mod 2 ^ s * 256 ^ zlen l + be_dec l + (prev mod 2 ^ s * 2 ^ (8 - s) + b / 2 ^ s) * 256 ^ zlen l * 2 ^ s).
    + rewrite Z.div_add by lia. lia.
    + pose proof (Z.div_mod b (2 ^ s) ltac:(lia)) as D. set (W := 256 ^ zlen l) in *. set (q := b / 2 ^ s) in *. set (m := b mod 2 ^ s) in *. set (pm := prev mod 2 ^ s) in *.
      rewrite D, P8. ring.
Qed.
Lemma bits_pad : forall i b, g_bits i b -> bytes i -> bytes (bs_bytes b) /\ 0 <= 8 * zlen (bs_bytes b) - bs_len b <= 7 /\ (bs_bytes b = [] -> bs_len b = 0).
Proof.
  intros i b (pad & -> & Hp & HN & _ & HL) HB. apply bytes_cons in HB. split; [apply HB|]. rewrite HL. split; [lia|]. intro N. rewrite (HN N), N. reflexivity.
Qed.
Lemma align_iff : forall b l, bytes (bs_bytes b) -> 0 <= 8 * zlen (bs_bytes b) - bs_len b <= 7 -> (bs_bytes b = [] -> bs_len b = 0) ->
  (rightAlign b = l <-> aligned b l).
Proof.
  intros b l HB HP HN.
  assert (A : aligned b (rightAlign b)).
  { unfold aligned. split; [apply rightAlign_bytes, HB|]. unfold rightAlign.
    destruct (bs_bytes b) as [|x y] eqn:Eb.
    { rewrite HN by reflexivity. change (zlen (@nil Z)) with 0. rewrite orb_true_r. split; reflexivity. }
    assert (N : bs_bytes b <> []) by (rewrite Eb; discriminate). rewrite <- Eb in *. clear Eb x y. set (n := zlen (bs_bytes b)) in *.
    assert (Hn : 1 <= n). { subst n. destruct (bs_bytes b); [congruence|]. rewrite zlen_cons. pose proof (zlen_nonneg _ l0). lia. }
    rewrite Z.rem_mod_nonneg by lia. rewrite (proj2 (Z.eqb_neq n 0)) by lia. rewrite orb_false_r.
    destruct (Z.eq_dec (8 * n - bs_len b) 0) as [Z0|Z0].
    - replace (bs_len b) with (n * 8) by lia. rewrite Z.mod_mul by lia. replace (8 * n - n * 8) with 0 by lia. change (8 - 0 =? 8) with true. cbv iota. rewrite Z.pow_0_r, Z.div_1_r. split; reflexivity.
    - set (p := 8 * n - bs_len b) in *. assert (M : bs_len b mod 8 = 8 - p).
      { replace (bs_len b) with (8 - p + (n - 1) * 8) by (subst p; lia). rewrite Z.mod_add by lia. apply Z.mod_small. lia. }
      rewrite M. replace (8 - (8 - p)) with p by lia. rewrite (proj2 (Z.eqb_neq p 8)) by lia. destruct (align_value p (bs_bytes b) 0 ltac:(lia) ltac:(unfold byte; lia) HB) as [A1 A2].
      rewrite A1, A2, Z.mod_0_l by (apply Z.pow_nonzero; lia). split; [reflexivity|]. reflexivity. }
  split; [intros <-; exact A|]. intros (B1 & B2 & B3). destruct A as (A1 & A2 & A3). apply be_dec_inj; [exact A1|exact B1| |congruence].
  unfold zlen in *. lia.
Qed.
Lemma unmarshal_bytes : forall data x y, bytes data -> (Unmarshal curveP curveB data = Some (x, y) <-> key_ok (mkPub x y) /\ data = key_bytes (mkPub x y)).
Proof.
  intros data x y HB. split.
  - intro H. pose proof (Unmarshal_key data x y HB H) as K. split; [exact K|]. unfold Unmarshal in H.
    destruct (negb (zlen data =? 65)) eqn:EL; [discriminate H|]. apply negb_false_iff in EL. apply Z.eqb_eq in EL.
    destruct (negb _) eqn:E4; [discriminate H|]. apply negb_false_iff in E4. apply Z.eqb_eq in E4. cbv zeta in H.
    destruct (_ || _); [discriminate H|]. destruct (negb _); [discriminate H|].
    assert (x = be_dec (sub data 1 33) /\ y = be_dec (sub data 33 65)) as [-> ->] by (split; congruence).
    unfold key_bytes. cbn [X Y]. destruct data as [|d0 data]; [discriminate EL|]. cbn [nth] in E4. subst d0. f_equal.
    rewrite zlen_cons in EL. assert (L : zlen data = 64) by lia. clear H K EL.
    destruct (split_at _ data 32 ltac:(lia)) as (a & b & -> & La). rewrite zlen_app in L.
    replace (sub (4 :: a ++ b) 1 33) with a by (symmetry; apply (sub_mid _ [4] a b); [reflexivity|rewrite La; reflexivity]).
    replace (sub (4 :: a ++ b) 33 65) with b by (symmetry; apply (sub_app_r _ (4 :: a) b); rewrite ?zlen_cons; lia).
    apply bytes_cons in HB. destruct HB as [_ HB]. apply bytes_app in HB.
    replace 32%nat with (List.length a) at 1 by (unfold zlen in La; lia). replace 32%nat with (List.length b) by (unfold zlen in *; lia).
    rewrite !be_enc_dec by apply HB. reflexivity.
  - intros [K ->]. exact (key_read _ K).
Qed.
Lemma key_iff : forall k pub, bytes (rv_full (alg_params (pki_alg k))) -> bytes (bs_bytes (pki_key k)) ->
  0 <= 8 * zlen (bs_bytes (pki_key k)) - bs_len (pki_key k) <= 7 -> (bs_bytes (pki_key k) = [] -> bs_len (pki_key k) = 0) ->
  (parsePublicKey k = OK pub <-> key_of k pub).
Proof.
  intros k pub HB HBk HP HN. unfold key_of.
  assert (U : parsePublicKey k = OK pub <-> unmarshalAll uOID [] (rv_full (alg_params (pki_alg k))) = OK [1; 2; 156; 10197; 1; 301] /\
    Unmarshal curveP curveB (rightAlign (pki_key k)) = Some (X pub, Y pub)).
  { unfold parsePublicKey, unmarshalAll. destruct (unmarshal uOID [] _) as [[o r]|e]; [|split; [discriminate|intros [H _]; discriminate H]]. cbn [rbind].
    destruct (negb (zlen r =? 0)); [split; [discriminate|intros [H _]; discriminate H]|].
    destruct (negb (oidEqual oidSM2P256V1 o)) eqn:EO.
    - apply negb_true_iff in EO. split; [discriminate|]. intros [H _]. apply ok_eq in H. subst o. discriminate EO.
    - apply negb_false_iff in EO. apply oidEqual_eq in EO. subst o.
      destruct (Unmarshal curveP curveB (rightAlign (pki_key k))) as [[x y]|].
      + split.
        * intro H. apply ok_eq in H. subst pub. split; reflexivity.
        * intros [_ H]. assert (x = X pub /\ y = Y pub) as [-> ->] by (split; congruence). destruct pub. reflexivity.
      + split; [discriminate|]. intros [_ H]. discriminate H. }
  rewrite U, C92_oid by exact HB. rewrite unmarshal_bytes by (apply rightAlign_bytes, HBk). rewrite align_iff by assumption. destruct pub as [px py]. cbn [X Y]. reflexivity.
Qed.

(** * The extensions *)
Section Env.
Variable E : netEnv.

(** What an extension does to the fields of the certificate; u: it does not count as handled. *)
Definition effect (e : Extension) (f g : certFields E) (u : bool) : Prop :=
  let value := e_value e in
  (e_id e = [2; 5; 29; 15] /\ u = false /\ exists bits usage, whole 0 false 3 g_bits value bits /\ g = set_KeyUsage E usage f /\ 0 <= usage < 512 /\
     forall i, 0 <= i < 9 -> Z.testbit usage i = bit_of (bs_bytes bits) i) \/
  (e_id e = [2; 5; 29; 19] /\ u = false /\ exists ca n, whole 0 true 16 g_basic value (ca, n) /\ g = set_BasicConstraints E true ca n (n =? 0) f) \/
  (e_id e = [2; 5; 29; 14] /\ u = false /\ exists id, whole 0 false 4 g_octets value id /\ g = set_SubjectKeyId E id f) \/
  (e_id e = [2; 5; 29; 35] /\ u = false /\ exists id, whole 0 true 16 g_keyid value id /\ g = set_AuthorityKeyId E id f) \/
  (e_id e = [2; 5; 29; 37] /\ u = false /\ exists oids named others, whole 0 true 16 (many false 6 g_oid) value oids /\ split_usages oids named others /\
     g = set_ExtKeyUsage E (f_ExtKeyUsage E f ++ named) (f_UnknownExtKeyUsage E f ++ others) f) \/
  (e_id e = [2; 5; 29; 32] /\ u = false /\ exists oids, whole 0 true 16 (many true 16 g_policy) value oids /\ g = set_PolicyIdentifiers E oids f) \/
  (e_id e = [2; 5; 29; 31] /\ u = false /\ exists points, whole 0 true 16 (many true 16 g_dp) value points /\
     g = set_CRLDistributionPoints E (f_CRLDistributionPoints E f ++ pick 6 (map tagged (List.concat points))) f) \/
  (e_id e = [1; 3; 6; 1; 5; 5; 7; 1; 1] /\ u = false /\ exists entries, whole 0 true 16 (many true 16 g_access) value entries /\
     let locations method := pick 6 (map (fun e => tagged (snd e)) (filter (fun e => if list_eq_dec Z.eq_dec (fst e) method then true else false) entries)) in
     g = set_AuthorityInfo E (f_OCSPServer E f ++ locations [1; 3; 6; 1; 5; 5; 7; 48; 1]) (f_IssuingCertificateURL E f ++ locations [1; 3; 6; 1; 5; 5; 7; 48; 2]) f) \/
  (e_id e = [2; 5; 29; 17] /\ exists rvs uris, whole 0 true 16 g_raws value rvs /\
     let names := map tagged rvs in
     Forall (fun ip => zlen ip = 4 \/ zlen ip = 16) (pick 7 names) /\ Forall2 (uri_read E) (pick 6 names) uris /\
     g = set_SAN E (mkAlt E (pick 2 names) (pick 1 names) (pick 7 names) uris) f /\
     u = if in_dec Z.eq_dec 1 (map rv_tag rvs) then false else if in_dec Z.eq_dec 2 (map rv_tag rvs) then false
         else if in_dec Z.eq_dec 6 (map rv_tag rvs) then false else if in_dec Z.eq_dec 7 (map rv_tag rvs) then false else true) \/
  (e_id e = [2; 5; 29; 30] /\ exists lp lx pts xts p x, value = tlv 48 (lp ++ lx) /\ zlen value <= 2 ^ 32 - 1 /\
     names_part 0xa0 lp pts /\ names_part 0xa1 lx xts /\ (pts <> [] \/ xts <> []) /\
     constraints_read E (map fst pts) p /\ constraints_read E (map fst xts) x /\
     g = set_NameConstraints E (e_critical e) p x f /\ u = existsb (fun q => strange (fst (fst q))) (pts ++ xts)) \/
  (~ In (e_id e) ([1; 3; 6; 1; 5; 5; 7; 1; 1] :: map (fun n => [2; 5; 29; n]) [14; 15; 17; 19; 30; 31; 32; 35; 37]) /\ g = f /\ u = true).
(** All of them, one after the other, and the identifiers of the critical ones not handled. *)
Inductive effects : list Extension -> certFields E -> certFields E -> list (list Z) -> Prop :=
| effects_nil : forall f, effects [] f f []
| effects_cons : forall e es f g h u us, effect e f g u -> effects es g h us ->
    effects (e :: es) f h (if e_critical e && u then e_id e :: us else us).

Lemma other_extension : forall e f, ~ In (e_id e) ([1; 3; 6; 1; 5; 5; 7; 1; 1] :: map (fun n => [2; 5; 29; n]) [14; 15; 17; 19; 30; 31; 32; 35; 37]) ->
  parseExtension E e f = Ret (OK (f, true)).
Proof.
  intros e f N. unfold parseExtension. fold (ce_number (e_id e)). cbn [map In] in N. destruct (ce_number (e_id e)) as [n|] eqn:EN.
  - apply ce_some in EN. unfold id_ce in EN. rewrite EN in N.
    destruct (Z.eqb_spec n 15) as [->|?]; [tauto|]. destruct (Z.eqb_spec n 19) as [->|?]; [tauto|]. destruct (Z.eqb_spec n 17) as [->|?]; [tauto|].
    destruct (Z.eqb_spec n 30) as [->|?]; [tauto|]. destruct (Z.eqb_spec n 31) as [->|?]; [tauto|]. destruct (Z.eqb_spec n 35) as [->|?]; [tauto|].
    destruct (Z.eqb_spec n 37) as [->|?]; [tauto|]. destruct (Z.eqb_spec n 14) as [->|?]; [tauto|]. destruct (Z.eqb_spec n 32) as [->|?]; [tauto|]. reflexivity.
  - destruct (oidEqual (e_id e) oidExtensionAuthorityInfoAccess) eqn:EA; [|reflexivity]. apply oidEqual_eq in EA. rewrite EA in N. exfalso. apply N. left. reflexivity.
Qed.
Ltac only_case k := let H := fresh "H" in let Q := fresh "Q" in split; [intro H; k; (split; [reflexivity|exact H])|
  intro H; repeat (destruct H as [H|H]; [destruct H as [Q H]; first [discriminate Q|exact H]|]); destruct H as [Q _]; exfalso; apply Q; cbn [map In]; tauto].
Lemma effect_iff : forall e f g u, bytes (e_value e) -> (parseExtension E e f = Ret (OK (g, u)) <-> effect e f g u).
Proof.
  intros [id critical value] f g u HB. cbn [e_value] in HB. unfold effect. cbn [e_id e_critical e_value].
  destruct (in_dec (list_eq_dec Z.eq_dec) id ([1; 3; 6; 1; 5; 5; 7; 1; 1] :: map (fun n => [2; 5; 29; n]) [14; 15; 17; 19; 30; 31; 32; 35; 37])) as [I|N].
  - cbn [map In] in I. destruct I as [<-|[<-|[<-|[<-|[<-|[<-|[<-|[<-|[<-|[<-|[]]]]]]]]]]].
    + rewrite (C92_authority_info E value critical f g u HB). only_case ltac:(do 7 right; left).
    + rewrite (C92_subject_key_id E value critical f g u HB). only_case ltac:(do 2 right; left).
    + rewrite (C92_key_usage E value critical f g u HB). only_case ltac:(left).
    + rewrite (C92_alternative_names E value critical f g u HB). only_case ltac:(do 8 right; left).
    + rewrite (C92_basic_constraints E value critical f g u HB). only_case ltac:(do 1 right; left).
    + rewrite (C92_name_constraints E value critical f g u HB). only_case ltac:(do 9 right; left).
    + rewrite (C92_distribution_points E value critical f g u HB). only_case ltac:(do 6 right; left).
    + rewrite (C92_policies E value critical f g u HB). only_case ltac:(do 5 right; left).
    + rewrite (C92_authority_key_id E value critical f g u HB). only_case ltac:(do 3 right; left).
    + rewrite (C92_ext_key_usage E value critical f g u HB). only_case ltac:(do 4 right; left).
  - rewrite (other_extension (mkExt id critical value) f N). split.
    + intro H. apply ret_inj in H. apply ok_eq in H. do 10 right. split; [exact N|]. split; congruence.
    + intro H. repeat (destruct H as [H|H]; [destruct H as [-> _]; exfalso; apply N; cbn [map In]; tauto|]). destruct H as (_ & -> & ->). reflexivity.
Qed.
Lemma effects_iff : forall es f h un us, Forall (fun e => bytes (e_value e)) es ->
  (parseExtensions E es f un = Ret (OK (h, us)) <-> exists us', effects es f h us' /\ us = un ++ us').
Proof.
  induction es as [|e es IH]; intros f h un us HB; cbn [parseExtensions].
  - split.
    + intro H. apply ret_inj in H. apply ok_eq in H. exists []. assert (f = h) by congruence. assert (un = us) by congruence. subst h us. split; [constructor|symmetry; apply app_nil_r].
    + intros (us' & H & ->). inversion H; subst. rewrite app_nil_r. reflexivity.
  - apply Forall_cons_iff in HB. destruct HB as [He HB]. split.
    + intro H. apply gbind_ok in H. destruct H as ([g u] & H1 & H). apply effect_iff in H1; [|exact He]. apply IH in H; [|exact HB]. destruct H as (us' & H2 & ->).
      exists (if e_critical e && u then e_id e :: us' else us'). split; [econstructor; eassumption|]. destruct (e_critical e && u); [rewrite <- app_assoc; reflexivity|reflexivity].
    + intros (us' & H & ->). inversion H as [|? ? ? g ? u us2 H1 H2]; subst. apply effect_iff in H1; [|exact He]. rewrite H1. cbn [gbind]. apply IH; [exact HB|].
      exists us2. split; [exact H2|]. destruct (e_critical e && u); [rewrite <- app_assoc; reflexivity|reflexivity].
Qed.

(** * The theorem *)

(** What the parts of a certificate that is read satisfy. *)
Definition bits_good (b : BitString) : Prop := bytes (bs_bytes b) /\ 0 <= 8 * zlen (bs_bytes b) - bs_len b <= 7 /\ (bs_bytes b = [] -> bs_len b = 0).
Lemma zeroBits_good : bits_good zeroBits.
Proof. split; [constructor|]. split; [unfold zeroBits, zlen; cbn; lia|reflexivity]. Qed.
Lemma bits_good_sat : upred uBits bits_good.
Proof. intros utag h full body v HF HB H. cbn [uBits u_body] in H. apply bits_iff in H; [|exact HB]. exact (bits_pad _ _ H HB). Qed.
Definition key_fit (k : publicKeyInfo) : Prop := bytes (rv_full (alg_params (pki_alg k))) /\ bits_good (pki_key k).
Lemma zeroPKI_key_fit : key_fit zeroPKI.
Proof. split; [constructor|exact zeroBits_good]. Qed.
Lemma alg_sat : upred uAlg (fun a => bytes (rv_full (alg_params a))).
Proof.
  intros utag h full body v HF HB H. cbn [uAlg uStruct u_body] in H.
  destruct (parseField uOID [] noParams body) as [[v1 l1]|m] eqn:E1; [|discriminate H]. cbn [rbind] in H.
  destruct (field_sat' _ _ _ _ _ _ _ _ (any_sat _ uOID) I HB E1) as [_ B1].
  destruct (parseField uRaw zeroRaw optParams l1) as [[v2 l2]|m] eqn:E2; [|discriminate H]. cbn [rbind] in H.
  destruct (field_sat' _ _ _ _ _ _ _ _ raw_sat raw_zero B1 E2) as [[B2 _] _]. apply ok_inj in H. subst v. exact B2.
Qed.
Ltac next H v l E := match type of H with rbind ?p _ = OK _ => destruct p as [[v l]|] eqn:E; [|discriminate H]; cbn [rbind] in H end.
Lemma spki_sat : upred uPKI key_fit.
Proof.
  intros utag h full body v HF HB H. cbn [uPKI uStruct u_body] in H.
  next H v1 l1 E1. apply (field_sat' _ uAlg _ zeroAlg _ _ _ _ alg_sat (Forall_nil _) HB) in E1. destruct E1 as [B1 B2].
  next H v2 l2 E2. apply (field_sat' _ uBits _ zeroBits _ _ _ _ bits_good_sat zeroBits_good B2) in E2. destruct E2 as [B3 _].
  apply ok_inj in H. subst v. exact (conj B1 B3).
Qed.
Lemma tbs_key_sat : upred uTBS (fun t => key_fit (tb_key t)).
Proof.
  intros utag h full body v HF HB H. cbn [uTBS uStruct u_body] in H.
  next H v1 l1 E1. apply (field_sat' _ _ _ _ _ _ _ _ (any_sat _ uInt) I HB) in E1. destruct E1 as [_ B1].
  next H v2 l2 E2. apply (field_sat' _ _ _ _ _ _ _ _ (any_sat _ uBigInt) I B1) in E2. destruct E2 as [_ B2].
  next H v3 l3 E3. apply (field_sat' _ _ _ _ _ _ _ _ (any_sat _ uAlg) I B2) in E3. destruct E3 as [_ B3].
  next H v4 l4 E4. apply (field_sat' _ _ _ _ _ _ _ _ (any_sat _ uRaw) I B3) in E4. destruct E4 as [_ B4].
  next H v5 l5 E5. apply (field_sat' _ _ _ _ _ _ _ _ (any_sat _ uValidity) I B4) in E5. destruct E5 as [_ B5].
  next H v6 l6 E6. apply (field_sat' _ _ _ _ _ _ _ _ (any_sat _ uRaw) I B5) in E6. destruct E6 as [_ B6].
  next H v7 l7 E7. apply (field_sat' _ uPKI _ zeroPKI _ _ _ _ spki_sat zeroPKI_key_fit B6) in E7. destruct E7 as [K _].
  next H v8 l8 E8. next H v9 l9 E9. next H v10 l10 E10. apply ok_inj in H. subst v. exact K.
Qed.
Lemma cert_key_sat : upred uCert (fun c => key_fit (tb_key (ct_tbs c)) /\ bits_good (ct_sig c)).
Proof.
  intros utag h full body v HF HB H. cbn [uCert uStruct u_body] in H.
  next H v1 l1 E1. apply (field_sat' _ uTBS _ zeroTBS _ _ _ _ tbs_key_sat zeroPKI_key_fit HB) in E1. destruct E1 as [K B1].
  next H v2 l2 E2. apply (field_sat' _ _ _ _ _ _ _ _ (any_sat _ uAlg) I B1) in E2. destruct E2 as [_ B2].
  next H v3 l3 E3. apply (field_sat' _ uBits _ zeroBits _ _ _ _ bits_good_sat zeroBits_good B2) in E3. destruct E3 as [B3 _]. apply ok_inj in H. subst v. exact (conj K B3).
Qed.
Lemma cert_facts : forall l c, bytes l -> whole 0 true 16 g_cert l c ->
  unmarshal uCert zeroCert l = OK (c, []) /\ tbs_bytes (ct_tbs c) /\ key_fit (tb_key (ct_tbs c)) /\ bits_good (ct_sig c).
Proof.
  intros l c HB H. unfold whole in H. apply (proj2 (proj1 (cert_field zeroCert l c [] HB))) in H. unfold unmarshal. split; [exact H|].
  split; [exact (proj1 (proj1 (field_sat' _ _ _ _ _ _ _ _ cert_sat zero_cert_bytes HB H)))|].
  exact (proj1 (field_sat' _ _ _ zeroCert _ _ _ _ cert_key_sat (conj zeroPKI_key_fit zeroBits_good) HB H)).
Qed.

Lemma cert_raw : forall l c, whole 0 true 16 g_cert l c -> ct_raw c = l.
Proof.
  intros l c H. unfold whole, elem_of in H. destruct H as (body & _ & H & El). unfold g_cert in H.
  destruct H as (t & H). destruct H as (l1 & _ & H). destruct H as (a & H). destruct H as (l2 & _ & H). destruct H as (s & H). destruct H as (l3 & _ & H). unfold yields in H.
  rewrite H. cbn [ct_raw]. rewrite El, app_nil_r. reflexivity.
Qed.

(** The byte string l is in the grammar, with these parts; algorithm, key, names and extensions are
    acceptable; and x consists of the parts. *)
Theorem C94_parse : forall l x, bytes l ->
  (ParseCertificate E l = Ret (OK x) <->
   exists tbs alg sig pub issuer subject fields unhandled signature,
     whole 0 true 16 g_cert l (mkCert l tbs alg sig) /\
     alg_oid alg = [1; 2; 156; 10197; 1; 501] /\ alg_oid (pki_alg (tb_key tbs)) = [1; 2; 840; 10045; 2; 1] /\
     key_of (tb_key tbs) pub /\ aligned sig signature /\
     whole 0 true 16 g_name (rv_full (tb_issuer tbs)) issuer /\ whole 0 true 16 g_name (rv_full (tb_subject tbs)) subject /\
     let exts := match tb_exts tbs with Some es => es | None => [] end in
     effects exts (zeroFields E) fields unhandled /\
     x = mkX509 E l (tb_raw tbs) (pki_raw (tb_key tbs)) (rv_full (tb_subject tbs)) (rv_full (tb_issuer tbs)) signature 0 0 (KeySM2 pub)
           (i64 (tb_version tbs + 1)) (tb_serial tbs) (FillFromRDNSequence zeroName issuer) (FillFromRDNSequence zeroName subject)
           (tb_notBefore tbs) (tb_notAfter tbs) exts [] unhandled fields).
Proof.
  intros l x HB. split.
  - intro H. unfold ParseCertificate in H. apply gbind_ok in H. destruct H as ([c rest] & HC & H). apply ret_inj in HC.
    destruct (negb (zlen rest =? 0)) eqn:ER; [discriminate H|]. apply negb_false_iff in ER. apply Z.eqb_eq in ER. apply zlen_0_nil in ER. subst rest.
    unfold unmarshal in HC. apply (proj1 (proj1 (cert_field zeroCert l c [] HB))) in HC. fold (whole 0 true 16 g_cert l c) in HC.
    destruct (cert_facts l c HB HC) as (_ & (_ & BS & BI & _ & BX) & (KP & KB) & SG).
    pose proof (cert_raw l c HC) as RAW.
    destruct c as [raw tbs alg sig]. cbn [ct_raw ct_tbs ct_alg ct_sig] in *. subst raw.
    unfold parseCertificate in H. cbn [ct_raw ct_tbs ct_alg ct_sig] in H.
    destruct (negb (oidEqual oidSignatureSM3WithSM2 (alg_oid alg))) eqn:A1; [discriminate H|]. apply oidEqual_sym_eq in A1.
    destruct (negb (oidEqual oidPublicKeyECDSA (alg_oid (pki_alg (tb_key tbs))))) eqn:A2; [discriminate H|]. apply oidEqual_sym_eq in A2.
    apply gbind_ok in H. destruct H as (pub & HP & H). apply ret_inj in HP. destruct KB as (K1 & K2 & K3). apply key_iff in HP; [|assumption|assumption|assumption|assumption].
    apply gbind_ok in H. destruct H as (subject & HS & H). apply ret_inj in HS. apply C92_name in HS; [|exact BS].
    apply gbind_ok in H. destruct H as (issuer & HI & H). apply ret_inj in HI. apply C92_name in HI; [|exact BI].
    apply gbind_ok in H. destruct H as ([fields unhandled] & HX & H). apply effects_iff in HX; [|destruct (tb_exts tbs); [exact BX|constructor]].
    destruct HX as (us & HX & ->). cbn [app] in *.
    apply ret_inj in H. apply ok_eq in H. destruct SG as (S1 & S2 & S3).
    exists tbs, alg, sig, pub, issuer, subject, fields, us, (rightAlign sig).
    split; [exact HC|]. split; [exact A1|]. split; [exact A2|]. split; [exact HP|]. split; [apply align_iff; auto|]. split; [exact HI|]. split; [exact HS|].
    cbv zeta. split; [exact HX|]. symmetry. exact H.
  - intros (tbs & alg & sig & pub & issuer & subject & fields & unhandled & signature & HC & A1 & A2 & HP & HG & HI & HS & HX & ->).
    destruct (cert_facts l _ HB HC) as (HU & (_ & BS & BI & _ & BX) & (KP & (K1 & K2 & K3)) & (S1 & S2 & S3)). cbn [ct_raw ct_tbs ct_alg ct_sig] in *.
    unfold ParseCertificate. rewrite HU. cbn [gbind]. change (negb (zlen (@nil Z) =? 0)) with false. cbv iota.
    unfold parseCertificate. cbn [ct_raw ct_tbs ct_alg ct_sig]. rewrite A1, A2. change (negb (oidEqual oidSignatureSM3WithSM2 [1; 2; 156; 10197; 1; 501])) with false.
    change (negb (oidEqual oidPublicKeyECDSA [1; 2; 840; 10045; 2; 1])) with false. cbv iota.
    apply key_iff in HP; [|assumption|assumption|assumption|assumption]. rewrite HP. cbn [gbind].
    apply C92_name in HS; [|exact BS]. rewrite HS. cbn [gbind]. apply C92_name in HI; [|exact BI]. rewrite HI. cbn [gbind]. cbv zeta in HX.
    assert (X : parseExtensions E (match tb_exts tbs with Some es => es | None => [] end) (zeroFields E) [] = Ret (OK (fields, unhandled))).
    { apply effects_iff; [destruct (tb_exts tbs); [exact BX|constructor]|]. exists unhandled. split; [exact HX|reflexivity]. }
    rewrite X. cbn [gbind]. apply align_iff in HG; [|assumption|assumption|assumption]. rewrite HG. reflexivity.
Qed.
End Env.

(** * Requests *)
Lemma mode_field : forall A (u : uty A) t comp P z p c t', reads u t comp P -> fp_optional p = false -> fp_explicit p = false ->
  (c, t') = match fp_tag p with Some n => (2, n) | None => (0, if fp_set p then 17 else t) end -> 0 <= t' < 31 -> 0 <= c < 4 ->
  fieldof (parseField u z p) (elem_of c comp t' P).
Proof.
  intros A u t comp P z p c t' (D & (Ht & HA & HT & HC & HD) & HP) PO PE CT Ht' Hc l v r HB.
  split; [|intro K; exact (elem_rest _ _ _ _ _ _ _ _ HB K)].
  assert (U : l <> [] -> parseField u z p l =
    try (h, q) <- parseTagAndLength l;
    if negb ((tl_class h =? c) && (tl_tag h =? t') && Bool.eqb (tl_comp h) comp) then ERR "tags don't match"
    else if zlen q <? tl_length h then ERR "data truncated"
    else try v <- D (sub q 0 (tl_length h)); OK (v, sub q (tl_length h) (zlen q))).
  { intro NE. unfold parseField. destruct l as [|x y] eqn:El; [congruence|]. rewrite <- El. clear El NE x y HB.
    rewrite PO, PE. destruct (parseTagAndLength l) as [[h q]|e]; [|reflexivity]. cbn [rbind]. rewrite HT, HC, HA. cbn [negb andb].
    destruct (fp_tag p) as [n|]; (assert (c' : c = c) by reflexivity; injection CT as -> ->); rewrite !negb_andb; cbn [andb negb].
    - destruct (negb (tl_class h =? 2) || negb (tl_tag h =? n) || negb (Bool.eqb (tl_comp h) comp)); [reflexivity|].
      destruct (zlen q <? tl_length h); [reflexivity|]. rewrite HD. reflexivity.
    - change TagSet with 17. destruct (negb (tl_class h =? 0) || negb (tl_tag h =? (if fp_set p then 17 else t)) || negb (Bool.eqb (tl_comp h) comp)); [reflexivity|].
      destruct (zlen q <? tl_length h); [reflexivity|]. rewrite HD. reflexivity. }
  split.
  - intro H. assert (NE : l <> []). { intros ->. unfold parseField in H. rewrite PO in H. discriminate H. }
    rewrite (U NE) in H. destruct (parseTagAndLength l) as [[h q]|e] eqn:EP; [|discriminate H]. cbn [rbind] in H. apply (header_split _ _ _ HB) in EP. destruct EP as (hd & Hh & Ell).
    destruct ((tl_class h =? c) && (tl_tag h =? t') && Bool.eqb (tl_comp h) comp) eqn:M; cbn [negb] in H; [|discriminate H].
    rewrite !andb_true_iff, !Z.eqb_eq in M. destruct M as [[N1 N2] N3]. apply Bool.eqb_prop in N3. rewrite N1, N2, N3 in Hh.
    destruct (Z.ltb_spec (zlen q) (tl_length h)) as [|L]; [discriminate H|]. apply low_header in Hh; [|lia]. destruct Hh as (_ & Ehd & Hn).
    destruct (split_at _ q (tl_length h) ltac:(lia)) as (body & rest & -> & Hb). rewrite sub_app_l in H by auto. rewrite (zlen_app _ body rest), sub_app_r in H by lia.
    destruct (D body) as [w|e] eqn:ED; [|discriminate H]. cbn [rbind] in H. apply ok_eq in H. assert (v = w) by congruence. assert (r = rest) by congruence. subst w rest.
    exists body. split; [lia|]. split.
    + apply HP; [|exact ED]. rewrite Ell in HB. apply bytes_app in HB. destruct HB as [_ HB]. apply bytes_app in HB. apply HB.
    + rewrite Ell, Ehd. unfold tlv. rewrite Hb. cbn [app]. rewrite <- app_assoc. reflexivity.
  - intros (body & HL & HV & El). rewrite El in HB. rewrite U by (rewrite El; discriminate). rewrite El. pose proof (tlv_bytes _ _ _ HB) as [HBb _].
    rewrite tlv_parse by (try assumption; split; lia). cbn [rbind tl_class tl_tag tl_length tl_comp]. rewrite !Z.eqb_refl, eqb_reflx. cbn [andb negb].
    rewrite DerIff.over, sub_app_l by reflexivity. rewrite sub_app_r by (rewrite ?zlen_app; lia). rewrite (proj2 (HP body v HBb) HV). reflexivity.
Qed.

(** The signed part of a request: version, subject, key, and attributes tagged [0], which are required. *)
Definition g_request_info : gram tbsCertificateRequest := fun l t =>
  (part v is elem_of 0 false 2 g_int; part s is any_of; part k is elem_of 0 true 16 g_spki; part a is elem_of 2 true 0 g_raws;
   yields (t = mkTbsCSR (tlv 48 l) v s k a)) l.
Definition g_request : gram certificateRequest := fun l c =>
  (part t is elem_of 0 true 16 g_request_info; part a is elem_of 0 true 16 g_alg; part s is elem_of 0 false 3 g_bits; yields (c = mkCsr (tlv 48 l) t a s)) l.
(** An attribute: an identifier and a SET, of anything or of sequences of types with values. *)
Definition g_attribute : gram (list Z * list RawValue) := fun l v =>
  (part i is elem_of 0 false 6 g_oid; part s is elem_of 0 true 17 g_raws; yields (v = (i, s))) l.
Definition g_attribute_set : gram ATVSet := fun l v =>
  (part i is elem_of 0 false 6 g_oid; part s is elem_of 0 true 17 (many true 16 (many true 16 g_atv)); yields (v = mkATVS i s)) l.
(** The attributes of the second kind, in order; the others are left out. *)
Inductive attribute_sets : list RawValue -> list ATVSet -> Prop :=
| as_nil : attribute_sets [] []
| as_yes : forall rv rvs a l, whole 0 true 16 g_attribute_set (rv_full rv) a -> attribute_sets rvs l -> attribute_sets (rv :: rvs) (a :: l)
| as_no : forall rv rvs l, (forall a, ~ whole 0 true 16 g_attribute_set (rv_full rv) a) -> attribute_sets rvs l -> attribute_sets (rv :: rvs) l.
(** The extensions in the first values of the attributes named extensionRequest; these must be lists of
    extensions. *)
Definition extension_request (rv : RawValue) (first : RawValue) : Prop :=
  exists more, whole 0 true 16 g_attribute (rv_full rv) ([1; 2; 840; 113549; 1; 9; 14], first :: more).
Inductive requested_extensions : list RawValue -> list Extension -> Prop :=
| re_nil : requested_extensions [] []
| re_yes : forall rv rvs first es l, extension_request rv first -> whole 0 true 16 (many true 16 g_extension) (rv_full first) es ->
    requested_extensions rvs l -> requested_extensions (rv :: rvs) (es ++ l)
| re_no : forall rv rvs l, (forall first, ~ extension_request rv first) -> requested_extensions rvs l -> requested_extensions (rv :: rvs) l.

Section Request.
Variable E : netEnv.
(** The names in an extension; those of the last one count, and all must be readable. *)
Definition names_in (value : list Z) (san : AltNames E) : Prop := exists rvs uris, whole 0 true 16 g_raws value rvs /\
  let names := map tagged rvs in
  Forall (fun ip => zlen ip = 4 \/ zlen ip = 16) (pick 7 names) /\ Forall2 (uri_read E) (pick 6 names) uris /\
  san = mkAlt E (pick 2 names) (pick 1 names) (pick 7 names) uris.
Inductive last_names : list Extension -> AltNames E -> AltNames E -> Prop :=
| ln_nil : forall s, last_names [] s s
| ln_yes : forall e es s s1 s2, e_id e = [2; 5; 29; 17] -> names_in (e_value e) s1 -> last_names es s1 s2 -> last_names (e :: es) s s2
| ln_no : forall e es s s2, e_id e <> [2; 5; 29; 17] -> last_names es s s2 -> last_names (e :: es) s s2.

Lemma request_info_field : forall z, fieldof (parseField uTbsCSR z noParams) (elem_of 0 true 16 g_request_info).
Proof.
  intro z. apply struct_field. intros i v HB. unfold g_request_info.
  apply seq_iff; [apply elem_field, reads_int|exact HB|]. intros x1 l1 B1.
  apply seq_iff; [apply any_field|exact B1|]. intros x2 l2 B2.
  apply seq_iff; [apply spki_field|exact B2|]. intros x3 l3 B3.
  apply seq_iff; [apply mode_field with (t := 16); [apply reads_raws|reflexivity|reflexivity|reflexivity|lia|lia]|exact B3|]. intros x4 l4 B4. apply end_iff, B4.
Qed.
Lemma request_field : forall z, fieldof (parseField uCsr z noParams) (elem_of 0 true 16 g_request).
Proof.
  intro z. apply struct_field. intros i v HB. unfold g_request.
  apply seq_iff; [apply request_info_field|exact HB|]. intros x1 l1 B1.
  apply seq_iff; [apply alg_field|exact B1|]. intros x2 l2 B2.
  apply seq_iff; [apply elem_field, reads_bits|exact B2|]. intros x3 l3 B3. apply end_iff, B3.
Qed.
Lemma attribute_field : forall z, fieldof (parseField uPkcs10Attribute z noParams) (elem_of 0 true 16 g_attribute).
Proof.
  intro z. apply struct_field. intros i v HB. unfold g_attribute.
  apply seq_iff; [apply elem_field, reads_oid|exact HB|]. intros x1 l1 B1.
  apply seq_iff; [apply mode_field with (t := 16); [apply reads_raws|reflexivity|reflexivity|reflexivity|lia|lia]|exact B1|]. intros x2 l2 B2. apply end_iff, B2.
Qed.
Lemma attribute_set_field : forall z, fieldof (parseField uATVSet z noParams) (elem_of 0 true 16 g_attribute_set).
Proof.
  intro z. apply struct_field. intros i v HB. unfold g_attribute_set.
  apply seq_iff; [apply elem_field, reads_oid|exact HB|]. intros x1 l1 B1.
  apply seq_iff; [apply mode_field with (t := 16); [apply reads_list, reads_list, reads_atv|reflexivity|reflexivity|reflexivity|lia|lia]|exact B1|]. intros x2 l2 B2. apply end_iff, B2.
Qed.
Lemma names_iff : forall value san, bytes value -> (parseSANExtension E value = Ret (OK san) <-> names_in value san).
Proof.
  intros value san HB. unfold parseSANExtension, names_in. split.
  - intro H. apply gbind_ok in H. destruct H as (names & EF & H). apply ret_inj in EF. apply forEachSAN_iff in EF; [|exact HB]. destruct EF as (rvs & HW & ->).
    apply addSANs_iff in H. destruct H as (FI & us & FU & ->). exists rvs, us. cbv zeta. auto.
  - intros (rvs & uris & HW & FI & FU & ->). assert (EF : forEachSAN value = OK (map tagged rvs)) by (apply forEachSAN_iff; [exact HB|]; exists rvs; auto).
    rewrite EF. cbn [gbind]. apply addSANs_iff. split; [exact FI|]. exists uris. split; [exact FU|]. reflexivity.
Qed.
Lemma last_names_iff : forall es s s2, Forall (fun e => bytes (e_value e)) es -> (requestSANs E es s = Ret (OK s2) <-> last_names es s s2).
Proof.
  induction es as [|e es IH]; intros s s2 HB; cbn [requestSANs].
  - split; [intro H; apply ret_inj in H; apply ok_eq in H; subst s2; constructor|intro H; inversion H; reflexivity].
  - apply Forall_cons_iff in HB. destruct HB as [He HB]. destruct (oidEqual (e_id e) oidExtensionSubjectAltName) eqn:EO.
    + apply oidEqual_eq in EO. split.
      * intro H. apply gbind_ok in H. destruct H as (s1 & H1 & H). apply names_iff in H1; [|exact He]. apply IH in H; [|exact HB]. exact (ln_yes _ _ _ _ _ EO H1 H).
      * intro H. inversion H as [|? ? ? s1 ? _ H1 H2|? ? ? ? N]; subst; [|contradiction]. apply names_iff in H1; [|exact He]. rewrite H1. cbn [gbind]. apply IH; assumption.
    + assert (N : e_id e <> [2; 5; 29; 17]) by (intro Q; rewrite Q in EO; discriminate EO). rewrite IH by exact HB. split.
      * intro H. exact (ln_no _ _ _ _ N H).
      * intro H. inversion H as [|? ? ? ? ? Q|? ? ? ? _ K]; subst; [contradiction|exact K].
Qed.

Lemma attribute_sets_iff : forall rvs l, Forall (fun rv => bytes (rv_full rv)) rvs -> (parseRawAttributes rvs = l <-> attribute_sets rvs l).
Proof.
  assert (ONE : forall rv, bytes (rv_full rv) ->
    (exists a, whole 0 true 16 g_attribute_set (rv_full rv) a /\ match unmarshal uATVSet (mkATVS [] []) (rv_full rv) with OK (attr, []) => [attr] | _ => [] end = [a]) \/
    ((forall a, ~ whole 0 true 16 g_attribute_set (rv_full rv) a) /\ match unmarshal uATVSet (mkATVS [] []) (rv_full rv) with OK (attr, []) => [attr] | _ => [] end = [])).
  { intros rv HB. unfold unmarshal, whole. destruct (parseField uATVSet (mkATVS [] []) noParams (rv_full rv)) as [[a r]|e] eqn:EP.
    - destruct r as [|x r].
      + left. exists a. split; [|reflexivity]. apply (attribute_set_field (mkATVS [] [])); assumption.
      + right. split; [|reflexivity]. intros a' H. apply (field_back _ _ _ _ _ _ (attribute_set_field (mkATVS [] []))) in H; [|exact HB]. congruence.
    - right. split; [|reflexivity]. intros a' H. apply (field_back _ _ _ _ _ _ (attribute_set_field (mkATVS [] []))) in H; [|exact HB]. congruence. }
  induction rvs as [|rv rvs IH]; intros l HB; unfold parseRawAttributes; cbn [map List.concat].
  - split; [intros <-; constructor|intro H; inversion H; reflexivity].
  - apply Forall_cons_iff in HB. destruct HB as [B1 HB]. destruct (ONE rv B1) as [(a & HA & EA)|(HN & EA)]; rewrite EA; fold (parseRawAttributes rvs); cbn [app].
    + split.
      * intros <-. apply as_yes; [exact HA|]. apply IH; [exact HB|reflexivity].
      * intro H. inversion H as [|? ? a' ? HA' HR|? ? ? N HR]; subst; [|exfalso; exact (N _ HA)]. apply IH in HR; [|exact HB]. rewrite HR.
        unfold whole in HA, HA'. apply (field_back _ _ _ _ _ _ (attribute_set_field (mkATVS [] []))) in HA; [|exact B1]. apply (field_back _ _ _ _ _ _ (attribute_set_field (mkATVS [] []))) in HA'; [|exact B1]. congruence.
    + split.
      * intros <-. apply as_no; [exact HN|]. apply IH; [exact HB|reflexivity].
      * intro H. inversion H as [|? ? a' ? HA' HR|? ? ? N HR]; subst; [exfalso; exact (HN _ HA')|]. apply IH; assumption.
Qed.
Lemma item_whole : forall A (P : gram A) rv v r, bytes (rv_full rv) -> raw_item rv -> elem_of 0 true 16 P (rv_full rv) v r -> r = [].
Proof.
  intros A P rv v r HB HI (body & HL & _ & El). unfold raw_item in HI. destruct HI as (h & Hh & Ef).
  rewrite Ef in HB. pose proof (header_parse _ _ _ _ _ _ HB Hh) as P1. rewrite <- Ef in P1, HB. rewrite El in P1, HB.
  pose proof (tlv_parse 0 16 true body r) as P2. rewrite P2 in P1; [|split; lia|lia]. apply ok_eq in P1.
  assert (L : zlen body = zlen (rv_bytes rv)) by congruence. assert (B : body ++ r = rv_bytes rv) by congruence. rewrite <- B, zlen_app in L. apply zlen_0_nil. lia.
Qed.
Lemma first_unique : forall rv f1 f2, bytes (rv_full rv) -> extension_request rv f1 -> extension_request rv f2 -> f1 = f2.
Proof.
  intros rv f1 f2 HB (m1 & H1) (m2 & H2). unfold whole in *. apply (field_back _ _ _ _ _ _ (attribute_field ([], []))) in H1; [|exact HB]. apply (field_back _ _ _ _ _ _ (attribute_field ([], []))) in H2; [|exact HB]. congruence.
Qed.
Lemma request_first : forall rv id first more r, bytes (rv_full rv) -> parseField uPkcs10Attribute ([], []) noParams (rv_full rv) = OK ((id, first :: more), r) ->
  raw_item first /\ bytes (rv_full first).
Proof.
  intros rv id first more r HB H. apply (attribute_field ([], [])) in H; [|exact HB]. destruct H as (body & _ & H & El). unfold g_attribute in H.
  rewrite El in HB. apply tlv_bytes in HB. destruct HB as [HB _].
  destruct H as (i & H). destruct H as (l1 & H1 & H). pose proof (elem_rest _ _ _ _ _ _ _ _ HB H1) as B1.
  destruct H as (s & H). destruct H as (l2 & H2 & H). unfold yields in H. assert (s = first :: more) by congruence. subst s.
  destruct H2 as (b2 & _ & (F & Eb) & E2). rewrite E2 in B1. apply tlv_bytes in B1. destruct B1 as [B1 _]. rewrite Eb in B1. cbn [map List.concat] in B1. apply bytes_app in B1.
  apply Forall_cons_iff in F. split; [apply F|apply B1].
Qed.
Lemma requested_iff : forall rvs l, Forall (fun rv => bytes (rv_full rv)) rvs -> (parseCSRExtensions rvs = OK l <-> requested_extensions rvs l).
Proof.
  induction rvs as [|rv rvs IH]; intros l HB; cbn [parseCSRExtensions].
  { split; [intro H; apply ok_eq in H; subst l; constructor|intro H; inversion H; reflexivity]. }
  apply Forall_cons_iff in HB. destruct HB as [B1 HB]. unfold unmarshal.
  assert (SKIP : (forall first, ~ extension_request rv first) -> (parseCSRExtensions rvs = OK l <-> requested_extensions (rv :: rvs) l)).
  { intro N. rewrite IH by exact HB. split; [intro H; apply re_no; assumption|]. intro H. inversion H as [|? ? f ? ? HX|? ? ? _ HR]; subst; [exfalso; exact (N _ HX)|exact HR]. }
  destruct (parseField uPkcs10Attribute ([], []) noParams (rv_full rv)) as [[[id vs] r]|e] eqn:EP.
  2:{ apply SKIP. intros first (m & H). unfold whole in H. apply (field_back _ _ _ _ _ _ (attribute_field ([], []))) in H; [|exact B1]. congruence. }
  destruct vs as [|first more].
  { apply SKIP. intros first (m & H). unfold whole in H. apply (field_back _ _ _ _ _ _ (attribute_field ([], []))) in H; [|exact B1]. congruence. }
  destruct r as [|x r].
  2:{ apply SKIP. intros f (m & H). unfold whole in H. apply (field_back _ _ _ _ _ _ (attribute_field ([], []))) in H; [|exact B1]. congruence. }
  destruct (negb (oidEqual id oidExtensionRequest)) eqn:EO.
  { apply SKIP. intros f (m & H). unfold whole in H. apply (field_back _ _ _ _ _ _ (attribute_field ([], []))) in H; [|exact B1]. assert (id = [1; 2; 840; 113549; 1; 9; 14]) by congruence. subst id. discriminate EO. }
  apply negb_false_iff in EO. apply oidEqual_eq in EO. subst id. destruct (request_first _ _ _ _ _ B1 EP) as [RI BF].
  assert (XR : extension_request rv first). { exists more. unfold whole. apply (attribute_field ([], [])) in EP; [|exact B1]. exact EP. }
  clear SKIP EP. split.
  - intro H. destruct (parseField (uList uExtension zeroExt false) [] noParams (rv_full first)) as [[es r]|e] eqn:EX; [|discriminate H]. cbn [rbind] in H.
    destruct (parseCSRExtensions rvs) as [l2|e] eqn:ER; [|discriminate H]. cbn [rbind] in H. apply ok_eq in H. subst l.
    apply (elem_field _ _ _ _ _ _ (reads_list _ _ _ _ _ zeroExt reads_extension)) in EX; [|exact BF]. pose proof (item_whole _ _ _ _ _ BF RI EX) as R0. subst r.
    apply re_yes with (first := first); [exact XR|exact EX|]. apply IH; [exact HB|reflexivity].
  - intro H. inversion H as [|? ? f es l2 HX HW HR|? ? ? N HR]; subst; [|exfalso; exact (N _ XR)]. rewrite (first_unique _ _ _ B1 HX XR) in HW. unfold whole in HW.
    apply (field_back _ _ _ _ _ _ (elem_field _ _ _ _ _ [] (reads_list _ _ _ _ _ zeroExt reads_extension))) in HW; [|exact BF]. rewrite HW. cbn [rbind].
    apply IH in HR; [|exact HB]. rewrite HR. reflexivity.
Qed.

(** What the parts of a request that is read satisfy. *)
Definition info_fit (t : tbsCertificateRequest) : Prop := bytes (rv_full (tr_subject t)) /\ key_fit (tr_key t) /\ Forall (fun rv => bytes (rv_full rv)) (tr_attrs t).
Lemma raws_fit : forall l rvs, bytes l -> g_raws l rvs -> Forall (fun rv => bytes (rv_full rv)) rvs.
Proof.
  intros l rvs HB [_ El]. rewrite El in HB. clear El. induction rvs as [|rv rvs IH]; [constructor|]. cbn [map List.concat] in HB. apply bytes_app in HB. constructor; [apply HB|apply IH, HB].
Qed.
Lemma exts_fit : forall l es, bytes l -> many true 16 g_extension l es -> Forall (fun e => bytes (e_value e)) es.
Proof.
  intros l es HB (bodies & HF & El). rewrite El in HB. clear El. induction HF as [|b e bodies es [_ H] HF IH]; [constructor|].
  cbn [map List.concat] in HB. destruct (tlv_bytes _ _ _ HB) as [B1 B2]. constructor; [|apply IH, B2]. clear IH HF HB B2. unfold g_extension in H.
  destruct H as (i & H). destruct H as (l1 & H1 & H). pose proof (elem_rest _ _ _ _ _ _ _ _ B1 H1) as C1.
  destruct H as (c & H). destruct H as (l2 & H2 & H). pose proof (opt_rest _ _ _ _ _ _ _ _ _ C1 H2) as C2.
  destruct H as (v & H). destruct H as (l3 & H3 & H). unfold yields in H. subst e. cbn [e_value]. destruct H3 as (body & _ & HV & E3). unfold g_octets in HV. subst v.
  rewrite E3 in C2. apply tlv_bytes in C2. apply C2.
Qed.
Lemma requested_fit : forall rvs es, Forall (fun rv => bytes (rv_full rv)) rvs -> requested_extensions rvs es -> Forall (fun e => bytes (e_value e)) es.
Proof.
  intros rvs es HB H. induction H as [|rv rvs first es l HX HW HR IH|rv rvs l N HR IH]; [constructor| |].
  - apply Forall_cons_iff in HB. destruct HB as [B1 HB]. apply Forall_app. split; [|apply IH, HB]. destruct HX as (more & HX). unfold whole in HX.
    apply (field_back _ _ _ _ _ _ (attribute_field ([], []))) in HX; [|exact B1]. destruct (request_first _ _ _ _ _ B1 HX) as [_ BF].
    destruct HW as (body & _ & HM & El). rewrite El in BF. apply tlv_bytes in BF. exact (exts_fit _ _ (proj1 BF) HM).
  - apply Forall_cons_iff in HB. apply IH, HB.
Qed.
Lemma request_facts : forall l c, bytes l -> whole 0 true 16 g_request l c ->
  cr_raw c = l /\ info_fit (cr_tbs c) /\ bits_good (cr_sig c).
Proof.
  intros l c HB H. unfold whole, elem_of in H. destruct H as (body & _ & H & El). rewrite El in HB. apply tlv_bytes in HB. destruct HB as [HB _]. unfold g_request in H.
  destruct H as (t & H). destruct H as (l1 & H1 & H). pose proof (elem_rest _ _ _ _ _ _ _ _ HB H1) as B1.
  destruct H as (a & H). destruct H as (l2 & H2 & H). pose proof (elem_rest _ _ _ _ _ _ _ _ B1 H2) as B2.
  destruct H as (s & H). destruct H as (l3 & H3 & H). unfold yields in H. rewrite H. cbn [cr_raw cr_tbs cr_sig].
  split; [rewrite El, app_nil_r; reflexivity|]. split.
  - destruct H1 as (b & _ & K & E1). rewrite E1 in HB. apply tlv_bytes in HB. destruct HB as [HB _]. unfold g_request_info in K.
    destruct K as (v & K). destruct K as (m1 & K1 & K). pose proof (elem_rest _ _ _ _ _ _ _ _ HB K1) as D1.
    destruct K as (sj & K). destruct K as (m2 & K2 & K). pose proof (any_rest _ _ _ D1 K2) as D2.
    destruct K as (k & K). destruct K as (m3 & K3 & K). pose proof (elem_rest _ _ _ _ _ _ _ _ D2 K3) as D3.
    destruct K as (at' & K). destruct K as (m4 & K4 & K). unfold yields in K. rewrite K. unfold info_fit. cbn [tr_subject tr_key tr_attrs].
    split; [destruct K2 as [_ E2]; rewrite E2 in D1; apply bytes_app in D1; apply D1|]. split.
    + apply (field_back _ _ _ _ _ _ (spki_field zeroPKI)) in K3; [|exact D2]. exact (proj1 (field_sat' _ uPKI _ zeroPKI _ _ _ _ spki_sat zeroPKI_key_fit D2 K3)).
    + destruct K4 as (b4 & _ & K4 & E4). rewrite E4 in D3. apply tlv_bytes in D3. exact (raws_fit _ _ (proj1 D3) K4).
  - destruct H3 as (b & _ & K & E3). rewrite E3 in B2. apply tlv_bytes in B2. exact (bits_pad _ _ K (proj1 B2)).
Qed.

Theorem C95_parse : forall l x, bytes l ->
  (ParseCertificateRequest E l = Ret (OK x) <->
   exists tbs alg sig pub subject attrs exts san signature,
     whole 0 true 16 g_request l (mkCsr l tbs alg sig) /\
     alg_oid alg = [1; 2; 156; 10197; 1; 501] /\ alg_oid (pki_alg (tr_key tbs)) = [1; 2; 840; 10045; 2; 1] /\
     key_of (tr_key tbs) pub /\ aligned sig signature /\ whole 0 true 16 g_name (rv_full (tr_subject tbs)) subject /\
     attribute_sets (tr_attrs tbs) attrs /\ requested_extensions (tr_attrs tbs) exts /\ last_names exts (zeroAlt E) san /\
     x = mkReq E l (tr_raw tbs) (pki_raw (tr_key tbs)) (rv_full (tr_subject tbs)) signature 0 0 (KeySM2 pub) (tr_version tbs)
           (FillFromRDNSequence zeroName subject) attrs exts [] san).
Proof.
  intros l x HB. split.
  - intro H. unfold ParseCertificateRequest in H. apply gbind_ok in H. destruct H as ([c rest] & HC & H). apply ret_inj in HC.
    destruct (negb (zlen rest =? 0)) eqn:ER; [discriminate H|]. apply negb_false_iff in ER. apply Z.eqb_eq in ER. apply zlen_0_nil in ER. subst rest.
    unfold unmarshal in HC. apply (proj1 (proj1 (request_field zeroCsr l c [] HB))) in HC. fold (whole 0 true 16 g_request l c) in HC.
    destruct (request_facts l c HB HC) as (RAW & (BS & (KP & (K1 & K2 & K3)) & BA) & (S1 & S2 & S3)).
    destruct c as [raw tbs alg sig]. cbn [cr_raw cr_tbs cr_alg cr_sig] in *. subst raw.
    unfold parseCertificateRequest in H. cbn [cr_raw cr_tbs cr_alg cr_sig] in H.
    destruct (negb (oidEqual oidSignatureSM3WithSM2 (alg_oid alg))) eqn:A1; [discriminate H|]. apply oidEqual_sym_eq in A1.
    destruct (negb (oidEqual oidPublicKeyECDSA (alg_oid (pki_alg (tr_key tbs))))) eqn:A2; [discriminate H|]. apply oidEqual_sym_eq in A2.
    apply gbind_ok in H. destruct H as (pub & HP & H). apply ret_inj in HP. apply key_iff in HP; [|assumption|assumption|assumption|assumption].
    apply gbind_ok in H. destruct H as ([subject rest] & HS & H). apply ret_inj in HS.
    destruct (negb (zlen rest =? 0)) eqn:ER; [discriminate H|]. apply negb_false_iff in ER. apply Z.eqb_eq in ER. apply zlen_0_nil in ER. subst rest.
    unfold unmarshal in HS. apply (elem_field _ _ _ _ _ _ reads_name) in HS; [|exact BS].
    apply gbind_ok in H. destruct H as (exts & HX & H). apply ret_inj in HX. apply requested_iff in HX; [|exact BA].
    apply gbind_ok in H. destruct H as (san & HN & H). apply last_names_iff in HN; [|exact (requested_fit _ _ BA HX)].
    apply ret_inj in H. apply ok_eq in H.
    exists tbs, alg, sig, pub, subject, (parseRawAttributes (tr_attrs tbs)), exts, san, (rightAlign sig).
    split; [exact HC|]. split; [exact A1|]. split; [exact A2|]. split; [exact HP|]. split; [apply align_iff; auto|]. split; [exact HS|].
    split; [apply attribute_sets_iff; [exact BA|reflexivity]|]. split; [exact HX|]. split; [exact HN|]. symmetry. exact H.
  - intros (tbs & alg & sig & pub & subject & attrs & exts & san & signature & HC & A1 & A2 & HP & HG & HS & HA & HX & HN & ->).
    destruct (request_facts l _ HB HC) as (_ & (BS & (KP & (K1 & K2 & K3)) & BA) & (S1 & S2 & S3)). cbn [cr_raw cr_tbs cr_alg cr_sig] in *.
    unfold whole in HC. apply (proj2 (proj1 (request_field zeroCsr l _ [] HB))) in HC. fold (unmarshal uCsr zeroCsr l) in HC.
    unfold ParseCertificateRequest. rewrite HC. cbn [gbind]. change (negb (zlen (@nil Z) =? 0)) with false. cbv iota.
    unfold parseCertificateRequest. cbn [cr_raw cr_tbs cr_alg cr_sig]. rewrite A1, A2. change (negb (oidEqual oidSignatureSM3WithSM2 [1; 2; 156; 10197; 1; 501])) with false.
    change (negb (oidEqual oidPublicKeyECDSA [1; 2; 840; 10045; 2; 1])) with false. cbv iota.
    apply key_iff in HP; [|assumption|assumption|assumption|assumption]. rewrite HP. cbn [gbind].
    unfold whole in HS. apply (field_back _ _ _ _ _ _ (elem_field _ _ _ _ _ [] reads_name)) in HS; [|exact BS]. fold (unmarshal uRDNSequence [] (rv_full (tr_subject tbs))) in HS. rewrite HS. cbn [gbind].
    change (negb (zlen (@nil Z) =? 0)) with false. cbv iota.
    pose proof (requested_fit _ _ BA HX) as BX. apply requested_iff in HX; [|exact BA]. rewrite HX. cbn [gbind].
    apply last_names_iff in HN; [|exact BX]. rewrite HN. cbn [gbind]. apply align_iff in HG; [|assumption|assumption|assumption]. rewrite HG.
    apply attribute_sets_iff in HA; [|exact BA]. rewrite HA. reflexivity.
Qed.
End Request.

(** * Examples *)

(** A key whose bit string has three unused bits is the same key as the usual one: the octets are moved
    to the right. *)
Definition ex_shifted_key : list Z :=
  tlv 48 (tlv 48 ([6; 7; 42; 134; 72; 206; 61; 2; 1] ++ [6; 8; 42; 129; 28; 207; 85; 1; 130; 45]) ++
          tlv 3 (3 :: be_enc 65 (be_dec (4 :: be_enc 32 curveGx ++ be_enc 32 curveGy) * 8))).
Definition ex_cert_with (key exts : list Z) : list Z :=
  tlv 48 (tlv 48 ([160; 3; 2; 1; 2] ++ [2; 1; 77] ++ sm2sm3_alg ++ ex_name ++
      tlv 48 (tlv 23 [50; 54; 48; 49; 48; 49; 48; 48; 48; 48; 48; 48; 90] ++ tlv 23 [50; 55; 48; 49; 48; 49; 48; 48; 48; 48; 48; 48; 90]) ++ ex_name ++ key ++ exts) ++
      sm2sm3_alg ++ tlv 3 [0; 48; 6; 2; 1; 1; 2; 1; 1]).
Definition byte_list (l : list Z) : bool := forallb (fun x => (0 <=? x) && (x <? 256)) l.
Lemma byte_list_ok : forall l, byte_list l = true -> bytes l.
Proof. intros l H. apply Forall_forall. unfold byte_list in H. rewrite forallb_forall in H. intros x Hx. apply H in Hx. unfold byte. lia. Qed.
Example C94_ex : bytes (ex_cert_with ex_key []) /\ bytes (ex_cert_with ex_shifted_key []) /\ exists c d,
  ParseCertificate noNet (ex_cert_with ex_key []) = Ret (OK c) /\ ParseCertificate noNet (ex_cert_with ex_shifted_key []) = Ret (OK d) /\
  c_PublicKey noNet c = KeySM2 ex_pub /\ c_PublicKey noNet d = KeySM2 ex_pub /\ c_RawSPKI noNet c <> c_RawSPKI noNet d.
Proof.
  split; [apply byte_list_ok; vm_compute; reflexivity|]. split; [apply byte_list_ok; vm_compute; reflexivity|].
  eexists. eexists. split; [vm_compute; reflexivity|]. split; [vm_compute; reflexivity|]. split; [vm_compute; reflexivity|]. split; [vm_compute; reflexivity|]. vm_compute. discriminate.
Qed.
(** A header at the end that could be that of an unknown field is
    an error in place of the extensions, although one with contents would have been ignored. *)
Example C94_ex_header : (exists c, ParseCertificate noNet (ex_cert_with ex_key [4; 1; 7]) = Ret (OK c)) /\
  ParseCertificate noNet (ex_cert_with ex_key [4; 0]) = Ret (ERR "explicit tag has no child").
Proof. split; [eexists; vm_compute; reflexivity|vm_compute; reflexivity]. Qed.
(** The version in front: 0 if there is no [0], and the header of the wrapping may announce anything. *)
Example C94_ex_explicit : explicit_of 0 false 2 g_int 0 [160; 99; 2; 1; 5; 2; 1; 77] 5 [2; 1; 77] /\ explicit_of 0 false 2 g_int 0 [2; 1; 77] 0 [2; 1; 77].
Proof.
  split.
  - left. exists 99, [160; 99], [5]. split; [exists [160]; split; [split; [lia|]; left; split; [lia|reflexivity]|]; split; [lia|reflexivity]|].
    split; [lia|]. split; [unfold zlen; cbn; lia|]. split; [|reflexivity]. apply parseInt64_iff; [|vm_compute; reflexivity]. constructor; [unfold byte; lia|constructor].
  - right. split; [reflexivity|]. split; [reflexivity|]. right. exists 0, false, 2, 1, [2; 1], [77].
    split; [exists [2]; split; [split; [lia|]; left; split; [lia|reflexivity]|]; split; [lia|reflexivity]|]. split; [reflexivity|]. split; [discriminate|]. left. intros [H _]. lia.
Qed.
(** The request of the examples of C73 has an attribute with extensions; with an attribute that is not a
    SEQUENCE of an identifier and a SET in front nothing changes but the raw bytes. *)
Example C95_ex : bytes (ex_request ex_attr []) /\ bytes (ex_request ([4; 1; 9] ++ ex_attr) []) /\ exists c d,
  ParseCertificateRequest noNet (ex_request ex_attr []) = Ret (OK c) /\ ParseCertificateRequest noNet (ex_request ([4; 1; 9] ++ ex_attr) []) = Ret (OK d) /\
  r_Extensions noNet c <> [] /\ r_Extensions noNet c = r_Extensions noNet d /\ r_SAN noNet c = r_SAN noNet d /\ r_Attributes noNet c = r_Attributes noNet d.
Proof.
  split; [apply byte_list_ok; vm_compute; reflexivity|]. split; [apply byte_list_ok; vm_compute; reflexivity|].
  eexists. eexists. split; [vm_compute; reflexivity|]. split; [vm_compute; reflexivity|]. split; [vm_compute; discriminate|]. split; [reflexivity|]. split; reflexivity.
Qed.
(** An attribute that asks for extensions and holds something else is an error. *)
Example C95_ex_error : exists e, ParseCertificateRequest noNet (ex_request (tlv 48 ([6; 9; 42; 134; 72; 134; 247; 13; 1; 9; 14] ++ tlv 49 [4; 1; 9])) []) = Ret (ERR e).
Proof. eexists. vm_compute. reflexivity. Qed.
