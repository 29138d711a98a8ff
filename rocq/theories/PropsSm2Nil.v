(** Property C126: keys with missing parts (sm2/sm2.go, sm2/keyexchange.go): which calls need which fields of a key, and what happens
    without them. *)
From Coq Require Import ZArith List Lia Bool String.
From Verif Require Import GoBase BeMin GoAsn1 GoElliptic FpField Primes Sm2Primes WeiGroup Sm2Group Sm2Order Sm2Spec Sm3 Sm2 Sm2Proofs Sm2Proofs2 Sm2Der KeyExchange PropsSm2 Sm2Nil.
Import ListNotations.
Open Scope Z_scope.

(** * Specification *)

(** The key, if it has everything the operation needs. Encrypting needs the point and the curve's parameters, verifying also the
    coefficient a; decrypting needs the number and the parameters, signing also a. To the key exchange the point of the other side suffices. *)
Definition point (pub : option nPub) : option PublicKey :=
  match pub with Some (mkNPub (Some x) (Some y) _) => Some (mkPub x y) | _ => None end.
Definition forEncrypt (pub : option nPub) : option PublicKey :=
  match pub with Some (mkNPub (Some x) (Some y) (mkCurve true _)) => Some (mkPub x y) | _ => None end.
Definition forVerify (pub : option nPub) : option PublicKey :=
  match pub with Some (mkNPub (Some x) (Some y) (mkCurve true true)) => Some (mkPub x y) | _ => None end.
Definition number (priv : option nPriv) : option PrivateKey :=
  match priv with Some (mkNPriv (Some d) _) => Some (mkPriv d) | _ => None end.
Definition forDecrypt (priv : option nPriv) : option PrivateKey :=
  match priv with Some (mkNPriv (Some d) (mkCurve true _)) => Some (mkPriv d) | _ => None end.
Definition forSign (priv : option nPriv) : option PrivateKey :=
  match priv with Some (mkNPriv (Some d) (mkCurve true true)) => Some (mkPriv d) | _ => None end.
(** There is a key and it has the curve's parameters. *)
Definition pubParams (pub : option nPub) : bool := match pub with Some p => cParams (nPubCurve p) | None => false end.
Definition privParams (priv : option nPriv) : bool := match priv with Some p => cParams (nPrivCurve p) | None => false end.
Definition panics {A} (m : go A) : Prop := exists k, m = Panic k.

(** The keys that the package's constructors make. *)
Definition madePub (k : PublicKey) : option nPub := Some (mkNPub (Some (X k)) (Some (Y k)) (mkCurve true true)).
Definition madePriv (k : PrivateKey) : option nPriv := Some (mkNPriv (Some (D k)) (mkCurve true true)).

(** * Proofs *)
Lemma panics_bind : forall A B (m : go A) (f : A -> go B), (forall a, m = Ret a -> panics (f a)) -> panics (do x <- m; f x).
Proof. intros A B m f H. destruct m as [a|k]; [apply H; reflexivity|exists k; reflexivity]. Qed.
Lemma panics_now : forall A k, panics (@Panic A k). Proof. intros A k. exists k. reflexivity. Qed.

Lemma zeros_dec : forall l, forallb (fun b => b =? 0) l = true -> be_dec l = 0.
Proof.
  intro l. enough (H : forallb (fun b => b =? 0) l = true -> l = repeat 0 (List.length l)).
  { intro F. rewrite (H F). clear. induction (List.length l) as [|n IH]; [reflexivity|]. cbn [repeat].
    change (0 :: repeat 0 n) with ([0] ++ repeat 0 n). rewrite be_dec_app, IH. reflexivity. }
  induction l as [|b l IH]; [reflexivity|]. cbn [forallb List.length repeat]. intro H. apply andb_true_iff in H. destruct H as [H1 H2].
  apply Z.eqb_eq in H1. rewrite H1. f_equal. apply IH, H2.
Qed.
Lemma BigBytes_zero : forall k, BigBytes k = [] \/ forallb (fun b => b =? 0) (BigBytes k) = false.
Proof.
  intro k. destruct (forallb _ (BigBytes k)) eqn:F; [left|right; reflexivity]. apply zeros_dec in F.
  unfold BigBytes in *. rewrite be_dec_min in F by apply Z.abs_nonneg. rewrite F. apply be_min_0.
Qed.
Lemma mult_there : forall c x y k, cParams c = true -> ScalarMultN c (Some x) (Some y) (BigBytes k) = curveScalarMult x y (BigBytes k).
Proof.
  intros c x y k HC. unfold ScalarMultN, params. rewrite HC. destruct (BigBytes_zero k) as [E|E].
  - rewrite E. reflexivity.
  - rewrite E. cbn [bind deref]. destruct (BigBytes k); [discriminate E|reflexivity].
Qed.
Lemma mult_nil : forall c x y k, 1 <= k -> x = None \/ y = None -> ScalarMultN c x y (BigBytes k) = Panic PNil.
Proof.
  intros c x y k Hk H. unfold ScalarMultN, params. destruct (BigBytes_zero k) as [E|E].
  - apply (f_equal be_dec) in E. rewrite BigBytes_ok in E by lia. rewrite be_dec_min in E by lia. cbn in E. lia.
  - rewrite E. destruct (BigBytes k); [discriminate E|]. destruct (cParams c); [|reflexivity]. cbn [bind].
    destruct x as [x|]; [|reflexivity]. destruct y as [y|]; [|reflexivity]. destruct H; discriminate.
Qed.
Lemma base_there : forall c k, cParams c = true -> ScalarBaseMultN c k = curveScalarBaseMult k.
Proof. intros c k H. unfold ScalarBaseMultN, params. rewrite H. reflexivity. Qed.
Lemma getZ_there : forall d c x y id, cParams c = true -> cA c = true -> getZN d c (Some x) (Some y) id = getZ d x y id.
Proof.
  intros d c x y id HP HA. unfold getZN, getZ, params, to32N. rewrite HP, HA. cbn [deref bind]. cbv zeta.
  destruct (bigIntTo32Bytes curveA); reflexivity.
Qed.
Lemma getZ_nil : forall d c x y id, cParams c = false \/ cA c = false -> getZN d c x y id = Panic PNil.
Proof.
  intros d c x y id H. unfold getZN, params, to32N. destruct (cA c); [|reflexivity].
  destruct H as [H|]; [|discriminate]. rewrite H. cbn [deref bind].
  replace (bigIntTo32Bytes curveA) with (Ret (b32 (sm2p - 3))) by (vm_compute; reflexivity). reflexivity.
Qed.
Lemma getZ_coord : forall d c x y id, x = None \/ y = None -> panics (getZN d c x y id).
Proof.
  intros d c x y id H. unfold getZN, to32N. cbv zeta. do 5 (apply panics_bind; intros ? _).
  destruct x as [x|]; [|apply panics_now]. apply panics_bind; intros ? _.
  destruct y as [y|]; [|apply panics_now]. destruct H; discriminate.
Qed.
Lemma nextK_pos : forall max tape k t, nextK max tape = (OK k, t) -> 1 <= k.
Proof.
  intros max tape. unfold nextK. generalize (List.length tape) as fuel. intro fuel. revert tape.
  induction fuel as [|fuel IH]; intros tape k t H; cbn [nextK_loop] in H; destruct (rand_Int max tape) as [[r|e] t'];
    try discriminate H; destruct (Z.leb_spec 1 r) as [L|L]; try discriminate H.
  - injection H as <- _. exact L.
  - injection H as <- _. exact L.
  - apply (IH _ _ _ H).
Qed.

(** Signing: every part of the key is needed, and without one nothing is drawn. *)
Theorem C126_sign : forall priv id m tape,
  SignToRSN priv id m tape = match forSign priv with Some k => SignToRS k id m tape | None => Panic PNil end.
Proof.
  intros [[[d|] [p a]]|] id m tape; try reflexivity. unfold SignToRSN. cbn [deref bind nD nPrivCurve forSign].
  destruct p; [|reflexivity]. rewrite base_there by reflexivity.
  assert (BB : bytes (BigBytes d)) by (unfold BigBytes; apply be_min_bytes).
  destruct a; unfold SignToRS; cbn [D]; rewrite !base_mult by exact BB; cbn [bind]; unfold calculateEN, calculateE.
  - rewrite getZ_there by reflexivity. destruct (getZ _ _ _ _) as [[d' z]|k]; [|reflexivity]. cbn [bind].
    destruct (hashOf _ _) as [[d'' e]|k]; reflexivity.
  - rewrite getZ_nil by (right; reflexivity). reflexivity.
Qed.
Theorem C126_sign_der : forall priv id m tape,
  SignN priv id m tape = match forSign priv with Some k => Sign k id m tape | None => Panic PNil end.
Proof. intros priv id m tape. unfold SignN, Sign. rewrite C126_sign. destruct (forSign priv); reflexivity. Qed.

(** The public key of a private key: needs the number and the parameters; a missing a is handed on. *)
Theorem C126_public : forall priv,
  CalculatePubKeyN priv = match priv, forDecrypt priv with
                          | Some p, Some k => do q <- CalculatePubKey k; Ret (mkNPub (Some (X q)) (Some (Y q)) (nPrivCurve p))
                          | _, _ => Panic PNil
                          end.
Proof.
  intros [[[d|] [p a]]|]; try reflexivity. unfold CalculatePubKeyN, CalculatePubKey, BytesN, ScalarBaseMultN, params.
  destruct p; [|reflexivity]. cbn [deref bind nD nPrivCurve forDecrypt cParams D].
  destruct (curveScalarBaseMult _) as [[x y]|]; reflexivity.
Qed.

(** The byte forms need the numbers only. *)
Theorem C126_bytes : forall pub priv,
  match point pub with
  | Some q => GetUnCompressBytesN pub = GetUnCompressBytes q /\ PublicKey_GetRawBytesN pub = PublicKey_GetRawBytes q
  | None => panics (GetUnCompressBytesN pub) /\ panics (PublicKey_GetRawBytesN pub)
  end /\
  PrivateKey_GetRawBytesN priv = match number priv with Some k => PrivateKey_GetRawBytes k | None => Panic PNil end.
Proof.
  intros pub priv. split; [|destruct priv as [[[d|] c]|]; reflexivity].
  assert (E : forall q, point pub = Some q -> GetUnCompressBytesN pub = GetUnCompressBytes q).
  { destruct pub as [[[x|] [y|] c]|]; intros q H; try discriminate H. injection H as <-.
    unfold GetUnCompressBytesN. cbn [deref bind nX nY]. destruct (bigIntTo32Bytes x) eqn:F; [reflexivity|].
    unfold GetUnCompressBytes. cbn [X]. rewrite F. reflexivity. }
  destruct (point pub) as [q|] eqn:P.
  - rewrite (E q eq_refl). split; [reflexivity|]. unfold PublicKey_GetRawBytesN, PublicKey_GetRawBytes. rewrite (E q eq_refl). reflexivity.
  - enough (H : panics (GetUnCompressBytesN pub)).
    { split; [exact H|]. destruct H as [k H]. exists k. unfold PublicKey_GetRawBytesN. rewrite H. reflexivity. }
    destruct pub as [[[x|] [y|] c]|]; try discriminate P; unfold GetUnCompressBytesN; cbn [deref bind nX nY]; try apply panics_now.
    apply panics_bind. intros ? _. apply panics_now.
Qed.

Lemma encrypt_loop_there : forall x y a fuel inp c2 d tape,
  encrypt_loopN fuel (Some (mkNPub (Some x) (Some y) (mkCurve true a))) inp c2 d tape = encrypt_loop fuel (mkPub x y) inp c2 d tape.
Proof.
  intros x y a. induction fuel as [|fuel IH]; intros inp c2 d tape; cbn [encrypt_loopN encrypt_loop deref bind nPubCurve nX nY]; unfold params;
    cbn [cParams bind]; destruct (nextK curveN tape) as [[k|e] t]; try reflexivity; cbv zeta;
    rewrite base_there, mult_there by reflexivity; cbn [X Y]; destruct (curveScalarBaseMult _) as [[c1x c1y]|]; try reflexivity; cbn [bind];
    destruct (Marshal _ _) as [c1|]; try reflexivity; cbn [bind]; destruct (curveScalarMult _ _ _) as [[kx ky]|]; try reflexivity; cbn [bind];
    destruct (kdf _ _ _ _) as [[d' c2']|]; try reflexivity; cbn [bind]; destruct (notEncrypted _ _) as [[|]|]; try reflexivity; cbn [bind negb]; apply IH.
Qed.
(** Encrypting: without the parameters nothing is drawn; without the point the draw comes first, and its error. *)
Theorem C126_encrypt : forall pub m t tape,
  EncryptN pub m t tape =
  match forEncrypt pub with
  | Some k => Encrypt k m t tape
  | None => if pubParams pub then match nextK curveN tape with (ERR e, tape) => Ret (ERR e, tape) | (OK _, _) => Panic PNil end else Panic PNil
  end.
Proof.
  intros pub m t tape. destruct (forEncrypt pub) as [k|] eqn:F.
  - destruct pub as [[[x|] [y|] [[|] a]]|]; try discriminate F. injection F as <-. unfold EncryptN, Encrypt.
    rewrite encrypt_loop_there. reflexivity.
  - unfold EncryptN. destruct pub as [[x y [p a]]|]; [|destruct (List.length tape); reflexivity].
    assert (H : forall fuel, encrypt_loopN fuel (Some (mkNPub x y (mkCurve p a))) m m New tape =
      if p then match nextK curveN tape with (ERR e, tape) => Ret (ERR e, tape) | (OK _, _) => Panic PNil end else Panic PNil).
    { intro fuel. destruct fuel; cbn [encrypt_loopN deref bind nPubCurve nX nY]; unfold params; cbn [cParams]; (destruct p; [|reflexivity]);
        cbn [bind]; destruct (nextK curveN tape) as [[k|e] t'] eqn:K; try reflexivity; apply nextK_pos in K; cbv zeta;
        rewrite base_there by reflexivity; rewrite base_mult_z by lia; cbn [bind]; rewrite Marshal_pt; cbn [bind]; rewrite mult_nil; try reflexivity; try exact K;
        (destruct x as [x|]; [|left; reflexivity]); (destruct y as [y|]; [discriminate F|right; reflexivity]). }
    rewrite H. cbn [pubParams nPubCurve cParams]. destruct p; [|reflexivity]. destruct (nextK curveN tape) as [[k|e] t']; reflexivity.
Qed.

(** Decrypting: the number is needed, and the parameters first of all. *)
Theorem C126_decrypt : forall priv c t, bytes c ->
  DecryptN priv c t =
  match forDecrypt priv with
  | Some k => Decrypt k c t
  | None => if privParams priv && (zlen c <? 65) then Panic PSlice else Panic PNil
  end.
Proof.
  intros [[d [p a]]|] c t HB; [|reflexivity]. unfold DecryptN. cbn [deref bind nPrivCurve forDecrypt privParams cParams]. unfold params at 1. cbn [cParams].
  destruct p; [|destruct d; reflexivity]. cbn [bind andb]. cbv zeta. unfold Decrypt. cbv zeta. rewrite c1Len_eq.
  destruct (Z.ltb_spec (zlen c) 65) as [L|L].
  - rewrite go_slice_panic by lia. destruct d; reflexivity.
  - rewrite go_slice_ret by lia. cbn [bind].
    destruct (Unmarshal curveP curveB (sub c 0 65)) as [[x y]|] eqn:U; cbn [option_map fst snd].
    + rewrite mult_there by reflexivity. destruct d as [d|].
      * cbn [nD BytesN deref bind]. unfold BytesN. cbn [deref bind]. rewrite mult_there by reflexivity. cbn [D].
        destruct (curveScalarMult x y (BigBytes sm2H)) as [[sx sy]|]; reflexivity.
      * rewrite curveP_eq, curveB_eq in U. apply Unmarshal_some in U; [|rewrite sub_firstn by lia; apply bytes_firstn, HB].
        destruct U as (P & On & NO & _ & -> & ->). rewrite mult_pt by (try assumption; unfold sm2H; lia). unfold sm2H. cbn [bind]. rewrite pmul_1.
        replace (IsEcPointInfinity (xc P) (yc P)) with false; [reflexivity|].
        destruct (IsEcPointInfinity (xc P) (yc P)) eqn:F; [|reflexivity]. apply inf_test in F; [contradiction|exact On].
    + rewrite mult_nil by (try (unfold sm2H; lia); left; reflexivity). destruct d; reflexivity.
Qed.

(** Verifying: numbers out of range are refused first, r below 1 even without a key. *)
Theorem C126_verify : forall pub id m r s,
  match r with
  | None => VerifyByRSN pub id m r s = Panic PNil
  | Some rv =>
      if rv <? 1 then VerifyByRSN pub id m r s = Ret false
      else if negb (pubParams pub) then VerifyByRSN pub id m r s = Panic PNil
      else if curveN <=? rv then VerifyByRSN pub id m r s = Ret false
      else match s with
           | None => VerifyByRSN pub id m r s = Panic PNil
           | Some sv =>
               if (sv <? 1) || (curveN <=? sv) then VerifyByRSN pub id m r s = Ret false
               else match forVerify pub with
                    | Some k => VerifyByRSN pub id m r s = VerifyByRS k id m rv sv
                    | None => panics (VerifyByRSN pub id m r s)
                    end
           end
  end.
Proof.
  intros pub id m [r|] s; [|reflexivity]. unfold VerifyByRSN. cbn [deref bind]. destruct (r <? 1) eqn:R1; [reflexivity|].
  destruct pub as [[x y [p a]]|]; [|reflexivity]. cbn [pubParams nPubCurve cParams deref bind]. unfold params. cbn [cParams].
  destruct p; [|reflexivity]. cbn [negb bind]. destruct (curveN <=? r) eqn:R2; [reflexivity|].
  destruct s as [s|]; [|reflexivity]. cbn [deref bind]. destruct (s <? 1) eqn:S1; [reflexivity|]. cbn [bind orb]. destruct (curveN <=? s) eqn:S2; [reflexivity|].
  cbn [nX nY].
  assert (N : x = None \/ y = None \/ a = false -> panics (calculateEN New (mkCurve true a) x y (signId id) m)).
  { intro H. unfold calculateEN. enough (Q : panics (getZN New (mkCurve true a) x y (signId id))) by (destruct Q as [k Q]; exists k; rewrite Q; reflexivity).
    destruct H as [H|[H|H]]; [apply getZ_coord; left; exact H|apply getZ_coord; right; exact H|].
    exists PNil. apply getZ_nil. right. exact H. }
  destruct x as [x|]; [destruct y as [y|]; [destruct a|]|]; cbn [forVerify];
    try (apply panics_bind; intros w Hw; exfalso; destruct N as [k N]; [auto|]; rewrite N in Hw; discriminate Hw).
  unfold VerifyByRS. rewrite R1, R2, S1, S2. cbn [orb X Y]. unfold calculateEN, calculateE. rewrite getZ_there by reflexivity.
  destruct (getZ _ _ _ _) as [[d z]|]; [|reflexivity]. cbn [bind]. destruct (hashOf _ _) as [[d' e]|]; [|reflexivity]. cbn [bind]. cbv zeta.
  rewrite base_there, mult_there by reflexivity. reflexivity.
Qed.

(** So only a complete key accepts a signature, and DER text that is none is refused without looking at the key. *)
Theorem C126_accepts : forall pub id m r s, VerifyByRSN pub id m r s = Ret true ->
  exists k rv sv, forVerify pub = Some k /\ r = Some rv /\ s = Some sv /\ VerifyByRS k id m rv sv = Ret true.
Proof.
  intros pub id m r s H. pose proof (C126_verify pub id m r s) as V. destruct r as [r|]; [|congruence].
  destruct (r <? 1); [congruence|]. destruct (negb (pubParams pub)); [congruence|]. destruct (curveN <=? r); [congruence|].
  destruct s as [s|]; [|congruence]. destruct ((s <? 1) || (curveN <=? s)); [congruence|].
  destruct (forVerify pub) as [k|]; [|destruct V as [k V]; congruence]. exists k, r, s. repeat (split; [reflexivity|]). congruence.
Qed.
Theorem C126_refuses : forall pub id m sign,
  (forall e, UnmarshalSign sign = ERR e -> VerifyN pub id m sign = Ret false) /\
  (forall r s, UnmarshalSign sign = OK (r, s) -> r < 1 -> VerifyN pub id m sign = Ret false) /\
  (forall k, forVerify pub = Some k -> VerifyN pub id m sign = Verify k id m sign).
Proof.
  intros pub id m sign. unfold VerifyN, Verify. split; [intros e ->; reflexivity|]. split.
  - intros r s -> H. unfold VerifyByRSN. cbn [deref bind]. destruct (Z.ltb_spec r 1); [reflexivity|lia].
  - intros k HK. destruct (UnmarshalSign sign) as [[r s]|e]; [|reflexivity]. pose proof (C126_verify pub id m (Some r) (Some s)) as V. cbn match in V.
    rewrite HK in V. assert (P : pubParams pub = true) by (destruct pub as [[[x|] [y|] [[|] [|]]]|]; try discriminate HK; reflexivity).
    rewrite P in V. cbn [negb] in V. unfold VerifyByRS in *. destruct (r <? 1); [exact V|]. destruct (curveN <=? r); [exact V|]. cbn [orb] in *.
    destruct ((s <? 1) || (curveN <=? s)); exact V.
Qed.
(** Encoding a signature with a number missing is an error, not a panic. *)
Theorem C126_marshal : forall r s, match r, s with
  | Some r, Some s => MarshalSignN (Some r) (Some s) = MarshalSign r s
  | _, _ => exists e, MarshalSignN r s = ERR e
  end.
Proof.
  assert (H : forall f, (forall e, f = ERR e -> forall g, exists e', marshalStruct [f; g] = ERR e')).
  { intros f e -> g. exists e. reflexivity. }
  intros [r|] [s|]; try reflexivity.
  - unfold MarshalSignN, marshalStruct. cbn [makeFields fieldBigIntN]. destruct (fieldBigInt r) as [b|e]; eexists; reflexivity.
  - eapply H. reflexivity.
  - eapply H. reflexivity.
Qed.

(** The key exchange: of the own static key everything is needed, of the own ephemeral key not a, of the other side's keys the points.
    Only an initiator without a tag gets its error before any key is looked at. *)
Theorem C126_exchange : forall init bits tag ss se id os oe id',
  match forSign ss, forDecrypt se, point os, point oe with
  | Some a, Some b, Some c, Some d =>
      CalculateKeyWithConfirmationN init bits tag ss se id os oe id' = CalculateKeyWithConfirmation init bits tag a b id c d id'
  | _, _, _, _ =>
      if init && isNil tag then exists e, CalculateKeyWithConfirmationN init bits tag ss se id os oe id' = Ret (ERR e)
      else panics (CalculateKeyWithConfirmationN init bits tag ss se id os oe id')
  end.
Proof.
  intros init bits tag ss se id os oe id'.
  assert (F : init && isNil tag = false -> (forSign ss = None \/ forDecrypt se = None \/ point os = None \/ point oe = None) ->
              panics (CalculateKeyWithConfirmationN init bits tag ss se id os oe id')).
  { intros I H. unfold CalculateKeyWithConfirmationN. cbv zeta. rewrite I. apply panics_bind. intros sp Hsp. rewrite C126_public in Hsp.
    destruct ss as [[[sd|] [[|] sa]]|]; try discriminate Hsp. cbn [deref bind nPrivCurve]. apply panics_bind. intros [dg za] Hz.
    destruct sa; [|rewrite getZ_nil in Hz by (right; reflexivity); discriminate Hz].
    destruct os as [[ox oy oc]|]; [|apply panics_now]. cbn [deref bind nX nY]. apply panics_bind. intros [dg' zb] Hz'.
    destruct ox as [ox|]; [|destruct (getZ_coord dg (mkCurve true true) None oy (contentsOf id') (or_introl eq_refl)) as [k Q]; rewrite Q in Hz'; discriminate Hz'].
    destruct oy as [oy|]; [|destruct (getZ_coord dg (mkCurve true true) (Some ox) None (contentsOf id') (or_intror eq_refl)) as [k Q]; rewrite Q in Hz'; discriminate Hz'].
    unfold params at 1. cbn [cParams bind]. apply panics_bind. intros ep Hep. rewrite C126_public in Hep.
    destruct se as [[[ed|] [[|] ea]]|]; try discriminate Hep. cbn [deref bind].
    destruct H as [H|[H|[H|H]]]; try discriminate H.
    apply panics_bind. intros [ux uy] HU. destruct oe as [[ex ey ec]|]; [|apply panics_now]. cbn [deref bind].
    assert (EX : exists x, ex = Some x).
    { unfold calculateUN in HU. cbn [deref nX] in HU. destruct (nX ep); [|discriminate HU]. cbn [deref bind] in HU. destruct ex as [ex|]; [exists ex; reflexivity|discriminate HU]. }
    destruct EX as [x ->]. destruct ey as [ey|]; [discriminate H|]. cbn [nX nY].
    destruct init; apply panics_bind; intros [dg2 rv] _; apply panics_bind; intros [dg3 ih] HI; exfalso; revert HI; unfold calculateInnerHashN, BytesN;
      destruct (nX ep); destruct (nY ep); cbn [deref bind]; discriminate. }
  assert (N : init && isNil tag = true -> exists e, CalculateKeyWithConfirmationN init bits tag ss se id os oe id' = Ret (ERR e)).
  { intro I. unfold CalculateKeyWithConfirmationN. cbv zeta. rewrite I. eexists. reflexivity. }
  destruct (forSign ss) as [a|] eqn:A1; [|destruct (init && isNil tag); auto].
  destruct (forDecrypt se) as [b|] eqn:A2; [|destruct (init && isNil tag); auto].
  destruct (point os) as [c|] eqn:A3; [|destruct (init && isNil tag); auto].
  destruct (point oe) as [d|] eqn:A4; [|destruct (init && isNil tag); auto].
  clear F N.
  destruct ss as [[[sd|] [[|] [|]]]|]; try discriminate A1. injection A1 as <-.
  destruct se as [[[ed|] [[|] ea]]|]; try discriminate A2. injection A2 as <-.
  destruct os as [[[ox|] [oy|] oc]|]; try discriminate A3. injection A3 as <-.
  destruct oe as [[[ex|] [ey|] ec]|]; try discriminate A4. injection A4 as <-.
  unfold CalculateKeyWithConfirmationN, CalculateKeyWithConfirmation. cbv zeta. destruct (init && isNil tag); [reflexivity|].
  rewrite !C126_public. cbn [forDecrypt]. destruct (CalculatePubKey (mkPriv sd)) as [[px py]|]; [|reflexivity].
  cbn [bind deref nPrivCurve nX nY X Y]. rewrite getZ_there by reflexivity. destruct (getZ New px py (contentsOf id)) as [[dg za]|]; [|reflexivity].
  cbn [bind]. rewrite getZ_there by reflexivity. destruct (getZ dg ox oy (contentsOf id')) as [[dg' zb]|]; [|reflexivity].
  unfold params at 1. cbn [bind cParams]. destruct (CalculatePubKey (mkPriv ed)) as [[qx qy]|]; [|reflexivity]. cbn [bind deref X Y].
  unfold calculateUN, calculateU. cbn [deref bind nX nY nD nPrivCurve X Y D]. unfold params at 1. cbn [cParams bind]. cbv zeta.
  rewrite !mult_there by reflexivity.
  destruct (curveScalarMult ox oy _) as [[p1x p1y]|]; [|reflexivity]. cbn [bind].
  destruct (curveScalarMult ex ey _) as [[p2x p2y]|]; [|reflexivity]. cbn [bind]. unfold AddN, params. cbn [cParams bind].
  destruct (curveAdd _ _ _ _) as [[ux uy]|]; [|reflexivity]. cbn [bind]. unfold calculateInnerHashN, calculateInnerHash, BytesN. cbn [deref bind]. reflexivity.
Qed.

(** Keys made by the package have all the parts. *)
Theorem C126_made : forall q d, forEncrypt (madePub q) = Some q /\ forVerify (madePub q) = Some q /\ point (madePub q) = Some q /\
  forDecrypt (madePriv d) = Some d /\ forSign (madePriv d) = Some d /\ number (madePriv d) = Some d.
Proof. intros [x y] [d]. repeat split. Qed.

(** A literal &PublicKey{X: x, Y: y}: it has byte forms, makes Verify refuse r = 0 but panic on r = 1, and cannot encrypt. *)
Example C126_ex_literal : let lit := Some (mkNPub (Some curveGx) (Some curveGy) (mkCurve false false)) in
  GetUnCompressBytesN lit = GetUnCompressBytes (mkPub curveGx curveGy) /\ GetUnCompressBytesN lit = Ret (4 :: be_enc 32 curveGx ++ be_enc 32 curveGy) /\
  VerifyByRSN lit None [1] (Some 0) None = Ret false /\ VerifyByRSN None None [1] (Some 0) None = Ret false /\
  VerifyByRSN lit None [1] (Some 1) (Some 1) = Panic PNil /\ EncryptN lit [1] C1C3C2 [] = Panic PNil.
Proof. vm_compute. repeat split. Qed.
(** Without a: encrypting with no random bytes left gives the error, as for a full key; signing panics. *)
Example C126_ex_noA : EncryptN (Some (mkNPub None (Some curveGy) (mkCurve true false))) [1] C1C3C2 [] = Ret (ERR "EOF", []) /\
  forEncrypt (Some (mkNPub (Some curveGx) (Some curveGy) (mkCurve true false))) = Some (mkPub curveGx curveGy) /\
  forSign (Some (mkNPriv (Some 5) (mkCurve true false))) = None /\ forDecrypt (Some (mkNPriv (Some 5) (mkCurve true false))) = Some (mkPriv 5).
Proof. vm_compute. repeat split. Qed.
