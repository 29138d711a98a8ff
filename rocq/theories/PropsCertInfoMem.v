(** Property C123: what a TBSCertificate shares with the template, the parent, the request and the package, and what
    later changes of those do to the certificate. *)
From Coq Require Import ZArith List Lia Bool String.
From Verif Require Import GoBase BeMin CbString CbStringProofs GoAsn1 GoAsn1Proofs Sm2 Sm2Der GoText GoPkix CertText PropsCertText Cert CertRt CertRt2 PropsCertNames PropsCertBuild
  PropsSm2Der PropsCert PropsCertParts CertShare PropsCertShare CertInfoMem.
Import ListNotations.
Open Scope Z_scope.

(** The memory has new byte arrays, and is otherwise what it was. *)
Definition grows (h h' : heap) : Prop := exists l, h' = mkIH (bufs h ++ l) (oids h) (bigs h).
(** A slice lies in its array. A nil slice is an empty window at the beginning of any array. *)
Definition okS (h : heap) (s : bslice) : Prop := okW (nth (b_arr s) (bufs h) []) (b_win s).
(** The slice's array did not exist before. *)
Definition fresh (h : heap) (s : bslice) : Prop := (List.length (bufs h) <= b_arr s)%nat.
(** The package's object identifiers have not been written to. *)
Definition pristine (h : heap) : Prop := exists more, oids h = packageOids ++ more.
Definition okCert {E} (h : heap) (c : certM E) : Prop :=
  okS h (m_rawSubject E c) /\ okS h (m_subjectKeyId E c) /\ okS h (m_authorityKeyId E c) /\ Forall (fun x => okS h (x_value x)) (m_extra E c).
Definition okReq {E} (h : heap) (q : reqM E) : Prop :=
  (b_arr (m_spki E q) < List.length (bufs h))%nat /\ okS h (m_spki E q) /\ bytes (nth (b_arr (m_spki E q)) (bufs h) []).

Lemma grows_refl : forall h, grows h h.
Proof. intros [a b c]. exists []. cbn [bufs oids bigs]. rewrite app_nil_r. reflexivity. Qed.
Lemma grows_trans : forall a b c, grows a b -> grows b c -> grows a c.
Proof. intros a b c [l ->] [l' ->]. exists (l ++ l'). cbn [bufs oids bigs]. rewrite app_assoc. reflexivity. Qed.
Lemma grows_len : forall h h', grows h h' -> (List.length (bufs h) <= List.length (bufs h'))%nat.
Proof. intros h h' [l ->]. cbn [bufs]. rewrite app_length. lia. Qed.
Lemma grows_nth : forall h h' a, grows h h' -> (a < List.length (bufs h))%nat -> nth a (bufs h') [] = nth a (bufs h) [].
Proof. intros h h' a [l ->] H. cbn [bufs]. apply app_nth1, H. Qed.
Lemma empty_win : forall w, okW [] w -> w = nilW.
Proof. intros [o l] (A & B & C). cbn [w_off w_len] in *. change (zlen (@nil Z)) with 0 in C. unfold nilW. f_equal; lia. Qed.
Lemma okS_grows : forall h h' s, grows h h' -> okS h s -> okS h' s /\ readB h' s = readB h s.
Proof.
  intros h h' s G H. unfold okS, readB in *. destruct (Nat.lt_ge_cases (b_arr s) (List.length (bufs h))) as [L|L].
  - rewrite (grows_nth _ _ _ G L). auto.
  - rewrite nth_overflow in H by exact L. rewrite (nth_overflow (bufs h)) by exact L. rewrite (empty_win _ H). split; [apply okW_nil|].
    rewrite !rd_nilW. reflexivity.
Qed.
Lemma oid_grows : forall h h' a, grows h h' -> readOid h' a = readOid h a.
Proof. intros h h' a [l ->]. reflexivity. Qed.
Lemma viewExt_grows : forall h h' x, grows h h' -> okS h (x_value x) -> viewExt h' x = viewExt h x /\ okS h' (x_value x).
Proof.
  intros h h' x G H. destruct (okS_grows _ _ _ G H) as [A B]. split; [|exact A]. unfold viewExt. rewrite B.
  destruct (x_id x) as [a|]; [rewrite (oid_grows _ _ _ G)|]; reflexivity.
Qed.
Lemma viewExts_grows : forall h h' l, grows h h' -> Forall (fun x => okS h (x_value x)) l ->
  map (viewExt h') l = map (viewExt h) l /\ Forall (fun x => okS h' (x_value x)) l.
Proof.
  intros h h' l G H. induction H as [|x l Hx _ [I1 I2]]; [split; [reflexivity|constructor]|].
  destruct (viewExt_grows _ _ _ G Hx) as [A B]. split; [cbn [map]; rewrite A, I1; reflexivity|constructor; assumption].
Qed.
Lemma viewCert_grows : forall E h h' (c : certM E), grows h h' -> okCert h c -> viewCert E h' c = viewCert E h c /\ okCert h' c.
Proof.
  intros E h h' c G (A & B & C & D). destruct (okS_grows _ _ _ G A) as [A1 A2], (okS_grows _ _ _ G B) as [B1 B2], (okS_grows _ _ _ G C) as [C1 C2],
    (viewExts_grows _ _ _ G D) as [D1 D2].
  split; [|repeat (split; [assumption|]); assumption]. unfold viewCert. rewrite A2, B2, C2, D1. destruct G as [l ->]. reflexivity.
Qed.
Lemma pristine_grows : forall h h', grows h h' -> pristine h -> pristine h'.
Proof. intros h h' [l ->] H. exact H. Qed.
Lemma okS_len : forall h s, okS h s -> (0 <? w_len (b_win s)) = (0 <? zlen (readB h s)).
Proof. intros h s H. unfold readB. rewrite rd_len by exact H. reflexivity. Qed.

(** * The same outcome on memory and on contents *)
Definition simI {A B} (R : heap -> A -> B -> Prop) (h : heap) (m : M A) (p : go (res B)) : Prop :=
  grows h (snd (m h)) /\
  match fst (m h), p with
  | Ret (OK a), Ret (OK b) => R (snd (m h)) a b
  | Ret (ERR e), Ret (ERR e') => e = e'
  | Panic k, Panic k' => k = k'
  | _, _ => False
  end.
Lemma simI_bind : forall A B A' B' (R : heap -> A -> B -> Prop) (R' : heap -> A' -> B' -> Prop) h m p k f,
  simI R h m p -> (forall h' a b, grows h h' -> R h' a b -> simI R' h' (k a) (f b)) -> simI R' h (bindI m k) (gbind p f).
Proof.
  intros A B A' B' R R' h m p k f [G H] K. unfold simI, bindI. destruct (m h) as [o h'] eqn:EM. cbn [fst snd] in *.
  destruct o as [[a|e]|q], p as [[b|e']|q']; try contradiction; cbn [gbind fst snd].
  - destruct (K h' a b G H) as [G' H']. split; [exact (grows_trans _ _ _ G G')|exact H'].
  - split; assumption.
  - split; assumption.
Qed.
Lemma simI_pure : forall A B (R : heap -> A -> B -> Prop) h x p,
  match x, p with Ret (OK a), Ret (OK b) => R h a b | Ret (ERR e), Ret (ERR e') => e = e' | Panic k, Panic k' => k = k' | _, _ => False end ->
  simI R h (pureI x) p.
Proof. intros A B R h x p H. split; [apply grows_refl|exact H]. Qed.
Lemma simI_same : forall A h (x : go (res A)), simI (fun h' a b => h' = h /\ a = b) h (pureI x) x.
Proof. intros A h x. apply simI_pure. destruct x as [[a|e]|k]; auto. Qed.
Definition newR (h : heap) (v : list Z) : heap -> bslice -> list Z -> Prop := fun h' s v' =>
  v' = v /\ readB h' s = v /\ okS h' s /\ b_arr s = List.length (bufs h) /\ h' = mkIH (bufs h ++ [v]) (oids h) (bigs h).
Lemma simI_new : forall h v, simI (newR h v) h (newB v) (Ret (OK v)).
Proof.
  intros h v. split; [exists [v]; reflexivity|]. cbn [newB fst snd]. unfold newR, readB, okS. cbn [b_arr b_win bufs].
  rewrite app_nth2 by lia. rewrite Nat.sub_diag. cbn [nth]. split; [reflexivity|]. split.
  - unfold rd, sub. cbn [w_off w_len]. rewrite Z.add_0_l, Z.sub_0_r. change (Z.to_nat 0) with 0%nat. cbn [skipn]. unfold zlen. rewrite Nat2Z.id.
    apply firstn_all.
  - split; [|split; reflexivity]. unfold okW. cbn [w_off w_len]. pose proof (zlen_nonneg _ v). lia.
Qed.
Lemma simI_weak : forall A B (R R' : heap -> A -> B -> Prop) h m p, (forall h' a b, grows h h' -> R h' a b -> R' h' a b) -> simI R h m p -> simI R' h m p.
Proof.
  intros A B R R' h m p K [G H]. split; [exact G|]. destruct (fst (m h)) as [[a|e]|k], p as [[b|e']|k']; try assumption. apply K; assumption.
Qed.

Lemma simI_at : forall A B C (R : heap -> A -> B -> Prop) h (a : heap -> M C) k p, simI R h (bindI (a h) (k h)) p -> simI R h (fun x => bindI (a x) (k x) x) p.
Proof. intros A B C R h a k p S. exact S. Qed.
(** Where the next step reads the memory: the memory is the present one. *)
Ltac atH := lazymatch goal with |- simI ?R ?h ?m ?p => let t := eval cbv beta zeta in m in
  lazymatch t with (fun x => bindI (@?a x) (@?k x) x) => change (simI R h t p); refine (simI_at _ _ _ R h a k p _); cbv beta end end.
Ltac atB := lazymatch goal with |- simI ?R ?h ?m ?p => let t := eval cbv beta in m in
  lazymatch t with (fun x => bindI (@?a x) (@?k x) x) => change (simI R h t p); refine (simI_at _ _ _ R h a k p _); cbv beta end end.

(** * The extensions *)
(** The extensions that the function makes itself: each has the address of a variable of the package and an array of its own. *)
Definition built (h0 h : heap) (l : list extM) : Prop :=
  NoDup (map (fun x => b_arr (x_value x)) l) /\
  Forall (fun x => (exists v, x_id x = Some v /\ (v_KeyUsage <= v <= v_CRLDistributionPoints)%nat) /\ fresh h0 (x_value x) /\
                   (b_arr (x_value x) < List.length (bufs h))%nat) l.
Definition blkR (h0 h : heap) (st : list extM * Z) (stp : list Extension * Z) : Prop :=
  map (viewExt h) (fst st) = fst stp /\ snd st = snd stp /\ Forall (fun x => okS h (x_value x)) (fst st) /\ 0 <= snd st /\
  built h0 h (firstn (Z.to_nat (snd st)) (fst st)).
Lemma map_upd : forall A B (f : A -> B) l i x, map f (upd l i x) = upd (map f l) i (f x).
Proof. induction l as [|y l IH]; intros [|i] x; cbn [upd map]; [reflexivity..|rewrite IH; reflexivity]. Qed.
Lemma Forall_upd : forall A (P : A -> Prop) l i x, Forall P l -> P x -> Forall P (upd l i x).
Proof.
  intros A P l i x H. revert i. induction H as [|y l Hy Hl IH]; intros [|i] Hx; cbn [upd]; [constructor..| |]; constructor; auto.
Qed.
Lemma firstn_S_upd : forall A (l : list A) i x, (i < List.length l)%nat -> firstn (S i) (upd l i x) = firstn i l ++ [x].
Proof.
  induction l as [|y l IH]; intros [|i] x H; cbn [List.length] in H; try lia; [reflexivity|]. cbn [upd firstn app]. f_equal. apply IH. lia.
Qed.
Lemma built_grows : forall h0 h h' l, grows h h' -> built h0 h l -> built h0 h' l.
Proof.
  intros h0 h h' l G [N F]. split; [exact N|]. eapply Forall_impl; [|exact F]. intros x (A & B & C). pose proof (grows_len _ _ G).
  split; [exact A|]. split; [exact B|]. lia.
Qed.
Lemma block_sim : forall h0 h st stp cond condp id oid crit value valuep, grows h0 h -> blkR h0 h st stp ->
  cond h = condp -> value h = valuep -> readOid h id = oid -> (v_KeyUsage <= id <= v_CRLDistributionPoints)%nat ->
  simI (blkR h0) h (blockM cond st id crit value) (block condp stp oid crit valuep).
Proof.
  intros h0 h st stp cond condp id oid crit value valuep G R <- <- <- HI. unfold blockM, block, simI.
  destruct (cond h); [|split; [apply grows_refl|exact R]].
  destruct st as [ret n], stp as [retp np]. destruct R as (R1 & R2 & R3 & R4 & R5). cbn [fst snd] in *. subst retp np.
  unfold go_index. destruct (n <? 0) eqn:Z0; [apply Z.ltb_lt in Z0; lia|]. rewrite nth_error_map. destruct (nth_error ret (Z.to_nat n)) as [x|] eqn:NE; cbn [option_map bind].
  2: { unfold bindI, pureI. cbn [fst snd]. split; [apply grows_refl|reflexivity]. }
  assert (LN : (Z.to_nat n < List.length ret)%nat) by (apply nth_error_Some; congruence).
  assert (S : simI (blkR h0) h
    (mem _ <- pureI (Ret (OK x)); mem v <- pureI (value h); mem s <- newB v;
     pureI (do ret <- go_set ret n (mkExtM (Some id) crit s); Ret (OK (ret, n + 1))))
    (run _ <- Ret (OK x); run v <- value h; run v <- Ret (OK v); putExt (map (viewExt h) ret, n) (mkExt (readOid h id) crit v))).
  { eapply simI_bind; [apply simI_same|]. intros h1 a b G1 [-> ->].
    eapply simI_bind; [apply simI_same|]. intros h1 v v' G2 [-> ->].
    eapply simI_bind; [apply simI_new|]. intros h1 s v0 G3 (-> & V1 & V2 & V3 & V4). apply simI_pure. unfold putExt, go_set.
    rewrite Z0. unfold zlen. rewrite map_length. destruct (Z.of_nat (List.length ret) <=? n) eqn:Z1; [apply Z.leb_le in Z1; lia|]. cbn [orb bind].
    destruct (viewExts_grows _ _ _ G3 R3) as [W1 W2]. unfold blkR. cbn [fst snd].
    split; [rewrite map_upd, W1; f_equal; unfold viewExt; cbn [x_id x_critical x_value]; rewrite V1, (oid_grows _ _ _ G3); reflexivity|].
    split; [reflexivity|]. split; [apply Forall_upd; [exact W2|exact V2]|]. split; [lia|].
    replace (Z.to_nat (n + 1)) with (S (Z.to_nat n)) by lia. rewrite firstn_S_upd by exact LN. destruct (built_grows _ _ _ _ G3 R5) as [N F].
    split.
    - rewrite map_app. cbn [map x_value]. apply NoDup_rev in N. rewrite <- (rev_involutive (_ ++ _)). apply NoDup_rev. rewrite rev_app_distr. cbn [rev app].
      constructor; [|exact N]. rewrite <- in_rev. rewrite V3. intros K. apply in_map_iff in K. destruct K as (y & Hy & Iy).
      destruct R5 as [_ F0]. rewrite Forall_forall in F0. specialize (F0 y Iy). lia.
    - apply Forall_app. split; [exact F|]. constructor; [|constructor]. cbn [x_id x_value]. split; [exists id; auto|].
      pose proof (grows_len _ _ G). unfold fresh. rewrite V3, V4. cbn [bufs]. rewrite app_length. cbn [List.length]. lia. }
  destruct S as [S1 S2]. cbn [gbind bind] in S1, S2. split; [exact S1|].
  destruct (value h) as [[v|e]|k]; cbn [gbind bind] in *; exact S2.
Qed.
Section Create.
Variable E : netEnv.

Lemma extensions_sim : forall h0 h (t : certM E) empty aki, grows h0 h -> pristine h -> okCert h t -> okS h aki ->
  simI (fun h' l lp => map (viewExt h') l = lp /\ Forall (fun x => okS h' (x_value x)) l /\ exists made, l = made ++ m_extra E t /\ built h0 h' made)
    h (buildExtensionsM E t empty aki) (buildExtensions E (viewCert E h t) empty (readB h aki)).
Proof.
  intros h0 h t empty aki G [more P] OT OA.
  assert (K : forall h', grows h h' -> grows h0 h' /\ oids h' = packageOids ++ more /\ map (viewExt h') (m_extra E t) = map (viewExt h) (m_extra E t) /\
            readB h' (m_subjectKeyId E t) = readB h (m_subjectKeyId E t) /\ readB h' aki = readB h aki /\ Forall (fun x => okS h' (x_value x)) (m_extra E t)).
  { intros h' G'. split; [exact (grows_trans _ _ _ G G')|]. split; [destruct G' as [l ->]; exact P|]. destruct OT as (A & B & C & D).
    destruct (viewExts_grows _ _ _ G' D) as [D1 D2], (okS_grows _ _ _ G' B) as [B1 B2], (okS_grows _ _ _ G' OA) as [A1 A2]. auto. }
  assert (L1 : (0 <? w_len (b_win (m_subjectKeyId E t))) = (0 <? zlen (readB h (m_subjectKeyId E t)))) by apply okS_len, OT.
  assert (L2 : (0 <? w_len (b_win aki)) = (0 <? zlen (readB h aki))) by apply okS_len, OA.
  unfold buildExtensionsM, buildExtensions. rewrite L1, L2.
  cbv [viewCert c_fields withIds set_AuthorityKeyId set_SubjectKeyId f_KeyUsage f_ExtKeyUsage f_UnknownExtKeyUsage f_BasicConstraintsValid f_IsCA f_MaxPathLen
       f_MaxPathLenZero f_SubjectKeyId f_AuthorityKeyId f_OCSPServer f_IssuingCertificateURL f_SAN f_ConstraintsCritical f_Permitted f_Excluded
       f_CRLDistributionPoints f_PolicyIdentifiers c_ExtraExtensions]. cbv zeta.
  assert (I : blkR h0 h (repeat zeroExtM 10, 0) (repeat zeroExt 10, 0)).
  { split; [reflexivity|]. split; [reflexivity|]. split; [|split; [cbn [snd]; lia|split; constructor]].
    apply Forall_forall. intros x Hx. apply repeat_spec in Hx. subst x. unfold okS. cbn [zeroExtM x_value nilB b_win b_arr]. apply okW_nil. }
  assert (G0 : grows h h) by apply grows_refl.
  clear G.
  Ltac step K := lazymatch goal with
    | G : grows ?h ?g, I : blkR ?h0 ?g ?st ?stp |- simI _ ?g (bindI (blockM _ ?st _ _ _) _) _ =>
      let g' := fresh "g" in let a := fresh "a" in let b := fresh "b" in let G' := fresh "G" in let I' := fresh "I" in
      let K1 := fresh in let K2 := fresh in let K3 := fresh in let K4 := fresh in let K5 := fresh in
      destruct (K _ G) as (K1 & K2 & K3 & K4 & K5 & _);
      eapply simI_bind; [eapply block_sim; [exact K1|exact I|
          cbv beta; try rewrite K3; unfold readOid; rewrite K2; reflexivity|
          cbv beta; unfold readOid; rewrite ?K2; try rewrite K4; try rewrite K5; reflexivity|
          unfold readOid; rewrite K2; reflexivity|
          cbv; lia]|];
      intros g' a b G' I'; apply (grows_trans _ _ _ G) in G'; clear G I K1 K2 K3 K4 K5
    end.
  do 10 step K. match goal with G : grows h _, I : blkR h0 _ ?a ?b |- _ => rename G into GF; rename I into IF; destruct a as [ret n], b as [retp np] end.
  destruct IF as (R1 & R2 & R3 & R4 & R5). cbn [fst snd] in *. subst retp np. destruct (K _ GF) as (_ & _ & K3 & _ & _ & K6).
  apply simI_pure. unfold go_slice, zlen. rewrite map_length. destruct ((0 <=? 0) && (0 <=? n) && (n <=? Z.of_nat (List.length ret))); cbn [bind]; [|reflexivity].
  unfold sub. rewrite Z.sub_0_r. change (Z.to_nat 0) with 0%nat. cbn [skipn]. rewrite firstn_map.
  split; [rewrite map_app, K3; reflexivity|]. split; [|exists (firstn (Z.to_nat n) ret); auto].
  apply Forall_app. split; [|exact K6]. apply Forall_forall. intros x Hx. rewrite Forall_forall in R3. apply R3. 
  rewrite <- (firstn_skipn (Z.to_nat n)). apply in_or_app. left. exact Hx.
Qed.

(** A subject's bytes: the RawSubject, if there is one, and else new ones. *)
Definition subjectFrom (h : heap) (c : certM E) (s : bslice) : Prop :=
  if 0 <? w_len (b_win (m_rawSubject E c)) then s = m_rawSubject E c else fresh h s.
Lemma subject_sim : forall h0 h c, grows h0 h -> okCert h c ->
  simI (fun h' s b => readB h' s = b /\ okS h' s /\ subjectFrom h0 c s /\ (b_arr s < List.length (bufs h'))%nat) h (subjectBytesM E c) (Ret (subjectBytes E (viewCert E h c))).
Proof.
  intros h0 h c G (A & _). pose proof (okS_len _ _ A) as L. unfold subjectBytesM, subjectBytes, simI, subjectFrom. cbn [viewCert c_RawSubject c_Subject].
  destruct (0 <? w_len (b_win (m_rawSubject E c))) eqn:W.
  - cbn [fst snd]. split; [apply grows_refl|]. destruct (readB h (m_rawSubject E c)) as [|x r] eqn:R; [discriminate L|].
    split; [reflexivity|]. split; [exact A|]. split; [reflexivity|].
    destruct (Nat.lt_ge_cases (b_arr (m_rawSubject E c)) (List.length (bufs h))) as [Q|Q]; [exact Q|]. unfold readB in R. rewrite nth_overflow in R by exact Q.
    unfold okS in A. rewrite nth_overflow in A by exact Q. rewrite (empty_win _ A) in R. discriminate R.
  - destruct (readB h (m_rawSubject E c)) as [|x r] eqn:R; [|unfold zlen in L; cbn [List.length] in L; destruct (Z.ltb_spec 0 (Z.of_nat (S (List.length r)))); [discriminate L|lia]].
    unfold bindI, pureI. destruct (marshalRDNSequence _) as [b|e]; cbn [fst snd newB]; [|split; [apply grows_refl|reflexivity]].
    destruct (simI_new h b) as [G1 (_ & N1 & N2 & N3 & _)]. cbn [newB fst snd b_arr] in *. split; [exact G1|]. split; [exact N1|]. split; [exact N2|].
    split; [unfold fresh; cbn [b_arr]; exact (grows_len _ _ G)|]. cbn [bufs]. rewrite app_length. cbn [List.length]. lia.
Qed.

(** What the info shares with the arguments, and what it does not. *)
Definition shares (h h' : heap) (t p : certM E) (q : reqM E) (i : infoM) : Prop :=
  m_serial E t = Some (i_serial i) /\ i_algorithm i = v_SignatureSM3WithSM2 /\
  subjectFrom h p (i_issuer i) /\ subjectFrom h t (i_subject i) /\
  i_keyArr i = b_arr (m_spki E q) /\ Forall (inW (b_win (m_spki E q))) (winsPKI (i_key i)) /\
  (exists made, i_exts i = made ++ m_extra E t /\ built h h' made /\
     forall s, In s (i_issuer i :: i_subject i :: map x_value made) -> b_arr s <> b_arr (i_raw i)) /\
  fresh h (i_raw i).
Lemma readB_nil : forall h, readB h nilB = [].
Proof. intros h. unfold readB. cbn [nilB b_win b_arr]. apply rd_nilW. Qed.

Lemma info_sim : forall h t p q, pristine h -> okCert h t -> okCert h p -> okReq h q ->
  simI (fun h' i c => viewInfo h' i = c /\ okS h' (i_raw i) /\ shares h h' t p q i) h (CreateCertificateInfoM E t p q)
    (CreateCertificateInfo E (viewCert E h t) (viewCert E h p) (viewReq E h q)).
Proof.
  intros h t p q PR OT OP (LQ & OQ & BQ). unfold CreateCertificateInfoM, CreateCertificateInfo.
  change (c_SerialNumber E (viewCert E h t)) with (option_map (fun p => nth p (bigs h) 0) (m_serial E t)).
  destruct (m_serial E t) as [serial|] eqn:MS; cbn [option_map]; [|split; [apply grows_refl|reflexivity]].
  eapply simI_bind; [apply (subject_sim h h p); [apply grows_refl|exact OP]|]. intros h1 iss issb G1 (I1 & I2 & I3 & I4).
  destruct (viewCert_grows E _ _ _ G1 OT) as [VT1 OT1].
  eapply simI_bind; [rewrite <- VT1; apply (subject_sim h h1 t G1 OT1)|]. intros h2 sub subb G2 (S1 & S2 & S3 & S4).
  pose proof (grows_trans _ _ _ G1 G2) as G02. destruct (okS_grows _ _ _ G2 I2) as [I2' I1']. rewrite I1 in I1'.
  destruct (viewCert_grows E _ _ _ G02 OT) as [VT2 OT2]. destruct (viewCert_grows E _ _ _ G02 OP) as [VP2 OP2].
  atH. rewrite S1, I1'.
  assert (LP : (0 <? w_len (b_win (m_subjectKeyId E p))) = (0 <? zlen (f_SubjectKeyId E (c_fields E (viewCert E h p))))).
  { rewrite (okS_len h) by apply OP. reflexivity. }
  rewrite LP. set (cnd := negb (oidEqual issb subb) && (0 <? zlen (f_SubjectKeyId E (c_fields E (viewCert E h p))))).
  assert (AK : (if cnd then f_SubjectKeyId E (c_fields E (viewCert E h p)) else f_AuthorityKeyId E (c_fields E (viewCert E h t))) =
               readB h2 (if cnd then m_subjectKeyId E p else m_authorityKeyId E t)).
  { rewrite <- VP2, <- VT2. destruct cnd; reflexivity. }
  rewrite AK. rewrite <- VT2.
  eapply simI_bind; [apply (extensions_sim h h2 t); [exact G02|exact (pristine_grows _ _ G02 PR)|exact OT2|destruct cnd; [apply OP2|apply OT2]]|].
  intros h3 exts extsb G3 (X1 & X2 & made & X3 & X4). pose proof (grows_trans _ _ _ G02 G3) as G03.
  atB. destruct (okS_grows _ _ _ G03 OQ) as [OQ3 RQ3].
  pose proof (grows_nth _ _ _ G03 LQ) as NQ. rewrite <- NQ in BQ.
  pose proof (unmarshal_sim _ BQ _ _ _ _ _ zeroPKIW zeroPKI _ (sim_PKI _ BQ) OQ3) as U.
  change (r_RawSPKI E (viewReq E h q)) with (readB h (m_spki E q)). rewrite <- RQ3. unfold readB at 1.
  eapply simI_bind with (R := fun h' (a : PKIW * win) (b : publicKeyInfo * list Z) => h' = h3 /\
     (pkiR (nth (b_arr (m_spki E q)) (bufs h3) []) (span (b_win (m_spki E q)) (snd a)) (fst a) (fst b) /\ tailW (b_win (m_spki E q)) (snd a) /\ w_len (snd a) = zlen (snd b))).
  { apply simI_pure. destruct (unmarshalW _ _ _ _) as [a|e], (unmarshal _ _ _) as [b|e']; cbn [simR] in U; try contradiction; [|exact U].
    split; [reflexivity|]. destruct U as (U1 & _ & U3 & U4). auto. }
  intros h3' [k rest] [kb restb] _ (-> & U1 & U2 & U3). cbn [fst snd] in *. rewrite U3.
  destruct (negb (zlen restb =? 0)) eqn:TR; [apply simI_pure; reflexivity|]. apply negb_false_iff, Z.eqb_eq in TR.
  match goal with |- simI ?R _ (bindI (fun h => pureI (Ret (fieldTBS (viewInfo h ?i))) h) ?f) (gbind (Ret (fieldTBS ?c)) ?g) =>
    assert (V : viewInfo h3 i = c) end.
  { unfold viewInfo. cbn [i_raw i_serial i_algorithm i_issuer i_notBefore i_notAfter i_subject i_keyArr i_key i_exts]. rewrite readB_nil, X1.
    destruct (okS_grows _ _ _ G3 I2') as [_ ->], (okS_grows _ _ _ G3 S2) as [_ ->]. rewrite S1, I1'.
    destruct U1 as [[-> _] _]. rewrite (oid_grows _ _ _ G03). destruct PR as [more PR]. unfold readOid. rewrite PR.
    destruct G03 as [l03 ->]. reflexivity. }
  eapply simI_bind with (R := fun h' a b => h' = h3 /\ a = b).
  { split; [apply grows_refl|]. cbn [pureI fst snd]. rewrite V. destruct (fieldTBS _); auto. }
  intros h3' a b _ [-> ->].
  unfold simI, bindI. destruct (simI_new h3 b) as [G4 (_ & N1 & N2 & N3 & N4)]. destruct (newB b h3) as [o h4] eqn:NB.
  assert (o = Ret (OK (mkBS (List.length (bufs h3)) (mkW 0 (zlen b))))) as -> by (unfold newB in NB; congruence).
  cbn [fst snd pureI] in *. split; [exact G4|].
  pose proof (grows_trans _ _ _ G3 G4) as G24. pose proof (grows_trans _ _ _ G02 G24) as G04.
  split; [|split; [exact N2|]].
  - clear V. unfold viewInfo. cbn [i_raw i_serial i_algorithm i_issuer i_notBefore i_notAfter i_subject i_keyArr i_key i_exts].
    destruct (okS_grows _ _ _ G24 I2') as [_ ->], (okS_grows _ _ _ G24 S2) as [_ ->]. rewrite S1, I1'.
    destruct (viewExts_grows _ _ _ G4 X2) as [-> _]. rewrite X1, N1. rewrite (oid_grows _ _ _ G04). destruct PR as [more PR]. unfold readOid. rewrite PR.
    rewrite (grows_nth _ _ _ G04 LQ), <- NQ. destruct U1 as [[-> _] _]. destruct G04 as [l04 ->]. reflexivity.
  - unfold shares. cbn [i_raw i_serial i_algorithm i_issuer i_notBefore i_notAfter i_subject i_keyArr i_key i_exts].
    split; [exact MS|]. split; [reflexivity|]. split; [exact I3|]. split; [exact S3|]. split; [reflexivity|].
    split. { assert (w_len rest = 0) as R0 by lia. rewrite (span_all _ _ U2 R0) in U1. destruct U1 as [[_ F] _]. apply in_of in F. exact F. }
    split; [|unfold fresh; cbn [b_arr]; exact (grows_len _ _ G03)].
    exists made. split; [exact X3|]. split; [exact (built_grows _ _ _ _ G4 X4)|]. cbn [b_arr]. intros s [<-|[<-|HS]].
    + pose proof (grows_len _ _ (grows_trans _ _ _ G2 G3)). lia.
    + pose proof (grows_len _ _ G3). lia.
    + apply in_map_iff in HS. destruct HS as (x & <- & Hx). destruct X4 as [_ F]. rewrite Forall_forall in F. specialize (F x Hx). lia.
Qed.
End Create.

(** * The theorems *)

(** The outcome is that of the model on contents, and the memory that there was is left as it was. *)
Theorem C123_info : forall E h t p q, pristine h -> okCert h t -> okCert h p -> okReq h q ->
  let '(o, h') := CreateCertificateInfoM E t p q h in
  grows h h' /\
  match o, CreateCertificateInfo E (viewCert E h t) (viewCert E h p) (viewReq E h q) with
  | Ret (OK i), Ret (OK c) => viewInfo h' i = c
  | Ret (ERR e), Ret (ERR e') => e = e'
  | Panic k, Panic k' => k = k'
  | _, _ => False
  end.
Proof.
  intros E h t p q H1 H2 H3 H4. destruct (info_sim E h t p q H1 H2 H3 H4) as [G S]. destruct (CreateCertificateInfoM E t p q h) as [o h'].
  cbn [fst snd] in *. split; [exact G|]. destruct o as [[i|e]|k], (CreateCertificateInfo _ _ _ _) as [[c|e']|k']; try contradiction; [apply S|exact S|exact S].
Qed.
(** What the result is made of: the serial number is the template's own big.Int, the algorithm's identifier the package's own
    variable, issuer and subject are the RawSubjects where there are any, the key is a part of the request's bytes,
    the extra extensions are the template's; the other extensions' values and Raw are new arrays. *)
Theorem C123_shares : forall E h t p q i h', pristine h -> okCert h t -> okCert h p -> okReq h q ->
  CreateCertificateInfoM E t p q h = (Ret (OK i), h') -> shares E h h' t p q i.
Proof.
  intros E h t p q i h' H1 H2 H3 H4 H. destruct (info_sim E h t p q H1 H2 H3 H4) as [_ S]. rewrite H in S. cbn [fst snd] in S.
  destruct (CreateCertificateInfo _ _ _ _) as [[c|e']|k']; try contradiction. apply S.
Qed.

Lemma info_raw : forall E t p q c, CreateCertificateInfo E t p q = Ret (OK c) -> tb_raw c <> [].
Proof.
  intros E t p q c H. destruct (info_inv _ _ _ _ _ H) as (serial & iss & subj & exts & k & _ & _ & _ & _ & _ & S6). cbv zeta in S6. destruct S6 as (raw & S6 & ->).
  cbn [tb_raw]. unfold fieldTBS in S6. cbn [tb_raw] in S6. unfold marshalRawStruct in S6. apply makeField_plain in S6; try reflexivity.
  destruct S6 as (bd & _ & ->). intros K. discriminate K.
Qed.
Lemma info_made : forall E h t p q i h', pristine h -> okCert h t -> okCert h p -> okReq h q -> CreateCertificateInfoM E t p q h = (Ret (OK i), h') ->
  grows h h' /\ readB h' (i_raw i) <> [].
Proof.
  intros E h t p q i h' H1 H2 H3 H4 H. pose proof (C123_info E h t p q H1 H2 H3 H4) as S. rewrite H in S. destruct S as [G S]. split; [exact G|].
  destruct (CreateCertificateInfo _ _ _ _) as [[c|e']|k'] eqn:CI; try contradiction. apply info_raw in CI. rewrite <- S in CI. exact CI.
Qed.
Lemma create_raw : forall h h2 i sig, readB h (i_raw i) <> [] -> readB h2 (i_raw i) = readB h (i_raw i) -> readOid h2 v_SignatureSM3WithSM2 = oidSignatureSM3WithSM2 ->
  CreateCertificateM h2 i sig = CreateCertificate (viewInfo h i) sig.
Proof.
  intros h h2 i sig NE R O. unfold CreateCertificateM, CreateCertificate. rewrite O. unfold fieldCert. cbn [ct_raw ct_tbs ct_alg ct_sig].
  unfold fieldTBS. cbn [viewInfo tb_raw]. rewrite R. destruct (readB h (i_raw i)) as [|x r]; [contradiction NE; reflexivity|]. reflexivity.
Qed.

(** Whatever happens to the arrays and numbers that existed before the call, and to every field of the info but Raw:
    the certificate is the one that the info stood for when it was made. *)
Theorem C123_later : forall E h t p q i h', pristine h -> okCert h t -> okCert h p -> okReq h q -> CreateCertificateInfoM E t p q h = (Ret (OK i), h') ->
  forall h2, nth (b_arr (i_raw i)) (bufs h2) [] = nth (b_arr (i_raw i)) (bufs h') [] -> readOid h2 v_SignatureSM3WithSM2 = oidSignatureSM3WithSM2 ->
  (forall sig, CreateCertificateM h2 i sig = CreateCertificate (viewInfo h' i) sig) /\
  (forall ca id tape, IssueCertificateBySoftCAKeyM h2 i ca id tape = IssueCertificateBySoftCAKey (viewInfo h' i) ca id tape).
Proof.
  intros E h t p q i h' H1 H2 H3 H4 H h2 R O. destruct (info_made _ _ _ _ _ _ _ H1 H2 H3 H4 H) as [G NE].
  assert (RR : readB h2 (i_raw i) = readB h' (i_raw i)) by (unfold readB; rewrite R; reflexivity).
  assert (C : forall sig, CreateCertificateM h2 i sig = CreateCertificate (viewInfo h' i) sig) by (intros sig; apply create_raw; assumption).
  split; [exact C|]. intros ca id tape. unfold IssueCertificateBySoftCAKeyM, IssueCertificateBySoftCAKey. rewrite RR. cbn [viewInfo tb_raw].
  destruct (Sign ca id (readB h' (i_raw i)) tape) as [[[sig|e] tp]|k]; cbn [bind]; [rewrite C|..]; reflexivity.
Qed.
Definition setBig (h : heap) (a : nat) (n : Z) : heap := mkIH (bufs h) (oids h) (upd (bigs h) a n).
Definition setOid (h : heap) (a : nat) (l : list Z) : heap := mkIH (bufs h) (upd (oids h) a l) (bigs h).
Definition setBuf (h : heap) (a : nat) (l : list Z) : heap := mkIH (upd (bufs h) a l) (oids h) (bigs h).
(** So a serial number that the caller counts up for the next certificate shows in the info, but not in its certificate. *)
Theorem C123_serial : forall E h t p q i h' n, pristine h -> okCert h t -> okCert h p -> okReq h q -> CreateCertificateInfoM E t p q h = (Ret (OK i), h') ->
  (i_serial i < List.length (bigs h))%nat ->
  let h2 := setBig h' (i_serial i) n in
  c_SerialNumber E (viewCert E h2 t) = Some n /\ tb_serial (viewInfo h2 i) = Some n /\
  (forall sig, CreateCertificateM h2 i sig = CreateCertificate (viewInfo h' i) sig).
Proof.
  intros E h t p q i h' n H1 H2 H3 H4 H L h2. destruct (C123_shares _ _ _ _ _ _ _ H1 H2 H3 H4 H) as (S & _).
  destruct (info_made _ _ _ _ _ _ _ H1 H2 H3 H4 H) as [G NE].
  assert (N : nth (i_serial i) (bigs h2) 0 = n) by (apply nth_upd_same; destruct G as [l ->]; exact L).
  split; [cbn [viewCert c_SerialNumber]; rewrite S; cbn [option_map]; rewrite N; reflexivity|].
  split; [cbn [viewInfo tb_serial]; rewrite N; reflexivity|]. intros sig. apply (C123_later E h t p q i h' H1 H2 H3 H4 H); [reflexivity|].
  destruct G as [l ->]. destruct H1 as [more P]. unfold readOid. cbn [h2 setBig oids]. rewrite P. reflexivity.
Qed.

(** * The package's variables *)

(** Where the variable has another identifier, every certificate names that one, and is refused. *)
Lemma other_algorithm : forall E h j sig e, oid_ok (readOid h v_SignatureSM3WithSM2) -> readOid h v_SignatureSM3WithSM2 <> oidSignatureSM3WithSM2 ->
  CreateCertificateM h j sig = OK e -> bytes e -> small e -> forall c, ParseCertificate E e <> Ret (OK c).
Proof.
  intros E h j sig e HO NO HC HB HL c HP. set (l := readOid h v_SignatureSM3WithSM2) in *.
  unfold CreateCertificateM, fieldCert in HC. cbn [ct_raw ct_tbs ct_alg ct_sig] in HC. fold l in HC. rewrite rawStruct_nil in HC.
  apply marshalStruct_inv in HC; [|exact HL]. destruct HC as (es & HE & EE & HS).
  destruct es as [|e1 [|e2 [|e3 [|]]]]; try discriminate HE. cbn [map] in HE.
  apply cons_eq in HE. destruct HE as [E1 HE]. apply cons_eq in HE. destruct HE as [E2 HE].
  assert (Z1 : small e1) by (apply (small_concat [e1; e2; e3]); [exact HS|left; reflexivity]).
  assert (Z2 : small e2) by (apply (small_concat [e1; e2; e3]); [exact HS|right; left; reflexivity]).
  pose proof (alg_rt l e2 E2 Z2 HO) as A2.
  unfold ParseCertificate in HP. apply gbind_ok in HP. destruct HP as ([ct rest] & P1 & HP).
  apply ret_inj in P1. destruct (unmarshal_elem _ _ _ _ _ _ HB P1) as (e' & EE' & HEL). clear P1.
  destruct rest as [|x rest]; [|rewrite zlen_cons in HP; pose proof (zlen_nonneg _ rest);
    rewrite (proj2 (Z.eqb_neq (zlen rest + 1) 0)) in HP by lia; discriminate HP].
  change (negb (zlen (@nil Z) =? 0)) with false in HP. cbv iota in HP. rewrite app_nil_r in EE'. subst e'.
  destruct (cert_parts ct e HEL HB) as (tbs & ea & es' & more & HD & HT & HA & _ & _ & _ & _).
  assert (TE : tlv 48 (e1 ++ e2 ++ e3) = tlv 48 (tbs ++ ea ++ es' ++ more)).
  { rewrite <- HD, EE. cbn [List.concat]. rewrite app_nil_r. reflexivity. }
  cbn [List.concat] in HS. rewrite app_nil_r in HS. unfold small in *.
  rewrite <- (app_nil_r (tlv 48 (e1 ++ _))), <- (app_nil_r (tlv 48 (tbs ++ _))) in TE.
  assert (LD : zlen (tbs ++ ea ++ es' ++ more) < 2 ^ 31).
  { rewrite HD in HL. pose proof (zlen_tlv_ge 48 (tbs ++ ea ++ es' ++ more)). lia. }
  apply tlv_inj in TE; [|lia|lia]. destruct TE as (_ & TE & _).
  unfold fieldTBS, marshalRawStruct in E1. apply makeField_plain in E1; try reflexivity. destruct E1 as (b1 & _ & ->).
  destruct (tagged_small 0 TagSequence true b1) as [T1 L1]; [split; unfold TagSequence; lia|exact Z1|]. rewrite T1 in TE.
  destruct HT as (c2 & t2 & k2 & b2 & -> & _ & L2 & _). apply tlv_inj in TE; [|lia|lia]. destruct TE as (_ & _ & TE).
  pose proof A2 as (c3 & t3 & k3 & b3 & B3 & _ & L3 & _). pose proof HA as (c4 & t4 & k4 & b4 & B4 & _ & L4 & _).
  rewrite B3, B4 in TE. apply tlv_inj in TE; [|lia|lia]. destruct TE as (Q1 & Q2 & _). rewrite Q1, Q2, <- B4 in B3. subst e2.
  pose proof (elem_unmarshal _ uAlg _ _ zeroAlg [] A2) as X1. pose proof (elem_unmarshal _ uAlg _ _ zeroAlg [] HA) as X2. rewrite X1 in X2.
  injection X2 as X2. unfold parseCertificate in HP. rewrite <- X2 in HP. cbn [alg_oid] in HP.
  destruct (negb (oidEqual oidSignatureSM3WithSM2 l)) eqn:Q; [discriminate HP|]. apply negb_false_iff in Q. apply oidEqual_eq in Q. exact (NO (eq_sym Q)).
Qed.
(** A caller who writes to the algorithm's identifier of an info that they were given writes to the package's variable. From then on
    no certificate that is issued, from this info or any other, can be parsed where the variable is intact. *)
Theorem C123_package : forall E h t p q i h' l, pristine h -> okCert h t -> okCert h p -> okReq h q -> CreateCertificateInfoM E t p q h = (Ret (OK i), h') ->
  oid_ok l -> l <> oidSignatureSM3WithSM2 ->
  forall j sig e, CreateCertificateM (setOid h' (i_algorithm i) l) j sig = OK e -> bytes e -> small e -> forall c, ParseCertificate E e <> Ret (OK c).
Proof.
  intros E h t p q i h' l H1 H2 H3 H4 H O N j sig e HC HB HL. destruct (C123_shares _ _ _ _ _ _ _ H1 H2 H3 H4 H) as (_ & S & _).
  destruct (info_made _ _ _ _ _ _ _ H1 H2 H3 H4 H) as [G _]. rewrite S in HC.
  assert (R : readOid (setOid h' v_SignatureSM3WithSM2 l) v_SignatureSM3WithSM2 = l).
  { unfold readOid. cbn [setOid oids]. apply nth_upd_same. destruct G as [m ->]. cbn [oids]. destruct H1 as [more ->]. rewrite app_length. cbv. lia. }
  apply (other_algorithm E (setOid h' v_SignatureSM3WithSM2 l) j sig e); rewrite ?R; assumption.
Qed.

(** * An example: a template with a key usage, an alternative name and an extra extension, a parent with a RawSubject and a key identifier. *)
Definition exM_name : list Z := Eval vm_compute in ex_nameW 66 [3].
Definition exM_heap : heap := mkIH [r_RawSPKI noNet ex_csr; [9; 9; 9]; exM_name; [5; 0]] (packageOids ++ [[1; 2; 3]]) [77].
Definition exM_extra : extM := mkExtM (Some 13%nat) false (mkBS 3 (mkW 0 2)).
Definition exM_template : certM noNet := mkCertM noNet (Some 0%nat) nilB nilB nilB [exM_extra] ex_filled.
Definition exM_parent : certM noNet := mkCertM noNet None (mkBS 2 (mkW 0 (zlen exM_name))) (mkBS 1 (mkW 1 2)) nilB [] ex_parent.
Definition exM_request : reqM noNet := mkReqM noNet (mkBS 0 (mkW 0 (zlen (r_RawSPKI noNet ex_csr)))) ex_csr.
Definition exM_run := CreateCertificateInfoM noNet exM_template exM_parent exM_request exM_heap.
Definition exM_info : infoM := Eval vm_compute in
  match fst exM_run with Ret (OK i) => i | _ => mkInfoM nilB 0 0 nilB zeroTime zeroTime nilB 0 zeroPKIW [] end.
Definition exM_after : heap := Eval vm_compute in snd exM_run.
Example C123_ex_hyps : pristine exM_heap /\ okCert exM_heap exM_template /\ okCert exM_heap exM_parent /\ okReq exM_heap exM_request /\
  CreateCertificateInfoM noNet exM_template exM_parent exM_request exM_heap = (Ret (OK exM_info), exM_after) /\ (i_serial exM_info < List.length (bigs exM_heap))%nat.
Proof.
  split; [exists [[1; 2; 3]]; reflexivity|]. split.
  { repeat split; try (cbv; discriminate). repeat constructor; cbv; discriminate. }
  split. { repeat split; try (cbv; discriminate). constructor. }
  split. { split; [cbv; lia|]. split; [repeat split; cbv; discriminate|]. apply bytes_forallb. vm_compute. reflexivity. }
  split; [vm_compute; reflexivity|cbv; lia].
Qed.
(** Which addresses the info holds: its own arrays are 4 (the subject) to 8 (Raw). *)
Example C123_ex_shares : (i_serial exM_info, i_algorithm exM_info, b_arr (i_issuer exM_info), b_arr (i_subject exM_info), i_keyArr exM_info, b_arr (i_raw exM_info)) =
    (0, 0, 2, 4, 0, 8)%nat /\
  map (fun x => (x_id x, b_arr (x_value x))) (i_exts exM_info) =
    [(Some v_KeyUsage, 5); (Some v_AuthorityKeyId, 6); (Some v_SubjectAltName, 7); (Some 13, 3)]%nat.
Proof. split; vm_compute; reflexivity. Qed.
(** Arrays that are shared: the caller changes the parent's RawSubject and the value of the extra extension, and the info shows it. *)
Example C123_ex_changed : let h2 := setBuf (setBuf exM_after 2 (repeat 1 (List.length exM_name))) 3 [4; 0] in
  rv_full (tb_issuer (viewInfo h2 exM_info)) = repeat 1 (List.length exM_name) /\
  match tb_exts (viewInfo h2 exM_info) with Some l => nth 3 (map e_value l) [] | None => [] end = [4; 0] /\
  CreateCertificateM h2 exM_info [1; 2] = CreateCertificate (viewInfo exM_after exM_info) [1; 2].
Proof. split; [|split]; vm_compute; reflexivity. Qed.
(** That a certificate's extension for the key usage has the standard's identifier whatever callers do with the infos they were
    given before is false: the identifier in the info is the package's variable. *)
Theorem C123_extension_refuted : exists E h t p q i h' l, pristine h /\ okCert h t /\ okCert h p /\ okReq h q /\
  CreateCertificateInfoM E t p q h = (Ret (OK i), h') /\
  match i_exts i with x :: _ => x_id x | [] => None end = Some v_KeyUsage /\
  exists i2 h2, CreateCertificateInfoM E t p q (setOid h' v_KeyUsage l) = (Ret (OK i2), h2) /\
    match tb_exts (viewInfo h2 i2) with Some (x :: _) => e_id x | _ => [] end = l /\ l <> oidExtensionKeyUsage /\ oid_ok l.
Proof.
  destruct C123_ex_hyps as (A & B & C & D & F & _).
  exists noNet, exM_heap, exM_template, exM_parent, exM_request, exM_info, exM_after, [2; 5; 29; 99].
  split; [exact A|]. split; [exact B|]. split; [exact C|]. split; [exact D|]. split; [exact F|]. split; [reflexivity|].
  eexists. eexists. split; [vm_compute; reflexivity|]. split; [vm_compute; reflexivity|]. split; [discriminate|].
  cbn [oid_ok]. repeat split; try lia. repeat constructor; lia.
Qed.
Example C123_ex_package : exists e, CreateCertificateM (setOid exM_after (i_algorithm exM_info) [1; 2; 156; 10197; 1; 401]) exM_info [1; 2] = OK e /\
  bytes e /\ small e /\ oid_ok [1; 2; 156; 10197; 1; 401].
Proof.
  eexists. split; [vm_compute; reflexivity|]. split; [apply bytes_forallb; vm_compute; reflexivity|]. split; [vm_compute; reflexivity|].
  cbn [oid_ok]. repeat split; try lia. repeat constructor; lia.
Qed.
