(** Property C122: the key exchange leaves what it is given as it is and returns new slices. *)
From Coq Require Import ZArith List Lia Bool String.
From Verif Require Import GoBase BeMin FpField GoElliptic Sm3 Sm2Group Sm2Spec Sm2 KeyExchange Sm2Mem KexMem Sm2Proofs Sm2Proofs2 PropsCurve PropsSm2 PropsSm2Mem.
Import ListNotations.
Open Scope Z_scope.

Lemma slice_ok : forall s lo hi, 0 <= lo <= hi -> hi <= Z.of_nat (s_cap s) ->
  sliceM s lo hi = retp (mkSl (s_buf s) (s_off s + Z.to_nat lo) (Z.to_nat (hi - lo)) (s_cap s - Z.to_nat lo)).
Proof. intros s lo hi A B. unfold sliceM. destruct (Z.leb_spec 0 lo), (Z.leb_spec lo hi), (Z.leb_spec hi (Z.of_nat (s_cap s))); try lia. reflexivity. Qed.
Lemma slice_no : forall s lo hi, Z.of_nat (s_cap s) < hi -> sliceM s lo hi = liftp (Panic PSlice).
Proof. intros s lo hi A. unfold sliceM. destruct (Z.leb_spec hi (Z.of_nat (s_cap s))); [lia|]. rewrite andb_false_r. reflexivity. Qed.

Lemma kdfForExch_loopM_runs : forall fuel h d xb yb za zb buf rv l, whole h buf (repeat 0 16) -> whole h rv l -> s_buf buf <> s_buf rv ->
  runs (fun j => j = s_buf rv \/ j = s_buf buf) (kdfForExch_loopM fuel 16 d xb yb za zb 0 0 buf rv) h (kdfForExch_loop fuel 16 d xb yb za zb 0 0 l)
    (fun a b h' => a = fst b /\ whole h' rv (snd b)).
Proof.
  intros fuel h d xb yb za zb buf rv l HB HR ND.
  destruct fuel as [|fuel]; cbn [kdfForExch_loopM kdfForExch_loop]; rewrite (whole_len _ _ _ HR); fold (zlen l).
  all: destruct (Z.ltb_spec 0 (zlen l)) as [L|L]; [|apply runs_ret; split; [reflexivity|exact HR]].
  - apply runs_panic.
  - cbv zeta. change (u32 (0 + 1)) with 1.
    eapply runs_put; [exact HB|rewrite be_enc_length, repeat_length; lia|right; reflexivity|]. intros h1 K1 HB1.
    assert (HR1 : whole h1 rv l) by (eapply whole_keeps; [exact K1|exact ND|exact HR]). clear HB HR.
    set (b1 := be_enc 4 1 ++ _) in HB1. assert (Lb1 : List.length b1 = 16%nat) by reflexivity.
    eapply runs_slice; [apply whole_slice; exact HB1|lia|unfold zlen; lia|]. intros cs Hcs _. change (sub b1 0 4) with (be_enc 4 1) in Hcs.
    eapply runs_read; [exact Hcs|]. apply runs_lift. intros [d1 tmp]. clear Hcs.
    assert (EB : buf = mkSl (s_buf buf) 0 16 16) by (destruct HB1 as (_ & E & _); rewrite Lb1 in E; exact E).
    rewrite (slice_ok buf 0 16); [|lia|rewrite EB; cbn; lia]. change (s_off buf + Z.to_nat 0)%nat with (s_off buf + 0)%nat.
    replace (mkSl (s_buf buf) (s_off buf + 0) (Z.to_nat (16 - 0)) (s_cap buf - Z.to_nat 0)) with buf by (rewrite EB; reflexivity).
    match goal with |- runs ?W (bindp (retp buf) ?k) ?h ?o ?R => change (runs W (k buf) h o R) end. cbv beta.
    apply runs_lift_gives. intros t Et.
    assert (Lt : List.length t = 16%nat).
    { destruct (Z.le_gt_cases 16 (zlen tmp)) as [Q|Q].
      - rewrite go_slice_ret in Et by lia. injection Et as <-. unfold sub, zlen in *. rewrite firstn_length, skipn_length. lia.
      - rewrite go_slice_panic in Et by lia. discriminate Et. }
    assert (Lbuf : s_len buf = 16%nat) by (rewrite EB; reflexivity).
    rewrite (firstn_all2 t) by (rewrite Lbuf; lia).
    eapply runs_put; [exact HB1|lia|right; reflexivity|]. intros h2 K2 HB2. rewrite skipn_all2, app_nil_r in HB2 by lia.
    assert (HR2 : whole h2 rv l) by (eapply whole_keeps; [exact K2|exact ND|exact HR1]). clear HR1 HB1. clearbody b1.
    replace (0 + (zlen l - 0)) with (zlen l) by lia. replace (zlen l - 0) with (zlen l) by lia.
    assert (Crv : s_cap rv = List.length l) by (destruct HR2 as (_ & E & _); rewrite E; reflexivity).
    assert (Ep := slice_ok rv 0 (zlen l) ltac:(lia) ltac:(unfold zlen; lia)).
    rewrite (go_slice_ret _ l 0 (zlen l)) by lia. cbn [bind].
    destruct (Z.le_gt_cases (zlen l) 16) as [Q|Q].
    2: { rewrite go_slice_panic by (unfold zlen in *; lia). rewrite Ep, (slice_no buf 0 (zlen l)); [apply runs_panic|]. rewrite EB. cbn. lia. }
    rewrite (go_slice_ret _ t 0 (zlen l)) by (unfold zlen in *; lia). cbn [bind].
    assert (Es := slice_ok buf 0 (zlen l) ltac:(lia) ltac:(rewrite EB; cbn; lia)). rewrite Es.
    set (src := mkSl (s_buf buf) (s_off buf + Z.to_nat 0) (Z.to_nat (zlen l - 0)) (s_cap buf - Z.to_nat 0)).
    assert (Hs : slice_at h2 src (sub t 0 (zlen l))).
    { assert (O1 : s_off buf = 0%nat) by (rewrite EB; reflexivity). assert (O2 : s_cap buf = 16%nat) by (rewrite EB; reflexivity).
      destruct HB2 as (A1 & A2 & A3). unfold src, slice_at, view, sub. cbn [s_buf s_off s_len s_cap]. rewrite A3, O1, O2. split; [exact A1|].
      change (Z.to_nat 0) with 0%nat. cbn [Nat.add skipn]. split; [unfold zlen in *; lia|]. split; [lia|reflexivity]. }
    match goal with |- runs _ (bindp _ (fun w => bindp _ (fun s => bindp (copyM w s) (fun _ => ?k)))) _ _ _ =>
      change (runs (fun j => j = s_buf rv \/ j = s_buf buf) (mem w <- sliceM rv 0 (zlen l); mem _ <- copyM w src; k) h2
        (kdfForExch_loop fuel 16 d1 xb yb za zb (zlen l) 1 (sub l 0 0 ++ sub t 0 (zlen l) ++ sub l (zlen l) (zlen l))) (fun a b h' => a = fst b /\ whole h' rv (snd b))) end.
    eapply runs_copy_into; [exact HR2|exact Hs|lia|lia|left; reflexivity|]. intros h3 K3 HR3.
    assert (Lsub : List.length (sub t 0 (zlen l)) = List.length l) by (unfold sub, zlen in *; rewrite firstn_length, skipn_length; cbn; lia).
    assert (EC : copy_at l 0 (zlen l) (sub t 0 (zlen l)) = sub l 0 0 ++ sub t 0 (zlen l) ++ sub l (zlen l) (zlen l)).
    { unfold copy_at. fold (zlen (sub t 0 (zlen l))). assert (Z1 : zlen (sub t 0 (zlen l)) = zlen l) by (unfold zlen in *; lia). rewrite Z1.
      rewrite Z.min_l by lia. unfold sub at 2 4. rewrite !Z.sub_diag. cbn [Z.to_nat firstn app]. f_equal.
      - apply firstn_all2. unfold zlen in *. lia.
      - apply skipn_all2. unfold zlen in *. lia. }
    rewrite EC in HR3. set (l' := sub l 0 0 ++ _) in *.
    assert (Ll : zlen l' = zlen l) by (unfold l', sub at 1 3; rewrite !Z.sub_diag; cbn [Z.to_nat firstn app]; rewrite app_nil_r; unfold zlen in *; lia).
    destruct fuel as [|fuel]; cbn [kdfForExch_loopM kdfForExch_loop]; rewrite (whole_len _ _ _ HR3); fold (zlen l'); rewrite Ll, Z.ltb_irrefl.
    all: apply runs_ret; split; [reflexivity|exact HR3].
Qed.
(** A new slice with these bytes and no spare capacity. *)
Definition fresh (h : heap) (s : slice) (l : list Z) (h' : heap) : Prop := slice_at h' s l /\ s_cap s = s_len s /\ new_slice h s.
Lemma whole_fresh : forall h s l h', whole h' s l -> new_slice h s -> fresh h s l h'.
Proof. intros h s l h' W N. split; [apply whole_slice, W|]. split; [|exact N]. destruct W as (_ & -> & _). reflexivity. Qed.
Lemma fresh_keeps : forall h s l h1 h2, keeps none h1 h2 -> fresh h s l h1 -> fresh h s l h2.
Proof. intros h s l h1 h2 K (A & B & C). split; [eapply slice_keeps; [exact K|intros []|exact A]|]. split; assumption. Qed.
Lemma fresh_older : forall h0 h s l h', keeps none h0 h -> fresh h s l h' -> fresh h0 s l h'.
Proof. intros h0 h s l h' K (A & B & C). split; [exact A|]. split; [exact B|]. eapply new_slice_keeps; eassumption. Qed.

Lemma kdfForExchM_runs : forall h d ux uy x y za zb kb, int_at h ux x -> int_at h uy y ->
  runs none (kdfForExchM d ux uy za zb kb) h (kdfForExch d x y za zb kb) (fun a b h' => fst a = fst b /\ fresh h (snd a) (snd b) h').
Proof.
  intros h d ux uy x y za zb kb Hx Hy. apply runs_newb. unfold kdfForExchM, kdfForExch. cbv zeta. change (if 4 <? BlockSizeMethod d then BlockSizeMethod d else 4) with 16.
  apply runs_make; [lia|]. intros buf h1 K1 HB NB. change (repeat 0 (Z.to_nat 16)) with (repeat 0 16) in HB.
  apply (int_keeps _ _ _ _ _ K1) in Hx. apply (int_keeps _ _ _ _ _ K1) in Hy. assert (B1 := keeps_bufs _ _ _ K1). clear K1.
  unfold makeM. destruct (go_make (Z.quot (addInt kb 7) 8)) as [l|e]; [|apply runs_panic].
  match goal with |- runs ?W (bindp (bindp (liftp (Ret l)) ?f) ?k) ?h ?o ?R => change (runs W (bindp (newBuf l) k) h o R) end.
  apply runs_newBuf. intros rv h2 K2 HR NR. apply (int_keeps _ _ _ _ _ K2) in Hx. apply (int_keeps _ _ _ _ _ K2) in Hy.
  assert (ND : s_buf buf <> s_buf rv) by (apply whole_lt in HB; unfold new_slice in NR; lia).
  apply (whole_keeps _ _ _ _ _ K2 (fun F : none _ => F)) in HB. clear K2.
  assert (NR0 : new_slice h rv) by (unfold new_slice in *; lia).
  eapply runs_bytes; [exact Hx|]. eapply runs_bytes; [exact Hy|]. rewrite (whole_len _ _ _ HR). cbn [bind].
  apply runs_ret_bind. eapply (runs_bind2 _ _ _ _ (fun j => j = s_buf rv \/ j = s_buf buf)); [apply kdfForExch_loopM_runs; assumption| |].
  - intros j [->| ->]; assumption.
  - intros d1 [d2 l2] h3 K3 [-> W3]. apply runs_ret. cbn [fst snd]. split; [reflexivity|]. apply whole_fresh; assumption.
Qed.
Lemma getZM_runs : forall h d c px py x y id idl, curve_at h c -> int_at h px x -> int_at h py y -> slice_at h id idl ->
  runs none (getZM d c px py id) h (getZ d x y idl) (fun a b h' => a = b /\ h' = h).
Proof.
  intros h d c px py x y id idl C Hx Hy Hid. unfold getZM. eapply runs_get; [apply C|]. eapply runs_get; [apply C|]. eapply runs_get; [apply C|]. eapply runs_get; [apply C|].
  eapply runs_get; [exact Hx|]. eapply runs_get; [exact Hy|]. eapply runs_read; [exact Hid|]. change (getZ d x y idl) with (getZwith curveA curveB curveGx curveGy d x y idl).
  destruct (getZwith curveA curveB curveGx curveGy d x y idl); split; try apply keeps_refl; try exact I. split; reflexivity.
Qed.
Lemma innerM_runs : forall h d ux x za zb a b c e a' b' c' e', int_at h ux x -> int_at h a a' -> int_at h b b' -> int_at h c c' -> int_at h e e' ->
  runs none (calculateInnerHashM d ux za zb a b c e) h (calculateInnerHash d x za zb a' b' c' e') (fun p q h' => p = q /\ h' = h).
Proof.
  intros h d ux x za zb a b c e a' b' c' e' H0 H1 H2 H3 H4. unfold calculateInnerHashM, calculateInnerHash.
  do 5 (eapply runs_bytes; [eassumption|]). destruct (hashOf d _); split; try apply keeps_refl; try exact I. split; reflexivity.
Qed.
Lemma confirmM_runs : forall first h d uy y ih, int_at h uy y ->
  runs none (confirmM first d uy ih) h (hashOf d [[first]; BigBytes y; ih]) (fun a b h' => fst a = fst b /\ fresh h (snd a) (snd b) h').
Proof.
  intros first h d uy y ih Hy. unfold confirmM. eapply runs_bytes; [exact Hy|]. apply runs_ret_bind. apply runs_lift. intros [d1 t].
  apply runs_newBuf. intros s h1 K W N. apply runs_ret. split; [reflexivity|]. apply whole_fresh; assumption.
Qed.
Definition slot_at (h : heap) (s : option slice) (l : option (list Z)) : Prop :=
  match s, l with Some s, Some l => slice_at h s l | None, None => True | _, _ => False end.
Lemma slot_keeps : forall h h' s l, keeps none h h' -> slot_at h s l -> slot_at h' s l.
Proof. intros h h' [s|] [l|] K H; try exact H. eapply slice_keeps; [exact K|intros []|exact H]. Qed.
Lemma orEmpty_gives : forall h id idl, slot_at h id idl -> gives (orEmpty id) h (fun s h' => slice_at h' s (contentsOf idl)).
Proof.
  intros h [s|] [l|] H; try (exfalso; exact H); cbn [orEmpty contentsOf].
  - exists s, h. split; [reflexivity|]. split; [apply keeps_refl|exact H].
  - destruct (newBuf_gives [] h) as (s & h' & E & K & W & _). exists s, h'. split; [exact E|]. split; [exact K|]. apply whole_slice, W.
Qed.
(** The three slices of the result: new, with the bytes, in buffers of their own. *)
Definition exch_at (h : heap) (h' : heap) (r : exchRef) (v : ExchangeResult) : Prop :=
  fresh h (eKey r) (exKey v) h' /\ fresh h (eS2 r) (exS2 v) h' /\ s_buf (eKey r) <> s_buf (eS2 r) /\
  match eS1 r, exS1 v with
  | Some s, Some l => fresh h s l h' /\ s_buf s <> s_buf (eKey r) /\ s_buf s <> s_buf (eS2 r)
  | None, None => True
  | _, _ => False
  end.
Ltac on :=
  carry;
  match goal with
  | K0 : keeps none ?h0 ?h, K : keeps none ?h ?h' |- _ =>
      repeat match goal with
      | H : slot_at h _ _ |- _ => apply (slot_keeps h h' _ _ K) in H
      | H : fresh h0 _ _ h |- _ => apply (fresh_keeps h0 _ _ h h' K) in H
      | H : fresh h _ _ h' |- _ => apply (fresh_older h0 h _ _ h' K0) in H
      end;
      apply (keeps_trans none h0 h h' K0) in K; clear K0; rename K into K0
  end.
Lemma CalculateKeyM_runs : forall h g init kb tag tagl sp se sid sidl osp oep oid oidl d1 d2 q1 q2, globals_at h g ->
  priv_at h sp d1 -> priv_at h se d2 -> pub_at h osp q1 -> pub_at h oep q2 -> slot_at h tag tagl -> slot_at h sid sidl -> slot_at h oid oidl ->
  runs none (CalculateKeyWithConfirmationM g init kb tag sp se sid osp oep oid) h (CalculateKeyWithConfirmation init kb tagl d1 d2 sidl q1 q2 oidl)
    (fun a b h' => res1_at (exch_at h h') a b).
Proof.
  intros h0 g init kb tag tagl sp se sid sidl osp oep oid oidl d1 d2 q1 q2 HG HP HE HO HQ HT HS HI. unfold CalculateKeyWithConfirmationM, CalculateKeyWithConfirmation.
  assert (K0 : keeps none h0 h0) by apply keeps_refl. remember h0 as h eqn:Eh in K0 at 2, HG, HP, HE, HO, HQ, HT, HS, HI |- * at 1. clear Eh. cbv zeta.
  eapply runs_gives; [apply orEmpty_gives; exact HS|]. intros sid' h1 K1 HS'. cbv beta in HS'. on. clear HS h.
  eapply runs_gives; [apply orEmpty_gives; exact HI|]. intros oid' h2 K2 HI'. cbv beta in HI'. on. clear HI h1.
  replace (match tag with Some _ => false | None => true end) with (isNil tagl) by (destruct tag, tagl; try (exfalso; exact HT); reflexivity).
  destruct (init && isNil tagl); [apply runs_ret; reflexivity|].
  eapply runs_bind; [apply CalculatePubKeyM_runs; exact HP|]. intros ps vps h3 K3 (Hps & _). on. clear h2.
  eapply runs_bind; [eapply getZM_runs; [apply HP|apply Hps|apply Hps|exact HS']|]. intros a [dg za] h' _ [-> ->]. cbv beta iota.
  eapply runs_bind; [eapply getZM_runs; [apply HP|apply HO|apply HO|exact HI']|]. intros a [dg' zb] h' _ [-> ->]. cbv beta iota.
  eapply runs_bind; [apply CalculatePubKeyM_runs; exact HE|]. intros pe vpe h4 K4 (Hpe & _). on. clear h3.
  eapply runs_bind; [eapply calculateUM_runs; eassumption|]. intros [ux uy] [x y] h5 K5 (Ix & Iy & _); cbn [fst snd] in Ix, Iy. on. clear h4. cbv beta iota.
  destruct init.
  - eapply runs_bind; [apply kdfForExchM_runs; [exact Ix|exact Iy]|]. intros [da rv] [db rl] h6 K6 [E1 FR]; cbn [fst snd] in E1, FR. subst da. on. clear h5. cbv beta iota.
    eapply runs_bind; [apply innerM_runs; [exact Ix|apply Hpe|apply Hpe|apply HQ|apply HQ]|]. intros a [dc ih] h' _ [-> ->]. cbv beta iota.
    eapply runs_bind; [unfold s1M, s1; apply confirmM_runs; exact Iy|]. intros [da t1] [dd l1] h7 K7 [E1 FT]; cbn [fst snd] in E1, FT. subst da. on. cbv beta iota. clear h6.
    eapply runs_read; [apply FT|].
    assert (ET : match tag with Some s => readAll s | None => retp [] end h7 = (Ret (contentsOf tagl), h7)).
    { destruct tag as [s|], tagl as [l|]; try (exfalso; exact HT); [|reflexivity]. destruct HT as (_ & _ & _ & HT). cbn [readAll run retp]. unfold view in HT. rewrite HT. reflexivity. }
    eapply runs_step; [exact ET|apply keeps_refl|intros j Hj; exact Hj|].
    destruct (list_eq_dec Z.eq_dec l1 (contentsOf tagl)); [|apply runs_ret; reflexivity].
    eapply runs_bind; [unfold s2M, s2; apply confirmM_runs; exact Iy|]. intros [da t2] [de l2] h8 K8 [E1 FU]; cbn [fst snd] in E1, FU. subst da.
    assert (ND : s_buf rv <> s_buf t2) by (destruct FR as ((A & _) & _), FU as (_ & _ & B); unfold new_slice in B; lia).
    on. cbv beta iota. apply runs_ret. split; [exact FR|]. split; [exact FU|]. split; [exact ND|exact I].
  - eapply runs_bind; [apply kdfForExchM_runs; [exact Ix|exact Iy]|]. intros [da rv] [db rl] h6 K6 [E1 FR]; cbn [fst snd] in E1, FR. subst da. on. clear h5. cbv beta iota.
    eapply runs_bind; [apply innerM_runs; [exact Ix|apply HQ|apply HQ|apply Hpe|apply Hpe]|]. intros a [dc ih] h' _ [-> ->]. cbv beta iota.
    eapply runs_bind; [unfold s1M, s1; apply confirmM_runs; exact Iy|]. intros [da t1] [dd l1] h7 K7 [E1 FT]; cbn [fst snd] in E1, FT. subst da.
    assert (N1 : s_buf t1 <> s_buf rv) by (destruct FR as ((A & _) & _), FT as (_ & _ & B); unfold new_slice in B; lia).
    on. cbv beta iota. clear h6.
    eapply runs_bind; [unfold s2M, s2; apply confirmM_runs; exact Iy|]. intros [da t2] [de l2] h8 K8 [E1 FU]; cbn [fst snd] in E1, FU. subst da.
    assert (ND : s_buf rv <> s_buf t2) by (destruct FR as ((A & _) & _), FU as (_ & _ & B); unfold new_slice in B; lia).
    assert (N2 : s_buf t1 <> s_buf t2) by (destruct FT as ((A & _) & _), FU as (_ & _ & B); unfold new_slice in B; lia).
    on. cbv beta iota. apply runs_ret. split; [exact FR|]. split; [exact FU|]. split; [exact ND|]. split; [exact FT|]. split; assumption.
Qed.

(** Whatever the keys, ids and tag share in memory, before or after, nothing of it changes; the outcome is the one on values, and the
    slices of the result are new, in buffers of their own. *)
Theorem C122_exchange : forall h g init kb tag tagl sp se sid sidl osp oep oid oidl d1 d2 q1 q2, globals_at h g ->
  priv_at h sp d1 -> priv_at h se d2 -> pub_at h osp q1 -> pub_at h oep q2 -> slot_at h tag tagl -> slot_at h sid sidl -> slot_at h oid oidl ->
  let r := CalculateKeyWithConfirmationM g init kb tag sp se sid osp oep oid h in
  unchanged h (snd r) /\
  agree (res1_at (exch_at h (snd r))) (fst r) (CalculateKeyWithConfirmation init kb tagl d1 d2 sidl q1 q2 oidl).
Proof.
  intros h g init kb tag tagl sp se sid sidl osp oep oid oidl d1 d2 q1 q2 H1 H2 H3 H4 H5 H6 H7 H8.
  exact (runs_agree _ _ _ _ _ _ (CalculateKeyM_runs h g init kb tag tagl sp se sid sidl osp oep oid oidl d1 d2 q1 q2 H1 H2 H3 H4 H5 H6 H7 H8)).
Qed.
(** The comparison of tags only reads. *)
Theorem C122_confirm : forall h a b la lb, slice_at h a la -> slice_at h b lb -> ResponderConfirmM a b h = (Ret (ResponderConfirm la lb), h).
Proof.
  intros h a b la lb (_ & _ & _ & A) (_ & _ & _ & B). unfold ResponderConfirmM. cbn [bindp readAll run retp]. unfold view in A, B. rewrite A, B. reflexivity.
Qed.

(** A state with much sharing: the static key is the cofactor's integer, the ephemeral key is the field prime's, the other side's static
    key is the base point in the curve's own integers and its ephemeral key is that point the wrong way round, both ids are the default user id's buffer. *)
Definition kx_g : globals := mkGlobals (mkCurve 1 2 3 4 5 6) 0 (mkSl 0 0 16 16).
Definition kx_h : heap := mkHeap [sm2H; curveP; curveA; curveB; curveN; curveGx; curveGy] [sm2SignDefaultUserId].
Definition kx_call (init : bool) (tag : option slice) : prog (res exchRef) :=
  CalculateKeyWithConfirmationM kx_g init 128 tag (mkPrivRef 0 (gCurve kx_g)) (mkPrivRef 1 (gCurve kx_g)) (Some (gId kx_g))
    (mkPubRef 5 6 (gCurve kx_g)) (mkPubRef 6 5 (gCurve kx_g)) (Some (gId kx_g)).
Example C122_ex_hyps : globals_at kx_h kx_g /\ priv_at kx_h (mkPrivRef 0 (gCurve kx_g)) (mkPriv 1) /\ priv_at kx_h (mkPrivRef 1 (gCurve kx_g)) (mkPriv curveP) /\
  pub_at kx_h (mkPubRef 5 6 (gCurve kx_g)) (mkPub curveGx curveGy) /\ pub_at kx_h (mkPubRef 6 5 (gCurve kx_g)) (mkPub curveGy curveGx) /\
  slot_at kx_h (Some (gId kx_g)) (Some sm2SignDefaultUserId) /\ slot_at kx_h None None.
Proof.
  assert (C : curve_at kx_h (gCurve kx_g)) by (repeat (split; [reflexivity|]); reflexivity).
  assert (S : slice_at kx_h (gId kx_g) sm2SignDefaultUserId) by (split; [cbn; lia|]; split; [cbn; lia|]; split; [cbn; lia|reflexivity]).
  split; [split; [exact C|split; [reflexivity|exact S]]|]. split; [split; [reflexivity|exact C]|]. split; [split; [reflexivity|exact C]|].
  split; [split; [reflexivity|split; [reflexivity|exact C]]|]. split; [split; [reflexivity|split; [reflexivity|exact C]]|]. split; [exact S|exact I].
Qed.
Example C122_ex_error : kx_call true None kx_h = (Ret (ERR "if initiating, confirmationTag must be set"), kx_h).
Proof. reflexivity. Qed.
(** The parts that write: a key of 100 bits fills a new buffer of 13 bytes, not the 16 bytes used on the way; a tag is a third one. *)
Example C122_ex_parts : fst (run (mem (d, k) <- kdfForExchM New 5 6 [1] [2] 100; mem (d, t) <- s1M d 6 [3]; retp (k, t)) kx_h) = Ret (mkSl 2 0 13 13, mkSl 3 0 32 32) /\
  map (@List.length Z) (bufs (snd (run (mem (d, k) <- kdfForExchM New 5 6 [1] [2] 100; mem (d, t) <- s1M d 6 [3]; retp (k, t)) kx_h))) = [16; 16; 13; 32]%nat /\
  fst (kdfForExchM New 5 6 [1] [2] 129 kx_h) = Panic PSlice.
Proof. split; [vm_compute; reflexivity|]. split; vm_compute; reflexivity. Qed.
