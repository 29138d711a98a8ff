(** Property C125: CBC and padding in goroutines. CBC may be used on shared keys, ivs and messages; padding writes behind the
    message, so that it may be used on messages that nothing else of use lies behind. *)
From Coq Require Import ZArith List Lia Bool String Arith.
From Verif Require Import GoBase ConcMem Sm3 Sm4 Sm4Spec Sm4Proofs Util PropsSm4Util SmConc SmConcAlone PropsSmConc SmConcMode SmConcModeAlone.
Import ListNotations.
Open Scope Z_scope.

(** * Statements *)
(** Which memory a call is documented here to read, and to write, of what existed before it. *)
Definition padLen (src : cslice) (blockSize : Z) : nat := Z.to_nat (blockSize - Z.of_nat (s_len src) mod blockSize).
Definition readsM (c : mcall) (a : loc) : Prop :=
  match c with
  | MOld c => readsOf c a
  | MCbc _ key iv inp => window key 0 (s_len key) a \/ window iv 0 (s_len iv) a \/ window inp 0 (s_len inp) a
  | MPad _ src _ => window src 0 (s_len src) a
  | MUnpad src => window src (s_len src - 1) (s_len src) a
  | MUnzero _ _ => False
  end.
Definition writesM (c : mcall) (a : loc) : Prop :=
  match c with
  | MOld c => writesOf c a
  | MPad _ src b => 1 <= b /\ (s_len src + padLen src b <= s_cap src)%nat /\ window src (s_len src) (s_len src + padLen src b) a
  | _ => False
  end.
Definition readsMG (cs : list mcall) (a : loc) : Prop := owner (blk a) = O /\ exists c, In c cs /\ readsM c a.
Definition writesMG (cs : list mcall) (a : loc) : Prop := owner (blk a) = O /\ exists c, In c cs /\ writesM c a.
Definition legalM (g : nat) (cs : list mcall) : Prop :=
  forall c a, In c cs -> readsM c a \/ writesM c a -> owner (blk a) = O \/ owner (blk a) = S g.
(** No goroutine writes what another reads or writes. *)
Definition apartM (gs : list (list mcall)) : Prop :=
  forall g h cs cs' a, g <> h -> nth_error gs g = Some cs -> nth_error gs h = Some cs' -> writesMG cs a -> ~ readsMG cs' a /\ ~ writesMG cs' a.
Definition properM (gs : list (list mcall)) : Prop := apartM gs /\ forall g cs, nth_error gs g = Some cs -> legalM g cs.
Definition togetherM (sched : list nat) (s : memory) (gs : list (list mcall)) := interleave sched s (start (map goroutineM gs)).

(** * Every call keeps to its memory *)
Section Inside.
Variables (g : nat) (R W : loc -> Prop).
Notation ins := (inside g R W).
Notation see := (sees g R W).
Notation sees16 s := (seesS g R W s 16).
Notation may16 s := (mayS g W s 16).
Ltac go := first [apply ins_ret|apply ins_panic|apply inside_bind; [|intro]].
Lemma own16 : forall b o k l, owner b = S g -> mayS g W (mkCs b o k l) 16.
Proof. intros b o k l H i _. right. exact H. Qed.
Lemma ins_xor : forall dst a b, may16 dst -> sees16 a -> sees16 b -> ins (xorP dst a b).
Proof.
  intros dst a b HD HA HB. unfold xorP. eapply inside_bindQ; [apply ins_rdN; exact HA|apply ret_rdN|]. intros x Hx. eapply inside_bindQ; [apply ins_rdN; exact HB|apply ret_rdN|]. intros y Hy.
  cbv beta in Hx, Hy. apply ins_wrL. rewrite map_length, combine_length, Hx, Hy. exact HD.
Qed.
Lemma may_sees : forall s k, mayS g W s k -> seesS g R W s k.
Proof. intros s k H i Hi. apply may_see, H. exact Hi. Qed.
Lemma win_may : forall s n i, mayS g W s n -> (i + 16 <= n)%nat -> may16 (windowP s i).
Proof. intros s n i H L j Hj. apply H. cbn in Hj. lia. Qed.
Lemma win_see : forall s n i, seesS g R W s n -> (i + 16 <= n)%nat -> sees16 (windowP s i).
Proof. intros s n i H L j Hj. apply H. cbn in Hj. lia. Qed.
Lemma ins_cbcEnc : forall c n i dst src iv, (forall j, see (mkLoc (cEnc c) j)) -> mayS g W dst (i + 16 * n) -> seesS g R W src (i + 16 * n) -> sees16 iv ->
  ins (cbcEncP c n i dst src iv).
Proof.
  intros c n. induction n as [|n IH]; intros i dst src iv HK HD HS HV; cbn [cbcEncP]; [go|].
  assert (D : may16 (windowP dst i)) by (eapply win_may; [exact HD|lia]).
  go; [apply ins_xor; [exact D|eapply win_see; [exact HS|lia]|exact HV]|].
  go; [apply ins_crypt; [exact HK|apply may_sees, D|exact D]|].
  apply IH; [exact HK| | |apply may_sees, D]; intros j Hj; [apply HD|apply HS]; lia.
Qed.
Lemma ret_cbcEnc : forall c n i dst src iv, own g (s_blk dst) -> own g (s_blk iv) -> returns g (fun s => own g (s_blk s)) (cbcEncP c n i dst src iv).
Proof.
  intros c n. induction n as [|n IH]; intros i dst src iv HD HV; cbn [cbcEncP]; [exact HV|].
  eapply returns_bind; [apply returns_any|]. intros x _. eapply returns_bind; [apply returns_any|]. intros y _. apply IH; [exact HD|exact HD].
Qed.
Lemma ins_cbcDec : forall c k dst src iv, (forall j, see (mkLoc (cDec c) j)) -> mayS g W dst (16 * k) -> seesS g R W src (16 * k) -> sees16 iv ->
  ins (cbcDecP c k dst src iv).
Proof.
  intros c k. induction k as [|m IH]; intros dst src iv HK HD HS HV; cbn [cbcDecP]; [go|].
  assert (D : may16 (windowP dst (16 * m))) by (eapply win_may; [exact HD|lia]).
  go; [apply ins_crypt; [exact HK|eapply win_see; [exact HS|lia]|exact D]|].
  go; [apply ins_xor; [exact D|apply may_sees, D|destruct m; [exact HV|eapply win_see; [exact HS|lia]]]|].
  apply IH; [exact HK| | |exact HV]; intros j Hj; [apply HD|apply HS]; lia.
Qed.
Lemma ins_cbcCall : forall e key iv inp, seesS g R W key (s_len key) -> seesS g R W iv (s_len iv) -> seesS g R W inp (s_len inp) -> ins (cbcCallP e key iv inp).
Proof.
  intros e key iv inp HK HV HI. unfold cbcCallP. destruct (Z.eqb_spec (Z.of_nat (s_len inp) mod BlockSize) 0) as [E|E]; cbn [negb]; [|go].
  assert (L : s_len inp = (16 * (s_len inp / 16))%nat).
  { unfold BlockSize in E. rewrite (Nat.div_mod (s_len inp) 16) at 1 by lia. change 16 with (Z.of_nat 16) in E. rewrite <- Nat2Z.inj_mod in E by lia. lia. }
  eapply inside_bindQ; [apply ins_NewCipher, HK|apply ret_NewCipher|]. intros [c|er] HC; [|go].
  destruct (Z.eqb_spec (Z.of_nat (s_len iv)) BlockSize) as [EV|EV]; cbn [negb]; [|go]. unfold BlockSize in EV.
  destruct HC as [H1 H2].
  go; [apply ins_rdN; intros i Hi; apply HV; lia|]. intros n1 n2 n3. cbv zeta.
  go; [|go]. set (out := mkCs _ 0 (s_len inp) (s_len inp)).
  assert (HO : forall k, mayS g W out k) by (intros k i _; right; reflexivity).
  assert (Sv : sees16 (mkCs (mkBlock (S g) n1) 0 16 16)) by (apply may_sees, own16; reflexivity).
  destruct e.
  - unfold cbcEncRunP. eapply inside_bindQ; [apply ins_cbcEnc|apply ret_cbcEnc|].
    + intro j. apply may_see, own_may. exact H1.
    + apply HO.
    + rewrite Nat.add_0_l, <- L. exact HI.
    + exact Sv.
    + reflexivity.
    + reflexivity.
    + intros last HL. cbv beta in HL. eapply inside_bindQ; [apply ins_rdN; intros i _; apply may_see, own_may; exact HL|apply ret_rdN|].
      intros l _. apply ins_wrL. intros i _. right. reflexivity.
  - unfold cbcDecRunP. destruct (Nat.eqb_spec (s_len inp) 0) as [Z|NZ]; [go|].
    go; [apply ins_rdN; intros i Hi; apply HI; lia|]. go; [apply ins_wrL; intros i _; right; reflexivity|].
    apply ins_cbcDec; [intro j; apply may_see, own_may; exact H2|apply HO|rewrite <- L; exact HI|exact Sv].
Qed.
Lemma padLen_pos : forall src b, 1 <= b -> repeatByte 0 (b - Z.of_nat (s_len src) mod b) = Ret (repeat 0 (padLen src b)) /\
  forall x, repeatByte x (b - Z.of_nat (s_len src) mod b) = Ret (repeat x (padLen src b)).
Proof.
  intros src b Hb. assert (Q := Z.mod_pos_bound (Z.of_nat (s_len src)) b ltac:(lia)). split; [|intro x]; apply repeatByte_ok; lia.
Qed.
Definition padBytes (zero : bool) (src : cslice) (b : Z) : list Z := repeat (if zero then 0 else Z.of_nat (padLen src b) mod 256) (padLen src b).
(** What padding does, for positive block sizes and for others. *)
Lemma padCall_pos : forall zero src b, 1 <= b -> padCallP zero src b =
  Alloc (padBytes zero src b) (fun t => par l <- rdN (List.length (padBytes zero src b)) t 0; appendP src l).
Proof.
  intros zero src b Hb. assert (Q := Z.mod_pos_bound (Z.of_nat (s_len src)) b ltac:(lia)). unfold padCallP. rewrite go_rem_ok by lia. cbn [bindc]. cbv zeta.
  rewrite (proj2 (padLen_pos src b Hb)). cbn [bindc]. unfold padBytes. replace (Z.of_nat (padLen src b)) with (b - Z.of_nat (s_len src) mod b) by (unfold padLen; lia). reflexivity.
Qed.
Lemma padCall_neg : forall zero src b, b <= 0 -> exists e, padCallP zero src b = panic e.
Proof.
  intros zero src b Hb. unfold padCallP, go_rem. destruct (Z.eqb_spec b 0) as [->|N]; [eexists; reflexivity|]. cbn [bindc]. cbv zeta. unfold repeatByte.
  assert (Q := Z.rem_nonneg (Z.of_nat (s_len src)) b N ltac:(lia)). destruct (Z.ltb_spec (b - Z.rem (Z.of_nat (s_len src)) b) 0); [eexists; reflexivity|lia].
Qed.
Lemma ins_executeM : forall c, (forall a, readsM c a -> see a) -> (forall a, writesM c a -> may g W a) -> ins (executeM c).
Proof.
  intros c HR HW. destruct c as [c|e key iv inp|zero src b|src|src n]; cbn [readsM writesM executeM] in *.
  - apply ins_execute; assumption.
  - go; [|go]. apply ins_cbcCall; intros i Hi; apply HR; [left|right; left|right; right]; (split; [reflexivity|cbn; lia]).
  - go; [|go]. destruct (Z.lt_ge_cases b 1) as [B|B]; [destruct (padCall_neg zero src b ltac:(lia)) as (e & ->); go|]. rewrite padCall_pos by exact B.
    intro n. eapply inside_bindQ; [apply ins_rdN; intros i _; apply may_see, own_may; reflexivity|apply ret_rdN|]. intros l Hl. cbv beta in Hl.
    unfold padBytes in Hl. rewrite repeat_length in Hl. apply ins_append; [intros i Hi; apply HR; split; [reflexivity|cbn; lia]|]. rewrite Hl.
    intros L i Hi. apply HW. split; [exact B|]. split; [exact L|]. split; [reflexivity|cbn; lia].
  - go; [|go]. unfold unpadCallP. destruct (Nat.eqb_spec (s_len src) 0) as [Z|NZ]; [go|]. go; [apply inside_rd, HR; split; [reflexivity|cbn; lia]|].
    unfold cutP. destruct (_ && _); go.
  - go; [|go]. unfold unzeroCallP, cutP. destruct (_ && _); go.
Qed.
End Inside.

(** * Goroutines *)
Lemma ins_goroutineM : forall g cs0 cs, legalM g cs0 -> incl cs cs0 -> inside g (readsMG cs0) (writesMG cs0) (goroutineM cs).
Proof.
  intros g cs0 cs L. induction cs as [|c cs IH]; intro H; cbn [goroutineM]; [exact I|].
  assert (C : In c cs0) by (apply H; left; reflexivity).
  apply inside_bind; [|intro a; apply inside_bind; [apply IH; intros x Hx; apply H; right; exact Hx|intro l; exact I]].
  apply ins_executeM.
  - intros a Ha. destruct (L c a C (or_introl Ha)) as [O|O]; [left; split; [exact O|]; exists c; auto|right; right; exact O].
  - intros a Ha. destruct (L c a C (or_intror Ha)) as [O|O]; [left; split; [exact O|]; exists c; auto|right; exact O].
Qed.
Definition RM (gs : list (list mcall)) (g : nat) (a : loc) : Prop := match nth_error gs g with Some cs => readsMG cs a | None => False end.
Definition WM (gs : list (list mcall)) (g : nat) (a : loc) : Prop := match nth_error gs g with Some cs => writesMG cs a | None => False end.
Lemma m_shared : forall gs g a, RM gs g a \/ WM gs g a -> owner (blk a) = O.
Proof. intros gs g a. unfold RM, WM. destruct (nth_error gs g) as [cs|]; [|intros [[]|[]]]. intros [[H _]|[H _]]; exact H. Qed.
Lemma m_apart : forall gs, apartM gs -> forall g h a, g <> h -> WM gs g a -> ~ RM gs h a /\ ~ WM gs h a.
Proof.
  intros gs H g h a N. unfold RM, WM. destruct (nth_error gs g) as [cs|] eqn:E; [|intros []].
  destruct (nth_error gs h) as [cs'|] eqn:E'; [|tauto]. exact (H g h cs cs' a N E E').
Qed.
Lemma m_ins : forall gs, properM gs -> forall g m, nth_error (map goroutineM gs) g = Some m -> inside g (RM gs g) (WM gs g) m.
Proof.
  intros gs [_ L] g m H. rewrite nth_error_map in H. unfold RM, WM. destruct (nth_error gs g) as [cs|] eqn:E; [|discriminate H]. injection H as <-.
  apply ins_goroutineM; [apply L, E|apply incl_refl].
Qed.
Lemma togetherM_ok : forall gs sched s tr sf tf, properM gs -> togetherM sched s gs = (tr, sf, tf) ->
  world (list answer) (RM gs) (WM gs) (map goroutineM gs) s sf tf /\
  forall g x, In (g, x) tr -> lawful (RM gs) (WM gs) g x /\ (g < List.length gs)%nat.
Proof.
  intros gs sched s tr sf tf P E. rewrite <- (map_length goroutineM gs).
  apply (interleave_ok _ _ _ (m_shared gs) (m_apart gs (proj1 P)) _ s sched s (start (map goroutineM gs)) tr sf tf); [|exact E].
  apply world_start. apply m_ins, P.
Qed.
(** A goroutine that has ended has the answers, or the panic, that it has when it runs alone, and all memory that it could read or
    write holds what it then holds. *)
Theorem C125_same : forall gs sched s tr sf tf g cs o n, properM gs -> togetherM sched s gs = (tr, sf, tf) ->
  nth_error gs g = Some cs -> nth_error tf g = Some (mkThread (Done o) n) ->
  exists s', alone g 0 (goroutineM cs) s = (n, o, s') /\ forall a, readsMG cs a \/ writesMG cs a \/ owner (blk a) = S g -> sf a = s' a.
Proof.
  intros gs sched s tr sf tf g cs o n P E Eg Et. destruct (togetherM_ok gs sched s tr sf tf P E) as [(_ & T & _) _].
  destruct (T g _ Et) as (_ & m & Em & E1 & E2). cbn [code made alone fst snd] in *.
  rewrite nth_error_map, Eg in Em. cbn in Em. assert (m = goroutineM cs) as -> by congruence.
  destruct (alone g 0 (goroutineM cs) s) as [[n' o'] s'] eqn:Ea. cbn [fst snd] in *. exists s'. assert (n = n') as <- by congruence. assert (o = o') as <- by congruence.
  split; [reflexivity|]. intros a Ha. apply E2. destruct Ha as [Ha|[Ha|Ha]]; [left; unfold RM; rewrite Eg; exact Ha|right; left; unfold WM; rewrite Eg; exact Ha|right; right; exact Ha].
Qed.
(** No two goroutines touch the same cell unless both read. *)
Theorem C125_no_race : forall gs sched s tr sf tf g h x y a, properM gs -> togetherM sched s gs = (tr, sf, tf) ->
  In (g, x) tr -> In (h, y) tr -> g <> h -> touches x a -> touches y a -> ~ writes x /\ ~ writes y.
Proof.
  intros gs sched s tr sf tf g h x y a P E Ix Iy N Tx Ty. destruct (togetherM_ok gs sched s tr sf tf P E) as [_ L].
  destruct (proj1 (L g x Ix) a Tx) as [Sx Wx]. destruct (proj1 (L h y Iy) a Ty) as [Sy Wy].
  assert (U := unseen (RM gs) (WM gs) (m_shared gs) (m_apart gs (proj1 P))).
  split; intro Q; [exact (U g h a N (Wx Q) Sy)|exact (U h g a (not_eq_sym N) (Wy Q) Sx)].
Qed.
(** What no call is said to write is unchanged. *)
Theorem C125_unchanged : forall gs sched s tr sf tf a, properM gs -> togetherM sched s gs = (tr, sf, tf) ->
  owner (blk a) = O -> (forall cs, In cs gs -> ~ writesMG cs a) -> sf a = s a.
Proof.
  intros gs sched s tr sf tf a P E O N. destruct (togetherM_ok gs sched s tr sf tf P E) as [(_ & _ & F) _].
  apply F; [exact O|]. intros g _. unfold WM. destruct (nth_error gs g) as [cs|] eqn:Eg; [|tauto]. apply N. exact (nth_error_In _ _ Eg).
Qed.
(** However the others run, a goroutine ends within as many turns as it takes alone. *)
Theorem C125_finishes : forall gs sched s tr sf tf g cs, properM gs -> togetherM sched s gs = (tr, sf, tf) ->
  nth_error gs g = Some cs -> (turns g 0 (goroutineM cs) s <= count_occ Nat.eq_dec sched g)%nat ->
  exists n o, nth_error tf g = Some (mkThread (Done o) n).
Proof.
  intros gs sched s tr sf tf g cs P E Eg C.
  apply (finishing _ _ _ (m_shared gs) (m_apart gs (proj1 P)) (map goroutineM gs) s sched s (start (map goroutineM gs)) tr sf tf g (mkThread (goroutineM cs) 0)); [|exact E| |exact C].
  - apply world_start. apply m_ins, P.
  - unfold start. rewrite map_map, nth_error_map, Eg. reflexivity.
Qed.

(** Calls that never write what was there before, whoever else uses it: all but Encrypt, Decrypt, the methods of digests, and padding of a
    slice that has room behind it. *)
Definition harmless (c : mcall) : Prop :=
  match c with
  | MOld (CNewCipher _) | MOld (CEcb _ _ _) | MOld CNewDigest | MOld (CSumOf _) => True
  | MOld _ => False
  | MPad _ src b => (s_cap src < s_len src + padLen src b)%nat \/ b <= 0
  | _ => True
  end.
Definition slicesOf (c : mcall) : list cslice :=
  match c with
  | MOld (CNewCipher k) => [k] | MOld (CEcb _ k i) => [k; i] | MOld (CSumOf p) => [p] | MOld _ => []
  | MCbc _ k v i => [k; v; i] | MPad _ p _ => [p] | MUnpad p => [p] | MUnzero p _ => [p]
  end.
Theorem C125_harmless : forall gs, (forall cs c, In cs gs -> In c cs -> harmless c /\ Forall (fun p => owner (s_blk p) = O) (slicesOf c)) ->
  properM gs /\ forall sched s tr sf tf a, togetherM sched s gs = (tr, sf, tf) -> owner (blk a) = O -> sf a = s a.
Proof.
  intros gs H. assert (NW : forall cs c a, In cs gs -> In c cs -> ~ writesM c a).
  { intros cs c a I1 I2 Wc. destruct (H cs c I1 I2) as [Hc _]. destruct c as [[]| |zero src b| |]; cbn in Hc, Wc; try contradiction. lia. }
  assert (P : properM gs).
  { split.
    - intros g h cs cs' a N Eg Eh (_ & c & I2 & Wc). exfalso. exact (NW cs c a (nth_error_In _ _ Eg) I2 Wc).
    - intros g cs Eg c a I2 [Rc|Wc]; [|exfalso; exact (NW cs c a (nth_error_In _ _ Eg) I2 Wc)]. left. destruct (H cs c (nth_error_In _ _ Eg) I2) as [Hc Fc].
      rewrite Forall_forall in Fc.
      assert (Q : exists p lo hi, In p (slicesOf c) /\ window p lo hi a).
      { destruct c as [[]| |zero src b| |]; cbn in Hc, Rc; try contradiction; cbn [slicesOf].
        - do 3 eexists. split; [left; reflexivity|exact Rc].
        - destruct Rc as [Rc|Rc]; do 3 eexists; (split; [|exact Rc]); [left|right; left]; reflexivity.
        - do 3 eexists. split; [left; reflexivity|exact Rc].
        - destruct Rc as [Rc|[Rc|Rc]]; do 3 eexists; (split; [|exact Rc]); [left|right; left|right; right; left]; reflexivity.
        - do 3 eexists. split; [left; reflexivity|exact Rc].
        - do 3 eexists. split; [left; reflexivity|exact Rc]. }
      destruct Q as (p & lo & hi & Ip & [-> _]). apply Fc. exact Ip. }
  split; [exact P|]. intros sched s tr sf tf a T O. apply (C125_unchanged gs sched s tr sf tf a P T O). intros cs I1 (_ & c & I2 & Wc). exact (NW cs c a I1 I2 Wc).
Qed.

(** * What the goroutines get *)
Lemma alone_oneM : forall g c n s n1 a s1, alone g n (executeM c) s = (n1, Ret a, s1) -> alone g n (goroutineM [c]) s = (n1, Ret [a], s1).
Proof. intros g c n s n1 a s1 E. cbn [goroutineM]. rewrite alone_bind, E. reflexivity. Qed.
Lemma alone_twoM : forall g c1 c2 n s n1 a1 s1 n2 a2 s2, alone g n (executeM c1) s = (n1, Ret a1, s1) -> alone g n1 (executeM c2) s1 = (n2, Ret a2, s2) ->
  alone g n (goroutineM [c1; c2]) s = (n2, Ret [a1; a2], s2).
Proof. intros. cbn [goroutineM]. rewrite alone_bind, H, alone_bind, alone_bind, H0. reflexivity. Qed.
Lemma known0 : forall g n b, owner b = O -> known g n b.
Proof. intros g n b H Q. rewrite H in Q. discriminate Q. Qed.
(** CBC as the standard defines it, block by block. *)
Definition isCbc (e : bool) (key iv inp out : list Z) : Prop :=
  zlen out = zlen inp /\ forall i, 0 <= i < zlen inp / 16 ->
    if e then Sm4Spec.block out i = sm4_enc key (xor_bytes (Sm4Spec.block inp i) (if i =? 0 then iv else Sm4Spec.block out (i - 1)))
    else Sm4Spec.block out i = xor_bytes (sm4_dec key (Sm4Spec.block inp i)) (if i =? 0 then iv else Sm4Spec.block inp (i - 1)).
Opaque sm4_enc sm4_dec xor_bytes.
Lemma isCbc_spec : forall e key iv bs, zlen iv = 16 -> Forall is_block bs -> isCbc e key iv (List.concat bs) (List.concat (cbcSpec e key iv bs)).
Proof.
  intros e key iv bs Hiv F. assert (Ln := concat_blocks_len bs F). assert (Ld : zlen (List.concat bs) / 16 = zlen bs) by (rewrite Ln, Z.mul_comm; apply Z.div_mul; lia).
  unfold isCbc. rewrite Ld. destruct e; cbn [cbcSpec].
  - destruct (cbc_enc_shape key bs iv) as [S1 S2]. rewrite !concat_blocks_len, S2 by auto. split; [reflexivity|]. intros i Hi.
    rewrite (block_concat (cbc_enc _ _ _)) by (auto; lia). rewrite (block_concat bs) by auto. rewrite cbc_enc_nth by (unfold zlen in Hi; lia). f_equal. f_equal.
    destruct (Z.eqb_spec i 0) as [->|N]; [reflexivity|]. rewrite block_concat by (auto; lia). replace (Z.to_nat i) with (S (Z.to_nat (i - 1))) by lia. reflexivity.
  - destruct (cbc_dec_blocks key bs iv Hiv F) as [S1 S2]. rewrite !concat_blocks_len, S2 by auto. split; [reflexivity|]. intros i Hi.
    rewrite (block_concat (cbc_dec _ _ _)) by (auto; lia). rewrite (block_concat bs) by auto. rewrite cbc_dec_nth by (unfold zlen in Hi; lia). f_equal.
    destruct (Z.eqb_spec i 0) as [->|N]; [reflexivity|]. rewrite block_concat by (auto; lia). replace (Z.to_nat i) with (S (Z.to_nat (i - 1))) by lia. reflexivity.
Qed.
Lemma contents_len : forall s p, zlen (contents s p) = Z.of_nat (s_len p).
Proof. intros s p. unfold zlen, contents. rewrite loadN_length. reflexivity. Qed.
(** CBC with a key, an iv and a message that others may be reading too. *)
Theorem C125_cbc : forall gs sched s tr sf tf g e key iv inp o n, properM gs -> togetherM sched s gs = (tr, sf, tf) ->
  nth_error gs g = Some [MCbc e key iv inp] -> nth_error tf g = Some (mkThread (Done o) n) ->
  s_len key = 16%nat -> s_len iv = 16%nat -> (s_len inp mod 16 = 0)%nat ->
  owner (s_blk key) = O -> owner (s_blk iv) = O -> owner (s_blk inp) = O ->
  exists out, o = Ret [ABytes (Ok out)] /\ owner (s_blk out) = S g /\ isCbc e (contents s key) (contents s iv) (contents s inp) (contents sf out).
Proof.
  intros gs sched s tr sf tf g e key iv inp o n P T Eg Et Lk Lv Li O1 O2 O3. destruct (C125_same gs sched s tr sf tf g _ o n P T Eg Et) as (s' & E & Q).
  destruct (blocks_of (contents s inp)) as (bs & Eb & B & _). { rewrite contents_len. change 16 with (Z.of_nat 16). rewrite <- Nat2Z.inj_mod, Li by lia. reflexivity. }
  destruct (alone_cbcCall g 0 e key iv inp bs s Lk Lv) as (s2 & E2 & C2 & _); try (apply known0; assumption); try assumption.
  assert (E3 := alone_oneM g (MCbc e key iv inp) _ _ _ _ _ (alone_do g 0 _ _ _ ABytes _ _ _ _ E2)). rewrite E in E3. assert (s' = s2) by congruence. subst s2.
  eexists. split; [assert (X : o = _) by (injection E3; intros; eassumption || (symmetry; eassumption)); exact X|]. split; [reflexivity|].
  replace (contents sf _) with (List.concat (cbcSpec e (contents s key) (contents s iv) bs)).
  - rewrite Eb. apply isCbc_spec; [rewrite contents_len, Lv; reflexivity|exact B].
  - rewrite <- C2. apply load_ext. intros i _. symmetry. apply Q. right. right. reflexivity.
Qed.
(** Padding: the message and, behind it, as many bytes as are missing to the next multiple, each of them that number or zero. In the
    caller's array if there is room, else in a new one. *)
Lemma alone_pad : forall g n zero src b s, 1 <= b -> known g n (s_blk src) -> exists n' out s', alone g n (padCallP zero src b) s = (n', Ret out, s') /\
  contents s' out = contents s src ++ padBytes zero src b /\ s_len out = (s_len src + padLen src b)%nat /\
  ((s_len src + padLen src b <= s_cap src)%nat -> n' = S n /\ s_blk out = s_blk src /\ s_off out = s_off src /\ s_cap out = s_cap src) /\
  ((s_cap src < s_len src + padLen src b)%nat -> n' = S (S n) /\ out = mkCs (mkBlock (S g) (S n)) 0 (s_len src + padLen src b) (s_len src + padLen src b) /\
     forall a, known g n (blk a) -> s' a = s a).
Proof.
  intros g n zero src b s Hb K. rewrite padCall_pos by exact Hb. rewrite alone_alloc, alone_bind, alone_rdN.
  set (t := mkBlock (S g) n). set (pb := padBytes zero src b). assert (Lp : List.length pb = padLen src b) by apply repeat_length.
  set (s1 := fill s t pb). assert (E1 : loadN s1 t 0 (List.length pb) = pb).
  { apply (list_ext _ _ (List.length pb)); [apply loadN_length|reflexivity|]. intros i Hi. rewrite loadN_nth by exact Hi. apply fill_same. }
  assert (O1 : forall a, known g n (blk a) -> s1 a = s a). { intros a Ka. apply fill_other. intro Q. rewrite Q in Ka. specialize (Ka eq_refl). cbn in Ka. lia. }
  rewrite E1. destruct (alone_append g (S n) src pb s1) as (n' & out & s' & E & C & A1 & A2 & F). rewrite Lp in *.
  exists n', out, s'. split; [exact E|]. split.
  { rewrite C. f_equal. apply load_ext. intros i _. apply O1. exact K. }
  destruct (Nat.lt_ge_cases (s_cap src) (s_len src + padLen src b)) as [L|L].
  - destruct (A2 L) as [-> ->]. split; [reflexivity|]. split; [lia|]. intros _. split; [reflexivity|]. split; [reflexivity|]. intros a Ka. rewrite F; [apply O1; exact Ka| |lia].
    apply (known_mono g n); [exact Ka|lia].
  - destruct (A1 L) as [-> ->]. split; [reflexivity|]. split; [auto|lia].
Qed.
Theorem C125_pad : forall gs sched s tr sf tf g zero src b o n, properM gs -> togetherM sched s gs = (tr, sf, tf) ->
  nth_error gs g = Some [MPad zero src b] -> nth_error tf g = Some (mkThread (Done o) n) -> 1 <= b -> owner (s_blk src) = O ->
  exists out p, o = Ret [ABytes (Ok out)] /\ contents sf out = contents s src ++ p /\ 1 <= zlen p <= b /\ (zlen (contents s src) + zlen p) mod b = 0 /\
    Forall (fun x => x = if zero then 0 else zlen p mod 256) p /\
    (s_blk out = s_blk src <-> Z.of_nat (s_len src) + zlen p <= Z.of_nat (s_cap src)).
Proof.
  intros gs sched s tr sf tf g zero src b o n P T Eg Et Hb O. destruct (C125_same gs sched s tr sf tf g _ o n P T Eg Et) as (s' & E & Q).
  destruct (alone_pad g 0 zero src b s Hb (known0 g 0 _ O)) as (n2 & out & s2 & E2 & C & L & A1 & A2).
  assert (E3 := alone_oneM g (MPad zero src b) _ _ _ _ _ (alone_do g 0 _ _ _ (fun x => ABytes (Ok x)) _ _ _ _ E2)). rewrite E in E3. assert (s' = s2) by congruence. subst s2.
  exists out, (padBytes zero src b). split; [congruence|].
  assert (M := Z.mod_pos_bound (Z.of_nat (s_len src)) b ltac:(lia)).
  assert (Lp : zlen (padBytes zero src b) = b - Z.of_nat (s_len src) mod b) by (unfold zlen, padBytes; rewrite repeat_length; unfold padLen; lia).
  assert (Lz : zlen (padBytes zero src b) = Z.of_nat (padLen src b)) by (unfold zlen, padBytes; rewrite repeat_length; reflexivity).
  split.
  { rewrite <- C. apply load_ext. intros i Hi. apply Q. rewrite L in Hi. destruct (Nat.lt_ge_cases (s_cap src) (s_len src + padLen src b)) as [G|G].
    - destruct (A2 G) as (_ & -> & _). right. right. reflexivity.
    - destruct (A1 G) as (_ & B1 & B2 & _). rewrite B1, B2 in *. destruct (Nat.lt_ge_cases i (s_off src + s_len src)) as [D|D]; [left|right; left]; (split; [exact O|]); exists (MPad zero src b); (split; [left; reflexivity|]).
      + split; [reflexivity|cbn; lia].
      + split; [exact Hb|]. split; [exact G|]. split; [reflexivity|cbn; lia]. }
  split; [lia|]. split.
  { rewrite contents_len, Lp. replace (Z.of_nat (s_len src) + (b - Z.of_nat (s_len src) mod b)) with ((Z.of_nat (s_len src) / b + 1) * b); [apply Z.mod_mul; lia|].
    pose proof (Z.div_mod (Z.of_nat (s_len src)) b). lia. }
  split; [apply Forall_forall; intros x Hx; apply repeat_spec in Hx; rewrite Lz; exact Hx|]. rewrite Lz. split.
  - intro B1. destruct (Nat.lt_ge_cases (s_cap src) (s_len src + padLen src b)) as [G|G]; [|lia]. destruct (A2 G) as (_ & -> & _). cbn in B1. rewrite <- B1 in O. discriminate O.
  - intro G. apply A1. lia.
Qed.
(** Removing padding only reads one byte: the result is a part of the same array. *)
Theorem C125_unpad : forall gs sched s tr sf tf g src o n, properM gs -> togetherM sched s gs = (tr, sf, tf) ->
  nth_error gs g = Some [MUnpad src] -> nth_error tf g = Some (mkThread (Done o) n) -> (0 < s_len src <= s_cap src)%nat ->
  let u := last (contents s src) 0 in 0 <= u ->
  o = if u <=? Z.of_nat (s_len src) then Ret [ABytes (Ok (mkCs (s_blk src) (s_off src) (s_len src - Z.to_nat u) (s_cap src)))] else Panic PSlice.
Proof.
  intros gs sched s tr sf tf g src o n P T Eg Et L u Hu. destruct (C125_same gs sched s tr sf tf g _ o n P T Eg Et) as (s' & E & _).
  assert (U : s (cell src (s_len src - 1)) = u).
  { unfold u, contents. replace (s_len src) with ((s_len src - 1) + 1)%nat at 2 by lia. rewrite loadN_app. cbn [loadN seq map]. rewrite last_last. reflexivity. }
  cbn [goroutineM executeM] in E. unfold unpadCallP in E. destruct (Nat.eqb_spec (s_len src) 0) as [Z|NZ]; [lia|]. rewrite !alone_bind in E. rewrite alone_rd in E. rewrite U in E. unfold cutP in E.
  destruct (Z.leb_spec u (Z.of_nat (s_len src))) as [G|G].
  - destruct (Z.leb_spec 0 (Z.of_nat (s_len src) - u)); [|lia]. destruct (Z.leb_spec (Z.of_nat (s_len src) - u) (Z.of_nat (s_cap src))); [|lia]. cbn in E.
    replace (s_len src - Z.to_nat u)%nat with (Z.to_nat (Z.of_nat (s_len src) - u)) by lia. congruence.
  - destruct (Z.leb_spec 0 (Z.of_nat (s_len src) - u)); [lia|]. cbn in E. congruence.
Qed.

(** ** A message padded and encrypted, decrypted and unpadded *)
Lemma isCbc_unique : forall key iv bs out, zlen iv = 16 -> Forall is_block bs -> isCbc true key iv (List.concat bs) out -> out = List.concat (cbc_enc (sm4_enc key) iv bs).
Proof.
  intros key iv bs out Hiv F [Lo H]. assert (Ln := concat_blocks_len bs F). assert (Ld : zlen (List.concat bs) / 16 = zlen bs) by (rewrite Ln, Z.mul_comm; apply Z.div_mul; lia).
  rewrite Ld in H. destruct (blocks_of out) as (cs & -> & G & Lc). { rewrite Lo, Ln, Z.mul_comm. apply Z.mod_mul. lia. }
  rewrite concat_blocks_len in Lo by exact G. rewrite Ln in Lo. destruct (cbc_enc_shape key bs iv) as [S1 S2]. f_equal. apply (nth_ext _ _ [] []); [unfold zlen in *; lia|].
  intros k Hk. assert (A : forall j, (j < List.length cs)%nat -> nth j cs [] = nth j (cbc_enc (sm4_enc key) iv bs) []); [|apply A, Hk].
  induction j as [|j IH]; intro Hj; (rewrite cbc_enc_nth by (unfold zlen in *; lia)).
  - specialize (H 0 ltac:(unfold zlen in *; lia)). rewrite !block_concat in H by (try assumption; unfold zlen in *; lia). exact H.
  - rewrite <- IH by lia. specialize (H (Z.of_nat (S j)) ltac:(unfold zlen in *; lia)). destruct (Z.eqb_spec (Z.of_nat (S j)) 0) as [Q|_]; [lia|].
    rewrite !block_concat in H by (try assumption; unfold zlen in *; lia). replace (Z.of_nat (S j) - 1) with (Z.of_nat j) in H by lia. rewrite !Nat2Z.id in H. exact H.
Qed.
Definition pkcs5 (m : list Z) : list Z := let p := 16 - zlen m mod 16 in m ++ repeat p (Z.to_nat p).
Lemma pkcs5_pad : forall s src, contents s src ++ padBytes false src 16 = pkcs5 (contents s src).
Proof.
  intros s src. unfold pkcs5, padBytes, padLen. rewrite contents_len. cbv zeta. assert (Q := Z.mod_pos_bound (Z.of_nat (s_len src)) 16 ltac:(lia)).
  rewrite Z2Nat.id by lia. rewrite Z.mod_small by lia. reflexivity.
Qed.
Lemma pkcs5_full : forall m, zlen (pkcs5 m) mod 16 = 0.
Proof.
  intro m. unfold pkcs5. cbv zeta. assert (Q := Z.mod_pos_bound (zlen m) 16 ltac:(lia)). rewrite zlen_app, zlen_repeat, Z2Nat.id by lia.
  replace (zlen m + (16 - zlen m mod 16)) with ((zlen m / 16 + 1) * 16); [apply Z.mod_mul; lia|]. pose proof (Z.div_mod (zlen m) 16). lia.
Qed.
(** Goroutines that pad and encrypt messages, each message without room behind it, with keys, ivs and messages shared at will. *)
Theorem C125_seal : forall gs sched s tr sf tf g src key iv o n, properM gs -> togetherM sched s gs = (tr, sf, tf) ->
  let padded := mkCs (mkBlock (S g) 1) 0 (s_len src + padLen src 16) (s_len src + padLen src 16) in
  nth_error gs g = Some [MPad false src 16; MCbc true key iv padded] -> nth_error tf g = Some (mkThread (Done o) n) ->
  s_cap src = s_len src -> s_len key = 16%nat -> s_len iv = 16%nat -> owner (s_blk src) = O -> owner (s_blk key) = O -> owner (s_blk iv) = O ->
  exists out, o = Ret [ABytes (Ok padded); ABytes (Ok out)] /\ contents sf padded = pkcs5 (contents s src) /\
    isCbc true (contents s key) (contents s iv) (pkcs5 (contents s src)) (contents sf out).
Proof.
  intros gs sched s tr sf tf g src key iv o n P T padded Eg Et Lc Lk Lv O1 O2 O3. destruct (C125_same gs sched s tr sf tf g _ o n P T Eg Et) as (s' & E & Q).
  destruct (alone_pad g 0 false src 16 s ltac:(lia) (known0 g 0 _ O1)) as (n1 & out1 & s1 & E1 & C1 & _ & _ & A2).
  destruct A2 as (-> & -> & F1). { assert (M := Z.mod_pos_bound (Z.of_nat (s_len src)) 16 ltac:(lia)). unfold padLen. lia. }
  fold padded in E1, C1. rewrite pkcs5_pad in C1.
  destruct (blocks_of (pkcs5 (contents s src)) (pkcs5_full _)) as (bs & Eb & B & _).
  destruct (alone_cbcCall g 2 true key iv padded bs s1 Lk Lv) as (s2 & E2 & C2 & F2); try (apply known0; assumption); try assumption.
  { intros _. cbn. lia. }
  { rewrite C1. exact Eb. }
  assert (E3 := alone_twoM g _ _ _ _ _ _ _ _ _ _ (alone_do g 0 _ _ _ (fun x => ABytes (Ok x)) _ _ _ _ E1 : alone g 0 (executeM (MPad false src 16)) s = _)
    (alone_do g 2 _ _ _ ABytes _ _ _ _ E2 : alone g 2 (executeM (MCbc true key iv padded)) s1 = _)). rewrite E in E3. assert (s' = s2) by congruence. subst s2.
  assert (K1 : contents s1 key = contents s key) by (apply load_ext; intros i _; apply F1, known0; exact O2).
  assert (K2 : contents s1 iv = contents s iv) by (apply load_ext; intros i _; apply F1, known0; exact O3). rewrite K1, K2 in C2.
  eexists. split; [assert (X : o = _) by (injection E3; intros; eassumption || (symmetry; eassumption)); exact X|]. split.
  - rewrite <- C1. apply load_ext. intros i _. rewrite Q by (right; right; reflexivity). apply F2. intros _. cbn. lia.
  - replace (contents sf _) with (List.concat (cbcSpec true (contents s key) (contents s iv) bs)).
    + rewrite Eb. apply isCbc_spec; [rewrite contents_len, Lv; reflexivity|exact B].
    + rewrite <- C2. apply load_ext. intros i _. symmetry. apply Q. right. right. reflexivity.
Qed.
(** Goroutines that decrypt such messages and remove the padding get them back. *)
Theorem C125_open : forall gs sched s tr sf tf g key iv inp m o n, properM gs -> togetherM sched s gs = (tr, sf, tf) ->
  let plain := mkCs (mkBlock (S g) 4) 0 (s_len inp) (s_len inp) in
  nth_error gs g = Some [MCbc false key iv inp; MUnpad plain] -> nth_error tf g = Some (mkThread (Done o) n) ->
  s_len key = 16%nat -> s_len iv = 16%nat -> owner (s_blk key) = O -> owner (s_blk iv) = O -> owner (s_blk inp) = O ->
  bytes m -> bytes (contents s iv) -> isCbc true (contents s key) (contents s iv) (pkcs5 m) (contents s inp) ->
  exists out, o = Ret [ABytes (Ok plain); ABytes (Ok out)] /\ contents sf out = m.
Proof.
  intros gs sched s tr sf tf g key iv inp m o n P T plain Eg Et Lk Lv O1 O2 O3 Bm Bv Cb. destruct (C125_same gs sched s tr sf tf g _ o n P T Eg Et) as (s' & E & Q).
  assert (Zv : zlen (contents s iv) = 16) by (rewrite contents_len, Lv; reflexivity).
  destruct (blocks_of (pkcs5 m) (pkcs5_full m)) as (bs & Eb & B & _).
  assert (Li : zlen (contents s inp) = zlen (pkcs5 m)) by (destruct Cb as [L _]; exact L). rewrite Eb in Cb. apply isCbc_unique in Cb; [|exact Zv|exact B].
  destruct (cbc_enc_shape (contents s key) bs (contents s iv)) as [S1 _].
  destruct (alone_cbcCall g 0 false key iv inp _ s Lk Lv (known0 _ _ _ O1) (known0 _ _ _ O2) (known0 _ _ _ O3) S1 Cb) as (s1 & E1 & C1 & _). change (4 + 0)%nat with 4%nat in E1, C1. fold plain in E1, C1.
  assert (Qm := Z.mod_pos_bound (zlen m) 16 ltac:(lia)). set (p := 16 - zlen m mod 16) in *.
  assert (Bp : bytes (pkcs5 m)).
  { unfold pkcs5. cbv zeta. fold p. apply bytes_app. split; [exact Bm|]. apply Forall_forall. intros x Hx. apply repeat_spec in Hx. subst x. unfold byte, p. lia. }
  cbn [cbcSpec] in C1. rewrite cbc_round in C1; [|exact Bv|exact Zv|exact B|rewrite Eb in Bp; apply PropsSm4Util.concat_bytes; exact Bp]. rewrite <- Eb in C1.
  assert (Lp : zlen (pkcs5 m) = zlen m + p) by (unfold pkcs5; cbv zeta; fold p; rewrite zlen_app, zlen_repeat; lia).
  assert (Lz := contents_len s inp). rewrite Li, Lp in Lz. assert (Zm := zlen_nonneg _ m).
  assert (U : s1 (cell plain (s_len inp - 1)) = p).
  { assert (N : nth (s_len inp - 1) (contents s1 plain) 0 = s1 (cell plain (s_len inp - 1))) by (unfold contents, cell; cbn [plain s_blk s_off s_len]; rewrite loadN_nth by lia; reflexivity).
    rewrite <- N, C1. unfold pkcs5. cbv zeta. fold p. rewrite app_nth2 by (unfold zlen in *; lia).
    rewrite (nth_indep _ 0 p) by (rewrite repeat_length; unfold zlen in *; lia). apply nth_repeat. }
  assert (E2 : alone g 5 (unpadCallP plain) s1 = (5%nat, Ret (mkCs (mkBlock (S g) 4) 0 (List.length m) (s_len inp)), s1)).
  { unfold unpadCallP. cbn [plain s_len]. destruct (Nat.eqb_spec (s_len inp) 0) as [Z|NZ]; [lia|]. rewrite alone_bind, alone_rd. fold plain. rewrite U. unfold cutP. cbn [plain s_cap s_blk s_off].
    destruct (Z.leb_spec 0 (Z.of_nat (s_len inp) - p)); [|lia]. destruct (Z.leb_spec (Z.of_nat (s_len inp) - p) (Z.of_nat (s_len inp))); [|lia]. cbn [andb]. rewrite alone_ret.
    replace (Z.to_nat (Z.of_nat (s_len inp) - p)) with (List.length m) by (unfold zlen in *; lia). reflexivity. }
  assert (E3 := alone_twoM g _ _ _ _ _ _ _ _ _ _ (alone_do g 0 _ _ _ ABytes _ _ _ _ E1 : alone g 0 (executeM (MCbc false key iv inp)) s = _)
    (alone_do g 5 _ _ _ (fun x => ABytes (Ok x)) _ _ _ _ E2 : alone g 5 (executeM (MUnpad plain)) s1 = _)). rewrite E in E3. assert (s' = s1) by congruence. subst s1.
  eexists. split; [assert (X : o = _) by (injection E3; intros; eassumption || (symmetry; eassumption)); exact X|].
  transitivity (firstn (List.length m) (contents s' plain)).
  - unfold contents. cbn [plain s_blk s_off s_len]. replace (s_len inp) with (List.length m + (s_len inp - List.length m))%nat by (unfold zlen in *; lia). rewrite loadN_app.
    rewrite firstn_app_exact by (rewrite loadN_length; reflexivity). apply load_ext. intros i _. apply Q. right. right. reflexivity.
  - rewrite C1. unfold pkcs5. cbv zeta. apply firstn_app_exact. reflexivity.
Qed.
Transparent sm4_enc sm4_dec xor_bytes.

(** * Examples *)
Definition mMem : memory := memOf [exKey; rev exKey; map (fun x => x mod 256) exMsg].
Definition mSrc : cslice := mkCs (mkBlock 0 2) 0 21 21.
Definition mPadded (g : nat) : cslice := mkCs (mkBlock (S g) 1) 0 32 32.
(** Two goroutines pad and encrypt the same message with the same key and iv, one decrypts it as if it were a ciphertext, one hashes it. *)
Definition mGs : list (list mcall) :=
  [ [MPad false mSrc 16; MCbc true (sl 0 0 16) (sl 1 0 16) (mPadded 0)];
    [MPad false mSrc 16; MCbc true (sl 0 0 16) (sl 1 0 16) (mPadded 1)];
    [MCbc false (sl 0 0 16) (sl 1 0 16) (sl 2 0 32)];
    [MOld (CSumOf (sl 2 0 33)); MPad true mSrc 8; MUnzero mSrc 3] ].
Ltac eachM g E Ic n := lazymatch n with
  | O => destruct g; discriminate E
  | S ?n => destruct g as [|g]; [cbn in E; injection E as <-; cbn [In] in Ic; calls Ic|eachM g E Ic n]
  end.
Example C125_ex_proper : properM mGs.
Proof.
  split.
  - intros g h cs cs' a N Eg Eh (O & c & Ic & Wc). exfalso. eachM g Eg Ic 4%nat; cbn [writesM writesOf] in Wc; try contradiction; destruct Wc as (_ & L & _); vm_compute in L; lia.
  - intros g cs E c a Ic [H|H]; eachM g E Ic 4%nat; cbn [readsM readsOf writesM writesOf] in H; try contradiction; try (destruct H as (_ & L & _); vm_compute in L; lia); look H; rewrite H; auto.
Qed.
Fixpoint inTurnM (g : nat) (gs : list (list mcall)) (s : memory) : list nat :=
  match gs with [] => [] | cs :: gs => repeat g (turns g 0 (goroutineM cs) s) ++ inTurnM (S g) gs s end.
Lemma count_inTurnM : forall gs g s h cs, nth_error gs h = Some cs -> (turns (g + h) 0 (goroutineM cs) s <= count_occ Nat.eq_dec (inTurnM g gs s) (g + h))%nat.
Proof.
  induction gs as [|c gs IH]; intros g s [|h] cs E; cbn in E; try discriminate E; cbn [inTurnM]; rewrite count_occ_app.
  - injection E as ->. rewrite Nat.add_0_r. assert (Q : forall k, count_occ Nat.eq_dec (repeat g k) g = k).
    { induction k as [|k IHk]; [reflexivity|]. cbn. destruct (Nat.eq_dec g g); [rewrite IHk; reflexivity|contradiction]. }
    rewrite Q. lia.
  - specialize (IH (S g) s h cs E). replace (g + S h)%nat with (S g + h)%nat by lia. lia.
Qed.
Theorem C125_can_finish : forall gs s, properM gs -> exists sched tr sf tf, togetherM sched s gs = (tr, sf, tf) /\
  forall g cs, nth_error gs g = Some cs -> exists n o, nth_error tf g = Some (mkThread (Done o) n).
Proof.
  intros gs s P. exists (inTurnM 0 gs s). destruct (togetherM (inTurnM 0 gs s) s gs) as [[tr sf] tf] eqn:E. exists tr, sf, tf. split; [reflexivity|].
  intros g cs Eg. exact (C125_finishes gs _ s tr sf tf g cs P E Eg (count_inTurnM gs 0 s g cs Eg)).
Qed.
Example C125_ex_runs : exists sched tr sf tf, togetherM sched mMem mGs = (tr, sf, tf) /\
  (exists n out, nth_error tf 1 = Some (mkThread (Done (Ret [ABytes (Ok (mPadded 1)); ABytes (Ok out)])) n) /\
    isCbc true exKey (rev exKey) (firstn 21 (contents mMem (sl 2 0 33)) ++ repeat 11 11) (contents sf out)) /\
  exists n out, nth_error tf 2 = Some (mkThread (Done (Ret [ABytes (Ok out)])) n) /\ isCbc false exKey (rev exKey) (firstn 32 (contents mMem (sl 2 0 33))) (contents sf out).
Proof.
  destruct (C125_can_finish mGs mMem C125_ex_proper) as (sched & tr & sf & tf & T & Fin). exists sched, tr, sf, tf. split; [exact T|]. split.
  - destruct (Fin 1%nat _ eq_refl) as (n & o & Et).
    destruct (C125_seal mGs sched mMem tr sf tf 1 mSrc (sl 0 0 16) (sl 1 0 16) o n C125_ex_proper T eq_refl Et) as (out & -> & _ & C); try reflexivity.
    exists n, out. split; [exact Et|]. replace (firstn 21 (contents mMem (sl 2 0 33)) ++ repeat 11 11) with (pkcs5 (contents mMem mSrc)) by (vm_compute; reflexivity). exact C.
  - destruct (Fin 2%nat _ eq_refl) as (n & o & Et).
    destruct (C125_cbc mGs sched mMem tr sf tf 2 false (sl 0 0 16) (sl 1 0 16) (sl 2 0 32) o n C125_ex_proper T eq_refl Et) as (out & -> & _ & C); try reflexivity.
    exists n, out. split; [exact Et|exact C].
Qed.
(** A ciphertext and the goroutine that opens it. *)
Definition oMsg : list Z := [104; 105].
Definition oMem : memory := memOf [exKey; rev exKey; List.concat (cbc_enc (sm4_enc exKey) (rev exKey) [pkcs5 oMsg])].
Example C125_ex_open : properM [[MCbc false (sl 0 0 16) (sl 1 0 16) (sl 2 0 16); MUnpad (mkCs (mkBlock 1 4) 0 16 16)]] /\
  isCbc true (contents oMem (sl 0 0 16)) (contents oMem (sl 1 0 16)) (pkcs5 oMsg) (contents oMem (sl 2 0 16)) /\ bytes oMsg /\ bytes (contents oMem (sl 1 0 16)).
Proof.
  split; [|split; [|split]].
  - split.
    + intros g h cs cs' a N Eg Eh (O & c & Ic & Wc). exfalso. eachM g Eg Ic 1%nat; exact Wc.
    + intros g cs E c a Ic [H|H]; eachM g E Ic 1%nat; cbn [readsM writesM] in H; try contradiction; look H; rewrite H; auto.
  - replace (contents oMem (sl 2 0 16)) with (List.concat (cbc_enc (sm4_enc exKey) (rev exKey) [pkcs5 oMsg])).
    + change (pkcs5 oMsg) with (List.concat [pkcs5 oMsg]) at 1. apply (isCbc_spec true); [reflexivity|]. repeat constructor.
    + vm_compute. reflexivity.
  - repeat constructor; discriminate.
  - vm_compute. repeat constructor; discriminate.
Qed.

(** * Padding a message that another lies behind *)
Definition twoMem : memory := memOf [[1; 2; 3; 4; 5; 6; 7; 8; 11; 12; 13; 14; 15; 16; 17; 18]].
(** Two messages lie one behind the other in one array, the first with room that is the second. Two goroutines pad them; the second gets
    half of its message and half of the first's padding, and its message is gone. *)
Theorem C125_adjacent_refuted : exists s sched tr sf tf first second out,
  (forall a, window first 0 (s_len first) a -> ~ window second 0 (s_len second) a) /\
  togetherM sched s [[MPad false first 16]; [MPad false second 16]] = (tr, sf, tf) /\
  tf = [mkThread (Done (Ret [ABytes (Ok (mkCs (s_blk first) 0 16 16))])) 1; mkThread (Done (Ret [ABytes (Ok out)])) 2] /\
  contents s second = [11; 12; 13; 14; 15; 16; 17; 18] /\ contents sf out = [11; 12; 13; 14; 8; 8; 8; 8] ++ repeat 8 8 /\ contents sf second = repeat 8 8.
Proof.
  set (a := mkCs (mkBlock 0 0) 0 8 16). set (b := mkCs (mkBlock 0 0) 8 8 8). set (sched := (repeat 1 13 ++ repeat 0 17 ++ repeat 1 10)%nat).
  set (q := togetherM sched twoMem [[MPad false a 16]; [MPad false b 16]]).
  exists twoMem, sched, (ran q), (endMem q), (snd q), a, b, (mkCs (mkBlock 2 1) 0 16 16).
  split; [intros x [_ H1] [_ H2]; cbn in H1, H2; lia|]. split; [apply parts|]. split; [vm_compute; reflexivity|]. split; [reflexivity|]. split; vm_compute; reflexivity.
Qed.
(** The same without any other goroutine: padding the first message destroys the second. *)
Theorem C125_behind_refuted : exists s sched tr sf tf first second,
  (forall a, window first 0 (s_len first) a -> ~ window second 0 (s_len second) a) /\ properM [[MPad false first 16]] /\
  togetherM sched s [[MPad false first 16]] = (tr, sf, tf) /\ contents s second <> contents sf second.
Proof.
  set (a := mkCs (mkBlock 0 0) 0 8 16). set (b := mkCs (mkBlock 0 0) 8 8 8). set (q := togetherM (repeat 0 20)%nat twoMem [[MPad false a 16]]).
  exists twoMem, (repeat 0 20)%nat, (ran q), (endMem q), (snd q), a, b.
  split; [intros x [_ H1] [_ H2]; cbn in H1, H2; lia|]. split; [|split; [apply parts|vm_compute; discriminate]]. split.
  - intros g h cs cs' x N Eg Eh. destruct g as [|g]; [|destruct g; discriminate Eg]. destruct h as [|h]; [contradiction N; reflexivity|destruct h; discriminate Eh].
  - intros g cs E c x Ic H. destruct g as [|g]; [|destruct g; discriminate E]. injection E as <-. destruct Ic as [<-|[]]. left. destruct H as [[-> _]|(_ & _ & -> & _)]; reflexivity.
Qed.
