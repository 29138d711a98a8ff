(** Property C112: SM4 ciphers may be shared between goroutines, SM3 digests may not. *)
From Coq Require Import ZArith List Lia Bool String Arith.
From Verif Require Import GoBase ConcMem Sm3 Sm3Spec Sm3Main PropsSm3 Sm4 Sm4Spec Sm4Proofs SmConc SmConcAlone.
Import ListNotations.
Open Scope Z_scope.

(** * Statements *)
(** The cells of a slice from index [lo] up to [hi]. *)
Definition window (s : cslice) (lo hi : nat) (a : loc) : Prop := blk a = s_blk s /\ (s_off s + lo <= idx a < s_off s + hi)%nat.
(** Which memory a call is documented here to read, and to write, of what existed before it. *)
Definition readsOf (c : call) (a : loc) : Prop :=
  match c with
  | CNewCipher key => window key 0 (s_len key) a
  | CEncrypt c dst src => blk a = cEnc c \/ window src 0 16 a
  | CDecrypt c dst src => blk a = cDec c \/ window src 0 16 a
  | CEcb _ key inp => window key 0 (s_len key) a \/ window inp 0 (s_len inp) a
  | CNewDigest | CReset _ => False
  | CWrite _ p => window p 0 (s_len p) a
  | CSum _ b => window b 0 (s_len b) a
  | CSumOf data => window data 0 (s_len data) a
  end.
Definition writesOf (c : call) (a : loc) : Prop :=
  match c with
  | CEncrypt _ dst _ | CDecrypt _ dst _ => window dst 0 16 a
  | CReset d | CWrite d _ => blk a = d
  | CSum d b => blk a = d \/ ((s_len b + 32 <= s_cap b)%nat /\ window b (s_len b) (s_len b + 32) a)
  | _ => False
  end.
(** The same for goroutine [g], of the memory that was there at the start. *)
Definition readsG (cs : list call) (a : loc) : Prop := owner (blk a) = O /\ exists c, In c cs /\ readsOf c a.
Definition writesG (cs : list call) (a : loc) : Prop := owner (blk a) = O /\ exists c, In c cs /\ writesOf c a.
(** A goroutine uses what was there at the start and what it made itself. *)
Definition legal (g : nat) (cs : list call) : Prop :=
  forall c a, In c cs -> readsOf c a \/ writesOf c a -> owner (blk a) = O \/ owner (blk a) = S g.
(** No goroutine writes what another reads or writes. *)
Definition apart (gs : list (list call)) : Prop :=
  forall g h cs cs' a, g <> h -> nth_error gs g = Some cs -> nth_error gs h = Some cs' -> writesG cs a -> ~ readsG cs' a /\ ~ writesG cs' a.
Definition proper (gs : list (list call)) : Prop := apart gs /\ forall g cs, nth_error gs g = Some cs -> legal g cs.

(** * Every call keeps to its memory *)
Section Inside.
Variables (g : nat) (R W : loc -> Prop).
Notation ins := (inside g R W).
Notation see := (sees g R W).
Definition may (a : loc) : Prop := W a \/ mine g a.
Lemma may_see : forall a, may a -> see a.
Proof. intros a H. right. exact H. Qed.
Lemma ins_ret : forall A (a : A), ins (ret a).
Proof. intros. exact I. Qed.
Lemma ins_panic : forall A e, ins (@panic A e).
Proof. intros. exact I. Qed.
Lemma ins_rdN : forall n b o, (forall i, (o <= i < o + n)%nat -> see (mkLoc b i)) -> ins (rdN n b o).
Proof.
  induction n as [|n IH]; intros b o H; cbn [rdN]; [apply ins_ret|].
  apply inside_bind; [apply inside_rd, H; lia|]. intro x. apply inside_bind; [apply IH; intros i Hi; apply H; lia|]. intro l. apply ins_ret.
Qed.
Lemma ins_wrL : forall l b o, (forall i, (o <= i < o + List.length l)%nat -> may (mkLoc b i)) -> ins (wrL b o l).
Proof.
  induction l as [|x l IH]; intros b o H; cbn [wrL]; [apply ins_ret|]. cbn [List.length] in H.
  apply inside_bind; [apply inside_wr, H; lia|]. intro u. apply IH. intros i Hi. apply H. lia.
Qed.
Lemma ins_loop : forall A n i (f : Z -> A -> prog A) a, (forall j a, i <= j < i + Z.of_nat n -> ins (f j a)) -> ins (loopP n i f a).
Proof.
  induction n as [|n IH]; intros i f a H; cbn [loopP]; [apply ins_ret|].
  apply inside_bind; [apply H; lia|]. intro a'. apply IH. intros j b Hj. apply H. lia.
Qed.
Lemma ins_getU32 : forall b o, (forall i, (o <= i < o + 4)%nat -> see (mkLoc b i)) -> ins (getU32P b o).
Proof. intros b o H. unfold getU32P. apply inside_bind; [apply ins_rdN, H|]. intro l. apply ins_ret. Qed.
Lemma ins_putU32 : forall b o x, (forall i, (o <= i < o + 4)%nat -> may (mkLoc b i)) -> ins (putU32P b o x).
Proof. intros b o x H. apply ins_wrL. rewrite be_enc_length. exact H. Qed.
Ltac go := first [apply ins_ret|apply ins_panic|apply inside_bind; [|intro]].

(** SM4 *)
Definition seesS (s : cslice) (n : nat) : Prop := forall i, (s_off s <= i < s_off s + n)%nat -> see (mkLoc (s_blk s) i).
Definition mayS (s : cslice) (n : nat) : Prop := forall i, (s_off s <= i < s_off s + n)%nat -> may (mkLoc (s_blk s) i).
Lemma ins_expandKey : forall key e, seesS key 16 -> ins (expandKeyP key e).
Proof.
  intros key e H. unfold expandKeyP. do 4 (apply inside_bind; [apply ins_getU32; intros i Hi; apply H; lia|intro]).
  cbv zeta. intro n. go; [|go]. apply ins_loop. intros j x Hj. unfold keyStepP. cbv zeta. go; [|go]. apply inside_wr. right. reflexivity.
Qed.
Lemma ins_NewCipher : forall key, seesS key (s_len key) -> ins (NewCipherP key).
Proof.
  intros key H. unfold NewCipherP. destruct (Z.eqb_spec (Z.of_nat (s_len key)) KeySize) as [E|E]; cbn [negb]; [|go].
  assert (K : seesS key 16) by (intros i Hi; apply H; unfold KeySize in E; lia).
  go; [apply ins_expandKey, K|]. go; [apply ins_expandKey, K|]. go.
Qed.
Lemma ins_block4 : forall rk inp out, (forall i, see (mkLoc rk i)) -> seesS inp 16 -> mayS out 16 -> ins (processBlock4P rk inp out).
Proof.
  intros rk inp out HK HI HO. unfold processBlock4P. do 4 (apply inside_bind; [apply ins_getU32; intros i Hi; apply HI; lia|intro]).
  go. { apply ins_loop. intros j x Hj. unfold fourRoundsP. cbv zeta. do 4 (apply inside_bind; [apply inside_rd, HK|intro]). go. }
  cbv zeta. do 3 (apply inside_bind; [apply ins_putU32; intros i Hi; apply HO; lia|intro]). apply ins_putU32. intros i Hi. apply HO. lia.
Qed.
Lemma ins_crypt : forall rk dst src, (forall i, see (mkLoc rk i)) -> seesS src 16 -> mayS dst 16 -> ins (cryptP rk dst src).
Proof.
  intros rk dst src HK HI HO. unfold cryptP. destruct (_ <? _); [go|]. destruct (_ <? _); [go|]. apply ins_block4; assumption.
Qed.
Lemma ins_ecb : forall crypt n i dst src, (forall d s, seesS s 16 -> mayS d 16 -> ins (crypt d s)) ->
  seesS src (i + 16 * n) -> mayS dst (i + 16 * n) -> ins (ecbP crypt n i dst src).
Proof.
  intros crypt n. induction n as [|n IH]; intros i dst src HC HS HD; cbn [ecbP]; [go|].
  go.
  - apply HC; unfold windowP; intros k Hk; cbn [s_off s_blk] in *; [apply HS|apply HD]; lia.
  - apply IH; [exact HC| |]; intros k Hk; [apply HS|apply HD]; lia.
Qed.
Definition own (b : ConcMem.block) : Prop := owner b = S g.
Definition ownC (r : result cipherRef) : Prop := match r with Ok c => own (cEnc c) /\ own (cDec c) | Err _ => True end.
Lemma ret_expandKey : forall key e, returns g own (expandKeyP key e).
Proof.
  intros key e. unfold expandKeyP. do 4 (eapply returns_bind; [apply returns_any|intros ? _]). cbv zeta. intro n.
  eapply returns_bind; [apply returns_any|]. intros x _. reflexivity.
Qed.
Lemma ret_NewCipher : forall key, returns g ownC (NewCipherP key).
Proof.
  intro key. unfold NewCipherP. destruct (negb _); [exact I|].
  eapply returns_bind; [apply ret_expandKey|]. intros e He. eapply returns_bind; [apply ret_expandKey|]. intros d Hd. split; assumption.
Qed.
Lemma own_may : forall b i, own b -> may (mkLoc b i).
Proof. intros b i H. right. exact H. Qed.
Lemma ins_ecbCall : forall e key inp, seesS key (s_len key) -> seesS inp (s_len inp) -> ins (ecbCallP e key inp).
Proof.
  intros e key inp HK HI. unfold ecbCallP. destruct (Z.eqb_spec (Z.of_nat (s_len inp) mod BlockSize) 0) as [E|E]; cbn [negb]; [|go].
  assert (L : s_len inp = (16 * (s_len inp / 16))%nat).
  { unfold BlockSize in E. rewrite (Nat.div_mod (s_len inp) 16) at 1 by lia. change 16 with (Z.of_nat 16) in E. rewrite <- Nat2Z.inj_mod in E by lia. lia. }
  eapply inside_bindQ; [apply ins_NewCipher, HK|apply ret_NewCipher|]. intros [c|er] HC; [|go]. intro n. cbv zeta. go; [|go].
  apply ins_ecb; [|rewrite Nat.add_0_l, <- L; exact HI|intros i _; apply own_may; reflexivity].
  intros d s Hs Hd. destruct HC as [H1 H2]. destruct e; apply ins_crypt; try assumption; intro i; apply may_see, own_may; assumption.
Qed.

(** SM3 *)
Section Digest.
Variable d : ConcMem.block.
Hypothesis HD : forall i, may (mkLoc d i).
Lemma HS : forall i, see (mkLoc d i).
Proof. intro i. apply may_see, HD. Qed.
Ltac acc := first [apply inside_rd, HS|apply inside_wr, HD].
Lemma ins_setI : forall f n i x, ins (setI d f n i x).
Proof. intros f n i x. unfold setI. destruct (_ && _); [acc|go]. Qed.
Lemma ins_inc : forall f, ins (incP (mkLoc d f)).
Proof. intro f. unfold incP. go; acc. Qed.
Lemma ins_xorV : forall i x, ins (xorV d i x).
Proof. intros i x. unfold xorV. go; acc. Qed.
Lemma ins_block3 : ins (processBlock3P d).
Proof.
  unfold processBlock3P. go. { apply ins_loop. intros j ? _. go; acc. }
  go. { apply ins_loop. intros j ? _. unfold expandStepP. repeat (go; [acc|]). acc. }
  do 8 (go; [acc|]).
  go. { apply ins_loop. intros j ? _. unfold roundP. do 2 (go; [acc|]). go. }
  go. { apply ins_loop. intros j ? _. unfold roundP. do 2 (go; [acc|]). go. }
  do 8 (go; [apply ins_xorV|]). acc.
Qed.
Lemma ins_word : forall p o, (forall i, (Z.to_nat o <= i < Z.to_nat o + 4)%nat -> 0 <= o -> see (mkLoc (s_blk p) (s_off p + i))) -> ins (processWordP d p o).
Proof.
  intros p o H. unfold processWordP. destruct (_ && _ && _) eqn:E; [|go]. apply andb_true_iff in E. destruct E as [E _]. apply andb_true_iff in E. destruct E as [E _]. apply Z.leb_le in E.
  go. { apply ins_getU32. intros i Hi. replace i with (s_off p + (i - s_off p))%nat by lia. apply H; [lia|exact E]. }
  go; [acc|]. go; [apply ins_setI|]. go; [apply ins_inc|]. go; [acc|]. destruct (_ <=? _); [apply ins_block3|go].
Qed.
Lemma ins_push : forall x, ins (pushP d x).
Proof. intro x. unfold pushP. go; [acc|]. go; [apply ins_setI|apply ins_inc]. Qed.
Lemma ins_zero : forall fuel, ins (zeroP fuel d).
Proof.
  induction fuel as [|fuel IH]; cbn [zeroP]; go; try acc; (destruct (_ <? _); [|go]); [go|].
  go; [acc|]. go; [apply ins_setI|]. go; [apply ins_inc|exact IH].
Qed.
Lemma ins_length : forall x, ins (processLengthP d x).
Proof.
  intro x. unfold processLengthP. go; [acc|]. go. { destruct (_ <? _); [|go]. go; [apply ins_push|apply ins_block3]. }
  go; [apply ins_zero|]. go; apply ins_push.
Qed.
Lemma ins_Reset : ins (ResetP d).
Proof.
  unfold ResetP. do 2 (go; [acc|]). do 4 (go; [apply ins_wrL; intros i _; apply HD|]). acc.
Qed.
Lemma ins_buf : forall x, ins (bufP d x).
Proof. intro x. unfold bufP. go; [acc|]. go; [apply ins_setI|apply ins_inc]. Qed.
Section P.
Variable p : cslice.
Hypothesis HP : seesS p (s_len p).
Lemma ins_fill : forall n i, (i + n <= s_len p)%nat -> ins (fillP n d p i).
Proof.
  induction n as [|n IH]; intros i H; cbn [fillP]; [go|].
  go; [apply inside_rd, HP; lia|]. go; [apply ins_buf|]. go; [acc|]. destruct (_ =? _); [|apply IH; lia].
  go; [apply ins_word; intros k _ _; apply HS|]. go; [acc|go].
Qed.
Lemma ret_fill : forall n i, returns g (fun j => (j <= i + n)%nat) (fillP n d p i).
Proof.
  induction n as [|n IH]; intro i; cbn [fillP]; [cbn [returns ret]; lia|].
  eapply returns_bind; [apply returns_any|]. intros x _. eapply returns_bind; [apply returns_any|]. intros u _. eapply returns_bind; [apply returns_any|]. intros o _.
  destruct (_ =? _).
  - eapply returns_bind; [apply returns_any|]. intros u1 _. eapply returns_bind; [apply returns_any|]. intros u2 _. cbn [returns ret]. lia.
  - specialize (IH (S i)). replace (i + S n)%nat with (S i + n)%nat by lia. exact IH.
Qed.
Lemma ins_words : forall n i, (i + 4 * n <= s_len p)%nat -> ins (wordsP n d p i).
Proof.
  induction n as [|n IH]; intros i H; cbn [wordsP]; [go|].
  go; [|apply IH; lia]. apply ins_word. intros k Hk H0. apply HP.
  assert (i32 (Z.of_nat i) <= Z.of_nat i). { unfold i32 in *. assert (Q := Z.mod_le (Z.of_nat i + 2 ^ 31) (2 ^ 32)). lia. }
  lia.
Qed.
Lemma ins_tail : forall n i, (i + n <= s_len p)%nat -> ins (tailP n d p i).
Proof.
  induction n as [|n IH]; intros i H; cbn [tailP]; [go|]. go; [apply inside_rd, HP; lia|]. go; [apply ins_buf|]. apply IH. lia.
Qed.
End P.
Lemma ins_Write : forall p, seesS p (s_len p) -> ins (WriteP d p).
Proof.
  intros p HP. unfold WriteP. assert (L : (0 < s_len p)%nat \/ s_len p = O) by lia. destruct L as [L|L]; [|rewrite L; go].
  lazymatch goal with |- inside _ _ _ (match _ with O => _ | S _ => ?b end) => assert (X : inside g R W b); [|destruct (s_len p); [lia|exact X]] end.
  go; [apply inside_rd, HP; lia|]. go; [acc|].
  apply (inside_bindQ _ _ _ _ _ (fun i => (i <= s_len p)%nat)).
  { destruct (_ =? _); [go|]. apply ins_fill; [exact HP|lia]. }
  { destruct (_ =? _); [cbn [returns ret]; lia|]. apply (ret_fill p (s_len p) 0). }
  intros i Hi. cbv zeta. assert (Q := Nat.mul_div_le (s_len p - i) 4).
  go; [apply ins_words; [exact HP|lia]|]. go; [apply ins_tail; [exact HP|lia]|]. go; [acc|]. go; [acc|go].
Qed.
Lemma ins_write1 : forall x, ins (write1P d x).
Proof. intros x n. apply ins_Write. intros i _. apply may_see. right. reflexivity. Qed.
Lemma ins_pad : forall fuel, ins (padP fuel d).
Proof.
  induction fuel as [|fuel IH]; cbn [padP]; go; try acc; (destruct (_ =? _); [go|]); [go|]. go; [apply ins_write1|exact IH].
Qed.
Lemma ins_checkSum : ins (checkSumP d).
Proof.
  unfold checkSumP, finishP. go. { go; [acc|]. go; [apply ins_write1|]. go; [apply ins_pad|]. go; [apply ins_length|apply ins_block3]. }
  go; [apply ins_rdN; intros i _; apply HS|go].
Qed.
End Digest.
Lemma ret_rdN : forall n b o, returns g (fun l => List.length l = n) (rdN n b o).
Proof.
  induction n as [|n IH]; intros b o; cbn [rdN]; [reflexivity|]. eapply returns_bind; [apply returns_any|]. intros x _.
  eapply returns_bind; [apply IH|]. intros l Hl. cbn. f_equal. exact Hl.
Qed.
Lemma words_length : forall l, List.length (List.concat (map (be_enc 4) l)) = (4 * List.length l)%nat.
Proof. induction l as [|x l IH]; [reflexivity|]. cbn [map List.concat List.length]. rewrite app_length, be_enc_length, IH. lia. Qed.
Lemma ret_checkSum : forall d, returns g (fun h => List.length h = 32%nat) (checkSumP d).
Proof.
  intro d. unfold checkSumP. eapply returns_bind; [apply returns_any|]. intros u _. eapply returns_bind; [apply ret_rdN|]. intros l Hl.
  cbn [returns ret]. rewrite words_length, Hl. reflexivity.
Qed.
Lemma ins_append : forall b l, seesS b (s_len b) ->
  ((s_len b + List.length l <= s_cap b)%nat -> forall i, (s_off b + s_len b <= i < s_off b + s_len b + List.length l)%nat -> may (mkLoc (s_blk b) i)) -> ins (appendP b l).
Proof.
  intros b l H1 H2. unfold appendP. destruct (Nat.leb_spec (s_len b + List.length l) (s_cap b)) as [L|L].
  - go; [apply ins_wrL, H2, L|go].
  - go; [apply ins_rdN, H1|]. intro n. go.
Qed.
Lemma ins_New : ins NewP.
Proof. intro n. go; [apply ins_Reset; intro i; right; reflexivity|go]. Qed.
Lemma ins_SumOf : forall data, seesS data (s_len data) -> ins (SumP data).
Proof.
  intros data H n. assert (D : forall i, may (mkLoc (mkBlock (S g) n) i)) by (intro i; right; reflexivity).
  go; [apply ins_Reset, D|]. go; [apply ins_Write; [exact D|exact H]|]. apply ins_checkSum, D.
Qed.

Lemma ins_execute : forall c, (forall a, readsOf c a -> see a) -> (forall a, writesOf c a -> may a) -> ins (execute c).
Proof.
  intros c HR HW.
  destruct c as [key|c dst src|c dst src|e key inp| |d|d p|d b|data]; cbn [readsOf writesOf execute] in *.
  - go; [|go]. apply ins_NewCipher. intros i Hi. apply HR. split; [reflexivity|cbn; lia].
  - go; [|go]. apply ins_crypt; [intro i; apply HR; left; reflexivity| |]; intros i Hi; [apply HR; right|apply HW]; (split; [reflexivity|cbn; lia]).
  - go; [|go]. apply ins_crypt; [intro i; apply HR; left; reflexivity| |]; intros i Hi; [apply HR; right|apply HW]; (split; [reflexivity|cbn; lia]).
  - go; [|go]. apply ins_ecbCall; intros i Hi; apply HR; [left|right]; (split; [reflexivity|cbn; lia]).
  - go; [apply ins_New|go].
  - go; [apply ins_Reset; intro i; apply HW; reflexivity|go].
  - go; [|go]. apply ins_Write; [intro i; apply HW; reflexivity|]. intros i Hi. apply HR. split; [reflexivity|cbn; lia].
  - go; [|go]. unfold SumMethodP. eapply inside_bindQ; [apply ins_checkSum; intro i; apply HW; left; reflexivity|apply ret_checkSum|].
    intros h Hh. cbv beta in Hh. apply ins_append; [intros i Hi; apply HR; split; [reflexivity|cbn; lia]|]. rewrite Hh.
    intros L i Hi. apply HW. right. split; [exact L|]. split; [reflexivity|cbn; lia].
  - go; [|go]. apply ins_SumOf. intros i Hi. apply HR. split; [reflexivity|cbn; lia].
Qed.
End Inside.

(** * Goroutines *)
Lemma ins_goroutine : forall g cs0 cs, legal g cs0 -> incl cs cs0 -> inside g (readsG cs0) (writesG cs0) (goroutine cs).
Proof.
  intros g cs0 cs L. induction cs as [|c cs IH]; intro H; cbn [goroutine]; [exact I|].
  assert (C : In c cs0) by (apply H; left; reflexivity).
  apply inside_bind; [|intro a; apply inside_bind; [apply IH; intros x Hx; apply H; right; exact Hx|intro l; exact I]].
  apply ins_execute.
  - intros a Ha. destruct (L c a C (or_introl Ha)) as [O|O]; [left; split; [exact O|]; exists c; auto|right; right; exact O].
  - intros a Ha. destruct (L c a C (or_intror Ha)) as [O|O]; [left; split; [exact O|]; exists c; auto|right; exact O].
Qed.
Definition Rg (gs : list (list call)) (g : nat) (a : loc) : Prop := match nth_error gs g with Some cs => readsG cs a | None => False end.
Definition Wg (gs : list (list call)) (g : nat) (a : loc) : Prop := match nth_error gs g with Some cs => writesG cs a | None => False end.
Lemma g_shared : forall gs g a, Rg gs g a \/ Wg gs g a -> owner (blk a) = O.
Proof. intros gs g a. unfold Rg, Wg. destruct (nth_error gs g) as [cs|]; [|intros [[]|[]]]. intros [[H _]|[H _]]; exact H. Qed.
Lemma g_apart : forall gs, apart gs -> forall g h a, g <> h -> Wg gs g a -> ~ Rg gs h a /\ ~ Wg gs h a.
Proof.
  intros gs H g h a N. unfold Rg, Wg. destruct (nth_error gs g) as [cs|] eqn:E; [|intros []].
  destruct (nth_error gs h) as [cs'|] eqn:E'; [|tauto]. exact (H g h cs cs' a N E E').
Qed.
Lemma g_ins : forall gs, proper gs -> forall g m, nth_error (map goroutine gs) g = Some m -> inside g (Rg gs g) (Wg gs g) m.
Proof.
  intros gs [_ L] g m H. rewrite nth_error_map in H. unfold Rg, Wg. destruct (nth_error gs g) as [cs|] eqn:E; [|discriminate H]. injection H as <-.
  apply ins_goroutine; [apply L, E|apply incl_refl].
Qed.
(** Everything from here on is about goroutines started together on a memory [s] and run by some schedule. *)
Definition together (sched : list nat) (s : memory) (gs : list (list call)) := interleave sched s (start (map goroutine gs)).
Lemma together_ok : forall gs sched s tr sf tf, proper gs -> together sched s gs = (tr, sf, tf) ->
  world (list answer) (Rg gs) (Wg gs) (map goroutine gs) s sf tf /\
  forall g x, In (g, x) tr -> lawful (Rg gs) (Wg gs) g x /\ (g < List.length gs)%nat.
Proof.
  intros gs sched s tr sf tf P E. rewrite <- (map_length goroutine gs).
  apply (interleave_ok _ _ _ (g_shared gs) (g_apart gs (proj1 P)) _ s sched s (start (map goroutine gs)) tr sf tf); [|exact E].
  apply world_start. apply g_ins, P.
Qed.

(** A goroutine that has ended has the answers, or the panic, that it has when it runs alone, and all memory that it could read or
    write holds what it then holds. *)
Theorem C112_same : forall gs sched s tr sf tf g cs o n, proper gs -> together sched s gs = (tr, sf, tf) ->
  nth_error gs g = Some cs -> nth_error tf g = Some (mkThread (Done o) n) ->
  exists s', alone g 0 (goroutine cs) s = (n, o, s') /\ forall a, readsG cs a \/ writesG cs a \/ owner (blk a) = S g -> sf a = s' a.
Proof.
  intros gs sched s tr sf tf g cs o n P E Eg Et. destruct (together_ok gs sched s tr sf tf P E) as [(_ & T & _) _].
  destruct (T g _ Et) as (_ & m & Em & E1 & E2). cbn [code made alone fst snd] in *.
  rewrite nth_error_map, Eg in Em. cbn in Em. assert (m = goroutine cs) as -> by congruence.
  destruct (alone g 0 (goroutine cs) s) as [[n' o'] s'] eqn:Ea. cbn [fst snd] in *. exists s'. assert (n = n') as <- by congruence. assert (o = o') as <- by congruence.
  split; [reflexivity|]. intros a Ha. apply E2. destruct Ha as [Ha|[Ha|Ha]]; [left; unfold Rg; rewrite Eg; exact Ha|right; left; unfold Wg; rewrite Eg; exact Ha|right; right; exact Ha].
Qed.
(** No two goroutines touch the same cell unless both read. *)
Theorem C112_no_race : forall gs sched s tr sf tf g h x y a, proper gs -> together sched s gs = (tr, sf, tf) ->
  In (g, x) tr -> In (h, y) tr -> g <> h -> touches x a -> touches y a -> ~ writes x /\ ~ writes y.
Proof.
  intros gs sched s tr sf tf g h x y a P E Ix Iy N Tx Ty. destruct (together_ok gs sched s tr sf tf P E) as [_ L].
  destruct (proj1 (L g x Ix) a Tx) as [Sx Wx]. destruct (proj1 (L h y Iy) a Ty) as [Sy Wy].
  assert (U := unseen (Rg gs) (Wg gs) (g_shared gs) (g_apart gs (proj1 P))).
  split; intro Q; [exact (U g h a N (Wx Q) Sy)|exact (U h g a (not_eq_sym N) (Wy Q) Sx)].
Qed.
(** What no call is said to write is unchanged. *)
Theorem C112_unchanged : forall gs sched s tr sf tf a, proper gs -> together sched s gs = (tr, sf, tf) ->
  owner (blk a) = O -> (forall cs, In cs gs -> ~ writesG cs a) -> sf a = s a.
Proof.
  intros gs sched s tr sf tf a P E O N. destruct (together_ok gs sched s tr sf tf P E) as [(_ & _ & F) _].
  apply F; [exact O|]. intros g _. unfold Wg. destruct (nth_error gs g) as [cs|] eqn:Eg; [|tauto]. apply N. exact (nth_error_In _ _ Eg).
Qed.
(** However the others run, a goroutine ends within as many turns as it takes alone. *)
Theorem C112_finishes : forall gs sched s tr sf tf g cs, proper gs -> together sched s gs = (tr, sf, tf) ->
  nth_error gs g = Some cs -> (turns g 0 (goroutine cs) s <= count_occ Nat.eq_dec sched g)%nat ->
  exists n o, nth_error tf g = Some (mkThread (Done o) n).
Proof.
  intros gs sched s tr sf tf g cs P E Eg C.
  apply (finishing _ _ _ (g_shared gs) (g_apart gs (proj1 P)) (map goroutine gs) s sched s (start (map goroutine gs)) tr sf tf g (mkThread (goroutine cs) 0)); [|exact E| |exact C].
  - apply world_start. apply g_ins, P.
  - unfold start. rewrite map_map, nth_error_map, Eg. reflexivity.
Qed.

(** * What the goroutines get *)
Lemma alone_app : forall g cs1 cs2 n s, alone g n (goroutine (cs1 ++ cs2)) s =
  match alone g n (goroutine cs1) s with
  | (n1, Ret l1, s1) => match alone g n1 (goroutine cs2) s1 with (n2, Ret l2, s2) => (n2, Ret (l1 ++ l2), s2) | (n2, Panic e, s2) => (n2, Panic e, s2) end
  | (n1, Panic e, s1) => (n1, Panic e, s1)
  end.
Proof.
  intros g cs1 cs2. induction cs1 as [|c cs IH]; intros n s; cbn [app goroutine].
  - cbn [alone ret]. destruct (alone g n (goroutine cs2) s) as [[n2 [l2|e]] s2]; reflexivity.
  - rewrite !alone_bind. destruct (alone g n (execute c) s) as [[n1 [a|e]] s1]; [|reflexivity]. rewrite !alone_bind, IH.
    destruct (alone g n1 (goroutine cs) s1) as [[n2 [l2|e]] s2]; [|reflexivity]. cbn [alone ret].
    destruct (alone g n2 (goroutine cs2) s2) as [[n3 [l3|e]] s3]; reflexivity.
Qed.
Lemma alone_one : forall g c n s n1 a s1, alone g n (execute c) s = (n1, Ret a, s1) -> alone g n (goroutine [c]) s = (n1, Ret [a], s1).
Proof. intros g c n s n1 a s1 E. cbn [goroutine]. rewrite alone_bind, E. reflexivity. Qed.
Lemma alone_do : forall g n A B (m : prog A) (f : A -> B) s n1 a s1, alone g n m s = (n1, Ret a, s1) -> alone g n (par x <- m; ret (f x)) s = (n1, Ret (f a), s1).
Proof. intros. rewrite alone_bind, H. reflexivity. Qed.

(** ** SM4 *)
(** A use of a cipher for one block. *)
Record job := mkJob { jEnc : bool; jDst : cslice; jSrc : cslice }.
Definition callOf (c : cipherRef) (j : job) : call := if jEnc j then CEncrypt c (jDst j) (jSrc j) else CDecrypt c (jDst j) (jSrc j).
Definition disjoint (p q : cslice) : Prop := forall a, window p 0 16 a -> window q 0 16 a -> False.
(** What a job writes, no later job of the same goroutine reads or writes. *)
Definition spaced (js : list job) : Prop := ForallOrdPairs (fun j k => disjoint (jDst j) (jDst k) /\ disjoint (jDst j) (jSrc k)) js.
Lemma window_in : forall p s i, (i < 16)%nat -> window p 0 16 (mkLoc (s_blk p) (s_off p + i)) /\ nth i (loadN s (s_blk p) (s_off p) 16) 0 = s (mkLoc (s_blk p) (s_off p + i)).
Proof. intros p s i H. split; [split; [reflexivity|cbn; lia]|]. apply loadN_nth. exact H. Qed.
Lemma load_same : forall p s s', (forall a, window p 0 16 a -> s a = s' a) -> loadN s (s_blk p) (s_off p) 16 = loadN s' (s_blk p) (s_off p) 16.
Proof. intros p s s' H. apply load_ext. intros i Hi. apply H. split; [reflexivity|cbn; lia]. Qed.
Lemma alone_jobs : forall g n c key js s, cipherOf s c key -> spaced js ->
  Forall (fun j => (16 <= s_len (jDst j))%nat /\ (16 <= s_len (jSrc j))%nat /\ cEnc c <> s_blk (jDst j) /\ cDec c <> s_blk (jDst j)) js ->
  exists s', alone g n (goroutine (map (callOf c) js)) s = (n, Ret (map (fun _ => ANone) js), s') /\
    (forall j, In j js -> loadN s' (s_blk (jDst j)) (s_off (jDst j)) 16 = modeSpec (jEnc j) key (loadN s (s_blk (jSrc j)) (s_off (jSrc j)) 16)) /\
    forall a, (forall j, In j js -> ~ window (jDst j) 0 16 a) -> s' a = s a.
Proof.
  intros g n c key js. induction js as [|j js IH]; intros s C S F; cbn [map goroutine].
  - exists s. split; [reflexivity|]. split; [intros j []|auto].
  - inversion S as [|? ? Sj S']; subst. apply Forall_inv in F as Fj. apply Forall_inv_tail in F. destruct Fj as (L1 & L2 & N1 & N2).
    rewrite Forall_forall in Sj.
    assert (Ex : alone g n (execute (callOf c j)) s = (n, Ret ANone, storeL s (s_blk (jDst j)) (s_off (jDst j)) (modeSpec (jEnc j) key (loadN s (s_blk (jSrc j)) (s_off (jSrc j)) 16)))).
    { assert (M := alone_mode g n (jEnc j) c key (jDst j) (jSrc j) s C L2 L1). unfold callOf. destruct (jEnc j); apply (alone_do g n _ _ _ (fun _ => ANone) _ _ _ _ M). }
    rewrite alone_bind, Ex. set (s1 := storeL _ _ _ _). 
    assert (O1 : forall a, ~ window (jDst j) 0 16 a -> s1 a = s a).
    { intros a Na. apply storeL_out. rewrite modeSpec_length. unfold window in Na. destruct (Nat.lt_ge_cases (idx a) (s_off (jDst j))) as [Q|Q]; [auto|].
      destruct (Nat.lt_ge_cases (idx a) (s_off (jDst j) + 16)) as [Q'|Q']; [|auto]. left. intro E. apply Na. split; [exact E|lia]. }
    destruct (IH s1) as (s' & E & J & O); [apply cipher_store; assumption|exact S'|exact F|].
    exists s'. rewrite alone_bind, E. split; [reflexivity|]. split.
    + intros k [<-|Hk].
      * rewrite (load_same (jDst j) s' s1); [apply load_store_eq, modeSpec_length|]. intros a Ha. apply O. intros k Hk Q. exact (proj1 (Sj k Hk) a Ha Q).
      * rewrite (J k Hk). f_equal. apply load_same. intros a Ha. apply O1. intro Q. exact (proj2 (Sj k Hk) a Q Ha).
    + intros a Ha. rewrite O by (intros k Hk; apply Ha; right; exact Hk). apply O1. apply Ha. left. reflexivity.
Qed.
(** One cipher used by any number of goroutines at once: every block comes out as the standard says. *)
Theorem C112_cipher : forall gs sched s tr sf tf g c key js o n, proper gs -> together sched s gs = (tr, sf, tf) ->
  nth_error gs g = Some (map (callOf c) js) -> nth_error tf g = Some (mkThread (Done o) n) ->
  cipherOf s c key -> spaced js ->
  Forall (fun j => (16 <= s_len (jDst j))%nat /\ (16 <= s_len (jSrc j))%nat /\ cEnc c <> s_blk (jDst j) /\ cDec c <> s_blk (jDst j) /\ owner (s_blk (jDst j)) = O) js ->
  o = Ret (map (fun _ => ANone) js) /\
  forall j, In j js -> loadN sf (s_blk (jDst j)) (s_off (jDst j)) 16 =
    (if jEnc j then sm4_enc key else sm4_dec key) (loadN s (s_blk (jSrc j)) (s_off (jSrc j)) 16).
Proof.
  intros gs sched s tr sf tf g c key js o n P T Eg Et C S F. destruct (C112_same gs sched s tr sf tf g _ o n P T Eg Et) as (s' & E & Q).
  destruct (alone_jobs g 0 c key js s C S) as (s2 & E2 & J & _).
  { eapply Forall_impl; [|exact F]. cbv beta. tauto. }
  assert (o = Ret (map (fun _ => ANone) js)) by congruence. assert (s' = s2) by congruence. subst s2. split; [assumption|].
  intros j Hj. change (loadN sf (s_blk (jDst j)) (s_off (jDst j)) 16 = modeSpec (jEnc j) key (loadN s (s_blk (jSrc j)) (s_off (jSrc j)) 16)).
  rewrite <- (J j Hj). apply load_same. intros a Ha. apply Q. right. left. rewrite Forall_forall in F. split.
  - destruct Ha as [-> _]. apply (F j Hj).
  - exists (callOf c j). split; [apply in_map; exact Hj|]. unfold callOf. destruct (jEnc j); exact Ha.
Qed.
(** Making a cipher: the round keys are where the rest expects them. *)
Theorem C112_new_cipher : forall gs sched s tr sf tf g key o n, proper gs -> together sched s gs = (tr, sf, tf) ->
  nth_error gs g = Some [CNewCipher key] -> nth_error tf g = Some (mkThread (Done o) n) -> s_len key = 16%nat -> owner (s_blk key) = O ->
  exists c, o = Ret [ACipher (Ok c)] /\ cipherOf sf c (contents s key).
Proof.
  intros gs sched s tr sf tf g key o n P T Eg Et L O. destruct (C112_same gs sched s tr sf tf g _ o n P T Eg Et) as (s' & E & Q).
  destruct (alone_NewCipher g 0 key s L) as (s2 & E2 & C & _); [rewrite O; discriminate|].
  assert (E3 := alone_one g (CNewCipher key) _ _ _ _ _ (alone_do g 0 _ _ _ ACipher _ _ _ _ E2)). rewrite E in E3.
  exists (mkCipherRef (mkBlock (S g) 0) (mkBlock (S g) 1)). split; [congruence|]. assert (s' = s2) by congruence. subst s2.
  destruct C as [C1 C2]. split; [rewrite <- C1|rewrite <- C2]; apply load_ext; intros i _; apply Q; right; right; reflexivity.
Qed.
(** ECB with a key and a message that others may be reading too. *)
Theorem C112_ecb : forall gs sched s tr sf tf g e key inp bs o n, proper gs -> together sched s gs = (tr, sf, tf) ->
  nth_error gs g = Some [CEcb e key inp] -> nth_error tf g = Some (mkThread (Done o) n) ->
  s_len key = 16%nat -> owner (s_blk key) = O -> owner (s_blk inp) = O -> Forall is_block bs -> contents s inp = List.concat bs ->
  exists out, o = Ret [ABytes (Ok out)] /\ contents sf out = List.concat (map ((if e then sm4_enc else sm4_dec) (contents s key)) bs).
Proof.
  intros gs sched s tr sf tf g e key inp bs o n P T Eg Et L O1 O2 B C. destruct (C112_same gs sched s tr sf tf g _ o n P T Eg Et) as (s' & E & Q).
  destruct (alone_ecbCall g 0 e key inp bs s L) as (s2 & E2 & R); try assumption; [rewrite O1; discriminate|rewrite O2; discriminate|].
  assert (E3 := alone_one g (CEcb e key inp) _ _ _ _ _ (alone_do g 0 _ _ _ ABytes _ _ _ _ E2)). rewrite E in E3. assert (s' = s2) by congruence. subst s2.
  exists (mkCs (mkBlock (S g) 2) 0 (s_len inp) (s_len inp)). split; [congruence|]. transitivity (List.concat (map (modeSpec e (contents s key)) bs)); [|destruct e; reflexivity].
  rewrite <- R. apply load_ext. intros i _. apply Q. right. right. reflexivity.
Qed.

(** ** SM3 *)
Lemma returns_alone : forall A g (Q : A -> Prop) (m : prog A), returns g Q m -> forall n s, match alone g n m s with (_, Ret a, _) => Q a | _ => True end.
Proof.
  intros A g Q m. induction m as [[a|e]|l f IH|a f IH|a v f IH]; cbn [returns alone]; intros H n s; [exact H|exact I|apply IH, H|apply IH, H|apply IH, H].
Qed.
Lemma alone_writes : forall g d ps n s y ns, known g n d ->
  Forall (fun p => s_blk p <> d /\ known g n (s_blk p) /\ (s_len p <= s_cap p)%nat) ps -> write_all (loadD s d) (map (contents s) ps) = Ret (y, ns) ->
  exists n' s', alone g n (goroutine (map (CWrite d) ps)) s = (n', Ret (map ALen ns), s') /\ (n <= n')%nat /\ loadD s' d = y /\
    forall a, blk a <> d -> known g n (blk a) -> s' a = s a.
Proof.
  intros g d ps. induction ps as [|p ps IH]; intros n s y ns Kd F W; cbn [map goroutine write_all] in *.
  - injection W as <- <-. exists n, s. split; [reflexivity|]. split; [lia|]. auto.
  - apply Forall_inv in F as Fp. apply Forall_inv_tail in F. destruct Fp as (N1 & K1 & L1).
    destruct (ref_Write g d p (contents s p) n s Kd) as (n1 & o1 & s1 & E1 & M1 & F1 & Q1); [split; [exact N1|]; split; [exact K1|]; split; [reflexivity|exact L1]|].
    destruct (Write (loadD s d) (contents s p)) as [[y1 k]|e]; [|discriminate W]. cbn [bind] in W. destruct Q1 as [-> D1].
    destruct (write_all y1 (map (contents s) ps)) as [[y2 ns2]|e] eqn:W2; [|discriminate W]. cbn [bind] in W. injection W as <- <-.
    assert (Es : map (contents s1) ps = map (contents s) ps).
    { apply map_ext_in. intros q Hq. rewrite Forall_forall in F. destruct (F q Hq) as (Nq & Kq & _). apply load_ext. intros i _. apply F1; assumption. }
    destruct (IH n1 s1 y2 ns2) as (n2 & s2 & E2 & M2 & D2 & F2).
    + exact (known_mono g n n1 d Kd M1).
    + eapply Forall_impl; [|exact F]. cbv beta. intros q (A1 & A2 & A3). split; [exact A1|]. split; [exact (known_mono g n n1 _ A2 M1)|exact A3].
    + rewrite Es, D1. exact W2.
    + exists n2, s2. rewrite alone_bind. change (execute (CWrite d p)) with (par k <- WriteP d p; ret (ALen k)). rewrite (alone_do g n _ _ _ ALen _ _ _ _ E1). rewrite alone_bind, E2. split; [reflexivity|]. split; [lia|]. split; [exact D2|].
      intros a Na Ka. rewrite F2 by (exact Na || exact (known_mono g n n1 _ Ka M1)). apply F1; assumption.
Qed.

Lemma pos_all : forall cs x y ns, 0 <= xOff x -> write_all x cs = Ret (y, ns) -> 0 <= xOff y.
Proof.
  induction cs as [|c cs IH]; intros x y ns H E; cbn [write_all] in E; [injection E as <- <-; exact H|].
  destruct (Write x c) as [[x1 k]|e] eqn:W; [|discriminate E]. cbn [bind] in E. destruct (write_all x1 cs) as [[x2 ks]|e] eqn:W2; [|discriminate E]. cbn [bind] in E. injection E as <- <-.
  exact (IH _ _ _ (pos_Write _ _ _ _ H W) W2).
Qed.
(** A goroutine that makes its digest, writes pieces that others may be reading too, and sums, gets the standard hash of the pieces. *)
Theorem C112_digest : forall gs sched s tr sf tf g ps b o n, proper gs -> together sched s gs = (tr, sf, tf) ->
  nth_error gs g = Some (CNewDigest :: map (CWrite (mkBlock (S g) 0)) ps ++ [CSum (mkBlock (S g) 0) b]) -> nth_error tf g = Some (mkThread (Done o) n) ->
  Forall (fun p => owner (s_blk p) = O /\ (s_len p <= s_cap p)%nat /\ good_chunk (contents s p)) ps -> owner (s_blk b) = O ->
  zlen (List.concat (map (contents s) ps)) < 2 ^ 61 ->
  exists out, o = Ret (ADigest (mkBlock (S g) 0) :: map (fun p => ALen (Z.of_nat (s_len p))) ps ++ [ABytes (Ok out)]) /\
    contents sf out = contents s b ++ sm3_hash (List.concat (map (contents s) ps)).
Proof.
  intros gs sched s tr sf tf g ps b o n P T Eg Et F Ob L. destruct (C112_same gs sched s tr sf tf g _ o n P T Eg Et) as (s' & E & Q).
  set (d := mkBlock (S g) 0) in *. assert (Kd : known g 1 d) by (intros _; cbn; lia).
  set (s0 := fill s d (repeat 0 99)). destruct (ref_Reset g d 1%nat s0 Kd I) as (n1 & o1 & s1 & E1 & M1 & F1 & -> & D1).
  assert (X1 : alone g 0 (execute CNewDigest) s = (n1, Ret (ADigest d), s1)).
  { cbn [execute]. unfold NewP. cbn [bindc]. rewrite alone_alloc. fold d. fold s0. rewrite alone_bind. rewrite alone_bind, E1. reflexivity. }
  assert (U1 : forall a, owner (blk a) = O -> s1 a = s a).
  { intros a Ha. rewrite F1.
    - apply fill_other. intro Qa. rewrite Qa in Ha. discriminate Ha.
    - intro Qa. rewrite Qa in Ha. discriminate Ha.
    - intro Qa. rewrite Ha in Qa. discriminate Qa. }
  assert (EC : map (contents s1) ps = map (contents s) ps).
  { apply map_ext_in. intros p Hp. rewrite Forall_forall in F. apply load_ext. intros i _. apply U1. apply (F p Hp). }
  destruct (write_all_stands (map (contents s) ps) New [] stands_New) as (y & W & SF).
  { rewrite Forall_map. eapply Forall_impl; [|exact F]. cbv beta. tauto. }
  destruct (alone_writes g d ps n1 s1 y (map zlen (map (contents s) ps))) as (n2 & s2 & E2 & M2 & D2 & F2).
  { exact (known_mono g 1%nat n1 d Kd M1). }
  { eapply Forall_impl; [|exact F]. cbv beta. intros p (A1 & A2 & _). split; [intro Qp; rewrite Qp in A1; discriminate A1|]. split; [intro Qp; rewrite A1 in Qp; discriminate Qp|exact A2]. }
  { rewrite EC, D1. exact W. }
  cbn [app] in SF. destruct (checkSum_stands y _ SF L) as (y3 & H3 & _ & _).
  assert (Kd2 : known g n2 d) by (apply (known_mono g 1%nat); [exact Kd|lia]).
  destruct (ref_checkSum g d n2 s2 Kd2) as (n3 & o3 & s3 & E3 & M3 & F3 & Q3).
  { unfold posD. change (0 <= xOff (loadD s2 d)). rewrite D2. refine (pos_all _ New y _ _ W). vm_compute. discriminate. }
  rewrite D2, H3 in Q3. destruct Q3 as [-> _].
  assert (U3 : forall a, owner (blk a) = O -> s3 a = s a).
  { intros a Ha. rewrite F3, F2, U1; try exact Ha; try reflexivity; try (intro Qa; rewrite Qa in Ha; discriminate Ha); intro Qa; rewrite Ha in Qa; discriminate Qa. }
  set (h := sm3_hash (List.concat (map (contents s) ps))) in *.
  assert (Lh : List.length h = 32%nat).
  { assert (R := ret_checkSum g d). assert (Q4 := returns_alone _ g _ _ R n2 s2). rewrite E3 in Q4. exact Q4. }
  assert (X : exists n4 out s4, alone g n3 (appendP b h) s3 = (n4, Ret out, s4) /\ contents s4 out = contents s b ++ h /\
     forall i, (i < s_len out)%nat -> let a := mkLoc (s_blk out) (s_off out + i) in window b 0 (s_len b) a \/ ((s_len b + 32 <= s_cap b)%nat /\ window b (s_len b) (s_len b + 32) a) \/ owner (blk a) = S g).
  { unfold appendP. rewrite Lh. destruct (Nat.leb_spec (s_len b + 32) (s_cap b)) as [C|C].
    - rewrite alone_bind, alone_wrL. cbn [alone ret]. do 3 eexists. split; [reflexivity|]. split.
      + unfold contents at 1. cbn [s_blk s_off s_len]. rewrite loadN_app. f_equal; [|apply load_store_eq; exact Lh].
        rewrite load_store_out by lia. apply load_ext. intros i _. apply U3. exact Ob.
      + cbn [s_blk s_off s_len]. intros i Hi. cbv zeta. destruct (Nat.lt_ge_cases i (s_len b)) as [D|D]; [left|right; left]; [|split; [exact C|]]; (split; [reflexivity|cbn; lia]).
    - rewrite alone_bind, alone_rdN. cbn [alone ret]. do 3 eexists. split; [reflexivity|]. split.
      + unfold contents at 1. cbn [s_blk s_off s_len]. apply (list_ext _ _ (s_len b + 32)); [apply loadN_length|unfold contents; rewrite app_length, loadN_length; lia|].
        intros i Hi. rewrite loadN_nth by exact Hi. rewrite fill_same. cbn [Nat.add]. f_equal. f_equal. apply load_ext. intros j _. apply U3. exact Ob.
      + intros i _. right. right. reflexivity. }
  destruct X as (n4 & out & s4 & E4 & C4 & In4).
  assert (X2 : alone g 0 (goroutine (CNewDigest :: map (CWrite d) ps ++ [CSum d b])) s = (n4, Ret (ADigest d :: map ALen (map zlen (map (contents s) ps)) ++ [ABytes (Ok out)]), s4)).
  { change (CNewDigest :: map (CWrite d) ps ++ [CSum d b]) with ([CNewDigest] ++ map (CWrite d) ps ++ [CSum d b]). rewrite alone_app, (alone_one g _ _ _ _ _ _ X1), alone_app, E2.
    assert (X3 : alone g n2 (execute (CSum d b)) s2 = (n4, Ret (ABytes (Ok out)), s4)).
    { change (execute (CSum d b)) with (par x <- SumMethodP d b; ret (ABytes (Ok x))). apply (alone_do g n2 _ _ _ (fun x => ABytes (Ok x))). unfold SumMethodP. rewrite alone_bind, E3. exact E4. }
    rewrite (alone_one g _ _ _ _ _ _ X3). reflexivity. }
  exists out. rewrite E in X2. assert (s' = s4) by congruence. subst s4. split.
  - assert (A : map ALen (map zlen (map (contents s) ps)) = map (fun p => ALen (Z.of_nat (s_len p))) ps).
    { rewrite !map_map. apply map_ext. intro p. unfold zlen, contents. rewrite loadN_length. reflexivity. }
    rewrite A in X2. congruence.
  - rewrite <- C4. unfold contents. apply load_ext. intros i Hi. apply Q. specialize (In4 (i - s_off out)%nat ltac:(lia)). cbv zeta in In4. replace (s_off out + (i - s_off out))%nat with i in In4 by lia.
    assert (Is : In (CSum d b) (CNewDigest :: map (CWrite d) ps ++ [CSum d b])) by (right; apply in_or_app; right; left; reflexivity).
    assert (Ow : forall lo hi, window b lo hi (mkLoc (s_blk out) i) -> owner (blk (mkLoc (s_blk out) i)) = O) by (intros lo hi [-> _]; exact Ob).
    destruct In4 as [H|[[C H]|H]]; [left|right; left|right; right; exact H]; (split; [exact (Ow _ _ H)|]); exists (CSum d b); (split; [exact Is|]); [exact H|right; split; [exact C|exact H]].
Qed.
(** The one-shot function on data that others may be reading too. *)
Theorem C112_sum : forall gs sched s tr sf tf g data o n, proper gs -> together sched s gs = (tr, sf, tf) ->
  nth_error gs g = Some [CSumOf data] -> nth_error tf g = Some (mkThread (Done o) n) ->
  owner (s_blk data) = O -> (s_len data <= s_cap data)%nat -> good_chunk (contents s data) -> o = Ret [AHash (sm3_hash (contents s data))].
Proof.
  intros gs sched s tr sf tf g data o n P T Eg Et Od Lc G. destruct (C112_same gs sched s tr sf tf g _ o n P T Eg Et) as (s' & E & Q).
  set (d := mkBlock (S g) 0) in *. assert (Kd : known g 1 d) by (intros _; cbn; lia).
  set (s0 := fill s d (repeat 0 99)). destruct (ref_Reset g d 1%nat s0 Kd I) as (n1 & o1 & s1 & E1 & M1 & F1 & -> & D1).
  assert (Nd : s_blk data <> d) by (intro Qa; rewrite Qa in Od; discriminate Od). assert (Ks : forall m, known g m (s_blk data)) by (intros m Qa; rewrite Od in Qa; discriminate Qa).
  assert (C1 : contents s1 data = contents s data).
  { apply load_ext. intros i _. rewrite F1 by (exact Nd || apply Ks). apply fill_other. exact Nd. }
  destruct (write_stands New [] (contents s data) stands_New G) as (y & W & SF).
  destruct (ref_Write g d data (contents s1 data) n1 s1) as (n2 & o2 & s2 & E2 & M2 & F2 & Q2).
  { exact (known_mono g 1%nat n1 d Kd M1). }
  { split; [exact Nd|]. split; [apply Ks|]. split; [reflexivity|exact Lc]. }
  rewrite D1, C1, W in Q2. destruct Q2 as [-> D2]. cbn [app] in SF.
  destruct (checkSum_stands y _ SF) as (y3 & H3 & _ & _). { destruct G as (_ & _ & G). lia. }
  destruct (ref_checkSum g d n2 s2) as (n3 & o3 & s3 & E3 & M3 & F3 & Q3).
  { apply (known_mono g 1%nat); [exact Kd|lia]. }
  { unfold posD. change (0 <= xOff (loadD s2 d)). rewrite D2. refine (pos_Write New _ _ _ _ W). vm_compute. discriminate. }
  rewrite D2, H3 in Q3. destruct Q3 as [-> _].
  assert (X : alone g 0 (execute (CSumOf data)) s = (n3, Ret (AHash (sm3_hash (contents s data))), s3)).
  { change (execute (CSumOf data)) with (par x <- SumP data; ret (AHash x)). apply (alone_do g 0 _ _ _ AHash). unfold SumP. rewrite alone_alloc. fold d. fold s0. rewrite alone_bind, E1, alone_bind, E2. exact E3. }
  rewrite (alone_one g _ _ _ _ _ _ X) in E. congruence.
Qed.

(** There is always a schedule that lets every goroutine end: one after the other. *)
Fixpoint inTurn (g : nat) (gs : list (list call)) (s : memory) : list nat :=
  match gs with [] => [] | cs :: gs => repeat g (turns g 0 (goroutine cs) s) ++ inTurn (S g) gs s end.
Lemma count_inTurn : forall gs g s h cs, nth_error gs h = Some cs -> (turns (g + h) 0 (goroutine cs) s <= count_occ Nat.eq_dec (inTurn g gs s) (g + h))%nat.
Proof.
  induction gs as [|c gs IH]; intros g s [|h] cs E; cbn in E; try discriminate E; cbn [inTurn]; rewrite count_occ_app.
  - injection E as ->. rewrite Nat.add_0_r. assert (Q : forall k, count_occ Nat.eq_dec (repeat g k) g = k).
    { induction k as [|k IHk]; [reflexivity|]. cbn. destruct (Nat.eq_dec g g); [rewrite IHk; reflexivity|contradiction]. }
    rewrite Q. lia.
  - specialize (IH (S g) s h cs E). replace (g + S h)%nat with (S g + h)%nat by lia. lia.
Qed.
Theorem C112_can_finish : forall gs s, proper gs -> exists sched tr sf tf, together sched s gs = (tr, sf, tf) /\
  forall g cs, nth_error gs g = Some cs -> exists n o, nth_error tf g = Some (mkThread (Done o) n).
Proof.
  intros gs s P. exists (inTurn 0 gs s). destruct (together (inTurn 0 gs s) s gs) as [[tr sf] tf] eqn:E. exists tr, sf, tf. split; [reflexivity|].
  intros g cs Eg. exact (C112_finishes gs _ s tr sf tf g cs P E Eg (count_inTurn gs 0 s g cs Eg)).
Qed.

(** * An example for all of these *)
Definition memOf (bs : list (list Z)) : memory := fun a => if Nat.eqb (owner (blk a)) 0 then nth (idx a) (nth (number (blk a)) bs []) 0 else 0.
Definition sl (b o n : nat) : cslice := mkCs (mkBlock 0 b) o n n.
Definition exKey : list Z := [1; 35; 69; 103; 137; 171; 205; 239; 254; 220; 186; 152; 118; 84; 50; 16].
Definition exMsg : list Z := exKey ++ map (fun i => 3 * i) exKey ++ [7].
Definition exMem : memory := memOf [round_keys exKey; rev (round_keys exKey); map (fun x => x mod 256) exMsg; repeat 0 32; exKey].
Definition exC : cipherRef := mkCipherRef (mkBlock 0 0) (mkBlock 0 1).
Definition exD : ConcMem.block := mkBlock 3 0.
(** Two goroutines share a cipher and a message; the others hash and encrypt the same message. *)
Definition exGs : list (list call) :=
  [ map (callOf exC) [mkJob true (sl 3 0 16) (sl 2 0 16)];
    map (callOf exC) [mkJob false (sl 3 16 16) (sl 2 0 16)];
    CNewDigest :: map (CWrite exD) [sl 2 0 33; sl 2 5 3] ++ [CSum exD (sl 4 0 2)];
    [CSumOf (sl 2 0 33)];
    [CEcb true (sl 4 0 16) (sl 2 0 32)];
    [CNewCipher (sl 4 0 16)] ].
Ltac calls H := lazymatch type of H with False => destruct H | _ => destruct H as [<-|H]; [|calls H] end.
Ltac look H := lazymatch type of H with
  | False => destruct H
  | _ \/ _ => destruct H as [H|H]; look H
  | window _ _ _ _ => let Q := fresh in destruct H as [H Q]; cbn in H, Q
  | _ /\ _ => let Q := fresh in destruct H as [Q H]; cbn in Q; look H
  | _ => cbn in H
  end.
Ltac each g E Ic n := lazymatch n with
  | O => destruct g; discriminate E
  | S ?n => destruct g as [|g]; [cbn in E; injection E as <-; cbn [In map app callOf jEnc jDst jSrc] in Ic; calls Ic|each g E Ic n]
  end.
Lemma ex_writes : forall g cs a, nth_error exGs g = Some cs -> writesG cs a ->
  number (blk a) = 3%nat /\ ((g = 0 /\ idx a < 16) \/ (g = 1 /\ 16 <= idx a))%nat.
Proof.
  intros g cs a E (O & c & Ic & Wc). each g E Ic 6%nat; cbn [writesOf] in Wc; look Wc; try lia; rewrite Wc in O |- *; try discriminate O; split; try reflexivity; lia.
Qed.
Lemma ex_reads : forall g cs a, nth_error exGs g = Some cs -> readsG cs a -> number (blk a) <> 3%nat.
Proof.
  intros g cs a E (O & c & Ic & Wc). each g E Ic 6%nat; cbn [readsOf] in Wc; look Wc; rewrite Wc; discriminate.
Qed.
Example C112_ex_proper : proper exGs.
Proof.
  split.
  - intros g h cs cs' a N Eg Eh W. destruct (ex_writes g cs a Eg W) as [E3 C]. split; [intro R; exact (ex_reads h cs' a Eh R E3)|].
    intro W'. destruct (ex_writes h cs' a Eh W') as [_ C']. lia.
  - intros g cs E c a Ic H. each g E Ic 6%nat; cbn [readsOf writesOf] in H; look H; rewrite H; auto.
Qed.
Example C112_ex_cipher : cipherOf exMem exC exKey /\ spaced [mkJob true (sl 3 0 16) (sl 2 0 16)] /\
  contents exMem (sl 4 0 16) = exKey /\ contents exMem (sl 2 0 32) = List.concat [exKey; map (fun x => (3 * x) mod 256) exKey] /\
  Forall (fun p => owner (s_blk p) = O /\ (s_len p <= s_cap p)%nat /\ good_chunk (contents exMem p)) [sl 2 0 33; sl 2 5 3].
Proof.
  split; [split; vm_compute; reflexivity|]. split; [repeat constructor|]. split; [vm_compute; reflexivity|]. split; [vm_compute; reflexivity|].
  repeat constructor; try discriminate; try (vm_compute; intro Q; discriminate Q); vm_compute; repeat constructor; discriminate.
Qed.
(** A schedule of the six, and what two of them get. *)
Example C112_ex_runs : exists sched tr sf tf, together sched exMem exGs = (tr, sf, tf) /\
  loadN sf (mkBlock 0 3) 0 16 = sm4_enc exKey exKey /\
  exists n out, nth_error tf 2 = Some (mkThread (Done (Ret [ADigest exD; ALen 33; ALen 3; ABytes (Ok out)])) n) /\
    contents sf out = [1; 35] ++ sm3_hash (contents exMem (sl 2 0 33) ++ [171; 205; 239]).
Proof.
  destruct (C112_can_finish exGs exMem C112_ex_proper) as (sched & tr & sf & tf & T & Fin). exists sched, tr, sf, tf. split; [exact T|].
  destruct C112_ex_cipher as (C & S & _ & _ & G). split.
  - destruct (Fin 0%nat _ eq_refl) as (n & o & Et).
    destruct (C112_cipher exGs sched exMem tr sf tf 0 exC exKey _ o n C112_ex_proper T eq_refl Et C S) as [_ J].
    { repeat constructor; discriminate. }
    exact (J (mkJob true (sl 3 0 16) (sl 2 0 16)) (or_introl eq_refl)).
  - destruct (Fin 2%nat _ eq_refl) as (n & o & Et).
    destruct (C112_digest exGs sched exMem tr sf tf 2 _ _ o n C112_ex_proper T eq_refl Et G eq_refl) as (out & -> & R); [vm_compute; reflexivity|].
    exists n, out. split; [exact Et|exact R].
Qed.

(** * A digest used by two goroutines at once *)
Definition cellsOf (x : sm3Digest) : list Z := v x ++ inWords x ++ [xOff x] ++ w x ++ xBuf x ++ [xBufOff x; byteCount x].
Definition shD : ConcMem.block := mkBlock 0 0.
Definition ran (q : list (nat * access) * memory * list (thread (list answer))) := fst (fst q).
Definition endMem (q : list (nat * access) * memory * list (thread (list answer))) := snd (fst q).
Lemma parts : forall q, q = (ran q, endMem q, snd q).
Proof. intros [[a b] c]. reflexivity. Qed.
(** Two goroutines each write one byte to a new digest. Both are told that it was written; yet the digest goes on as if only the
    second had been, so that what it will sum to is the hash of neither order. *)
Theorem C112_shared_write_refuted : exists s sched tr sf tf y,
  loadD s shD = New /\ contents s (sl 1 0 1) = [1] /\ contents s (sl 2 0 1) = [2] /\
  together sched s [[CWrite shD (sl 1 0 1)]; [CWrite shD (sl 2 0 1)]] = (tr, sf, tf) /\
  tf = [mkThread (Done (Ret [ALen 1])) 0; mkThread (Done (Ret [ALen 1])) 0] /\
  checkSum (loadD sf shD) = Ret (y, sm3_hash [2]) /\ sm3_hash [2] <> sm3_hash [1; 2] /\ sm3_hash [2] <> sm3_hash [2; 1].
Proof.
  set (s := memOf [cellsOf New; [1]; [2]]). set (q := together (List.concat (repeat [0; 1] 9))%nat s [[CWrite shD (sl 1 0 1)]; [CWrite shD (sl 2 0 1)]]).
  assert (D : Write New [2] = Ret (loadD (endMem q) shD, 1)) by (vm_compute; reflexivity).
  destruct (write_stands New [] [2] stands_New) as (d2 & E & S); [repeat constructor; discriminate|]. rewrite D in E. injection E as E. rewrite <- E in S.
  destruct (checkSum_stands _ _ S) as (y & E2 & _); [reflexivity|]. clear E S D.
  exists s, (List.concat (repeat [0; 1] 9))%nat, (ran q), (endMem q), (snd q), y.
  split; [vm_compute; reflexivity|]. split; [reflexivity|]. split; [reflexivity|]. split; [apply parts|]. split; [vm_compute; reflexivity|]. split; [exact E2|].
  split; vm_compute; intro Q; discriminate Q.
Qed.
(** Three bytes have been written before; two goroutines write one byte each, and one of them panics. Neither would alone, nor after the other. *)
Theorem C112_shared_write_panics_refuted : exists s sched tr sf tf,
  write_all New [[1; 2; 3]] = Ret (loadD s shD, [3]) /\ contents s (sl 1 0 1) = [4] /\ contents s (sl 2 0 1) = [5] /\
  together sched s [[CWrite shD (sl 1 0 1)]; [CWrite shD (sl 2 0 1)]] = (tr, sf, tf) /\
  tf = [mkThread (Done (Ret [ALen 1])) 0; mkThread (Done (Panic PIndex)) 0] /\
  (forall b, exists y, Write (loadD s shD) [b] = Ret (y, 1)) /\ forall b c, exists y z, Write (loadD s shD) [b] = Ret (y, 1) /\ Write y [c] = Ret (z, 1).
Proof.
  set (d3 := match Write New [1; 2; 3] with Ret (x, _) => x | Panic _ => New end).
  set (s := memOf [cellsOf d3; [4]; [5]]). set (sched := ([1; 1; 1] ++ repeat 0 7 ++ [1] ++ repeat 0 20)%nat).
  set (q := together sched s [[CWrite shD (sl 1 0 1)]; [CWrite shD (sl 2 0 1)]]).
  exists s, sched, (ran q), (endMem q), (snd q).
  split; [vm_compute; reflexivity|]. split; [reflexivity|]. split; [reflexivity|]. split; [apply parts|]. split; [vm_compute; reflexivity|].
  assert (E : loadD s shD = d3) by (vm_compute; reflexivity). rewrite E. split.
  - intro b. eexists. reflexivity.
  - intros b c. do 2 eexists. split; reflexivity.
Qed.
(** Even two calls of Sum, of which the interface says that they do not change the state, write the same memory. *)
Theorem C112_shared_sum_refuted : exists s sched tr sf tf a,
  loadD s shD = New /\ together sched s [[CSum shD (sl 1 0 0)]; [CSum shD (sl 2 0 0)]] = (tr, sf, tf) /\
  In (0%nat, WrA a) tr /\ In (1%nat, WrA a) tr /\ blk a = shD.
Proof.
  set (s := memOf [cellsOf New]). set (sched := List.concat (repeat [0; 1] 8)%nat).
  set (q := together sched s [[CSum shD (sl 1 0 0)]; [CSum shD (sl 2 0 0)]]).
  exists s, sched, (ran q), (endMem q), (snd q), (mkLoc shD fXBuf).
  split; [vm_compute; reflexivity|]. split; [apply parts|].
  assert (T : existsb (fun x => match x with (O, WrA a) => loc_eqb a (mkLoc shD fXBuf) | _ => false end) (ran q) = true) by (vm_compute; reflexivity).
  assert (T1 : existsb (fun x => match x with (S O, WrA a) => loc_eqb a (mkLoc shD fXBuf) | _ => false end) (ran q) = true) by (vm_compute; reflexivity).
  apply existsb_exists in T. destruct T as ([[|?] [?|a|?]] & I0 & Q0); try discriminate Q0. apply loc_eqb_iff in Q0. subst a.
  apply existsb_exists in T1. destruct T1 as ([[|[|?]] [?|a|?]] & I1 & Q1); try discriminate Q1. apply loc_eqb_iff in Q1. subst a.
  split; [exact I0|]. split; [exact I1|reflexivity].
Qed.
