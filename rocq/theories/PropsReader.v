(** Randomness from an arbitrary io.Reader (C110): how the bytes come in pieces makes no difference. *)
From Coq Require Import ZArith List Lia Bool String.
From Verif Require Import GoBase GoElliptic Sm3 Sm2 GoAsn1 Sm2Der Sm2Reader.
Import ListNotations.
Open Scope Z_scope.

(** * The specification *)
Section Feeds.
Variable St : Type.
Variable read : St -> Z -> list Z * option string * St.
(** From the state [s], within [k] calls, the reader delivers the bytes [d] and then, if [fin] is an error,
    fails with it; if [fin] is [None] nothing is said about what comes after [d]. The pieces may have any
    size up to the size of the buffer, none may be empty or all; the error may come with the last bytes,
    and then comes again. *)
Fixpoint feeds (k : nat) (s : St) (d : list Z) (fin : option string) : Prop :=
  match k with
  | O => False
  | S k =>
      (d = [] /\ fin = None) \/
      forall n, 0 < n -> exists chunk err s' rest, read s n = (chunk, err, s') /\ d = chunk ++ rest /\ zlen chunk <= n /\
        match err with
        | None => feeds k s' rest fin
        | Some e => rest = [] /\ fin = Some e /\ (chunk = [] \/ feeds k s' [] fin)
        end
  end.
(** The error for a tape that is too short, when the reader fails with [e] instead of io.EOF. *)
Definition ends (m : string) : bool := (m =? "EOF")%string || (m =? "unexpected EOF")%string.
Definition reader_error (m e : string) : string := if (e =? "EOF")%string then m else e.
(** [y], for all sufficient fuel, is what [x] is for the tape: the same panic, the same value with the rest
    of the tape still to be delivered, or an error. *)
Definition same_outcome {A} (fin : option string) (x : go (res A * list Z)) (y : nat -> outcome St A) : Prop :=
  match x with
  | Panic p => exists f0, forall f, (f0 <= f)%nat -> y f = Some (Panic p)
  | Ret (OK a, rest) => exists f0 s' k', feeds k' s' rest fin /\ forall f, (f0 <= f)%nat -> y f = Some (Ret (OK a, s'))
  | Ret (ERR m, rest) =>
      if ends m
      then match fin with
           | None => True
           | Some e => exists f0 s', forall f, (f0 <= f)%nat -> y f = Some (Ret (ERR (reader_error m e), s'))
           end
      else exists f0 s' k', feeds k' s' rest fin /\ forall f, (f0 <= f)%nat -> y f = Some (Ret (ERR m, s'))
  end.

(** * Combining steps *)
Lemma same_ext {A} : forall fin (x : go (res A * list Z)) y z, (forall f, y f = z f) -> same_outcome fin x y -> same_outcome fin x z.
Proof.
  intros fin x y z E H. destruct x as [[[a|m] rest]|p]; cbn [same_outcome] in *.
  - destruct H as (f0 & s' & k' & HF & H). exists f0, s', k'. split; [exact HF|]. intros f L. rewrite <- E. now apply H.
  - destruct (ends m).
    + destruct fin as [e|]; [|exact I]. destruct H as (f0 & s' & H). exists f0, s'. intros f L. rewrite <- E. now apply H.
    + destruct H as (f0 & s' & k' & HF & H). exists f0, s', k'. split; [exact HF|]. intros f L. rewrite <- E. now apply H.
  - destruct H as (f0 & H). exists f0. intros f L. rewrite <- E. now apply H.
Qed.
(** One more unit of fuel. *)
Lemma same_shift {A} : forall fin (x : go (res A * list Z)) y, same_outcome fin x y ->
  same_outcome fin x (fun f => match f with O => None | S f => y f end).
Proof.
  intros fin x y H. destruct x as [[[a|m] rest]|p]; cbn [same_outcome] in *.
  - destruct H as (f0 & s' & k' & HF & H). exists (S f0), s', k'. split; [exact HF|]. intros [|f] L; [lia|]. apply H. lia.
  - destruct (ends m).
    + destruct fin as [e|]; [|exact I]. destruct H as (f0 & s' & H). exists (S f0), s'. intros [|f] L; [lia|]. apply H. lia.
    + destruct H as (f0 & s' & k' & HF & H). exists (S f0), s', k'. split; [exact HF|]. intros [|f] L; [lia|]. apply H. lia.
  - destruct H as (f0 & H). exists (S f0). intros [|f] L; [lia|]. apply H. lia.
Qed.
Lemma same_from {A} : forall fin (x : go (res A * list Z)) y z f1, (forall f, (f1 <= f)%nat -> y f = z f) -> same_outcome fin x y -> same_outcome fin x z.
Proof.
  intros fin x y z f1 E H. destruct x as [[[a|m] rest]|p]; cbn [same_outcome] in *.
  - destruct H as (f0 & s' & k' & HF & H). exists (Nat.max f0 f1), s', k'. split; [exact HF|]. intros f L. rewrite <- E by lia. apply H. lia.
  - destruct (ends m).
    + destruct fin as [e|]; [|exact I]. destruct H as (f0 & s' & H). exists (Nat.max f0 f1), s'. intros f L. rewrite <- E by lia. apply H. lia.
    + destruct H as (f0 & s' & k' & HF & H). exists (Nat.max f0 f1), s', k'. split; [exact HF|]. intros f L. rewrite <- E by lia. apply H. lia.
  - destruct H as (f0 & H). exists (Nat.max f0 f1). intros f L. rewrite <- E by lia. apply H. lia.
Qed.
Definition bindT {A B} (x : go (res A * list Z)) (f : A -> list Z -> go (res B * list Z)) : go (res B * list Z) :=
  match x with
  | Ret (OK a, tape) => f a tape
  | Ret (ERR e, tape) => Ret (ERR e, tape)
  | Panic p => Panic p
  end.
Lemma same_bind {A B} : forall fin (x : go (res A * list Z)) y (f : A -> list Z -> go (res B * list Z)) (g : nat -> A -> St -> outcome St B),
  same_outcome fin x y ->
  (forall a rest s k, x = Ret (OK a, rest) -> feeds k s rest fin -> same_outcome fin (f a rest) (fun n => g n a s)) ->
  same_outcome fin (bindT x f) (fun n => bindR St (y n) (g n)).
Proof.
  intros fin x y f g H HG. destruct x as [[[a|m] rest]|p]; cbn [same_outcome bindT] in *.
  - destruct H as (f0 & s' & k' & HF & H). apply (same_from fin _ (fun n => g n a s') _ f0); [|exact (HG a rest s' k' eq_refl HF)].
    intros n L. now rewrite (H n L).
  - destruct (ends m).
    + destruct fin as [e|]; [|exact I]. destruct H as (f0 & s' & H). exists f0, s'. intros n L. now rewrite (H n L).
    + destruct H as (f0 & s' & k' & HF & H). exists f0, s', k'. split; [exact HF|]. intros n L. now rewrite (H n L).
  - destruct H as (f0 & H). exists f0. intros n L. now rewrite (H n L).
Qed.
Lemma same_done {A} : forall fin (a : A) rest k s, feeds k s rest fin -> same_outcome fin (Ret (OK a, rest)) (fun _ => done St a s).
Proof. intros fin a rest k s H. exists O, s, k. split; [exact H|reflexivity]. Qed.
Lemma same_lift {A B} : forall fin (x : go A) (f : A -> go (res B * list Z)) g, (forall a, x = Ret a -> same_outcome fin (f a) (fun n => g n a)) ->
  same_outcome fin (bind x f) (fun n => liftR St x (g n)).
Proof.
  intros fin x f g H. destruct x as [a|p]; cbn [bind liftR]; [exact (H a eq_refl)|]. exists O. reflexivity.
Qed.

(** * io.ReadFull *)
Lemma zlen_app {A} : forall l m : list A, zlen (l ++ m) = zlen l + zlen m.
Proof. intros. unfold zlen. rewrite app_length. lia. Qed.
Lemma loop_reads : forall fin need k s d got, feeds k s d fin -> zlen got <= need ->
  if need <=? zlen got + zlen d
  then exists f0 s' k', feeds k' s' (skipn (Z.to_nat (need - zlen got)) d) fin /\
         forall f, (f0 <= f)%nat -> readLoop St read f need got s = Some (Ret (OK (got ++ firstn (Z.to_nat (need - zlen got)) d), s'))
  else match fin with
       | None => True
       | Some e => exists f0 s', forall f, (f0 <= f)%nat ->
           readLoop St read f need got s = Some (Ret (ERR (if (0 <? zlen got + zlen d) && (e =? "EOF")%string then "unexpected EOF" else e), s'))
       end.
Proof.
  intros fin need. induction k as [|k IH]; intros s d got HF HG; [destruct HF|].
  pose proof (Zle_0_nat (List.length d)) as PD. fold (zlen d) in PD.
  destruct (Z.leb_spec need (zlen got)) as [L|L].
  - destruct (Z.leb_spec need (zlen got + zlen d)); [|lia]. replace (Z.to_nat (need - zlen got)) with O by lia. cbn [skipn firstn].
    exists O, s, (S k). split; [exact HF|]. intros f _. rewrite app_nil_r. destruct f; cbn [readLoop]; destruct (Z.leb_spec need (zlen got)); [reflexivity|lia|reflexivity|lia].
  - cbn [feeds] in HF. destruct HF as [[-> ->]|HF].
    { change (zlen (@nil Z)) with 0. destruct (Z.leb_spec need (zlen got + 0)); [lia|exact I]. }
    destruct (HF (need - zlen got) ltac:(lia)) as (chunk & err & s' & rest & ER & -> & LC & HE). clear HF.
    assert (STEP : forall f, readLoop St read (S f) need got s =
      match err with
      | None => readLoop St read f need (got ++ chunk) s'
      | Some e => if need <=? zlen (got ++ chunk) then done St (got ++ chunk) s'
                  else Some (Ret (ERR (if (0 <? zlen (got ++ chunk)) && (e =? "EOF")%string then "unexpected EOF" else e), s'))
      end).
    { intros f. cbn [readLoop]. destruct (Z.leb_spec need (zlen got)); [lia|]. now rewrite ER. }
    pose proof (Zle_0_nat (List.length chunk)) as PC. fold (zlen chunk) in PC.
    destruct err as [e|].
    + destruct HE as (-> & EF & HE). rewrite app_nil_r in *. rewrite zlen_app in STEP.
      destruct (Z.leb_spec need (zlen got + zlen chunk)) as [M|M].
      * assert (LE : zlen chunk = need - zlen got) by lia. rewrite <- LE. unfold zlen at 1 2. rewrite Nat2Z.id, skipn_all, firstn_all.
        destruct HE as [->|HE]; [change (zlen (@nil Z)) with 0 in LE; lia|]. exists 1%nat, s', k. split; [exact HE|]. intros [|f] Lf; [lia|]. now rewrite STEP.
      * rewrite EF. exists 1%nat, s'. intros [|f] Lf; [lia|]. now rewrite STEP.
    + specialize (IH s' rest (got ++ chunk) HE). rewrite zlen_app in IH. specialize (IH ltac:(lia)). rewrite zlen_app, Z.add_assoc.
      destruct (Z.leb_spec need (zlen got + zlen chunk + zlen rest)) as [M|M].
      * destruct IH as (f0 & s2 & k2 & HF & IH). exists (S f0), s2, k2.
        assert (EN : Z.to_nat (need - zlen got) = (List.length chunk + Z.to_nat (need - (zlen got + zlen chunk)))%nat) by (unfold zlen in *; lia).
        rewrite EN. split.
        -- rewrite skipn_app, skipn_all2 by lia. rewrite Nat.add_comm, Nat.add_sub. exact HF.
        -- intros [|f] Lf; [lia|]. rewrite STEP, IH by lia. rewrite firstn_app, (firstn_all2 chunk) by lia.
           rewrite (Nat.add_comm (List.length chunk)), Nat.add_sub. now rewrite <- app_assoc.
      * destruct fin as [e|]; [|exact I]. destruct IH as (f0 & s2 & IH). exists (S f0), s2. intros [|f] Lf; [lia|]. rewrite STEP. apply IH. lia.
Qed.
Definition fullT (tape : list Z) : go (res (list Z) * list Z) :=
  match ReadFull 32 tape with None => Ret (ERR (eof_msg tape), []) | Some (bs, tape) => Ret (OK bs, tape) end.
Lemma full_same : forall fin k s tape, feeds k s tape fin -> same_outcome fin (fullT tape) (fun f => ReadFullR St read f s).
Proof.
  intros fin k s tape H. pose proof (loop_reads fin 32 k s tape [] H ltac:(vm_compute; discriminate)) as L. change (zlen (@nil Z)) with 0 in L. rewrite Z.add_0_l, Z.sub_0_r in L.
  unfold fullT, ReadFull. unfold ReadFullR. change (Z.to_nat 32) with 32%nat in L.
  destruct (Nat.ltb_spec (List.length tape) 32) as [M|M]; destruct (Z.leb_spec 32 (zlen tape)) as [N|N]; try (unfold zlen in N; lia).
  - cbn [same_outcome]. assert (EN : ends (eof_msg tape) = true) by now destruct tape. rewrite EN.
    destruct fin as [e|]; [|exact I]. destruct L as (f0 & s' & L). exists f0, s'. intros f Lf. rewrite (L f Lf). f_equal. f_equal. f_equal. f_equal.
    unfold reader_error. destruct tape as [|x tape]; cbn [eof_msg].
    + change (0 <? zlen (@nil Z)) with false. cbn [andb]. destruct (String.eqb_spec e "EOF"); [assumption|reflexivity].
    + assert (0 <? zlen (x :: tape) = true) as -> by reflexivity. cbn [andb]. reflexivity.
  - exact L.
Qed.

(** * What the functions take from the tape *)
Lemma fullT_takes : forall tape bs rest, fullT tape = Ret (OK bs, rest) -> (List.length rest < List.length tape)%nat.
Proof.
  intros tape bs rest H. unfold fullT, ReadFull in H. destruct (Nat.ltb_spec (List.length tape) 32); [discriminate H|].
  assert (rest = skipn 32 tape) as -> by congruence. rewrite skipn_length. lia.
Qed.
Lemma rand_step : forall n max tape, Ret (rand_int_loop n max tape) =
  bindT (fullT tape) (fun bs tape => if be_dec bs <? max then Ret (OK (be_dec bs), tape)
                                     else match n with O => Ret (ERR "model: out of fuel", tape) | S n => Ret (rand_int_loop n max tape) end).
Proof.
  intros n max tape. destruct n as [|n]; cbn [rand_int_loop]; unfold fullT; (destruct (ReadFull 32 tape) as [[bs t]|]; cbn [bindT]; [|reflexivity]); cbv zeta; destruct (be_dec bs <? max); reflexivity.
Qed.
Lemma rand_takes : forall n max tape k rest, rand_int_loop n max tape = (OK k, rest) -> (List.length rest < List.length tape)%nat.
Proof.
  induction n as [|n IH]; intros max tape k rest H; apply (f_equal Ret) in H; rewrite rand_step in H;
    destruct (fullT tape) as [[[bs|m] t]|p] eqn:EF; cbn [bindT] in H; try discriminate H; pose proof (fullT_takes _ _ _ EF) as LT;
    destruct (be_dec bs <? max).
  - assert (rest = t) as -> by congruence. exact LT.
  - discriminate H.
  - assert (rest = t) as -> by congruence. exact LT.
  - assert (H' : rand_int_loop n max t = (OK k, rest)) by congruence. apply IH in H'. lia.
Qed.
Lemma nextK_step : forall n max tape, Ret (nextK_loop n max tape) =
  bindT (Ret (rand_Int max tape)) (fun k tape => if 1 <=? k then Ret (OK k, tape)
                                     else match n with O => Ret (ERR "model: out of fuel", tape) | S n => Ret (nextK_loop n max tape) end).
Proof.
  intros n max tape. destruct n as [|n]; cbn [nextK_loop]; (destruct (rand_Int max tape) as [[k|m] t]; cbn [bindT]; [|reflexivity]); destruct (1 <=? k); reflexivity.
Qed.
Lemma nextK_takes : forall n max tape k rest, nextK_loop n max tape = (OK k, rest) -> (List.length rest < List.length tape)%nat.
Proof.
  induction n as [|n IH]; intros max tape k rest H; apply (f_equal Ret) in H; rewrite nextK_step in H;
    destruct (rand_Int max tape) as [[k'|m] t] eqn:EF; cbn [bindT] in H; try discriminate H; pose proof (rand_takes _ _ _ _ _ EF) as LT;
    destruct (1 <=? k').
  - assert (rest = t) as -> by congruence. exact LT.
  - discriminate H.
  - assert (rest = t) as -> by congruence. exact LT.
  - assert (H' : nextK_loop n max t = (OK k, rest)) by congruence. apply IH in H'. lia.
Qed.

(** * The loops *)
Lemma rand_same : forall fin max n tape k s, (List.length tape <= n)%nat -> feeds k s tape fin ->
  same_outcome fin (Ret (rand_int_loop n max tape)) (fun f => rand_IntR St read f max s).
Proof.
  intros fin max. induction n as [|n IH]; intros tape k s LN HF; rewrite rand_step;
  (apply (same_ext fin _ (fun f => bindR St (ReadFullR St read f s) (fun bs s => if be_dec bs <? max then done St (be_dec bs) s
     else match f with O => None | S f => rand_IntR St read f max s end)));
   [intros [|f]; reflexivity|]);
  (apply (same_bind fin _ _ _ (fun f bs s => if be_dec bs <? max then done St (be_dec bs) s else match f with O => None | S f => rand_IntR St read f max s end));
   [exact (full_same fin k s tape HF)|]);
  intros bs rest s' k' EF HF'; pose proof (fullT_takes _ _ _ EF) as LT; (destruct (be_dec bs <? max); [exact (same_done fin _ rest k' s' HF')|]).
  - lia.
  - apply (same_shift fin _ (fun f => rand_IntR St read f max s')). apply (IH rest k' s'); [lia|exact HF'].
Qed.
Lemma nextK_same : forall fin max n tape k s, (List.length tape <= n)%nat -> feeds k s tape fin ->
  same_outcome fin (Ret (nextK_loop n max tape)) (fun f => nextKR St read f max s).
Proof.
  intros fin max. induction n as [|n IH]; intros tape k s LN HF; rewrite nextK_step;
  (apply (same_ext fin _ (fun f => bindR St (rand_IntR St read f max s) (fun k s => if 1 <=? k then done St k s
     else match f with O => None | S f => nextKR St read f max s end)));
   [intros [|f]; reflexivity|]);
  (apply (same_bind fin _ _ _ (fun f k s => if 1 <=? k then done St k s else match f with O => None | S f => nextKR St read f max s end));
   [exact (rand_same fin max (List.length tape) tape k s (le_n _) HF)|]);
  intros q rest s' k' EF HF'; (assert (LT : (List.length rest < List.length tape)%nat) by (apply (rand_takes (List.length tape) max tape q rest); unfold rand_Int in EF; congruence));
  (destruct (1 <=? q); [exact (same_done fin _ rest k' s' HF')|]).
  - lia.
  - apply (same_shift fin _ (fun f => nextKR St read f max s')). apply (IH rest k' s'); [lia|exact HF'].
Qed.
Lemma genkey_step : forall n N tape, Ret (genkey_loop n N tape) =
  bindT (fullT tape) (fun priv tape =>
    let priv := upd priv 0 (Z.land (nth 0 priv 0) 0xff) in
    let priv := upd priv 1 (Z.lxor (nth 1 priv 0) 0x42) in
    if N <=? be_dec priv then match n with O => Ret (ERR "model: out of fuel", tape) | S n => Ret (genkey_loop n N tape) end
    else Ret (OK priv, tape)).
Proof.
  intros n N tape. destruct n as [|n]; cbn [genkey_loop]; unfold fullT; (destruct (ReadFull 32 tape) as [[bs t]|]; cbn [bindT]; [|reflexivity]); cbv zeta;
    match goal with |- context[N <=? ?x] => destruct (N <=? x) end; reflexivity.
Qed.
Lemma genkey_same : forall fin N n tape k s, (List.length tape <= n)%nat -> feeds k s tape fin ->
  same_outcome fin (Ret (genkey_loop n N tape)) (fun f => genkey_scalarR St read f N s).
Proof.
  intros fin N. induction n as [|n IH]; intros tape k s LN HF; rewrite genkey_step;
  (apply (same_ext fin _ (fun f => bindR St (ReadFullR St read f s) (fun priv s =>
      let priv := upd priv 0 (Z.land (nth 0 priv 0) 0xff) in
      let priv := upd priv 1 (Z.lxor (nth 1 priv 0) 0x42) in
      if N <=? be_dec priv then match f with O => None | S f => genkey_scalarR St read f N s end else done St priv s)));
   [intros [|f]; reflexivity|]);
  (apply (same_bind fin _ _ _ (fun f priv s =>
      let priv := upd priv 0 (Z.land (nth 0 priv 0) 0xff) in
      let priv := upd priv 1 (Z.lxor (nth 1 priv 0) 0x42) in
      if N <=? be_dec priv then match f with O => None | S f => genkey_scalarR St read f N s end else done St priv s));
   [exact (full_same fin k s tape HF)|]);
  intros bs rest s' k' EF HF'; pose proof (fullT_takes _ _ _ EF) as LT; cbv zeta;
  (match goal with |- context[N <=? ?x] => destruct (N <=? x) end; [|exact (same_done fin _ rest k' s' HF')]).
  - lia.
  - apply (same_shift fin _ (fun f => genkey_scalarR St read f N s')). apply (IH rest k' s'); [lia|exact HF'].
Qed.

(** * Keys *)
Theorem generate_same : forall fin k s tape, feeds k s tape fin -> same_outcome fin (GenerateKey tape) (fun f => GenerateKeyR St read f s).
Proof.
  intros fin k s tape HF.
  assert (E : GenerateKey tape = bindT (Ret (genkey_loop (List.length tape) curveN tape)) (fun priv tape =>
    bind (curveScalarBaseMult priv) (fun p => let '(x, y) := p in Ret (OK (mkPriv (be_dec priv), mkPub x y), tape)))).
  { unfold GenerateKey, genkey_scalar. destruct (genkey_loop (List.length tape) curveN tape) as [[priv|m] t]; reflexivity. }
  rewrite E. unfold GenerateKeyR.
  apply (same_bind fin _ _ _ (fun _ priv s => liftR St (curveScalarBaseMult priv) (fun p => let '(x, y) := p in done St (mkPriv (be_dec priv), mkPub x y) s))).
  - exact (genkey_same fin curveN (List.length tape) tape k s (le_n _) HF).
  - intros priv rest s' k' _ HF'. apply (same_lift fin _ _ (fun _ p => let '(x, y) := p in done St (mkPriv (be_dec priv), mkPub x y) s')).
    intros [x y] _. exact (same_done fin _ rest k' s' HF').
Qed.

(** * Encryption *)
Definition encrypt_turn (pub : PublicKey) (inp c2 : list Z) (d : sm3Digest) (k : Z) : go (list Z * list Z * Z * Z * sm3Digest * bool) :=
  let kBytes := BigBytes k in
  do (c1x, c1y) <- curveScalarBaseMult kBytes;
  do c1 <- Marshal c1x c1y;
  do (kPBx, kPBy) <- curveScalarMult (X pub) (Y pub) kBytes;
  do (d, c2) <- kdf d kPBx kPBy c2;
  do ne <- notEncrypted c2 inp;
  Ret (c1, c2, kPBx, kPBy, d, ne).
Lemma encrypt_step : forall n pub inp c2 d tape, encrypt_loop n pub inp c2 d tape =
  bindT (Ret (nextK curveN tape)) (fun k tape => bind (encrypt_turn pub inp c2 d k) (fun v =>
    let '(c1, c2, kPBx, kPBy, d, ne) := v in
    if negb ne then Ret (OK (c1, c2, kPBx, kPBy, d), tape)
    else match n with O => Panic (PUser "model: out of fuel") | S n => encrypt_loop n pub inp c2 d tape end)).
Proof.
  intros n pub inp c2 d tape. unfold encrypt_turn.
  destruct n as [|n]; cbn [encrypt_loop]; (destruct (nextK curveN tape) as [[k|m] t]; cbn [bindT]; [|reflexivity]); cbv zeta;
    (destruct (curveScalarBaseMult (BigBytes k)) as [[c1x c1y]|]; cbn [bind]; [|reflexivity]);
    (destruct (Marshal c1x c1y) as [c1|]; cbn [bind]; [|reflexivity]);
    (destruct (curveScalarMult (X pub) (Y pub) (BigBytes k)) as [[kx ky]|]; cbn [bind]; [|reflexivity]);
    (destruct (kdf d kx ky c2) as [[d' c2']|]; cbn [bind]; [|reflexivity]);
    (destruct (notEncrypted c2' inp) as [ne|]; cbn [bind]; reflexivity).
Qed.
Lemma encrypt_loop_same : forall fin pub inp n c2 d tape k s, (List.length tape <= n)%nat -> feeds k s tape fin ->
  same_outcome fin (encrypt_loop n pub inp c2 d tape) (fun f => encrypt_loopR St read f pub inp c2 d s).
Proof.
  intros fin pub inp.
  set (G := fun (f : nat) c2 d (k : Z) (s : St) => liftR St (encrypt_turn pub inp c2 d k) (fun v =>
    let '(c1, c2, kPBx, kPBy, d, ne) := v in
    if negb ne then done St (c1, c2, kPBx, kPBy, d) s
    else match f with O => None | S f => encrypt_loopR St read f pub inp c2 d s end)).
  induction n as [|n IH]; intros c2 d tape k s LN HF; rewrite encrypt_step;
  (apply (same_ext fin _ (fun f => bindR St (nextKR St read f curveN s) (G f c2 d))); [intros [|f]; reflexivity|]);
  (apply (same_bind fin _ _ _ (fun f => G f c2 d)); [exact (nextK_same fin curveN (List.length tape) tape k s (le_n _) HF)|]);
  intros q rest s' k' EF HF'; (assert (LT : (List.length rest < List.length tape)%nat) by (apply (nextK_takes (List.length tape) curveN tape q rest); unfold nextK in EF; congruence)).
  - lia.
  - unfold G. apply (same_lift fin _ _ (fun f v => let '(c1, c2, kPBx, kPBy, d, ne) := v in
      if negb ne then done St (c1, c2, kPBx, kPBy, d) s' else match f with O => None | S f => encrypt_loopR St read f pub inp c2 d s' end)).
    intros [[[[[c1 c2'] kx] ky] d'] ne] _. destruct (negb ne); [exact (same_done fin _ rest k' s' HF')|].
    apply (same_shift fin _ (fun f => encrypt_loopR St read f pub inp c2' d' s')). apply (IH c2' d' rest k' s'); [lia|exact HF'].
Qed.
Lemma same_ret {A} : forall fin m rest k s, ends m = false -> feeds k s rest fin -> same_outcome (A := A) fin (Ret (ERR m, rest)) (fun _ => Some (Ret (ERR m, s))).
Proof. intros fin m rest k s E H. cbn [same_outcome]. rewrite E. exists O, s, k. split; [exact H|reflexivity]. Qed.
Theorem encrypt_same : forall fin pub inp t k s tape, feeds k s tape fin -> same_outcome fin (Encrypt pub inp t tape) (fun f => EncryptR St read f pub inp t s).
Proof.
  intros fin pub inp t k s tape HF.
  assert (E : Encrypt pub inp t tape = bindT (encrypt_loop (List.length tape) pub inp inp New tape) (fun v tape =>
    let '(c1, c2, kPBx, kPBy, d) := v in
    bind (do xb <- bigIntTo32Bytes kPBx; do yb <- bigIntTo32Bytes kPBy; hashOf d [xb; inp; yb]) (fun p => let '(_, c3) := p in
    if t =? C1C2C3 then Ret (OK (c1 ++ c2 ++ c3), tape)
    else if t =? C1C3C2 then Ret (OK (c1 ++ c3 ++ c2), tape)
    else Ret (ERR (unknownType t), tape)))).
  { unfold Encrypt. destruct (encrypt_loop (List.length tape) pub inp inp New tape) as [[[[[[[c1 c2] kx] ky] d]|m] rest]|]; cbn [bind bindT]; [|reflexivity..].
    destruct (bigIntTo32Bytes kx) as [xb|]; cbn [bind]; [|reflexivity]. destruct (bigIntTo32Bytes ky) as [yb|]; cbn [bind]; [|reflexivity].
    destruct (hashOf d [xb; inp; yb]) as [[d' c3]|]; reflexivity. }
  rewrite E. unfold EncryptR.
  apply (same_bind fin _ _ _ (fun _ v s => let '(c1, c2, kPBx, kPBy, d) := v in
    liftR St (do xb <- bigIntTo32Bytes kPBx; do yb <- bigIntTo32Bytes kPBy; hashOf d [xb; inp; yb]) (fun p => let '(_, c3) := p in
    if t =? C1C2C3 then done St (c1 ++ c2 ++ c3) s
    else if t =? C1C3C2 then done St (c1 ++ c3 ++ c2) s
    else Some (Ret (ERR (unknownType t), s))))).
  - exact (encrypt_loop_same fin pub inp (List.length tape) inp New tape k s (le_n _) HF).
  - intros [[[[c1 c2] kx] ky] d] rest s' k' _ HF'.
    apply (same_lift fin _ _ (fun _ p => let '(_, c3) := p in
      if t =? C1C2C3 then done St (c1 ++ c2 ++ c3) s' else if t =? C1C3C2 then done St (c1 ++ c3 ++ c2) s' else Some (Ret (ERR (unknownType t), s')))).
    intros [d' c3] _. destruct (t =? C1C2C3); [exact (same_done fin _ rest k' s' HF')|]. destruct (t =? C1C3C2); [exact (same_done fin _ rest k' s' HF')|].
    exact (same_ret fin (unknownType t) rest k' s' eq_refl HF').
Qed.

(** * Signatures *)
Lemma inner_step : forall n e tape, sign_inner n e tape =
  bindT (Ret (nextK curveN tape)) (fun k tape => bind (curveScalarBaseMult (BigBytes k)) (fun p => let '(px, _) := p in
    let r := (e + px) mod curveN in
    let rk := r + k in
    if negb (r =? 0) && negb (rk =? curveN) then Ret (OK (k, r), tape)
    else match n with O => Panic (PUser "model: out of fuel") | S n => sign_inner n e tape end)).
Proof.
  intros n e tape. destruct n as [|n]; cbn [sign_inner]; (destruct (nextK curveN tape) as [[k|m] t]; cbn [bindT]; [|reflexivity]); reflexivity.
Qed.
Lemma inner_takes : forall n e tape kr rest, sign_inner n e tape = Ret (OK kr, rest) -> (List.length rest < List.length tape)%nat.
Proof.
  induction n as [|n IH]; intros e tape kr rest H; rewrite inner_step in H; destruct (nextK curveN tape) as [[k|m] t] eqn:EF; cbn [bindT] in H; try discriminate H;
    pose proof (nextK_takes _ _ _ _ _ EF) as LT; (destruct (curveScalarBaseMult (BigBytes k)) as [[px py]|]; cbn [bind] in H; [|discriminate H]); cbv zeta in H;
    match type of H with context[if ?b then _ else _] => destruct b end.
  - assert (rest = t) as -> by congruence. exact LT.
  - discriminate H.
  - assert (rest = t) as -> by congruence. exact LT.
  - apply IH in H. lia.
Qed.
Lemma inner_same : forall fin e n tape k s, (List.length tape <= n)%nat -> feeds k s tape fin ->
  same_outcome fin (sign_inner n e tape) (fun f => sign_innerR St read f e s).
Proof.
  intros fin e.
  set (G := fun (f : nat) (k : Z) (s : St) => liftR St (curveScalarBaseMult (BigBytes k)) (fun p => let '(px, _) := p in
    let r := (e + px) mod curveN in
    let rk := r + k in
    if negb (r =? 0) && negb (rk =? curveN) then done St (k, r) s
    else match f with O => None | S f => sign_innerR St read f e s end)).
  induction n as [|n IH]; intros tape k s LN HF; rewrite inner_step;
  (apply (same_ext fin _ (fun f => bindR St (nextKR St read f curveN s) (G f))); [intros [|f]; reflexivity|]);
  (apply (same_bind fin _ _ _ G); [exact (nextK_same fin curveN (List.length tape) tape k s (le_n _) HF)|]);
  intros q rest s' k' EF HF'; (assert (LT : (List.length rest < List.length tape)%nat) by (apply (nextK_takes (List.length tape) curveN tape q rest); unfold nextK in EF; congruence)).
  - lia.
  - unfold G. apply (same_lift fin _ _ (fun f p => let '(px, _) := p in
      let r := (e + px) mod curveN in
      let rk := r + q in
      if negb (r =? 0) && negb (rk =? curveN) then done St (q, r) s' else match f with O => None | S f => sign_innerR St read f e s' end)).
    intros [px py] _. cbv zeta. match goal with |- context[if ?b then done _ _ _ else _] => destruct b end; [exact (same_done fin _ rest k' s' HF')|].
    apply (same_shift fin _ (fun f => sign_innerR St read f e s')). apply (IH rest k' s'); [lia|exact HF'].
Qed.
Lemma outer_step : forall n d e tape, sign_outer n d e tape =
  bindT (sign_inner (List.length tape) e tape) (fun kr tape => let '(k, r) := kr in
    let s := (utilModInverse (d + 1) curveN * ((k - r * d) mod curveN)) mod curveN in
    if negb (s =? 0) then Ret (OK (r, s), tape)
    else match n with O => Panic (PUser "model: out of fuel") | S n => sign_outer n d e tape end).
Proof.
  intros n d e tape. destruct n as [|n]; cbn [sign_outer]; (destruct (sign_inner (List.length tape) e tape) as [[[[k r]|m] t]|]; cbn [bind bindT]; reflexivity).
Qed.
Lemma outer_same : forall fin d e n tape k s, (List.length tape <= n)%nat -> feeds k s tape fin ->
  same_outcome fin (sign_outer n d e tape) (fun f => sign_outerR St read f d e s).
Proof.
  intros fin d e.
  set (G := fun (f : nat) (kr : Z * Z) (st : St) => let '(k, r) := kr in
    let s := (utilModInverse (d + 1) curveN * ((k - r * d) mod curveN)) mod curveN in
    if negb (s =? 0) then done St (r, s) st
    else match f with O => None | S f => sign_outerR St read f d e st end).
  induction n as [|n IH]; intros tape k s LN HF; rewrite outer_step;
  (apply (same_ext fin _ (fun f => bindR St (sign_innerR St read f e s) (G f))); [intros [|f]; reflexivity|]);
  (apply (same_bind fin _ _ _ G); [exact (inner_same fin e (List.length tape) tape k s (le_n _) HF)|]);
  intros [q r] rest s' k' EF HF'; pose proof (inner_takes _ _ _ _ _ EF) as LT.
  - lia.
  - unfold G. cbv zeta. match goal with |- context[if ?b then done _ _ _ else _] => destruct b end; [exact (same_done fin _ rest k' s' HF')|].
    apply (same_shift fin _ (fun f => sign_outerR St read f d e s')). apply (IH rest k' s'); [lia|exact HF'].
Qed.
Theorem signRS_same : forall fin priv userId inp k s tape, feeds k s tape fin ->
  same_outcome fin (SignToRS priv userId inp tape) (fun f => SignToRSR St read f priv userId inp s).
Proof.
  intros fin priv userId inp k s tape HF.
  assert (E : SignToRS priv userId inp tape = bind (do (pubX, pubY) <- curveScalarBaseMult (BigBytes (D priv)); do (_, e) <- calculateE New pubX pubY (signId userId) inp; Ret e)
    (fun e => sign_outer (List.length tape) (D priv) e tape)).
  { unfold SignToRS. destruct (curveScalarBaseMult (BigBytes (D priv))) as [[px py]|]; cbn [bind]; [|reflexivity]. destruct (calculateE New px py (signId userId) inp) as [[? e]|]; reflexivity. }
  rewrite E. unfold SignToRSR. apply (same_lift fin _ _ (fun f e => sign_outerR St read f (D priv) e s)).
  intros e _. exact (outer_same fin (D priv) e (List.length tape) tape k s (le_n _) HF).
Qed.
Lemma MarshalSign_total : forall r s, exists e, MarshalSign r s = OK e.
Proof. intros r s. eexists. reflexivity. Qed.
Theorem sign_same : forall fin priv userId inp k s tape, feeds k s tape fin ->
  same_outcome fin (Sign priv userId inp tape) (fun f => SignR St read f priv userId inp s).
Proof.
  intros fin priv userId inp k s tape HF.
  assert (E : Sign priv userId inp tape = bindT (SignToRS priv userId inp tape) (fun rs tape => let '(r, s) := rs in Ret (MarshalSign r s, tape))).
  { unfold Sign. destruct (SignToRS priv userId inp tape) as [[[[r v]|m] t]|]; reflexivity. }
  rewrite E. unfold SignR. apply (same_bind fin _ _ _ (fun _ rs st => let '(r, s) := rs in Some (Ret (MarshalSign r s, st)))).
  - exact (signRS_same fin priv userId inp k s tape HF).
  - intros [r v] rest s' k' _ HF'. destruct (MarshalSign_total r v) as [e ->]. exact (same_done fin _ rest k' s' HF').
Qed.
End Feeds.

(** * The theorems *)
Theorem C110_generate : forall St read k s tape fin, feeds St read k s tape fin ->
  same_outcome St read fin (GenerateKey tape) (fun f => GenerateKeyR St read f s).
Proof. intros St read k s tape fin H. exact (generate_same St read fin k s tape H). Qed.
Theorem C110_encrypt : forall St read k s tape fin pub inp t, feeds St read k s tape fin ->
  same_outcome St read fin (Encrypt pub inp t tape) (fun f => EncryptR St read f pub inp t s).
Proof. intros St read k s tape fin pub inp t H. exact (encrypt_same St read fin pub inp t k s tape H). Qed.
Theorem C110_sign : forall St read k s tape fin priv userId inp, feeds St read k s tape fin ->
  same_outcome St read fin (SignToRS priv userId inp tape) (fun f => SignToRSR St read f priv userId inp s) /\
  same_outcome St read fin (Sign priv userId inp tape) (fun f => SignR St read f priv userId inp s).
Proof. intros St read k s tape fin priv userId inp H. split; [exact (signRS_same St read fin priv userId inp k s tape H)|exact (sign_same St read fin priv userId inp k s tape H)]. Qed.

(** Two readers of the same bytes: the same results, however the bytes are cut. *)
Definition result {St A} (x : go (res A * St)) : go (res A) := match x with Ret (r, _) => Ret r | Panic p => Panic p end.
Definition agree {S1 S2 A} (y1 : nat -> outcome S1 A) (y2 : nat -> outcome S2 A) : Prop :=
  exists f0 v, forall f, (f0 <= f)%nat -> option_map result (y1 f) = Some v /\ option_map result (y2 f) = Some v.
Lemma same_agree : forall S1 r1 S2 r2 A fin (x : go (res A * list Z)) y1 y2, same_outcome S1 r1 fin x y1 -> same_outcome S2 r2 fin x y2 ->
  fin <> None \/ (forall m rest, x = Ret (ERR m, rest) -> ends m = false) -> agree y1 y2.
Proof.
  intros S1 r1 S2 r2 A fin x y1 y2 H1 H2 HC. destruct x as [[[a|m] rest]|p]; cbn [same_outcome] in *.
  - destruct H1 as (f1 & s1 & k1 & _ & H1), H2 as (f2 & s2 & k2 & _ & H2). exists (Nat.max f1 f2), (Ret (OK a)). intros f L. now rewrite H1, H2 by lia.
  - destruct (ends m) eqn:EM.
    + destruct fin as [e|]; [|destruct HC as [HC|HC]; [now destruct HC|rewrite (HC m rest eq_refl) in EM; discriminate EM]].
      destruct H1 as (f1 & s1 & H1), H2 as (f2 & s2 & H2). exists (Nat.max f1 f2), (Ret (ERR (reader_error m e))). intros f L. now rewrite H1, H2 by lia.
    + destruct H1 as (f1 & s1 & k1 & _ & H1), H2 as (f2 & s2 & k2 & _ & H2). exists (Nat.max f1 f2), (Ret (ERR m)). intros f L. now rewrite H1, H2 by lia.
  - destruct H1 as (f1 & H1), H2 as (f2 & H2). exists (Nat.max f1 f2), (Panic p). intros f L. now rewrite H1, H2 by lia.
Qed.
Theorem C110_chunks : forall S1 r1 S2 r2 k1 s1 k2 s2 tape e, feeds S1 r1 k1 s1 tape (Some e) -> feeds S2 r2 k2 s2 tape (Some e) ->
  agree (fun f => GenerateKeyR S1 r1 f s1) (fun f => GenerateKeyR S2 r2 f s2) /\
  (forall pub inp t, agree (fun f => EncryptR S1 r1 f pub inp t s1) (fun f => EncryptR S2 r2 f pub inp t s2)) /\
  (forall priv userId inp, agree (fun f => SignR S1 r1 f priv userId inp s1) (fun f => SignR S2 r2 f priv userId inp s2)).
Proof.
  intros S1 r1 S2 r2 k1 s1 k2 s2 tape e H1 H2. assert (C : forall A (x : go (res A * list Z)), Some e <> None \/ (forall m rest, x = Ret (ERR m, rest) -> ends m = false)) by (intros; left; discriminate).
  split; [|split].
  - exact (same_agree _ _ _ _ _ _ _ _ _ (C110_generate _ _ _ _ _ _ H1) (C110_generate _ _ _ _ _ _ H2) (C _ _)).
  - intros pub inp t. exact (same_agree _ _ _ _ _ _ _ _ _ (C110_encrypt _ _ _ _ _ _ pub inp t H1) (C110_encrypt _ _ _ _ _ _ pub inp t H2) (C _ _)).
  - intros priv userId inp. exact (same_agree _ _ _ _ _ _ _ _ _ (proj2 (C110_sign _ _ _ _ _ _ priv userId inp H1)) (proj2 (C110_sign _ _ _ _ _ _ priv userId inp H2)) (C _ _)).
Qed.

(** Readers for which the calls do not return: one that keeps delivering nothing without an error, and
    one that delivers full buffers but only numbers that are too large. *)
Definition returns {St A} (y : nat -> outcome St A) : Prop := exists f, y f <> None.
Definition silent (s : unit) (n : Z) : list Z * option string * unit := ([], None, tt).
Definition tooLarge (s : unit) (n : Z) : list Z * option string * unit :=
  if n =? 32 then ([255; 189] ++ repeat 255 30, None, tt) else (repeat 255 (Z.to_nat n), None, tt).
Theorem C110_returns_refuted :
  (forall s n, fst (fst (tooLarge s n)) <> [] \/ n <= 0) /\ ~ returns (fun f => GenerateKeyR unit tooLarge f tt) /\
  ~ returns (fun f => GenerateKeyR unit silent f tt) /\ (forall pub inp t, ~ returns (fun f => EncryptR unit silent f pub inp t tt)) /\
  (forall d e, ~ returns (fun f => sign_outerR unit silent f d e tt)).
Proof.
  assert (SIL : forall f, ReadFullR unit silent f tt = None).
  { intros f. unfold ReadFullR. assert (L : readLoop unit silent f 32 [] tt = None) by (induction f as [|f IH]; [reflexivity|exact IH]). exact L. }
  assert (SK : forall f max, nextKR unit silent f max tt = None).
  { intros f max. assert (R : forall g, rand_IntR unit silent g max tt = None) by (intros [|g]; cbn [rand_IntR]; now rewrite SIL). destruct f; cbn [nextKR]; now rewrite R. }
  split; [|split; [|split; [|split]]].
  - intros s n. unfold tooLarge. destruct (n =? 32) eqn:E; [left; discriminate|]. destruct (Z.leb_spec n 0); [right; assumption|left].
    cbn [fst]. destruct (Z.to_nat n) eqn:EN; [lia|discriminate].
  - intros [f HF]. apply HF. unfold GenerateKeyR. assert (L : forall f, genkey_scalarR unit tooLarge f curveN tt = None).
    { clear. induction f as [|f IH]; [reflexivity|]. cbn [genkey_scalarR].
      assert (R : ReadFullR unit tooLarge (S f) tt = Some (Ret (OK ([255; 189] ++ repeat 255 30), tt))) by (unfold ReadFullR; destruct f; reflexivity).
      rewrite R. cbn [bindR]. exact IH. }
    now rewrite L.
  - intros [f HF]. apply HF. unfold GenerateKeyR. assert (L : genkey_scalarR unit silent f curveN tt = None) by (destruct f; cbn [genkey_scalarR]; now rewrite SIL). now rewrite L.
  - intros pub inp t [f HF]. apply HF. unfold EncryptR. assert (L : encrypt_loopR unit silent f pub inp inp New tt = None) by (destruct f; cbn [encrypt_loopR]; now rewrite SK). now rewrite L.
  - intros d e [f HF]. apply HF. assert (L : forall g, sign_innerR unit silent g e tt = None) by (intros [|g]; cbn [sign_innerR]; now rewrite SK). destruct f; cbn [sign_outerR]; now rewrite L.
Qed.

(** * Examples *)
(** A reader with the bytes left as its state: it delivers at most three at a time, an empty piece before
    each piece, and an error of its own together with the last piece and ever after. *)
Definition drip (s : list Z * bool) (n : Z) : list Z * option string * (list Z * bool) :=
  let '(d, pause) := s in
  if pause then ([], None, (d, false))
  else let m := Z.to_nat (Z.min n 3) in
       (firstn m d, match skipn m d with [] => Some "broken"%string | _ => None end, (skipn m d, match skipn m d with [] => false | _ => true end)).
Lemma drip_feeds : forall l d, (List.length d <= l)%nat -> feeds (list Z * bool) drip (2 * l + 2) (d, true) d (Some "broken"%string) /\ feeds (list Z * bool) drip (2 * l + 1) (d, false) d (Some "broken"%string).
Proof.
  induction l as [|l IH]; intros d L.
  - assert (d = []) as -> by (destruct d; [reflexivity|cbn in L; lia]). assert (E : forall n, firstn n (@nil Z) = []) by now destruct n.
    assert (E' : forall n, skipn n (@nil Z) = []) by now destruct n.
    assert (F : feeds (list Z * bool) drip 1 ([], false) [] (Some "broken"%string)).
    { right. intros n P. exists [], (Some "broken"%string), ([], false), []. cbn [drip]. rewrite E, E'. repeat split; [cbn; lia|]. now left. }
    split; [|exact F]. right. intros n P. exists [], None, ([], false), []. repeat split; [cbn; lia|exact F].
  - assert (F : feeds (list Z * bool) drip (2 * S l + 1) (d, false) d (Some "broken"%string)).
    { replace (2 * S l + 1)%nat with (S (2 * l + 2)) by lia. right. intros n P. cbn [drip]. set (m := Z.to_nat (Z.min n 3)).
      assert (PM : (1 <= m)%nat) by lia. assert (LC : zlen (firstn m d) <= n) by (unfold zlen; rewrite firstn_length; lia).
      destruct (skipn m d) as [|x r] eqn:ES.
      - exists (firstn m d), (Some "broken"%string), ([], false), []. split; [reflexivity|]. split; [rewrite app_nil_r; rewrite <- (firstn_skipn m d) at 1; now rewrite ES, app_nil_r|].
        split; [exact LC|]. split; [reflexivity|]. split; [reflexivity|]. destruct d as [|y d]; [left; now destruct m|right].
        replace (2 * l + 2)%nat with (S (2 * l + 1)) by lia. right. intros n' P'. exists [], (Some "broken"%string), ([], false), []. cbn [drip].
        assert (E : forall n, firstn n (@nil Z) = []) by now destruct n0. assert (E' : forall n, skipn n (@nil Z) = []) by now destruct n0.
        rewrite E, E'. repeat split; [cbn; lia|]. now left.
      - exists (firstn m d), None, (x :: r, true), (x :: r). split; [reflexivity|]. split; [rewrite <- ES; now rewrite firstn_skipn|]. split; [exact LC|].
        apply (IH (x :: r)). rewrite <- ES, skipn_length. lia. }
    split; [|exact F]. replace (2 * S l + 2)%nat with (S (2 * S l + 1)) by lia. right. intros n P. exists [], None, (d, false), d. repeat split; [cbn; lia|exact F].
Qed.

Definition drip_tape : list Z := [0; 66] ++ repeat 0 29 ++ [1] ++ repeat 9 5.
Definition drip_key : PublicKey := mkPub curveGx curveGy.
Example C110_ex_feeds : feeds (list Z * bool) drip (2 * List.length drip_tape + 2) (drip_tape, true) drip_tape (Some "broken"%string).
Proof. exact (proj1 (drip_feeds _ _ (le_n _))). Qed.
(** A key comes out after 22 reads; after that the rest is not enough, and the error is the reader's own. *)
Example C110_ex_runs : GenerateKey drip_tape = Ret (OK (mkPriv 1, drip_key), repeat 9 5) /\
  GenerateKeyR (list Z * bool) drip 100 (drip_tape, true) = Some (Ret (OK (mkPriv 1, drip_key), (repeat 9 5, true))) /\
  GenerateKey (repeat 9 5) = Ret (ERR "unexpected EOF", []) /\
  GenerateKeyR (list Z * bool) drip 100 (repeat 9 5, true) = Some (Ret (ERR "broken", ([], false))).
Proof. split; [vm_compute; reflexivity|]. split; [vm_compute; reflexivity|]. split; vm_compute; reflexivity. Qed.
