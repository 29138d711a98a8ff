(** The calls of CbStrMem.v do to contents what those of CbString.v do. *)
From Coq Require Import ZArith List Lia Bool String.
From Verif Require Import GoBase CbString CbMem CbMemSim CbStrMem.
Import ListNotations.
Open Scope Z_scope.

Definition fits (g : gstr) : Prop := match g with Some s => 0 <= s_len s <= s_cap s | None => True end.
(** [r] is what is left of [g] after some bytes. *)
Definition tail (g r : gstr) : Prop :=
  match g, r with
  | Some s, Some t => exists k, 0 <= k <= s_len s /\ t = dropS s k
  | None, None => True
  | _, _ => False
  end.
(** [w] is a window of [g] that ends where [r] starts. Its capacity reaches as far as that of [g]. *)
Definition inside (g r : gstr) (w : slice) : Prop :=
  match g, r with
  | Some s, Some t => exists a n, 0 <= a /\ 0 <= n /\ s_off s + a + n = s_off t /\ w = takeS (dropS s a) n
  | _, _ => False
  end.
(** The state after a call that left [r] in [p] and wrote [u], if anything, to [q]. *)
Definition after (st : rst) (p : nat) (r : gstr) (q : nat) (u : option gstr) (loc : list gstr) : rst :=
  mkR (r_heap st) (match u with Some w => upd (upd (r_vars st) p r) q w | None => upd (r_vars st) p r end ++ loc).

(** A call on [p] that returns a value, and a call that may also write a window to [q]. *)
Definition one {A} (p : nat) (st : rst) (g : gstr) (R : go (A * cstr)) (o : go (A * rst)) : Prop :=
  match R with
  | Panic k => o = Panic k
  | Ret (a, s') => exists r loc, o = Ret (a, after st p r p None loc) /\ val (r_heap st) r = s' /\ tail g r
  end.
Definition two {A} (p q : nat) (st : rst) (g : gstr) (out : cstr) (R : go (A * cstr * cstr)) (o : go (A * rst)) : Prop :=
  match R with
  | Panic k => o = Panic k
  | Ret (a, out', s') => exists r u loc, o = Ret (a, after st p r q (option_map Some u) loc) /\ val (r_heap st) r = s' /\ tail g r /\
      match u with Some w => out' = Some (content (r_heap st) w) /\ inside g r w | None => out' = out end
  end.

Lemma length_upd : forall A (l : list A) k x, List.length (upd l k x) = List.length l.
Proof. induction l as [|y l IH]; intros [|k] x; cbn; auto. Qed.
Lemma upd_app1 : forall A (l e : list A) p x, (p < List.length l)%nat -> upd (l ++ e) p x = upd l p x ++ e.
Proof. induction l as [|y l IH]; intros e [|p] x H; cbn in *; try lia; [reflexivity|]. rewrite IH by lia. reflexivity. Qed.
Lemma upd_app2 : forall A (l e : list A) y x p, p = List.length l -> upd (l ++ y :: e) p x = l ++ x :: e.
Proof. induction l as [|z l IH]; intros e y x p ->; cbn; [reflexivity|]. rewrite (IH e y x _ eq_refl). reflexivity. Qed.
Lemma upd_id : forall A (l : list A) p x, nth_error l p = Some x -> upd l p x = l.
Proof. induction l as [|y l IH]; intros [|p] x H; cbn in *; try discriminate; [congruence|]. rewrite IH by exact H. reflexivity. Qed.
Lemma upd_upd : forall A (l : list A) p x y, upd (upd l p x) p y = upd l p y.
Proof. induction l as [|z l IH]; intros [|p] x y; cbn; auto. rewrite IH. reflexivity. Qed.
Lemma nth_upd : forall A (l : list A) p q x, (p < List.length l)%nat -> nth_error (upd l p x) q = if Nat.eqb p q then Some x else nth_error l q.
Proof. induction l as [|z l IH]; intros [|p] [|q] x H; cbn in *; try lia; try reflexivity. apply IH. lia. Qed.
Lemma nth_lt : forall A (l : list A) p x, nth_error l p = Some x -> (p < List.length l)%nat.
Proof. intros A l p x H. apply nth_error_Some. congruence. Qed.

(** Windows and contents *)

Lemma content_take : forall h s n, 0 <= n <= s_len s -> content h (takeS s n) = firstn (Z.to_nat n) (content h s).
Proof.
  intros h s n H. apply get_ext.
  - rewrite zlen_firstn; [rewrite zlen_content; cbn [takeS s_len]; lia|]. unfold content. rewrite map_length, seq_length. lia.
  - intros i Hi. rewrite zlen_content in Hi by (cbn [takeS s_len]; lia). cbn [takeS s_len] in Hi.
    rewrite get_firstn by lia. rewrite !get_content by (cbn [takeS s_len]; lia). reflexivity.
Qed.
Lemma content_drop : forall h s n, 0 <= n <= s_len s -> content h (dropS s n) = skipn (Z.to_nat n) (content h s).
Proof.
  intros h s n H. assert (L : List.length (content h s) = Z.to_nat (s_len s)) by (unfold content; rewrite map_length, seq_length; reflexivity). apply get_ext.
  - rewrite zlen_skipn by lia. rewrite !zlen_content by (cbn [dropS s_len]; lia). cbn [dropS s_len]. lia.
  - intros i Hi. rewrite zlen_content in Hi by (cbn [dropS s_len]; lia). cbn [dropS s_len] in Hi.
    rewrite get_content by (cbn [dropS s_len]; lia). unfold get. rewrite <- (firstn_skipn (Z.to_nat n) (content h s)) in L.
    pose proof (get_app2 (firstn (Z.to_nat n) (content h s)) (skipn (Z.to_nat n) (content h s)) (n + i)) as G.
    rewrite firstn_skipn in G. rewrite zlen_firstn in G by (unfold content; rewrite map_length, seq_length; lia).
    rewrite get_content in G by lia. replace (n + i - Z.of_nat (Z.to_nat n)) with i in G by lia. cbn [dropS s_arr s_off].
    unfold get in G. rewrite <- G by lia. f_equal. lia.
Qed.
Lemma glen_val : forall h g, fits g -> slen (val h g) = glen g.
Proof. intros h [s|] F; cbn in *; [apply zlen_content; lia|reflexivity]. Qed.
Lemma drop_drop : forall s a b, dropS (dropS s a) b = dropS s (a + b).
Proof. intros [x o n c] a b. unfold dropS. cbn. f_equal; lia. Qed.
Lemma drop_0 : forall s, dropS s 0 = s.
Proof. intros [x o n c]. unfold dropS. cbn. f_equal; lia. Qed.
Lemma drop_take : forall s n k, dropS (takeS s n) k = takeS (dropS s k) (n - k).
Proof. reflexivity. Qed.
Lemma take_take : forall s n m, takeS (takeS s n) m = takeS s m.
Proof. reflexivity. Qed.
Lemma tail_refl : forall g, fits g -> tail g g.
Proof. intros [s|] F; cbn in *; [|exact I]. exists 0. rewrite drop_0. split; [lia|reflexivity]. Qed.
Lemma tail_trans : forall a b c, tail a b -> tail b c -> tail a c.
Proof.
  intros [s|] [t|] [u|] H1 H2; cbn in *; try tauto. destruct H1 as (k & K & ->). destruct H2 as (m & M & ->).
  exists (k + m). rewrite drop_drop. cbn [dropS s_len] in M. split; [lia|reflexivity].
Qed.
Lemma tail_fits : forall g r, fits g -> tail g r -> fits r.
Proof. intros [s|] [t|] F H; cbn in *; try tauto. destruct H as (k & K & ->). cbn [dropS s_len s_cap]. lia. Qed.
Lemma tail_inside : forall g g' r w, tail g g' -> inside g' r w -> inside g r w.
Proof.
  intros [s|] [t|] [u|] w H1 H2; cbn in *; try tauto. destruct H1 as (k & K & ->). destruct H2 as (a & n & A & N & E & ->).
  exists (k + a), n. rewrite drop_drop. cbn [dropS s_off] in E. repeat split; try lia.
Qed.
(** A window of a window. *)
Lemma inside_inside : forall g r w t v, inside g r w -> tail (Some w) t -> glen t = 0 -> inside (Some w) t v -> inside g r v.
Proof.
  intros [s|] [x|] w [t|] v H1 H2 Z0 H3; cbn in *; try tauto. destruct H1 as (a & n & A & N & E & ->).
  destruct H2 as (k & K & ->). destruct H3 as (b & m & B & M' & E' & ->).
  exists (a + b), m. cbn [dropS takeS s_off s_len] in *. repeat split; try lia.
  unfold takeS, dropS. cbn. f_equal; lia.
Qed.
Lemma inside_fits : forall g r w, fits g -> tail g r -> inside g r w -> fits (Some w).
Proof.
  intros [s|] [t|] w F T H; cbn in *; try tauto. destruct T as (k & K & ->). destruct H as (a & n & A & N & E & ->).
  cbn [dropS takeS s_off s_len s_cap] in *. lia.
Qed.
(** The end of a window. *)
Lemma inside_drop : forall g r w k, inside g r w -> 0 <= k <= s_len w -> inside g r (dropS w k).
Proof.
  intros [s|] [t|] w k H K; cbn in *; try tauto. destruct H as (a & n & A & N & E & ->). cbn [takeS s_len] in K.
  exists (a + k), (n - k). rewrite drop_take, drop_drop. repeat split; lia.
Qed.

(** read *)

Lemma readS_sim : forall p n st g, nth_error (r_vars st) p = Some g -> fits g ->
  match read (val (r_heap st) g) n with
  | Panic k => readS p n st = Panic k
  | Ret (v, s') => exists w r, readS p n st = Ret (w, mkR (r_heap st) (upd (r_vars st) p r)) /\ val (r_heap st) w = v /\ val (r_heap st) r = s' /\
      tail g r /\ match w with Some w => inside g r w | None => r = g end
  end.
Proof.
  intros p n st g E F. unfold read, readS, bindM, getv. rewrite E. cbn [bind]. rewrite glen_val by exact F.
  assert (ID : mkR (r_heap st) (upd (r_vars st) p g) = st) by (rewrite upd_id by exact E; destruct st; reflexivity).
  destruct (Z.ltb_spec (glen g) n).
  { exists None, g. rewrite ID. repeat split. apply tail_refl. exact F. }
  destruct (Z.ltb_spec n 0); [reflexivity|]. destruct g as [s|].
  2:{ exists None, None. rewrite ID. repeat split. }
  cbn [val option_map glen] in *. exists (Some (takeS s n)), (Some (dropS s n)). split; [reflexivity|]. cbn [val option_map].
  rewrite content_take, content_drop by lia. repeat split.
  - cbn. exists n. split; [lia|reflexivity].
  - cbn. exists 0, n. rewrite drop_0. repeat split; lia.
Qed.
Ltac readw p n st g E F :=
  pose proof (readS_sim p n st g E F) as RS; destruct (read (val (r_heap st) g) n) as [[v s']|k];
  [destruct RS as (w & r & -> & <- & <- & T & W)|rewrite RS; reflexivity]; cbn [bind].

Lemma after_nil : forall st p r q, after st p r q None [] = mkR (r_heap st) (upd (r_vars st) p r).
Proof. intros. unfold after. rewrite app_nil_r. reflexivity. Qed.

Lemma SkipS_sim : forall p n st g, nth_error (r_vars st) p = Some g -> fits g -> one p st g (Skip (val (r_heap st) g) n) (SkipS p n st).
Proof.
  intros p n st g E F. unfold one, Skip, SkipS, bindM. readw p n st g E F.
  exists r, []. rewrite after_nil. repeat split; [|exact T]. destruct w; reflexivity.
Qed.
Definition byteV (s : cstr) (n : Z) (f : list Z -> go Z) : go (option Z * cstr) :=
  do (v, s) <- read s n;
  match v with
  | None => Ret (None, s)
  | Some v => do a <- f v; Ret (Some a, s)
  end.
Lemma byteS_sim : forall p n f st g, nth_error (r_vars st) p = Some g -> fits g -> one p st g (byteV (val (r_heap st) g) n f) (byteS p n f st).
Proof.
  intros p n f st g E F. unfold one, byteV, byteS, bindM. readw p n st g E F.
  destruct w as [w|]; cbn [val option_map].
  - unfold bytesv, liftM. cbn [bind r_heap val option_map contents]. destruct (f (content (r_heap st) w)) as [a|k]; [|reflexivity]. cbn [bind].
    exists r, []. rewrite after_nil. repeat split. exact T.
  - exists r, []. rewrite after_nil. repeat split. exact T.
Qed.
Lemma ReadBytesS_sim : forall p q n st g, nth_error (r_vars st) p = Some g -> fits g -> (q < List.length (r_vars st))%nat ->
  match ReadBytes (val (r_heap st) g) n with
  | Panic k => ReadBytesS p q n st = Panic k
  | Ret (v, s') => exists r u, ReadBytesS p q n st = Ret (match v with Some _ => true | None => false end, after st p r q (option_map Some u) []) /\
      val (r_heap st) r = s' /\ tail g r /\ v = option_map (content (r_heap st)) u /\
      match u with Some w => inside g r w | None => r = g end
  end.
Proof.
  intros p q n st g E F Q. unfold ReadBytes, ReadBytesS, bindM. readw p n st g E F.
  exists r, w. destruct w as [w|]; cbn [val option_map]; unfold after; rewrite app_nil_r; repeat split; assumption.
Qed.
Lemma readLengthPrefixedS_sim : forall p q n st g, nth_error (r_vars st) p = Some g -> fits g -> (q < List.length (r_vars st))%nat ->
  match readLengthPrefixed (val (r_heap st) g) n with
  | Panic k => readLengthPrefixedS p q n st = Panic k
  | Ret (v, s') => exists r u, readLengthPrefixedS p q n st = Ret (match v with Some _ => true | None => false end, after st p r q (option_map Some u) []) /\
      val (r_heap st) r = s' /\ tail g r /\ v = option_map (content (r_heap st)) u /\
      match u with Some w => inside g r w | None => True end
  end.
Proof.
  intros p q n st g E F Q. unfold readLengthPrefixed, readLengthPrefixedS, bindM. readw p n st g E F.
  destruct w as [w|]; cbn [val option_map].
  2:{ exists r, None. unfold after. rewrite app_nil_r. cbn. auto. }
  unfold bytesv. cbn [bind r_heap val option_map contents]. cbv zeta.
  set (st1 := mkR (r_heap st) (upd (r_vars st) p r)). assert (E1 : nth_error (r_vars st1) p = Some r).
  { cbn [st1 r_vars]. rewrite nth_upd by (eapply nth_lt; exact E). rewrite Nat.eqb_refl. reflexivity. }
  pose proof (readS_sim p (acc32 (content (r_heap st) w)) st1 r E1 (tail_fits _ _ F T)) as RS. change (r_heap st1) with (r_heap st) in RS.
  unfold val in RS at 1. fold (val (r_heap st) r) in RS.
  destruct (read (val (r_heap st) r) (acc32 (content (r_heap st) w))) as [[v2 s2]|k]; [|rewrite RS; reflexivity].
  destruct RS as (w2 & r2 & -> & <- & <- & T2 & W2). cbn [bind].
  exists r2, w2. unfold after. rewrite app_nil_r. unfold st1. cbn [r_heap r_vars]. rewrite upd_upd. split; [destruct w2; reflexivity|].
  split; [reflexivity|]. split; [eapply tail_trans; eassumption|]. split; [destruct w2; reflexivity|].
  destruct w2; [eapply tail_inside; eassumption|exact I].
Qed.
(** A call in a state with more local variables. *)
Lemma after_app : forall st loc p r q u l2, (p < List.length (r_vars st))%nat -> (q < List.length (r_vars st))%nat ->
  after (mkR (r_heap st) (r_vars st ++ loc)) p r q u l2 = after st p r q u (loc ++ l2).
Proof.
  intros st loc p r q u l2 P Q. unfold after. cbn [r_heap r_vars]. rewrite upd_app1 by exact P. destruct u as [w|]; [|rewrite app_assoc; reflexivity].
  rewrite upd_app1 by (rewrite length_upd; exact Q). rewrite app_assoc. reflexivity.
Qed.
Lemma nth_app1 : forall A (l e : list A) p x, nth_error l p = Some x -> nth_error (l ++ e) p = Some x.
Proof. intros A l e p x H. rewrite nth_error_app1 by (eapply nth_lt; exact H). exact H. Qed.

Lemma bindM_at : forall A B (x : M A) (f : A -> M B) st, bindM x f st = do (a, st) <- x st; f a st.
Proof. reflexivity. Qed.
Lemma getv_at : forall p st g, nth_error (r_vars st) p = Some g -> getv p st = Ret (g, st).
Proof. intros p st g E. unfold getv. rewrite E. reflexivity. Qed.
Lemma liftM_at : forall A (x : go A) st, liftM x st = do a <- x; Ret (a, st).
Proof. reflexivity. Qed.
Lemma bytesv_at : forall g st, bytesv g st = Ret (contents (val (r_heap st) g), st).
Proof. reflexivity. Qed.
Definition anyV (R : go (bool * cstr * Z * cstr)) : go ((bool * Z) * cstr * cstr) := do (ok, out, t, s) <- R; Ret ((ok, t), out, s).

(** The length of an element, from its first bytes [l]. *)
Definition hdrV (l : list Z) (lenByte : Z) : go (option (Z * Z)) :=
    (if Z.land lenByte 0x80 =? 0 then Ret (Some (u32 (lenByte + 2), 2))
     else
       let lenLen := Z.land lenByte 0x7f in
       if (lenLen =? 0) || (4 <? lenLen) || (zlen l <? 2 + lenLen) then Ret None else
       do lenBytes <- go_slice l 2 (2 + lenLen);
       do (len32, _) <- readUnsigned (Some lenBytes) lenLen;
       match len32 with
       | None => Ret None
       | Some len32 =>
           if len32 <? 128 then Ret None
           else if Z.shiftr len32 ((lenLen - 1) * 8) =? 0 then Ret None
           else
             let headerLen := u32 (2 + lenLen) in
             if u32 (headerLen + len32) <? len32 then Ret None
             else Ret (Some (u32 (headerLen + len32), headerLen))
       end).
Definition hdrS (g : gstr) (lenByte : Z) : M (option (Z * Z)) :=
    (if Z.land lenByte 0x80 =? 0 then retM (Some (u32 (lenByte + 2), 2))
     else
       let lenLen := Z.land lenByte 0x7f in
       if (lenLen =? 0) || (4 <? lenLen) || (glen g <? 2 + lenLen) then retM None else
       win lenBytes <- newv;
       win _ <- setv lenBytes (option_map (fun s => takeS (dropS s 2) lenLen) g);
       win len32 <- readUnsignedS lenBytes lenLen;
       match len32 with
       | None => retM None
       | Some len32 =>
           if len32 <? 128 then retM None
           else if Z.shiftr len32 ((lenLen - 1) * 8) =? 0 then retM None
           else
             let headerLen := u32 (2 + lenLen) in
             if u32 (headerLen + len32) <? len32 then retM None
             else retM (Some (u32 (headerLen + len32), headerLen))
       end).
Lemma hdrS_sim : forall s lenByte st, fits (Some s) ->
  exists x loc, hdrV (content (r_heap st) s) lenByte = Ret x /\ hdrS (Some s) lenByte st = Ret (x, mkR (r_heap st) (r_vars st ++ loc)).
Proof.
  intros s lenByte st F. unfold hdrV, hdrS. assert (ST : mkR (r_heap st) (r_vars st ++ []) = st) by (rewrite app_nil_r; destruct st; reflexivity).
  destruct (Z.land lenByte 0x80 =? 0).
  { eexists. exists []. rewrite ST. split; reflexivity. }
  cbv zeta. cbn [fits glen] in *. rewrite zlen_content by lia. set (lenLen := Z.land lenByte 0x7f).
  destruct ((lenLen =? 0) || (4 <? lenLen) || (s_len s <? 2 + lenLen)) eqn:B.
  { exists None, []. rewrite ST. split; reflexivity. }
  rewrite !orb_false_iff, Z.eqb_neq, !Z.ltb_ge in B. assert (L0 : 0 <= lenLen) by (apply Z.land_nonneg; right; lia).
  rewrite go_slice_ret by (rewrite ?zlen_content; lia). cbn [bind]. unfold bindM, newv. cbn [bind r_heap r_vars]. unfold setv. cbn [bind r_heap r_vars option_map].
  rewrite (upd_app2 _ (r_vars st) [] None) by reflexivity.
  set (st1 := mkR (r_heap st) (r_vars st ++ [Some (takeS (dropS s 2) lenLen)])).
  assert (E1 : nth_error (r_vars st1) (List.length (r_vars st)) = Some (Some (takeS (dropS s 2) lenLen))).
  { cbn [st1 r_vars]. rewrite nth_error_app2 by lia. rewrite Nat.sub_diag. reflexivity. }
  assert (F1 : fits (Some (takeS (dropS s 2) lenLen))) by (cbn [fits takeS dropS s_len s_cap]; lia).
  assert (C1 : content (r_heap st) (takeS (dropS s 2) lenLen) = sub (content (r_heap st) s) 2 (2 + lenLen)).
  { rewrite content_take by (cbn [dropS s_len]; lia). rewrite content_drop by lia. unfold sub. do 2 f_equal. lia. }
  pose proof (readS_sim (List.length (r_vars st)) lenLen st1 _ E1 F1) as RS. cbn [st1 r_heap val option_map] in RS. rewrite C1 in RS.
  unfold readUnsigned, readUnsignedS, byteS, bindM. fold st1.
  assert (RD : read (Some (sub (content (r_heap st) s) 2 (2 + lenLen))) lenLen <> Panic PSlice).
  { unfold read. destruct (_ <? lenLen); [discriminate|]. destruct (Z.ltb_spec lenLen 0); [lia|discriminate]. }
  destruct (read (Some (sub (content (r_heap st) s) 2 (2 + lenLen))) lenLen) as [[v s']|k] eqn:ER.
  2:{ exfalso. unfold read in ER. destruct (_ <? lenLen); [discriminate|]. destruct (Z.ltb_spec lenLen 0); [lia|discriminate]. }
  destruct RS as (w & r & RS & V1 & V2 & _ & _). unfold st1 in RS. cbn [r_heap r_vars] in RS. rewrite (upd_app2 _ (r_vars st) [] (Some (takeS (dropS s 2) lenLen))) in RS by reflexivity.
  match goal with |- context[readS ?n ?l ?s] => change (readS n l s) with (readS n l st1) end. unfold st1. rewrite RS. cbn [bind]. subst v.
  destruct w as [w|]; cbn [val option_map].
  2:{ exists None, [r]. split; reflexivity. }
  unfold bytesv, liftM. cbn [bind r_heap val option_map contents].
  unfold retM at 1. cbn [bind]. destruct (acc32 (content (r_heap st) w) <? 128); [exists None, [r]; split; reflexivity|]. destruct (Z.shiftr _ _ =? 0); [exists None, [r]; split; reflexivity|].
  destruct (_ <? acc32 _); [exists None, [r]; split; reflexivity|].
  eexists. exists [r]. split; reflexivity.
Qed.
Lemma readASN1_hdr : forall s out outTag sk, readASN1 s out outTag sk =
  if slen s <? 2 then Ret (false, out, outTag, s) else
  do tag <- go_index (contents s) 0;
  do lenByte <- go_index (contents s) 1;
  if Z.land tag 0x1f =? 0x1f then Ret (false, out, outTag, s) else
  do hdr <- hdrV (contents s) lenByte;
  match hdr with
  | None => Ret (false, out, tag, s)
  | Some (length, headerLen) =>
      do (v, s) <- ReadBytes s length;
      match v with
      | None => Ret (false, out, tag, s)
      | Some v =>
          if sk then
            do (ok, out) <- Skip (Some v) headerLen;
            if ok then Ret (true, out, tag, s) else Panic (PUser "cryptobyte: internal error")
          else Ret (true, Some v, tag, s)
      end
  end.
Proof. reflexivity. Qed.
Lemma readASN1S_hdr : forall p q outTag sk, readASN1S p q outTag sk =
  (win g <- getv p;
  if glen g <? 2 then retM (false, outTag) else
  win l <- bytesv g;
  win tag <- liftM (go_index l 0);
  win lenByte <- liftM (go_index l 1);
  if Z.land tag 0x1f =? 0x1f then retM (false, outTag) else
  win hdr <- hdrS g lenByte;
  match hdr with
  | None => retM (false, tag)
  | Some (length, headerLen) =>
      win ok <- ReadBytesS p q length;
      if negb ok then retM (false, tag)
      else if sk then
        win ok <- SkipS q headerLen;
        if ok then retM (true, tag) else liftM (Panic (PUser "cryptobyte: internal error"))
      else retM (true, tag)
  end).
Proof. reflexivity. Qed.
Lemma readASN1S_sim : forall p q out outTag sk st g, nth_error (r_vars st) p = Some g -> fits g -> (q < List.length (r_vars st))%nat ->
  two p q st g out (anyV (readASN1 (val (r_heap st) g) out outTag sk)) (readASN1S p q outTag sk st).
Proof.
  intros p q out outTag sk st g E F Q. rewrite readASN1_hdr, readASN1S_hdr.
  assert (P : (p < List.length (r_vars st))%nat) by (eapply nth_lt; exact E).
  unfold two, anyV. rewrite bindM_at, (getv_at p st g E). cbn [bind]. rewrite glen_val by exact F.
  assert (ID : forall loc, mkR (r_heap st) (r_vars st ++ loc) = after st p g q None loc) by (intros loc; unfold after; rewrite upd_id by exact E; reflexivity).
  assert (ST : st = after st p g q None []) by (rewrite <- ID, app_nil_r; destruct st; reflexivity).
  assert (STOP : forall (t : Z) loc, exists r u loc', Ret ((false, t), mkR (r_heap st) (r_vars st ++ loc)) = Ret ((false, t), after st p r q (option_map Some u) loc') /\ val (r_heap st) r = val (r_heap st) g /\ tail g r /\
      match u with Some w => out = Some (content (r_heap st) w) /\ inside g r w | None => out = out end).
  { intros t loc. exists g, None, loc. rewrite ID. repeat split. apply tail_refl. exact F. }
  assert (STOP0 : forall (t : Z), exists r u loc', Ret ((false, t), st) = Ret ((false, t), after st p r q (option_map Some u) loc') /\ val (r_heap st) r = val (r_heap st) g /\ tail g r /\
      match u with Some w => out = Some (content (r_heap st) w) /\ inside g r w | None => out = out end).
  { intros t. specialize (STOP t []). rewrite <- ST in STOP || (rewrite ID, <- ST in STOP). exact STOP. }
  destruct (Z.ltb_spec (glen g) 2) as [L|L].
  { cbn [bind]. apply STOP0. }
  destruct g as [s|]; [|cbn in L; lia]. cbn [glen val option_map contents] in *. pose proof F as F'. cbn [fits] in F'.
  rewrite bindM_at, bytesv_at. cbn [bind contents val option_map].
  rewrite bindM_at, liftM_at. destruct (go_index (content (r_heap st) s) 0) as [tag|k]; [|reflexivity]. cbn [bind].
  rewrite bindM_at, liftM_at. destruct (go_index (content (r_heap st) s) 1) as [lb|k]; [|reflexivity]. cbn [bind].
  destruct (_ =? 0x1f).
  { cbn [bind]. apply STOP0. }
  destruct (hdrS_sim s lb st F) as (x & loc & H1 & H2). rewrite H1. rewrite bindM_at, H2. cbn [bind].
  destruct x as [[len hl]|]; [|cbn [bind]; apply STOP].
  set (st1 := mkR (r_heap st) (r_vars st ++ loc)).
  assert (E1 : nth_error (r_vars st1) p = Some (Some s)) by (apply nth_app1; exact E).
  assert (Q1 : (q < List.length (r_vars st1))%nat) by (cbn [st1 r_vars]; rewrite app_length; lia).
  pose proof (ReadBytesS_sim p q len st1 (Some s) E1 F Q1) as RB. change (r_heap st1) with (r_heap st) in RB. cbn [val option_map] in RB.
  destruct (ReadBytes (Some (content (r_heap st) s)) len) as [[v s']|k]; [|cbn [bind]; rewrite bindM_at, RB; reflexivity].
  destruct RB as (r & u & RB & V1 & T & V2 & W). cbn [bind]. rewrite bindM_at, RB. cbn [bind]. unfold st1. rewrite after_app by assumption. rewrite app_nil_r.
  destruct u as [w|]; cbn [option_map] in V2; subst v; cbn [negb].
  2:{ cbn [bind]. exists r, None, loc. split; [reflexivity|]. subst r. repeat split; [exact V1|exact T]. }
  destruct sk.
  2:{ cbn [bind]. exists r, (Some w), loc. split; [reflexivity|]. split; [exact V1|]. split; [exact T|]. split; [reflexivity|exact W]. }
  set (st2 := after st p r q (Some (Some w)) loc). assert (FW : fits (Some w)) by (eapply inside_fits; eassumption).
  assert (E2 : nth_error (r_vars st2) q = Some (Some w)).
  { unfold st2, after. cbn [r_vars]. apply nth_app1. rewrite nth_upd by (rewrite length_upd; exact Q). rewrite Nat.eqb_refl. reflexivity. }
  pose proof (SkipS_sim q hl st2 (Some w) E2 FW) as SK. unfold one in SK. change (r_heap st2) with (r_heap st) in SK. cbn [val option_map] in SK.
  rewrite bindM_at. cbn [option_map]. fold st2.
  pose proof (readS_sim q hl st2 (Some w) E2 FW) as RS. change (r_heap st2) with (r_heap st) in RS. cbn [val option_map] in RS. unfold Skip, SkipS, bindM in *.
  destruct (read (Some (content (r_heap st) w)) hl) as [[v2 s2]|k] eqn:ER; [|rewrite RS; reflexivity].
  destruct RS as (w2 & r2 & RS & V3 & V4 & T2 & W2). rewrite RS. cbn [bind]. subst v2 s2.
  destruct w2 as [w2|]; cbn [val option_map]; [|reflexivity]. cbn [bind].
  destruct r2 as [r2|]; [|cbn in T2; contradiction].
  exists r, (Some r2), loc. split.
  - unfold after, st2, retM. cbn [r_heap r_vars after option_map]. rewrite upd_app1 by (rewrite !length_upd; exact Q). rewrite upd_upd. reflexivity.
  - split; [exact V1|]. split; [exact T|]. split; [reflexivity|]. cbn [tail] in T2. destruct T2 as (k & K & ->). apply inside_drop; assumption.
Qed.
(** A call that stores a window or nil in [q] when it succeeds; [stored] and [ret] are what the call of CbString.v says about it. *)
Definition three {A B} (p q : nat) (st : rst) (g : gstr) (stored : A -> option cstr) (ret : A -> B) (R : go (A * cstr)) (o : go (B * rst)) : Prop :=
  match R with
  | Panic k => o = Panic k
  | Ret (a, s') => exists r u loc, o = Ret (ret a, after st p r q u loc) /\ val (r_heap st) r = s' /\ tail g r /\
      stored a = option_map (val (r_heap st)) u /\ forall w, u = Some (Some w) -> inside g r w
  end.

Lemma two_map : forall A B (f : A -> B) p q st g out R o, two p q st g out R o ->
  two p q st g out (do (a, out, s) <- R; Ret (f a, out, s)) (do (a, st) <- o; Ret (f a, st)).
Proof.
  intros A B f p q st g out R o H. unfold two in *. destruct R as [[[a out'] s']|k]; [|subst o; reflexivity]. cbn [bind].
  destruct H as (r & u & loc & -> & H). cbn [bind]. exists r, u, loc. split; [reflexivity|exact H].
Qed.
Lemma one_map : forall A B (f : A -> B) p st g R o, one p st g R o -> one p st g (do (a, s) <- R; Ret (f a, s)) (do (a, st) <- o; Ret (f a, st)).
Proof.
  intros A B f p st g R o H. unfold one in *. destruct R as [[a s']|k]; [|subst o; reflexivity]. cbn [bind].
  destruct H as (r & loc & -> & H). cbn [bind]. exists r, loc. split; [reflexivity|exact H].
Qed.
Lemma ReadASN1S_sim : forall p q out tag st g, nth_error (r_vars st) p = Some g -> fits g -> (q < List.length (r_vars st))%nat ->
  two p q st g out (ReadASN1 (val (r_heap st) g) out tag) (ReadASN1S p q tag st).
Proof.
  intros p q out tag st g E F Q.
  pose proof (two_map _ _ (fun x : bool * Z => if negb (fst x) || negb (snd x =? tag) then false else true) _ _ _ _ _ _ _ (readASN1S_sim p q out 0 true st g E F Q)) as H.
  unfold ReadASN1, ReadASN1S, ReadAnyASN1, ReadAnyASN1S, anyV in *. rewrite bindM_at.
  destruct (readASN1 (val (r_heap st) g) out 0 true) as [[[[ok o] t] s']|k]; cbn [bind fst snd] in *.
  - destruct (readASN1S p q 0 true st) as [[[ok' t'] st']|k]; cbn [bind fst snd] in *; destruct (negb ok || negb (t =? tag)); exact H.
  - unfold two in *. destruct (readASN1S p q 0 true st) as [[[ok' t'] st']|k']; cbn [bind] in *; [discriminate|exact H].
Qed.
Lemma ReadASN1ElementS_sim : forall p q out tag st g, nth_error (r_vars st) p = Some g -> fits g -> (q < List.length (r_vars st))%nat ->
  two p q st g out (ReadASN1Element (val (r_heap st) g) out tag) (ReadASN1ElementS p q tag st).
Proof.
  intros p q out tag st g E F Q.
  pose proof (two_map _ _ (fun x : bool * Z => if negb (fst x) || negb (snd x =? tag) then false else true) _ _ _ _ _ _ _ (readASN1S_sim p q out 0 false st g E F Q)) as H.
  unfold ReadASN1Element, ReadASN1ElementS, ReadAnyASN1Element, ReadAnyASN1ElementS, anyV in *. rewrite bindM_at.
  destruct (readASN1 (val (r_heap st) g) out 0 false) as [[[[ok o] t] s']|k]; cbn [bind fst snd] in *.
  - destruct (readASN1S p q 0 false st) as [[[ok' t'] st']|k]; cbn [bind fst snd] in *; destruct (negb ok || negb (t =? tag)); exact H.
  - unfold two in *. destruct (readASN1S p q 0 false st) as [[[ok' t'] st']|k']; cbn [bind] in *; [discriminate|exact H].
Qed.

(** A call that writes to a new local variable. *)
Lemma two_local : forall A p st g (R : go (A * cstr * cstr)) o, nth_error (r_vars st) p = Some g ->
  two p (List.length (r_vars st)) (mkR (r_heap st) (r_vars st ++ [None])) g None R o ->
  match R with
  | Panic k => o = Panic k
  | Ret (a, out', s') => exists r w loc, o = Ret (a, mkR (r_heap st) (upd (r_vars st) p r ++ w :: loc)) /\ val (r_heap st) r = s' /\ val (r_heap st) w = out' /\ tail g r /\
      forall x, w = Some x -> inside g r x
  end.
Proof.
  intros A p st g R o E H. unfold two in H. destruct R as [[[a out'] s']|k]; [|exact H].
  destruct H as (r & u & loc & -> & V & T & U). cbn [r_heap] in *.
  exists r, u, loc. unfold after. cbn [r_heap r_vars]. rewrite upd_app1 by (eapply nth_lt; exact E).
  destruct u as [w|]; cbn [option_map].
  - rewrite upd_app2 by (rewrite length_upd; reflexivity). rewrite <- app_assoc. cbn [app]. destruct U as [U1 U2].
    split; [reflexivity|]. split; [exact V|]. split; [symmetry; exact U1|]. split; [exact T|]. intros x X. injection X as <-. exact U2.
  - rewrite <- app_assoc. cbn [app]. split; [reflexivity|]. split; [exact V|]. split; [symmetry; exact U|]. split; [exact T|]. intros x X. discriminate.
Qed.
Lemma local_E : forall st p g, nth_error (r_vars st) p = Some g -> nth_error (r_vars (mkR (r_heap st) (r_vars st ++ [None]))) p = Some g.
Proof. intros st p g E. apply nth_app1. exact E. Qed.
Lemma local_Q : forall st, (List.length (r_vars st) < List.length (r_vars (mkR (r_heap st) (r_vars st ++ [None]))))%nat.
Proof. intros st. cbn [r_vars]. rewrite app_length. cbn [List.length]. lia. Qed.
Lemma newv_at : forall st, newv st = Ret (List.length (r_vars st), mkR (r_heap st) (r_vars st ++ [None])).
Proof. reflexivity. Qed.
Ltac local_asn1 p tag st g E F :=
  let H := fresh "LA" in
  pose proof (two_local _ p st g _ _ E (ReadASN1S_sim p (List.length (r_vars st)) None tag (mkR (r_heap st) (r_vars st ++ [None])) g (local_E st p g E) F (local_Q st))) as H;
  cbn [r_heap] in H.

Lemma SkipASN1S_sim : forall p tag st g, nth_error (r_vars st) p = Some g -> fits g -> one p st g (SkipASN1 (val (r_heap st) g) tag) (SkipASN1S p tag st).
Proof.
  intros p tag st g E F. unfold SkipASN1, SkipASN1S. rewrite bindM_at, newv_at. cbn [bind]. local_asn1 p tag st g E F.
  destruct (ReadASN1 (val (r_heap st) g) None tag) as [[[ok o] s']|k]; cbn [bind one]; [|exact LA].
  destruct LA as (r & w & loc & -> & V & W & T & I). exists r, (w :: loc). repeat split; assumption.
Qed.
Definition valueV {A} (s : cstr) (tag : Z) (f : list Z -> go (option A)) : go (option A * cstr) :=
  do (ok, bs, s) <- ReadASN1 s None tag;
  if negb ok then Ret (None, s) else do x <- f (contents bs); Ret (x, s).
Lemma nth_local : forall (l : list gstr) p r w loc, nth_error (upd l p r ++ w :: loc) (List.length l) = Some w.
Proof. intros l p r w loc. rewrite nth_error_app2 by (rewrite length_upd; lia). rewrite length_upd, Nat.sub_diag. reflexivity. Qed.
Lemma valueS_sim : forall A p tag (f : list Z -> go (option A)) st g, nth_error (r_vars st) p = Some g -> fits g ->
  one p st g (valueV (val (r_heap st) g) tag f) (valueS p tag f st).
Proof.
  intros A p tag f st g E F. unfold valueV, valueS. rewrite bindM_at, newv_at. cbn [bind]. rewrite bindM_at. local_asn1 p tag st g E F.
  destruct (ReadASN1 (val (r_heap st) g) None tag) as [[[ok o] s']|k]; cbn [bind]; [|unfold one; rewrite LA; reflexivity].
  destruct LA as (r & w & loc & -> & V & W & T & I). cbn [bind]. destruct ok; cbn [negb].
  2:{ exists r, (w :: loc). repeat split; assumption. }
  rewrite bindM_at, (getv_at _ _ w) by (cbn [r_vars]; apply nth_local). cbn [bind]. rewrite bindM_at, bytesv_at. cbn [bind r_heap]. rewrite liftM_at, W.
  destruct (f (contents o)) as [x|k]; cbn [bind one]; [|reflexivity]. exists r, (w :: loc). repeat split; assumption.
Qed.
Lemma ReadASN1BooleanS_sim : forall p st g, nth_error (r_vars st) p = Some g -> fits g -> one p st g (ReadASN1Boolean (val (r_heap st) g)) (ReadASN1BooleanS p st).
Proof.
  intros p st g E F. unfold ReadASN1BooleanS. match goal with |- context[valueS p INTEGER ?f st] => pose proof (valueS_sim _ p INTEGER f st g E F) as H end.
  unfold valueV in H. unfold ReadASN1Boolean. destruct (ReadASN1 _ _ _) as [[[ok o] s']|k]; cbn [bind] in *; [|exact H].
  unfold slen. destruct ok; cbn [negb orb] in *; [|exact H]. destruct (negb (zlen (contents o) =? 1)); cbn [bind] in *; [exact H|].
  destruct (go_index (contents o) 0) as [b|k]; cbn [bind] in *; [|exact H]. destruct (b =? 0); [exact H|]. destruct (b =? 0xff); exact H.
Qed.
Lemma readASN1BigIntS_sim : forall p st g, nth_error (r_vars st) p = Some g -> fits g -> one p st g (readASN1BigInt (val (r_heap st) g)) (readASN1BigIntS p st).
Proof.
  intros p st g E F. unfold readASN1BigIntS. match goal with |- context[valueS p INTEGER ?f st] => pose proof (valueS_sim _ p INTEGER f st g E F) as H end.
  unfold valueV in H. unfold readASN1BigInt. destruct (ReadASN1 _ _ _) as [[[ok o] s']|k]; cbn [bind] in *; [|exact H].
  destruct ok; cbn [negb orb] in *; [|exact H]. destruct (negb (checkASN1Integer (contents o))); cbn [bind] in *; [exact H|].
  destruct (go_index (contents o) 0) as [b|k]; cbn [bind] in *; [|exact H]. destruct (Z.land b 0x80 =? 0x80); exact H.
Qed.
Lemma readASN1Int64S_sim : forall p st g, nth_error (r_vars st) p = Some g -> fits g -> one p st g (readASN1Int64 (val (r_heap st) g)) (readASN1Int64S p st).
Proof.
  intros p st g E F. unfold readASN1Int64S. match goal with |- context[valueS p INTEGER ?f st] => pose proof (valueS_sim _ p INTEGER f st g E F) as H end.
  unfold valueV in H. unfold readASN1Int64. destruct (ReadASN1 _ _ _) as [[[ok o] s']|k]; cbn [bind] in *; [|exact H].
  destruct ok; cbn [negb orb] in *; [|exact H]. destruct (negb (checkASN1Integer (contents o))); cbn [bind] in *; exact H.
Qed.
Lemma readASN1Uint64S_sim : forall p st g, nth_error (r_vars st) p = Some g -> fits g -> one p st g (readASN1Uint64 (val (r_heap st) g)) (readASN1Uint64S p st).
Proof.
  intros p st g E F. unfold readASN1Uint64S. match goal with |- context[valueS p INTEGER ?f st] => pose proof (valueS_sim _ p INTEGER f st g E F) as H end.
  unfold valueV in H. unfold readASN1Uint64. destruct (ReadASN1 _ _ _) as [[[ok o] s']|k]; cbn [bind] in *; [|exact H].
  destruct ok; cbn [negb orb] in *; [|exact H]. destruct (negb (checkASN1Integer (contents o))); cbn [bind] in *; exact H.
Qed.
Lemma ReadASN1IntegerS_sim : forall p k st g, nth_error (r_vars st) p = Some g -> fits g -> one p st g (ReadASN1Integer (val (r_heap st) g) k) (ReadASN1IntegerS p k st).
Proof.
  intros p k st g E F. destruct k as [bits|bits| | |]; cbn [ReadASN1Integer ReadASN1IntegerS]; [| |apply readASN1BigIntS_sim; assumption|reflexivity|reflexivity].
  - pose proof (one_map _ _ (fun i => match i with None => None | Some i => if overflowInt bits i then None else Some i end) _ _ _ _ _ (readASN1Int64S_sim p st g E F)) as H.
    rewrite bindM_at. destruct (readASN1Int64 _) as [[[i|] s']|k]; cbn [bind] in *; try exact H. destruct (overflowInt bits i); exact H.
  - pose proof (one_map _ _ (fun i => match i with None => None | Some i => if overflowUint bits i then None else Some i end) _ _ _ _ _ (readASN1Uint64S_sim p st g E F)) as H.
    rewrite bindM_at. destruct (readASN1Uint64 _) as [[[i|] s']|k]; cbn [bind] in *; try exact H. destruct (overflowUint bits i); exact H.
Qed.
Lemma ReadASN1EnumS_sim : forall p st g, nth_error (r_vars st) p = Some g -> fits g -> one p st g (ReadASN1Enum (val (r_heap st) g)) (ReadASN1EnumS p st).
Proof.
  intros p st g E F. unfold ReadASN1EnumS. match goal with |- context[valueS p ENUM ?f st] => pose proof (valueS_sim _ p ENUM f st g E F) as H end.
  unfold valueV in H. unfold ReadASN1Enum. destruct (ReadASN1 _ _ _) as [[[ok o] s']|k]; cbn [bind] in *; [|exact H].
  destruct ok; cbn [negb orb] in *; [|exact H]. destruct (negb (checkASN1Integer (contents o))); cbn [bind] in *; [exact H|].
  destruct (asn1Signed (contents o)) as [i|]; [|exact H]. destruct (negb (i64 i =? i)); exact H.
Qed.
Lemma ReadASN1ObjectIdentifierS_sim : forall p st g, nth_error (r_vars st) p = Some g -> fits g -> one p st g (ReadASN1ObjectIdentifier (val (r_heap st) g)) (ReadASN1ObjectIdentifierS p st).
Proof.
  intros p st g E F. unfold ReadASN1ObjectIdentifierS. match goal with |- context[valueS p OBJECT_IDENTIFIER ?f st] => pose proof (valueS_sim _ p OBJECT_IDENTIFIER f st g E F) as H end.
  unfold valueV in H. unfold ReadASN1ObjectIdentifier. destruct (ReadASN1 _ _ _) as [[[ok o] s']|k]; cbn [bind] in *; [|exact H].
  unfold slen. destruct ok; cbn [negb orb] in *; [|exact H]. destruct (zlen (contents o) =? 0); cbn [bind] in *; [exact H|].
  destruct (go_make (zlen (contents o) + 1)) as [c|k]; cbn [bind] in *; [|exact H].
  destruct (readBase128Int (contents o)) as [[v|] l]; cbn [bind] in *; [|exact H].
  match goal with |- context[bind (if v <? 80 then ?a else ?b) _] => destruct (if v <? 80 then a else b) as [c2|k2] end; cbn [bind] in *; [|exact H].
  destruct (oidLoop _ _ _ _) as [[[c3 i]|]|k3]; cbn [bind] in *; try exact H. destruct (go_slice c3 0 i); cbn [bind] in *; exact H.
Qed.

Lemma ReadASN1BitStringS_sim : forall p q st g, nth_error (r_vars st) p = Some g -> fits g -> (q < List.length (r_vars st))%nat ->
  three p q st g (option_map (fun x => Some (fst x))) (option_map snd) (ReadASN1BitString (val (r_heap st) g)) (ReadASN1BitStringS p q st).
Proof.
  intros p q st g E F Q. unfold ReadASN1BitString, ReadASN1BitStringS. rewrite bindM_at, newv_at. cbn [bind]. rewrite bindM_at. local_asn1 p BIT_STRING st g E F.
  destruct (ReadASN1 (val (r_heap st) g) None BIT_STRING) as [[[ok o] s']|k]; cbn [bind]; [|unfold three; rewrite LA; reflexivity].
  destruct LA as (r & w & loc & -> & V & W & T & I). cbn [bind].
  rewrite bindM_at, (getv_at _ _ w) by (cbn [r_vars]; apply nth_local). cbn [bind].
  assert (STOP : exists r' u loc', Ret (None, mkR (r_heap st) (upd (r_vars st) p r ++ w :: loc)) = Ret (option_map (snd (A := list Z) (B := Z)) None, after st p r' q u loc') /\ val (r_heap st) r' = s' /\ tail g r' /\
      None = option_map (val (r_heap st)) u /\ (forall x, u = Some (Some x) -> inside g r' x)).
  { exists r, None, (w :: loc). split; [reflexivity|]. split; [exact V|]. split; [exact T|]. split; [reflexivity|]. intros x X. discriminate. }
  destruct ok; cbn [negb orb]; [|exact STOP].
  assert (FW : fits w) by (destruct w as [w|]; [eapply inside_fits; [exact F|exact T|apply I; reflexivity]|exact Logic.I]).
  rewrite <- W, glen_val by exact FW. destruct (Z.eqb_spec (glen w) 0) as [L|L]; [exact STOP|]. destruct w as [w|]; [|cbn in L; lia].
  cbn [glen val option_map contents] in *. rewrite bindM_at, bytesv_at. cbn [bind r_heap val option_map contents]. rewrite bindM_at, liftM_at.
  destruct (go_index (content (r_heap st) w) 0) as [pad|k]; cbn [bind]; [|reflexivity]. cbn [fits] in FW.
  rewrite bindM_at, bytesv_at. rewrite go_slice_ret by (rewrite ?zlen_content; lia). cbn [bind r_heap val option_map contents].
  assert (C : content (r_heap st) (dropS w 1) = sub (content (r_heap st) w) 1 (s_len w)).
  { rewrite content_drop by lia. unfold sub. rewrite firstn_all2; [reflexivity|]. rewrite skipn_length. unfold content. rewrite map_length, seq_length. lia. }
  rewrite <- C. destruct (7 <? pad); [exact STOP|]. destruct (_ && _); [exact STOP|].
  rewrite bindM_at, liftM_at.
  match goal with |- context[bind (if 0 <? ?a then ?b else ?c) _] => destruct (if 0 <? a then b else c) as [[|]|k] end; cbn [bind]; [exact STOP| |reflexivity].
  rewrite bindM_at. unfold setv. cbn [bind r_heap r_vars three]. exists r, (Some (Some (dropS w 1))), (Some w :: loc).
  split. { unfold after, retM. rewrite upd_app1 by (rewrite length_upd; exact Q). reflexivity. }
  split; [exact V|]. split; [exact T|]. split; [reflexivity|]. intros x X. injection X as <-. apply inside_drop; [apply I; reflexivity|lia].
Qed.
Lemma ReadASN1BitStringAsBytesS_sim : forall p q st g, nth_error (r_vars st) p = Some g -> fits g -> (q < List.length (r_vars st))%nat ->
  three p q st g (option_map (fun x => Some x)) (fun x => match x with Some _ => true | None => false end) (ReadASN1BitStringAsBytes (val (r_heap st) g)) (ReadASN1BitStringAsBytesS p q st).
Proof.
  intros p q st g E F Q. unfold ReadASN1BitStringAsBytes, ReadASN1BitStringAsBytesS. rewrite bindM_at, newv_at. cbn [bind]. rewrite bindM_at. local_asn1 p BIT_STRING st g E F.
  destruct (ReadASN1 (val (r_heap st) g) None BIT_STRING) as [[[ok o] s']|k]; cbn [bind]; [|unfold three; rewrite LA; reflexivity].
  destruct LA as (r & w & loc & -> & V & W & T & I). cbn [bind].
  rewrite bindM_at, (getv_at _ _ w) by (cbn [r_vars]; apply nth_local). cbn [bind].
  assert (STOP : exists r' u loc', Ret (false, mkR (r_heap st) (upd (r_vars st) p r ++ w :: loc)) = Ret (false, after st p r' q u loc') /\ val (r_heap st) r' = s' /\ tail g r' /\
      None = option_map (val (r_heap st)) u /\ (forall x, u = Some (Some x) -> inside g r' x)).
  { exists r, None, (w :: loc). split; [reflexivity|]. split; [exact V|]. split; [exact T|]. split; [reflexivity|]. intros x X. discriminate. }
  destruct ok; cbn [negb orb]; [|exact STOP].
  assert (FW : fits w) by (destruct w as [w|]; [eapply inside_fits; [exact F|exact T|apply I; reflexivity]|exact Logic.I]).
  rewrite <- W, glen_val by exact FW. destruct (Z.eqb_spec (glen w) 0) as [L|L]; [exact STOP|]. destruct w as [w|]; [|cbn in L; lia].
  cbn [glen val option_map contents] in *. rewrite bindM_at, bytesv_at. cbn [bind r_heap val option_map contents]. rewrite bindM_at, liftM_at.
  destruct (go_index (content (r_heap st) w) 0) as [pad|k]; cbn [bind]; [|reflexivity]. cbn [fits] in FW.
  destruct (negb (pad =? 0)); [exact STOP|]. rewrite go_slice_ret by (rewrite ?zlen_content; lia). cbn [bind].
  rewrite bindM_at. unfold setv. cbn [bind r_heap r_vars three]. exists r, (Some (Some (dropS w 1))), (Some w :: loc).
  split. { unfold after, retM. rewrite upd_app1 by (rewrite length_upd; exact Q). reflexivity. }
  split; [exact V|]. split; [exact T|]. split.
  { cbn [option_map val]. do 2 f_equal. rewrite content_drop by lia. unfold sub. rewrite firstn_all2; [reflexivity|]. rewrite skipn_length. unfold content. rewrite map_length, seq_length. lia. }
  intros x X. injection X as <-. apply inside_drop; [apply I; reflexivity|lia].
Qed.

Lemma EmptyS_sim : forall p st g, nth_error (r_vars st) p = Some g -> fits g -> EmptyS p st = Ret (Empty (val (r_heap st) g), st).
Proof. intros p st g E F. unfold EmptyS. rewrite bindM_at, (getv_at p st g E). cbn [bind]. unfold Empty, retM. rewrite glen_val by exact F. reflexivity. Qed.
Lemma PeekASN1TagS_sim : forall p tag st g, nth_error (r_vars st) p = Some g -> fits g ->
  PeekASN1TagS p tag st = do b <- PeekASN1Tag (val (r_heap st) g) tag; Ret (b, st).
Proof.
  intros p tag st g E F. unfold PeekASN1TagS, PeekASN1Tag. rewrite bindM_at, (getv_at p st g E). cbn [bind]. rewrite glen_val by exact F.
  destruct (glen g =? 0); [reflexivity|]. rewrite bindM_at, bytesv_at. cbn [bind]. rewrite bindM_at, liftM_at. destruct (go_index _ 0); reflexivity.
Qed.
Definition optV (R : go (bool * cstr * bool * cstr)) : go ((bool * bool) * cstr * cstr) := do (ok, out, t, s) <- R; Ret ((ok, t), out, s).
Lemma ReadOptionalASN1S_sim : forall p q out tag st g, nth_error (r_vars st) p = Some g -> fits g -> (q < List.length (r_vars st))%nat ->
  two p q st g out (optV (ReadOptionalASN1 (val (r_heap st) g) out tag)) (ReadOptionalASN1S p q tag st).
Proof.
  intros p q out tag st g E F Q. unfold ReadOptionalASN1, ReadOptionalASN1S, optV. rewrite bindM_at, (PeekASN1TagS_sim p tag st g E F).
  destruct (PeekASN1Tag (val (r_heap st) g) tag) as [[|]|k]; cbn [bind]; [| |reflexivity].
  - pose proof (two_map _ _ (fun ok : bool => (ok, true)) _ _ _ _ _ _ _ (ReadASN1S_sim p q out tag st g E F Q)) as H. rewrite bindM_at.
    destruct (ReadASN1 (val (r_heap st) g) out tag) as [[[ok o] s']|k]; cbn [bind] in *; exact H.
  - unfold two. exists g, None, []. split.
    { unfold retM, after. cbn [option_map]. rewrite upd_id by exact E. rewrite app_nil_r. destruct st; reflexivity. }
    split; [reflexivity|]. split; [apply tail_refl; exact F|reflexivity].
Qed.
Lemma SkipOptionalASN1S_sim : forall p tag st g, nth_error (r_vars st) p = Some g -> fits g -> one p st g (SkipOptionalASN1 (val (r_heap st) g) tag) (SkipOptionalASN1S p tag st).
Proof.
  intros p tag st g E F. unfold SkipOptionalASN1, SkipOptionalASN1S. rewrite bindM_at, (PeekASN1TagS_sim p tag st g E F).
  destruct (PeekASN1Tag (val (r_heap st) g) tag) as [[|]|k]; cbn [bind negb]; [| |reflexivity].
  - exact (SkipASN1S_sim p tag st g E F).
  - unfold one. exists g, []. split.
    { unfold retM, after. cbn [option_map]. rewrite upd_id by exact E. rewrite app_nil_r. destruct st; reflexivity. }
    split; [reflexivity|apply tail_refl; exact F].
Qed.
Ltac local_opt p tag st g E F :=
  let H := fresh "LO" in
  pose proof (two_local _ p st g _ _ E (ReadOptionalASN1S_sim p (List.length (r_vars st)) None tag (mkR (r_heap st) (r_vars st ++ [None])) g (local_E st p g E) F (local_Q st))) as H;
  cbn [r_heap] in H; unfold optV in H.
Lemma local_fits : forall g r (w : gstr), fits g -> tail g r -> (forall x, w = Some x -> inside g r x) -> fits w.
Proof. intros g r [w|] F T I; [eapply inside_fits; [exact F|exact T|apply I; reflexivity]|exact Logic.I]. Qed.
Lemma ReadOptionalASN1IntegerS_sim : forall p k tag d st g, nth_error (r_vars st) p = Some g -> fits g ->
  one p st g (ReadOptionalASN1Integer (val (r_heap st) g) k tag d) (ReadOptionalASN1IntegerS p k tag d st).
Proof.
  intros p k tag d st g E F. assert (KN : k = KNoPtr \/ k <> KNoPtr) by (destruct k; auto; right; discriminate). destruct KN as [->|KN]; [reflexivity|].
  assert (X : ReadOptionalASN1Integer (val (r_heap st) g) k tag d =
      (do (ok, i, present, s) <- ReadOptionalASN1 (val (r_heap st) g) None tag;
      if negb ok then Ret (None, s)
      else if negb present then
        match k with
        | KOther => Panic (PUser "invalid integer type")
        | _ => Ret (Some d, s)
        end
      else
        do (v, i) <- ReadASN1Integer i k;
        match v with
        | None => Ret (None, s)
        | Some v => if negb (Empty i) then Ret (None, s) else Ret (Some v, s)
        end)) by (destruct k; first [reflexivity|congruence]).
  assert (Y : ReadOptionalASN1IntegerS p k tag d =
      (win i <- newv;
      win (ok, present) <- ReadOptionalASN1S p i tag;
      if negb ok then retM None
      else if negb present then
        match k with
        | KOther => liftM (Panic (PUser "invalid integer type"))
        | _ => retM (Some d)
        end
      else
        win v <- ReadASN1IntegerS i k;
        match v with
        | None => retM None
        | Some v => win e <- EmptyS i; retM (if negb e then None else Some v)
        end)) by (destruct k; first [reflexivity|congruence]).
  rewrite X, Y. clear X Y. rewrite bindM_at, newv_at. cbn [bind]. rewrite bindM_at. local_opt p tag st g E F.
  destruct (ReadOptionalASN1 (val (r_heap st) g) None tag) as [[[[ok o] pr] s']|k']; cbn [bind] in *; [|unfold one; rewrite LO; reflexivity].
  destruct LO as (r & w & loc & -> & V & W & T & I). cbn [bind]. destruct ok; cbn [negb].
  2:{ exists r, (w :: loc). repeat split; assumption. }
  destruct pr; cbn [negb].
  2:{ destruct k; try reflexivity; exists r, (w :: loc); repeat split; assumption. }
  set (st2 := mkR (r_heap st) (upd (r_vars st) p r ++ w :: loc)). rewrite bindM_at.
  assert (E2 : nth_error (r_vars st2) (List.length (r_vars st)) = Some w) by (cbn [st2 r_vars]; apply nth_local).
  assert (FW : fits w) by (eapply local_fits; eassumption).
  pose proof (ReadASN1IntegerS_sim (List.length (r_vars st)) k st2 w E2 FW) as H. change (r_heap st2) with (r_heap st) in H. rewrite W in H.
  destruct (ReadASN1Integer o k) as [[v i]|k']; cbn [bind one] in *; [|rewrite H; reflexivity].
  destruct H as (r2 & loc2 & -> & V2 & T2). cbn [bind]. change (val (r_heap st) r2 = i) in V2.
  assert (AF : after st2 (List.length (r_vars st)) r2 (List.length (r_vars st)) None loc2 = mkR (r_heap st) (upd (r_vars st) p r ++ r2 :: loc ++ loc2)).
  { unfold after, st2. cbn [r_heap r_vars]. rewrite upd_app2 by (rewrite length_upd; reflexivity). rewrite <- app_assoc. reflexivity. }
  rewrite AF. destruct v as [v|].
  2:{ exists r, (r2 :: loc ++ loc2). repeat split; assumption. }
  rewrite bindM_at, (EmptyS_sim _ _ r2) by (try (cbn [r_vars]; apply nth_local); eapply tail_fits; eassumption). cbn [bind r_heap]. rewrite V2.
  destruct (negb (Empty i)); exists r, (r2 :: loc ++ loc2); repeat split; assumption.
Qed.
Lemma ReadOptionalASN1BooleanS_sim : forall p d st g, nth_error (r_vars st) p = Some g -> fits g ->
  one p st g (ReadOptionalASN1Boolean (val (r_heap st) g) d) (ReadOptionalASN1BooleanS p d st).
Proof.
  intros p d st g E F. unfold ReadOptionalASN1Boolean, ReadOptionalASN1BooleanS. rewrite bindM_at, newv_at. cbn [bind]. rewrite bindM_at. local_opt p BOOLEAN st g E F.
  destruct (ReadOptionalASN1 (val (r_heap st) g) None BOOLEAN) as [[[[ok o] pr] s']|k']; cbn [bind] in *; [|unfold one; rewrite LO; reflexivity].
  destruct LO as (r & w & loc & -> & V & W & T & I). cbn [bind]. destruct ok; cbn [negb].
  2:{ exists r, (w :: loc). repeat split; assumption. }
  destruct pr; cbn [negb].
  2:{ exists r, (w :: loc). repeat split; assumption. }
  set (st2 := mkR (r_heap st) (upd (r_vars st) p r ++ w :: loc)). assert (P : (p < List.length (r_vars st))%nat) by (eapply nth_lt; exact E).
  assert (E2 : nth_error (r_vars st2) p = Some r).
  { cbn [st2 r_vars]. apply nth_app1. rewrite nth_upd by exact P. rewrite Nat.eqb_refl. reflexivity. }
  pose proof (ReadASN1BooleanS_sim p st2 r E2 (tail_fits _ _ F T)) as H. change (r_heap st2) with (r_heap st) in H. rewrite V in H.
  destruct (ReadASN1Boolean s') as [[v s2]|k']; unfold one in *; [|exact H].
  destruct H as (r2 & loc2 & -> & V2 & T2). exists r2, (w :: loc ++ loc2). split.
  - unfold after, st2. cbn [r_heap r_vars]. rewrite upd_app1 by (rewrite length_upd; exact P). rewrite upd_upd, <- app_assoc. reflexivity.
  - split; [exact V2|eapply tail_trans; eassumption].
Qed.
Lemma ReadOptionalASN1OctetStringS_sim : forall p q tag st g, nth_error (r_vars st) p = Some g -> fits g -> (q < List.length (r_vars st))%nat ->
  three p q st g (option_map fst) (option_map snd) (ReadOptionalASN1OctetString (val (r_heap st) g) tag) (ReadOptionalASN1OctetStringS p q tag st).
Proof.
  intros p q tag st g E F Q. unfold ReadOptionalASN1OctetString, ReadOptionalASN1OctetStringS. rewrite bindM_at, newv_at. cbn [bind]. rewrite bindM_at. local_opt p tag st g E F.
  destruct (ReadOptionalASN1 (val (r_heap st) g) None tag) as [[[[ok o] pr] s']|k']; cbn [bind] in *; [|unfold three; rewrite LO; reflexivity].
  destruct LO as (r & w & loc & -> & V & W & T & I). cbn [bind].
  assert (STOP : forall loc1, exists r' u loc', Ret (None, mkR (r_heap st) (upd (r_vars st) p r ++ loc1)) = Ret (option_map (snd (A := cstr) (B := bool)) None, after st p r' q u loc') /\ val (r_heap st) r' = s' /\ tail g r' /\
      None = option_map (val (r_heap st)) u /\ (forall x, u = Some (Some x) -> inside g r' x)).
  { intros loc1. exists r, None, loc1. split; [reflexivity|]. split; [exact V|]. split; [exact T|]. split; [reflexivity|]. intros x X. discriminate. }
  destruct ok; cbn [negb]; [|apply STOP]. destruct pr.
  2:{ rewrite bindM_at. unfold setv. cbn [bind r_heap r_vars three]. exists r, (Some None), (w :: loc).
      split. { unfold after, retM. rewrite upd_app1 by (rewrite length_upd; exact Q). reflexivity. }
      split; [exact V|]. split; [exact T|]. split; [reflexivity|]. intros x X. discriminate. }
  set (st2 := mkR (r_heap st) (upd (r_vars st) p r ++ w :: loc)). rewrite bindM_at, newv_at. cbn [bind]. rewrite bindM_at.
  assert (E2 : nth_error (r_vars st2) (List.length (r_vars st)) = Some w) by (cbn [st2 r_vars]; apply nth_local).
  assert (FW : fits w) by (eapply local_fits; eassumption).
  local_asn1 (List.length (r_vars st)) OCTET_STRING st2 w E2 FW. change (r_heap st2) with (r_heap st) in LA |- *. rewrite W in LA.
  destruct (ReadASN1 o None OCTET_STRING) as [[[ok oct] ch]|k']; cbn [bind]; [|unfold three; rewrite LA; reflexivity].
  destruct LA as (r2 & w2 & loc2 & -> & V2 & W2 & T2 & I2). cbn [bind]. change (val (r_heap st) r2 = ch) in V2.
  assert (AF : upd (r_vars st2) (List.length (r_vars st)) r2 ++ w2 :: loc2 = upd (r_vars st) p r ++ r2 :: loc ++ w2 :: loc2).
  { unfold st2. cbn [r_vars]. rewrite upd_app2 by (rewrite length_upd; reflexivity). rewrite <- app_assoc. reflexivity. }
  assert (L2 : List.length (r_vars st2) = List.length (upd (r_vars st) p r ++ r2 :: loc)).
  { unfold st2. cbn [r_vars]. rewrite !app_length. reflexivity. }
  rewrite AF. rewrite bindM_at, (EmptyS_sim _ _ r2) by (try (cbn [r_vars]; apply nth_local); eapply tail_fits; eassumption). cbn [bind r_heap]. rewrite V2.
  destruct (negb ok || negb (Empty ch)) eqn:B; [apply STOP|].
  rewrite bindM_at, (getv_at _ _ w2).
  2:{ cbn [r_vars]. rewrite L2. replace (upd (r_vars st) p r ++ r2 :: loc ++ w2 :: loc2) with ((upd (r_vars st) p r ++ r2 :: loc) ++ w2 :: loc2) by (rewrite <- app_assoc; reflexivity).
      rewrite nth_error_app2 by lia. rewrite Nat.sub_diag. reflexivity. }
  cbn [bind]. rewrite bindM_at. unfold setv. cbn [bind r_heap r_vars three]. exists r, (Some w2), (r2 :: loc ++ w2 :: loc2).
  split. { unfold after, retM. rewrite upd_app1 by (rewrite length_upd; exact Q). reflexivity. }
  split; [exact V|]. split; [exact T|]. split; [cbn [option_map fst]; rewrite W2; reflexivity|]. intros x X. injection X as ->.
  destruct w as [w|]; [|exfalso; destruct r2; exact (I2 x eq_refl)].
  apply (inside_inside g r w r2 x); [apply I; reflexivity|exact T2| |apply I2; reflexivity].
  rewrite <- (glen_val (r_heap st)) by (eapply tail_fits; eassumption). rewrite V2. apply orb_false_iff in B. destruct B as [_ B]. apply negb_false_iff in B.
  unfold Empty in B. lia.
Qed.
