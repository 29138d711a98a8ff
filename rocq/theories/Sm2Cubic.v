(** The cubic x^3 - 3x + b of the SM2 curve has no root in the field, so the curve has no point of order two.
    A root r would satisfy r^p = r. The powers r^(2^k) are computed as quadratic polynomials in r, each squaring
    step carrying the quotients that make its three congruences equations over the integers. Since
    2^256 + 2^64 = p + 1 + 2^224 + 2^96, this gives a quadratic polynomial that vanishes at r and is prime to
    the cubic. *)
From Coq Require Import ZArith Znumtheory List Lia Bool.
From Verif Require Import Primes Sm2Primes GoBase FpField WeiGroup GoElliptic Sm2Group Sm2Order.
Import ListNotations.
Open Scope Z_scope.

Definition poly : Set := (Z * Z * Z)%type.
Definition val (a : poly) (r : Z) : Z := let '(a0, a1, a2) := a in a0 + a1 * r + a2 * (r * r).
Definition cub (r : Z) : Z := r * r * r - 3 * r + sm2b.

(** Product modulo the cubic, over the integers. *)
Definition mulc (x y : poly) : poly :=
  let '(x0, x1, x2) := x in let '(y0, y1, y2) := y in
  let c3 := x1 * y2 + x2 * y1 in let c4 := x2 * y2 in
  (x0 * y0 - sm2b * c3, x0 * y1 + x1 * y0 + 3 * c3 - sm2b * c4, x0 * y2 + x1 * y1 + x2 * y0 + 3 * c4).
Lemma mulc_val : forall x y r, exists z, val x r * val y r = val (mulc x y) r + cub r * z.
Proof.
  intros [[x0 x1] x2] [[y0 y1] y2] r. exists (x1 * y2 + x2 * y1 + x2 * y2 * r). unfold val, mulc, cub. cbv zeta. ring.
Qed.

(** a, b are congruent modulo p *)
Definition cong (a b : Z) : Prop := (sm2p | a - b).
Lemma cong_refl : forall a, cong a a. Proof. intro a. exists 0. lia. Qed.
Lemma cong_sym : forall a b, cong a b -> cong b a. Proof. intros a b [k H]. exists (- k). lia. Qed.
Lemma cong_trans : forall a b c, cong a b -> cong b c -> cong a c. Proof. intros a b c [k H] [l H']. exists (k + l). lia. Qed.
Lemma cong_mul : forall a b c d, cong a b -> cong c d -> cong (a * c) (b * d).
Proof.
  intros a b c d [k H] [l H']. exists (k * c + b * l). replace (a * c - b * d) with ((a - b) * c + b * (c - d)) by ring.
  rewrite H, H'. ring.
Qed.
Lemma mulc_cong : forall x y r u v, cong (cub r) 0 -> cong (val x r) u -> cong (val y r) v -> cong (val (mulc x y) r) (u * v).
Proof.
  intros x y r u v [c HC] HX HY. apply (cong_trans _ (val x r * val y r)); [|apply cong_mul; assumption].
  destruct (mulc_val x y r) as (z & ->). exists (- (c * z)). rewrite Z.sub_0_r in HC. rewrite HC. ring.
Qed.

(** A squaring step: the result and three quotients. *)
Definition sq_step : Set := (poly * (Z * Z * Z))%type.
Definition sq_ok (a : poly) (s : sq_step) : bool :=
  let '(x0, x1, x2, (q0, q1, q2)) := s in
  let '(v0, v1, v2) := mulc a a in
  (v0 - x0 =? mulp q0) && (v1 - x1 =? mulp q1) && (v2 - x2 =? mulp q2).
Fixpoint sq_run (steps : list sq_step) (a : poly) : option poly :=
  match steps with
  | [] => Some a
  | s :: steps => if sq_ok a s then sq_run steps (fst s) else None
  end.
Lemma sq_step_ok : forall a s r R, sq_ok a s = true -> cong (cub r) 0 -> cong (val a r) R -> cong (val (fst s) r) (R * R).
Proof.
  intros a [[[x0 x1] x2] [[q0 q1] q2]] r R H HC HA. unfold sq_ok in H. pose proof (mulc_cong a a r R R HC HA HA) as M.
  destruct (mulc a a) as [[v0 v1] v2]. rewrite !andb_true_iff, !Z.eqb_eq, !mulp_spec in H. destruct H as [[H0 H1] H2].
  apply (cong_trans _ (val (v0, v1, v2) r)); [|exact M]. cbn [fst]. unfold val.
  exists (- (q0 + q1 * r + q2 * (r * r))). replace v0 with (x0 + q0 * sm2p) by lia. replace v1 with (x1 + q1 * sm2p) by lia.
  replace v2 with (x2 + q2 * sm2p) by lia. ring.
Qed.
Lemma sq_run_ok : forall steps a x r e, sq_run steps a = Some x -> cong (cub r) 0 -> 0 <= e -> cong (val a r) (r ^ e) ->
  cong (val x r) (r ^ (e * 2 ^ Z.of_nat (List.length steps))).
Proof.
  induction steps as [|s steps IH]; intros a x r e H HC He HA; cbn [sq_run List.length] in *.
  - injection H as <-. rewrite Z.mul_1_r. exact HA.
  - destruct (sq_ok a s) eqn:S; [|discriminate H]. rewrite Nat2Z.inj_succ, Z.pow_succ_r by lia.
    replace (e * (2 * 2 ^ Z.of_nat (List.length steps))) with ((e + e) * 2 ^ Z.of_nat (List.length steps)) by ring.
    apply (IH (fst s)); [exact H|exact HC|lia|]. rewrite Z.pow_add_r by lia. apply (sq_step_ok a); assumption.
Qed.

Definition pow_64 : poly := (0x88c6d0b1ae255c40760e7e3447eeacfe9a17143582273033f6ea2a851fe90750, 0x4570cdf47f1e5f39e4cf9fb6df1de3e0a73b9dfef7ed69c305683fab9c39c341, 0x7f57292936e481229d9e7a0bbf03e9747b85cb530f9caff2e5a1be5124ba555a).
Definition steps_64 : list sq_step := [
  (0x0, 0x0, 0x1, (0x0, 0x0, 0x0));
  (0x0, 0xd71605606260a1cbb2a561b4309af6580c687609ea54706e224342beb26bf16c, 0x3, (0x0, (-0x1), 0x0));
  (0xfe5bacde3542675fc72568e55bbae01ad7aff9f4e6d6def5330319981d2b7271, 0xaf5291406031107bd7714e012057fb494f047321b6e7db879d180a1cd162767a, 0xaa649ccf338b113aa130e6d0e49f2559ce9d5452fbce7a7eb32b2eeeaf873dd8, ((-0xce4026b126770e2b0e0001c864210722b6d4b228aeacf782e022783369175777), 0xd, 0xb4b5feed86a21f6f30500c12ca957527989a585877e2472da792d960cb92b82d));
  (0xdfdae18b0e38939802f8e9a3c35fab276b431c41954c646000b7add6b00164c5, 0x6d36fc3fa290a32a7e45c4852ba6b1ed823661a35037d06509b64d6f6f0aa59c, 0xf0a7e02a610ed88ab0d5dd6a0227182db9e75cfa82307c9a1d6a2490e8295ace, ((-0x254cdacc53014417152c2608641fa7ff5b649ee17c9096ff4ba58f3c24dd8644d3c3dce6ea5269b9f227f7424056d49cbc7bfe4187a30892eb46f7c1e91aed7c), (-0x12202f86b1cb49e913672f8124b81435c680cfe60ada3745f7493952a667ae43fd5a10998247088a35adf648489cb648f1ab3a5e1c2050ab38bd3fe9f989d8f8), 0x31ee905765eed36d7aaac00ce86450de2f82e100bf3db75be670f24b2dea1bd3a));
  (0x9302e66b01d3d043e1b7d6b96882978a8f2c773042309af099e3a7ba01f803, 0xeadb5cb1952e5f6dc9c60c64309acd0f11044d7dedb8c766980e8d25b853a848, 0xaed2019f1b395c38fa0042642301758d12857dc05a839f5c573333dffbd59664, ((-0x20d12a08ca258b00fb7360c7e9a2bd993c41c9d89bdccecd671c9631d46c0c3101166a81102773ab9bcfd812f1e0a6f73b676139be4845453ddd975f2f6c0966), (-0x2428053ae180ca459534338aed34106d1e18a02ada56f17d0c1ddd6b4ffc0f44f905e4f51ad87961a8a99f79c292007f275306df9ea785d31ae085b6a6b1cf74), 0x47a297453490a578b4e21d1d39634e4ed48b8460035b3b443e819e38301bbf4fc));
  (0xc035286828bd93400dbaba907a132e1d9707f4fc5d38eb745b25bea8ff604a17, 0xb629a0dd615b23882af10f8b8acab5c5d89ab2646db118bdf77111bc8bb89208, 0xc2b5d7c4b271a72edd0a00d5d02555beca37c6762a935f6c049b4a170ea8f8a0, ((-0x3343b8bcad28de41db92d46ce453e4e20c25d7c5a762a58e244424d9613edeaa162bff581251ca24d39da7fb5b1930e95b240bc49ad32d7ddbc7c3869d0ed932), (-0x13147338207627c26ec05bbd8158ef476d9ef63c50d3a1bb3dd96d5d7f57cf16a41ea183e83b5434f1d0711f09bb3bf15290d91e8e3db05d20370ae336f08a38), 0x23e64fe034aeba469b26fca0159434f63855fe82a6c2549724f50c033b1eb18d8));
  (0xe585d79df15c49278aa07fe6bda3d5b5c0d9f1723da9f87e45bb9eb3796348c3, 0x16b806193fda3d2c1c8a65e896910d709ad92e03cf5ad113a3c7c3ace1d4a5a2, 0xd0628957f815a5e19f64bf7832b26f432afd1d32c641006f64d3c417193fbf42, ((-0x2c494f1b6c2d3339db110416c6bbb2c289d02366f9a13aad1974c051a0e4b0d163a76631f9e90a998b365c4ea236acde88c1fcfe336c9b41e7a0a1cae8ea474e), (-0x17ab1f54b3605bdbf547c6431795d6b93840abdbd023f97b67c9d191e1a034110e4c1fe7f961c7b0b9d7aaafa1bf06705b44e3e0d6ee115711291d6c41c0e9ce), 0x362492c7f8e55779242b0170f3e0df10f9f82cbfe75a20c270ca5e99e55f64642));
  (0xb0f39d94647f295eec7f09cf7026596a2732c77acab76a2c4685f0e612e55366, 0x5e4f81400bb780664b727845c6a7236404f4478f2c7042bf789f3bf6828d7ee0, 0x5dda2bacb124f36627c47a2b8fafb462be3e70cfff6a1fe3cccdbed9c2367fc, ((-0x5e9432bd0b963ca3b28610ebd4bc79dabddb4fa43f667d7c1a2033cde1ff54385ce043708986fd83aa274620340329b3822895e59aff449ad7d8ba0ff4a1a0b), (-0x1b1c13bb0e73746f83586bda4f0239e6f31b6653dfec00074d9bb7713959e2fdb1d65f734d1999cac9e8d27c2a079c1b5af4b8645c8fdb811638fdf669952f38), 0x3748f23ce783b4b917065fdd8236763b982613617b7c73fd10888bd65b4cc07e0));
  (0xb4a1d6e74104e961bf032037eaf1c74e787c1cf19e20f8d6bfb2bc4a6416c93b, 0x90822366f44f7e459df675f381145fcc96e7c8f3974701b68faeb66a9ce7d20a, 0xa03f4d581e98b529579e87cf342cf9631d32eab004bd1eebddf5b77d92170579, ((-0xb0d384bf67aa30a99a6fb5babb0261a9d9ee39a162ab2b8acf822cf897345542d0b27925dc00fc223004c8a49b595112dbc1a060aeeeb891c8046853af5869), (-0x57fbc31ce36ed8d44002a9e666cbefd1f927d4ed522c2b4d8fc9adec7f16dc0ba9910e84eccf5f9f4b61b0408217f6b275a8c60ce94f0335951b538c17a46), 0x2b419e11a49afb294c9c8c9e55cd313d9a97c88b5f3b70af346509e40a8b3c79));
  (0xab4d830d1ab3443dbbfe9d592b89a7400ef66b64ae6ad2d5969724ec32ef0791, 0x97827a907b2d3c4232556c92239ce7e1c3478bff562f0368f78b72f90396467a, 0x9d2ea045a5657f03bca203fd5a91ec04386ada231d67ba8600122056e341aa40, ((-0x1ce9efc843a709324c7c0a2becdc5caa7347fc97a579fd68e73209efffdfb794b3ba6e0d6c74109a2aa8e1ae1082bcf77f11f57ad52140e023e3c813fee7ae6c), (-0x10080dd3ddda7aa469d78123b4b2c3f1c458f8267164044c548e1c0ffa53470521a4fc15a93212bf8f064eb5f467cd3ee0f9a30faf9cf43c1699c4358e51bf5b), 0x260a3dc6ca6b760ed1c84055ca40ac45c670bdb553d8fd4af4121113f034ce083));
  (0xf0383a9453a35629f65bd2ee0332a7f0daca1d8650daabc3377024f8bede28a6, 0x59b773b96bb3a6237489fc96999a56c95ca5f085ada31c83ce71bccc89893de4, 0x9a498c8fe64359b9eef18dd027df0658c0a353c34faf62b49376ddc018869651, ((-0x1dbc1d64434685a8a6ffc51bc0e2f18c5a0b7803ded5d7914be2ac16960e60f13db73e96491f605d43f5747501402e93d4e316eb6f7e6ebb257404f01888787b), (-0xf6c8dec0239eb1f02eccf3863f48ec4a8209697a8337edd320fb90d7c85809d0614b7b9e3ab2f5a06ee44d6ded09d023497c281d99b1ebfbdc38370ca48e350), 0x24d8d536af76741ea22862eb02ac47905dc61b9db0d466d2b97cd434675ca17ad));
  (0xf0f003c2b003a0d4f1cfe623e52191439e93958e66cfad3c14f80a96df8c446a, 0x26c870560b03b71292d48046f0fb22d0eba8484b2bd640ef272ab680ae7a7b06, 0x7a48aebf5fb48d396683478511c43447708d8c4090f06b96801e827774d4d00a, ((-0x1148818fd0baef047b8f096acc383dcb4428c0cc516d9313c7e68115963bda925079ce2d76bcd8b27431c534c63eab2e0efee3ee6f6503e1973a44008edc3fe2), (-0xedc73c335947bd444370fc45381dbba3fa32c56a75cb37b114860a465d18dd03c2e41c52965271d3e629ffee440fd4c0017eff22e3e1df27a70ed708a770e0f), 0x257f477032156f8d346bc0612ce62c330b76c8e03b158b162bb145baca2a90b0b));
  (0x17a9e761d5d7b3030914fdcb7fb82d8421ad46bcea3ecfc6b9eebf5ab0d64909, 0x2eab276936ccaa8c9db276fc286ee93c05072bd7e3a4bf4629abf00255dd27b0, 0xfa9649263e0c055179d56d84a47465390e8843fe9448f9786379657f4a849234, ((-0x5ebe7c89172cf0735f6d079954795554312481e7f2ddc7869cdd66e57e7abccd149df11dc8e8a64f8cb14d4623df87e1b2a81ec2c09080e8f48e7fe764d89f3), (-0x955d952cbb6850dd47c0cc9bd1b32a6c7d7473903aeba00e210ccb6d832efdfc569faa4ef49f409815b30ad20fb6728bec60e0a36081e9083fad86575638d44), 0x19b49c364896e17569768aeca5968817a399823e698bd0e55a2fd2184031b749c));
  (0xede33622fb8e64af195065893350c035898ed6823e32b7f956cf22991a8514d3, 0x7087e2450d9725a413ffe5536ef80d3e9180ac955a2b39ba287e89a31c74c23, 0x34541b2d85e5ff22fb3ba506900f9b5f729c3589c8377fab6d819d9ff7888ed0, ((-0xe9a0c5197bac66daef7f5467f5a14a70e8c8deabaa59d508cad1866fbb6ca2c4b7f9ca297d1d9b4075715b4386b157368219d4ec1ac48debe1abfdb610fb6fe), (-0x2733bb3a26cff25fe66b8993f7d58f6d4456c4b919f6f5bb7513118324e41fa1493da77628b9026c75c61a2f9c355cc3eedb4b25663047309e1033c5c5499c0d), 0x316b3327043e924341681861b0929831448ce62a2db9ae45396b66279487f7678));
  (0xd5d207d3eb64f3f5650474209374ab5983d7f06a1e884d492c2ffe655d35d48f, 0x28f6f60259a077afa819ad0cf95b7135896165850d6235dad0f5abb2929505b6, 0x329025fd83dfb482c6eb9f3f8aa8af1286640e57012b50d8f3fa9ac1b2fc12e0, ((-0x75a39dbe20dafe605c2e65c98085396855f0e13a5411e883b6fd4aebeb6cd968083af9a51ecfc2a648ceb7ecf2cbe0626bbe7019ac13511e094592728eacba), (-0x1b5a1c5fbd11c413f28bad35fb7b321e23ce911b68c5c61ca50219660741dd9225c5494b245f3d0460f9a2332d272895ae77d2cdec85648a47f95e1a0924f9c), 0x8188e8cfe92652caf262826dbf9dd41d265660597415aa3065f7f80a8c5f2037));
  (0x3974cc7505a1bb6a8c7485173209d017a3c979d174ebe6441d572510117babac, 0xddc8e61a40f342cfbbe1806b48507e1e4053a5914d3db65177f78de84a53f15c, 0x4d46e1dd459b230f1b1d3036021002ec1d2f2adea6b9b2aabcb1509beb2482a, ((-0x296125541fa34395aa9e7c09bab1f91922f3b569d512b68fae1c6cdf5d20d395cfc4918348f4335f13e1117e8cec0681541d4c497f02703e8c3c022fa0110b5), (-0x19899b4cf2aa52c436872debae22fe3eb1d4601234f022b27f31d9b157755c80d5dc58fc220be811303ad93ce8fa11c8468a95050ec566cd2ccc273af659778), 0x78fad1f21708615444b1af02da4dff6aae75d41e356a9f22a736ea627be8c886));
  (0xd7a94d628f5a9133eb284310c30d997c165b30eb0533608c258bdd1bb74111fc, 0xb59151ebbf294235b436d36ced6427b2cf4f0781efeedca876831a43a3b16f98, 0xe187b03cf35716121d8cd81d425cd40f0950ceb15aa9731fe5458cb8ff56d022, ((-0x156643f0346845493f173f0eddfac3f0a6653839feef9575c1b25cc04bc6fc07a44fb3f85ff7da6231ac64148a9f6e8be9df03972e60891f2a2b1c9a5027804), (-0x3ba66b42431005635c0737f1055836274b9566324ba2f07db6e45d095f749b2ff62726ce3fdb4c1532e38846d04b87730121035641103f18bc9624ab355ac), 0xc295775cfa45976565b406f94c5bb5b4e2479e95f0bf191b6fa77837bd8c6df6));
  (0xa049b8f288091b67eff5247e52c2c032d6e7bea00bce211a618827a6bf6028ac, 0x7abd089fcce552cc3c7911390b0b0adad8a707b92b01e57d42f90b9dcdfd627b, 0x56d8ace2af7edbccd3a0d832fca6b16d7dbdbbf1e29487598938286e09259e62, ((-0x3320f1da752d452983f4ccd30a3610f729298c747cbebe8b557ad5cbe739b062e4e76bc947fd8c5524e959a9ae6f861c156812e3e8f133c18d348177a5b7a444), (-0x1fc11057d434e9b351a8e1a27b021c50a59ff399d6b7598ea2b606898ceffb49f3c0715abec3c9f42a260c3c5a3f4d9a09dd100adbe6c24ebff41d84304ede19), 0x450d26b03662d71edef13acea00f1099e3893d527ca849591d7e61bf7bc505fa6));
  (0x1f6ed37c8797236c2923e0968dacf137d1843f32012ca50129dd6c4d0a0194dc, 0x76c06878e471cbbadbd304023340c9c35b84c2464d62dff11f585d428923c5f8, 0x1cef0bc1043fee1c37eca9b371945e601c1cae0dfda8900971b05211a929711e, ((-0xd4f2bf832735567a0085c4d237d9225157c8654aaf0f6648009f620b15079a65c00b8211cbfb29509fe2a5b7952d4fe22d7d95944f4e33a0011bb9ac30dcf70), (-0x4b5695082b4aa0bf34b20e88527233e7e0202f13e97a16332f98f18f45ecddf1a75ed1116e098593d7be8f9ae0b9deb564caaa602fe26eaa0b59eab37358308), 0xfffc779e8a3e1014b51cf1fe3ef00fd883d4ad2fbf8b1d2fa2e4fdaba1aa3dc9));
  (0xac4764fdde2ceb1c8812d19f6428d5d36a28613eadee6c1832c2545f541cf14d, 0xd35282aa826f83a22f83f1f898ef25a6efe70e97fc4bcbf022f2be78348eee5d, 0x7b8e6ef4bd11f363831998eb80654d1669bba488cce8865f3a6424d75ed4b5b7, ((-0x44a43486a5939d83e03135a6f4c093aed24de40e0f596cb648966060e37806c3664a16cdeac1996b626ca20609a7ed362a16a9c6c8a9cf3a608486e7e0df763), (-0x85cbae08fb1e9cfea2d0afa72b04c4ea70206a94bd55b17a082a3ae821390ee9a8e2dee5eddf57745fd9f867613fbf51abab73358fb4b76c232e644a42a577), 0x4800605d2aad9a9fabdd11e8765e46aabfa90fe9c6a7ead8b7ad38cb32e57b5b));
  (0x926cba76d80ecdcf380f282f59b17492ced50e431ee185cb17ac2a108b489087, 0xf889f78f21c2ad21e2e5a3829c9e35bb61a02c320507b053eb51de4362a72051, 0xc3d7928a65f2c129584bc81e2aa153ade03947bbd026487c1756cc57a53b3bd0, ((-0x2099e20071a08f1e9ae697da1a2a0313795401ccb3a7faaca2f2fec8b1d3739b08ee8d0249d56dd4a9aa5861f3fe2b0d4a135b54bf211a401afd31affb350160), (-0x987d827deef03f34a5d736c776210ed0bb85f3507d9be4e249d27dc05e3a767c1b5de7eed4ec14065f020bb24460a192e47a63b1b7769a295caa5bb19530080), 0x207a3f73130eb9339cad6bd97f29300dcdb0509ecfc0625ede7ff2c1999c1757e));
  (0xfa9e7daf928ebdecad5d13bb6aa265b6fc95e8b252ead05c99745ab47495cfa3, 0x8b33f5f61f2f539e70f0eba8f3141f505a4567daa43b7a2d4ed9de0d24344fc3, 0x744e87df23cf36546ab8e4338033b987dd4ddcf519c65638da99ab10b4f8f08, ((-0x3cc64d65bc5ba2cc5b27683c01c152600404ac8d5a9cf72fc6dfc428ef87cc90942f75f33b92b6c37c7bd06d04fd1b84e19c9dee6d28b55921999a3b1831a0ae), (-0x17f1c3b91cde7f0c42f042df9563a25ab00d1147187ed9f0d40b32b1cea10272628fcceb1b119f73a6c780f6967f57d3d25e7f1fabc9477d8c2c1916c402c78b), 0x392ca34ab511439aaa12475e01e17322b47d2d1c6dd58c68b7638054d2d3d8507));
  (0x50a4ef47a942d099ab69da708ee346ee783526ef7754346c82ca22c7f2137147, 0x65013b2def285245cb5511c9e673c53c30ac01a32ac9e72e60cd4873cad2335e, 0xe730b1aea09cebb2cf1e5164ec13a666f387d6f8834098716d0d51c24c9d0011, ((-0x14370ee0313b546470f8811e7bd83a4f6e0156ecb0ac826c22fbea11be20ed4d344ec2897c8d6726fd6817909b8eb6ce1bc37d5a2530c755d02c18d2b53f2f2), (-0x871ee282098a049ddd9ebbb6fb27aec13fa91e99caf9b54c942ca667aa6a86cabd195939414ca26bcef4dc2e468d66d68c870c170bf5bdcee075fccaec6c4), 0x5a8b93b774d9a79c66626e9e69492414e4a556646bb3f1fdaa06e55d500e2c98));
  (0x654992ed1bb3eb2ee40e9b4d681e5a4c8d970a8b015d39623e87154ea1f869a6, 0x38341ccd414273f3372de0aa98a6e36e010a50bff8d996d3889d96573f1765c, 0xa23d2d5e66e1aa5ecc35acdde5c2358ef96fd3087cf2f3ba89b3bab93fef83e7, ((-0x1d280728a5b9f0be96ea104e8d1efc85329fc50aa5c82b4ee2d3c939af8207a3e02a7c8dd7f168b04289d8488367eaa896f42dc14b285efeb968bc89af03b2d7), (-0x215e37cf84cfcd76ada47c57cc22f87da74d33497ebb1574f069d52cf0570b989b459c737780cd820533ac5e2dc39f88314a00b2306dbc5d948b7257f8460749), 0x32bdd0c1add397bb03698a594777f66c3896d4886e17a09a7a4953f11d12fde92));
  (0x54fd3e7eea712c0d658f73286873c7d5030b829fcb1de71688aae0c3948e2cd2, 0x4e6826a7dfc3ae603aef0368465e96a4005c0a2ec440a6e5144dca56131e293a, 0x26cf690446da63d756ff6b18241dc98a7535c5bfa904c59a080574dcbb1bd7ef, ((-0xb629cc84f825617096600891c01032b72fb76be38dab0541afab941de235fcbe6ac9706c464964134bcb51d65a046bd9ae00ddd0978777d5af365f6fa8903a), (-0x106eb4b3d29369600e0d5069ad71f7cac4d5a2fb1bc852c5fe893432c34d0f3da1c3ee6613017aa8b17b6db526ceb27fb8b7b777417d3a381002f4c74568574b), 0x1b4e251e1fb43bff22e18ffae3f925b1f8b9dd7a802e045455879821cc2efa9f8));
  (0x67b3e616750621a42c48069285728f8a17ad4de7124794cd09fbe5eb350f1423, 0xe754ffe2841ffdc162bb6b93e8f6b3b6a57ff6881e77a33f89dbe4e5f1a58870, 0x9945573606f294431d63dfcd26033eeb33865f368610adf06972df2b17f23625, ((-0x3cca93e72502bf84ad915b96ed4b1009826f90fa363692bd91512554986485226ff1712fe27c4df8b5fb7b21ca2033d82e0f038e54a16118c13468f4ddae27d), (-0xf0b9eb4505b34d55e4f15e309645a20ed3102069940d2e42fc83f2fb3c533dbbccbc8b4ccc9cc051195c8e921b667f8b06e4a6d872d1753df30cd91015d9a9), 0x436f396a20309e5ecf7f4d79a879e80610483bd46dbe301780d34f9515023582));
  (0x800c55b61d21954315b8631df28e3e7b0bee47ab14c0f29a3a817e1fd8709ea8, 0x22855bc1c80859c35935b113d7f88566a5ad799c57c16bfce1881a73d2230e30, 0x8a934ab9f3e1774b5600d18333453ebd729eed674e0b6a0938b76c19b7017036, ((-0x2c4551c8bfe1aa277b5a851cf40d43143a4b2a47fd81556ebe7c09bf22b2963d7909b58686dc813755c6f35dd33c650d8ae9596052da021404979713e1bc5701), (-0xeaa7d7956ccfa4d75684652b540b4e13c95929a5397e8265481536f8c273771b09303c3e834fc787b97793042889af8bca294cbd23698cf3bae1eaa35434d75), 0x2608397c322b1323c2aa6db6ab05a505746fb06fbe01f183a2dca159270acc50d));
  (0x37b4d201dc07670011d3bf6da49708bbf533107dff1a82bc51ebc24dfd226bfd, 0xff7a240539305c9299c261cb35bd9272457fce69ea27e31d2472aac673c14c18, 0x12c4e1c9db9e1031d8328a6e97c41450a594cb8df2d1d02fd685559da24b4cc3, ((-0x5f9148b75304252e2935154e551bb693c13fa1a28dff3168e9b1e9978634476a6054aac0c7292e95eb440a31ec11dd2e546b575357d14d59b4ab07a996c0983), (-0xbfd0c7d4d3f4777e2d3bc4b77cb9ff39026860e61128c350fb4d58493ff7932e0a371283af8d6d0e225a0017c4b79eaaa16ea72e4670138c16a02ec1864c53c), 0x17051bb1b768082a528c8e2e24411d22f83de71d2f3ae30a61cf73020e7ea32b7));
  (0xba7e70625d736491b7aa652d72ad08843c770690ff32ee5562ce1e284ffa8185, 0x8b93bf4a0df675d181733f9375b9826c644c3c8852123cb658076e895dbb1555, 0x42c71217888c77057b9c1146b384a6fa0c3646e1172a11d9ba97bc1088eb4fc4, ((-0x5fcb2a0257915f8352fdfa35a47ddb491007039e54154cec75e53a5b6c16f3b30cf848c13874382a221e541e99ddbc6736d72688e0f4e2a066e0f5c26557fd4), (-0x384d185a263816a5f4895f14d8d953e9817578924312013cf6c694d9c98ee6100c248c6cdbaba5d2cab3ec03866c73bed33fcf5feff92eb886dbe848cf4720), 0x10b4080380b0ee490f2d624d6a157e3e459c53815bc081c279cdf26e9017d3c7b));
  (0x5d97758db985ab36f3d53ebe060ebd8f8ef4b067b4b03dff4dbb7a3e9d43ead2, 0x25f729406007564c52968468d0e624ce431777558681a1ba7fb55f5a05b531d2, 0xd1cff58063b20bd42f5c1cab558877d5b76ebc869792694a38bd01575b415678, ((-0xba340112572bbf421cc2cd713790b1ba32730b982f5cfe5ce5954305279b641f8e7712c3eb9aff20a49ae72e1a0af52d582f7abb8569a854f6aee3ba86fbd4f), (-0x2c8adb01b467269b4fea05cca72997007aee5a20c0d6a272abe620bc457faa7a863e86e7554bddae7f595e5ce0d24211838623affff98283a8f9b7557b98fc8), 0xe1a6c445da33f20c502c03720436e43503e13cd9cfdeb3eaea7bf243df803467));
  (0xaa659b350f5225de27f537f3e2af73fb55e43b0775b1396fa45a7ff9694d4ef6, 0xf7a8e01905a3e75735c7a5b67b719f98c7773c25bbe1de4ea333b36fb8f53b63, 0x480eead6a4aece658942cc0b9e3eeeb692f224c2149355c4e4f30d42c3590763, ((-0x9f222d4c073f51688fcdcedcf11089645730ba080697065a07f4442e1c1eee5978160297e708dda9728d1b4f0725e2005ac7ed99a34339e2a0a54b347b860ae), (-0x1b7b7b3f8daaa47a0ccbe56722a657805385ef04940fb881be44d3ad994552f8c28565437daaa1a1d6d27f956d5f9211d0664a55e8dcb408ad00f68bdb482305), 0x2a2ea6452e690c081e98d4c7b633750ab2d581e938e559a0f9f83d7be742f317f));
  (0x9d15b9f4aa2996325e019e87825f773be6e7351d10f5ed67518e48d8bd722a81, 0x86cf1ab98658c4c7e89cac6d6a664cc04d63acb0c2d84e06a43749ce4c3a2dce, 0x7625392da2ba22b179581bc922ad66eb855bbdac59dcf211a27eedc252c98a9c, ((-0x164847dc10d17f0d91d2322a50fcc40e99b7b88fe2954eb82acc06cdb69d0bd450b9eab887e625a76335bd53b8cd4daccabd9264e125ed21a75c63611d9ed20d), (-0x33dd985ce9c9a0fca43d094c9951352ac67854eabea75dcec1701c8f5c553b7ad0a96fb7bc9848c62c7ad7be4aec45abcb5a9fa6bdca670a4bc311180c77a41), 0x18c5d81c8d422911f3ca08566e54a7f2e3a95cc67a18f4a85a4fa644913368b34));
  (0x44b8f3ef53bbe09896ce0fa6a4e747e35e6a74bce11ca5acf591962fdadf51b6, 0xb8cb5a98fc6ada92b3fd6de147f15ff1545a28e58cf2ce6a0fa815ce2e075c27, 0x1fa6835ecee863a318c0ea59d0a6e86f28a9795e92342c075b488cf3ec065523, ((-0x13e2ef296aa750eafb5f3d0ca387da5cd5214360f87606f22aa551896f8085727b9e2fabacd15a0cf1467973db2a451591dfef9b1fa75417c8defada2852691b), (-0x8b6d31a560a5700786913e57e3b2fb7461cd88ec6df7d78d5f300d111cb5d08e2b10b41b57f4e8919eaac38332111302d796541b0f38c271d1a20ff90bb2075), 0x17b8e2fc7dcb05403e6b6183114a95fac5105202a52b18b6b409e6ee0cae5b4f7));
  (0x258db4bec4392ddcb019d7c2a72e797c9a67ac8e1064d92792709b3d0c326151, 0x73de9e023efbd7e417d9a61c652059280220dc605d878a34de2878eb79099991, 0xcb10387cfe9601fe5e0bcdfeb5c67078bc4b58fee8e70e9e3e5d0eb9898817dc, ((-0x74d8540592cc6dd5586faf0a6b002d6e2a9e5503d88be62cb347d0aa67ef87f6126e28ee3826028fae8a7fd9c046ead9ab606f6626c5b5cf517efa6af1bd675), (-0xa019997f81498366e3f497920ebb5c4a532bc0e10db0587d43feb1a65d3ac17fd96c95c6e86e0604754bebf5f89dbb9e6dc8e832494573d37389c446ae0e76), 0xa220659ca653301f67921fb18e1912498082def4b5efdc584d97ead7ea820dcc));
  (0x16b292237315d6568fb28f4fba0f0028ebe09c89daebd9325287823ace9f0235, 0x198ca67ab20b8f967d02d2d6e0d5f593176eeeec3641f8ec66c457a694cc9cb8, 0xd9753899bc845bbd9c047ac255aa8087dea324fb29aed316d73707b5da2a982f, ((-0x1d60c7788583c50687c23539139d7dcff7347b4d376e84432315d7b33e03174e62106dc6f14b28ffb33f04cd2927768b9497418ecaca35fbcbe999280cb6dc44), (-0x19be24e49fa68a50ef252131ba39ebb79fcb0faee8422f62953427dd4b9977a57dcb925100e32a77d142b80da8030c420d6e0c189728c23a5abcf4f22198e882), 0x2533d72569ae0a5ad8a3fa4335433c5f6f8f0902f249e1279184e6c8807ca53a6));
  (0x58444a5c0bd3e5b38a04eba6d9110ccf9027f0348d7090624af9c97b9b9b1ea3, 0x28f265124751074c2bad4de56ad802a0419bf04fc4c74a5c9f8c665c4fa6cabe, 0x200b402a3d9d4c9309c1d702edbbb479ec5b899f4c908c46088ffedaede49ac0, ((-0x6efe5c5d3054b69c1ddaeb7dd21e0665ffb05a166920953c0b20726c1de1237b90f6be332787fb9e8f0edd212d7f2e1a53a75ecde460390a37f08a741c33ca6), (-0x1d8591b0835e50624b379862cbe1afec9872a24921ca4725b5e367e3341e2a8b9caa5d6d7f8e8f4e2b14eb207bde7ed5662ce3c143550e4ed5b74a681726e9af), 0x2534419b41cb99327212db77d91e4746d06687b4c76d4a0c46b152b7158a28d27));
  (0xdbf75c78c24defd6bfe42d0def50c653b35b8a114d6499857617760846d2647, 0x347459bb35a476c08a288b9eaa1f3d7f50eed7bf05d28b787b31a1b26f3f405, 0x420a236307c821c7d1698077d7b6aefa7698768fadcea193563e0479e6295b6f, ((-0x1a366601f39db886c799d494d39896dd991d0f67be7e24a68e2a37018393c1163343d48755d5206c3b0232c45c85b0f8506df529e79b368d8306eb0d7ed8682), (-0xa41b1276cc91e803d86f6c1f99662d8cd73dc581309b441aea6c9a643f5a29e11a0d2b41bc50224516cf8d0fcd0ac1b2485e37797f6e04fd8d97a2c7ad30ef), 0x28adeb6933b83b891bf93c45d0f9dfea1a56ae095f97d286adc4abd61eac35eb));
  (0x178cfb8c3bd6eabd30c4f814b837f5f51120e60cce084f9acc911a8eba9fd9d5, 0x2b375f8deaafeb742dc89d5a194d6bea16a8adc4eef669beec678d455a18fdd6, 0xf79c23fbabdfe870ca20427b3258dc52a5772378e3d0e7d74cf4f35ec4de6be1, ((-0x453421b609a96d8f2ed47de27273654c8efb21967f657f161fcc2e27c3e59daa6334aa8a2234a862b79ad21bc778c5c6d8d1d3a1d9a679662e9a8ba5d54a7a), (-0x2b9033ddefa3d982ea3853313fde324a77be022bc4bc71d8ed422573b7138bf377464ff2d8d5581e6203b78d7679c43dd38b1a1513d68784a483f6b214288ff), 0x3a3e3ee82ea2d2403ebe8fc76a8b407c4da71687a0f07136ca0950fa3d88e9d3));
  (0x7f60b6a4f2c818812c04e4ea94ca565bc2f4be9874107f73b722ba895e552a8b, 0x31c8f218631ef3044774f83284b4f1943446ac6f80c5d32b62d3100584e56b94, 0x7d701dc2d7bc4c66afa0ae114711499bd91960519a4f3df72a225aa3171c49d3, ((-0xd5c676ebb07db1e89bb8ab67e2dfea8ba6cf33f14f1cfababa3341912021b0a84acdd5ae174d2f338c47a2b21d6b5c51a206ef90634ef342e9216f613237d6a), (-0x2646afbc3380dbc5ef08c1dc3d0b368ef2f30bd0e2b78aaf7f0c1d7ee4ad2ae019dc0cb3cf02357f7b6537cbc864e1a274ccf3059c428d58673ddab992f54b39), 0x3035673f37c68d1b3b303920635115fbbf6c2ce8646973ca16a424b3af9b51142));
  (0xc04f082ef104f88e8b014c1b0cc49f2215a2ed01b8e1e987135d03feac4185df, 0xb33187a2f3236de53f3d16f2bf8a0fca0ef3616ddc2d7cda4323bc8127529e9, 0xa4795121843a049d09e24024f5a3a82ccc05966a412363bd46ce528528a0e13c, ((-0x7cc2131c4890f466da4848d830571ba6ac407b363efd62b2a662ab450bcdeef469b8ff6725932ceda0dbb937eed2c16210a7cab3d69f65e3a0ed1ecca22bc32), (-0x9d2b86726bfae5deed24984ecc8c6e191b3888488bc6b2f6c5afaaa11a23a9ea8a48dca29dbec3bcc639f8b8bb6d8bfc04d062af3dd94725f7e182faf9c75ec), 0x13ee6998371d86f244a4de115bdf9958effc578d9e609da04df53256a193e60cf));
  (0x807cdd056c6b2d356a71490d39e83e56d13b59dba90b4b6a2900b4009360c485, 0x4669a96a27cba6644c51daf2a702765411462f967100c0b556832cfebbd53553, 0xb41382bd78afed72afb6a1f8553c6e2c9525250ea9141938f151a9e307fd31b9, ((-0x24cca6c04ccc51d38ba81b4727b2c8eb9f6c08d4025f2d3ca7a9369d7067cc10df5d007868c3da8e8e22dcb0664f7ebc735d0a5dd1af95919d6e60199e4ee94), (-0x10e3672a027a69c5fa32d30bd99a91a272c871b22796127cf990cd77ed9a34f13f20b16abcd0a9a963fcc6eaf7fc48e768750089f57bc082603e234f73adb313), 0x2349bf1b7ed839107a54f1f9233f53eb6e84dc946b8546cf4dba96130c7de6af0));
  (0x7a8ea58bb11aee9808b725b98f19d0547943db27bfbae983e646a724cdc732d3, 0x9c2129944eeb0a597d71a4404d274ab5dbc74afec63f670a8d39da5cb302bed9, 0x480a0ebb55b9aab93c0b85cb51e1b614f4b4f0321fc57ff9c9485c50d5ed00c9, ((-0xfd4eeb5a28cd1f18e4accdc01f99f137b0e7b745e5caec0cc85f34e523b77d0bf2a2c55651289b2ec53c489667f45832c9f144e84a1db4c05e350616f974404), (-0x143e8fc1c17d0b0205e831f67783fb4592f5aaf7a0309be0ae265353aba58e6374d017821a9529681f0cb63e80b35ad2c50fd88b3bb6af8f1a9878e9ffe240a4), 0x2442374df823001daee37392598322fd9306d97e5f83367b2e2c2f555bcc38e93));
  (0x5b6fc119fea23be5144ba24a90dbbd03c8439e46c626f7df8ecb13d24000079e, 0x4ba33b3b366acc9e5c9c01d530926c95e8c2e2c8e1221ad97a7c91c5ce428bc8, 0x3b69a6d0bd5f1fcbc66e43b4d2d6ea1dfc489c6ec76bbdd1ac38be951112afa2, ((-0xe0b24c8e240e7a072167af18548e13fac30d67c32b095f33d5362bf99e230b35f1772f5a9c15ec49cf7c627b98c22aa54ab612889666d584f7fcc92e58df6e5), (-0x33d699a657ef665f56022ad763c211410c7a955f2511e9c438264678217b7342ad297632e3a15cc3c1da8d754342efab4d777c1ccc24d038f2dc83a1f8dd731), 0xe1034763726a042111a8048501b1192389c029898a325c0d509b2994eb6c32e8));
  (0x608889ae5e523a562ec708f794e1b3e08edbdd740019fec25d5e317b1887a5, 0xfdf311f2e55a9832bbc553f860bc44b0b77d157789ee11abb1a9a5e88070fb96, 0xf5a99db4b161276e75c46866cc4977e7b023a263c30ef7860094bbff4fd4631c, ((-0x59c696538ebfe1e789dbbaad667c06524e76cb47643ceb74ef3179d88e21291fa15c040635d21f9a6f84ce13120683f7dedd015ad4ca591e4bc1b8a91f2907f), (-0x23424fef4ef5b5ac47f19ef5c6d876b82a2c9277cc4f46e7b357dbaac4299b7ffb71753ba7e96f69d45597aa3e6d2826006419e91a7cd0badcad0234d4e40de), 0x6a27a41d76cfae2e5d039c0ad7b40e29ff37526c87ade1c2c9d1b995e9e14758));
  (0x97602f5a505182755c44dc66637c25f408dac73a1f91a3418e3d9d0aa00d4ad6, 0x7b4e3cc3a3047b50bba3776156b1b2d19417c1983754af4a716cb159ba4be4b0, 0xee1c47e68c3a23e696a44a48797776ca0d79947fef4bb40679967ddcf8f040ba, ((-0x4de50d9a04688f5a406712504081325c47b4569a793e216d49ede70ade0e59d91d6ac6189e218eb5f94f959b732e8a566840eb501988ce900a3b24c73c406a13), (-0x25ad2a978413c3dbe4cb8a31651c316196d60e0376329918f3d0ad63e76c798dec008e5bbc28abbcaaa850f4a0303a216345d3dbbfe7a310b621a5e103f0aaec), 0x3bfdde6440a93ce0e284abcdfea07859960f32bae9e7ba0a3f77569fcbaa5798e));
  (0x202b0245302f71f1aa6356a94edf67fc82ddb60e5e80fe1a323ccc53c7bdbac0, 0x34860b46ced41b97f7c5d524306fc685a1a59e1fb14433dec7f515c6f76d4964, 0x3f6f7218bff49c2282764d0c2033119406f3579e023dd47ef8db9975f08d2d1e, ((-0x24a8c23c0fa350380107a51712a89fef08d14635d6da9dd1f7ed589a0f41a69f6ce8ead4a580a960da59c327ab1e0d45beb6c60b9a37287ca363d9d0f67464e4), (-0x23654374ca72bbc4ba181d374fea0925f50c9005d53a05c3a6d728fdb588b04f8749b301d85f0532342d2bd0528046a63c898ba9d9d4c4331a97d7b497432a70), 0x3ed665ae0bdcdf9bc37b958c84ffb40ca099c5d7610ac9c84b272175ed3cedfba));
  (0x2d5106b135b5e425acb834393e2904a24422e908972c88212f5d6ae273e5107e, 0x56dbb6d9b7942158da52ad8969bf6e1b05010fb7d22e74fe0b435327104ecd63, 0x89ca9df677d72d78c253b5b5f62d6a318f7c32cddb1b436ec2b1f54af58cae4, ((-0x428feb77433015f4a376c07ca3ebebcf1c3080c3483ba53a554a44579511bceed669fe4cd4735d57ee6adf3c3cdabfcd49de2a453d16ca85076feb29f0bde32), (-0x2831f901dfab562db04a93f4342c35df7545ce11883b4972e7540c8670af2fe4f2e2a31b96b7d6088f4d4564be5611a337ca6cfdf0d1d8e99c0050335bb0a21), 0x49e007e060f1713113b87fd6a3d4832e26261edded1924cdb17b7a3df688a848));
  (0x6034aef06071423ab641d12c9e215c2ca058c682874de9b133e15ceb90eecf17, 0x1b276296f62853cb6a65fdf9ce25bf7116eb6482e19531cd9cf06a4b22c9a4ed, 0xad665904a31083d39d45ce442cee2a7439598f69603375bbc03bd25c6c149f1b, ((-0xef18fd3917b64761a975f12200ec81d9a3c6927e780647228e8f6386713ee0a66937ea6413558ed19f158da0f0eb99c36a0c4df848fba8226ff13791fab065), (-0xbda6ce1133bb68b3ae7b52c04d12f897f0422962e1a16103dc047e432530bc25e0f11511521fed60b9f2af25265c1492a914f4a08e432b05b5f4a47c53b5f), 0x21636234603171fdd24b62fefb0bb7e02e1f84575f467de7aa0281d935a6e132));
  (0xce29ef10336906e192b05b23caa3b2fa6ccaa0a7bfc5c3eb07941246ff4c4e5f, 0x799e69000182693a6671552f7c02c82e56e362a70ae2568eeb7b294cb9d3303f, 0x14e72ca637375d9113e117a52cece61bb77744aea1fd89dd2e9b8c1ab128fb3a, ((-0x5e104a3a513f4439ac9f8b538f66799d66acefdfc193770165851cc7f7022a193cb03ffab19fbb8f37191acedfe06295fad9ed506b1696ebd957c9e93ad72d8), (-0x12c564a9e0a1c82b67265cb1cb590a20defd0cf909bc910d1b692441d9dc765fe7acc6dab3cd729328a6b372f35314f6e236c0982da0018f8091f91a58b289b6), 0x1e58fede34e50dc80fa37ff7f2aeddd9f900a1c8f0935870a08ed585c4638906c));
  (0x8cc169afdcfd8af00549d872c43f1b3dcabb8cba2562905838c3823b334c3533, 0xd77034ed6351ca65d6c61ee0665570b59e7977cf49667ca3114b29011af29210, 0x7ba45dce031bcb64812746de4c77d4d16b602675806d914bba7169259ad78fb0, ((-0x32c9717744ee6c686c6203fce05dbb56be40353c57b6763b5a55b1c508da8abc1a2fcc03fb65150bd8d4543bd94375ebcdc85e1baf96619b6ec79767e0c47aa), (-0x45d4cf420557de61350ef26513e65b18966cae04de3482a7f5d99a777aac64d4f35756e819e96d4c7d35e858b54560719a931030495dce0b244e67a0b05caa), 0x6090d56cfefa8a2bf97ceda7fcfb579b3888a2d6371cde2119f28e41c9f3b7b7));
  (0x9d960ae58def9dcd697fa68ea0ebb8bd3be73d458aeddca95b6278006fb31aa7, 0x678f09e876b517f79533844fba4b25e81727285c3287559ddadb8bc9c8ea263e, 0x1a596c552346f2022f597f58570f9426dfdee77a0aeaf00c84ed72bca7d49266, ((-0x214256a6f1b38b5f74513cacd5ee7ab7a692cb63a3304cf47342e85d5429111df1e5da3becb15cf80698db9c6d0ba8cfc1abb5b412a3f498c1c23d301e248b82), (-0x98b3aab7443e94dbc77848ee6e738c332085304d34ee0e5239474f2362bc072a5e9894ed90bdba77004f9e3b61030d1dcf38039cec0d4e4f25731b018dc7322), 0x1f06a57a15cffbbd71df487a5e52cf4e0ab49c766fbbb1608603cd7db4b89e646));
  (0x12d4bae94f1bf958e41b55b909c35a43b015bf8a6bb2b1564b20c5984b763c60, 0xf21ecf41ee8907dbdd27c7cd7eb6d186ecbfecdb0edfc9424aae86ed877466d1, 0x5489345fae4acb684f3492018d0b03d8bdf5da24aa442d00c679723ea8a0bd13, ((-0x3683412349d74bdbab81c479c9970e49b6c42b8612916a2853e50243aaf07fcdb9df0c8d36a1dc809e84591b0fd9d27d55d9229677a37bed0b34fb4326b0dd9), (-0x6ef60203491e3c705c3b5ce05c25f6c488f660e7fd586d0fa7b907788c2f4c606740f769ab8f145c3b50de029ecb6b001c96bdc020beddabdc00c0b896d41f), 0x5277d7887767aa1c9b0c78cf5ea281844ac169328fc6b96c3f3a0088e3e10b0f));
  (0x16ce68525ef523bbbd7e707df099572220653f01f42d9a7715924f1826087b27, 0x1643a7953df86f774978a7650582ae641aa66c82db2418d622f4db5deb2ba86e, 0x96ba33132829f65195a72e1447942e4c1232a206bd88fcaef7d1c5920ee980f2, ((-0x198e5c7b93ee1cf0d1c908e0b5a104447032dbad81071904b01d6446eb4f9f46f020cfa7fbaf3a2139e89c6ee331c76a8a40ecdbfce5e3a427d46344cab26a67), (-0x47620b6bfd09dff7f8691a1bf7d29c4e927ada1d5726ecd5678e0f08dd607561c17ac3b84613b0595d6ef1f6daee2ddad9b2143a83b4db82c532c2f84736c19), 0x1452d09547b005939f0bf133e8570b5c291652937e07372de652e90cb8f5465d6));
  (0xa101947f3ddae4d7af04f103d8ae2dd52b52b5944a4dfe196856f765c1737b5a, 0x581a1a8d5788a93c12396b9d98921863f436abe4e9616bf9b086c96e468f0539, 0x1f7014396ea85b5eb88c2e6a5c76b1344aab041d66c384ae6ced18fcfd0df872, ((-0x430a925069af96e0fb97f0ceb7ee878e3bad6ca9e2021a23b68c87cba2d751fd27f85522b910d9d8e173da5751c4d6bde4be9e81d0c73f1dc37abd9cb9f292f), (-0xe2ee9bd1ee8537c49dcc7bfc4337b19ed1acd628467ab87a2f55dd480afef8820a56e177556d7222becde83a02d923a1969a1f3deb281b02463b2d25bfd3ba7), 0x12706f3d3d91e36d7d6f0ef730bc44ccc60d50fcc9b63b6d47e2d49f4dcb6e526));
  (0x990ec8002e48263ebcd95c52155ce5d5cc404d5a25924867a842bdcfef8250fb, 0x6abcdffa6d8d66f32b26775064b6e66559cf68df769686f120d612ee598b7fd8, 0x5db67bd805765b3ed58bba7a57289cbfe4ae4744c14a6ae26d9520926b05f22f, ((-0x375519634ac227eb9fe0650414fc9ae8196df2d159cb2de69f02af71b936a344474ee859a21d1e296c3b6458eb6c231eec1917fc4eabce4d6a81d227342801d), (-0x9df4c07fc6f723c0afb44241c00cd0d0ad227fe15a3cb1fd7b7611824aa84b90e4116573b4c378580253ae7d9a5dce093aca4dd9bab5bfad4012915d15b7fc), 0x5172539af8753847a960a54b612e3756aea26d5775da8c9ac6d021dc722d370a));
  (0x4723a0a852fb0d69cdffa678b7abe099315c43722d2ba26f363ebb01dc9d23f, 0x6d350605639e81995249a814a768ba8bb4aad3e5172de5dd6d6d561e233bfe0f, 0xfcb6add40d8f64292b137420eb3157df820d5a9c3ac92d1912a0e6e6083d01b7, ((-0xc7d4491d92d1dc60bb5313f3bec1cf3542154b5bd2276e089b0b60da65880064caaebd37d9d7ea9ee64f2a0d8a1f8d8eb1ba9cafb4b900d91a79ad1ab77f2ea), (-0x57b8e6bd34da48d192abd7e384f017510285ef7a9c01481369cbdac3e20e5a8f669ce8b0946425d074b4af45b5e20ad31a91a54c689583e0f8dec4ab9a190fe), 0x1037a2f6efca19c448596c4d6807b7bc81f2c468e3c1e0ddf17b46784863a056a));
  (0x727f7905c4a76228fd52391bc085b8ec1f0729c111dd7689c66df443f84f5d68, 0xfadb36da378b8c33718d1056bb6080fd3120393db73c1f0f12e859732356a2eb, 0x1c8e3d90ad085f819a4f03386be7851012e2f19f79f3be80d4019b6644205fe2, ((-0x22757a384defbcb2afd7d2cf77d9c8ee854297d0ee71bcc3c50ffac306dc945bb8e43475c9236d3fdca5e86940ed238813c1e28206d81cb69fda60cdefc29ba3), (-0x27dec8ee4d11fc10d02ce5ea35b82c7ac3b303c11d88cd977e38ec3fb6500c7cd9ed7d2d2edc4aee387756365755906b17fcb3d5bb8d34357ffbe852e49354ca), 0x323c5e69784fa30e8ff0c8c64972143cf94ecc65e84770f224acd0d630334b47c));
  (0xdfd8d6484d8065988a4ff62b0a9a602214d36fcf9a4c4c512ec256dada87eec5, 0x4b502728166baf56a39f9c86c5c2da187946ad033ca9687dabfdf7fb5f1a5bfe, 0xca6153760512c8aeb4333946bc1443f9f9f63837566037f6aeceedad74d96d07, ((-0x8f1b310d11c6aa6ede5094068b99da84a8ae86ad71c8448de2ec8209f4fcfc1fb5ebeee2249c14b3f970fec536c0f76fcfdb612986aa9d9c5bb10b263502bf7), (-0x82523c0a61ab3e18691694310631b90d25be0691cb4e11ff0b1bbf5d354c2be425207a6b55b2a8890ab7d758cdac0fd3d7c9954b83a0a1a79b0e60f28136ea), 0x118ea474fe54246e4c4a197c2a4b1a7565fee7b28a1a208135ff822a8e2968322));
  (0x7d4b73d100dfbf7f88e4630a52051866b7337d24f360f84fc2848afd08bcaf45, 0xb43056a764881851beab35ba7347b2245f9630b6bbfd0cf0c4b516181db7c59f, 0xdda1b9d48b0ed35b8f03e4c6d92f3908f8b17b6909bf6a7fb8769e1f9a495fdc, ((-0x1307ebd0124c3ecda517c355db42f6aa5d574f76f680ba2daf346538da1a10aab699a65cce1a11907598c25fc833482f104b41f5f1d2c3945d05893b744c9068), (-0x1991e00e4f55c55ae6f303d5ca19a8f169e71faf867dea8bf7e29927359af0f7d74294296524d895acc8d8aac9025ca696f4979ace637db3a4025908f9f806d6), 0x3580daca2a102d00c710d018f6404b016f81c2476106068683c59031c29ff1c7f));
  (0x8562eccb8a2a0f969581d6b7915b98640543834791bbb527e7b20db376966545, 0x9320f1d1939e13de2e103997c1299a8c79246b54ff76e6adfa1a74681cc64ee2, 0xc44ebd27c7cb193882181025fe4333341c3cc2b9e9ff059e121c1d0f6593b025, ((-0x31dd05a5447b280ce541a65b60fd7202bfbca46cbebeacc13071d8dae001c463e32d261910245caa9f57123af859fba6278cd2f775a48dae1cdbd76b87f1b8fc), (-0x1eaa787394f8213745cb2440792ddbf2f88228e3490818d41733e735738f75567ef5e83e0c1e1c3ea5cbf918f8e3af0f78d105af1f60681d4ebd91bacfb1d47c), 0x397687ad1f0bc6081345a4322d4e0255e4afe57930e89445a0846dd0bb7e0139c));
  (0x45adfd4de487f45437a19dc3ac1e259f7856d361d3db87d7171248698bfb595c, 0xeb4a0094a2278746a8ea4b8c5104043a7ddf61bc113671a340a85d45a3281326, 0xabad5b8ba919f7cf9efc509bfb02eb123a34f5fde7d1e121b7270db3d5115d5c, ((-0x241002204430bb635fcec774aaf1809c7410fb129dbb3d5a99b815f3becade5b5272d56c5e188526a5e417c4a0b1fece2aaf7b20bd4193146da82e4342856c01), (-0x180ef04be9ebaab3217e8525728d58937d2be3b1434464a5fd4cbd88983ca358e79733b5d2f0d283f1a0d61594f16ac8a33687904689160e1a12de54c142de8f), 0x2e4ba5f8a987954effedb7b9409b8ecb906eb5c66290f951470ea67f9942207db));
  (0x2bc5d22d8435d524ac208ba2b8b553e0408d392f22bf1e3820a2a7296828e0a8, 0x571dd2b1080e915ef3632571178b2acbdce24026134e88e31f63275431bd18ac, 0x91f6cf51b73a524aea62e1a1da714b97985f71f5c99d42a1db8900dfa9d30fb1, ((-0x326f7b52a711b087152a93b4df6e2df841c98a8c35d0ee3723698815ca15d2d52fc3374a803eb51b856f11d9006cf6e9f5aa1e245c18531bc788d24e04ca1d78), (-0x126663eedef5ae3f43b629a9dc46164340fee9c13de06705b9a2eb6b349577e38060e7d407d6cea5a843c0d608d68cf9c20e505cda4a7df178a71986b2485064), 0x28f18eaf0389bdeb230668a5573c71286d5fa31e50f00dfcee773b7db35eb68bd));
  (0xf0b1efd10a08015e4a7a40ccbd7073f8b7ef100cbcb20ba23700920b205ad2a8, 0x719a76b7aef4d581104d5458d0905e363722409a57318cf3ca4b4886661e940c, 0x9f9842c0084a3fde2921d03aecccd6b15d0abe614536d3e8328989cb9ac73fa6, ((-0xfe0829d866468c19cd5ca7d82d565d957ed3e7c164f244af1208811ce6d71c643c22c92faba5ce9230b8275ced05b79ae363b33461e3b53361ceebdfe39b090), (-0xd4d0d93cb905d0992d7624830b553d52bc22dfa09ee82a3e4faa94f6b5ecf475b6843803c423cb78e28dfcd99e155d06ca889dcae5dd2b909c4bd6d3279f189), 0x1493c564560b9d0edd97953bb1e7bf10c5927a3a9418e2437957ae25ba86f8aa3));
  (0x88c6d0b1ae255c40760e7e3447eeacfe9a17143582273033f6ea2a851fe90750, 0x4570cdf47f1e5f39e4cf9fb6df1de3e0a73b9dfef7ed69c305683fab9c39c341, 0x7f57292936e481229d9e7a0bbf03e9747b85cb530f9caff2e5a1be5124ba555a, ((-0x16a33e2f70dba81ff23b4c21edaa2b36ea3a66ba44423708ce67b751ca6d0478d085400e1bd6954b46e2644753b3aaf89d3dc998d5d62f381dde6efbaa492f40), (-0xfe6b3227aa5f1d12ff18772f25e546c45d8c14400da16094fc804564687a86698772a36e7d0e4fc0bb0c5a93b8c2e268579540261d97a4817bdfd25cc83d003), 0x289008b28a9921aad56ca6473297b3730e922c233871815861a4c73ed0def33fe))].
Lemma run_64 : sq_run steps_64 (0, 1, 0) = Some pow_64. Proof. vm_compute. reflexivity. Qed.
Lemma root_64 : forall r, cong (cub r) 0 -> cong (val pow_64 r) (r ^ (2 ^ 64)).
Proof.
  intros r H. replace (2 ^ 64) with (1 * 2 ^ Z.of_nat (List.length steps_64)) by (vm_compute; reflexivity).
  apply (sq_run_ok steps_64 (0, 1, 0)); [exact run_64|exact H|vm_compute; discriminate|].
  unfold val. rewrite Z.pow_1_r. exists 0. ring.
Qed.

Definition pow_96 : poly := (0x352ac3e281413ef1158388a47e390f25323afc45fa96f629893296aa70813340, 0x7d716e9bfe97e7f229830ff9868a27d7b54cd3f7a02a06cf0c7139232de5937f, 0x2e6533178a83827d144bec3e7fca62e78b62161af06e7d8a64d153d700e1e51).
Definition steps_96 : list sq_step := [
  (0x798080798013796ad08df1724416f4e9b1b900a6b4e60b621b14eb776fd7a526, 0xf3d7327727bfc004394b07ab1bacebc02aa9b88baf051bddf5c1bfbfe2c14a5, 0x8e780ebc10ff8fe1f362d770f3a5568cdff8f4c9e4177a8ec9388f866d5baa3e, ((-0xb0a7445075aa964be85f1492ea88ace4858dbb3f1aade603d91b356130a510552456377a3cdfef0bd81f03e875d1a6329fe8bd0d6f6b6f71241e7b698898b7e), (-0xa1f94913ff7f8480ccc2fd28820ef044d3ecc657b5a2c744e22d2f21304f6ed79c2ef00d25bc3ec637731a543e8dc9dfa589cbca2164959ca1c2e882de32deb), 0x158ef30758d1c4a39915a5addd3ba9c55964198ec92d4dd6daa500fd804d2a491));
  (0x33129ab80cb0b380929c675b6b4f44c66be78dc6084903366ec75784e710cb49, 0x6539238bbd2ed82d38a1934e5be8ff0ed95e88abe66712e8d860d8910b3484ca, 0x2e115ebf687cd6a1b392d16aad37859181421e93456627823b4b64bd4bad2a1f, ((-0x2b6038a2017936bd771e9eb20963444a21e6e9e0af6029510e39672ea65e4b37638b4864fee34d0c62f3876cecf57bdf3f84e58bbbc8e50391b0e3cfde8add7), (-0xcabefc91e9ec34be86e0cd7a3c59751c206bff7189a02e4c768d77d4df5d69a6bfe99d70fa25a3bc71ba261e48e56d596dbb84981850f47b8aa5056ea325aaa), 0x17601012f54fc8c7a1a7a3923992bb59101befd2345888b3f8dab68689c9d4c52));
  (0xc9f5a7dcc7b0be3670ee7121de8c4c9bde8d59f0b5be6bd2f848857244a2f974, 0xf0b55dfeb102dcb81734d0cd8a474adcea954371d530c796dcb5b760214c5bef, 0x905101fe89069aa658fc68422dc694750a6391ef6a602106707e8a30df94cbed, ((-0x5d286daf3483126dbafd0017621eedd15529292e32d59d5d624ef3c0fe17f3c68f15b8864e5088bbba27e20574d6c7838885ff6f134112a45645a77834221d9), (-0x1532d925691ee366580605f5c38bc453c93167c923f56d123ae44c9feeef66459a0cf90c1a73950dc3c0b5aaff977577be7a372fa6d6c019658284911631436), 0x53467e5dafe8f3cb5bc99e3a3395e1037edb3fa2c1c488e2f1238acff0b81d98));
  (0x7ea4e6fbe0e2d47179b2533653db624acb6035e1c70e6e8dae3f678451fd6bac, 0xd40cf5ff6fa0044a9abc2122db8e73f14ee99ad0edb86bafc8ef6c55ea899da8, 0x4f0eadf6e8ba613b34ac8e21567328ac94b604976a5b67d574431a9ad1472648, ((-0x2b5fbb1699f0c8b8b05b99142b2c709d45de80ef99958f309dbff9391546dbbfc2cdb79803dd1d636a0c0a30688a08fdf149db7107bb5a008119d94ac41ee9f2), (-0xd009d0a25e156d2e42799c9262163438abb23a04ea0db51abe93ebef6070fd4cd726e0af52bc1759cc933423d3c966ac063d149eac2bb29ecc3f672a4d53337), 0x2ba1a71d24bbce35699d7948314ad2761a8d0a4b8b9afdd4e7cbdce00716e5824));
  (0x5847d4da400310f53fb313f95b5d8f70efb3e0a986561d1f3fb694bc128cc782, 0x9825c69c622403c99977c07015c8ac44dfa99b2897d819a1632ba4f8198a9c47, 0xe1f66ecb7ce27462cdb45e56f87da9a62c6021ae745bcab0aeb55fe58f26be4b, ((-0x14ee80f386f7f85f4827df935442872b9b2772c76cb1adb6a0d6df8aecab8256f5dfbd6734852525a66864b8ff3a13a6b3c110ec100bb460f02c8f2c3b05a08e), (-0x3e6e2f7e465ce221b4c0143d304bad63c36ad022720c711527fd009a1d1bfa5f891b125c3247cfabc84e35ee1e23c68cc655b710699bac352fb84508bc61839), 0x1471bf571da9efdc4fb7311fc499723450f2e1a4da86f13f5dad40156ef57428b));
  (0xd95249b6ca706b64d7e1c00cbe4e57d8f0159cbe163760121c6e69e3562c2b1c, 0x929867632dc03496bc4a9c2efac109e0aa0899df161f94d20cb0459e928353ef, 0x198f58d5afc660911fa5190030ef4049532a96d16e41383d064ad1ee87c258f5, ((-0x2aed21b5ff0180be7857da416fbe06948b32edb8c43737c12637fed1c3c2fb7e3d38d635821673266164a6c37097bc0fdcadb573ce6655b7b7c94d835d6fbf7a), (-0x1fe04765c4ea2e08580b749a9dd30a6ccc43e626b0279eeb2fd21ff5361f3ce90c3eb7a668f75cf8e0eb24f484a7190b48c72049bf7846e38ed66ac0289f2f00), 0x34c9e6fff410de9015781b726d5a1ffd9df35b4050a54daeec112ede4ff6fa12d));
  (0xfd52c27576c6ab7f9a5e26c184a176183602b565796c8d3fb9f2d73e119f5852, 0x45cb3258958e4047b33d092ec1f4ae100086c3878415ff1cc649febe26469459, 0x432cf929ab45749487f712699870b915276bbcf3a0050c0c5425f08a68da9d8a, ((-0x4adaed7f18fa519a1f49aea233f93ddeb9b792590c4d06c7c967ad93f5804af20d17a51abf1d31d699168214943907e8ef4fe063e8a0e6df3420c04f72a85fc), (-0x68698dbfe32f50dfd828bb0538e1cde14fbf1ac845be02ba32233d72dc299ddbfa1dbb1d4dc479a86d9165b8c8a51454efb1d1a0c5561d35f88cf0bd9966d6), 0x86ff92aa522a092b6b157bbd0f444417b6824ff13ff21a8683496ad49565f166));
  (0x67059cc332b3d9bbc614b9cecdab1a4e60a55de98b4a0652c304d210504519b4, 0x4504ffd263348f9239cc1bc47453d2846f895d433fde08d8bb7a441d6aa0e5c5, 0x426e63bb27a5d97decbeb6fd3b838b9c2ffb902451735371896bc27525e99787, ((-0x5da9d9c07c963a717dbe66124acc1131746c1e0ec51920686ef30cfb17b51dab404e792994635149de4369efbbd54f52e9f5840aa6460db1bc2a3cb20122174), (-0x2d13343cafecbfb8833e96f1f1e9b1aefd85cb8d030119f198314c00cc288c171661005c2f5789a3a5d42da6c0a2df6b4bb2f87d66568c1aca0979c9b8b65af), 0xccdb34be739d608078aec3d43551c9768a8a1203c699624a3f186c59558f1902));
  (0x587f9bc8566c2949719253028721e5bc1290d13f49843b64ce22d0e8e2cee1ff, 0x6cc3d6943080a13b03eb9c6ee7844cd97159fba84b013f211bb77397948aae70, 0x472ccd582ecc1b80d4323eb482b802109f5562b039c2f234596707e40cf1a98d, ((-0x5b9915a46d3e1d6b9ab10e66865b33c6728d0fdd912835b40d7d790bc0c295bf32cddfb486e26202fb355149c735ac7fd0c361d752a7db080eade50def71ddf), (-0x2c14db6f4a88c56fb2c88938df192c2ffa9127e3e9588482fcf0d1f2e5106da1ba41be0638a0b767e7959cdf9b3f34bd8fa9de0800dcbc80273610d8b8da6c7), 0x7bcac1004f221e51f1e5643546af6d9ca5a8ab7a0f5ee48c6766132d4b509089));
  (0x62ecc279fcba699cedfe04bd978a00930838b1642635498659414c3fe2d25951, 0x4b3a2d4f2a6534b8300de7e812ffd88c4dead682e340c50101be1fa809211230, 0x7bba403e284eb2d76679e6246390678830d128a635b0c31aa8e49bf78265ade3, ((-0x9aa72d34e432762c01fca941d4a2eb4ac1e66dec82afe43af31edd5e55e697ffad64ab1185683dda0eca4ff2666372427640803ead54dcc86b4a130c40c6690), (-0x329a163983cc1119d70257cb8c2089e4eee53003f6264b6dde750d327be1f872de9e0ebbd17c32ff9750f7d9e4953e251aa6989bb56ba7852ad2fec8a407305), 0x9ac93a58b0a9540b2658bbd8db9b23808ab7cd0eceed2bb18ab9348f67133502));
  (0x64216eefc630bb2dd9e01f32522ff109fc460d7358eb31bae58cc214c6007bc2, 0xaf2401789abe4e3cc4334e53b9bd8b1486f7855b3e89453fc229919a673fab5c, 0x4fbfa2a72376fb07da74a08581a1c3a63e7090d495d0ae54109e644b612709a1, ((-0xb9f1cbdefd8558f167bf1dc33f96faafd26d756796be9b4b9e65e58b8a58add784a3bb0a97124a4eb76dee2b6cf0f0c94bd728216984ff4bc22a19f4d292a7f), (-0x98e9bddfb43a6ce754006d94b2e4168e72bd288e1cc6d8155c4aa19a9e3c8a4179b6ad1ae0faebe2bc266944f6d307247b8ac3ed0c320d2a2cce3979645bd79), 0x129201c0fc893eda9e4c6add5f60574d1da44c3bbcb8ce9343aa35dcd5e209b20));
  (0x6ff82b8aba04977d450555861737b14920b280d52ec51664952381472b1cf354, 0x49d55aed8ebd791940437e303aee957636e6a669f8689517cc1a9074fe4c7a5c, 0xb6b13cb2407bbfb3148f2fd8c09376366b7d5fce3bba49f48d047fe3a6113e8d, ((-0x11707ce63d4019c173893f9355ee6724d7cdb15a4b6773a201c0bd5da98cba04766f7efa520e6589244f37cf3a1b379f36163f3384c667108c8330ef3c1fff08), (-0x3f86e2d72f54bb5ffdf3a7596a1d6705bdecefe6b1c5c9b37ff7fec40a88ef7e7f40a790f9acd748adc79998030fc0039c30d48b3c0c98cffa06880da7ae1e9), 0x100bc4c32b201579803f7a0719047ef0f63a222ea393bbd5511ad61103169c1b6));
  (0xd1ceefec8b5a77b986b1fabeff4eb478508fda476712618f40a5f3507caa47b9, 0x7ef94182199b32335aeb4ad680b279af776a33f9845aa66fef9c63cec2a57b2d, 0x3a1879deb7573d35a0b59075414a265c4b6de4addfb7ffe618c9c89e4d9e2bc0, ((-0x10d790f46735f1ae1ae29c1256fdb3e683a4be2b91e748bb5a0c0131f7d2ae15ef3696e8ecdd29afab6e1bd0a8d5b4ddf8d3ad1738f861cb12f28f30b2a72e4f), (-0x14d63cfd3f8d3faf6d8aa9650e53e6ea2558d1641ea9b75bcf7cd9d66ea25a5793fb685715d9c43b40121ff9acdff262e1ed18aed36552bb3fbfcb70108e0b30), 0x23c3cbee3313563f6e9b0e70eaeb8c9d7ad14522c51fac6aeebb4eeeb6991d32d));
  (0x560a793703c08449ce67b230ba4ee34b6e5a7ee4e328589cb2c0e6b80edf3d46, 0xa49e96d406283ead09347a9b9b172a9201508f30591c8823d8822c861f033dff, 0x96d4e5b9c4140ac087e336222b62d694f45d4fcb50d15b65f893b18b39ed9985, ((-0x935dd1cd15db189adb66f2c27a21df85431715bde43c2fcc24936b384474d5ccbb6ffb2992f694618038c7423eea4c107f2a8929bc354748db4ea4121d769eb), (-0x21b68c4f022f2e4bced876afd506ea3bf91b9cbeb41099476f2fd763739790a494b88d3eb07a3aae38e8512712e99bc82736842c5481782446f075ceaba338b), 0xc5c17f242d17b448ef919151e517c5c5e7813fc5d60d55d00677e6066359681c));
  (0x34a51467ae6023f713f653c9bbde2b5c17c2bd4de313fa4bffdf4168a41996da, 0xba9a9e77c635db6d8e8f4c171dbc8111e188bb6437c12d371070dfbfdcc396b, 0x111ff980d381ef8ac717f749b899c5517b5280a20b086e163abdb89d2f67d7e9, ((-0x1f009e0574465097c55d20c51f715191cc9e2d8401263acd0aade1a2853e50a1ad57ccb1cbf7391a7838bb91e15f7b4dd7a9be284307ad9f1080ef5df2c1af08), (-0xe33f072a980906c6b2959bf949b9e534f1fa8f611e3b6a8e943932d448bbeec2fd55ff84fed54a364c35cf224ad76ffe0a85c19b35ac143d7e349fc2e834590), 0x1d9d98019d2711ba7e9822273339dc152b9dd4914b7653efe85a478fd7ca43fe1));
  (0x537617ce4b57830c9cf0fc7f0241c4efebdf5c922fae826a97d9a13d671af473, 0x943c90145b99f152cc965b4e605a204dd25b4e16c7681f442dffed3c0b449ddd, 0x5dce285d71ccd185d4c130c4b246375ba33386455fe118948b422b419eb95244, ((-0x3fd6f5bd5e8ad336e6e0f94a76c8624773c4655fc31d6ed369fca23d528ce14e4b385216df4dfc3378049cbfe037ecf7779d4f574822a3c05d5a56bcae5d7f), (-0x2ede866e5e56dd102d247bae141981655f1184e81a9da05d5bc4921f2110cb46aa9b0a2067dd7c629df57e9889fe832a9b60440dbd0fc6d0a3e2bc263e9eee), 0xb02e1befd84cab543b9b30430219dd7a4eeef3cc1c4a9c69cf78df66b282484));
  (0x781ceff8e76a0a400a94ff3d914fbfd242bcf4be367a4b3818223c868dcd70d3, 0x93058928f6a2071f8e0c581d4511bbf53467f2dd5a5da84d9f8a578ebfd7cfa7, 0x9a575c949c7c6bbec8fb45ce44893c3edf5096ab832619bec76600b0cfee6604, ((-0x115cb89fcac38c1e3d2601d8b3e155a2969de9a1e6d36d5d77046100508b989bfc19d60bba62196352ff4f1058869fff1d16f8ca1ade6ef52f14ca5a17f82c1e), (-0x57e53e8bf6a5839590085d9cd7672589b680d02a0596a22024bad0fc9b84dc91873f48452ed1146d76c708943d7c5f8978f5a4f0e34c8b6d26ccabd030eb1ef), 0xfa1e9ca30b28be6ccdd347c51866d84413ea31cb8dee068c7a7c16aa73e525f3));
  (0x120849e36a559fb8b31713f897a45e715ae438cd003d3fd68c11b0370a21537c, 0xc604c5229b3a8886fcc8ff09d4ffc27125d8b470c394d53d6eb3bdeb2936bc83, 0x413357038366b005f71cdcd36e3931bb395d4e091425791750bf5e8cbfb28761, ((-0x1c551f5a2f2d23ca08c130f192fe78e2e734d77c4b62ae5ce7e0d8fce46104f3c01ca7232347f487669ecd6ccab2a184c4438f1e9bde333d644cea8221808745), (-0xedf1d11a1a6b990c8945817d997e66b4713503de24d0b9cc08a7abdb50d03b6e8771d48d08dfc614e820c4c95f319ded36e81f46a755ead8d562feb04b2eb3f), 0x1fc6bd2810f6b48826085567f5ef41f9321b2ebb7d52f47ec9754964303d3cda8));
  (0x81afdf54ce72ce1b06d6e653d3dd8ed5351e9e4b3f94059e2d29f5ad17fa68e4, 0x8e1e14fb96bc91eeb50a4d9548a017afa72282fac508e6b2eb1a5caa61d06ecd, 0x3d8c7341da61a86272601de0aaf15df4cf4bd65afa4208f018149e3b313c66c0, ((-0x101eda822d180e3f6da9dbd6a3599bd53a42a4cbb82e763d478eaf7249fd7c8fd62ceb57448cab33cd30ca0a7dd21298ddbde78a5524ca708125269918f75ffa), (-0x2a769e201a8d9a71646ea5f69314b82cbce4c5f250af10224ac1ae0bfaff215dc1a54b6702f191a8f7198d9d57725564906254f77bf491e6c790a16dee6bf1a), 0xd42c2790dfd2990186d26254f05ae32207328cefb42eb314dac92ae15bf7577c));
  (0xe25778abdc738df82a5ba4fe6d03d47fcaa3f2b24eefb21fea90079e9c05cc90, 0x1f27d5efa30908b35f4503dda3a59747ef11d5dedadcb708c7e9877665839415, 0x8c60f7a1920150093d2199bca9d322ac7395530bb780ac481ab4fd1ab455c467, ((-0xaebf07ffc09f3a6a81bead6dd8e77a35e7f225d69adc51914f09e6a04bf41e5aaedfcd18ff7f5b1675e31d65513ca70488a0567d2479ce3b3002ad381edd800), (-0x25d6fbe8a14611c1dfd55cb5271583d0c90cea7159a2f9b241b823326c5b76767513ac9c3cd6ce34c367c53ccae492266d2a8fbaff4bc80393a81fb350f5793), 0xb9a634551de47a696de27152c90657412918ff7fd8e16bd66f3feb89ad753e3e));
  (0x96958c48ec5a792710823cbc70c6043ca836c20bb3e67e829bf891ce294a532, 0x56632ecd16c8456c8ea843a0fdf8d082344bb92b2e6bdc3b5e2a38ec4a6da43b, 0x7a885634c712a25b761f9ec158ce537dc91ed1bd90aa05615d00c54a75116481, ((-0x575f9a445c8ee71a2f564f8f46bced3691fc24580d3de4d46eda75402e8462d3e67c1826e6205ace41e3334360c429957a0e309599cfdd658045ad6508523bc), (-0xc4d73240caf951765c01bd2b0703256b9185e43edcda252aead73129696c4e07948e9086c8551657fdb5f072a7113ff3f0b67dd3fc6f1d33bc430e4e313bc34), 0x1e2f46a37e88884c9ed2143ffb40049b8f281a6b88a23dd8ce23b789ba9285a95));
  (0x4ea393d1df1831a08e9a3969ec6f2a71da537f129e67bcecb146f1913f99f3b4, 0xc1755386b6973934c1c4f91d1a088f8ad6afe1a760ebe0dccb04e16937dfc2e3, 0x78dbdd889cff399c1f87b76333b2c0e4e9de313b35b2e92b861580675d841c9c, ((-0xd377b5e052a188c4cb03ff2f2042fe7ba5450f2fc1474a548c6fe56d2664adf070bad5c658dbc74f90c59a2eb3b871d7a32b51e118740737389fec10e24d14e), (-0x95f93e52424242df9e15e0147ad54676f86c31c1d6a44e0a7249d3c875b03a5a774d0124f63b24984fddeb9ca330b2aab8351deda7d731ffeee1d7981ff0af8), 0xd61be912372220e5e414d7cadfd9f34fc7b88129b5cc4fcf74fd83109ea3cf9c));
  (0x5fd73a14ef26cbe2ceb8ad9b3b8ae38906f9d7546f31333fa8f831ce2a47efca, 0x949893cf1506b51522ec22e3a340cb863253552c391172e1e03971d1501c772d, 0xb8553da1ed0a676a7cdb56bd8a39d9b76dfa72c9ddbdfc4d8cbfdc570f313e57, ((-0x1d318fad601c84f246adaf13f9325c47f0273d3eecee017f5917e282e634fe3f04d7c638d7983e986d7f5ad1690b81fdc464954ad1f9eea8a3f7a9816c77724e), (-0x91e78d75dda190be07511941fec2afeabb42edacd0b565f3301f79d2eef028e31224a204eeb3663b0fa55e2ca05ba07b9cc463cc858906383765c50ef5a39d3), 0x1879f21d4b0e9c313da1662ebb4a8f68147515050c23225fff4e47fb68a92887e));
  (0x6c79cf58321c282084585ca01941bb708a87c06ace7c700055971e2a3047be34, 0x2f33edc832ad9ad85569f0c9e561e007bc3b6bbd7c0221df4261f5d924699f48, 0xb71703cb1b05a06c2b4ec88bccd70e94cf032f9f5063aff59e0c0f9cd59ff8e4, ((-0x22335165a33d63f112191ba9e1c73a86d5411d3ecf686fa89c0615e0efed5019f8bd2d797f839b485d3d9b72e584982fe25321eaa6a40edb8415d37ab05d5f0e), (-0x15367997eda48d8eff1e01413a254985ea18484ed10d78fd1628792f12536f78e5b4ba38c6a1ec9bcdcad958ab8ba5a9f411d07b66a2360573bdac07e3214b3b), 0x26e75eb5a76ecd429c1bbf1ed72f42031573dd2c9337f29b2e8154f36047982fc));
  (0xa03f6726bfbb28b6e49b0486485974ad36dc55879ab8966f60c9d0ef73cdd407, 0xf578a32edde70e7d2a5d555f6efd1a9f6dc3630d8b3ddd9fe57b7225d919d791, 0x3a1f0b709e489a927e03f08d7fa9b3b2e61cf3e55625e3785e13457824537ac7, ((-0xaca7312c279bffebd66e9999db7e947a3cb0861893b4795b8196b38a547420333324ac090a527bd48bd2c7c4a093631283ba06de93bd96cf763889e612a99c9), (-0x14ed7adaaafbc7be26cb067aec61dde4b033e6208a7d93d77762ce6359430aed2ddcb0f995c7d5fca42b839c275e3094340932ea790b4aa760cc753d23daac3f), 0x22cb37fdecbec38a17977e5473c2bd57ba8b0a3a71b544102b81bdf4e7ba9c8b7));
  (0xfd88f93ecfa1a0bded8531e85a3892b66a4b7375ba6b2bd5ae83afb16aab1fd4, 0xda1f4d1c0b890cfa7de0e9a8e117855364186bb601c13550d9369da9297d9b24, 0xf56f95ba5bb0a4036eeb12837b86fe510d151ffb932b51dc45c90140d9121e54, ((-0x11d057aefd0c341ae616b74d2c5a0466e5c289c48f993ea22ac0326cd768ba9033e6cf3abb8784f843461e612e3783230dbd9c866ca8439fb328e124c7894033), (-0x21be2c618b33aba2074b1ba61b0a14545abf79228a134ce83e9855553aae90bcaa55a5f27f5f4cc6094fcedfeb23ae383e7f77a9f72cef420c71f79c24c1771), 0x15bb9f875d7b546f0a789f74473b0e8dc99564ee9890e91841a6a42051ad61b3e));
  (0x29bc4725bfdab49adca85fd679b9f36ae67abb41ec2dc45ed2b22e43df085477, 0x73a14c1091f0a5d99933ce63a6859bb23ee67dd3f0289fe8f136a13f5270c96b, 0x88e16411c0773358bb3a1b1439e5cfe0caf29a4c245aa13fd95cfa5379a2ba0f, ((-0x42d7f66bdd8c4139f574d546a4af295db91c70077aa3821c509a6b0794c9bdee323d616be19ec879a33b91621bcf8fe344365c5d6f6cafb7983425e6abd76a39), (-0x259b5fdf6acfefeb5870290fe8869e1230be87141d830b39bfade649d4f31f22b688a4484c2396e6c78a9f9861a4a6e5c62c6efff331a882c4ffd74709d5dd65), 0x561ead547824d22500e61713db9fca6ba7417f84d73ae9811c96e53ed06ac272f));
  (0x7c530e1aa14a4e4e78aa5f92435292248c97ff0316ac42f26aa756a72a04c1c, 0xd756c965bf89767c9ab23de91146debc7543496f8ffcf98c62775e43436c433a, 0x3be7ac3a5cb53c9714e88cff28df4379821d95651364e0ad3b802b8252258f03, ((-0x13c31b87b477ffa801ca8b4c99952122f49f7f4a75b181f388380ab3951ad02d44873e4254167e32e2eb3a7042c819edab9cd8251477503013a03bb2b0f485f7), (-0xbb26eb012cb3c519c47cb6155cd9390fe5baeb1dd20532b1fdb859e05a5f764772d5ddf4cddc6bc2454f775e8c220cd23a8aad2edffe0496593496d851986ab), 0x13c6c9b72b0fa97a7af3c68706a79dcb70c850b81b14464b355bd1560b71823b5));
  (0x52e555bc8fdbe063762b5de33750a881aeab69e306ea4cdad709c2728ffd95d8, 0xc53373c2f94063bade2a41e1d1d20f2cc2856fe9b2564e698bf7f152f85baf94, 0x408efd4c0878378add4bd46466a7d7b6323942e1abdb48f8cee73372679ef6b7, ((-0x101b52a86a38036f315aa30f1adb57ca5910f96be2676aae12b1e7d58f215e575a7bd17a7807dbc163653df1ec044d9e7d330a53e08d7d11ba773317a14d4364), (-0x23d88240d27befd7b517c17e64200c6e743421a5f6eb079e8250884d45cd3d760269b927850ae082b1b391d1bf15cf167a79df75fac6989a89528d0723c6205), 0xe2d3a9b1fd72baa841f9e657f64b92b911806360b2f92bfda4cc5b81d3df6ed0));
  (0xbdbdbdc89f75c369ac44e1c866c60fd0b590f8d785d1317be368a5a1b3e5307a, 0x2d9eaa31c7448f5c70d9ebc4b2208279b6d828431bd2c33a5086372c1a1d5095, 0x9319021a8d056cfeba87e124b9c5fd7ac9399358027f7bb7c7bcedf71879c297, ((-0xfe558999a22df40b61b06eb1b1b6a665fd15b33084ae959331dfda5fdb6e69007a7399a83aa72f5c775ce92b558c2cc2b2eaf1a4bfd517be9ab707ce0bf1f7e), (-0x29a198fcea22cb18c413723d524e0d4181e5422a0a621e6ab75d846f0c1cb85d378af4de08c109acd61cddda49c08c0bd5fbf0ac4c83ad6ce2dc53a12bab9f0), 0xf28eeb62460e0b189568818ec0816e898f08fc9e184723e13558b2f9e0b615c4));
  (0xb92bdeb14c49c3e006571a61fc769ab55a58493e7a4619bfeeed595119c76ab2, 0xd68d00e7183c61637055ecd93aae98bcae34ae8b4c3443924a5be8f1696a6cc6, 0xbbb9b22d60ae68a76efb0d6f1d3e571049c4383fd17b42ad5b487c4dd8adeec4, ((-0x860f7d62b468de2ba9f0634ccd17851cd8f2bc752afb869745e119dddbfd1d49a10c0cf79a53250b08c7b8aa4161802b9ac28b7f8514b5aa0d531eeae8af0c0), (-0xd8225a872d48676e435ed6ed53e39588cabfb71b5481f5062d0c371f8ef47d90ff29475da88a37c4d47595c5974c4311c0efb379a02dd4a0592f1d9dc4485cd), 0x1dfbf54e366bb48863fbe4fcba7c7f4eb5ba6a60541360ab167856f706c6cc0ec));
  (0x352ac3e281413ef1158388a47e390f25323afc45fa96f629893296aa70813340, 0x7d716e9bfe97e7f229830ff9868a27d7b54cd3f7a02a06cf0c7139232de5937f, 0x2e6533178a83827d144bec3e7fca62e78b62161af06e7d8a64d153d700e1e51, ((-0x324a0a6019a0511b1b695f205442ee3cc779e024f173e2d1b78a40cfb5d477e16ec06b1eeb0d1885ac4ff282f5242c24acd3af4bc517675c9291645bb9eedff4), (-0x16003212ab3f53afd9d23321aaac1c744f1f9fb13a5a8b7d99c2ad5fb2333316b09ce3c85bf6a7ddaea67e6023f6d0b1466c644d591ac9c00bcd29daf6067239), 0x3605d38b52aa6c6476610db26f78c2e34533ef3b6b9a290eaabc4f335eec10a6d))].
Lemma run_96 : sq_run steps_96 pow_64 = Some pow_96. Proof. vm_compute. reflexivity. Qed.
Lemma root_96 : forall r, cong (cub r) 0 -> cong (val pow_96 r) (r ^ (2 ^ 96)).
Proof.
  intros r H. replace (2 ^ 96) with (2 ^ 64 * 2 ^ Z.of_nat (List.length steps_96)) by (vm_compute; reflexivity).
  apply (sq_run_ok steps_96 pow_64); [exact run_96|exact H|vm_compute; discriminate|].
  apply root_64. exact H.
Qed.

Definition pow_224 : poly := (0x8e5ea979b47b27d8a3ac1e34cbd70d5c5aa2e408920f9512c52f3f544cbde7e, 0x381dfb32a7689f2d944fa648e0b0e0089cbcb96248dc8c3232e5a08837b04033, 0x6e11efedf7dd82a3f184d271328162cecd090b44b3ed9e2169d61ed08de6c41d).
Definition steps_224 : list sq_step := [
  (0x1cba812492f6251b9bbf9c81f76e17b71b73589967e08cf79c753f704e79bd51, 0x62e01ba31815971ec455ec00770bd1b69feb176022fd241f693a3fb5abb14182, 0xca3b0a08bbc701b40e271163b5f1689cffef3ac13cc04592f3a529ee7667d83b, ((-0x7444c630a3cfc83a27933881333eefe1473a12593aa92537faa5067f266e17afa2c59478f08b780d965c82e595351c44b535365bdba33c80ca286698e98ab5), (-0x158045c3e38bc70a9b317d53cff94055e30c3dcdabffc200bddea8af9157a3ba2c2fdab88b9d852bd58d49ec3390cfaa0f1b95ec184a0266cc24781ba2da5), 0x3ec5885050dfd173cc9802b43c5a88661611c0f22128c7b48185ea0ce8180fd7));
  (0x6c5a37525492d93639adc4a58956c6264b7f87ef3131ecbe7622e2250cc3b28e, 0x94f2e73570f8364db6f7d4b6a507ba6ad29ce1d0a1c94a3e595b1ea6ae3a48e6, 0xcd3168b50ae4b649813f33f2a2b497636439264fd25bed6d19fd9fd15ad665c3, ((-0x18f76a48ce685c4ff55fb2e75cad9f495380d8cb3cba2280dd55e85aa79c3a602e319a4edd5ffd6fa6a1205aba0552e63da18a82ef38b4aa1f28e456894f4e8f), (-0x1988343d19a9dd819c42d079365ea252a1904b3eed1db980dcaa321bedd4f6848b09d03d2f961db042b11a02a1f5660396c0e87d886b74f1b51decb98b0df847), 0x232d799bb729e39272224737b9fd1b988b50d95be0333af44e25016f51b32539e));
  (0x8a249bb3e468169fcce1ef7e08f8d2745881a8a21bb31b989318a486770caec0, 0x57f4121ada1efad39b3f9561dc58353bf69f6e6da5afd58cf53b1e5c19271a1a, 0x1184bba81cd72b73110e0103726b1af2ec3cacd590d757d1768c1d43d117061c, ((-0x2629413e252b90ea00b0d76e0462f59be5e20289152c37b8ded33ec29320b05c2609a8724cd8dceb453dc3e35c65c2b94de1764d9f4cb27ad6d8c999ca182898), (-0x1a491923f4e0c20a7325fd433274f830bd1ed6a7b1bff5bf3020097f39c40be4438534d4ac6dc437b96363d4bbcf961bcca5a5d63498af15208750b518c0f98f), 0x2f1c49349dfb02c15e836d2cb0742c855ba82052fb3485b916eda40ff9e486f89));
  (0x497260bed80e2c9192cf7b85b81f18c0e9ecab1627ab8d4c16e3c5c1797a30c1, 0xd9863a5dc3c80c750c39812c3f069201eeb53c3ecb5507e436159c0b9fc232dd, 0x53f5e6e391da174e7629c809d541992ac0b4129b972d651f20dfc82676b962d, ((-0x1ec81648bd2b6b915b4565285ace92bff08b3a8a1a0f3baceab5bfde5e6f0ff160faaecde3c2a16d88c90462af2ee47c39b1797f71b7c27ce4a3cc1ed11432f), (-0x310c654c69d25d68af71ceece3047dc8db9a6bf43c1a84b79aa178d0c64b50fdfb61ce6c6757b9b92df62bdd1c2628b9edc2363e3276209015bb3de3578303), 0x34b89b31823411658c1af048c89687c356c8791b6723b671a6fcad895fd71859));
  (0x6aff1ab1c90b7bfdffc31d5221bd8a8334b305300c5c64a54eefc55cb527db87, 0xc0dfa934097c5a626b8086b4206ce014350f64f75c304018fbf17fe7e0282611, 0x163b540e29b632277122021980ef4a9eeb9d5d756827df6fd92ade5995c80d0e, ((-0x16cdbdf2da0f2227e1425f36e0917f4c764b49923e2a070e3aa0f1ec455e8369c2143d63ae42fe3a2ffe71910089bbae83cd346a209b375dce3fb7cb5d40cc4), (-0x466a1fa4d8c2ed10eef300d8e1695c3fd8a48d269654f91d6d6ccab877f2cad8c9ee78726a6d74647971dd5c328498c739634c842023ba30b84ef8fdec774), 0xbc2a45b6ebf8513935de42fd04c626fef8450ecc8e94da56b3b623ceb2275eb0));
  (0x3dd87f6e57918c8993c9e3aaad6eca85407a18fff967566b014f381403aa641a, 0xc4dbdbf4f61d371367d8b8d275b4e8ecddd300c0b4f284073573ea8ec3944be, 0x841482e1524bbcfe1f7e9079019787caa02a71aace966cd801d6b7306d33c967, ((-0x55a97b770c60ecb4b8f233a819161f056555a50717293b59804ff882d531f6081416bce17e0be885e58f9df1e35938bd53bed05d3cb7fc8d9594bff538bfdc3), (-0x4efdc426749904d2691b3d51173792dc1851ffe0c341276335b94947366e5688e0e6e1c62ad429fd36fe6db73b310f973f7b9365787ae112c0f7197c247638), 0xa9b0723de91703070f5fd9186229e9f40e5ac435d29a83a030ac1b96a503bd36));
  (0xaddecc125ace1434b63df7886ace1de5dce975ac96299e4747ed08d43c01ae77, 0x380123114b84d003a74939ad92fb0bf1827e4a6e689dd8900ca6b466fe710f0a, 0x4d3bd634424a1d97a4bac5372a2aaff5dc4af4148a1cc3b76ebf4b55d154d628, ((-0x207704127a0d45dd568bb9226659cc3841572a9e94415d28c6e5806989eb8fd9dd46f7aa74506777c6fe049952376330a8fd522a6de56194a298b05f9a1e541), (-0xae416e10f5f818a3292b80f93a4127763dadcaec842b9dac6b13ade0ded0a69338b20b018ba34a9e3c5f9f3e339768a057cc7571834c5adf80a8258c6bb4a57), 0x10cd807b85a43ded8b4aad07406906b1c1f929237e0406e86e757cdd68d2341e5));
  (0xd56e8616053a17df2660279e50aa0dd2637c78f7af63b0507e6636b03ab7f4f5, 0x6cd6663534671edc4e86b547120e4b1b3292bae1bf5d6d57851c3deaa913d486, 0x3a82c4160fe0fe7c3ad7c355583bc9ca8f55ab61a7d9d8504ec953e6da61863, ((-0x566954e2b699190416d82a09a461ca1bb884a96df26a4c27adcd59783230131d5297f66a62fa32fd0f809632280afee86cf6be9b91068f79b072b59e857c2fc), (-0x3b955f21d84e090cf51cf1cfea53f2e02f2eb974d742707a2ffc061bdaa423f78a30d9126a49efd3da4316fe4a830f78a0f35dc552878e3981f146763fc4966), 0xbb10f44dc97603301e63e7d629fd7332d77130eca661de2756c8d8cc496dc00f));
  (0x7bad2807b35ea10101c86034406f182c85194c818315e60c953fd21771c4a0c2, 0x932e1ff7f564d2bcb1fbce463bd646450aa093557fc61abc38755ff1a4006e2d, 0x563451efefeb88c10d1709c4f873f89ec71fb1d442c109c202c3f5a69f32eed3, ((-0x7f3865365a311f73673ac67a5dc2946c496371f36f1ac086251028ca82c1f377ed3ef0b9e23e59a4a2450889ed0bca16899884a5e91e5c56067c947afc0e8b), (-0x22325984911ed81251142cadf7165b95bcf1aef7cf7f03587bf0d6abdf9774c999628d256c919e0a3ed1eb01c8c5db5735cdcc9df3741aa181e7b6f779f50), 0x3486ba5696ab956447db0a4685bd046a1ac53a9e3ca3bdcb6b6aa7f26ccb3056));
  (0x7985a86982f1ab7aa01f112f623c766e3edb6e35c3d344464d59f35912a57737, 0xd9ff28db0874de0fb21800dfb18b3e26a99156a9c7652ef883e1a7aac08706c2, 0xb7ffd275783604335eaf525164c6639fe8c492b9252c914fefa0390fdb0a169a, ((-0xfd776652ae2ea3bd533caa9c09a5e75d3881b99fa2de4de759005f316c211af89d6914b845c5056a39f112a0c5e493bc9eb9452592122ab52e1403bd84d7f63), (-0x4a3a7bd15e4fa64315145eb73dc7874921a6fc12f52b2d1b4960abd5dfc3da991c297859112688f1272f327cab73feb714f5a9ca0a6d815b7272fb820a53d31), 0xfefe7aabe6b5b2a1f87228b16423585be30e8c10282e46b4e766b7944d22a52a));
  (0x1cab8a9635d6b789369a975a658e7c41ffff6d0bc0fe8c8f8df8c9200a409d98, 0x654968826a1acf3e24958f10d5a6260574136c1146d0d78d054050b4c1e966ec, 0xf0c9486949b3b2c1996fbfee44887400ef86a9649432bb3dea705ee534806830, ((-0x32152d574ee56c04abd8e417d1e9e25fe025cca240289f3131b9a228e90869e2e9d9d780e691d3e7ed11ef8484722b29153f4ded98fb85892a5e09ef62012981), (-0x1522d542145611f7d8481455c33805315e9da736d73cefa75ad523412e71c9c38030c979f9b74bd49d36b5b9e0da571f9e276b108e69ef7bbaeddab5d26b367c), 0x2f511c40e8d00dbc22a391b3eb9cba67d9e1369609012a29476dbe4d403c55d14));
  (0x67a1267a4a6a09f050bae5e354ff3b66c083e45017d019e1382b357a908ea742, 0x63bba1f392d291535edc80116dc2e365d05effec631734ad7c70fbcc8ad4dac1, 0xc0c3ad9189981fa9f6ffc257f6379e556510eedf20f0e9941de6579935536284, ((-0x1e7389ca783fd8d744f68464c310687e15eb4c6023e35b5b46d35f4aa3be0823a8ec8918b2694d275faa597a3c7ac0a10ed52674f5d09443c3dad6813e99517e), (-0x24320fb8666f46cb74984d0a22c32d90869e9d6e5ac53dcd7f68408fde7cb5b276dc5d93fff78cbfcdb7355bcc861d8e484c074889606a46509e67091e5db3ff), 0x3056fcd10a63b46a260824f470d9cc428c2b8d97e56779900aa32a0fd9adec4f4));
  (0xed927b17151b8afb27a54313b1dad5abbf20f40be82c1bd7a8f4eb9469682b1, 0xbdd250d47b1c826d194d2d4006053cf25a4d3bdeb0103eeeff9f91195ce27212, 0x3b7f1729978c97b027aebfd63b6577f18c199908ca8b214d08b86413828d0432, ((-0x180113085dbbd5bca0c772e6b281c92c1c98575ee746f543f0b93e6f05dbc9620179e592a65280ea8e37ffbfb1bf385ffbe10d0ad588394cb3d44683d600f4bb), (-0x17329dd3bad5060df16c56c057b5b5daea80f2a67350751f4427173b2492299e4e42daf8b2f67a6c46457fed0cb55821a54315d531068b8c3be793c52bb0135a), 0x2765d1c4d19772a5b18956acd61e76eebcf1485db8405f233ddf336bd417cbe71));
  (0xbeb331aeea8d8f6a963f90d691b8314be7457b4b3d7d8638870f37a78c0d26b, 0x4021ea41ed27340dc9632519c7c51733aea557caa93511d77b62f8591d83b8c6, 0x74943728f9810aafcab4d1525ea0cc381da2f78e1fdebd7960542688a5e284d6, ((-0xe19ed0faa781b3a4e96a9d52b1be7857c98405bcf7fffa373367383af03054f472f07cd33ae0a408b27a8edb870518cb64872b6184aaa614bb09ed3f7642a5e), (-0x235bc6bfd27b555ea711cabf2022f9a6e73a126560e469c84ab0504df716f0e2544fbf3cf2a51a6e8b734f4147006e10d0f903fe663647fe3c1e1b495cba5aa), 0xbd2289e3b1404c19d87f3819f4aabce10ab66d5aff9ba1f5e5bb7942e3fb1922));
  (0xab0a57c819193b83f013f97d5526e055f65484887804aea03631fdf77c35b153, 0xfe130722541abe58ee7a0999920645acb1bbfa94b45a89320470855fd6c0d15d, 0x87b83d5b5679af07c7ab0dee8a685f25f3aa407876e37a11dcf4f9fecf12a918, ((-0x955ca9ce0ef8197b3887560fd1105c9b13c71a9daeff71f6f682da53f57f7c84c06439787cac0c67f2a0b618bdad0412358f36e73436d448acd936853ad11ce), (-0x87c0fcfcce8107c8ddb0a250b17350c55e541fcf2c571aa046435bcfb2a156e5d78681988e1696f2ac3b31a57cf687f9e0cd98c06b332507e683b8718078c53), 0xba2fe46d2c5d7b51b913a4a48ff463eaeb6b1b5a84b1c91a5cddf4e524772464));
  (0x5dbc07acf8c53cca9945f3690301c51086dc8cb2a144e71b742891f6a901abca, 0xaa8945125cfc14339818c90e304929f3ded114873ff4429f66e8a9955cc81a09, 0x8e5b90d2366ecf317a6cd5a1e453295f9c743aabf19e120d35badc105de38543, ((-0x2b0e2068fc755a70d4917663e99610f2363e912f799197220fa124b2283b75f779622ebf59d4d2d54bed789059f79aeb7b2ae6c20f5b27ff5b7ed3f74b5183cf), (-0xb7fdcb22ac18b32b50f59069679de1b0ed840fb74522559b451b8377d27d6e2d4ccca81ba114822fb0b4d2341182bc63faf01a9bd5a00410634c81917e689d5), 0x289605cf0b20ab9b30ce7056c7cb1ff29ac9cfdb5ef7e68e399d3a509be1b9d2a));
  (0x461f4591871ce1f41df37a0d709e7deeb82c739f105e503da22970d9a3eb0a1d, 0x17e498e6a73bdf9f68ae7a8b868f2063bee4c170b0f9be7812249df82b73229f, 0x2440caede884b3d607dcb92916957076bc65b24e565dda55177f44402138a373, ((-0x1e4ff4c73fe4694777457dd95ed22e764914df71d5c1cc209ead979389cc9d20eaa0db3aa0d36751a18a4b83057916bd0c837744a362509de9c386400c3286c5), (-0xca6dece6ca3c8fd961a86eef5a06ce88d819549a57d0036b5e785bb69117f0596bde834d8d7d05ba910f469502633096c1ea95397ff14b3b574b8dc70b0a00c), 0x1c7575fd470584b3a2bbe83614b91b68c86c04fba081b275d2c499cae8054f0cb));
  (0xafdd9f388bf317e3c795b8b44d7b0fd742a680eaeb89947e994703ce64aad19d, 0x1e61ae8f8a43c56d88fb85cecddae5e3e9a3b3348914cd5ed19414ed044a1fe3, 0xb4c9c6bd0eec55dedb77e59057caf471c44341d8f819235e0acf47fe8ef5943, ((-0x114dedd840c3418dfd8d5f6e5eeab61b2d1df1e528897b24bb46c63b380c5227fbf4aa1234589b955da52f94bef581c54ea3afbc6aabcaf2db777819243107e), (-0xd20cb672374fa66f62bc947b649e161199629e698ae3bfbf4d97fd1d1f1e8c7ddedf77a0e18be5d275571b8fda66eaa58953bb8fee3686a8df19192d5d84a6), 0x257e0664b72e98113d7e8aeae87871462ac2d165e801e146ac44404d32a7c579));
  (0x13e755632498bf786ca5c1b81163c00ef3725fa12633a61df1d92e7fe2282b45, 0x121d91c10e1b015bfc6d6c41bb2277b33512076bce6702111a4ceaee86e6f35b, 0x33af34e568c449fbc1711cfe70446a23be56eb5e0291e46475b4e9e065633ed4, ((-0x6dbaaa1108a4bdac3c80ebe1f43327e051df17a4f6c42e1e5444a0ff169d3534779abc3382e2ccdf9c26e348aa6a23a70cfc88e4c56407e8eabc555852a86e), (-0x14679fa417533b0535dffe6b5fa4c1d00c93dedad841251ac539cd5b8b1add12266e0abdf675cc5f694c8c4f17d01ef5400cac0b4df6a1ce1887c0178fb1de), 0x14a05d7aa5751e14a9df94cbd9fb9b7d29db84e570dfbda0806abe4dc132a2c2));
  (0x78a88f93f1e7d35bf616de5a4c976fe29a264962eb5cb66c2c5376406c5dd0f0, 0x5c08bee3e9a0506020f30d57ed8b10d2108aed4173d11138e3d1a89ed55a9a89, 0x9a4175b23cf70cb9c2bccfd2de79eecc6748b19bbad3c3bfa6c2989702bf4eb1, ((-0x12b469f65d980a7d2a6787f2df6eb62a28be78d89ef0edde00a411f32df97ab50b908cad0621bb180421551dd948ac069dc48ecc71f188313440dda3b097001), (-0x1aaec963ed3b9bc21e3371f0d60974e9192bb792a6a36ff19c32d758ead44f400aeac0d969ae320118ab9c8d085b1ff7ed863b4f35e50b506974c0bb51acefd), 0x289f6b65d9436db307b68e687d145b03c616616070fbe52ec8ac4fced0e03760));
  (0xa7d4e6f5f63b2b1c5f92be25a82b48d4a29b271bfa83734c5a1d555d9d6606c9, 0xeebd78ed3828a02cad982090635c7dd172c9b426b7225a9ca6fc7b0c2393058c, 0x14074a0a26e114072795e26250b5668583783295dca380fdab751c4db178d9df, ((-0x11b9debc5b9dad94a4c289fa186f1645c64a57fe24d5f1cae9e540a366d3d75934a46b11dba38202ed09c4ce529f2e8a0288406577493bfb7a329080e1a985c1), (-0xedae4dde1ccfb621be7f98ddec885aceebe30b6e596a79af322e910dff1a4242be842d71ae51da52a9bcd3490b5fff6fd21de454d2f18e35fccdf6103d7fbf7), 0x1c95741d1590a8481026d573714f66ee5b59a2ddc4fc563b0ef2d857a4dc38d8b));
  (0x408a987bb68b15067529a7628f6b25f5ba134927a7b8de669175c030808e8d37, 0x98762f02b450ab3a292d0a7f53dcfe9c11e154c2951d9ab309b0690b189ea6df, 0xde6652a5d6abd32c5789e397120bc8c8cdf88aae542a615ebee363c0b1c1256e, ((-0x5f8649a0e8cdc601f7c00b14e76a6031ab2ce59a45e95c11654f970f75777f30c2911c1b6a4fd74bb7a53da099e73914fc0828ba632e30212a87a4db4feb462), (-0x401c39525a7e09c0ebf9524330c018427353d3733389a75f1859338f622305e1862d92bf49218a03c4ec4edbf91c11a3d6a04d7c3c70b148742daa5363815e), 0xfd9b1739769b93103d1c6dc066b4850fe479ab773753377779b2235f83b65bed));
  (0x978bae7fa159c4b368924e2ad2404b3a6fb9abc6b16daa6641dbf5a3455846e, 0xfb0da796175df5b567b61b9c12a470f5abbd4dcb3658d16c26c08146285d7fd8, 0x13c39f143a971756847bc343ff5aef879235f88c40cbd2b028d8d3aa8d4a6a51, ((-0x2a562f88729aa87e0bcc4923d9fd2b8bf077db6d3257c5cc4b030bba4c0da3ac3e6a51195a93ea76b272781a9af5df0063563b6ad3ed18129cf3e37f7f22e037), (-0x1ee0f7feab18f6dbb7900f7f6e1934f18899dcd4f32aa88d917239b5972319eeda2b05161c37a72ffd48809449cb59c4a4414eeaf9d382506277f69a7a9f72da), 0x30e9167b2e50d7a4f8943913c7d4f7b839425776909777296379549e2f7004100));
  (0x1e74e18e05f02e1b2dfac9689cd2bbb11dd8ca70c318eecf8aaed64b121dffb7, 0x92b295fd487d360715d99dbbef560c0938957598a5f21342dba97fdc5db1c380, 0xcf39e309f97e244633871af3683381ac1b53cd1cf465e6c430311151943e2ed1, ((-0x632027710a273520330b5b88dcae23fc538dffeaadd10627b6be96f1c43b6004479c462f72a56075bea8a3d0caf00404076c8236534d5c3ccc788e1b394e87d), (-0x3e6de11495640ca9fd18d39af501f5c40e66112ce37338580e83d536042d64cca5280930db6e0a316f12805691e107abf984b5fa9f9362632ee6386ade2cbd), 0xfc3e0a169a02bbdc02bc6b5927a3a7a4b3abdaa13389b5259efd4e49af23ba12));
  (0x7d025fed74a1dd0791ca3274c4c46dbe3f2a54d7c2d25c09c6e99a9ffffe9ad7, 0xd7f4c52619db16865e95593a479ef1d8ad857e9949329593790c95d6ebf68ea9, 0xbf47924381a1f61c6a3199103d2718085f5de803dea1d414e61f12a5c359b3b5, ((-0x25f4ef36f78aa3eef4448a9c512533e38aa6bc538a9416fc3e710d7b28705a79bf6f109db338900db456cb5e55f947ef91bbff95b6db65ed6174b1d9b68ae4fa), (-0x1acf1b5b5a08be3a8beca9eb710c58f9e4489572eed4435f285d995bb0b81c8d832b064d5ebe59896444dd7220dbcaa99e637ed09d3019389d87d96ee53dbae4), 0x27c9af94525a4f389d83d2b5d5b2bd122500f262bde5ee5554a44ed97ec24d304));
  (0x5642f1e5bfc72c44ccb7dc00a018f27e1484f6a68c9c7ea2406e71f6674a8e30, 0x5b8dcf33f39af1bf406ac255cb6121d9301d8e72acc0736efb45a388618b679b, 0xacca660ed60d4e10405981b5c72dd999e0783f2003afa49ef3cb8534b7e24df9, ((-0x3393b533a1061cc024e42925daa24071aad68e77a437547926143b3899bdc40c699f14f8ec63fd20c8e3364b8df186103ba3ec24ecc766e357c8e423500966d3), (-0x16d77ba49a26267557c8d41506a4e28e7384c52c2c533d6f4404d9653b84d44d13083e86a5676e0b195be30b79d9defe9d2ef7cf70b6d46d569da585e69d6b36), 0x31dc01f4943fee168eccede8e5957e36794db2e561d410d094ce6ef662786ea77));
  (0xf2894f8898323b20ada4cefa50116a88dc920f7a8dbba9a2dd6c5e38abf0d8d8, 0x86e923b0452b02265d361de59a3405d16c0f1febc1d4e8907cfb09647d0a023c, 0x9e4fe4093583c57719dcd0f9d786fa791604935747bebedb02e28c709a188381, ((-0x13c09ab9fd97a402fe12966eac7076d7821b1fe0de21df4a4ac74ed457bb6f217987453c12192b1c97ec075d819ddc4607fc8c8a7c7f44b0b1a62558be6d6436), (-0x12a3b046ffcdf6f096e1e8eb2574219c5f705c62864ea7580dc514474774dbb067bd89fed12cb2acf2e3a96e974881d59a2ae795d02e217cae350f3fc3716a53), 0x1f31246d4110111718a120ae923c43b018bb4199a1533ee5b60026f60be5bbdb5));
  (0x9b64ce5ec80503e3cbbb7a0fd296ab23465ff736d25f287d56c33b32b46359b3, 0x14110e33113c1108a5a6fcd98bc945752cd3a7565bf444934dca14dd20f392e, 0x49b75d44c97b326858f724c9dc585a65b81d3fad129b4ea263c217716177dd10, ((-0x1aaae0fe9948929f2b9e63f1492c6de3a730f4e30a77b695fc9f60a172e89ac1f3decea99240e3b692ce759f3aa8fa827b4466afc292aaa98fc9c5bbad058fa5), (-0xfa5875498eacc06be2353b8fc59835a4b4fb18f60d45bd519aeab374c673bee4d3a2a2e6901afa44600134e9f7cd654b7c219b17ad2a38a6adc4f0b16d2f1e7), 0x298c5e7f08c862742c4743df0c234c684d4ae847e423a8ec79937698bee63704d));
  (0xe9bb68366fb8990daa30a146ba33e57011dfd711996cb7e80370db4b790c0583, 0x84444c3496320abde1c9945b4d5d005c86bc00d95d5e27cd883479e859c65b8d, 0x6e895707448c1e92017db4191743534f4d4e1a7b95dc119a39db53bd6589c2ec, ((-0x1d8d2e8ae673b4d0476a72acdbc701240dd7691b6d3c580a591829617206cd801fd3feeba9cae1b48148ef3d586d1407df268f7cedcc1132a38bede51bbc66), (-0x3647a2b9a25f94cc3779887cbecaa5137ef4f712d3b111259d0beee1b37e34b1cac65bf05e73a797567026d82aa702d224f82b329712dfb275fe9bb7650d907), 0x992def4eed6b7b10743ba2406b7278234b00b95883b803febd148be2e25e1748));
  (0xa615f4eb8aa8eeae1727f6b530b61fb00666a70513cd88f5a48daaaaa6a35610, 0x69c476305d5b69d352fe71eeb858903bc96f6be1b4f2fc504f192e9ba428bd5b, 0x25772c617a8d6d31d3c44fdedcb349795ec2156022c3641c420d327e0c1b18c, ((-0x12413dcd50980b656812fe08490a7b9518d5d674576632b47429a9676ad72c64c5765318ceacc1496992b089ab56ff0d52fb834c7bc6ee0e2399732242adff91), (-0x7a0bbdf9ea085792d4d7406db0e0de20ab6eca09b97889f207f7fc8da796c34a1051b6c999640f83c6c9b23d3de7db07dda57fd31ad1705783a07b97e97192b), 0x19d5d4948ea37743ad69d60df3059214540c67b8c0b2f33e86f82b9c22625d3ab));
  (0x624e7827a05aacd6dc5834070c2efbca93830bb5b99e92d631993dcf4dcfd658, 0x355ae6ca3663d751b9803a9932a6cb8deb7685bba4e865d02ae3a67cacbf686c, 0x61172a2c5ba537b216c093ca01a58541255d4f56ba9fd6f0db302961bb6132a0, ((-0x4f29e1480b4137f99b992156c906e2f65f61081cd5ed69601899a4fd3ea0bed806312148158969d315df7aa00aac24b7d97591bd20c0db2821b286ee8ac990), (-0xe055886f051352eaeade338b29cbc432da8fca1197b52d08bbd1f31fa121909776481543d625836b3cd1e3494b0b166133c769116f2112978f61f0b91cdc), 0x2ecd0264b47759c2b42da0e27ff9a9ebfc8bd01da7dc428111345b80f668c517));
  (0x6215e2fb45794dbd78e9aac02ea3e53ec54cb83534353f5da17a4a57c8abfcf8, 0x614045b2d8143858b85275128a67e1ae9877cecc687beb3d640876b0b8a00168, 0x62a15999c479ad4894b293f58f0d6bb83c8919b07fe65a859bfb045fd70c79a, ((-0x677d30580d112a00b1263dd4f1c95838b71ee9559949b39ef0cbf736e062a39405c24d2cff2e4a8523a9c1482cbe73687f7a4d58280c7be547cb14484c42c48), (-0x5e28e33ccf170bf7c9bcc85bec99bf67f06f5a8861f17ca35d3c3816ed7a6fd233f5517259a9575e624cdcb7131db3d795a6b8cc1513be263a3c307ba0191d8), 0xc427b58dad728c2eeddf7844ef0b6be7befa7838e13a3f4f7216f704f9b1e00a));
  (0xdb611417d4f1b990ad3bf1f04af350be087e66a78bf1137ac1dfafb958600fd7, 0xca92241e800e255f9dc26e7f3f4c3a9a570c645916f5e5a56a420c4e37c0e7da, 0xa192d4048281ac619d5ae0ae486ac6c4a3df0ebcf6c1cd98fa783dedcb1067e4, ((-0xbf9f588d9c49ed5e508dfb5827bb637389d437ab50258fd8fd0df67faa36bce2ed1931716c5d76283b22441553073e41e8cf348e02d5208d6d68f2de3e9b09), (-0x612b85f30f6999a1273ba7463aec4bb319916898f66c626b7fa78beb6e994db71150c6185ea5dec92950c3ea52cde75ecbaaf5eeada636b421e90c3ae86da), 0x2a1d0b1f0fc675a94e9546dd55c761c8cbb72be70f20e4b870e4d7713ab62958));
  (0x730a9a856968c52f8f6bd455120011e46fc31a8b3c7c1b846752cff1b1f89266, 0x1b609230ba0d60556392dd5639c7620672826b477ba19d80d3e0cc266f4bdeac, 0x6f9b3bfa73ca62ef852fcb69d0e1bdbb25ad4aa27baec91b2e380268e4f6f656, ((-0x28dddcc64c73d45223ee317d953a7bad8245d792ff3224f09bf02daa6432082b66fdd02c845e2aabdfbbc654402c1e4d90e6cdf2454506b1707cd4bf05e80e3b), (-0x104c44d5af8abd54d98838211cc9d530b1673ca9b6ba3f0bc1f101eed40e87fab5de5af63ef0588448da1ac74bc90d6ad9054178e217e79c3b0025820793f440), 0x2e724be7e3ccbe664652181f35c3ced45eae5f582d8cc9f07221a6030b744ce8a));
  (0x1f2a4e1d2d24e37b87bd2187e37465f873f29d820303385607083fdfad718fe5, 0xb58ed752ae32d52ea94e98eb01da9f7a82cf519be8489f88ba42b50ba9391b70, 0xb416c21dee3f2ddb21be6cc712d047329ff444697c0202317d987db20969661c, ((-0x3d0a72f0e5d4de67a4bf632208ccdb16bc61092c07382ec7ed712432fd0d971b0c528be747af0f2ff4501deec2eeb1c49bebfc2b52ad2a4e16098dcfbf80d0f), (-0x7c6b7ec7a2b2ae55283fd23e5df27430118be430321ccc67e8c0cc8a9eb08a69919d44d70312651e2a08fbafb90c8d31af360b447bfa701a1b92639cadba164), 0xf9342e72a2aebd9b3aca2d1b633cac6230404a1f40ae159e1860d689af980f58));
  (0xdf73005022a9b4218b415e3b9f8d8aff1b923e381152355401702a615911abb4, 0x5c704bfaf726ef207acf28397d45c1f47ac4d1bad2c303fa658c854103e230e9, 0xceede737cb051125878d0ab0ca14ddddcd861f17044e3636f2fd12b410245467, ((-0x28d3261aad26175accacb1f808b06bb483c86600bac29c6720c90b058b1bf70ada4aa883cad1f669b203aa0f7ea019eb2cdbdc9c3fce7aad5b28268c206ceda5), (-0x143f4ab131fd902c82d4489519473a4496f85b5235eaa4f3a6c11f0bb6f135268eac7f01ccaafc31cefb2ef3618c0d75c60dc5850833253fc28e1d4f855134c7), 0x228ac5d929a6e97074e5c945ec1a6a71f441cc167e08bd53ba141eab5b6e0941f));
  (0x6a141c9a925f0d0b54be8a4547f61dad8722c7936dc97f1b8df50fef1aab03a5, 0x90f344fe8cd5110938c59d098ea0e19b16804e44f62b8cb99cdcadf6dd00c223, 0x3421bfa04a96d033f7235ead018ef6c819f73278f97ae4eb5e94f704f4054f2, ((-0x17e22b28dee699419b30939b7dd8b443cf43745a4a038a2184ffaf0d71075aafe20ff49813d7a5e56139cba89988a08ffa6a22ddb56db1e006062f9a268b4d91), (-0x1abb75f72d41a5934eba2f2c3106b6f1cdca2ea347f2f04ce1d7da71053942a8d2a3453146c15d6cb29ebb2e49dda6ad32305f021af349528f7da9718861d41c), 0x3806882901b5e6df22c5d083cd73cbf053feb5c74f143ecd6f54810203a9a91b6));
  (0xfdb4758b1611539fce37e5665244f60169a6fade56c66987d258206d5a16b0aa, 0x2cf8e35c14e450deb83757c89d8fd5a33810c44d04d0290fd11e6e284894925e, 0x7c4d92939b8044595e4beb4f7d6e7a6a521844a4661e06f34b9e17780eeb4a62, ((-0x96f5edd1923bd0710ec4177001efa4e2b7a338a87f8afc220ebcf4c08e7cfa166c9859350f9a1fe8c4aa4442247f498f62fbe4903b3f9c62aa1583a572f06b), (-0x1b2590f100ccf3dc851bd7f72d9f3ba4add9ef60196602623ea55a2ef51d2b3eaea070abe0e8c43351f53a2ff2e1e985818b14486bfce1571a262871f02b8), 0x54e5b03375bb60e3dc2f2fba74a0181bd2f485847e404c21f17f104aebebef59));
  (0x2b2733c949981e691689335690c6cd980b12df600be5714f4b6a39799a497be5, 0x1f7b1833ba7924794e0362f6017e35373a252c3dd98457d068ba19518406247b, 0x60670bdfaf87fd9eea7cd0cd9ba9c5711fb2a0be255093131c0ffee55e58117c, ((-0x6fad93d824c5200d72031d8f6d6e4f26c45e738f91f731a9891b84e7428668d6094d1d73c304f73b20d2e38c4b6c1580505e699c41046afe3ac350182977197), (-0x9a56bbd9708c42fc88f2ba6dc85a3494fb69d9e0c31ee7d873ba79895f9e1dbb152bfafb1baf417b19b51eada0af4b1609a8fa25b05a88a626921cd1a717d79), 0x1b358cb97ff86241635e9ad2a4c09d2bb212405abd54828bea82db400cdc0c444));
  (0xff9940d219d43b71bbf6d3b3be2cfd03e4cd2b7fc7f9ea02c3bf264e8626426b, 0xa0cb6a6716f73ca70ab31c20cc56fb896fc2f42d4250e21faa99853f9db35ac0, 0x3709dbe06e5ae289520abe7d49dba24f36f34efab85cc5db03285d01e7f7bc6a, ((-0x3ca0e22ee350a0fa4e34f1f623635c53d43cf09b6464509c0b097f2371d0008ac84d15467a09db86950e60ecda76eeeda46964669f8d816db2bf076ba2cfa76), (-0x5cd47e69dfca644c5910f5593f543b72a9179368b8c6dbc1a5a7f8f149824d448ca0eb370416835e51516668a96770f6c48297886f32aee9b3a7378a02ddd96), 0x91478697be1ebfaae0c74c3567fd8433f9f1a0db5d93bba5090e90f77e975d49));
  (0x9d97df59f3874fc4017ab61ba26fccb5f6a493511fd8a37d6f8653a09dbab6d9, 0xc738f133d1c00a97485dd3e3efcbc1243f6a7797e3fbe8f2668bc3fa22430752, 0x73cd2b028b08a3e2c883ef09ca5a257c60a3ab9730e61eb3fe597e26305fcf76, ((-0xb0cc8dc3b3a8005d9c601bf5edfbb9c624c9e5a384d3d23eb121f314cfc44e437ba7fd2c8b755db8b3c04289a078b3722ba7ee69103242dd843aa7bd8893ce0), (-0x1e4222c496fc63cdc98eaa02436861560b2e06d83ee821e57546148a95561f744acb1ced91fbe2bcc5dd0e558a52628b093d88568a990cbfad0fb17b77f8e42), 0xf66626e7d84df5669549cb684f7ff1f46b54336d6850311d9684164ed856832e));
  (0xfd06bc162528a943892372ae17c6e446dae81bfd2ce64b6b81e8ae1bf25a746c, 0xa4059463da1902ce158f3745abab67cf592b06197320b3696311895b5804fa58, 0x785a4f915a47efb3fd3f8a3e85f178586238bccee8c73bd2dedc0006c5f93124, ((-0x1cce2f023958987146346d02b4397f50d94ed3666d76bde3eae79591713941309e1499640a148cb3794c04fbd029cfdb347d9e517d22266de70a2dad80b4e73d), (-0x85f2f5eb3bb8e74db4d507b51c1257f9f2928096e214172a92c17d908c9f8974c7af1c7c4cac2bc93525ba4247ceaaab6660a8cf1bf10e95fb60add39e2aa08), 0x1c6c28bbc04dd3676d1b9d8f0f137f82289cf612d0a0d473877dfa59a12d9fda8));
  (0x3d75b7aeb61c094eb3612633764452f5194d0aef46063804bdedfc814638c8a7, 0xcdb3c71128ba5b9391cac0295476a0c79791a95ff90f8c90b2632873433d85e, 0x7a8a49c335cbfdd204726d3044ee5221918aee2a0076541364aa10348f4b167c, ((-0x18a5db1a34acb72e74fc56c0418a88e717a6194ae8bb90c4fad120c5609a1d06bf65e3bcac634e929beaf4e906c093c1f22cca89922b35162b06947dfc3c8ea9), (-0x90af672d5b7333a74be2d296e5a087c7457738a7a6124995c06ac9bde1e459270b56447d33502bae1649c2f1cadf00ba317b6241369b4fc811acc68f654cbf2), 0x200be5bf87f644d6eff6a08f0b0e75d2a286263888e4d7cb6a3f15cf1af3c9aac));
  (0xb361a4ebb121c5e1726d153585535817bb70004b5af1c9ba1e43db01b8ba69f9, 0x703c24b48de708040f49ab14a969b01af91dcc6bb400850dee7b5f2aaab998a3, 0x398d7c89c5a7e2d330143fcf3223e88059be0cf174bdf5f47ddf369bf90b281, ((-0x1f791c7bb5833890b8c7b3063efded1686401405c12cd61af2665aa6935b3c8d9c7e99059fcf5002ccb65b8974abcb3317b1588f4fb3cb516b64f25117910c8), (-0x95fe0538ee4c1e5c947a21fe1386cc873cbdc395e7dc9fec216d131b2fbb8b8b93ccf3bb6d5a97680503b11c497f41e6bb8e7c827b8acdf74b30b7ad9ea8e01), 0xeb742dd869bf70d94772ebc3c5697e82d21b09995bde43c1cf654cbb92003605));
  (0xb02d98065104bb6c7f437b4f199f16e26209e3ad1b2a6cc2ffd4f7fd31cdeb94, 0x49e6126cc5179d5815293539ea34d64e209dd93df6f990bbd5d51278e9e4480e, 0xd707636fc2e6fe51530ff771f81be6fc8b45192c61ba705e5e4cc711b70230be, ((-0x810b1499ff3d71eabd31ad5e65ea4fb8e3dedeb3b309bc391a84f6b5a865ed35759ba045e92e9410eed33d5e15e8131c13fde0b3874b6b76a230e6fa34cc6b), (-0x2115fd56ad615aec258a3fce268636812dd224c76113dbe6d4f8cc6e1598fd4030b76f4c77b689e556bba341b8bcdca978f7822a0d2bf80239208f4960e47), 0x3665fb66e88591ba31fcd926e44a468b44809118297c4eaa9c2245adb4463900));
  (0xa855321d459a1717be89956cc84139a25d62c7e034e51f7da57e2c0d0f86caff, 0x4aab4399ac41c7e0654950d247fda2c8f552ff19f6803e03015350b213bb56ae, 0x68cc8b39f7e1716344839e0f1ef274c8468944b3e2679c83d5bc41adf622ca95, ((-0x13d73388e143560a16c4e0c3ea568dcaf86eeda4c3810677fd620af9625351d5bf15bc82ec5a0813ca8b43d095e48c051c425f2b96391fc1ec3c86a505e103b9), (-0x1cddac87f267d4f687ac2ab828cbf907cd4894441f57e3961a25b9fabc95971c76595d9035516c68b3ce8ea333928afa433f57ab69df4ab8864c3083590d5a8e), 0x35b2401b57476196d7a730e1582750b804bf8f8539ec91bf78bb5cad24fda5315));
  (0xa85ab0a79c87e002e9ceabc5724af70a3f405e2672984818e1edc142fa73bc2c, 0x39d1356d38c607397f838ccb5e4859ad90c8389cdb3e8cab3a2f0b5e19d3f633, 0x1017117cc771d713d51b631497687f9f2937240e7e6889c1336d8a7c15f930d, ((-0x9c543259bf42d1d9126e1f68ae93a4dd249fcbc34c4afb6cb52c1581bea865fe4c46091b28d9bd5b4f2cb99351b426077e38df5800b3568d987829f3c445b71), (-0x6db474d8f62f6aa1e9fa9369043902be5f804423a4adc2b6450677e37022f54c02f8dc08a8c6a2e21192595dcf4fe441782e508e6b3832e2c8f90e1014c35da), 0x1204e2ae99d1dee826d3855a819275dbf22704dae9e47a05840803e16ff290bc8));
  (0x6eb22d836d32b881c4d0b92ada632f7f5e144c2a38290cbd4c01a28e647174f3, 0xfd0ec3d24af9aedd49a2942a3413d7270db6fc863c9efefa1ffaa05c716d5e16, 0x863cf2b7e7925fd91220e2bf1724a7ce905bda483aeac08368722c854d166bc, ((-0x1295b5d4a3b0093d47d9ffaae7a9d420fe4a77cb2bba709c3fe91b4bbf54f6ab9677554cf860f26b1f65eba4d2f9105edd906cc0fc8d6883ed4ae8a8a12b33), (-0x296049caea19bffefbce7de19bd20766b6e9eb325467c999b72bad180f96bbdd290c137b32b4b55b9a1a4b158b69d41fb50fa20f7d6aa6e86363ba499bf1), 0xe647845d21a9a45433cd8693d9ad0bc1d06655558f008d9c6a70d2e091be820));
  (0x7c616b705d314de65befd6eb75522a3f5eb50392da70c6b553e93602f2a22673, 0xa85474eeb8d2e787cf8421fbae3edcdce89b33682934642121629b4bef555144, 0xf2682d80fe8b116155f6ef053e5957fa309bfae35b411fe89b84dce8b8113629, ((-0x2a6a2de03fa0d147ff59443692c41995a4f93cc3f12cc235c96b30350239905cf226483b968b324d1fb2d85f07d84bdcbcce6a66b952150c4d94a6f240dc246), (-0xb3ff04536d83a3c8060e53491a3d7438f47f3d652c6192097bcd512a7798f4e8ac1f7950577eec5353aa6d0fa6626fb9fc1bd9d9d1cc5cd51e90d1a7bce40), 0x1023acf4faa1e76cd01f2bdc195f7b94441caf1bdf51e618790826514d58e952d));
  (0xe852eac949f30a7e04699702dd44d9430676b7e68b78860324cae8581c7849bf, 0x3443c59f6e1ba2fae8af19c1e5d7cfe33e7941bc4f87f9bcab7474e6f7e8b53c, 0x406d60bd36b04f19974f05c6497a6b1932a69e9f4407f48a3d5f599f83f3fcf3, ((-0x32f2b7d925af3bd518c937eb8bb5b68e3a1cf78b0cac2332562b316acc5282e9826918c9973bb65569b2770e520985c1fd145000ced0cd81a215d20b80979612), (-0x24af3795ccbf0e07f4771a73678f3bd6b267da7b2885a34943e7d71fdfea4bdd71284c08b1f982951a304392b6991c59f8a3295350752cc1b620ec889cb04df1), 0x40ad7c12049f26ee202c2381aeefc596c77be6a1d2524615d592fa11568db165a));
  (0xbb4be652ad6eb09fed45b60947400395791eb429d79fcc697d665b833c74c3b6, 0x37d1ac3aabce624284a6c5516cc111b6368df9481e2e55b83e4d5a5cd69fd808, 0xf1026538f7612320d91cd89e804a5918d91ba346af9df73fe36c683fbd9bcad3, ((-0x434511f6ad3fe2b06595f9a64fed7bf7cbf4c964f545b6a63c1235495b8912ae9f1b43f72d40a337f33d2eb761b329a74258daba8afd9e8731cb6fb5aa58693), (-0x29764acc84188bcd2523656e7d820098a008ec034e3d7ebdaab9e7ff47f7ad927fe8f2f18cd4acd0bf109e51238fec86a21bbdba059b6a3ce546c915e33f62d), 0xb040331f143e7dbc26f1846acf66edb717df40beb9adf1f9c11d02f3fca3f02e));
  (0x5aebf1eff3b805b018639ee7c16a13353680295fffe169716b8f189673b48d53, 0x796f9f0608d201d110ac77edd0a487312f906922aba240ab25e29afc0510ddf0, 0x781ac97bbd02663ee9b3a633be71c9c5581f47c1c07af3740112271017f9d5bf, ((-0x10cc1827fa85f7449969e85732d2ac89d0148a28e4e41860ba8bd62e532944ed825b1ee31d00669b551c07d08aea9430a924b420ed5842cf066c75abb766f581), (-0x24433d6cf206523c05a733086006539353a9df2f9e1325b5f3d5560394e47dbed1c54aaed4a7f374a6f0751648491f04c08fe4e7626752d5bcdbb3a754396635), 0x41584b48575d0cb4eb7f79636c4b733b1fdf9746aec079bcd1c55d434a16781c0));
  (0x96c976105aca259a435884efa8e65860bf0d1334ec858ea016af43ba2caf8f3b, 0x1c71702b384e0d70a83a650bc72c71f93db8185c439faff09a980bd97d02d1e9, 0xfe9805a1ef2cca411ec496a1c32dc85f5558b0db8ff0c7b684ee5fea3aa25e4e, ((-0x1235f730f9558e332eb7bbb791bc43b0c42949150cd6147b0c7a60b246b2b8929d0a104c391f39895b8c097571958242e102334af979389bdf907785c1bec34e), (-0x9016d3b9245a39b0f22cc5a4c86b009ac393afeeb1b4b3cbc237e40b280247b92c1b92d321805796985c639b1ba7219cd6143176cc62f37e0f5f2a5c5d15804), 0x137f64df15d2aed4c2097d034e43768386a1e25bc5851557881443749f61ceff1));
  (0x1a9379ffd0b78625a06804d6ced7d419780021a535123cd038f0bc2bcccb00ab, 0xc57f2d1664939c379fa641b156d9d891e7deeb948bb5cd16eb05bf39c9cfdf31, 0x247f8d653fac03d57db9ac8dd9d840f837707a36d4d6bed25bf29b901537be5e, ((-0x90aa8787fd21711807252b3647dbbeaea6a7d12e04aee017320b8dd294336cdc64360e5fb78cdb5cd6b8f91dae79cdae04400a1ce3896961cd17476e801bf3a), (-0x28773b40fa42f437c542654d9a41d7c27d3cd40cd664956b8e2c80129eb6499d0c866e1e0326b99828cb7b89e3c4e4027a53cd311ab6af02d5049cd43de38c9d), 0x426a9ef5530bb756c2a28fd1ff6ba45544b8bc64dfc547ba7fa2e6f63ec3ebd0d));
  (0xadeb88de1ca8de4539b2158300d450fd0bfd96f01d13d6d0c0fd9bbd9b49a740, 0x17ab2276256fbfc9c504698a91e35c974d7f4662b19a365d6c4cb5f5a03771fb, 0x3df565c76f2b91313acb2dcf8165b0f2451b795268078efaec1da2f61a7c1090, ((-0x9000f70948acbbe83fc4f07da1d69f893f2cb2ef57289630873cf0709ff89dc4efbc2b74d541d982ab27eb204df3d3610a3144ee2eee1f895cdad6b4cbcd945), (-0xd4e66d755fdce6f773692d33b237a21e275820db637154383c291d378970817fb6378fd8ef75c7eef1cc507c549c82da1450f3b1ad860b8b4e361ce3ac83a3), 0xaf8d4e879a62f3219de533db994fc111eef6f66e2e113980f65a2aa41140580f));
  (0xb1605883bce06a5773b94c4c68c12b77c2c22e8ccf30914828457a9cc5418a51, 0x8001984d6b0de70de1bfef9b4e3495dc73f53f5f1fb8cf2fc8e986a50c763e0f, 0x96cde5e70d919a3f4b3d018e6155335a7f6458924fef43723047d5c9bd4fc1df, ((-0x1d4bdf4dd129638cb5ffa356c52d422d47f2df08c46309f84b8ca964231b98aa425b11d86f703fe4aa8d1fb6e90ef170611acee69a7b5d5f191c969a4f4208f), (-0x265874b8aff7342c42a72e5026aba5a1822ed3a677f19b22f041ed84758d0fb5634fad3971877917392977ff5051e31c4cc44e48a72b12ea2b05ef548028591), 0x835c7a287e1c8f9105750af86f831a0abe95005ada829d3cf7a8191cfd3b1ac6));
  (0x5f5cc0815d54c2fc9e8802db3205f2976d2b42efce5b13bac5a73d55c8fa9b18, 0x7d2da7b688628d244f248b86e0ded8955a750fd3168239563a1e2f859fc63a71, 0xd86bd0d7a076605398aa1eccc7b31045a990f829925fd4a8d8ac426f2bf3cad3, ((-0x181a4dd66acf81ba503fb400cc142b713a0b6eb08f47aca56d6a2da5667626f2e6fe35fbf249ffe5e11f68b2cd7c4319fc25562644207c58c98064cbd8c8ef03), (-0xe329f074eb262a0b65d9ccaa9c148a24b3c5386a0890ef360b91772d3c19794419756cc9c63b4a9fbdcaa78be438c1a5331162b47ff59b5ca3b5040e2ddb820), 0x21b7d9fff165b7b8edc311196dd30c839e5c77c012a904bbc78c5985d8afd6a11));
  (0x2b1a0ff18ffa7baed8132a092b86c3251283f4ff098dc1ed46645eff5d18e578, 0xe33fe611174368e7811d762a39ca21428f6d70ee50c24746ae5928d594c4a526, 0x3110444cc04ab9d537d3011507d205d67d1611ae3d3759eec762b045b5a58bd, ((-0x21d37502f173d273700f1e60af890ef72a2be7139f372ad6e591c8c4616cdcae659aa36eff708c478d417cfc39956ffc8245595bb9bcbee31cc611d4b8c79296), (-0x1d3dadc81d92ec9e3c9ce22bd95948c632f55a8194180fd7a083726479e68c284fd5fc1710eb1ad1da32a9a97965c6c903aa36b09720848241b309ff3193d611), 0x30354cf669892685be40132ab7c7053412b9883d640775ccb0b378e6b91fe6b91));
  (0x5c38ed569a27a0ce428ebffd80c4c87317937daae76f641e261f1d7efea8d8cb, 0x4d095f47b643ea273ee2a698a4fc67a378473a776126cca52e4367afbcba65b6, 0xe6eae926b92310ebe79222ec8df91ece980a602de1cf44d50a34e55493d3144e, ((-0xdebe2cdef4b20d25e8d72bd23aaf5357511e060f4beeb62c739ad6a2c389e7cd5fa90d23c38ac06406c9c8073345e774cd842a7778820f7747337928f2e961), (-0x180b968b1411813a7e76e117af614786f38ba2de7c02de1bb3fcad919b02c08b956a04b328c2cafbcfa534bcdf21f1406378e29954e2f9fd97d20cc81ea93), 0xcadeeeed71c50c9debbbf35e4c18a850a9aa4d1ad98d95dd0858e7ff75404cdf));
  (0xdbe890fa8832b76fc8d13e10373aea1fa8ef28ba2631da24b486ed073f9c934a, 0x525aa475f0317e48f01074ffc079de86703eb29b8002f61df57a308f28cec8c8, 0x125dd37aae48f92711fa2b6e5e9a533002b2f9a3539bbdf3498f2471c6070c02, ((-0x16361ea698067fb895ebb077ae1d3a7b750dc018a4a82b1e42c5cf54c84cef690cb73c2540e99510f92ed89a955a5f35e6cf375f2dbf927059f7fdc530da8a77), (-0x214a1605314a1fd2091716978a1c854c4d0e2c05723c76c4064dccfb685abd776c52c22a6dcd59e83b4159aa121e81795a861f7e9353606c4b9a63118cd6f908), 0x32e6f05b3199e9552417e9b5892dee531b3c7878301e47ded6e49792a452f439e));
  (0x543cd1d6c4831095a68b1c7c4bbb60672cdd3ad282048af3e568da8c947546a6, 0xcbcb393d66483339e04f720881c397afdd5318f3d6f59aac31fb5ced1623eff0, 0x8d79277674200ae36b07409c0ddc8262ec1378c20dea9302e4b4a0956d4f6e76, ((-0x1e3796eebf34f98ae5c5e4a50ed438b281fe572b23c1f30999367819add2bc5d42003eb936dbc51a68e7f77af77cde88ec62dffaca18d964e538b382bc39f5e), (-0x35e974e685ff7b3af7e6f2a91b00932b8c0e338a29048abc67f48ad165cf37c98a711788f27e59de069c0f9abfda530403e0ebc535498bbbb1f9f73ee7b2c4), 0x3e00148650bfd2a4ebc14c177d6d6325142d585bb0aaf86316c4f1f6b9a48502));
  (0x67f4db035c89a71b9f9662be986a29d72819b7191b0f5a94d45516847cb58287, 0xfc9cd16c29d146a38e6d72031ae3339acdfe9ff24dcf0e7daa1be1db831e9a21, 0xbb2033098d052ddf51b22b05c398dc3d5372e25237cb5decee7787086c2aa0af, ((-0x23ffacf147a749ebea75359a7630a3947ab23ebc3d890c54458a6e928b5f3478ecad831d01998d781d0cd2c771fcd0eadd104c9b0f9e916f9846330efc0a295d), (-0xc7ec0577ee25203bafe8bfd965a66fab4e7e530b16d6e35aa00587c9b702b202b9dcfffc6dfb3a5c9045e02ca3dd517cde88ce3dfd0eecadd889e291bd2b973), 0x1e9e2b526fc202f2ab0405c08b440c2155c2934cd5dc6eb3b5d8c97358ae7fb7b));
  (0xa9787eab0cdac5ddbd887dffbc6e98c7c12bb2bdc2a4272e574d5807822dcbdf, 0x17c7b942abdc543d958544304be342aac640b39338d58c634db70c2e17041099, 0xefb8e853cec5416f226a806010a5eb3014dd31c36d85b9d74ba1b468f4516e38, ((-0x3b058238246645b74368c340681a590a173a1fc264157c41f1d43f06e86b5bc70876875c1d9ed4fe08ceb71d35600448558b4943d090e3c64abca4120b15e718), (-0x15dc4645fe94dff53661251085551c5b35d4c180a431e39efb70dcb02336b02543e4cbf2bccb7d9253832835cc0ff3508754a91bf7f5cf3f1e9c31f6aa6e2e1c), 0x32b9726d741dbb53e952cff7a00e1130958236312e1f08c081ceed4903f56da82));
  (0x82b7408964c1ec68c42105d4e19269456d4f83b885662ec354c52925eb4fcc34, 0xfde6890658958e872d9dd159f1b530a287edb8cb60e15122b6fd4880b1af0c5c, 0xef19aecf9ef11f256e48c0c768a59621d103c083dc4379f5c5b1479ce154b955, ((-0x71e2781ccc25b194001c3d8f0c1e1057b61ad12706b63bc688039a4f5a59147fb97f2c9b6dccf8a24354b101dd516d635727173662ccf88fed02b74137edc3d), (-0x23e05aa8d5c96d73a2c50e40258e56d26c390e79c4b6e42dbd2cf464a7a5354dd580ff3c8e9e3371d8e73022a26a6317daa27fa0d3f6da414d2bf7d981a7d842), 0x3e109a2841132b9ddfa9b8123cb1fbf9627151254f5e3e11942c8771b6671e394));
  (0x7c321e8df674c38bd2d51c4a875e83c1f708b1959a96563e6d535d19f755bc16, 0x1f3b9dd20c0366f7160dabb42a1ce2f1dadddf92ba322fe172e72665ec459e65, 0x4515d574ff2843f2767fe5093ca81bbc8a05594e2cfa3ad9254323f80977c3a8, ((-0x4bcca32caab590e88953d057243433404adb6c4f5a7b6b86594d06b3bfbed70a6ee4e1c7c16e879b92d73f51090772e9879676751b189f2c09111f014892f9b2), (-0x23b0c1e7a0196f500fecd648d8bca943ab5f07aa7ffe22de50e5fbb4ccdb9e7d2f2796f8ddbedde5849fc9b4593214cb6d02c24a27c7dc08d7e25250c0420d88), 0x48df0c437b53b27aded048bec7e7c9fef07e0ec9fd828f8196ef1c8f938fa5d65));
  (0xead86f5edf251bc7a7fac22702ffa265d84aaccdf0083effd743cc325f3d1db4, 0x48e5463413cf3b9074422e28b65176dc21a127f9b77304253ccc4fb7254f959a, 0x7d9242a0b1ea04d9d678c9897204ce2a3cbee65478ffe4f1e0b4a13822a4c8e7, ((-0x2b1b2d5aae30f257a89172e579fbb0cb36cb5894e0343b3099818b5f712e1488b711ef7dfa5fb824c424928348eb3e4770ff960dd174cb282c33c8b5ed29b80), (-0x2fac94eb0351abb03a3426ce37f351a9b2c5087df1114eb6dacd374b893ac003a0c503ec38a71e8f39945c59a6396f218e0b70dffa791a083e3d03f0480a4b2), 0x7ec606b34df44ffcb51d7e8b8f5fb0dbc0c3580bc807317a931516419d81796e));
  (0x4057aced38da8cbecec39f68f97d552774b59d00a7a57e892e885de8e89a9f8d, 0x22939b98eff3494adac94277d1997dcf41c209404d0498d77feb5ce91283ab02, 0x7718c0c70e94c96724e169d01ff5db0cdd0cad0547295c87b8f5fa89ea4f326b, ((-0xb6ddc3bba39225660c05a4399c5c51d96a602ebb95468ccb75d6bb548c886b482733c6b3591e0748adc00dc9fbd5a94b99f4c1ae9041f4eab09f622a03f367f), (-0x9d81222eda1a9d36d87571fd8fd3d570ed84501ee7b162706097d79cba0fea9d46525f40d3a93ce8d5192ee15d468465eb9eee01d13ac4dad3fab55ac05be6f), 0x1b3edf498c32630c7576ee90f013c3c53b4120aee7b6fa06940882a3a579c759c));
  (0xabdf916aad4945ba13e5d275fb3fa37ce969df33e03ec36924c4332c3a0a7962, 0x4fe0d374f5e4e291435041bfc49eab31e3f04aa47fa37d5b4b36f7cb180d3e03, 0xae97be920abca300f42d6a1ee3e2eba60b1b07cfbdf33d4535cb40aff5225241, ((-0x524441785c50e2e5bbb0612167c3741f43098b81d93010a8e7b58d328c6ecc669d899db664c3e45b8cfa1afab2f56786c968ccf8e2ba722cd9c3696e88fce83), (-0x8dae4cbb632e4225f0bdeb10c848bd267e109c548172bd21c74008ce135747776d43e14b968cfc5599510c929bd8ca4211f4298ac8b7f9401d1f6c9072ce0fa), 0xe6c18f677335f504dd883c055f357b1af8a1a8758df0d4581e0a661cd6584834));
  (0xeecbef66e46a3e6d02e96312a7f6b4e82c5803fb786fd8753f6b4ac43724d486, 0xb0087f280e20d081eb7479ac9517c5c88f4ef664a3d05211cbad1f631d75e69, 0xe5b88b61a315006c2e65b1c781fe495542eb6cc89454d267a7f8414ee63b1136, ((-0x1169c1c863e528461dbc579e1f9203950bff74cfc1b926fe71f353236ac76961a1221cce25b030b68c835cbbd7269e39b2d7b3cbb896bedb4ea003782f6a090c), (-0x1307bdaeb8a071e1c529862f646567fc1b3f564aba33e651fd1690649ce9fbd02683566304d45f8e44d453d0d89df54e3bc99977317c595a8d789caa00677a62), 0x26894164886994844cc3d668cc36baaaf2511959816b7b567fe7de4c5e0b613e6));
  (0x20c7456f8a86d7f3f1b1b5957006faf2570e18e866629908f94e3a77c60ab9ca, 0x7d5b1e6b4876d970445dd0134c6fc3e6630b5bf9aef801279745b8725e90960f, 0x3ee8817cc6609a324c78057705dc49285ebe42e3f5bb1b25d423a55dde1777a6, ((-0x327dc7e572bb242385c9f11ad44f742333e2df02ed51b7f2d82848a131fbee975041cc63e1c662a048db08ecf5d68434db094e55af126c62f15b2f2274876b6), (-0x20f1fb8841de402e9f7d2e5474573f364811ad188a410c89f4663df5c21f46bdc5f9a71a903255d6f5e986a0c883f2426d0ecbb1dcaaadd2165ee77c70543455), 0x417753a610e104e874ba7d48d2a8b888c27fe29c7e3e135bb8bd58d3f273c15e1));
  (0xd71a856d91bc5f6ca57062273391fdcaf86ea2281c96ccf79b7b02e3bf646bd8, 0xe02d88790bf1bf7d9b0b180fcdab12326c1ee68043c348677a1fdec0104ce649, 0x67256ef00560c6f23c96fb4be39d54680f3cadcbe536ac6220e6393e805d19f8, ((-0x9d8a8b2cbc82933734fdce8ddd197de249874923e578a9c42885cde484161443f1963495bd26d4a35cd23367649fbb6fc6ceb6731fd11b73ab76588889995f0), (-0x2787ad2773cd7e4147b91a972346884001b9931ab3325f1d746007a3cd19a282a95d387bc656c57b1a8cefcdef90d82ccf3b92f7a52d3db79ad2879d8ab3c93), 0x7bde81c6b8d47b254f5f0a14c528b42c58f7e5a51911d3f5ea04e4d3eb598833));
  (0xad726f6208717a0b30fe40ff0af14763ef5879ee0d0ad06efbd4a91bbebc6ae3, 0x168111cf2330d2a3863a7d54cf1dadc10b89e6164dba884839e4c6e08fd9f465, 0x1436a3eed2e58f657c461e885336e5cf89608226e4e52a3656efae6741dd5018, ((-0x1cdf142201f36799acdec7b811e78af1af3f74a667d5018401a33da1b079fb4a4530281bd3f8026f6db823b3c87c4365fa68012786b927d183289bf0ce33be0d), (-0x6a459b5c1a799fd8ee8b80274456efc88a08f810647ff0655e9f0ec22a90dc1e42d4fa4f04dbbc7ae9f9a184b291a0630336fdf08b6f04030bf5856536a365b), 0x1ee5364a11a42ef2f0a347db81b2d111e73e1041b3243b41430f735162a55cc07));
  (0x6dcba8901b79ec80ae7080848e2d2f1511713da7c11da4eac49aea6987c98297, 0x6bc1a4df821bf2d1e15e03beaacb27192bcfcd49dc69d97ee565561c92e46f06, 0xff67bfd315708a24b1c9991c06960ece68c4b45702dabe930ec2162787638f33, ((-0x91667623c8497cc7fe90e455cc9e15223cf9baa29bf168d8124511fa3a828c04dbd11eb662eb17e674370e7ecb78d8280f8cd494e940ebbffe168e8cd0a2e2), (-0x414cc2f01fdc731135967d1669c5050eaf8dd285664dc417691a672816c887bc326206dad9533b7baf42ea78f2d80e8ee4e83d4e136404be8b4c84a04dae28), 0x22281bc8ff51b111345dec7fbe029fb17afa08f9f1c181ebe148ae34654bee0a));
  (0xb20e435b46d15f93184b20a38a018eb5e1b65dc2320701ee14be51c0389425e7, 0x2baf2c23a7459dd4d007acc65584f1b2eb996c3e55820b2a78c57a2c6fe5c654, 0xef5777affb47482fa2be083725feea43cd12e6372a0132701879540b19cfd98e, ((-0x225d00fb357a3e46f561168b91cdd4ef0fa1f6deef60a0b4d1878f698f6c700334ca2da4497b2c17eb52c2da38367d6d7bf17eb498cb4f2981f3b0bd25980dbe), (-0x28b95eba7e6fd0a58010ed2a41cbb0829764ed0466e72705f0b8ec277ca16b19d3ddea91be8bd06e2ddebad7c5a56d3a02a2119dd97d46c70e331db4d8817a61), 0x404dfb923e01493b2e56982ff3e2fbfb4cba0e683fe26a8339635690d3f5cdec5));
  (0xc3f51bf7fc70c59a96a3c17e7916fedfee656614d2e6f5bdad97c80ae9b9e6a5, 0xca52fec01937b0dc5249e5df3bbcc19680b3985b587e65e7928db3bc868c4ca3, 0xbb3991b7b02e98eabd29a010f691ac4146409964fa2091b782e9b457c9a94be, ((-0xd0dfd6b738c48575598f75eef29471e750d998fdf0729b3a10fd26c76c4de27745faff9e27ef5f9dbb983cd2c1d878675ead0f0a47cd48aed8392d3bd755d3c), (-0x23c3364087afef8b9b793721081d1794eb283b777c81796d8b5e30b3a6fa611c2c8540cb12040b8a84d97ad8fdc09d1a19e5fa51a76dc7b0a2b2793732a447f9), 0x3f3b1ecc10e7054ae83b1e534b5ef63361dbb9e4f29deb16d71f509d208ecbe9e));
  (0xdce790e8caa02190c60696dad24ca4ef09ed9f7cefbf1d8352ebcc52a34e3578, 0xf1c85086c98aaf4a68235b3bbda9708ac6d5c7882feae688d8f9910c32e47cff, 0x977ed7936256fdbbc631c93937bb5b1538de89fd64452fe11c60f9a9d4badfca, ((-0x2f4c054c6eb78505872be93993589db7b447836827766f570f1f908af13fee919d115a4a193f79c1cee10886c9dddcaea63d2cdcbfe8238547a9e89d90e11c5), (-0x15e2341efcc36570a06fe05f86cf2757f6c0856eccb2d5d556f295fa9947d8eb5b47df0e6c9c9ce892c8701db092283b23b29d9b632d868e35d4f5ff1a9daf), 0xb36bdff903711a57f6689dccc727eb27d7e824d3c2ee26e50cc92f13fd4fd409));
  (0xad2f41712c631f1bee3f4dff3d6c7c655dae9a2be9ead2a80bad28c62e94ec9, 0xc07e92f96b6a4af57759e5af155bb8ff1d023814f6fde0a9d022a8bf52865e6c, 0x44a9846de85362839ee49550c274dca4f38ab82bba7ea269e59ff9e339bababa, ((-0x2dbc18717e88f7128f83a3a1b9b798be0ed131fbabfa7aec807b659ac36f793cf9fc2ef4910e9e52040d1deb9a0a15727741768967f9572b19cf76e81de8a773), (-0xe5403d5dfdf9d39071ce187df76cea2d799864204d4b6cec911bbafb80c90989deebce1ed7e3df9d3c8cd64a3baeab6b8df65457a9d8113d3ea81fe953a717c), 0x2f6c37cc9994a34c5314fbcc0c4796aa8669fd5d202e0ea1fe17aa65ac00aa12d));
  (0x3ec3cef0968078ab9476ab24e680830096e35eabe08256a7afee771abd522b9c, 0x8f285f1bff70515e4f89b180fa48396e4e46e4b35343e6204d87fbb9b70c363d, 0x573ce4226cf929fe49c44bf19e3bf5602f030d566158585108b33a6e05d3423c, ((-0x1080b73f27596216eb34cfb3ac6c6906175eeebb416bd85c53df629f4a9c4ed0ce63cb0fb37fb3dd7fc09a16bf3704619a9bd3e21ee4344693aa5320d2629865), (-0x2f178bcca6e5dfb3b6c1ffaf3b56739f3f28ea86fa116af525a1986f27b2dcd7c2bb12fe90f0a580fc8378881792897f65000582f66bd780ebb46b2f59f647f), 0xcdcbfe40d36373369c5d7384807615e4d208d4805d5191a1ed6cf05102e8c72c));
  (0xf4a8a7f8a5334b0480b09d5b0e0f10dd548582e3d03bd49b8b93693cfe16cd07, 0x6cc0530a8b0414aeb622e83f5f975f845a2df742f0760895f1bdaf650a5ecfec, 0x5dfb8ec5557ffe533eaaa8d7854a35bb3e0fd4403fffb2415d991f528aa3e5c8, ((-0xf97eaa8a782b290a6511edff4d6ddcbb86188b3c39ec06917eb857efdfaaba0fdf7742cfd81f3c8e8a552ff1b81fb6167d2627150aff72f0a61e8384103b2c1), (-0x4c04d8997dfdf90b57e7a82fc6481dc2d149e720c1904a525642f58beacbceab74694f35ebdfb1f24e784bc5a86127f4f5cfb218680b3a413d8d65f0b17a704), 0xd404678f8d1f98c4f6f6fa62714b4224a44d2c6138a9652da65d743353243fef));
  (0x770f022a93574f5a12f8c9babe84bae2be51eeb073429026302122f570ae7ef2, 0xb5853fd76efc23599b564665338aed19f9943a8988e91510e24cd3c774349ee4, 0xe8b17e01993a611dd9b829dc292cfce9f7b05e13e950687643b4e83b2a95c8a5, ((-0xcc2f5a7da9882b1c62f6f075034539393435b2606f939e7dd2d896face9ba7398041ce54f27790541ea0bbb5924ec932e3f8b6b89e35af8c1d7e745e74600ff), (-0x583a6780c25aa7fecf2f6af420d05572418aa49f782d0d16e6ac51a7566a400c8392c69bf911b44b499f3a685c00fd5fc2d3f437202ad45a6d38e96ee1f5984), 0x149586afd2072f1602425f1b644fcdd829f9b785947f60b74ba83a3d6ce3f2165));
  (0x5d612f3ac9b5af7f75c562d14745332fe1ff37020515775202f6f86515f9dbcb, 0x2ef578f8eace6f2cb8181c266814f2620e1934fa40422c9639710013e63ac07a, 0x6fa1c78e276085b1046ea94a81540509eefaa76ea3b2168e61d7a05338daf526, ((-0x34bd2b611df9d67f5c48ae96192829ab241f82d29d69a1c30732975ec6b97947c8870fa86443ada84d224e5d035f53315041abbd4bf7d7db8f35b9e693b948c1), (-0x21cda7f75f20a21f24e9e378ba14096972d6c4f897bd281d4306326523700eaecfdb4ee647198b1aafc6aff2497b3c6b8c4a31632ec2934b17edb0dea51aed33), 0x3d3ac8bdf6ef62034f0713f76f3123689803052cd7f5e27c16da9c9aea0a24717));
  (0x8bfb32935626056c5d632e926035619e0e92a8c4656f1df0aebaeafe98195651, 0xff3005759c175991d7d35863efd860cb344d5453fa828ebfa334f9798ddce709, 0x2155fcefad434f9b2d9711d260e54c76d399ddb9a753fd6b696a1bc91b32507a, ((-0x68b9742a1d8c1fa2d439737e952fcecf5b935a37dc7a80218d179b99a098667e9cf50ced2bfdece84a072e1c81ec3a9bb986cfb55767bf8c8ad46226187f480), (-0x7c7a171b7b96d770c337f9b3a5f011570a67fc6b0af273b2b0735fb9f5d9d65c1ad0b2e0216452d46422d34d389b174f7929a5343a4c7247f661d29b08be5ef), 0xec16837ffc6e29936f4a598ac7ce16aaf072946d8fe9052e2b0cb56d022a0326));
  (0xc1331da67f5c430ae94c57666e05308bf697ecdd3c491895d456720f4ec588ea, 0x6e938d57b20f3d702319e42db607ce72d50c1daa05530104d204c45ed9aa796e, 0xee199dbf95c65b8876f3caa21b6239a2e700b27b7eb6a79a5717a2efa56a8fed, ((-0xa9f26b8bc25e2bb137ae86b75f766348d2a2a6fe49d55c3e730e029174c9de4ea7a99bc2e50070dabe6d75ee58019356d27eb59bca76272dbc19287b74dd3bb), (-0xb19af44092ef2b7997b88f32b29b1161effeef14ea8a3dc871a0bdcc2369f39137b8c2f7c640c863f96190bbdb5fb45a000af340143a4e012b423a049d2954), 0x12fdb58a0f6644a64bd01c66119f8c0a541ebc49884852fcbbf36e0f668d6fdfc));
  (0xc5b17246211115d1e19b077b7aaf91438701e3a95f4e547dfe91967aa93ad63c, 0x8511fc5ef45b2d6f819ea9c1f5d1d71922ce758d83ec5d27aeb1e5cc2c9907ab, 0x1d517f55e106b149a5452f7f2ca69517799c64c2fcee6cd78ad9690d617b404f, ((-0x20df925acef11a4a64cec56a0c5ac3118ca204f3d71d86e10dd76dff943a09a3d6a37966ba75fdfbe0ffe5bf4376c368f71975d200b10c8e424b1f07562199e4), (-0x236478a77f2483a338ebebb43b388c5171b54b1bf4cda5feeb9e226a659f6304be5abe986170deeb63738191ec504534afba52394832d180b4a6d92802409526), 0x42f7fc35faca4bb01bb2f16d7a57cfad544d5f0c08a3618ecb98bb450cdc1438c));
  (0x4dfbe87767363d6856c34019f442e2c22dfdc4b61ee95e9119c5b1ba49137f20, 0x5bb063ede253aaddf0df07da38cf9e6b286d65f79556c92b536ada449d182bc4, 0x80f7b28e6072d94215c24310f70c3b3061ae635abeacf1d68a02a9729672688e, ((-0x4df0ba0e805b339104f81b01bc547c846cae75ddc7984ba558b43dca2a461448c05c0df0112dae4bba5a59e98f740bc3c6d0ceb9c41c526f8d50efd25cb22b2), (-0x8960400ce43df94619299022b3d96dd7e6f556151b1a1e5d02c4a1561774e2b5ed75bf8d5812dc6c00952ad8b2ae12337024e71307a623ce4891124b3c354f), 0x7c8676b96475f5eb55004979c09a698ef2fff9ecb8ef2a8cc291413642869a2a));
  (0xe36c2f2f54de082441e73e0d5abb0698b3aa8f97c2188eabb234fec9261ffd93, 0x7345c73a8359c5f70379af85be5f6fee61d48aa8458d2415945ae5d78cb67b8e, 0x4c0f07453dc147a77839d3e9fbc540bb085e944abdc4bc92516ab3a4e7c4c3ce, ((-0xec3b851964f0a17ab205e57b81f099080d391d0a5be97067b9a9ad0ccc6ce83b6a0c1162b2d5fbb7619b76b2996062b437c601c13588e2a784fb5d52011af1d), (-0xa623b3f9071b13172544dd03f1e9adbf9f2241bd39683438a54c17ee5447212b528c55ba960b2010184fbc153ac022e9c9bc7b71ecb02caa31e11789db44336), 0x13253989a2da42cebab5aca55322ad928bcebfe2c8d3d234a80a06e4f8e9b41f2));
  (0x7915c11607385354f08683eda19439232476a1031a964bc7a884f1941f35ce7b, 0x842e1677b541a981274d5e340aadeda29dd4f3f31dea35a9b50853f14044dc1f, 0x22ac4240f5ae194e0d36749205a195e00154c916a820522050723152985cc95b, ((-0xaf27135f60d5d5c322806d1a1212c9d4e2846528835b9ef10d2cd3b5b1a6a85d34543d4df382b35b26e80b1c3efd20aef1a158d5f7b6a94b9ce74a73e4c11d6), (-0x39c8c5f3586e03283b7e9d608644dc473d33acb90d3bbb835222e45969861cef02666512ea9b02175b22312bed066f260e42fc5a0c76146e4125073c16b9701), 0xfed57b3a08f44ce3e9610dafbdf902887e029efa922be0387f1087372c568eb7));
  (0x72ba9e52320388b2a67756a84940530ebd9a7bbd349a2fb4e48f8e717668c3f6, 0x3ba0b0fb389057e0cbf05a28e91ad8624bc7330eb2f41dcb9528e9e1805c0b2d, 0xdc4796ca365f964450ad47737a2c2e56e5a3a5f341504280fd1e1cb701c9fd66, ((-0x5b8eeb58b731eaf61b4e38c5d469c3b518cad79f3cfc8727de60fbc2438c9eaac38e3fc635328e2260f389b41fab5312c250acf1d49b6114481e40ded469565), (-0xc02328038a1cda28a9fb8925231b7024f5a0dc3bf6949311e1b81c82a8613a44a286b9bc5265b91e1c5adb813015e5bc154b6b9f80617ccc6a035f4cee5fa0), 0x7322eb31027f45db21240adb364e2881bea039f15830e9f2257497ac75cead28));
  (0xf3c77ab3601ef25bd6f3bdc6caac36949908cc72665e9788779edf18cf249cbf, 0x40ed2976ac77b35ad780035023f01fcc7f3433aa44a2f78347241e73bffa449d, 0x1037db1073c0a850042e4ca19bc03ca42d33d9b4bdccbe9d7f4d26c999b2d324, ((-0x106667564436a1f564df115d11884d32a617a8ecff895076cf68a7d04bb299319191992a3caa8d53b0a0aeec8bf287e49124e8a1a8d0635eb492cb93f4c9f251), (-0x1e4afa0e6421742571f766b98ab361e16cd9194af34414495e60f1056e290de17a989e41f025e8297d0ea40e94231cb24a36df4958d02f260ff63ed580f36f47), 0x30bf5becf340de57b12a4b98eaaa9800de95358b80afa3dc124ff87a96ac53b47));
  (0x5f155282a9cac774fab1a6c1fc56aca8d8e4700799b7e32e0f1e7c8a62183182, 0x48f35b2a8bb17ba8d28e6e048be653301b7e55f40d0476e2e4602b591627dab3, 0x4fe0fb5c6d5385bf77aec3bed2b98b4a6c2a14f0861abb6938373fb7b60c3227, ((-0x15093eab1218a7fcaf71d365aa0d6b1eceb0b78fb092d01294345f8315f675812eab84b4b7121d5e1fcc1454e48fed3f8800490bb2d1c24ee01ec8d8b65f007), (-0x2a0996310de17abd076612bbeedf39d0c3f8ea7975caf04adce68f9f8202e188f0fbfda8a21937b2a6d7438bb3d9f4340358e80ad9454ea6d872a6a21fdddb), 0x326fd76adc84b83e065090c822466576f96a7295e1af3da32568a57e7a1c62f6));
  (0x25fede19263bc41d9951bab3dc627bc16ef15e07b1013530a9490314aa1001d0, 0x75e0e85286aa254762af9953bbad96369d9ab31c64d15ce4b1798e61080ee12c, 0xca679315968316cd91357eea748bdbf8e350be8fae79d137ececa9ee235bf6da, ((-0x7469cb123fc7964cfee1a2a4de980290837e4167a66d49a5b3efcf91ff9cd2a641bf540a0e0ee97d804be8e5365a2cf945221887900d70b456ba7cabc4f9ef6), (-0x3fbc0e74e3a147244ce4c10057ad79a62f223c67373b303e392dd8cb056c68b1fa4642cb1aad86f568a73a46e1f1873b0dbce7062f85641824b2b4b070d62db), 0x9ae5f627ea9604b459c27908f681ca129e5e67c62494bd00d35c81b99aa4fa42));
  (0xc76ce22ea011f65b46e463dd5513f02b16a631a618f0c8df9fb256ebc42c5810, 0x4b10dac768ff2898b611d5f81887711f990145348cbbd04e66d507dfd6f37fe4, 0xeb9c3b5186ad0194e4331e652136bc4ed5f993bc6aed03c7a3b4a6b9a8b91cf9, ((-0x1dca5a4605eddd8387bec7b5ce0ad9fd7ce950bb30ae92ccf0874dc707bf87bda9604452c5c8303486b61afd70511423d41455ba6ed77ab327d44e52ae1d3d20), (-0x1993744a6a96254c21068e47c31d5f4b061358a2ca372ca90d3400618690bac25ed74652aee9cd164bc1b6af09530b0b58baaa2b90035fdebdec2dd9daf6f340), 0x252732945ed2563ba6cc7aae3de8991ac23cf5278f89f109de472c025d630d23d));
  (0xa4a7d15b1192a589caa87044372b15d19e0e9452ad52636c809d71823766b1f1, 0x6d6d46316477378f5968e6aff49fcd672d7c84d3e7c03d9f10cf008dcdc607e6, 0xa332245237ac3135a650d43bceca601c37795545b23898b58378e82d2780bb73, ((-0x1615407cec96e3f358cdd6637ebb0f34031a7dbdb9c635a4b41d06270050309ba13732fff8154fac9e6e9b283e984c3bcc86011b65ae0779bfb0df1ce98d85f7), (-0x22a7f93b2fe691002bc9ab4599f5f9ec63a87c87a7aa0ad5be230963568a00a9f16ca66ca3f3c8d311df6a83896eeb16fb0ab7b76c0eedac2bdec12ccc9e090f), 0x40fa0ce7185d1378c5f09c3512a84f638f2b688be3bcefc2deff65be33aa1aab0));
  (0xb69e7b912eadc6d1da905ee2abeacbe1f492f96eaef2940e74486ce9d20457d6, 0x97cbafe9df3ce576ba2e2420875ac76b2ba0d375026b8315a4e8e218ce9d3671, 0x684c7323b3c272e9abb982fcb1a6eff4bd6ce50b1c7b844e31df072adaa27a8b, ((-0x164c248b03bb5807692a2a2e1d838817318eb67a8743933f9dcd4944064eee854debffada5405343ad94a4c9bf077daa7b50fed4e83da83f5a948819eb1662df), (-0x10a07993be61d419f14c871a1ce2b966c3a8a7908923fd01cbcd76cd833453e87a1393da60346ebd781817a98f6ce5111d46261a777d58d65f538f520fbbfc7c), 0x238cf1d86901ef0f026b38952386c17aabe88694a69b0b84d84aed992069e8266));
  (0x9b9dd9b21740e8a3027c9cf33c301d626dc9336e4561e1c3e6e8d1e9d483f97e, 0xdddf265e5e7afab8e6dd3a741f096258d5293265a63f5a17e1b857fd3bffaac4, 0xc06935d5865519af8bc97d7129d29e46dee7715f543414712c1655a4f50e84b8, ((-0x13c492bc0ec8f18404d0ab91eb3615b476c1691cbb186ffd50a7bad672ac6cc82d6f5428258485154b32bb829859041e95ae104a6a9426fd9186415c26383ae4), (-0x6ca8ea685c8633fda881ed1011e116ccb4568bb385312154b346d100380de451e28ea2a31a553ee0766bef9e58fc651d7757cc3da3571eab44af6e2a0f777cf), 0x16e4a5f81297d78db1a8f5ddc16308a94ca323ad564f5e51919158e9543daf608));
  (0xb42342ccf79dc5c774ec889cc727e7bfddcc7703694a792f0bf65a162347b55c, 0x6721517bfdc974ab67e97526c8c78695d805584aeeeeec7409ca8e501b4bb96d, 0xbea01a484b457fbd7cd334a8dad2be8df981bc7fc123fdd6695f538a303a3c19, ((-0x354da062674a7cbaf741a80a2a85741170e4065b8d807d16a50153128ce7934efe1ade043d8bd8b94498ae6e80e81a391aac1ede3bbcb2a887523f4bc974db68), (-0x171cdcbdef2591bab179ee127ff3becc42bf352997d1868837a7ab1179c116251320cd6c96102e094a35bd4915f591e7cf1384dbb0a878c08a88815a3ccbc403), 0x35c11ae394e61c680e0a9dfa5a774efa30979685b800439ad856795913c45f429));
  (0x24e35bc71c56149ea1e496bbea64ec2a569527abb3b6da272da59f20177063a2, 0xfcbee20657916e7a4cb1f574ecfa5bc43d3ca84be4fbab20f0298465ec25d0fe, 0x36aa6e5eaafcda93168eebb2373e2dbe9a0e219a1c467691b42bcac894b5e2e9, ((-0x188be262a3e6b493cb35cd95eb8e5e5aee10927b0c12da4c0af8e9d68ab5bc304a677042e0f31e64f0ae61ef397ecb969f84969d8a9f147e28bc09d7656c41f0), (-0x16af8e00334636d09cff7d8a5c2321a0cebb1321c3b8f82b34ca24badd92b485f61d77a7373ed673f1beaf21218cf2b581b0454eb006b40c8ab485aa6c8f4855), 0x2dfa79d8fef444aec236eb716172a318327996a49520365cd153b34623f856f35));
  (0x21f0d7c36737deb3c98c77df2a12b29382ce123a85f08cb33ae5584356475e3f, 0xe61934afe486efbe4d6361b1a86ec2c246a08d75c0473bf2473efa086f614813, 0xf11b16b3d2cad13fd1bb36cd26927c6e93159f8b3a2ff267d6b469da3918bae3, ((-0x11405262fda2493d079998242e68761f1ab8704dc1093bbedf28131093882a19dabe03f2283a7bdc40154df17542bbf9c60bd5607e1047eb9e9c5b527bcc0571), (-0x1dd990ab5d798ea161c4a34f5d624dccceb53f4b6a845021ff6b24aaa4279db557c7fcf7b24e70c2aa8b7ea16325898021b7b7787dd7fade003d78a64f540b6), 0x12c4e6be2a18afc13352e30ef15e1f8877fad2a68d045900bb11de47e5bacf1c8));
  (0x4c355429495e53e74a14d8e4b4ac74597750eeb9c1da027ca22ce4cb760506f0, 0xe05bd88013684e51db5288393c7dd2459be6e375ee5d1b70486b9b2b0b7e9023, 0x7fb137d02fe0d23eb26cf38c2828349ff67d263b9e3f6ca059cc1e12ead8912c, ((-0x454509e555ba31cf772dc359d13a1524cab7cf4635e835fe9ec24981f6a1b1736ad62fc2753960c3c3b23707a0f8eaee4103fb07afa5298cf926f1101275935b), (-0x244aac161a1fa261e23ff37080bd7c3c0f8511cc66bd848a08000359f0fcb1856bc30fbffcb8cc7bf941ded7717a1c070e04fd1fa55de23362aee86011d83f62), 0x3b7fbfd10b7a36774143dec5e3d7a55775b2b483138b12be46faae55051d7402e));
  (0x54dde8645253ac27e09470f65be11c21a99f568f9a1b20c60c07ceb0765370c6, 0x52b55100d878b0efa38b8b434f36d0f677dbb3b56de33cb11849bbd2c748715, 0xe0863c348613f99611d615cbed1a61b68f40d338960c40880b429b532c4459f3, ((-0x23c55748a86098ba81466d68fb945464322a1bb33d9a60780bae7b282091ea64ffc50bd4d2893bfc064efc9292c099f94032307462aef18e8af4de7fb22885a2), (-0xa2deb3ed5f6dbfd39607d03922844325b37df07faa1146bb20d48058e3401a7335981f47f06f308d8a3c3544ccb702d494092bcd00122eb42b30068f2b4b4f3), 0x1cfbb387c25ba145328c02af2a94387ada6a2c62cd0c2c78fa1c0e9b2085a13fa));
  (0xd28008be93c62a6f90678a9d2d311c401f4932231e905651e6ab8179526d7a0e, 0x7dafeac253351d1a6e7e1652adb359c1183d6ea0bafce7666e206f7325e2edfc, 0x421c83d71ae99e0a68f5d0efabb47f222d2d4bd89a4f82b0a9a58f92b34399a0, ((-0x172fbae805dd5646d2cc0ebd9f0a606131f23deccd6151f88bb8167856b08e228e11bb9426a3f3d7f96f9885d4cabd288d4bef6a26de12c577811a1f0686a9c), (-0x1f78ba4c1b4d9710e1d8e010cfa8e6a39ba33b9d640d355c49b87940df2f24ad8e316db86c2f4f8726a207a2ee84ed20f52fa50a26e8bea190451a6ad59b970f), 0x2e3b99ed1e454aba2508f7c5e372aca57ce198adb06b291f9d454701bd6da1808));
  (0xd74429aef63f6e56659edab0dcddeea73acac6c10fa18fe8a470a61d2f2b6f88, 0x6e98993a22fefe6b7cbe9103f25574796cc97e649f4184788bd097991493e28c, 0xd5d1d75e923b2a47b2eefa8592bce9b81cf16cb07bc70a4bb5b9550e39c4fcd5, ((-0xa600173b27b4f138f5d72008d55cdea1dc5b8313aaa1485fc9de115b992c60f5d4da4f07790d487a2e8a9152de6a666484133ab69a5a5b5ae08a78ad629203c), (-0x2ba875dd1d54f19306e15f03a0c1c152c6421f4bbca4d72e7546555c7067d2a2b6674f3dcba276beaea025eb29f3ed36dc39cb5c0675685bd5f89b6539e4204), 0xdda652f27480cf90bce72286ee30f2163d59d781dd63f4fe941ee50065b53345));
  (0x1774e0c3d81b3bc88fd703d5dbf7f72de51e99f761cbcaf0bd8a48ac5d4a86f2, 0xfa727d1388e11e1e8b9e8ed279623c5743c9e62c7ec36f50d06db8165eb4b063, 0xba2e4871e62129de3e93c7ae2d03729ccc6da9391b1390e0fb460370c67a948d, ((-0x1d86bca63255ba155fbe090af54ba69c93fae1b638ff398dd482d3dfbf13b282668b95ac28c7b6191dce3d46deaf13e9c39b65f0402cdaf4879ebc38e29efee6), (-0x1c8acc946c0c8dbfb33e29d759cea14f2a1f411b4c591735c8de9e7ead34d2439b0f62c21856f15693c7a9e078ea2798b7af30c66a747619b3085b3b2b8ad98a), 0x3af2468b2ec3ea51974051e6552430be01e5897e753200ce7118b6c64a987a402));
  (0xff5dafe0b7578b20d91637fb71e22018d5a2082c589075c86b33c3b8524bebd4, 0x6fea4256bc3906553bb4eb04dc01763829600730462ebf995144490b800f826e, 0x8909357645ee4d34288a3eb59db47d2571c4fe730dca6a55101870d64475f085, ((-0x3a3857fa401db054a76833d990a444951d9ce3ba034b1fb0aae86c3e93c30cf3e66bef3dd7e5905659741b3d0f39b6e71e36fc5db48a6e12cb9cf4d189e665e6), (-0x15a3e5126f91de8256fd16238193189edec331485d02f1a190c57842875424d5d4d8d8e79946a0eb008f56d79de21c38d2c2551181008746033daa9291327ddd), 0x2ad57fe4f50e9103b26146daa9e83ec28913b0b0c0a9765d7e947ebe90b2732ad));
  (0xe52067f312ff820dedb863bfdee0b66dda815369c5c46f3b1b345ec058c476c0, 0x9557790007b17966e1eaa5ce3af37d223a15ce5a5c6286b097eca50b0a28cd70, 0x88f2f779e08546fb41681debf86c3bcd483b1e6ef776dcfbaf106cd364d32400, ((-0x1326219b2a75327063c3033349ad8d7f6b4f2040353cd0d34b4c10a292468667767d602ae499d8a5050b56765308fe9f85d0263daac929820a4d52fc1ae36b2c), (-0xbb93dd024bcad216dcbcaebd30d6465a25482b86341ffb2d4993ed203a1097d61568d40ed4321d750fef2591dbcb76be905b03592ef4701b59515e2116d5449), 0x21e62340c7d16c45c92774281d469933b630c6684a9310de6543695a5a1ffc329));
  (0xd1fb2310740c94d83633e3d744e115babf3439f93728463a09c15d9e26adaef6, 0x494f5f65ea6d165246310f977bd4b7519177e56de2b6f260248e6bed1ea03dd5, 0x4285fe1091caea09fd8b8d4ae8297352f7651e78344779e265335dc921644ea5, ((-0x19895a8111962fe5246141dd6aa1524de6bb3cca3bcf19faf6104ccc9a0ac77421902f986f28037c82a602965259464f7006a01776fba7e06aa1584d21f9610a), (-0xbb56fdddad81e2f73f5e70fe1de7e4f87e2ff006b43938729cb58d1ac154f098d5e98ae24ab4c5224233c1bd54ec1c127f85b5f0467267a5720e9d7e07daa2b), 0x2280d741417bbcfa7c387ce97dd8116228cd533784dbb3b435e6f86b57071bda5));
  (0x2651414bd8d5d9d9d75063c386f6fcb6c281130c6a4fab0f1fcd8fea2db7e5ba, 0xddf94990707f79319faffb55a0138f99d1da2fc637b935332e34983fe0fd0fef, 0x398204366e6ec1dbcd37aa55f25ecaac42de0dc0aacd123c4b5c5bd2bf5c2b57, ((-0x616d5687901ad09ea37950974d79ecbcbb08d5657c08850e92019a6e06d1dbb16ffbb53844a58c0a47e0676cde229b3390f2457f3575ca1e1fb326297de9ed4), (-0x2c3433f86c33db35eba2bf3cfe07eb55645a6af9d7674d36104fa461eaadd9862b7d41cb64c225fe5ae91451a17393c0f9ed813be5dd26e2f90a03e962f8008), 0xb5fbc23cdacfecb109636c52825d901451d064e6d6413326770d2a137248a3f7));
  (0xf12064689e96c3e9eabd470cbebfffe3e3030d9715952f299a88603726f71a50, 0xbca9655547cf36fbadc1833713086f6a629666e330a17eb299a07aeb65e596af, 0xa2f41a0d86ff1e79304dbe22cc34563acd04903b99529dfa5cba6c01b010c2ac, ((-0xff0499e040c0f5015c5714256c4b7ee421087ce945610f2a64a1b89f7a8fc8489f529f182d497f146f33819c60748165c8ee47258fd21f57febc549b85e795e), (-0x2108ce94f76423cc545a89423e05c62b9d567c2579b72f68fd02219b2a54c6ff419fc8574021fd966d4278db609a4d0d2cf40234433f8013d8c5eabd3284bb0), 0xf870ee5b055997b4f5466770598aab8b7fefbacd43cf7983184f2fe86d373a6c));
  (0xcbde0284a100d66a36db2d638fcc2f4a88c25b4e9c523555dad65675adbf7972, 0x9729e498f2f0e7d89e5753b40457b7bd52680fe180d0daf70f46e6a1e221439f, 0xd79220ea5daccc9490a2e737eb147f172ded615908d452c7a4b78bb4a0b47bc2, ((-0x2662bc47f0aa2f5860c9f0ccd64617612e4546d307ef08cfb5fb8eec2d64cf9ebb290dd477f611395adacd12c375cc283f5eab64a950f4b3ab28e3881dce8396), (-0x1093d7b82e8ceecfb89efea23513b4b23e593cdb36bfd328ca638aecbd350283885bc56395b0299c6d7645f51c722a153cb9722fbed8caa2e434a4fa41044f89), 0x2f52fa0076b612dc2760584bf20fdd9a88934898c49769d58d01ad4693664e9f1));
  (0x2da1e8ae1abc1c5678210709a73364388d2d623d82b65d31815c090e70750a69, 0x8e1c48f5c4c20c25be686c53a38a968b5374b489a1df401b7dd5885e1d8cb0a1, 0xd1e3b26dd5ef13547418134a7bf6c3682cc952397ac72d7f0ef2e3f4c3bd4187, ((-0x28aff4637edef102ff843d5d3eb0cf82bd958e385436d8deed910d368f3e6a833f4c6b652803e35f2e1e6708b83e6b47fe2110070fc08e7bbc90948cbc4261a7), (-0x1d02f86d0e0418d6286ecb3866b3074622ae509b513b4590a7a6ee83437979fb7fbe94f50d0efa5ebb1fb1ffb1811a83f82dc3e9afd8311d206f489c9dcc04a3), 0x3d12e6c875d002541d0a55b037adc846b2d768e0102ac21a58ed8954a9bbf0af2));
  (0x209239733a4f6942e2936fc12861d5a35727a8f3e98de63f13b1ed9253c9edd6, 0xa9cd3c571f32c6607737cf4aa38ae343e181c7db673cae45073a01288747ee5d, 0x1e55d1e9acdc658c55d462d85487ee494acf281bfe342a3b7caede8560bb689d, ((-0x253e12c3c4f9cb43e5d93235ec6c98e03b070ca4c50a8d6d167ea4660cc12112cbbfcc24ed58174c4ebee2265d92bdaf41a0885236a0bd0415134db20f8e65f1), (-0x1b80a735f3f062a2cb5443f19c0e534aab62e93bec69d5e1dabfaa96272a28936eb87633b61bcbf528b8c08803d3e9bd4b8fa5a8cae62cc70f2d97514f8993fc), 0x29df7aa565252af1ddfe0f19de88495fd192c26bcfac7ab5280590c8768add70b));
  (0x23d164413c0cd9387c73677fcddbb40f57e19ffc50e8a649ec722d27dfbbe987, 0x476a9f5e7095b0a51903c5071524bfd83349592fc108ba6d6290aae0abaa6430, 0xffba9da7b1d52456b494d050ecedc1ea45c21861b424f55a2db06d79e696edcc, ((-0x66e75bb6723939cfa016958bab873c2a09d7f433efdd0210f7aa605f46c223e2c3136590945032935124f232aa99a515792627254eba2b86f433b89c6575507), (-0x9312205f538b8ac624817b9cf575a87d9e0403e5f7b2f22b4fe8cf04dbb8e146b92ae6382afeaf167f0e7949697b2d89195097b8428d5d89e816d78bbd2397), 0x832168181da979723168255bd6dc1a84cb01df4c413ce7338a319323ad2676ac));
  (0x1cdb0ae81818c4a708d513344a4447f42823b3c90c359eb5a95e44b025620a9c, 0x75e5b89b53c17e3facf10622d473b65890573968c225d023f9bee608598457f, 0x2057e7cee023b812472d446d939cdfcacc2ddc5f1fdae448235496ce27822de5, ((-0x16cdadd8b55a53c994fa40d6c0aead60674f7a28992aadf3534a578de6feb3e205d16cbd22fc9f18aa474d11a4e3e2b488f0f8861886ff8cb274294535ef4d15), (-0x28d3d00fb5bc20d1b52c92385951491dea1ee7b3690e0f3e5a929552867984d4c4350ef89ee74126b4c6de827ad4e50b23b8ec76f257d7a8607f65122d9d89f1), 0x359db994827379f9ab6b2ad3dca231d91ac23717cfaf7f8ce9c64e6f1c89e700d));
  (0xa6233ac8a8b195e0f6df5a4a7e5a4275567199285d87a407f2644a2cea94c99c, 0xd111a54a3f44a453bb0d56c39d2381961aa753cb64a0c5b9dbb40d9c06d3b667, 0x975aecd262e0bff64c09aff14ccfb8129cf76bbd0bf606deea47224f65ccc0df, ((-0x4c2da48e291ff4d3c345af88287cb7cf42f3d33a1418cf0de8eaf36747bcdd75f9d1ed2e2e4ede8bd375303cf57dcaeeb8041a60137792797d028893e49172), (-0xa72fe19027b625db0af28012de74ed94881fadd1f85a0deeebea9c78743875bd37b4d020771d43e6cef221a741b4119ebcbea9d6b066f814f87d6399b4b568), 0x13c3280f9fafe7d5c781749df58dd3c5a81a8b1493897ee8b4a953f1ee224c3b));
  (0xa7788df4cd2ea268a2202cc1cd9fc96802f26643906221677b10cb8463f8dcfb, 0x8573f5ca227820ef76ebd990d035f05b64a3eab2f9c103b0e329ab48174b29eb, 0x461ee546073f976b2643030f491db12d71acb25d07b57fe7fa5783c9a0c868b4, ((-0x27829889704e979f4cecb582283c4afca99053cb360f2ce2f261eef4cf9aac3c3b8d73c98ba229e68f3edfe712355c074f5a9e734a28f2fdcf662ffbd6c6379f), (-0xe4d39647f1926696acfb8c4d925670a8e0621c32df12a9b76e5fec8a4f59b373d2065d5de88a229380f8d873e067c09b293aa342bf47baddcce53e58ca11ea0), 0x27ba68f9fd71cbcf00d84506ded8cd2116fd0163777a654e2a0d7fb3e96a0c6b8));
  (0xf490e3139adc9e72686606a6b43a0395358824e868960ebd0bdf783202f80a02, 0xc8bf8eefb202aae49b04bd8aa8a2df441fb72d0cb96b1c7657d57c7aa1d6b8d5, 0xb3744b7ca5dd23773fc8bebd72f24ae76efc9b1fb7861920216a36a32fb6cb36, ((-0xbaf22d0ef7674900a9b4d35a2c4eb17f88d77c5e6de308d3a26fb8eaf25933f439de3ee20619886a6b50ad7609e27f72f5e16d8acc03dfa5c1ddb4ae370b92f), (-0x311d26241d6579990095e175bf6ab7663f01739a95953c08e5abfcbb0f3e8b86e239e060152a946c2e1fcf7eee8ec9b56477d0da0b664bf0dc190ed554fbcb5), 0xdaeec71e96729445656cfb7683b9a87f3b787645d0339a2bfdd3e0f3413cc0d5));
  (0xac905a0260701e2750078e6031193384f184d6405bbdd78fd0ed8a785f619b5f, 0x496bb0bafb1a8f3488fdca71cabee3e34d06e1d340873e6f4e4461e13a110ab0, 0x1623fffbec2f97d5c754405692b53fa1c51239f1d5da70d47423601fd3fe6960, ((-0x2cfb1774d3073a9609dc57088c78089e5f327ef863050f569ef8faa5e200c7ffc02053f4046bd0326039e0528e0d0d50a135b022306f510cec4a09452fe8c151), (-0x141ad32cf6db526713faaa2db817779c6c4b467cd8e3e99ae8f7ecffa059e4a7402e076a36328977940bcb9ede34f39dd09d8ccd69eaff6f90442789abb7a5cc), 0x36db032f53d79e964aac2b01e547460cf90cb45798b371aff2e799c1a96d01523));
  (0x71c22c318d7bd03314cb8485f03f921f4bd08561e26e1be825514be67ef0ba85, 0x1e7242d52f2ac12f6284701515f273c676d60e361a80a3a502e5e54be23cd135, 0x7956107805c928af5b85f34f502a06d57ad4024dd3054ff375b4c2c9dbdcc31f, ((-0x20799d902bd1f6090dcfbd91735a594c5cb7ad5f9e136784a2074e0d2a6fc855712ff3427da2e449d381fb238e3d48412f78cc238cfda4561c0974d588406bc), (-0x4e5854968f6ec641f7e961b8637adccf22054b1c929c4c78429139e406fd3396710f3235d585f5d4a7a8da2f12a88c20b8a4e71a79378c9fa7accf3b177d6b), 0x38a68f522e8841f3d5e7786126d35bd1da3648875d1e1306e7a68ebc993e68df));
  (0xfd126bfca91bc0c81859df6c4c94b67be2989db464389bb980dba4fbf5d51b39, 0xaf5e88a48dc1a221fe854e4ad04eff70057f870164bbea57da2abf1e0413e194, 0x5750238e124a84b3392f84edc09834cee3ce8b920dca9055ea95d630992dc8b7, ((-0x49cd44886390ca5b1ee01a7b72816cf5a03000dd18469f8a9224baef2a9027ae30bc5761fa48a48e9b05333c52b764ba3d88d2b7313fc32daf4ac1f351586fe), (-0x930f2e0d6e770679c0acf92eda3ee8d189d432f2696ad7c54cab3d8b0badc39dda0a9a5a20fa99564c4676267bd41e7e40fd550b55e4472a8e49ee67e02ba2d), 0x11bfc6f0bb99af9039ecd49e228b2c300c191c38f4c0e544df90c6dafb851b045));
  (0x6b77acbb18f7658df9a6a11c9f2d656eebef72aa262679a4ea95a0e4c6fa93c4, 0x29e4472a8a9322a468b254c35fa38ff356124f75bd8df6d615ed48a2d4ae7468, 0xfdc770bd1295b642039fdfd21faf6865a0c85761311a6b5ec6f825d197caea34, ((-0x131e57c2dc019a0c86991e3cc366bb40e8131b26f3321b0d1ab9635ac7c646300c27e8ddb1cdde9812e7e6d1ab8251b9af628997136aaaad32042470a4ee04a5), (-0x4c2667cb04f81b844779077372677bbaed4882278159e7ef280b4604a2abf3638f3f4b00755df6fd9996cfebb361502303b789ed546a6e64d57ddbfb2132045), 0x17e1a0cb2ab2a35e9258ad9b2a62df50d081c686cd142dbca80cea52cccb018b3));
  (0x766558330b73bfb98f20ba5837aee503f20deb49b8f5069a71d68586633a0531, 0xf7c5fd19e45d6c1420d74bb910c24d26b4a0c898c0d4576d583e58ddb389beb3, 0xdf45e4636a615b57dfbcb990c1f4ab450bb87b3face444a63c71c67bc3e186a8, ((-0xd462c9f9aa2b9740ea0c6a6857e40484bde70fef25b23f6f61710a1a0d0f0d59b3ac893dbc32a9a612b1ab4524d821978fdb0d6476bbed56d4740df491d261f), (-0x2835085b5a3821fec8f61caa868c0fda6e4d2822bc642d249ca0575059c45e1cfbc8a92d80ad31722fd1f8091dfab8821bf1f8382138cb5f5d99f9f675640e9d), 0x3cea85920a14669090732ea8e8a1013c93d97b31ff991c46a034a1098635b7518));
  (0x6b116a4e4ceb7fdf5ab7ffeaa4b3d3054b893bce843ee7c2cdf584bb9e5943e2, 0x3e0e12b65416d49c9f5fc7614c35e11822291628cc97397985bb20bf175023c2, 0x67d2653586f3719ffded3e1081efd14bea3c5cc79a18d67248d511824619e3d2, ((-0x4512dddaba9d2b1c4538cac4e413175fc1fb33e8f1e82e1129d51eb3d068ff640bde637cc649155fcfa38ad7db00531cd06abac09a8eed9f320f9b185d571baf), (-0x1f1f2c47fa653c82f6e2c214710ab04e975681f5847ca2cb78068ca4d6bdabc9acca0ffea5afde66274ca8de7141df7b3ebcd8bb94aae8e6ff7b8cc9371478d4), 0x406856204caacd820bbd931da99f814d4d46f02523a1cfb58afe36ea3cc50ab99));
  (0x2dd92f7f21999eaa653fbeb1bac65e1322daab5d2aa966ee05565fd23cd7df13, 0xebe687a5798154d4b432990804abc0347e317c302e1ecdcb8506d13afa354867, 0x14471b5d3d122afff2ddd7bbefc57d371a654464e577f5272e4e69a0b24a335a, ((-0x80b55efca6a1f21c2abe9b7268d187f80c07143131fcaa4d4af8821adbb48d721666e99b89941f1d94bd4718c5cd9316f790494b7d826cf5b38c16213739919), (-0x6bab2e495df2bd19bee9537e55eb2079228ba0ab9b2bcf451ada4b591a45a7959d6b6a211a5588339c7f2ed54134b6c510e64163c636a37ff7bfc735427e1ed), 0xe433c1af03d944266c50c6d84c1e6774b79634268e67f93b19718a711fcb20c2));
  (0x76c10058322ccfcecf63b180902b7653fe30356abc500ad94505c418869b8e57, 0xd5bcaea45316d9201fd2e9506cc0abf542efc750586677b77c4a44d2bccbe7b8, 0x87a589cafe67d4b48fe5161044faa11b62d23ad4a96743690930472e2f7fbb8e, ((-0x5f902d8e041bf190126e1d73fa678babece7d7f5c358ffa4ebefdfc7f16e5bdcc51d32918e4272cd3eb60171a9a6151bf730686101cc8863b03c7f980b2710e), (-0x41b752506b4b5f24dbc2cc2080f3f985c1ceb3311f4bfa5bd325564720273e53c32c138300b60eb25972a5b2d621a08bc92acb7e4892b4b5a3b43f7476a9aa), 0xe576046869c4409a957ea7568298032ed94b07282436587ee85060ed1fba43d5));
  (0x99e523f732cd702025b11a5212be5e955efbe1544cbf46afa992000ac73eaa18, 0x6e3b8c1d7647f3dec6937385463c59aa2609c6bb2910f0cc59983001d6cabc83, 0xaf09b93e980ad3dc9766cac97779ec0ee07bdbc9746aef907183d485059e7880, ((-0x24333e55ed2673a38528012f3a5d6ed1362d136fcbe8d435055696cbb51d1f888270702e9b5dcdc28f05c3dabf20499f9522e9179765a953dba43c3997ec8519), (-0xb7cb19e571f5518b12263db68eeea6bc85144e44bb6f61a7378877b276b5af5e9f180fd26de16b64c75c15d0b538ed98e8898289fd6e88f0b5e78b4df85f461), 0x207ecafcbd6bdc8901f55b2d247b540a5c5ae89638dbe26441425614466539970));
  (0x57a53af53bd4e74254eb6a6c7d12dcab1c5ac950e71949e301c8dcefeed2024, 0xec5344078c0c7bc95a7ca05f2c5bb72d85e76aac3432a3b61bfdd16454db4db, 0x1b52520692dee831a2027a6c5e38ddb6df4794fd9bac2552e7315c51599ad35d, ((-0x18176dc24b4d0806a1ac6c401118405a590eac125a19146ab20148e758291b023eb370d5d1cbca96b89cddad12196395096bc30fde64219c79749447814c191c), (-0x13209e9e9bdc188447c0a49fc90b37bba5f44c6786645dba8d784f7551d7d187af3c88f9273ccd4fad23bb4d7877c1554cc30a40a155b160fb8620547ebcd8b5), 0x268f5152cec6f01528e5fb8fad4aeec6d53c1509d6c44162aa887d1a78424d054));
  (0x11ae3a4dad7de38ef6cd73c31929bca90ac115a31a16802f2aea00c9e6c94841, 0x27278dfed7aaaf1f0a088f3dc50a1b8b64d2213620d63da12353947b13322f08, 0xe2663549650fa934aa5868f9ee84809378964bcfc43066e96fd8c151596fef78, ((-0x80fd8c90baaef4979168d179b5a49753d69d5f492d7bad9a5a69efb952cf45f31093afc557da838b50d38c62f7bc563ce8bf7c7f486e2ea6a3e062483dbc95), (-0x774cf8bca9ced7b3a39f6517eaf04fddc99ceaa49c051c41dcabe37fa4123e5ef6c5c7782f5c2cf142475511738d67a6acaba5775a24220d2d74ce23717b7f), 0xac4e479e7e6eda979bde2f96c788a7ade3d3c7f8f8569144c5dad3244253a9c));
  (0x8e5ea979b47b27d8a3ac1e34cbd70d5c5aa2e408920f9512c52f3f544cbde7e, 0x381dfb32a7689f2d944fa648e0b0e0089cbcb96248dc8c3232e5a08837b04033, 0x6e11efedf7dd82a3f184d271328162cecd090b44b3ed9e2169d61ed08de6c41d, ((-0xb117832eb0b7699173df6f8fdea83185b0d4f3256174c1cbec000bcb699b0e2feeae9423b4d4b8c3501d8c30f280a3aafd96572b9c1517791e587983e867383), (-0x1fffd85fbabe747d443aec5c081b257a578deb0502d22cde23a374bca4416627dab76372f3be05b9240ff4e2483932e3630a7bb2ba8b4908277a5bae91573b9d), 0x27decad32e1c5a837f3719c1389ed3d3d40d8ed7516f18a2c333b2605fbf3e02d))].
Lemma run_224 : sq_run steps_224 pow_96 = Some pow_224. Proof. vm_compute. reflexivity. Qed.
Lemma root_224 : forall r, cong (cub r) 0 -> cong (val pow_224 r) (r ^ (2 ^ 224)).
Proof.
  intros r H. replace (2 ^ 224) with (2 ^ 96 * 2 ^ Z.of_nat (List.length steps_224)) by (vm_compute; reflexivity).
  apply (sq_run_ok steps_224 pow_96); [exact run_224|exact H|vm_compute; discriminate|].
  apply root_96. exact H.
Qed.

Definition pow_256 : poly := (0xebd1e6810e03c201b709bf4c049a16dfaf5ee3fc6637fe14e29293bafa563899, 0x62cb72a7e109d0e3637b33610dd30b8bc033c6f2d71d5c341b6b0a996837e831, 0x35c9553e92725f8090989fd4641941be89843a0ab96167917a8521d10b36cbe9).
Definition steps_256 : list sq_step := [
  (0x7dbbd3b28e25e7cebb410f1264d0e1fdd3d52713427aa4baf923f16bd6c8f24c, 0x95a6369164fc3e749a04ec3afd318dd96f020af1bf1dd9f93cbb404cde455107, 0x8046cc2435de482dff2667841a57d3670854ee0f1e4fb32d6548c31066243854, ((-0x7b65c23587d7327e66fd7fd53e8f693f532a5d25f60db2685752f8fd8543b8c7f69f06c9238ad434fe3788b26268f82104e209f76857ba0b84fb2757d62252e), (-0x7904a0b7604de1254cdae9ea133bf86d0869afd5cf5ff63b080ef8c23aa583aae1d350fa214d93a57af8c4f79aa841ea3ca587f1dccfc1cea572b44213ea6ec), 0xa1ee3891b21f75a04cb46b2a208f0456db91debe9401affa9f2afd57079813c4));
  (0xa55eaa60f7ca47bcec3f341d39ebacb75966fa806cb88a252c9ef2f0a4c515fe, 0xba59d7fa643da2223a9ee8db1051d2d14ce06aa4e149b068bd14f7abcfa32b99, 0x14faaf7970f645d2cedbc236223a7125c63a5a1f39b1a74164522f43a88e0cae, ((-0x17f7f9d508845058958952b9a2410fb9d58d34b91765d4267592e68435fec6c31a6832e201dd5c3648f18b104c6345f86e3855eb02b4b6c391e2125264c3954a), (-0xa45d263866d2c72c23e8199b101a43c6680e0259bf5b1cac6752845df51a135e7bc91d96f110af19cb7cf7a67d4f2b3dab7ffc554ebd2d971bd4893f052eea7), 0x19650e58c5a5d7053a7140df2b83631794717e4771f326940d6b86270add3c9ed));
  (0xe3b1f643fd570fd1142d50f1bd50918b8a4f073606cd9f62cb9a156e6a0a8b2e, 0x124a463d99845be2105260f0b25884136e1eb0ee52c144b63bb134ca52d9b98f, 0x7ffa201d2014918b75833126e6349042af6de36631c12e31ced7c632c20a89d5, ((-0x4e1a285e887b84dca47ab888cfa1f525d18bf56b5b5d88c2b649b1c951413af695053e8c74dbd38a246c81291f43b634b7779fda26e82fb2278a02e52c0c322), (-0x465768c95467108fd643a0020ef5971d206e9ec0ffab1897bcb4cc2c36c22353fe8aedddd9c1e767f29a555af35155f7236f9edd16a2c2da7fe1ee3c6526f5), 0xa7e9ba4b23b8d5dd27f48afd876e4046ca0b0acf0beec86d780220a3370bc050));
  (0x34263c09eceeb867ea1aca67dbd42ae0365be3ece49e18c773113b2181b3cf8d, 0x10c4421715372cefbea19e74914dbc1697fc57fc7eb78c475e7849f1d8c97870, 0xc74667be3121979f566e334634ebfeacafd7396fa39b78034f55c99945117613, ((-0x2ec30234fc8149d7cc66de349cdd5038cfe2a6223ef6d2fd17fe358bb4d1e447420d53381f6a2ae3bf05e92898b7562909036a279be282a47b3e5f44d19dc75), (-0xa398e533cd4b1d1c6ede303a9ea9e3faedd423e2a49f70626efa90960ab52f77a67b1baaad460132697701270d2e556fd2f1321f423451e22ff104a6215931b), 0x1a4e46b3aa4b3a9f14c7ba872c9f44bd97e54cbf21f5ccd5541e7214b8f7b9ffb));
  (0x8acafc4fc0f68e6708ad74e6499c15dc561a086907bd0cdad287c3f08c3794b6, 0x31e7bd30163f54de46a226248a5f5029396887055a5bdd6a014df35e9c99341d, 0x70a03bb12a3238d49f9639ae5d207cf67af0fdbf96651c069eab8178b489fb29, ((-0x42bf93a6767b6691a2ff32dd288559e847b66d56f761a931e24473dd378172668b02c33e04ee77b4be5fffe7d942cf49089af95f6029797abe438d1e9034313), (-0x18ca8c006db83be19d0d1308dcdc9f9a40178d55551f302c1657e1631d6efcf082c8842e3e3cc45034380d4507bcb2772a1a147d6c7b31a439dbd46298ba9fd8), 0x223a4d93292e15a5e056adfcddb3b053c5e9bdc5f97d8ddabfd8ac74d5c4d6f00));
  (0x55af235e64976656fb49383bcbb4caad946aed97047455a67c1988ea8f0323b0, 0xeb40e6216ac850bd2190eddba58fff3dede307da818473355ee189c81e59a8d, 0x4a1b09498bd209931d3eea96a1662e4ea0bf038efc3884aea10c20f0c3a490d7, ((-0x704940a5460a1eeec23e1a6979955d1c9eace674473862c1778f0cebdd1a49038ec25bd25eea7a2f27bfbbea3aa67a4ff4db8e777b571d860a1c8f38e6c7a36), (-0x7eb414dbd5f524df88648e0db47853d88f79b45b788fd29b75330ee8e3fe2d0d2682bece80d818c7f22a2e2d9af8d592ea6dd2d68dd96baa75d9c36d97d6f4a), 0x1187fad0061c743140c0f082c5f5ceb8c1fd86befe0857302852add31c345f98f));
  (0x7c17a3ad0e4a75ee6c8d58d1746ec9fdfc2a3f65ef528b86d72335033588c9fe, 0x78bbe17ceec74e48c2c4dfe32cbd1791dbfe0c14320821cb57f3a6b9329a7911, 0x483188f7b59676c107f6f82d5f32ea75541935d8aadbcd6eca8d4d28512cbb2f, ((-0x15c47c5a93cd126e5e86da7bc9a041d4833b6491441ef49302c810e2dc71f1e07dff0a795fa24ebf608db4fb5318a34d18978f11140b2782030e8e65d0c7820), (-0x36dace9afde79115b89e22024ba62cd8953e84dd778c6651bb7785bc21f8af003f4cfd0aea0611a61f0b1bccc25e7849bd5ca10148c405d9a727623f814040e), 0x72ce767f6c1df647e5200d241544ba8612d3f42215c28ba9e3b42fa872711a33));
  (0xfc672274dc8130437d3b8b6f6ceda2bd7da8b0c68698b11f14de2ae6e017fa31, 0xedd3f175f40efc5eb3c846eec8665d4091865b9df36cad630d5685969697f386, 0x4d0cb8b2f1dbffb3ef9efc6798f866d46e7019e87d947c5c456f0642f406b72c, ((-0xae20d1ec8f6645b0fb70e2c1bcae53f5f006b943709c257bfe98ffc0239fc1dde363fcf0aeea72ed0cc8c8272561011c96a991e05de5eaa9f3f9b112e59d839), (-0x340f79c728ba38a7be94d19786e9d7415ff632ae512d150b4d7e401a454ee4d5d81d4ec56cfc854b31c62dd7f5b3564dbcc3510f96b82cf669cfbd5a44c7a7d), 0xbc01b3137d996fa7759787b91bea51536fefb06a43f330011731f0b6e69d4ce4));
  (0xbbf2950b8b3c58ff536c245df7931ed0e0eedefc8dd8b8311a7aa355f26c5e70, 0x90b98586081ae7c5dc7533a9819230bbd179ff7fdbe35601cb5a31a680e9aadb, 0x723e6f9ad6c33bcf4e80061e5ded14d08f9f05b763f54af6d16ab6ffd3c0fbe1, ((-0x16e145f32b9e431d0d9ab1ed6be64fc9e1c8a3179fe794cac8dbcfae29665872431f1bdb2f9a1d2ed48729209bc56d0ff40a12adb76f26cfc49b1ac7e416f7c1), (-0x3b4cc322c951f98442453c01ebf7d2a2f23aedd620d2aa989f5b0b90bdee3dac69b219d6a1a6b91f4a1a8b127d6a0a88ffbe52855f0743f6db3b504294eb4f1), 0x1ba73346124951203855dff96727e4a7d5094ed8daaf1631612f3673a3e697435));
  (0xcc6970795fe2c3581b5dc6a202bd7156a1a354b3170d5cda043676822caa8370, 0x2b07757ea5d9555dc8710b0605182d27cc022617533e11c23dc1e16fdf7e81da, 0xdbf6524604c5bcdc94f97c664b543e58608b73d9f016bb55ec198cc8f5cd8829, ((-0x14a4e84eacf5f1230ed78b8c09ab4764799da098073d81bdebe4a514263487673d397a0eb7fa578ba336ae81882e26f8ad06f863eaf9cc876c9673c55c5b3a4e), (-0x825eba0b556413bf716a33907c2c2ea136e82387696b613bc50ac2fc4ee3cf6f847d3e7ebb29fdfce6f1ba3500426cedaeb5caf61ce6e5d9f7d337b3b1008d5), 0x19283f6a943d3e1c23536f6920d36c7d5e7af1c90365b9c17072e1e0987795cad));
  (0x2354ac601b6e489c93adcbf4a2b2cc76d368149419b818ac181e42715c6f0251, 0x86b169ee777d16d2977f701f9dd5ba53a5068777c93b5d77b88cd5eef3303ed9, 0xf170ecf63dbb17cf77264272563c35c2acd08e51213c6df8916d427793565b50, ((-0xbd153e981f49b92bc610c9d2df2c0930a8ab370b46455bc559aefb169eac14202eb759c98026fad997ec451034f8cdae2014580fb2554bdd91402eede9c27f3), (-0x1e34a419e3cbd03ce121bbb83df25ece7a57995deb8d1192b64c979956b6d50b6dd0d7da405cdbdcee281bffa032aff5f3528c06f2d31795d34470ad8d5cc020), 0x39d7f5f7d0c3e51a26da762d7d01c278813c19fb3a5c799995dfbd6c5dafb1019));
  (0x5d88e45bd92457f8a4a74d2577cb08e55556842382d381dec58719d1509eb664, 0xd82f1abd96472882cf559dd382ff0b1578d43db74dc739768f420f3dbc0e9390, 0xe4d89c5dbfaa4e84efd837470f0c33bdd85b8025a1e1ca1f823e90aa829a40fd, ((-0x289ad8c5af5dff80ab2ec0efe49e0ecfc8451991770114b6c1b4df34dfc0de6b2e62157ba2cc89a4be705bb4e8c270b771585dc909b5cfbd536e74fbe8a1945d), (-0x246487e5c96f5b113ab6e3418dcd71deea73911a6a9b27efdc6e07056fa69284d5eff69558bf255d3f738cd9ba17ead9f3edc56c8661015845576c1444d743a2), 0x334a43dcfd7bba75eae73b174e9988a42c95a8705b8bed3157ce10e8b9763796c));
  (0x36dacc317692d1e7617bcb1ceafb7ece8181f0694e0cb8394afad6f32e074b06, 0xf986715b56ba32547610e4c09ac94b857213caf2ec3392e64034204314910ac4, 0xab623f13a90e70424853735a6c086d7eb8740766196a1f48b796e3d4b0bfe974, ((-0x3dc58859fc0f75ce4dc4a305cd04a4a2496c22ea95fc44e7e7c06ed662a0d39ce1a66265d309150396908b531bd723fb9bb9071048ac47416851585ba6af522a), (-0x20b1dfd172705da748a9899017d822caacc3ee22cebc5dab961ce771b9eada691e674ff4049d6f59aed9d1cfb4658b4b45f51dc19ecfa90fd74e037afc6a6c71), 0x3c3814f448474eb91296d69597862e45cd755447fd74e2b93ad69c5b5641048b1));
  (0xca0480912705caff11736706f781ec153b53bb4ba4c93f6f1ffcdcd53b5a1522, 0xc151d18a6792a9c9528156f79b5a27e5e8a306b1a79b6d337af02d4b0457d1b7, 0xee9dc30ea561a3e282ff7a2ce1eb56160d9693772c2ca842ff97c8405d1e9618, ((-0x356549286c2bb7918250a0cfd62bc54f8b37f1043c9024c4b991eb9010f83dc62ab98ea27e934f91c13315168cc569b2534b0767ba714fbf715e735542faa822), (-0x12564dbacce0ed19e49378ffcc215ff7346a24fad7ddb6eed1918bdcd16a02e2dc626f3a76b259f123c91e95c127ad9f7ddf53a08b3bf202c0225875f3ca1da9), 0x294de6861846e09c33cde646e0bbcbd2cee638fc2623801e44d44a4ae4a8cb0e8));
  (0x32faad6a7dc27a8c56479cd73395187f1a197561bc86bc1075e2912458aa3145, 0xf3c3bfb97f92aa3498f37524f32b70bb6123fc8d6de61edb4b8a9fdc90f8c28e, 0x74a07bbcf8fca21d0466d4e491b9277b83dc3cf59eef2271fabc1afda586f342, ((-0x3998c265a38481ba61cb730b9a037e67a7fc76de4b6a77a53b0a6146feab0b9d25a2bd69f9d6b13bd939a0b4c8c8f251d8ee26890b5fa8033d1d347353cb274f), (-0x238bccb1d40f932660ad50e1a2ff227a2ecc8af3b012de84a8c06bd94cce092ce6f15d41c61f20deb99a501a5e47c784bc2a9078a6d59bb93cf7901178f5203e), 0x4a5d2fc435b55d4821814c204a3422eeee0bf8236abfc020abee255f67cd86d51));
  (0x7abccf60c7de8323e0aee9a0e791d426775504825ea397b8142373ac6f90aaf0, 0xa46a5761480e2e1e95a7bbec2f8efe566b6fcc88956591caa40cbff2273e3109, 0x4c8cf597e5d2c3ffabf52bfcf30b1a376c9e37a210a6cee60e73b3098a7f1b3b, ((-0x237f38fc14924b5de722a150aa9a8bcc3e1f328a89ca4b51df114efb68599f052acba17a21391418b507b4a38ae8096642a52e72051e81cfd432e44454832281), (-0x87dd90c556e5fcc0616ed68a268d27094834a60785bc67b1316ca8c017c1bb417b38755291a8b2bf911657bbe0d1a65b18201577f31712b704c1284b98919df), 0x1b5f5c9ad6c69a2e49e9468c5740676b12ee693582a3c1e5e5b3a4bbeff4217d7));
  (0xa3b1588e0fd3637d7c98b9612b6b6b5a62cb1d0b2fa367248f48c2474c41dc04, 0x9703136a361d2d84c4c28cc2fe8b07e2462ce5a54cbeb3ee3a2990b02d067504, 0xec5fe34170843abb7db4b833c684e0327a1e1c5f9f754fda9504d4686c30ef5e, ((-0xfb706f87a1cd60f9f3433024b136781e96928156ca27e9ea227ecb25da25d11e797ac0db1e00bc7a2c99b1a8062d776b77fd0b20824e69a3613536d41ce1b2a), (-0x3a88bd5cbb414679e4339defc7892bf981cd196378a6bce7e0eb2b4d830e3a693c849a92993bcc95993efca96afb311df1c99d8634f9208ea210334ed324d73), 0xf7abaf9499911bd1780d84baff878d8ab42881799096564aeb9991c6af4493a2));
  (0xc3981d894c4971d89228d6863337ac6ed0f25e90a601b388c08251350296e423, 0x8842b3074da2e3d03766b4dd5af873837549ee4740bc8a342dc1be5f7602aa26, 0xaa553bedd71d9f90d321d25ffbb41d53c246024c74f7f746e4fcb82a9724d8fe, ((-0x2c91b1b2058604f64c2ade6e762cf398a48a74c36499d52b274288ddb23832b46ad4e8521523dfbb2c2bd98f79fc801db7e21e994048533c22cfe1a9568ac01d), (-0x22e1a018f6fb046bbc78ab4b4f62ba625bebf53096f35b0e18398b7190bb0f745e9ebafd4623841e23a22535146f5b3cc513d3fbcb574d3cc1f4a75a858f3cfe), 0x41621093c04d19dd11c6c4de5bb78c189210ddd74005b3a59a15833f2c9993272));
  (0x38008dc88e7cc9923514705471ac075962ae028714e3d840c7ca5deb0989faa8, 0x4adc9a3342c0c8a75cf0ddc6e6a0b2428e78bbff625a0ea3ce8b5750b9b2e4eb, 0xf56ad5f588ff8583fa570df1f2eb966ddcfe0a7506fd781ad9a2205457e7b52a, ((-0x1cfabf23ca79be0fbcf812ccd779f33631a4d990f1f4d2b5f6958027499e321b17d5f32a964af39468e95026bfe46f7fd1aaa17cf6d507b2c4295697ae2d7d69), (-0x121cea18415aaf561d962fa9d004a977c5dc5ec93111d52c044bd5ede636134adb45ed61d537efcdbc8c7a1894e8745e9f97d5caca340a1603e1bee1c457cd65), 0x2a0cf2556e7bf78928a5342767037a2bd13c09f739f1f92bffd7c08bcd3e09e06));
  (0x9dba74c3c64bedd5f901143d3ae4f7c1f59f28def7491af9d44a935784bb8d75, 0x245f9c71df8af8f27d95c337a686dcf8648b3fc4a4f075532099d6b44b2d6a18, 0x9f802cc5d0cde3b31508a5b8323c0b76b069ae57c6a678d011d5452b7ed97de8, ((-0x16f08d2d8cf9d5d40a6ae288be629254e926404315c70b7ec1118c2e102f6da95744b9ae80fea6cb99fc18271cf5275acd9060fdd8542f4fe728e9079224f7b7), (-0x2599eb5072e12d289577b2def72563a808b7b67cc42729aeb4b87e3bfab2b205fd054b4f5cd0c78acbf452c1b624d9e0e7c39dc06329f87afd658a8e61de6ec0), 0x34315130f7d8c733170fcd8c77f0d0d0355b54bf4cf1aee67aac3aaeef270fe63));
  (0xd2ef7e2193d6459ae4769bd7ddcf6f502363fc7be0582496dbd7a5e03daf3293, 0x2105599dd7f99e37f57b102cce3e8b697ac38207cf4bb68ab901f3cd0b87f282, 0x51134e496a5720ab36c54223841eaa23880c2f3dc279a3331c49aaef6c0f4e1, ((-0x73e6cb15cabd94a3b9f21cfe1040f074810f2b79dfb56f448b16836087da6b47553036baf515552584ef5a95d650189c84ae6d92da7ce8272af1489d5bb3a66), (-0xfe1e6ce84055673b997b44c2cd26fbcf4763008113623295c1bd0f0a2f04c1c5e6b3bbc80b0cb26e54116809d6c9670b9a991f86dfa8090d1e8ff5b7bb0bf2e), 0x1f3d7fdc2da65bfe792676cc891ae32938da97a460d952d2f302a5bfe823545d1));
  (0x75fe442d4f250aadb5bf7372c6b650f0a1a5338ec0c47977c75a5cca844e7ef7, 0xb4160502694945b0ba34afe7d6629a56d6c1a551655b8d8e79000fe20aee1f34, 0x56eba0bd86ca57b84461316feb11cfbbc79a65873b126a09922b5cb8faceac22, ((-0x357bc6d2824a25e4067afcf855fec9d4536fb44e3d96da2cd5d9423ff24fd6151d2e7dac6bbb2ba553887b5e62105a57e0c6d21d6b48de68fba55bc033f5a6), (-0x41a88b3d5a08f97a8be862fb1fcbc9836cacf31e80c5277d88a6050cc511b14609e789c056a1e0248c74a4666ab4b558a5f8f5c56a0e3df685669b06a1fd1), 0xce91ec869f90d8c22dcdb4d8f6333a485f61766a4a258f4bc5c5a2165e07a75));
  (0x8107fa3b56b8265b9845808999efc0db78aae8c9086d0a3000383cb936d5fda4, 0x73904e7b335d6bb0ea16906482dc7aa3fe266984804ce886662c1599b1c2e7dd, 0xc9844e03ab0e19b522ff4a9cf3c6a54164a2f9c5b1bab7e7e7388dc28947c7c, ((-0x138b618700c68e0794c4ebef22e5b249bddfe5bcad0c4764aabb3a812cc1cb43d4f66149ae45be08a84604406be176a315f33a58213be97e981caf50448ab23d), (-0x4b777a791262406d2037a119dc455af662b3e9c0215e42ad1c866065dd9f90fc88b4b1a777783cd664a38758e6418b3f3f45b4c8f38d063b3077bf4e0f91c1f), 0x127587e5d15898b49b428a496f8f9f718e2aad871e68e62cfefef406707bc1ac4));
  (0x7b7eb8998ddb092079c1099631c01c8644c3443433ca98a1d39e0f5f34f2c3c8, 0xaf4f67bcec4eedce8d247c8ed05a114887e0380db7b9b450165aaaa50c42a559, 0xe762c9a8a1d6419f811212f8d076d3de7965712b2905acb050b7d3d8f1f1c7b, ((-0x1d13cbde179a7fcfbd4e5cbce9c0faf20b6e1fd944d500ce348e2df782700f23f4ccbf96af6dc75e5ea10c101f6d270b92bd1815abb8e577a6c0a163bc2ed80), (-0x195a24ee4350ba9b27563a17ee6bacae29f66ffdffa7c85f61e86c6dc3e003cac3e3ba61b9bb381d3673d30105fdc5cf16522fd87d798cee6c2a2357b1a4e7), 0x42b9194cf91a380b461634ba2e3a7bca9c486132273672cd3974ec7e01ccdca2));
  (0x1649c2ea5fdbb87fb3950fb2a08ccf005882fc68335e225078f3045e205f2033, 0x415d710c309a351b84eabe1e112195e68843c058990b3fac10f5ccdbe75eff51, 0x1c98c11af5ee9aaa8585f7d44a3e441a5f62955383a250c5a8892f8a2ea1c4cf, ((-0x32a5fe0c2e307e64e92551f92b408e5d5ad154d607536f42f06fd7c1fa90207dcfd9f42217a99485fc86603eb6a0d7435b94ae709731dfbc1eb177727414a1b), (-0x216caf2f8f6ebe7e3d723c01006f639fe0e2e2983771fc21ac4241b554635eb211b31df1babd279ea3146adeda61ea71319f3adbd39cb244805eb134177ef6), 0x8874f2cbce72f162d457c45cb8d32d9333bd014947d65d415ca6e3695a86a063));
  (0x7c57625823409f63d0ed444bbe73a01b6d10cb6e7bf1116b4078d6ca1bab7b22, 0xcb292dfbf0dfe93a0b79b63c7d8f23f36ee6f1b6e308ab3ac82a692dcc642998, 0x1a9743d2e41470c54a423a2a6b6e605b0c343ce6084522f5b8b13bb39ebed276, ((-0x2557aba09b4d2d0a76439c93d9b4e2def129c97c72555be90236f0040f861dfba0e19bdf5b70b7986baa00a973cf20be4b42b8bb74d5d055cd350029a23552d), (-0x82b244d4f113d02e849442a1d280cea70f0960384610dbc03ad73ddaa2ad517468ef992c8bc3b07d01548cd3348d81138b8dae5fc051fff334853ded74c4f5), 0x1f40a189a021551f05d6fbd068a11def5f03f09f3d7f912d6e3f02bb84535238));
  (0x7c28f63c4f9acfd66a8a17110d0974e9c3c648fa8176be84010a777c5a98f484, 0xd87bc2a267a9632ef3cd84c6788316a7e9b09174f453b5e7a0bd5663472b935d, 0xb660488038a676d2fd4d277021ec7282a9d5c1387327bea4fa32f2a3ded04cad, ((-0x6bec51d59aa81866c52e088cea3ebf075b9cde90c194cbd1de77cdf2e0082a397a1d1b89661f9aadab3693a610ad8064f53ec9ff05c462d0048275c4dc841a0), (-0x71013ee34f74056cd43a876ff7828cd3e0ceae450f4da808ace6a8371c5665c43e8969addbf6dec4f6aaa1b92155771fa0648e272dced43d275ca349abb5f7), 0xc3583ff85d1a9aa6e5454675460092f0a55343a3f96c75d053dd38cd4e338be9));
  (0xd4cf4f66ed49d70d2d8717790c2f6484722391c59ca6b736410fd5326421fe83, 0xe1ce40a07cde4cdcce5cb0909fa533221204cb29175fab29a9011d484a07196b, 0x9cd1209fbb3d0518d905d593d29b772bccf95fc7f746d38369199d27a7c0443d, ((-0x314bdafe4f37dbc81fd8514abb0e72f6ff99b905e2e42ca6da8a01cee570a66537f14a3277093cccb54384f0f8061716b9b67880b9ea7979533d9654d2c8ea57), (-0x14c3c9b559ca72b284f7f574634e97283b293eee8172a9217b11d80947d0d6d2835b0bdd0feecad34b7dd1bd76908a1861fd6757dc6a43a545941588b757c9c8), 0x2edbfd959c14de4205437c5c4ce1fc95d609e47c846ad2bf85d2b3b257cfff351));
  (0x15a9bdc8648fb059142014fc7076458c7c98ef9e8abfb5e11407f09a8c49eefa, 0x76a4afa60c50f892bd5346c5056b0f7e4bacb87fc208c95f79c937f056cfea96, 0x79081a2b2b461325e96796a41e333cbdc63fcddbb541298ad326e7a24060c816, ((-0x2c368417df4bf4cbf4a9b166189b74d30e6e912905efe990cde66b1d8a3a9777fcb1e8db0945b65f10a19f9b216f9d04df1c187e082e859af12b2f9d7673b635), (-0xf5a39d7ccf63ce2553f31ace63db8fa020cad1355e25ee61599c84d12ae8fc52b0ee45722ebd2b307ef9dc4231c7fee1a15edc650a51c2801a4a3097d9fbd3b), 0x2ec132d167596e713bf299cc859929b45f1235c72ee4e783c7ba70a557d066f54));
  (0xbd8bc37289226f157743a422c1b72ab9b918261c9176dcc4f75e3289724abb84, 0x88e809bb63089350ebb9ca6493dd9c45c65837185a37cb8900621445ea2b057a, 0xb67be40b0668d44decf2344045f1408b14b5200c306c5c20163e6074f98fcedb, ((-0x11ede85e8bd0971c9379de67dfe96773430b7bef3b75b52dabe845216f3a7ca4d677625f0f5efb40578d06ccae2e344b13b7f9686fb528e99a62a8c619ee0ac8), (-0x92526fe64245b8e2a4a857785ddfd63355be7c7f096f737c9366079a7b773d22d65d70b9b7c13d2ccbbf31f842a6fa812faefe362515287d748d7b972d176ea), 0xf7220b4c011399a3dd20b5a172166792d935963dbd67959b7946aa3217c26653));
  (0x405b23efe61667c6cf5335b1f0a16ba5ad19c841777c613f567bf7b88866df94, 0xdfb5bd0bc21425ec73b898904542c9fe119258377843d638510abbb6ad430465, 0x341bd13f48dbcff0700c072966953717c938ad6905675abb85142a26434ac192, ((-0x1f31a5f5e47f7f4a8fcb2d00c51efb778d8c24ec251e72c150c9310513df896b52143df864de3b5b056c0bad695f393a2b7cb9533c756e7978af8eae17170688), (-0x14ca1390036598bea3c6a8481981b8f37fd01619cf3eabdf84389a5482febc8fbf6a8e830d0e18316038d23024bfc319cb482ee4497184103c5342e86ac6f384), 0x2ddaeb92f5e25f11f7f08fbccc1ff117fd9a924ba6e9888f94e3f7731fba5f18b));
  (0xebd1e6810e03c201b709bf4c049a16dfaf5ee3fc6637fe14e29293bafa563899, 0x62cb72a7e109d0e3637b33610dd30b8bc033c6f2d71d5c341b6b0a996837e831, 0x35c9553e92725f8090989fd4641941be89843a0ab96167917a8521d10b36cbe9, ((-0xe8e1ee4c6e331cf7d3ce15257a68e7e99816b89bbc0e26fa0b98163fc00d5dc56dd487b292c55a56729a6eab44320643998e0e434e2607e470140473038c81b), (-0x1b1f63f43b2e623803eaadc1271c19acce09239f4cdfe719d3effdc0e617341dc74ca08542f6eef41c7ec88669dd396078dd24bd2db168212c0d4df088fd627), 0xfd83137e900cfadd82cb4f387199e3e4c702958cc3ae3d7c97007aa51bf0e974))].
Lemma run_256 : sq_run steps_256 pow_224 = Some pow_256. Proof. vm_compute. reflexivity. Qed.
Lemma root_256 : forall r, cong (cub r) 0 -> cong (val pow_256 r) (r ^ (2 ^ 256)).
Proof.
  intros r H. replace (2 ^ 256) with (2 ^ 224 * 2 ^ Z.of_nat (List.length steps_256)) by (vm_compute; reflexivity).
  apply (sq_run_ok steps_256 pow_224); [exact run_256|exact H|vm_compute; discriminate|].
  apply root_224. exact H.
Qed.

(** The difference of r^(2^256 + 2^64) and r^2 r^(2^224) r^(2^96), reduced. *)
Definition diff : poly := (0xdc67b5176dea824eec56de2b69f06167bb3f80f128d14f13970c53c95e36393c, 0xd2f8e5eee96cd4dc236e8822af95f79344d0190b601f37a992df7544fa08013c, 0x7c73db407714a6a655fb8ef64783e8ade22f4c990db0b6353b259681403042bf).
Lemma diff_ok : let '(l0, l1, l2) := mulc pow_256 pow_64 in let '(r0, r1, r2) := mulc (mulc pow_224 pow_96) (0, 0, 1) in
  let '(d0, d1, d2) := diff in (l0 - r0 - d0) mod sm2p = 0 /\ (l1 - r1 - d1) mod sm2p = 0 /\ (l2 - r2 - d2) mod sm2p = 0.
Proof. vm_compute. repeat split. Qed.

(** Cofactors: bez_u F + bez_v diff is 1 modulo p, F the cubic. *)
Definition bez_u (r : Z) : Z := 0xdea65d0eec5b8e896583e034013c0ce216804a186c8c16642d05ea33a8734ce2 + 0xb48509feea54a8c62b31221428f70998fb97c29b34e0e04772ef6b50b0c38d87 * r.
Definition bez_v : poly := (0x5e0e2126fdebe69164a11c8ac1cf5fb82211c4e3933ec314d448e6d705128cd2, 0x6182fc5623ee11efd76bae156db089deb248cb6522ede132c26e9722046d99e6, 0xae7efee337c65b86eaae41b7a6aa2b6c3e9fc69fc081cbea31ccf0301b950821).
Definition bez_w (r : Z) : Z := 0x748fbca358b66b98c0b597f665f6e24d9ce49bbf76765979557dbdee68eebb03 + 0xbe50e2450c2a3b98c29034ac1d68b391c47dfeab363abc4f72a4eb3c41582501 * r + 0x114517e027eb36ab079f7e7c563836e4c6d7644fa5a4429540e6ca6293c983b43 * (r * r) + 0xbf35686d3254205e4e8107cb91dbe9b6af47f32d8c2e388967e9e29be5fb8bc8 * (r * r * r) + 0x54d47bf578e1d3e9d4f6c4a75f0a6adf716d09268c7935e17eb11d1388c2dfda * (r * r * r * r).
Lemma bezout : forall r, bez_u r * cub r + val bez_v r * val diff r = 1 + sm2p * bez_w r.
Proof. intro r. unfold bez_u, bez_v, bez_w, val, diff, cub, sm2p, sm2b. ring. Qed.

Lemma fermat_pow : forall p r, prime p -> (p | r ^ p - r).
Proof.
  intros p r HP. pose proof (prime_ge_2 p HP) as P2. replace (r ^ p) with (r * r ^ (p - 1)).
  2:{ rewrite <- Z.pow_succ_r by lia. f_equal. lia. }
  destruct (Zdivide_dec p r) as [[k D]|N].
  - exists (k * r ^ (p - 1) - k). rewrite D at 1 3. generalize (r ^ (p - 1)). intro t. ring.
  - pose proof (fermat p r HP N) as H. generalize dependent (r ^ (p - 1)). intros t H.
    exists (r * (t / p)). pose proof (Z.div_mod t p ltac:(lia)) as E. rewrite H in E. rewrite E at 1. ring.
Qed.
Lemma fermat_root : forall r, cong (r ^ sm2p) r. Proof. intro r. exact (fermat_pow sm2p r sm2p_prime). Qed.

Theorem cubic_no_root : forall r, ~ cong (cub r) 0.
Proof.
  intros r H.
  assert (E : cong (val (mulc pow_256 pow_64) r) (val (mulc (mulc pow_224 pow_96) (0, 0, 1)) r)).
  { apply (cong_trans _ (r ^ 2 ^ 256 * r ^ 2 ^ 64)); [apply mulc_cong; [exact H|apply root_256; exact H|apply root_64; exact H]|].
    apply cong_sym. apply (cong_trans _ (r ^ 2 ^ 224 * r ^ 2 ^ 96 * (r * r))).
    - apply mulc_cong; [exact H|apply mulc_cong; [exact H|apply root_224; exact H|apply root_96; exact H]|]. unfold val. exists 0. ring.
    - rewrite <- (Z.pow_add_r r (2 ^ 224) (2 ^ 96)), <- (Z.pow_add_r r (2 ^ 256) (2 ^ 64)) by (vm_compute; discriminate).
      replace (2 ^ 256 + 2 ^ 64) with (2 ^ 224 + 2 ^ 96 + (1 + sm2p)) by (vm_compute; reflexivity).
      rewrite (Z.pow_add_r r (2 ^ 224 + 2 ^ 96) (1 + sm2p)) by (vm_compute; discriminate).
      apply cong_mul; [apply cong_refl|]. rewrite (Z.pow_add_r r 1 sm2p), Z.pow_1_r by (vm_compute; discriminate).
      apply cong_mul; [apply cong_refl|]. apply cong_sym. apply fermat_root. }
  assert (D : cong (val diff r) 0).
  { pose proof diff_ok as DK. destruct (mulc pow_256 pow_64) as [[l0 l1] l2]. destruct (mulc (mulc pow_224 pow_96) (0, 0, 1)) as [[r0 r1] r2].
    destruct diff as [[d0 d1] d2]. destruct DK as (D0 & D1 & D2). apply Z.mod_divide in D0, D1, D2; try discriminate.
    destruct D0 as [k0 D0]. destruct D1 as [k1 D1]. destruct D2 as [k2 D2]. destruct E as [k E]. unfold val in *.
    exists (k - (k0 + k1 * r + k2 * (r * r))). replace d0 with (l0 - r0 - k0 * sm2p) by lia. replace d1 with (l1 - r1 - k1 * sm2p) by lia.
    replace d2 with (l2 - r2 - k2 * sm2p) by lia.
    replace ((k - (k0 + k1 * r + k2 * (r * r))) * sm2p) with (k * sm2p - (k0 + k1 * r + k2 * (r * r)) * sm2p) by ring. rewrite <- E. ring. }
  pose proof (bezout r) as B. destruct H as [c H]. destruct D as [d D]. rewrite Z.sub_0_r in H, D. rewrite H, D in B.
  assert (X : sm2p * (bez_u r * c + val bez_v r * d - bez_w r) = 1) by lia.
  apply Z.eq_mul_1 in X. destruct X as [X|X]; discriminate X.
Qed.
