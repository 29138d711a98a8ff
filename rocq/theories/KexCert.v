(** Certified multiples of the base point, used in examples. Each certificate is a chain of doublings and
    additions as in Sm2Order.v. *)
From Coq Require Import ZArith Znumtheory List Lia Bool.
From Verif Require Import GoBase FpField Primes Sm2Primes WeiGroup GoElliptic Sm2Group Sm2Spec Sm2Order PropsCurve.
Import ListNotations.
Open Scope Z_scope.

Lemma replay_point : forall cert k x y, 0 <= x < sm2p -> 0 <= y < sm2p -> (x, y) <> (0, 0) ->
  replay cert sm2gx sm2gy = (x, y) -> chain cert 1 = k -> chain_pos cert 1 = true ->
  pmul k G = A (kf x) (kf y) /\ xc (pmul k G) = x /\ yc (pmul k G) = y.
Proof.
  intros cert k x y Hx Hy NZ R C P.
  assert (E : A (kf (fst (replay cert sm2gx sm2gy))) (kf (snd (replay cert sm2gx sm2gy))) = pmul (chain cert 1) G).
  { apply replay_sound; [discriminate|lia|exact G_on|symmetry; apply pmul_1| |exact (chain_pos_spec _ _ P)].
    rewrite R. exact NZ. }
  rewrite R, C in E. cbn [fst snd] in E. rewrite <- E. split; [reflexivity|].
  unfold xc, yc, A. cbn [enc fst snd]. rewrite !fv_kf, !Z.mod_small by assumption. split; reflexivity.
Qed.

(** A multiple of G whose x-coordinate has a leading zero byte. *)
Definition lz_k : Z := 0x147.
Definition lz_x : Z := 0xd062045840b1f4b0a64d6e6c5bc582079fc0af8c366eba632b35f5e217385b.
Definition lz_y : Z := 0x5032f04533c064a41a7616cbb528b168c79a247d46f1c3667e1a2f5921aca9a4.
Definition lz_cert : list step := [
  SDbl 0xd6a6796a27dc312621ee1d7807d53f6f50deb90e13e36666ba6451403bb1c3b0 0x56cefd60d7c87c000d58ef57fa73ba4d9c0dfa08c08a7331495c2e1da3f2bd52 0x31b7e7e6cc8189f668535ce0f8eaf1bd6de84c182f6c8e716f780d3a970a23c3 0x11d6cd80f81a9b5e9badabd304c2519d600d3f8b4fc759d131c1e2e5c0ec83c10 0xb3fabf3fdde018ae8b11c6c6c230d119ab7a3586127dbf7325ee158cbb960de0 (-0x1e380dfd5e1b5e2882e2747670d8a7457ae3f364a6717b3578c57493fb0d2b0d);
  SDbl 0x17e021789ef1ed9ec506f9ba33bba229384f476f5c75b6707bb4d0c32e74636b 0xc239507105c683242a81052ff641ed69009a084ad5cc937db21646cd34a0ced5 0xb1bf7ec4080f3c8735f1294ac0db19686bee2e96ab8c71fb7a253666cb66e009 (-0x4f09124c394fa03cef9d066ed39ebf371ee29a6771c9f23670d82169e1bc2c39) 0x23a0a3e463ffc20684142caa30690db7211c7346977c77eb50b4561c8f25ac0 (-0xa04988a7d8bd1088592011163b1877b16a3712bdbe2746cb993e93b5aac0173);
  SAdd true 0x8624294042f0f1d4baf8b1dac311e5659c69c6fb4c925774d08a4b9ddf68ad63 0xc749061668652e26040e008fdd5eb77a344a417b7fce19dba575da57cc372a9e 0xf2df5db2d144e9454504c622b51cf38f5006206eb579ff7da6976eff5fbe6480 (-0x4b2b5074de4300b814c16c826cd7c20fe340cdf2550331ff2e4438025e02a5ff) 0x4649e04b2d1696cc9c17b4a8cedf5485b1b512f95b0eee94db363060644579f1 (-0x2a6f01ae8df9268eb3ed278971c6c83761f846c70c483ffb1cae742390667bc);
  SDbl 0x62968644a8ad34813204540309158edcfde37a2a09baa917e9d8a75db2a4a9f 0xd3f94862519621c121666061f65c3e32b2d0d065cd219e3284a04814db522756 0x4b9030cf676f6a742ebd57d146dca428f6b743f64d1482d147d46fb2bab82a14 (-0x1c5b6cadf863b312b899b7f82a40d0a143243017d5abbcfbfd30c766585a62a77) 0x25f7974e55fdd17a25ceadf79999a95e5842c2f3d491bd1bc8f8c5d7d42dd1 (-0x4e2ef4f9683e8b2183f03276fc760837078798ee3f9fd3752811ccd8894b24);
  SDbl 0xd6385666f38715c915ad1dea56c9cf2ff602a676909872f8d21e7734c37b4ef8 0x8314765e44847eb7575e3cb2fa9092dabbb1ea1417f958d0588fdd88abdee94 0xdf922344fa592a986b443ab4360953787de3a53937e8a75f5eeb0e99c2eb61e9 (-0x190184c7faf9dfb732010a34596d555b0c85a9c299697cd09c56873f5ce43c417) 0xb3423cdabc9bf5662ec510985f87d735d4572a904224e76009e1d38f76b62d00 0xaa86095b08fc98869be50b37ab18b267541715392e257de1c3fbdf76398b740d;
  SDbl 0x760b3510dfae51fad01259ed8dcbe278ab13b57d6571d1f9b1eebd491c0393c1 0x376bf9e5403eedb72a722a8a3b798a663b66f170731496642bed704f6dff2150 0xf6f8ca3c58d3089e2670a8f2e7f7a64135698578596b792f95c769d2fc372cd9 0xcd64f1eb121df4635610acdad2a15851e651e7846c408eae4c12d221a1cd595b 0x366e55695f163fb289a24f355fff8ceeff2a72b8cc86e7cd54dd658f7fadc6f7 (-0x15c71f96b987941daa4e390d8e0b48d2fb075ed4b8e2e6c5fcc4e88754603d82);
  SAdd true 0xc6b3e892d5c07e82261be415019a6ceccfd9dd995b840ab55424a2ba87743b0c 0xf537773939d38a9b490df25e43f73f1330abb6eab3f0292147d58af32a91ddc2 0xbeb6132d28ff40998e2e511cce74be1863ae367eb959d9f8f9099fa3212d8fc1 (-0x39ca9c56d9d7057c4f514644df637c581663b2d39754198101ba69f7fc592cd) 0x9a3aca32cd81f0ba71cc75548005c1b420f8e4910ca64cef3270784f935eeb49 (-0x9350c4a56e2bd2aa19339da04b9d27ae0bce8ec86911000373a217b5b8a4280e);
  SDbl 0x6c7b8a784117b62fbc1a9cc96770479dec97044a642ff980d3c651ff6b8f7006 0xd8a26b12ea5c4d4f9a994e3b6e6e8e23f4c89fe58d2946ee5dd66e10fd954995 0x47d54e91bac13b53e06e913d6923d4a2cc32ddea6b84a3ba5ad271ccd78f3f33 (-0x21f07f1360f14bb3d2955c73ce57dc9f9952e88f25654de580cace1b781f40803) 0x2df87873ff58e59fff216bc01daee72b1b2bb7a785cd36b2866353fff6ffc4f5 0xc1cac32d1b9fef5d63edd22d00337b0a1d4306aeaea0ef223d1e79bd5daa5e6;
  SDbl 0x745a62ad5587da628f99a3fcda974031f76244ed7c84d535a772ac2ae10f79e8 0x359da66c3e405aa0dab82152af4d36ecba37cf920321a2ec4b62ba7528b34440 0xc1c2002bb95c9009fbfc045b30bf74a2fb739dd61168c5ee32133b6e7e57f6b4 (-0x1e4ab6aa4d320e721e61e4a38ac2cc01b3fde39fdac65cf2e40b1404b6f91d048) 0x34e20956d24e759e6b22c88817d6459e8c0c798fc9f4137259afa13dd0a0b52a 0x4a17b79f26a4adce8694d1ac0372c8629918be3876bbfef80c6624838f9233df;
  SDbl 0x4f1d6cedebbd64f2db5123288ccd9825e13d711160673534e7f7028895adb841 0x54fda97905633dba4e2a19d0b0964a0f52ae40249da079201e1b31f3d9dd9ddc 0xd2941df61764844b4c65cdcf900469edaad57ae0d1001e8b905c60e9a6a15a7d 0x56124ef81660d4e47a5cf960abd60244aef3ca90bb7d7901e5409509f8802895 0x18732c9ccc3315d9b183f0194e8d788c765587e175cddd76c27a2f6ff4cca5db (-0x9b23c2afda91f18e5575958c7e281de03544488944063cdfc64ca801471ce33);
  SAdd false 0xb7efe3667e0fbd8514a7373d9f6307b268bbecb5677b960d2fc07b162a4259a6 0xd062045840b1f4b0a64d6e6c5bc582079fc0af8c366eba632b35f5e217385b 0x5032f04533c064a41a7616cbb528b168c79a247d46f1c3667e1a2f5921aca9a4 (-0x1896cd3ce863f91e9f8f30f30b4e6a42deeef33aef8f68644f27d1c645085a80) 0x8428d7e76fc1a6d82e7dd03f30df1993c564f735753fb5417919ea4e1e44735a 0x3c7b3f203406f8715ff1178aafa238bb49c3932ae196e166588bbc8ccf1c597b].
Lemma lz_pt : pmul lz_k G = A (kf lz_x) (kf lz_y) /\ xc (pmul lz_k G) = lz_x /\ yc (pmul lz_k G) = lz_y.
Proof.
  apply (replay_point lz_cert).
  - vm_compute. split; [discriminate|reflexivity].
  - vm_compute. split; [discriminate|reflexivity].
  - discriminate.
  - vm_compute. reflexivity.
  - vm_compute. reflexivity.
  - vm_compute. reflexivity.
Qed.

(** The shared point of the exchange between (d, r) = (1, lz_k) and (d, r) = (1, 1). *)
Definition us_k : Z := 0x5ec08b5064ff97527a2e6734aeb44b19c4386b52f98bcc8a54e18bda00eb7a2d.
Definition us_x : Z := 0xd38f3cd50d075b65aa3c7f94ac52a07a05a7ee186f025e5d47a831638d58bff1.
Definition us_y : Z := 0x828b2e42611d33335d48a743178ce35ded8d80d6b27308c476347ee377b9fd1d.
Definition us_cert : list step := [
  SDbl 0xd6a6796a27dc312621ee1d7807d53f6f50deb90e13e36666ba6451403bb1c3b0 0x56cefd60d7c87c000d58ef57fa73ba4d9c0dfa08c08a7331495c2e1da3f2bd52 0x31b7e7e6cc8189f668535ce0f8eaf1bd6de84c182f6c8e716f780d3a970a23c3 0x11d6cd80f81a9b5e9badabd304c2519d600d3f8b4fc759d131c1e2e5c0ec83c10 0xb3fabf3fdde018ae8b11c6c6c230d119ab7a3586127dbf7325ee158cbb960de0 (-0x1e380dfd5e1b5e2882e2747670d8a7457ae3f364a6717b3578c57493fb0d2b0d);
  SDbl 0x17e021789ef1ed9ec506f9ba33bba229384f476f5c75b6707bb4d0c32e74636b 0xc239507105c683242a81052ff641ed69009a084ad5cc937db21646cd34a0ced5 0xb1bf7ec4080f3c8735f1294ac0db19686bee2e96ab8c71fb7a253666cb66e009 (-0x4f09124c394fa03cef9d066ed39ebf371ee29a6771c9f23670d82169e1bc2c39) 0x23a0a3e463ffc20684142caa30690db7211c7346977c77eb50b4561c8f25ac0 (-0xa04988a7d8bd1088592011163b1877b16a3712bdbe2746cb993e93b5aac0173);
  SAdd false 0x8b44581d4d53e663b699a7a3a71122775d7b986db0934f2403f1a8d03c5bf281 0xa97f7cd4b3c993b4be2daa8cdb41e24ca13f6bd945302244e26918f1d0509ebf 0x530b5dd88c688ef5ccc5cec08a72150f7c400ee5cd045292aaacdd037458f6e6 (-0x4e0aa07754eb005b5632510f6f0b305a24b189decfd7ed3860c8e34e3904339c) 0x4bc349ef0ba1a33603a7d51afbedd900895eccb5bdb6e74d970908f572cfbd5a 0xd737fc4d8c051006415aa0bae857fab178d8da715a33fea69499d62a610cfd9;
  SDbl 0xd0f22a788c3807331c3b6f6b365a1ef8688175180f43a845b3a449a3253f6f70 0x927afb57d93483bbb17c93e71f22a3105ff8856a66016892c8b1a1a3c4b0d30 0x150c6b1ab4d1fc7eac1c0ef6ebf2664581adf1f0855a064dd572103000088f63 (-0xc91d215f4ef9c3c22b352023c68ea4d0f649783bd2ac36f88bc9850f07b685c0) 0xaa8a6a18e15a567faf8d253d944b2de9d7a7554944a8600ce81c1d6f7349f9ae 0x82df0443af0ec254060cc89ca2cd3ca3557b2709495949cbbb64453ecaa3d6b9;
  SDbl 0x3b705677cf931cb9932b48066b31203c7eecff748ebfdc1b7d798a4699cd091a 0xbfc2df6bb17f971ad89058ca059be46e5f7b516c5bdaddad9c9f042d0279270a 0xb145513f59636106cef696b67939bd7b73c9fc6fd150aaaab5fbf87b64af3c26 0x8cac0eeccf6cca596be8360b0d44759cf4bddd701b83dc7f4aafccf1a09a4e1 0xdccf9270d8520a7341c7a1f321c50da8c8404ce42630a0a70c97d10d3186ac6 (-0x2a65e591a04ee1732501758c3ea548772c830cf69ed3b0800142b27ade1eea53);
  SDbl 0xf101107383df11a92b3b0f7f59a61a9a99901196f6da1ffa6746c28f115b2771 0xdf8a74f904d1715e314fa6c814c7bda8ec268911ccb79283d7240a35d1f4ffed 0xfed448a3f2639187a7606ef148aa5fbe1c80e7752bd6499bcb60a9e82017c30 (-0x61271ce2128123258dcc2d7065e6e012fcd3441fab32d8d80230243fd5d28863) 0xe2e300fb8322ac95ca674810d1603b5cb33a5d31dcce977203cb829fc47dae20 (-0x1deb059c8f483dad344d5f823e77d16551af96b14090e8125625d42c79e8f677);
  SDbl 0xb1c564d37ee24e2b921a53cdde8fdf3b25b010fc5801519c613a2d4cd120abad 0x516478a2567460c7f0d92d5deb9a8696d4a5aebc3d150787bcafd803c7fa407d 0xcd8596762e7c138436ecf288427a2ed20e93b2f066f5b023ab9d905b209fb8a3 (-0x23378df8855de3a2110802138772b2cf36c29371d4fca4b56a38c541b9d03f4a8) 0x7b728da1461eafe10a3867411c515408d0e5384ad0eb87ac33fccf3b9383ad6e 0x62b5deafc64d9776b06a49e9dcc55972f1a575cda5f78d20f067c79c084e0623;
  SDbl 0xebfbd68d47ade2c0bffae71cc40bec2311525c0671c426c37b329214876a9170 0x569f1c4a75037ca2c431e27f83005b76839796b357d0be1cfdc959047b20f62 0x8847a12643e7a6f34eae8ce3c8dd9b61eaa568fd7c9f7dd9709460772e4c876a 0x12d456b61cb03a60964b958575585003f31e96164ada75f2abae89e4cc3420278 0xd98853a6a7fca2bdef23b03c121a39ff3e998b340366102fdb503a56f4467f5c 0x4609b81d5c2a51b530f026756869722a261b67381ac2e488a8bd06bbb958793d;
  SAdd false 0xf7085eb308d7662dec89096431170fef7a16364a3b23e99cead45b648c8b454f 0x6ea78774ca7519f20b9e3af9140b5ea4dad52aa98d5e77f0defeb106c49760ae 0xc624e8dffabcc782397aadf70746ccb3a5c5b3f4d0469271cb4aa4498abb9d51 0x2bc40764ecc3b4f10cfeb10b80cf5a2a612c85bfac88c1baf556289614a904ca 0xee61270477a9535b0589559805c41d70f7d8bee4bab17b19cc209cd581083676 (-0x658ddc483ba05c1b85f04a78b3db8afdee7a60a2997d590d1926935c390648d1);
  SDbl 0xee603b57d0f9204ab627a04e94e7cf68e7bdb8a41771e7ba7302f91839cb9d07 0xa05e44ebb1425ce76e0a3ee3d877781288e472a38d18b4ce85cd7efe9da98029 0xa002601e44d5e26684fee0ff278b4fa967a0f982cb5689e9eb884cca4ee53297 0xe184666dd3871f547ee61e39a7dfecad1612f52ab8aa7ea51aa20a279fa6ee5b 0xddf71284b6249dda61ab134c09b675c7f9e16839592386dc8afd83dc9f6cab54 (-0x2e4a9431f0cd9af92a91c022fb62a8e7c37ec044910ec923e80eac1bc008e4bb);
  SDbl 0xfdeb59ccf73810af5fa7bbcc3fb2946c686062aa534312765cac365ac8dd51c0 0xa6dec6d7c3851c0687ab4556ceba5cccbfed8923644ecabe8ee1dd4d825447ed 0x1e7600202bb548e21401c9cc6dfa994328ce0d72f393f136fcc22899e9f3bc3a 0x1008fc0253ad7591f9ab1c43658b2f12c00afea69b0fa606eecd3c05965ba330 0xfbdb07de1a4de1c74b0acd68963bf4523a32b2ae109ea68388c7d1387e0c383f (-0x672faa57a0db9281738695fea7e1161541623ca7c9fed0bb7f972aea9a83a2f);
  SAdd false 0x16efe5d4446bcc581432e2addce23854fb0988f88b54ef5440c22b73b00f5217 0x2a86f624b69d4af31eddc410a80b6c394363a02df7c7485467f2bd69f0633fbb 0xab6d53072f2567591e924ef9b54ee167487eaa4463f36d7583d924f6e28e5703 (-0xa670ab76f7c94d8843daeb350acaf4920acb1dd65f712a5bb3898d9f09d8871) 0x20e1c4f6e7dd7205ed5c5113eb9fbbc70897114e24ffa89b0e653cc4cff3e5e 0xb24118ced0db82763bfb1c3287c751dbbfaa667ba07859f54b23427a04c52bf;
  SDbl 0x7a991797a7dd7af3bf24cd1ea051d86fcd2b13a4e4bb6905ce51d3338a29d960 0xadd5d8c6c0b7fd18043d2fdcd4285c12fba3d33be423d7fe1e76b6fe93e13ceb 0x52ae63ef944952ef061a9c93432a4c3e67fc0d023577e77b3404f4ec5f418fd3 0x8eff8ba97229f31c6b88a904492d541eb80071b82d7791b3f17800449a445f88 0x3ab64609fc289ff88723bb62881a1ddd40ddf2d7db9c3ad48c0a305f9b53d861 (-0x3ee21e40ca892d992c0d58a595124f08c8f3a535bf340d4ab92d359036a3772a);
  SDbl 0xa0f01fee3a056bd529d5599d6391bd6d80a331fd07cd693bdb117ef0e69ebda2 0x4438f6b892bd70b65c4664a0ac7804e0f0f7f170af3698c86b99e9b837c437fa 0x617c113ddcb356d8147ec3b8c9d783857368e533d8efb805bb339133f65036c5 (-0xfa2b145739f91f57e1dfe8b42cb98fc65d82fa5d05f59ed1a0775969f90c95e4) 0x652d0926105c29d7f3addf5a2659ad90715e41fac2e1d426d0f2b0c7a716174c 0x42651d89539678ae3204569f09698b8c1422cf5c565eeddbb11e814f0bd0b916;
  SDbl 0xca233f1005d864494fb2813286dda7a54beb78c38cbae14afc794c2aa3c01cac 0x34d902faa25b2483f16120ee466d1cb98dc5d7c8e957d09beb1489160fc8d239 0x8ac9e6d35c0052c17a14d26e245bff99e01c85394d610ea1f8f911ddc173d6ac 0x6367b3ed399b113d7c915fb566398247dd28d92fea9ad80bfb134b0fffe36fb1 0x9f9ba46036bf9fb0911be79bb3c66b025b1626fc891ee8f7d2e29f68721b2e9d 0xc23d43bd21e1a917c9190f84eccae613672df8c8f9c46a7c53dedbf27fa93c5;
  SDbl 0xab700325af8aee084eed8d910fb0f568ce88444ae3129774e99fddc401ea251b 0xe3cb2cdecafa98415749bd2ed9eb2626519a44f566377f65010f1edc0cf4bd64 0x324666f381a28b682c9405309629d1846ef367cdb90ebbb628f8d6f04d241d08 0x99288aeeea6e649358028dedaed90f1fa64cbaf59742c18691e8c0636627b1c8 0x72ced5378c55f070652898814b3a602e6801930941da9d5b6711173e1bc990fd (-0x75284e14c790cc73081d27d32a3e8f53c9701317071df173b5aaebbcc47b07c3);
  SDbl 0x4e3e56e9374b56b8350dd53bce23de28055cf5c2aa25793b97187ac4aa415d13 0xd4f609b06eb1e2940634000151ea3e21a0c148f5e4134105fd9610aba033210b 0xa53b12293a7867d0c0c3f4bab02f388da6074f1fd190ec3060a5817031d4582e (-0x2415a758300e0c540ad19b9162150d9c2b6b8057da5582b15c7d3480c364db203) 0x17ea0c246c144316fefb781fac1ed2293f16fb6320ee1e0eb01cccfe189fcc6a 0x4888d5fc6e3ce8f8b461791bd5d0587601d16ac8e88533edae066264a34859b;
  SDbl 0xf0524781d38e18040b2906a9dd6d8975203b34d7f512b85336826d86d078b722 0x5cddb9f28bf53be36f2943480526240b49ae1945198b76fba16f933fe02e36e1 0xeb96e51db723a5b3ca4f75b4adbd31aed4cfdc6c013d4e0521a013393ee6edf1 (-0xdd404d5616ded8a89c6de59dcc9203921f28305dc9d0f3af1e8da2ee71a7acd0) 0xe19a6086316999c4de47a944f47499d7fd0894dbb95a750c91fca67badb2d873 0x70bd6417a5bd6bd6157f6fc7c48a09dc2301e625c6fe7ce40b60718a8900268b;
  SDbl 0xbc5cbeeb2c60b459123e352645b9b11006cf378f83dab77ae18d71857c09feae 0x92691807a9c55aef7054dabe7e3b1323fbd17337af2621771d0895ddfbe41fd8 0x53fd4cc68f6673c42bb37501f9a9b4b4a9a9b483b52026cb25284cd169d36655 0xf59ffb4b637b7ef13d4ddfb7073bc6737f86b6f016ee9dd6336b179298d765a4 0x8a985a03bb3036523af1663ada1715177d52e68ded7d0b2106e9d07546a6cf56 (-0x2765bf1c18ec845e6fa6ad52d56c4a6e117836ca594e10ca2141d3702fcd41d8);
  SAdd true 0xf42b3c6c6f641c89c72c07e303c7cfd001bedc9e540f3d583fba9b82a0a579c3 0xf09a98b135994a658960316e5190758b06e41c7231a71f7ae23ab91dd646eff 0xa3657ca0c9a860b55f9167155e7ec749b3d7caa6685de1d6f116903876827d2b (-0x5b38dc166f0ec07bd5614469786b50dca0fbcaf52eeb28f209939839eb421ec2) 0xe8e2727cf7e9b6aa4c2f30002c0aa18ac9b1b47eb3f4c0c264d977c31d4d1915 0x7d4d2558ceeab315d205639fe9519e51366c0ab97c270a5e236dc29dae9e9d35;
  SDbl 0xf86585c9422382f29e0a6501e30bac5467037d410fbf7ecc487d5dc86eacf887 0x6d2665932366f697ea4442c971cd046a19476501252e8745350bec0ed78bc3e2 0x14da2e54dad8961eced9ad1c5ab45010092520dc79e2afaf7ed213a97a887c38 0x13a6fd3a27c514898e06050ce0def527b662946c7fc9571c669f92c78921d12a6 0xf104db79b7e29626f0717bb36febb50beee3e15f48ee9cae22cdbfcfa7a6caaf (-0x5b5128ad449cbe0e0e6d78060f0acab88449372caa30a691624786a177775ae8);
  SDbl 0x8f3025166196447bc1800e575cb7890ea3cb5debc762855fd33bb3f26e74c2cd 0x569697b7cf17d6eb085cec23da1cb71e9433a801dd49379356d56072215f33cc 0x2356b2930de8adc1514f50bfa1a04e270c2966187efa40bbaa055fa1a62c80cb (-0x744991266594159b462cc59ef01385ffd41de399f9054b10e8a7575211b19727) 0x5016d27d3ee0c5838a4928dce6c4782e31fb251073c3c462bb9bb25286736367 0xc9e9238eb8cb314f0d13cddf8da51270c438d22435bf89092219bd8bbdcef65;
  SDbl 0xb558b911708d3cc0e9de5847f4e6aae2c723c5e544b284f1203a0bdc5e9d340a 0xfd9889bcb16003af509bc28bb75680fed99f8a09c91979d702e9debca7b5c699 0xe55c997410c7722eec3af7e99de64f004aa171302f7df5d32fa212726a725c42 (-0x25cb7c5a3db6f65edfe87ce20177136b2405873fe756c72dd4c002dfe121c82f) 0x80769472eb65e351c0c7dbbb653d4ca58a77812ecfaae1e4586a7fb0b39c1dcd (-0x764e4184e46ca96afc8f6e716bd18cbda4e00417cb41431365b5578dcc74c2f1);
  SAdd true 0x4b5729768334e429931a9e3ba4a7e1902c6b093b6fc6fa747526ff0601d17b26 0x78ede8c9517a6c6fe51100b2840d5e1954a9ee7c5eeb9857ef3564da15f4306 0xdef5035ad7a578a49844af58c6b5caaa933f728b7ec6bf1adc97dc07ab087971 (-0x3bb1202d08732b9f42ad8b8c8f69b03e3302288cbdc7f0778a3bdcc1c8d46076) 0x162c2ff8bc51888055dbf13100e448b98b9485f5f3e1650b3ec4b26ae117f4c2 0x48689a4a0104cea739f3dd177b798cc6f5106a58686b87002681505c9568ace1;
  SDbl 0x5f71df89009e05ab2e7fef012d4bfeddd12cc66f920adb1a29ee0ef5f779aefc 0x95898e5720084225a2d1e95cf17f333bea5666f5db41e6778de99efb5a06285a 0xacb6ce5ee69eb496573ca44c0221c6d0243475f995ab0fd7fa64a76e68c9b888 0xa594d272863ea9e12c931d2ce6897157edf2cc52762ac11e0d5f7bd7fb69b9f1 0x2395b68eec2d82a9f0d230c37639f96324ce9500acc8d8f589f7c3bd72f12656 (-0x34ef2edd5186f3034c22187d8b00ed2aee06632b4f6e16a3918c7e7c4750f757);
  SDbl 0x8998dd301919bfe382e748a1d7e23733245664b72f9ec3e02748979ad6705666 0x99dac7cac7271d047292ce9cb2fad3dc89b8e6205c7a16276f09afea2e04cb71 0x86efbcbd7433f1f1079f146678f51b6869730d50d0d61733ff3f0c760eeb6db7 (-0x4c6250665d2ae707920febf68fe554ca4256de7bf719a838fb47580447fdad77) 0x49f4f8052d0c6a5a6ec03823cbf96429f0fe61506650d7f4a4c8a56aa3a86b81 (-0x2520bb3f1acc3e37397728ca6e01c4f52b3684d78f5e95a67590928f1fc2497);
  SAdd false 0xf65d5cdf1cd96c21087cd056ca38dfcbb562c6cc0308a3f2c28f4835c09308b7 0x88f61e7c6e846485c3c0c6382c592d1ef943ff4ffcb5d64bf11b34df130eddc 0xae94b22a61ad65a2aa845bb21b1a0470b36ac53b22667b84c8077e2d7301a627 (-0x6334d50bf068437e72de9d99b8132a9099b64fb0d3ca7fdb5f2c3226f00c1ad2) 0xed17908a54558181ec67f48e4ed51d2248ff4c7cbde7f19f845e3b75d00c3b43 0x8bd371026b31e46fb6dd3386f6c09a7b03152aa1cb024bfb235c795c6afe065b;
  SDbl 0x3e0585063ead04c643f1bff6c7acb4252744840a6e479cc863b91e3bd089fd26 0x1a66113a830d580e04769a02dfe36fb99b473ffda712b1f676a241586acbdb15 0x2472d8031297a9f1d2c696fbbd0b9ba9ce38b162965320f416e2f65f24656d41 0x53bbba43cdd75620d0949a54b835c5319dd4d952eb2468fe0658ec1239ded599 0xf06ac8d8cc06ae68bd2aa7771f142e8ffefa5843650f2738f098ab1a02d9529 (-0x45260ec72fd2c8305b0cba3ccb79ab6cfe77ec9a4acb2f4d724ccecfba76122);
  SDbl 0xc3aa14a69079e442c5bbaebe307fc234d53e630f90c0759823320e3e72390fc9 0x6ba48fa016277803157de87724d097d98f430d63090986d30b5755f94a8e344e 0xe2b1c928e705fddbd2aa6f4f9364467649adb2926e67a1fb7879bd38b97c8f79 0x2f8cb6e8469116ce217ac9b715e3d1cda874797e0e3db32b19139af8235ba116 0x958c8c75c488930961baecd5a803603cf23098182cbe146213c3588713aabea7 (-0x3e1894554ad8e575572f9135177445596b4608cb3058f5f9ccb5952ccf9a9e85);
  SAdd false 0xeffd5400c433e4d200280760266c4e2e927598e14c5036d3b0f00248657cef92 0x6228e9eca23ab298cbd571e853f597f2e521d17252150f3cac858166ef260bde 0x9f6303714bbaba11879e60c97f700a3bf3bcf22dac9d6eb2614c2ca1d88436b5 (-0x35514b66ea237ad574ada55e80de9def9546d8293fa3336ecaa7ca192d043c1c) 0xe0fafd897468321e7c5090036561ed11b02a1865514f9b3b053640c7435ec5af 0x8e3d201ee1ae852423576068b37f822cef55f1c4b32ba8fbd156d246c99264e;
  SDbl 0x929dd9bd9357aa9ccc977e9a54776edda5293b5e8a8c9f353e775cf846f619a 0x821e223992d9aeeb893e9c903c987e3b6fa15b13aacbb200150531a4d2e6a294 0x1b550e751c3873b4cbf1a6b560e91e2e6c8ff204b40b20bddfd7f6436b418967 (-0x6580f501a34c0df4de496cba35b97995b125f64d53462e2932809c6caa1e7e3b) 0x53f86db15bc21600fcef5e8eb62370b52ee02477f6ca382e4a8c4a1870a9ac (-0x124d8eae01e055d11493af2eee3f45e0c10a777187c430bfe2a4b32905aa068);
  SDbl 0x9296a19488f56bb34c3767ede17d360aa5de6c89c77609a98d8297cf1c47ac98 0x8148c6ab37caac5b749089f71146fd9581f64bf922b86eee308e845487212a7c 0xf97930cb1f08ca79b5b2ec7be20b5d3246488f739c4414648722720338e5607d (-0xa71aac40f78af3f04d7c624be519be63ae9eb0f04ea66d6aaf1e1ac02208a1a3) 0x53f028ef8034c1d58fc3003253fd9101ae5d4c57ba276fcc5394b7fbbc41d564 0x7a2bc18031b0c2440356586ff38c5ca995d5841e13a2e537d0ad620b8f7ba4;
  SAdd true 0xc61a4f825728287e2f630772a139c20c41cd5c5a985f1e13decb4c8427d2125d 0x3a944d5bb021ed2cdcc1245645a03258541dc9b3607cf93b029f871241405098 0xedbc61b55486d6503a2f0b7df17660d4e5907d303e69fd5bb611ef27bf049e49 (-0x3cc23cbfc422a4bed8022ef9b62406c47f8eb94715017158792789dc0d24b31c) 0x994cb5b2774a3ca54dac5f81d392925976428e311d5b6d6e674e7b0d83c8ba12 0x36b6da1dbcdeb6fb301b2af4eb4dc1bd1b89a0b9dd4de1a79e2519f94ce0cef2;
  SDbl 0xfe3224eec7d0c912d2bbe2a4df798724213748f30540fc7107a9544b87594c98 0xa6f85e1597b3f940469c97d67d8d50cba11cf1d3467803a6b4df3a98d61155d9 0xb534e5780f1e999ed01e90df8d22785c5124c7d4779a4d8edb2d0e76645d3e14 0x1afe8592ee7be55136349db861d456f9558f6c6dceb23427eaf1c2bd61fe4c00d 0xfc678b1d4383ee9805c482e306dddbeb3003a039a6e73783194859beaff75cc9 (-0x6ba083c74fae871f656e5a3c2a490e990d7aeccfcb94b15ddf7fa1d0585ab90b);
  SDbl 0x140f234466c760d17ec1ad82b25e412f4fafe30f029418f91ed02ecb096732b4 0xf20d89171c449b89010f15789b089b8c59e4258cbd032ae1834521d12cf34973 0xf491cf2a2f6bdb366284323d0747208364ff2f0e699aa0e87ce63d8f033f59d3 (-0x12a4f6ef57efd50d1acb5a084f0c81abb041957100710ef1f9663c3a4fca3a650) 0x1925e67d88157473484a978dd5d66c9cdb8c2c9e712e69e584812605a332695 (-0x5e217f19df9b39c35fe32ffd0a8c391a453e01184657f5a265261cdf2fa0bd1);
  SAdd true 0xf30c5d30f18e5eaaa3376309b14d9a31310ec215db41639925afc3a5d35cc9fc 0x9cc4d4cfd613aaf17e9b6b939e1f1023bb19e120871e8167087bd93356b29a46 0xa1d5aceee560054326968ad6871c0cd742ed025bba59f45a07f5caaa6a0e3ce4 (-0xb59b64da109d8e3c4c322586aee63a829b5de6a44891954fb92560b1f30103e3) 0xe6c07984afd7ff726bcb4aa5fda4869ead73be24948c32b97ebee31e8274a870 0x50f82194238871b0cf812352bcbfa141ee2a26936fc27027ce8120ffb0ead16b;
  SDbl 0x1533756c269258a5a72f6c0f021fc8d3e704fae8eb2046a9bfeefb18fe2d417f 0xe47a6bd70019d973952335a4b10c86677e06a073fdae0e848da410aadf9ac640 0xd04e17550a569e24a5f78c06d0ee2a6db4c5d43ad2df6a60bce38daec612542d (-0x10533522473736be72e5d47b08687361101b00f34b0da006d2b2bcb14824350cf) 0x1c17b9bbf08e56894c94698eb2d4f1dcc3fb0ac782738b0f12e9b4971983dcb (-0x5f04f74fc40208b7efd42f8f9c433e89f25420ebc08aa7cbaf61fb52a9523e9);
  SDbl 0x1a43b16e411337eabbdf7e50d0fbeec13f0ff7bfbc8c30cc9578939fabe7759c 0xebe96ff62de80b99b46e679b3f34f2b5c88bc31c257fcd4b2b6db1ed276eacb6 0x1e20c6173e1adffad2ef2272b05d33e03ce0a1fc56a85327d83a93a23bad6ebb (-0x23900d98b1eb3fc23c951f7f4889ce28022491bb765458cbbff89ad9852e888db) 0x2b1d1f0c2996ed4460294d3dbf588e9df6d10b40964e0f19e718b1709144226 (-0xc33da035043ea95734c831d1762581bef73d79e4dd0cf255450f079a51df30);
  SDbl 0xf8cb614cfdee70e7d00b2b36d61ba593ab12d578adfcb318897053dc9d0f54c9 0xa74f57ea21929a02b11665a199eb460e5e250421036996fd7d1098a11e5836ea 0x9ed957aa7443d821a77513b4fa206846e49627ce956af893c3b07ad93be2c941 (-0x251a3da95113822cb838d4691400eaafab24ef968f600a761782c7f1ae025657d) 0xf1caae1992ded098389c44954fd32c2db79010ab10369e493e5c1e19d7930a85 0x42abc790051438e3392e2563bb17af9ceaa7048fd70894173ebf90edf352cad0;
  SDbl 0x85caf029755c13252b81d8b4880ca160c629a3351daf4e9823f5c313526199de 0xd7f3ad84f2430e7148f29719c941ff169540c63b39c82dda4773ecae424c57e8 0x9badf13733a6b8ae6c4b856618f8b5c790619cf4be944f4999ec5bea6fe76951 (-0xa20029c0be0c7681d6b8e653146e4aebdc52c435dd3453a9078b11ff2b301513) 0x45ec7e6b3c99226183a7d49039c0105c5e36d7d5598a3594054167345045a938 (-0x196befc704dfbac2f9d61024f2e4a194f678480c8458cefdc72fac6e628b632a);
  SDbl 0xee3274ecfb02071c3d5b7ee43079bddea90fc72685453e55468937cdf0e483c1 0xbd9732afa34ea5070772549de9f919a214c6395f2baf46586869e6111dc26045 0x69f6c02da9ac2a5d0c1ab9b3bc4505380b42991abf22afc404a3b14cd04eed93 (-0x100ccd58ed362dc2f59b24e3571c57d3353e5462bdf6c01e21c0b1f01392f2b65) 0xdda1db5b62534c3843bd1187a7a80d8177cbbdacd015b0a6857a8b4ecec3f894 0x18872c4cb45a985926f4efcea1380177ef30140dacc22887217e717bbd4e3c01;
  SAdd true 0xe78731f22e72e8c1065f6b925cf9072cb1a2d717e2293ac51c2cc21c55c27e00 0x46c1337814ce8dda56c2cac395b30c4570bbaf6aaa1ae1e6ef0a07da2604f1b4 0x63a036d946424be8ddb86fe618c2d5552e9cc5da3d77b64977eaa4bac4d0e0a9 (-0x7d8d45acaac285854e3bc50c0ad643ed7aa0d9f2100ee53145e586ac59b0f8f3) 0xd165438998643bab4440990aedcfdfae39de2a490f231357d28fe805410fc6c0 0x6b79db54851045c87682d85e0d10f527ed4963892938fb2123d7aaf869d2703c;
  SDbl 0x969711c067135219bf27929a82b8bb18e5753cd04284f7f947c28da63e60ce8d 0x9a370ec5d875fb03aaf6be2c8f6d8cf0ff4f6bcc18e393ce8efec764535d902f 0xaae88b70d73ff5835ebbaffdc3dfda2a6a95a75cbcb2ee5b28e1161a3913a461 0x3a8aa73ba2aa208c9d2d69190aa37101fd6406a9f2482625be8a8a1a5315bd83 0x589561f3c394bd402159bd44239d9476fc555aa11edae34991189d94c30039ee (-0x31184ecdaa2a2c95d643f06c014f2b523d2a2e152a2adeca9b829b3380a53737);
  SDbl 0xe78f1126ef3da01624d790af2c1b24877532f0270cd6a1f728e694b32f06155b 0x1d115900bf4769b7d801fa1bfe576007c7e476e32697d36ad1b3efa73434567 0x17653fa020911d323ef372d87e3cc1d0154480fae7e90dad054722e462e0a8e9 0x1e7bd580431f073b4f9b19148c1da7f2a6c131c76606f6c5fd589e4a8895f2ea 0xd17380e93fda305c2436f782822d307850f7c126ea5b3f4127be7c84adf2576c 0x89d92f0c3d8abdb2aff9193bf726e98612b0af105e6dc37740280dc951c95032;
  SAdd false 0x237fde9f0656d7e41f0f01d7fbce15681c93a017b6b9725f2de52353325532fd 0xbd9d99b0e226003d5c1b004c5bdc2b61c251b74c1cef2d0e67845a554d88f72c 0x8d6310486fb0255a60ebad08fee1c1f56e02eeaa36d7df14e60c12b90a6e4547 0x6c9c147b9aec3524816ad0ff6fbbe5c55a98bf8ea764fa7e20c43336cb0d496 0x4ec36be240871b837555fee2b1cfce3ffdc6a7e59f4928a62423c8539eee351 (-0x1a0ac3d626ded68bd1ad720286d351a1d6a469fe6a9527848d895b3bbeaee81f);
  SDbl 0x64e47fdbf5a0c2f6f55351901598b9aa6595d688a9e1f9313f0651b305ee2b1b 0x6a1cfa0af0c9b4c79e598563a80c4e78a9d75bb94f5fa0898a01dd4088bfe441 0xe88438fb3a44abba8a125b75bc98293728fcc883cfaac998cd07bd5e2c4b8c7b (-0x135e47777841833ecbd4f44bed01fc7987d49cda9b231554c9fdd5c00c45aa84d) 0x27c34fd7ff526937e50c316b20cbd8c7df7b9ec665ba6abd074c08e5e85bbdc0 0x20e8c69fb15638c4c605625270c41263b8bee0f4499f118a3c10ac3981dd59f9;
  SDbl 0xdeddac4bbf480caccace3f0cb91042070158d4d064c524e093141fead2282a66 0xc67c8a88628c6c690cd1b8535770b521f3ffab209d9cf3933abd6863865906a9 0xdb83dad64de3ec991b04afb55f85d902342fd108301a32ef6a406ee0ad481201 0x110e3f9104f2997a27102ff8c67b7dd0fa68bdbd4481888a96b08340c94c93b7c 0xc20536c710844e9b16c46102f5b8a178536d87a38416d36af299008ff8f32e87 (-0x506adbf85f75d5bf1a5bc13f0f96a52196a2bfce62b498d666675cfe4b839c14);
  SDbl 0x1531cc7f3d1903ba8f95f6566170df6558b5b90f1fc72cac6209589bb6ad4a7b 0x88b774b48648d723f67e3fe7c2126f02fa2c99e25a27faad079b4769f33645c0 0xac6060fa9ce13c4521e851441a876de48ca9f83e1f6340c50893a72f898095db (-0x1a9559f90c6bc0835f55c12f66dcdfa636aa250de36cf60ae4ada405e45f8ce46) 0x1c1353ccdd7bc0a62294406f58694e56e6f361fc0358f0139087c0a5bfefbf9 0x51d2edb54a48a02a271fef33e9ee76564fe32154b903a6b4a1710e975dd9de9;
  SAdd true 0xfa9c4cc9218d3153b9f90810d6ed2a978d0977cd42ca80fa04e438124ed8df10 0x3e1f0952ecc97bd5c6be53e434fdbf9388430795eb6db3db1334443d762444e6 0xaf84417930670ec5dc3898b82dc416ffc575758946d0711a4644280ad49b8df3 (-0x54238f9a1dd8bd1277f2b68f159ded23417c5475959e5bb34afb3a9b8c88aeab) 0xf555a567770657c4a5b2438439864ec9210901614406f082a74a9349af4a1e6d 0x4906641ee3ba604281cef7666bdab9a7c9878d57f60581b92b6318b8ba4e302e;
  SDbl 0x47d35c31ee3fb29b1aabd0475765ac5bc00021601704202be54f84f071acd73a 0x32b7ee66e600f2994ace38920042090bd1c39e4b4aca8d670eb4d4baadc8752d 0x8e0e973c817b58e624723956af7e78fac2e64a0cc7e23d5d635fe74e18bbe2e8 0x354409ea9aeaca0cb6346a4351c54d6e4ce1ebecc1e127c4a51f54cd8e3e7fcd 0x1426eba4e1d0eab230c689f096deaa2b89820016945774ac06cff5c27b2e85d5 0x333028df0a3e2dfd94b46e9a11c26973a907f397976515d3389afa233ca01f1;
  SDbl 0x41302c6bac78c8f0315f6b745e477ab6b366b0358a1a6c5dd8dc8956782cfe36 0x980c04826637a49ee57ccc6ccefeb252beee88d139cf5bcdc01f94ff68f54e8f 0xc5fe83edcefd6e21a7672f2b3acfcbc2554611ef54345e643f2cf3ef2e41f7e4 0x2a33c7bd6953c6b4fe62f01d2edd4f72d360485fbe1998b9ec8212f7948e63d8 0x10997f9f6e44b387e7a6bca31f1ce7cc1cc71e4b31ad14bfb1fe6ff1c5870585 (-0x19cd6af64cb99dc0b2303d1e73671d2a776c6027c19c1aca60feba0571050e88);
  SAdd true 0x6f6a9effcb8ee204025fda10509a2107c18d1bcf1fc86bc4dda9a561405f32ec 0xaf4c76362549e21850aa3f136ee1b08c2c680fce19e03bc66c8df26a755f9be 0x997947a9db7b18b1d7e5005a740acfcc29057fb23c51076f0f311c2bc6c66f84 (-0x2c141ce08e83f90a78534f3628d78fd20abcf937a9b013bd743adcb2c99e32e4) 0x307da24a1198db783e79130fe5c3c5c3e7d2ea97eea9000654b22dfa6e4eb384 0x3d67d6c150fe15c993c8e34ba95b1d1587f09585e80f1d21dd0f8ef19e0664bc;
  SDbl 0xb25e36d1992ce330fbd107aacbf370797470829a22fe6b30e3cea04e26ef99dc 0x4005b67ac7a0088be205f3cb6693d26649ee155fcc26e6469ed447a5324a8ac0 0x22bf6ac650da2c6e6c1128d44d41ad891531c14a0f2025454d709ac24ce491ce 0xd4758192c70c2eab947a6aa21482896edb1103dce7a67ea0690b9072d09a0829 0x7c4726e842f328099fe513db8ef248efa92f92327adbbf6c661541f48bb5c92c (-0x24f94dd339017de01aabadbac7c300c1fa38555e148512a8aa9764d0aaa02ef6);
  SDbl 0x88353dc9ca745d0b82304c275d9fc0a7d198c9afba351369fe3f58d997c138a3 0x91ef08cdca64b2e8760c3d30f980b6492969aa52b4a73dba4f3395c332514f37 0xd71a62387eceb326acc4dc7367d3b3d0f445ea29d8e4efcaa650f8fef5dc9843 (-0xb0ebc9f32a777a6b41eda3a62b90e97ba3d1929cf7455396d1ccabc40dd1c57) 0x48789cb9540bdd4f1450861081ecf06669e5c20b0a14a0bac22a8e10da98acee (-0x2b94fccf79d3cb523606aa9b5989334fa60f8a58d815cb168b48ab47ef3eb62a);
  SDbl 0x4d00fa107ce459c021d80986646747e1b2e31c7de778f15e98c85c6cd1bd84f6 0x2ccff5b0e5ac9f08c37ac268a2e9b735a37252d1aedce12f58409de154b1384b 0x1deee90f246fc1f3fc49b2664bfa18c065dd12801cc730ce2008e493798db709 (-0x782a722eee58a5058f2ef3078abb6c29b4eb0d7dc0d2bb1d04e79ebe19f4bf54) 0x1729966ef68f296a63af9be5882e23cfbae69a5352989b4b3af7ca7075093a55 0x1e6abb86ab26c30db99ccd8cd4ce61a702db861b8e32ee38b93866c953869884;
  SDbl 0xf9897f521f407448bb070b6f34f9634c8e2d4c1a564b59155ce5d6f0e36f8670 0x3235a41faa72db067b30be85b5bb66f7658bafad9c676febf90979b5b551a1ae 0x46b0b85cb9067c76aafd2118684512c7d9f595ba3687fcd51ecb6e8efe387b4f 0x22d278af1d09a183a12df737e8cf18b139164d8461a6ddf351e5cfb8ecd91e08 0xf33cc38839402e14276764697dd21ac0d8055b9898cf381df53c6a77e2faa144 (-0x542ccc348b26a4b2b85b1e3c7d4307bf0a6d6657361eca31b6ba38ecff4e058);
  SDbl 0x54ebfbfc9ee642d8ec6f7183bbe46c71cc0b319278709e9a90d9d73607d2180c 0x82ec71f36b3251540ea41eefd238b0c607efc049b01aef5507af890e6887c98a 0xb5f68bf48c82eda7d1d699405a613238e95fa879727edcf43c01a071417bbdcc 0x115b4e8c3b774348f107625e92be0035047fb406f447b33b799ade4c3aa29761 0x1c2bb6e67e47e66452bd21d124fcc63ea3c61ac83ddd734e842705adb538cc56 (-0x1ac662cb6941cc250f5fc8d17e1febef26ebb1c6823f30f78dee3e1e8f8d4895);
  SDbl 0x5a40fa0d64c6eabb3d99050ced48a3d9772fff1abbc37cd6acdacbbb73092eef 0xf69b50072317278ac90412af53930cb7ef9d42ea3300e47859cc26bd77727a8 0xade0e8ffce0a414496b5e163424e60ccc76df7b47c53a329655399ed9e04e1c3 (-0x4891413255085556569e91ab17bf429c6f11b598b5a7aec3e0f7cda672f7b7bf) 0x1fd1c04f859e2a5870e21bad6695402ae77f0f5339a0d091aa64f8df991df79b 0x28b947f088a388d9e8d6d5f4e617cc0989498c54ee8b552cf5428a243cf0e191;
  SDbl 0x2f2171c726e069452fc0680d697cb77a6889528ac25be2c2ae88c1bf7814f517 0xcd217b2570db843a0c51a8eb14ba44e9c7a1d6cdc62fb870f3eb7af8437c3021 0x9ddd5a2b1ddbfffc74dcc800b2323237062474179ae502bac68f7589fad073a2 0x3d3d57853bd89d204e6fc07f432c9235c7ab9e0d852b874dc9a0c2fa69860bb3 0x8ad4c25b0dd23e7cff63b6897af5861a044f7fd6894e3d0518ef2012c2d7760 (-0x22ed86632d9484f7847d83b89a386fbcbbac564bbafa65903564a0e580271abc);
  SDbl 0x83ecfab170202251b288bf88b20d5c5e5084ed0052978b43bb266035d8b2ec47 0x8fbbf30c034370e2af3c179cf8793c28ecbb2855750317df4eda7aeafb39eab9 0xb5dc897e4c15f91a978c875eb85bf2b4a238f05aaf9d8d7331db99791c9c19fc (-0x14a671b3c94c7adfce14a9248d2d1ad65aa33c9214dcf018587f4b2efd50da71c) 0x43fc63f109630c4aed4f542e03ff37676f11d215f60ce8b9b4e3efb045634f4a 0x1fa3ca5e4f29b38858834da7b904346994eeb2dba5a550ec3144458af2bf6dc6;
  SDbl 0x359fc29181f5effc7af1eae4a6db491d31d656c61a2c52989122acd47256b151 0xa09eb1eb0f85a5fe7290fb8118036030763643f62998d22ed4c8a4a0cbbf4c55 0x6a132ace34cd567d9d6d08697fc19a9055b7cf209e2491a670fbd801e3b49aa (-0xa5ea3d3bc47f86f2631a8e348aea001f097127726a51d84fe8c858da713cbc68) 0xb3b8a438fabaacf7082dd0f81d419fbcfad0e62558fd60c860dc10700f60626 (-0x3897b2e2b416bef6cd5aba32ed32fd56af27b44533c2ecdc331a9dd500fddfe);
  SAdd false 0xdc352d8039709148f3935ddb9836d9ff4c0401e3fe8f9105e95858ba41336141 0x37cbfceb227335c06c6c46a67ff3d19ffc3a9ef4bda6a7e907e496c3f4300c01 0xa41c30622ae2dcb5e0b576d0269d64404c6487a9e1e942485cc82f4b681bb48f (-0x5e7e2ce193f32b443d428d5cc3fd98ad5d0e3045c34afb24d51ee5dc0755b13d) 0xbd6b7140ff5307fd9ab56d1b365e4310891ea40959c0a359fd365cc70c637a9c 0x5a2ad9cd4d9345b001ea265930946cbb0d9695b9547f2bfc11e3cc245edbd4e5;
  SDbl 0x2753097ccb1bb743a52c563c78e8bd0ae083a3b7cbb54aa781e75a68712a41d 0x271e7c98550eb59d7df1ccc719337924b2f799290faf0bae04a942e523f182ef 0xaaba0ba4519116b5ef394ed4f05726013ffd8b45a0f5c0f40e6c5c369933cbc5 (-0x21552ad58bd97284c7ce04a46ddad682437d832a143927b770f2cffc10e9d866) 0x60a67d3333290bffc447090e8c07c4da88c782177069ff0326e5ef9086fa8 0x28fd76b757b32d8f8d35146cc790f161ddea5029da932e88f793823926714a;
  SDbl 0xafa9a0035347106790d9c83f0820a8ba34e4c9e224a1b3767e168b5739ccf9f7 0xa095f0e1d8d585aa1b90c795b4f797459e2ebc904dfd9b6489ac5929993f0926 0x23aed9e04ecd39bc85580f2bb94525c38282ca1df239d1bac8e175140ee9dfac 0xd85db2344e0bd1c4f2a66116de24b72bb0dd0904c57ada555c826b1e8890613a 0x78895929accc9d8ed0d69cba430226d1ad51ed320fd3eff88ab9d3a28d67a2b3 (-0x53592446958dcc950c29c4bb74cb4d1fed38234663f498e24570e6358fb6567e);
  SAdd true 0x2f48adaf3ba9131d9ea51fead39faa48a0f3ac4b59a84a8815bf4d857239e666 0x9068929660b0094386a2f87dcab91e3a1511f42ec41785c329ad318f7cd55087 0x68d774e738c3c603f34f953652edd0cffcdf6a855a829e2886cbc7adbf5f3143 (-0x1448989bca3784c9d487c793d74fe5f5977b0528679d64f42006f33e06947732) 0x8bbc468890bb71d4cdb1f1b7334ca393fa71b353b2547ffe4c56ffb08995dd0 0x2fcec0c1ec7321a4956c71d482a1313dffb8957a72da6600761da7796e3a795;
  SDbl 0x834ad7116ae54a27b3308197a2fc78132f6026a7ff2d4a8ca0f073c866fc1e7d 0x9bc244a78a94ae624a185092d090c804d92d2100154de1eddd8119780b7e8b8b 0x4197fd6d61f1d228b6ca985bc68b255ddf06669e2481a47e378607d8bed9d6ac (-0x88d7a085f537b7d28dc1fff78e8ec6066bd28a340a015e2c4f928c25ec79d9de) 0x4355adfd217c672d2378dae126f51b7b7923c2b90cbf0c0f2fb9aaaf5f6fa390 (-0x5d237956176dfbfbe0453a2b83cb8a6b3d26a765405600b5ecbeffa544aaf1d);
  SDbl 0xd9b7188e69a27aa638ee27a85f70e0589efa2c7b1216f3c8b2cf627d20049800 0x816f78cf1e18c5036cc7af6dae36676fcdf09165e57033710cd244d720888d5b 0x8a2501fe940e621048f59d51d564aa9be01d0cbcaa5d8a5d9484cffff2c33b93 (-0xacbcf8287681ecadaf20e4f99c8816816401350cc15973ecbf92de81939f8798) 0xb927ea96463367d73f32765f03321ae839675f3be0cfe7442af6e1b21d45a471 0x16630280a9f39ebb011ce824c31ea247a5a23fd59855ee38bfad6348a9f0923f;
  SAdd false 0x54428450fc070041c5cba7ef44bc226db3eacd96e6e6a79f64401ea2c27a364a 0xaaebaac221df57ad0876c15a349bf0946a11da3c4704372bb131f83c8d0745f5 0x12c1ba42fde0abc7be69ed01749f4da7fff65cfe4fe3903367dbc4f31aeb0d07 (-0x19e47b2ec6e39fea97f5f43cd6a7f9b2b46fcb620290a0687e064767f4e6d96c) 0x1bbbb81dbf45e16abfbf4a6a81b3bb198213bd3e051430b0df3b0054eed0fab3 (-0xda787d9d4f3f6aa1b63a998980175328cd43b7f97364fcd253d911c2d5bdee2);
  SDbl 0x32f8899241ffc13c96d5bf7c1a778b2f1f06f3316f9e325663958d89af2b45ad 0x81f31107b6d47a4ef3251d32088110271286e0b423ada2eb2cc83fa810382177 0xb2ae32a21be9acacb5982d3ee32caf17e2ed63427b01bc3eda338314f34f41b3 (-0x14ee16ef3cfd16fa31f36c3c716b7c2852c657562ca8604af7873d102af836c0e) 0xa260708013bac3d271a8b5cc1cf3610cf04bb43ad0f4e3906dcda642931f678 0x82854dfd044a3d31468aa06f316e4e4b37362b9b3e8b796ec5107e09e3eaf94;
  SDbl 0x3ace5ba671d3e522c8a9365d0d40502b740e8a7ae045b3968332bcec87c2df12 0x4c681b2188f48e466f1fc97b7312d13cd49486bb35c8a2ea1653fffe48ae301b 0xbe3529cebccf319e0f031212f5309328afc1995870ebd5be7d19db5d1b10babb (-0x73cd9a9ea59011f9d8c4e81c202858eb479435b59265d47eb934a8400f97673c) 0xd8227df19c51ddc16fd5e42806be6d687ec7fdb49d2af1111efaa82937615c5 0xc4ca4b3473d37ed5775e833348a0fc3ed301772464b7f3d4066fa1071b5dff6;
  SDbl 0x8c854734a11ab6d9c49afe3d30315298d04a8b04048b66c1a2e6b057e29e3e92 0x8d29814d2bf621af87ada6c7bae44c9f256e36ef274e6e7efd11315a5c1f1c70 0x723634279a6e84f30d3ff92f05a3c2f968096c4d40668e97814d4a5997512c19 0x8c664371e7979370e489869ef00d74c814b9b1dbc31873217a4ac6b834ded73c 0x4d220b44edd4e533c4ce64a04536e3de0df6b64c8ba104428d2e21cfd9f87162 (-0x238b7a5d08bb45050a372685a843286037a34f23a147b2777b87f5d8f784bab2);
  SAdd false 0xc1c7d868f47dea2f60fb1e5d7c51dc3d3c98f99991ce87f57451a378feb34f0a 0xc52190da6a104a84dbfbc1b4ec4f79cd0cc6a732983f8b98a29e62d1eda17010 0xb46ca86cb2585f9ac2cb772f31f249d6aefd27e6272efd204acec4b62f8e750b (-0x446c93f66f3e1ff75471c9b39e95cdca4a84580f0b19ee6b4e88fb9d35686920) 0x92aef050fd722eca8e54177c21c347c1b53d3c6d0c2d0b16e08cb5e604a9d4e3 (-0x2a5db4ddfc5427e92cea4ccc6189a3fa44b90af4d928770bcb2bfc44195aba9c);
  SDbl 0x867de96a728f251fa29d765534678749ab61bf7c4d53cf8fbc7a891cdc96ece5 0x8a291b8f44fd30adc8e32e1a77770fbacc4269b4ed341442c2d5247add13406d 0x58600817776520d724b4bff31bea846e425b95eecadb12cadfbe721bc22d71dd (-0x109d2cc936374d17af7b93ee2c8aa0505532526c4b61fc4f62b972de07e03aab1) 0x46a80e497d5cb9bc7fe080b3394d399ab428c30d8751762d5d293de2a8c31bb4 0x1efb0e7b6219bbc37e8626f3c97dbac5182126b93471f93ace18da99111f0619;
  SDbl 0x2be71a9b799b0900dcb0264444d2fa7d05f24e667e89d0cfc99c7e1e035edfd4 0x56f3bf47b7a9a3dc5eb559d4eefe502d1f707a220cfdef1f65852b81e78d38b4 0x73d27eff0ea0d72976de6ab4f7a296d672080f3d68794f8a7240b4dfc81f44ce (-0xc161368c52bd3121dab1aa02ef999f3609930b0e5e5bf74f04f054631cc190d0) 0x787739149baf181ccc1648788237f13c8cb296479a7aad90a32f25f8650b1fe 0x8c830f8d7171f6ae049d3c2ba799f7ecee2c915aaa8ab99585b6bf475a62a77;
  SAdd true 0x950c9e6f4ff53538a1574c9737e95231caa13d421fe2ec1c4599001ba1e1682b 0xcd77ed135e1bc0a054e1ad8f49b0903be883f2ded57cb917f2410d14350dae61 0x3858fb21e83e7085f116e8d2985765befa18957074a6196328480eb57d9b1fd (-0x15112d8eba6cda8499219b83d55102572ba647ff45e9e60f795305d6d01f235f) 0x56c7b10d265837172cc64669eb5163d12330e2476b3a02c28bd1398ef3ee64a3 (-0x4500c6330f04d9975111d693ba3f82b03c5180a32b1e7542fdc325fd7197fd26);
  SDbl 0x8afe4245a4f4db212a6ba1e7252f3e7ebf72e8287b37afb55ad31ef4933e76e 0x75499c61afef3e8297a928c5f4b20b499d3b5314d0bc0dbb7bdafa3c64af0ef0 0x3e2570e17b45ebd15cce92d729e026a13e38a6e4f362a99b789088e354c4bf39 (-0x1ee7eadc347e358fb3eed11b8a018f3f49c58e0592e543e3312a88f298f33892c) 0x4b771bfaf4aa6a1e237c7ef5ece63559e48f2a6d80ad1fe740347e0bbeb86e 0x2fe08c47f62aecb24bc378335e9c18ba7d3d6bb6af4f1887b963a3dc593f7a8;
  SDbl 0xc064fe9ddc57d179415dcedb22f2ae8a38ff7c378d0e1594131c3129dce8041f 0xda2f555e6eb94e98d93d23370ef5acc83a02972547635e0fec3b38b440149f4d 0x81592b09e7fe94314adfd9eb9b55db198901fa8f03237820155d22c9c4c718e6 (-0x43cbe82277fe8144276fe035c8635cf83f27dc1fcc54f00454f62d9875f2b4d1) 0x9097a5c543ad272d117f895828d44e578e776b7c1a53905410a463e24931c16c (-0x4bd418d442eb6bbb22e688c02afcf608e5fcc9454012ec387334dc61fe9e389e);
  SAdd true 0x20ed3b44f4023ea7a324a302aacb9802f9eb00d77ba067beef8e00362bb4d46b 0x11813d56b005b6056644cd4fa7d21fb154c3606fe6e1d9c0e4e06d062acb613e 0x18d6862b8a6627cb9140cb1eb03168ccf07de0593709a56fb66ef6539682aef3 (-0x15887965d5804ae8b69270e38561acedc7fb708b7e7cd9add521122a20746a44) 0x43c2aa80ca161858a7571d22fa46d0a9a3475244950bec55a020f0845731099 0x19cfbaa37de1965d5dba5d4d7883c5fefe0d9ecdab1e1f8c296d71a3a6bc6b94;
  SDbl 0x6fa00b9ad47151dd97e77bef4e3adf8f288a96c2ada251e63c05af9e7f541621 0x4421fbfcd5ee796374331734eded43b0dddc00d03dc9f1cda38a48e9e2d4973d 0xee48ed6591dd02cc7ec19a576371fb468e08a67b489b756d1892a83bc1790761 0x1211d494db0c210ae0510bc494935b761f5cf8aad7c522749edbac73f2914263 0x30ac2e1ef6f6aca97b5ab6e6f6e0b48f9c17b8b3c130319cb6a02aa6f2d9a978 (-0x1613596ccf425236ee5d27553ccfe122ed869a08d9a8f4cd319ade13eb8469cd);
  SDbl 0x6296dd59051ff6818d5c08363880b15998cc5f4f8edba3babdf9987d13367aee 0xa72c8c4ab0ee9a1f3dbd3268ab0ead9be4d486be572ab194a3be5c854bca0406 0x8efbb246a2008114f611b72c26f3b91a0d6b2a268897eb56747a057158d02046 0x8122782457588e0512b2fdba3b7609a24a1003bce3c0110373cb3b710424e13c 0x25f7da607199265e41949c4544cfbff7ee68fe042555c728e5372015a6037d3c (-0x2624691110d3bb43a5b2a8a7d74e2f64965d3d24d8855ae698b036d57e4deb7b);
  SDbl 0x6157637a16aee2beed1d2229309dcefc8166e93d869b34bbaceb6295781e64a5 0xa4f5742f1525093a92d597ecf9b1c135b01a10a4cba10248af758293e27e759 0x43ee8b7a459f6372b7f2533e48e03521c03f5e0ac5f3ed1a71d49aa0316030de (-0xdac5191307112372e12dd95d6bb7f790a5d7741ddb456a3a1c7135fead4fb9d3) 0x250357376dd6f1af1f5e7f2feb868ab0213ea9c8f3abd90502ba132b677e9d0c 0x3ba55d398bb523d82a5faa6de286143cd51b9d18d436c588fa035a47f93a41a3;
  SAdd true 0x120a5782690c00ca542da74e6f1f344b004fcf75c153c28c74e73dce1b412e79 0x6a75453b6181ecadfbdae75ba8f676d6ba4fad19f7366789c629ca3b14ce4ed4 0xdd0de088cd1c2c8755c8995888a844f77aca9b8442103bdc76dc793f99ef93a0 0x2d9e28649e714f53730ffe21dda8fcad8c35642c1fe4839120a0a26fd3b22c4 0x14574b94c253f9ad39f6a9d7f7baf072cdb0e5c04f3204e4c2a22cb5e60f5c3 (-0x6c68d14a8f49ee1cd3a6bfb0634beeced9ca3da57574745b7402bfb9a36385f);
  SDbl 0xf3410b9f496218ce74ba5eb07cc30c420fb138cd6add69559063c830d7e638a6 0x3b60f7188541407da4f3e3012f09c166643b32668fab627e9fac67b04a495d01 0x9e905ddb82e39f2009960c60341aea938e09346889e80468dcff645e37df44c1 0x11f48b43a8a28fcdcb7aa99433dbb116e907873dae1419f9f8b33e69bc9982b2d 0xe7248c9833df1eeb6955db8c4e7f4ee5d85e4b626200ffe736aedbb5c914ef05 0x2cbc3c76451e680f2cbb27bc8a4d2ea3e043c2600af1b207cdc4d137f221e18f;
  SDbl 0x610d20c6d3654e0a7dc5ae1201648c2539830e91f786aabb2dd3335293367a03 0x26390d531c9c05889c94a22b448540caa24422d6028b52ec49d3f95be633a1ab 0x853e45f367c8ea1b423baf446f816705bcb485e0066e7c10c1458e152da99d3e 0x4ee82685ea1a715a3ed21d0f4502483d53bba39bc6e1a16359b4763f7ce39d7a 0x24caf383296180360c89929b501f2d389bde7cc8da4d872f020fd119555b7fa4 0x80535501f41e1ae845a3445ccaa43ab3504be01537e7b32d3b7b50ff7dcb3fd;
  SAdd true 0x84c1364d8f536672f61f88acf0f87d3abd8cff434b32d38611c66d9c44e578c0 0xbc8f4334d09d4ac140af1f00366d6da5ce3084255f8a061e34a3edbb50ee468 0x2fb20ac00c39e8f2c2461fa7e42cba63600fc7dab7d62f5f7496b50255043e6b 0x68176dd7058481e17ebfb3154916d984a4b067b873e6e7fcb7f265a35f0de62 0x44d7d1d32d1cbf30ebe6c84cbc4e30b503a3897d4aee01f9e26f1de98e1a6ada 0xdb5c1130d8a1ecb531710fe96214e2e2b66ee4becee1e25719fb7f255798169;
  SDbl 0xe4cd19c030b6127ab646cc04cb62bc2c4be54deabd3ba48b856fc9af54926b4c 0xf391de6fa08d5b311fb924d3a1343811bc0403f11e04c725baf2325c1a0e67e2 0x350d21e865008dc16ffbfee664346130f1ca25c2d7ef9b2155a22442c95bdb71 0x53a0e7b35f20bb99bdcfb4962845cd72c081c3119d8dc732870722cf14bdbd35 0xcc7dfa3163a768823ad9e9650f05b13fc70cb0590e27702ad5023c0314839222 (-0xcf28a3d2bd82bed78108f81ec231dd05a54f270836fb450ceffb1723163cdfec);
  SDbl 0x2ccfde47c521a0f28c48bb9799a254b076b1c98fbefc3dce0b23412573df6a6 0x5de3ad64c6992c5069b0f3f6c1b81351ffe58419901f4ece312ce76e4cb33d8c 0x89d81b70a5e0d23e82f5e79d558d01a744761b22a09310a0c94d2e0ecedea71b (-0x2b611938355be2deaa0670a4aa76c050d022ff15bc12258695d42e95ec218d803) 0x7d81d31ecad06ecd8bd9d007a0b0bcefb8e630d3f6ee69994002a341099ac 0x1a337a3ea489670fba5bccc902d42c5fa2a06b057530a23e2bddca083f06ac8;
  SDbl 0xfcb54494da70300c9b37ff36efa588788ea73f67699abdb7a5decf7f98bf301d 0x6f34582d190ea31b092610f2ba28be58d387cecba38f4b170a063a3074f2d64f 0x35a2e8d819604f2eeb68ab23642d6f76c0930daefa5ef414ac3d2c539ceedcab 0xa8d7080fcd061a0c8098c149d2e0fb266eecc86277f883a8de24d8a8fa56118f 0xf9755f60145e8b35bd69cae18da2c0f3b424950b2e2dc3207f6fce5bca086e1e (-0x1117aac980abd2761a85a4b06127d9e5f71190e83e3b6d5da7649e2f56dc9e23);
  SDbl 0x20f073f885bd4125bf6b442280190375f0ea71485b8e39c6926f88653edcf0c8 0xfb6073dcd86b9f08d2e56da6fb08cf90414e27150a5e0258f64086f488d97800 0x886c51178f60971ad7d9ceb7cef701573c6f513423fe4410e5330745c457820d (-0x831dd13e8bfa0546865dd1c37e8a37bdbfac82d41198d28995bddeacc294e610) 0x43cfed7cc304b66cfe65a46eade15ed5e96aaf42efa5a72b342ba35d887885e (-0x12092c4fe31d82d08fe54cb6836087c56b429ee3b79bf8265616385e08d95f00);
  SAdd false 0xed358e462ee438de2ad249db1c3fce5e220304a9e4b3a7955ddc599504ef81a 0x4f580070846bda45ee81339d3f479cf29d995fa2ab9d59160e659febbef1c57f 0x91d3b3823d10d6f9bc022650bc320e93416ef6838eecaa3b84344bb66bcf6cfd (-0xb9e22dc2aa087b69c1fc579d86432892feb36a163eb5ffd85e8ae59cec1e6e4) 0xdbcc34a306c01fb0ca839868f63cb2c188a8890651fbda33ae65e91acd4fa2 0x9f67d037a8718606123cc3724de5bedf21f2b7840f00a0cc36178058663d5f0;
  SDbl 0x9b3ef2317eb00ff4a80f4fe767afe54bfdbd9ed4c7ded1af6ee443f5777d0ced 0xd5a36a43c7b090a8a149295ae8ff008d6d2e48e9d1aa95bdec26d75c9d7ef3c7 0xcd3a2e88cbdd85b9305bd81a84261995db55a8265e36c096280055716e856366 0x6717c64675a04714b3f16200882086a8194220c0da997152ce79e7f32b169a8e 0x5e2548c282a976731cefdad01857e783ac652124cf19577bf4e5cc7825496b5c (-0x5170ae641d4404ca5f926dfe957d2df2b994a627d60c8a1c576752906da3f6f5);
  SDbl 0x3c2cd8598b3c780fe4c21b861aa80a60ca9fe89fa54ebc386f7152fe2743ed38 0x93d4c42a6df4468b9708280bed2508888909f6a733529818d6ee033323811e92 0x6e0aa97b81b3ebf9b48e4806379c10578d9f105c31a4595650c1c324069f679e (-0x1b660d8bfb1ba851c7c521df15b50a4d84b586e011f30e1e215bf2fc98db42a90) 0xe250d451d087c9dfc1b21fcae496d2ad5aad75ba870a5cd3f03527f475e49e0 0xf77f60feda365ce2f767d8fb5961d259af4a552b9eb6714efef2c12e75d166c;
  SAdd true 0x683b7884005505272d1d349a7f201a97320151b647f721471ea9e18f24f0fbaf 0xff363ea2d81ce91bf53462b2c2630a3d7bcc76f4470bf9fc4a6904202caee7b8 0x23750bbae1d7a63ff9e2cb616a67b5e2f2d09730ea5f157900747dfb21291bfc (-0x278515561fe4ea5ab58496eec16b80cfd5ddf50cf3c4f3a8f62c6deb549b5c39) 0x2a705fbc30499f7c71824c9e8b9094adb16ba1a95a0b8e315cabd7b86bebd970 (-0x2bb88bc56068c68e473d95b4730f5876546f0e149482d8a553d4e767c212b96c);
  SDbl 0x61988ae7837a05c3ce743b6836a399c7d61c153de84d6c037512b02a532f84bd 0xaaab359211f09f3cac9844f967f6320f1ec209582091775c5b82d22cb663b9b8 0x54938ace1b905b499b22ef84158fb1b2ee6a06a86247587cb484515375cd0d0b (-0x2e03e607bb490ad154c48e6b54604021df0403a066d5c08d537eeb379da7e755b) 0x2534f428d521f88c280ed59b77143ad07ed21855ca2b9121c69d93847f88159f 0x203b0edc450b2be9b6950ff59d3831d371299826c23170b13441c1da0bbd3307;
  SDbl 0x85ed7ca1c289eb7e4544488850c50937268e2c7fb9ba1676e4c54de6fe732913 0x75a43af99d66e3b4260220c69e3203de650569d7fd7d24d48a3fcff5fb164362 0xd116884e0b28c4982749248c183fa65229ba3083edab9f64c32afad730066c16 (-0xfcd94731d6874a5ccc9fd77eb73d54d56efc3b3be38d8372ce46997e555d18e5) 0x46109fd05a633c8b779a4b7df4d69010a73752e90f8a0d8bb77b7edbc6349f69 0x1bbdd178327e9127f2fd4b45ae9be29303a936a0beea0194ab902fa1da7deabf;
  SDbl 0xeab1e38fe16301a3cffed9bc6001c1ff67510ca57070a806588e00959dc943e5 0x8d7306140fe8f0076d114a71b35c42539fca2bc8024ff2afaddbbfb7367500c 0x3af3f4f7a773c924f836f43d920a1320d9d35d3ec733a38fd9e0ad23a0a5d66a 0xdd313045acbdd6b4ffa6cab6effeb19bd0f2c5dc2a8f1f9ab55dda8d7920712d 0xd729afa05670d41b3b27df9d3e56b5b4d815a44b79b5f4a93fc7d7d2d7f82bf7 0x63bf062af2469713502a137e5a4e080f9167a3e513f5608ad7a2c2b5daf71492;
  SAdd true 0xb06609d3e18562c2fb2aa7d432d87587bbf958b076f3758584028eb060d1375a 0x91aa34047fe0c18fdaca44cbdf8fd69693eb9f8e2612e0cb7c7945bfb5fec911 0x1f000373ee06de64ea38ad7bcff5347171ab9df0a91ed83268104880c09e80cf 0x1ce3fcb7c1856607db12eb7944d4233de0d75103901e27858d9a2348b2760378 0x798c762fa4dc297f5b15366e6868c2096b8d83e9b76b7d4cdd97bf056fc6c240 (-0x5e479bd4b623aa1693d6f1cb756cbdbdad861a4e0f5c404b5d464c91fd660a05);
  SDbl 0x5a38dbdeb7a3e21831158ad6862df3bc42af779593c483692d54f251e8f1f820 0xadc10aae22338352cb9f20430158134c73db3a6b30b6af286bb96520cebbfc1d 0xe7de6593cdc39dc97b6c4fbcf02700a5d02b42d492e1d2515896715ec37e6672 (-0xe2ccf8949288c6967aaf825f43e2847c32ccff3f7be3129d6bac027c05f82a60) 0x1fcc0739a73269dafd1844fed6dd24fdf66f25877864ca199978f5f11dfb8a3f (-0x9e644969baa7293d893e1f89a74b3ed2d9ac3e8cfb71674260d0ada2c7d173f);
  SDbl 0x6dfeff10ec2e1013e85f2ca5f19548567dd8aafa33a647312158fb18410ae9bc 0xe0802249eed94126135e99c652b403ab13535fd0483eed7291c1ddafbbc65a29 0x9cfb136e1ef8b8e124dcf4dfdfc3aca6c11670d24f15890c8bbbde261c462462 (-0x9a8a2024d5b85fb93192d89f6586116667e6f612dd85a733689843363914a998) 0x2f432333bc19bfeebb2a8a29c7a0b522cae25c5d9f750083970ba188c9269053 (-0x15cde9368bcc7d5b7dcb9f094d65385a89c16f971bc0a93034a7985de48d785c);
  SAdd false 0x33d8760f5ec5b1d3a4907e4d9a1e6ab251215d02818273018fcf28e1a610b69a 0xa5109cddce158093bf8a961582063ad6b308211b0a239b21fb49f2c011c24bfd 0xd3d0514769652ab71469d01a08fab06cadd16f0e27a67ec3cf14b68dda0032cf (-0x232f3e6ae28c458a8d872a7961d90dded56dfed644ce0e9bb3fea75898f86c0f) 0xa7ff6119aa4d4d2818bd4bfa562196eb7c9b012048e0bb9172f4d5df355c649 0xc09791622d59f2689d821a3026820201132cd09fb9718ac6512478b630288b9;
  SDbl 0xd8309ed439df5391a9f4533a5e60ce782e37de8d1c9d8201e8b47e733167e590 0x58053c25f35f22b260bdb8a57e0a0608446ee711af17da8f565b620c699e1cc7 0x45a65bae43e0192318062e82b0ac23d65932d65c6a70fb97a71fd8c9e4eb5b33 0x2674bc3dc1b468b9170bf676a4493f9fc2404a3bc87ed20c671b01fcd8552938 0xb6921542ca5b4d6781e6c28ddb30144148bc29d9d43166ccc7945820e567c3c1 0x41103b8a689b6cc88e9e73ba506ca23857a93866cdef996233a51806779bb1a2;
  SDbl 0x54b18da1803b45419c9657bf8408883a4a17a69629b03f3bef602f79d17a1ddf 0xf2b3b60012c2d5c7955ffcf6a2073dafe45b2de4faa57999ada73e74244b2fe6 0x6192628968622d39e624e9c60dd4933f4480ed80c38f47de12e2c00f82d0e706 (-0x2cb5031a63f85e8afaa13062b1da37973dd0968da9c1a9d33d506d4c02ae08ca) 0x1c0500173fda84a3e86a6c1e1b38e3ec1afb30b57369b4e2094d44b85d7f2133 (-0x332c8831b39bc556f299b02454461201aba2c11f4693391fcb29aae6f48f92c6);
  SDbl 0x3eddf74a4c64835d0f338e23f3b93a40f9e912c569bbc39d7a38c8969debd850 0x7bbe52f8d1d1da48e696c81956ffb0c0fa8978215c5969c8cb2e09b20b11a7e9 0xa4fce4ed2c2a7405adb23fa6d7c96e63450a8f3f55acf10343f05077f08e44a5 (-0x2825cabc930715673ef6e1928cd8a40a092f3dd9f55d405d3897894666c3fbbd7) 0xf70443cf1994e630a07e0d84962d005e0bfcb3d1a5e88d84fb2e8415a00eeb5 0x1d3692bba52e2dba5e2ea7e3fc27ddcf99c81357087e6883c97e08230868349b;
  SAdd false 0xd1700830965c81ae487e86a00629ae611e34cd6951ba1fb3712e21e9a080eef0 0x2d183f18b3aabba6105555c3e8279b36ee8709265053be723be5d6bb9c591fcc 0x22565a1ea7c6af774daad803b8d988f1ed0abb59a6c4024423e669af7288d277 (-0x3bb3bf1919fc61c5d602821730c56f78c5be633d9f8c0201947395f8a25ea966) 0xab581e672ba1cdb5b99be3859b774f881cbc63c173b57a1bed3fe97b0bb41b7c 0x4058016708f798a9f2cc6117797be4373dd43a340a096bcfa2a58774d90c85ec;
  SDbl 0x28a7d902a2b7441b2f4b607e4b7c5545979862755fb4d656594e24aea0ceec8f 0x626a72c4b98e0d1069a727afaab65ce96ea749fd1a9df5d936ba8e6b12fb573f 0xf4554513f39cd0ece1988311356d37f8f21171188332d12c91eb74994b510124 (-0xcec966584c268086158b19f0df454dbd76e049feb4d48db5e09b4ca71096945) 0x674e1ddb2b3ea22b0b2c8a16cab35573d576b0f211d9ab2e88d2289faf19ef6 (-0x877cde5d8f092e39a0066ffc8f5f38eb3ac6f51f0ecdcb448970ffbf3e12f28);
  SDbl 0xe0f426c7431b3f8f8fd9cdbe3e27e125bab66600108e2711549ed19050f7d5e4 0xb1c554277ae077175efe2716cbc76270e264b0813cd9ede5b4bbf476bc99c26a 0x5cc289f5033e2de741e5faf5db0663476ca47b4e84b204735cf26cff6c7ff691 0x13be6410fec226035617fcd6b2c921f97b4b76c6ab0feb4089dcc952f8629b460 0xc5ac2cb76cd38ae94f0da0385988916a3d217241481fab4ea116532ff1e33dd8 (-0x45bb33dac2eaaaeae6db86086e98ffdce5fd9bfd8fab64559494fb5c916fceff);
  SAdd true 0x14b4bac717c2494888197913ef0e630aaefc9c9ea5226f6eafb56325a20138b0 0xc07663ddb4ce50179c87083639a5eaba746293bbdcf5e533ee54f2944ba33df9 0xf59703e40c32330ff59c2c39af8b5c7684d9a05443339fe44d3fbc46048fc7ec (-0xa45b615a010e207ddc2e3ea5bbec797a442e23bb52c3c229a654ac58981fde1) 0x1acbcc64da26accf5a59ab121f0874d197f083a05c1a1d51ed31df3fd9bfc2a (-0x13034715c42302bbb2d2efe852b1f630eb4a11d372757df1e24f3392bd50733);
  SDbl 0x262a36f6c560c4169c2d0d84d056eaf7415ba1500c3b72e2bed8c530a2179f6b 0xb2813a4ea2c053218be178f25755e107b6d816f6ace19f9bb89c75ebfd77132f 0xbc28d6c2d08d2d3b6c00875fbdde3c74cb5a47e428b4a22cdf3e3c3039d449cf (-0x168db917d937d05806d30f18cfd0828e922bf6a08a984c92f645ae89f66ac72b8) 0x5b08f475d0f16632bb82ce4a4f5740cf7a4a5d73d77a24a31ddfd03203d7868 0x214b1633b58c8212cef91b454f8abb32c3261a87b996ddbc2b8e4a47734b94d;
  SDbl 0x5f29e83112692cf3d78429f86b78356cf58d704c7bbd351a4fb8c95f27c84da1 0x6e0d10fdcb4e9743f91d15c1eaf02de8a1beec3b4aaeb92a923fed66d1d98d77 0xc0acfa761145d2429571f909ef97b92389b2dd9c88a07a5b9930fbfa305f09a6 (-0xe983f928e0f25401fe6ce77917640266dbb9d119249f95a7c753527d9f75547e) 0x23602130c15b1104d07a5200e0b464b5865d5b89d3d39e91f749c5605bad7494 0x197250061bf17c3e8737005d5da1a8f1e11eb19e2eb31da5cfcc24941b29e2bd;
  SAdd false 0x7ecec527f301fb68c99f82e103cad2b091d1cf56be4c5f7218ab02f9717c9879 0x38697e2fc7c1adddd7f3d713f5ed44174eddccb2aa9e37250d59c391a8a898bb 0xa99656aab5730b92cb9bf5326ecacc116b10a09c2c6fd92906d097b36bbda2d6 (-0x1d5d828ac930c8ef53710990990c99af0de62dc48dc77c864284c98df4ffcf17) 0x3ed031157627bdfe377be31423dee143c5a48ffd44f24256c63c3be0cbc6b1c8 0x1a91d530e0e6a03d654a02e8d831269f20220edab172caa83fd72ade8b995fa0;
  SDbl 0xb4af3558dd7734a5ff3a01dc1bb6010cd77ad90d9b2e79c714ee10a3c9f72a86 0x5e7ec04ef173b2e2c57c1d0235f63a65b218d4b3544e3a812857331b64fe1331 0x10fc2c04068497f6d8c4fe6166652ea40e004d9541f367bd9fa42cf36adfbd53 0xca18941058f335c96d3632021dba98865bdb1036d0d8ecf667195aa578c319c0 0x7f86daef7193307f38c7aaa15f25343399bf084d2467deb88c7bc43134ab0683 (-0x1ae102f5d670f35292a3b41d3b33783d6949556f54efa6338e0a1398c0b32a13);
  SDbl 0xcc9cf9e2b22a044af57370d17bbfd97ce56a95235269d7b31d7e903a53f3189b 0x5c4bc7fb4c661e0578c0fd8556d88f6a3f8a40c1d11845657fd0a59a547edfc0 0xd96fb50be931b0f03dd462d7d5ade6a30f59eafdda590662f4e57159742beec6 (-0x4d7d414f2227a88dcc722d5b71ce9a874c0a3f51ca7656c66f900d737ffbe462) 0xa38a8e836fb16fe4ecc46b15e097348274aef745a7702d53d88dfcc8e3db9849 0x1c1f7178251c070d54fac9331c95432c6edd3c0adbcb6b25b92b9967df1eeae;
  SAdd true 0x12f109b497f6aa8ce6421490b7ea07135676a5b6762b7757c1acf8d250a9a69f 0xf55a7930d6135a84ae10c41ed48224e3b523475a15c2fd3a6a887d7a4efbc3f8 0x2d0bf05883e3724e225d4ee7fa469c1d7dc11625a4e06d6dd9a0ca7ae6620250 (-0x3129992ebd8c3b55e7167ac0cf5e4c3c3d13ec814fe21b6c33dd45194e3177f) 0x166c850ad29c8ceffe74550f4a97800be9d4ca561f263e8957783310c6681be (-0xb5325181fd28f87c74b0510c7dc8b8ef0f1418f5159cca8ad0299edecec0022);
  SDbl 0x23cd78f5b438566864bf6b73ead6fdb5b873ff7b78383b5aa17afc9a3235a73d 0x66a32fee59d96246ce1c5b2a8aa9bb3a24af79d4e1d9f107f8f7cece66d8dfd1 0xdddc4fc78f556764c95231c34db0f151c292106b15b3233357c6ef1f5922e822 (-0x2b4d9506ca5d08fdcc8db9db88d4d5c212e502022b9935628cec6bab2e3de3963) 0x501d3fe26f322a059675cc126e82b98de11a5dd7eceb2989a3e7bcc844dc338 0x13f59b38b9679137938a3db78750cf211fcb9ff3577d06dcc3e472f6524c1c27;
  SDbl 0x974b6edff76b96daa8d7a73ad8dcf787954964fb913163ebdb237a24eb4e5b94 0x145769d2798d4c03a538a7dc8f36334dda188d5c4f69003916451389488da9a4 0xbef6fb029185fd5da2de06e87b86246e9716a47409e22483fefe8a2204bf8df3 0x8ac94eba35bf0d08040604d186b6e0d074221239f76ed82a767170b13efcc690 0x596a1306b68b3498800e0e98c947f8918aceff17641986911020eb686f4cdbb6 0x30a2f1b23ac5c816d55b917b87ff84ca84baeafecaa2a2223b754d8d4d6f2511;
  SDbl 0x75861995daf07a6faa3ea6c6b9ef68fb71e38b0a1b6e0aebe2daa4b07c689c6b 0x603fa5bffc4bfbc07fa8d6205c0c6514bda4e3c763636875affe1f169b0299ae 0xbbee23e7e996c9932e3e6d72882c4f22135e8ca81e0cea881661a1a80bebf89b 0xaa7c7f05a5fa5789b1de804d80f4fba844679a178eac6f43dcd4d48982a5020b 0x35f3d9a1fb8379c7c91dbf786a7eb8314eceee82fb66094a359698c20d9b583d (-0x22d8e6892adca0ba686ee30b97cc878a3361d7e6c525bfcaeb344f3eda1e0d44);
  SAdd false 0x2d245582eb34944fefea026147a5b7c79e00fd00913d0d8d146e478f9e519e16 0x2b4cf038418246c21908d61f4ee1ca35b01e18a08e048d78af2cec480c74ca07 0x578694c7f81af6efaaeb7076018cd0ad4d0980df640b3873cbb190f5b49dd90f (-0x8051200ed2116c9f469aebaac10f794d33ddaffa867608420e9f2f299a12b62) 0x7f5cb383808a14aacd9a989f382b4eeb8a0c7c8346a86f0fed5a72b4738ae98 0x9562dba166dd3776745580a0a662a86b97814c3294bd871e7d668913459e750;
  SDbl 0xe2835740b8a4572cdc81cfdc30e3ab452b84d57c65330bd5f4a98448990f8e15 0xf2b298f0f4ac36261e96402ae5a96678e72e13b43d3ce7ccdd469642106f20e4 0x4b95e992ceb69514d0b1661a25d451a816a98299dbbc85ef1363f8c46e75d4ed 0x84ea9ea05bd7b9d0390015ec7e5a7c0d73390bf6266239ed6c835766fce0e41a 0xc86c29717868596a703ff464ba4035faf25c54efeadc7d351d1d423b1a076739 (-0xb06e0bef0aaec516374473a4e83daa67808b2295c08300a18b689ad181419be3);
  SDbl 0xee83da40e37b5dce0304af96abf05249e5901301c913a6c51bca573173010653 0xd5fc2e68d874868a811925b74b1647c9d6ab6f2c22b08a101753dd31bb65f5f0 0xa1108cdc944c80a4cc7a3f476eed2709634ff6be484035c5bef7cd7759c85b9f (-0x22569d6a848d1d50ff383810cebda6df84ef87aa5936a1ce4065929c1a067cc81) 0xde396dba9dae34484fb7c98448b38c855e57f7b81a88d80f688a48403d7638cf 0x1ac060ddc678b74f0939ccf91b5c88af8f615ae605b557a9e02dcbe9384f8b70;
  SAdd true 0xeb6e25fd2f73d44eba0cc7290cdec76d1e4bd072193b8d714fcdcb8712483a4b 0xf99e1f1219c47a52db1cacf25eb303eab9526784402103aedd4eb7261b1ba194 0x960879ff774ceb0a9b184d6074a8c550336d14455adabc02b2c97e14495dbf42 (-0x961a2cc9dffbec88501f79927102fb74642f1050487d6332faf14b7c5c4a49fc) 0xd883692458da0295a5317cf6f00b685f8fe3a469cd9825d1e9f03033a657fa52 (-0x20c4fcca8de19a1f92685949a2c9fac4f2738dab18901271a6ad3b875b9d7413);
  SDbl 0x1fb85f35e8f63f26f664766307c7aec3112dcc99d47e6e9c09ee4484095bc132 0x3c2a2752dd482889954a35dd198789ce52d9719c647b0dd86397ced96ed6815c 0x64fa6c1048e6b92989cf52d75acc6d67a9f57ba3cdf51d148463cc02bef7f462 (-0x2b500c500b87abfc4a1e6780cb8c6c77db3b48636514ba1a8c497adb28651c11b) 0x3ee2bd81341bf5f57c494ca248477ca912363661adfbbc2fba3dd1d35b556c0 0x17797cd03f999acdcfea4ee9633c547bf648db4d254b34242abef5a8d9a330b4;
  SDbl 0xc773eb0b9554d9d362ad689a9957714ff9659520ec1424744dd77928d38625f6 0x3ce667559e11ca6cbb21909495eb3a381fc3fd51162bf5ae698e285ef1c45bf8 0xe9489d7346faad79438ebc846c5bc93d897a64b60340551d9c4920e86e4f7884 0x72ed6a4c71c0e3e78f93e9fc99d475415e1665eb94f028e25186af16b1c38ad5 0x9b656be9a1c5c57bed6ab6ecd897e9dd1ae8a56031913419d8f4f4528848564c (-0x92aaffbcf31929317d3e0243758884dfc5d0a75b3b0acb3c5a48cd9fe7f532);
  SAdd false 0xea9926908c8786c8f0d226708e0a31e8d1c3d12058d17dc76948923ef2fd40ab 0x6b2d4e5b8001d545bce04de08ee5a103631820dbc4efe5ea208d0327bfd0b0 0x2596a36b65a300ca03a06b7aa965b02635f608b2b442dad349b0cf005f523676 (-0x948e2ee5b28d6e9974f06ee51e7eb9567ff0851c8865c12fed3da7f8e38bb6a) 0xd6fc5620367b4ddd4c8b240d88df09ca742292da8a73ceada7c6d34b1e7caf36 0x376cd1ccf9bdfcceef1ea3651d5d8b5bbfea3091491e3809d9747980039ea5e2;
  SDbl 0xc20d52071996de1565eedf30a6352d8701cc54a8df8d7a70d29c043c4c6f41a3 0xdb4ca7f511285ac4e01179be2e221b8666420d3a700092a30886f413b4819543 0xa6a0ffad4369082b360c094f2e186850a241454e3e3e4798cc54291d2e359de0 0x38fbb27577d125627a21328fc8a68cfb5775e67b72ac4089f267d479a58e24b9 0x93183104c4e1ff86d0a10ed1012b2274a2067e841cf110ca0d19f25f3fd308da (-0xa5ea4288815fd3337604a822e24048a71a7b9b1f390b22ca909547c7c071af11);
  SDbl 0x501bc298073a870de93424f63ab9f625d4ea087bca3b3bdeabbd8f1a2a384aae 0xa950956ee66ec9c8ccfdc6a74de121d01dce66b429a502c76461b8ffe26d5549 0xe13576b479fc5dd0ceb9339a081a51edbcd1bd05d30a1012a2952c19f20bbd42 (-0x1cb4bf7e1ffaf8ab27b214037cf54b690d4364680fda614725c93d0d46c80ede8) 0x19115ca1bd923ca036a7bb76198ba04bf9fea329b9e417163eaf8ced7187718b 0xfa4315ea642ae4637870312ad6173b65987eac49222df770e5d06b3794f9b36;
  SAdd true 0xf47b0d7711b5d3016df5cee051171d760f8d274bbb048f9f2fa6ff04733b899c 0xbbe7b9d0ea18df11d7792eb6a774e7c6a8bb79b49a59462e8d7bab3eb724808 0xfd1a09042c79b905a03641d32f58895217e8bcb2070e241c2887589d5e805cb6 (-0x713653e07243c4477aadfee5824d33c70d366a2d5dc8a7e3aee9f7b35cad6b6a) 0xe97accd1d45dbaf3410bef2d174286a9c2fa4ac4504bfae9966418e2214bbb08 0x967afe18b51d912242b65a03ee43e897b23b71b4bbca835c7934406c347d3d5c;
  SDbl 0xecc8b3e278ddab71005aee55b9a9445c5c60cefe440828d604f98e103eaec5cd 0xaf3e8de000c31477c8adaf174805bbc36cd615549c951c23deac049002cfafbc 0x198eb26af47188bd44b8058915d35343a6f5f4f69a8895764c03df7b21f5d4ac 0x1d29717f02c73cbf945714f6e604ab9480f7948f2efc08f24d19bd9b7aa80e941 0xdb02a903fa1eb4d7d18a350973e51957bbbc16dc66db2f13b6f03537123319a3 (-0x973a3fc7c3c4dc0212b90562457d8a492f3d1a08e1742060deee70d3d4983f7a);
  SDbl 0x470f5dd7a3d06f41cfa70e1fba6318508d4bfe433deb7ba0f7cc4f27b4223c3b 0x143823672ceace7ee96e75d3154cb0635934a0fce7f4e6a8d58ebc9724958987 0x30012ef30ae2de1b25976d4cb6b61799c8258b486ee4ac641de13d6d2115154c (-0x159b387583a0ff998d8f469398c45e2ad4df951eeceb4b319b7e7f73d70b0f11b) 0x13b986f9d242b9c75eeb81fd949d663f82f8d1bea523a8773883d876245d3366 0x2b0815bbd52219a084497ef7d87238eebcbacddde51caecd86169ece13a5afc1;
  SAdd true 0x41ec56dbc9e6ba6509a00008740aacb7f50790d82d41a1575550bcc659c527c6 0x5520c45e45c92c4f4befdbd024864ac0a21ed68735b31a9ecbe36a4d25d96277 0x9dff53b9cc22cd1fe5f44f8e04026bfee27d35710799f37af27e44717b68f533 0x7dde32967dbc2dd9eb84eab7d73f94f411cb04e050f7ce360154bf6789427d4 0x10f9de4bf035b2b4fe9d9db56f483ef1714331839782770b2c2d68a794d173a1 (-0x10b6fd5912183c8bb4a6e1256d38d2f9ec795247d712ba324761cfe9b24b9be1);
  SDbl 0xf10d2072ef5397ca1f6d85d2574b8e557668893fea669b01fa365b2076cba108 0x60903c243f62c13dbe2bebca11d224af998a2013e8e1b2f373a489655a83fb3 0xe72e2924ecde61f9fd6cfbe490da99c494cc1f0c00ce144e927405b83032e910 0xd49e9bd801f9397a00020d339f446fdf8a5496604641dc7fd109f65bcefc80c0 0xe2f9b7c5995e597c7f34a928abac7f870220313ab43565bf911cd0c4795ff461 0x4a796a8e6ab56b9b1f8c48b43266f2d1ea2325ef7e0da45946af820759c98423;
  SDbl 0xcca375210bc6694f3f8e3962f629178aa4ccf78106367edb29d2ce14be1076f 0xdb2f07e12d1f93a3ce8d74f632a6229a9ed5ba6abd148720bdd6dc83f8767fd1 0x68dcd6eaa09f4e247a8d9c5fc218abf1848da89e0dd37c326105885b608f036b 0x16ac47236beddbc301c19f88669f7b5b0560c30af676430b1022b763f757c998 0xa394eb0bac055a937a2f32808b040c78bd33982e6b2c59df8a94698871bd16 (-0xaa626403cf7455b6876adb9bb44d3eb09f3f53b48c9c1f60b56c8020fb17483);
  SAdd false 0x1f487c8a399640698faaea9e208cbcde191c6d71adb6ec4fab38305fa9e39ca3 0x6ef20533181779724f96271465594cdec150a8a0018c3e2dbacfd0432be9eb0f 0xfccfd26c0f2a155eb08862444be6d720b07cd61bb9a05954bc58a957510c3fec (-0x149490b4aeddd3b7124328032a61a283fe785967da3b9761332e3b27f56bd4ae) 0x3d2a2afc81b9d39459fc80a8fe5bb18018c409c20cb0228be474227f8c3cfde 0xd3a0923e144cf32b7bda6cfdc8106fcc916f9570901320bdb6c24f0cf6c53d1;
  SDbl 0x8bd4ae4757030aad9418d66593e868cf1c94224bd1b213271d4c9d2f4c2bcd67 0x576261f7ede91848962cd7453a3bdd23769403c10da3052a72189440bdccb574 0xca18ee4f4381d9c56dc38051074c132b30694ffca269f13638b19337b73b0525 0x83ef1b1c905285e3bd486c50b041def2657cae2270b831c5b191f0e1d9e438b8 0x4c60a5f2e1ab1ebe93c253991f030f51195ecd796607db8ed3e0698148386c21 0xcde909e8b8f42007dca7de6a284df2c8838b7f9a82283c490e91420519094b4;
  SDbl 0x5453793f6dce13f60131a6eaa73423cfbd07d5fbf7a404a17ecbd8b675f1c6f8 0xf3b3807ed8bb92979f2f0346af5f444380d004d2343e979e99a241b799457740 0xee68bfd3f2554b3404dc4b8be37c3d81bfb66e6bd0a407d8c1ca4df7f9ac13d1 0x2ba81acd6d38b532bc6d59aa79a73904bfbc7a65b1c742581670290b1c7e81fd 0x1bc6e2c994645908001737dd5eb0795a9f32bcf00fcd7989e6a31d622b4a51e8 (-0x337d965a70b970618b6816522132af137b7186ec448c673e9ca571a39f2d616a);
  SAdd false 0xbb23ba83bdd2ae35bc6f44d7faf3da1e9e6807b6f49d4995de341d258fb1dfed 0xa0e0e7c580d041d817290d5d79f3f56fe7794fe3819eebfa1df74c26f18be25f 0xcd1f32375846ee3d0b1f8415190684ae730e934f5e2139deb6b1f3d1ec6e8c04 (-0x8d0960da8a06f87952b2da1b33fcd24300546f1a923522441d74f50b7d8e536d) 0x88cd377988089d39a389d5a828158c5663a611c20f865fe1fddd33238e850cfd 0x3c8b64b2233fc271b0324a3f87841e27818b9ff5a7db2d34d93545c5580acc88;
  SDbl 0x62508f2e07f3d8de11d4a7dcbfa2ecfa041d75f1d67880708e4e7cc72ca22c4a 0x27fb129c8377ae736ff1f7e19dea5b5edaecba28052d0101450b8ce3d0d78f2b 0x83fbe7b3115cba7043160a195d11d81f65b08de83e2318a445a1332179f0361c (-0x91c0ba8416f8368eab28abf0b8777733c75e96a0e49e4a6df4190e55d918b490) 0x25c1c6f930b1e694094d21dd8439902c77d378ca83c33c91e51174302e9dce85 0x2e6e070a9b58bf6f737ad389ea714ff56b6cd7f8b1df07773ae2c6175d09c518;
  SDbl 0x4a2fe105a2aad04d5ae456281a81d2095f5319f1bcd7e5e41eeba3c2122c868b 0x403c1e794ff69e269c7ec8a42ccd63f49e704121509339f38f01ea653409e3c3 0xa6d097ade383f45b4dfc30d354e60b50cac7b275b78bad497ffda8ef2dc88fc9 0x39c39ebddf706ca0a33663933168154e5b669b9feb3fb95a9731d69c91c12140 0x157fb70bbd671a40f68b3a4dec395eefbb7ef2106559957241cbccd6c33b32a0 (-0x70756b0bbc936c3df8ed96d1e1fd81498624c5bbaebabc141eb2af8e98bbb93);
  SDbl 0xebf64814fe3b49c0f845fac3db0d1b502a3423b344932582e872edafab9f95c0 0x5e74f251baa5c98f31e9eff1c70249490f7721067c2a4d8b94f5a9d213645a6d 0xfb5dd8687c58f649eb9c5f030cefbc4633712fba2ea2d9ad64de1cac05d4eb1e 0x10329953d98df7526439c52aff67eafb9f66b6edb8f0080867bfd4a3dcd268c18 0xd97e154600e3595a16cac01fc438143288e6c2275e9d6686c176ac929f5f11f3 (-0x1bdb3d95cdc95baaa868683a93c77f61c1ddc3c4b5266f8ad1b3a4145fe29399);
  SDbl 0xd612a3fb648bc25f774265d4c4c2f12bcacf20494525418b2bac07d609f10aeb 0x615821da5589da28fe955c659e15a555b6cb176e89d62f5b1de4badbf113ed46 0x7c745567669e79066fa005b1dd3de32f8483ccf97d8957ae83ae91b0839f56d3 0x13bd73ae7fdf81564f554f9724c78901369ad3b50e19c591c42f032eab7887624 0xb3032b847781110bb3630ddb64917c47c721cda90cad4a95dc0e1de202ef6e67 (-0x26a1f8f08a5912542152a2cba25b5a5f8ba6584a63bc8386faabc133b5a76dc);
  SAdd false 0x23701980b2ecc0885ee1e7581d648255b661d1767e4758820229cd0879d52dd4 0xa05879055a07a9e23d2236e49adbbdcd994c8d613d30463076b1314097674010 0x33de3a9fcb545086b286f62e492006b8f7d8289a8cd26227964f8c0120769e7 (-0x6728df744af2f1cbbeff4ef8f67eb24a8c8e53eaead4c869fa96ad122d02b48) 0x4e7d80f88fb8782f1a99407a81142a90a71485ee7c6b242c554958e08cb6a8d (-0x8b8a257c1df16099458922401957a334600a8bc94dfafe7b22e9b33abb92dfe);
  SDbl 0x74fd8a5ee8c09b853970c574a1638954027a61f0ca953ea2dcef83f38c3eae21 0x8fc1900f36f94cffd0af01e140ba401c5d8246bc60292d7d49b1550cfdc5a123 0x43d2033f36c867d2b00382506d5684e8b984e68e40b36a38fb87cfa1e9a16b4 (-0x12a559f6856d0f261c4965cefc9bd9421ae2c84efaa590c7df7422a56370b4e91) 0x3576c08102c7d0448ce50eab69ce2971afe3b2e740cbdb8eab6cc11b46274102 0x794cfab4acb6e9c169940d41b08bbafc241fb17440fc9b833f346a26f60ee0e;
  SDbl 0xeab06f2c1950d6cf68c9a12059d3c850002d4cdc3055a47eed7172d00a39834f 0x1f4db9892a65ab6823fcb37473db930dc4e56161ac8d7149ede17069f35432f8 0x6d6333e2b248f43bf40e8b7e3c46c83ec8bdcb5825912db1fdfe60ecf8e915b3 (-0xea67dd49c87599a8732603ca1e1dfe4842e11571e6f702089c94458b089d1ac0) 0xd72704d68258e23ddbac29b0e3c092d3dab278fd1dd15f4b78b5d2f6065782dd 0x6717629003cacac3fe8189af3326af2613cb323023bce11220a676bf9d8f2c22;
  SAdd false 0xdf0556b130c5b5feab8330e1c71cc567d15fa8a21a1462ee2d3fe680ede27e93 0x563a85ed9a146ea8157a0ea9cd31f1621a6310debcca806e4a5597fa569f298a 0xf2caff813e186838efd29e711364efbb373b646ed93ccdab8535339d763d15 0x10f507043a6faecbab43b2f6fdaf12bb14509dfaf38321f957d97a293e2d4dcf 0xc24a4d25f58a2f5a1142f3f9bee16b1f32a3014ffd363ec9f43b702d951ec8e0 (-0x2fd96b453bf2b651db77f17452bcc9295072fd79df9cd46723fc1da4a9553b62);
  SDbl 0xcedb4dbf29cb73e7ad5f223129a31bf633bb953a2968e9c7e7f73f942dd6819 0xe04f38742d53afe78f8f9127a93da92e7195ab241c03729a0cccece2b68cb46d 0x882af8f81c27974f365c5218f7245b7ae2f19a645cc063cfe9ab2dd50a465038 (-0x5709982b42ec87a4a9fc5e2d731de259cbaee0fce58f02efbed31953147e82f1) 0xa725acfe6b172b835ca2062025b7c1dc418bdccd9a5f22acf83d0b9a4cb510 (-0x6f92f14cc8de8921f1e9cb930ecd0d65c6984defcb7f1171946cda30dadaa88);
  SDbl 0x67c9e1206a312bef8575a44ef5b42025073eebc98730ffe2ecef868503116999 0x1470990f87fa22c7e8b0cb0afd1526bbb6b49176736d7c4544ae68624b1d0c60 0xf4774bd9e9a5fa0ddcb618c88004217727166f656cdd9fa22c520d0ea3fa8781 (-0x1df36da9ed804e5eb68c9e10941e30e3723fdf0f8041bcef21164d57d76256fb8) 0x2a14125b8a6863b26d7f66f45730e75af0d60839d8995f96afecf384f05597c9 0x52a7573571b0eaceae88d0c3964223b6b20222671229d8798681cfef5cbb12f4;
  SAdd false 0x1b8ef6e4691263d8d1ef58f714639f12ddf583e0ced9ca4f38f1a4a0d356d972 0x41adfadd0fe86adbb23f6874487b054bbab122bd663970655b14aef032098f7b 0x407199173f6c3e4c3d2657623b9f1dd7007a01b22891f1c3ebc2ddb9dbfe8da2 0x343ce1d98aee18ba7f4f9f0a28f6a98c9e195831e063f6193e4fa8eae95bb00 0x2f777eb04a1af1c3139b64f0097f2527bda14f3680d1996a6d73672f32899de (-0x4debcfe4b6e4d83a1100eb47efcfcf87e841b1a1e85735d6756a0e4e380a5d7);
  SDbl 0x339d5ff28e84bb772641ab3e3310f6a68d067f34a72f961e5e493c06049b0d95 0x6bade8edc55ad21e077724cb841f9aab5a6db2118a54ce15d0338b04475b8782 0x86228a7efaa72feb2249351b32c6125ea3a3fb9e2bedf58780515d5434b7f1d4 (-0x1890f04074b29355025ca8cd423cfc16e42300c6b2f2b35fc21a03e029ad634c) 0xa6814f982a9b2113179294b1ff410e9474cae5a0734c0ff75ab379290482dbf (-0x877ce202185dbc22b0d19c753a5d3df28e62c931fcfc9a9453e038114bec977);
  SDbl 0x76531936da09199fa2be36b6da22dfefb4722682391c028b4716fe1be273491e 0xb6c796a6ac6e4087dac27995190c569ba21f67bd085cb5ecd1da1c6d53edf4b5 0x44f95c455c00e84575484db1af48ce510ad87d1e1c65670b66444009f2a904f9 (-0xbe198132d30c8a10aceddef38e53d6880f5516802714226770bd2e7a90c7ba7) 0x36b0b63823be3e1467d49cf4f362f9a5f46a35b4104d20f3eb607d1e24cee435 (-0x22b636cc498453ea6808db89280fb9b91e3382a3efb71eac35f85b2d8a69b239);
  SAdd true 0x3dd0708847b4f01f73d8ff7ba3b6364eefd5474d5ce29a528e07dff2d68b0edc 0xb497bdb85181e9469d748838aba8e73ab75a6cf19f92abd7c0fa6d20594fcaf9 0xdf06aabac8b138bf3a6a1c18ad9f9484adb658aa9f2a425da943adf424156032 (-0x1fe02dc9c35b6f8b2ea68b687a6f4227ec8c2564975bbfd20c05edb2876c1fd1) 0xeecff5810054717d6c77554e18a39de1dea08e30281a7e38d8ea6c5ecc56765 0x872e8726cbb69c0e1b8b69b3fec91f88100c9aac4a2138af688fa63f763f9b;
  SDbl 0xb5a1c29110ef86862a448a01a0491feed57c4ae949df36f72495d10aed2d4d46 0xc1b5c103450576daab2596825256ffab9da381634d7d0da6f71371c40229c31a 0xb8b2a32ca9264ab2c7ba8006e5a7f74b7a9ca92adf246025dede5ce44a6223dd (-0x41b7ef643123c55c55a57114d95db613c1168c09eaac9a0d40675600e34efcc8) 0x80de2357f12854b81606f70cf604febf2bd298cbf9643df77a190d74d6da29e8 (-0x94e822c46fa7b1df55d9ec022a81563e028b0be66053ef0373f5b4cab7fb5eb);
  SDbl 0xf32affc89f88ef3d6e9ec27b9c1f6cb48fb8bcde07b7b25271b79f6ed58be194 0xd9d2f1ca62d1aa62b075ae7ff35f088b5a77026266a3124ed62a561b9aac4633 0xbda2ac4c7de19b6c77e55609a6557569cbb9f93a1c0d922a14d22ecd483608e7 (-0x58d97cbaf1552d0987810df998fd34b669f3dd0f202cfa3098bcfbddc774159f) 0xe6faa8d0b33e42fa49658913441d0f7ac9bbb78781f38142a22b74a499824ed7 (-0x16e7c22f1246f42df1b345b2965abebb6bf5e82876b32d64bf8e32f091280fc8);
  SDbl 0x8749444c00304ed0b7dd40033ca67220b5225df9818958ee87a293a4d37cda69 0xa3facb3748eb195fc2218d559602a13d5187519e38ca59777bf259db6ced4fb8 0x1bfc78ebb13523c078419879fdeb36be6a2ad7bc735d8f318f0397f503b5f76b (-0x16397c5837e9e498e040ab171d6a53a488b9e3472ecb2c56824c55aed61ecef06) 0x477e5b007541e05750c3ccc1987c775fbd71f51b90c70285f3df8c9d3c36dd0d 0x1c74655815840e37e7a14727763c343cad1470a6d90ab77d14919408262029df;
  SDbl 0x3231991c7049f35c95bb17e359d2c307a18c0cfa39f308d5f6c37fe9c6c93870 0xcb52d700e81992eec5e9f04f506f5d30d6f42895374f71a138d92f94678cdc23 0xf4448c96bf69188fc88a363a1363c740e64e525ef9fcfd94ec8546be3a1096b6 (-0x130228612a4d2409b0d6339fe86ee84d793388c184b23a788f2cfbd110af410e3) 0x9d7696b1e2a4a2b986b62a7a52f13f6901728bd32e22d08db7a25f455164a93 (-0x7b6d1afa8540a2d6b27039aadd2175e0132e6586f63d0f97744194933b19b0f);
  SAdd true 0x14b5e9dcc94045d16e78d6d73fdcb4751c3d8658c628ff5c3b9acdd33c80d044 0x414868067fa9a428ea9f2868d20f3c7c103ab062d920578934042521530aa6cf 0x5c78f58341d86476301a1033871c3faf05472d077f2b3632fb268bbfd0825905 (-0xc5783107fc04e83f9d39bcef0b69ded929b58666afae0ef22bbb929a5c071a6) 0x1acedcf08f7325c002583a12080f0cc410b3ac31d09e9a7dc36bfb6207565a9 0xb2ae8269edd9f959f0085295ca6ea538aa6335a3201fad7b7b08d6c72a8856b;
  SDbl 0x6c9c16824b05eddc886fa947122acc9f0e2c2374c035a4a313c9158d7449be7c 0x208e4dd9e2a3dd68f3faee6f786eead01ce61385565b96702f53c4fbde6e4f98 0x5bc4074d0283b2cf2ebdfd964fc35afad073a7041c38634f7db9ddf9855f2a94 0x1c8546eb0f07766d83fd81616ced1d3a1ef4048670bdc6ad0bee38144553a948 0x2e1412298e27294ad2ef9d253af2d56868dfa903b228136fa954f8c7f40f5126 0xde2775379a8fe8ddf2eb20d2844aead85c11fbdd55abc914c1e66a406bd72f5;
  SDbl 0xae7732cb4091de5ece597c0027086c1256406ec4531147cdee3344dd9d93d1ba 0x68792cd2a2deaa3762fedd2d280b4efb47e24588160d5320894775edca7f5575 0x800d98bb33e8d2d00bf242330859d5aea737ba72026ae605f08516c1860eeda3 0x70a846e3698c51e01a42ef0614c1fedfb99ba3cc2216c1d7a778fd84be55f7ad 0x76e6408d05b6990b14d90a0fd8228ea85eccc823371a0b3286317028dbeeb981 (-0x31031fffe23b89941acbd7827d15ff03e8f0500b4949e77f5944379da3833837);
  SAdd true 0xec98ee7a2ccefecf70234da2c33faf23b9a69f53d5ae712f8278dfd3072a5167 0x3c305bb91f98ff5260b824f101ed271e11eb9a46411295515e8dd8156acd1ab2 0x9a764699c73b5f7e11c8cce8c7680ff6acc232e4c09cd34e204e650adf3cce48 (-0x31a279f45524153fa50d679d76dfc2e3ef7da8a796c2d713f20da3a4d7b98901) 0xdaaa530e2c84944ad887368a09d2055de2389c664836a934e2d89a4ff6ea8d7d 0x28ed9540a9f170f95aee4c3bfaffbe68ce877737423a4e43a297a4e487006476;
  SDbl 0x27f99ccab3f9a651a14e86395873ce8c9d1d943292c6f25c86857b1adbf490b8 0x552a2058910e3ad5d8d3c31a3cfa318f0e438825775708d9b2bb26c7800e2c3c 0x53a9961b940916c6d17555f4d952b2a200464bc2c97cb8f64a4e38bea8cf185c 0x5c92469123a31d8db76ccb4c81286751f061e15fb599bce779398abcadc63c9 0x63e01282b6dd9535c94986f53053aa14f9266c1d531c6cf02ec48535518dd60 (-0x3e6673087b9ece11058b3470740f3facb8c67f731cc312f79e8a438d1c9de2c);
  SDbl 0x17be62d898676b96639f9c96dfad1a8585d6e55147679448d9c44a74aeb05e20 0xadec198fc4958c6ad0f37ecb6f48d80a69e30e33872f3b2f172c6d6828b85a3e 0x8be2f7ef258247e8191cb018bd69b8b31c948d6a327f68e89245617e86a11499 (-0x457a17ed6ba53d5c4550a1795bf6fed22384027d3fc86fec62dcd1fa3d8b9cd3) 0x233c359cd431e233e0558cb71eefe604855458ef9d261c95e2eb4821a392eb6 (-0x83b6fa04ebd4601c82aab022dc1fe052e01044cdb919613b24b8692410556cb);
  SAdd false 0x2dc6671e7bbc295c95c8a578e5d52b831a5f61210a8d57caea300e6f324b8778 0xf7c49ddc47342469286d620c955c886b4dc6ad26604db3326d57bd00e057f525 0x1e885d28b61e871ca51f562633c1d7e188285eb4a809cc8c5f1deb3562031c39 (-0x16055ff92f884e9b26a6200639683f3ad5987f6c5696056eb0b5566e3f68b472) 0x82f5a046c6072d199713ba460095b22a85ca0128c555305deac3eaeb45cfbea (-0xd344a76bba2c9dd6a9ed5e2686d9aa652161d4f1fd88a2723be16b45a2e61e6);
  SDbl 0x227089bc2b9b8a4b2e595ee8da336c26437c5904ccb65551a80b2d27b05d47 0xd990c1a3d3c96a65826e87d266ab44e2b147c4b6de2ee03a1395d589ac14480c 0x1b5e923bda21fa385850f6194bff98e082d9ccd5b253777dbd0d46dd9f240888 (-0x2cf5ec7d568571bfff2446204faf615e682d13df438f90795b1ebc210eee98b96) 0x4a2160ecef87fe056f60046fad47fb2fddec62c4e3c70e934a9672788a5 0x4102a2fd02bd48332ad79ec7de0745cb255ddc7d2921ee1a5f3bc1c500dd2;
  SDbl 0x3a63cab3b870a07fc5d2253d4529e48b0df4f4541043529ef555ca0d1ac6b023 0x77c80accb95cc10e443b8993b735264b47358255e0905330606ef6b1a00eb65c 0x24928fef0bd82caa761c3de5dcd9fb6f55a76a4d48d255808967561dddedf39b (-0x21e37fda8b0155c360792597323fe23a08f33f4042f1af82b81f210e97f811383) 0xd515ebfe4652bd31c87945e74b1f79e46c62e85bffa9a1a496a8c3aece321ab 0x164d97788d8a49a5df7aac1addd1f97217665216d69e0084f1f07a2376061113;
  SAdd false 0x979e2cde21c31d20ec22f47c4fef24b20afdeef6daf3c32c024bdf94dfe20164 0x408cc3735e060ad0d7dcc386871822c1b92de24ac527b187ab6626d116bc73a5 0x95221e6193d67443e485c22c6b76432fc2ae6d592eedb22dfb7a7287b0435545 (-0x28df9fce84ec762d4a07748a9ea8e373a664de4ef4f94547fefd3d09107ab108) 0x59cbfaa9cfaef0383fc16046208425da9c914e4a85fd82dfbd0e09793d85afb8 0x20b61759fbb0942f7c50f0d7e955f35a6f4c581d8c29bb19a37fd6de493e8264;
  SDbl 0xbf88a235aac561b01d246c025050fc881a00b27400fa8e02655d3e56d82b3e92 0xc562e7a21a306332564168c00551f6c1b5b3c5e1e39ee7a5a91648fb5f4dd947 0xa77a6f831aeef7ecd1176d840332bceffa4287abbdb5ac2aeff148422d48675e 0xae540d3426e60affd4045bcf9959f6fbc2d6a419f4de2c7af1c8510880784a54 0x8f4d2af963ed1bd7f1d08171b6ee7fabdcf6b1b31645b0c46fe8d3a1186fb54d (-0x6362aaedd671e99eaf34cd7d4c60983a21b0cdb9c4bd3fb4e6364cecc6b510f9);
  SDbl 0x516f02c693e84f872ed30c338d2d24ffc246cf7c019327e6c5a99bdda9ee938d 0xefaeae87e748deae99d35e8d7dd685b8d2f4505d919b2b1ba59898d4db51b9b7 0xf9cb7a6d6ce6882bf69e211be68ebc99f49bad0e3c3ad151c6525d0b30a1fa61 (-0x15e0761c2e8a317413a56b14f5d4eaf145e23cc090f366d6b72390fd1f9e17c7c) 0x19e76fe52bbc6a0670a652c0dcd8f415e03e67a530e15bdb6836ce32c0b6309c (-0xd74513f6796844c02d9b0c7465227e5adbc9301f51b5780d0e0123e81f2b091);
  SDbl 0x8ad7265fe293d7d413c69aacce2bd795a036dac7940729e9ea3c212ba070bd26 0xddbb1b6395be09af7b38f7475ac47d7f641cea8fdb9af4b8af0f45c965fc8f56 0xb897e7c2beda34649ff9d1f0165a2b174a130470a180ee34c32cc8f79c658d69 (-0x19243a492da4584269717ee21e05b18c9d0e455675b5d1cf0498ccba17d118c5c) 0x4b4caa3126633e6428451877ee900c167de86d40ca801b757d4002998f9ee120 0x9bc639312501a7856b8b180f44a4a31b950e5d0ac2bac32c7f42da557a9a064;
  SAdd true 0xcd0dbcb6fa2f0947e83f6681e04053d6c6d24717b0b801878fa4990b3c59ca99 0x267e6e7db01fdb6ef0c241850baaf501e4a92c001f17f0d0349f9c75530951ca 0x49f332aa6fc02592abb9c6af8db9c599a93280d510529a51b3dd8b6feed76184 (-0x88f08200a93dba63e097eb557d061bb282c7f38d25d3e5d898ae471d7b3fe752) 0xa43f00fa66a100dc46e6d798e44c647521e4f7c0ad2a867e40e4a62bb59a8676 0x92c56b9cfa806b6145aad28f82f55d1703fe6ab003f829bfca19e03313a0ae41;
  SDbl 0x6860a938ae05d0383a35769ce53c04b4ff7617b850f5d131af0d0c98bf4c1303 0x2e8ea6bd1ccb7ca56ac8124a4817a6f83c25536aabc632c074af0eb9bf602bfc 0x5e127a7e7e768f25c6ec29215e7b8e8a17d9de6dd533e209ecc84319c7cbd7af 0x2af01b99b24bf04f9dcf321a4bf23cd339e6fbee50a10ddff71ab7d3131a7911 0x2a8eadfd9251cdd7b18a22f26a243d5ad90a7a79b6a327f6fa8ed11aa0415d87 (-0x349a2435d617dd62e88d03bf573a97638acc8ebc30d5d9ad835ea5a7d4e8237);
  SDbl 0x32416afe2554665dc6748af73764e47615befb24dce501822adb2c3f8646c5ca 0x878ea7280c42a29a8e93fa18e57325f3a0dc04469cf04319edfca966e4eac01 0xf8e81c8ef632f3378b1ca705a05a621476bdd5921636cd0eb9177953a9def455 0xb8891a1a879ad835fed589d7023cf7651328086389c2cac21c2cc5af6542a01 0x9dd9e82d238fe936d0f97e3546c67f443cb2966e5ec99372760f3fdb1c68095 0x779fa3637fa6f635a28cbec7bf073c9c5b097300b2bb46cb3c6d4a1a1bda8f6;
  SAdd false 0x307276f27ef6f793c51e8fe75d30d7a05cee047bc0ce23258c06d544d5cd0a8f 0xd2196540ada6d90ac78298c0f000d103d8cfea52abe6db88e43c56f16959ab0d 0x82c0f77ff8a1741585445de292901766c2810b7cd7f1aa213a975e7c987f736d 0x8011e16fb2a4ce29b204541e766f0149718f48a8b126191fe68309abcbe3870 0x92b1fc920054354ffac9f92fc96b355a4572ea4dc912cc792b3fd4d2b7f4ff4 (-0x26283e2c74b15b252aad874d99cb7d10185c2dc38888917d38ff4a5bdbeaa88a);
  SDbl 0x1693abaa80048cb51dfca1e631d11c52e6419fe20f5307ccdc6644ba279c915e 0xe837c0c0b5c193fe88a6a43f413d5b728a599c6a53dfb64760fa0b4d80709035 0xbbd82998122fc7d7cd7e044309723f44c795fe827f60203f0bc7727611d1022 (-0x1ee390268df8dafc3394c8e2c83feb46f943ff7b4b084b4f6ee4a728b1f352214) 0x1fdb6afe8eabcacfc1bfc079fd5da0ee90485751a66cc4dffac788c320847cb (-0x1f35e208f812c5bcad89d0248909b73b489754d34cbcdf61ac8198ad7cfafc1);
  SDbl 0x645c5d0f3a3cd2f5221241ff5feda82c38cfbcce28efaf1c527218a2b3ed5701 0x46070c30afa1c772be539e06071aae6131ec2b7fc872351f1dd18bf25650d687 0x6327e58b48766e8f08df279bbc96a0643c588375bfe16fe40480a12361121dee (-0x26ebac5c0952e1b87a8aa4b0cd75163bf3fa88f25fc9062976514c2f76f523b5c) 0x27584a07119dbbc64612edfb1ed828e54bfbeecb60b0502307b99193bbc648f0 0x3f958afebd14a2f6f8fb2bcc1f492504f7e3474aa1a8c67e3bfa9f4f3fdf5262;
  SAdd true 0x89b80ac3a78b3a18719b1cc3a4879ae1a97ac7a4dcd3e24d45330963ed2ab59a 0xd4d71fa1857d7d918fd2198b3fb8a32848168ec2135f0101d16a33f3a91215a8 0x87e97c713ba7c9a5863f1cd7a63a1c6a0cfae289994513046a7420969aa1efca (-0xa5c5cd35ed1bc481421f25c69c327b6bc908538d434aacb1f0c62c64c989fce) 0x4a167fd52d1e3ac66624ea2a5dfa7f8e0e190eb30958a918b5b4a0f3f7544052 (-0x4cd405f6ef18efb7bfe55621a27ebb4b137a3d5eff38b0b98a12300eb1ffa36e);
  SDbl 0x4773317019356254dec33aa1e741ed48fa528052b0ae276e6d3da4e0c9a17754 0x87f88d797e458540461cb7b0f729915abb6a10d8341edd9f97d2c132af9c3f6c 0x493488613f8ff360152f8a0c2584e8ad4a9bdc751f5cfb178ac3704076e29cfb (-0x1c7013033c065bf4a895561179178b55a6625aa7f89bc2ec91c67d5e63ee82dd3) 0x13f11941b62f767fa2d5e44c3642f851c84170d38d0394567a5bc2e0ca79372c 0x1574515d1a5b7425ec31f10f9c310813fed782b6f2662d1a9d4de8be98885d15;
  SDbl 0xc4d69b5e1080b55812753d69a1b037ef9fb68805d2edcd2ee02b6292c14a08ee 0x3be0ebaa0729e6251e5752491dfbe63cf9c4e6f0d28970ed27ed81fd50fde3a3 0xc067eac20068e481732872343ab95a0ae81daf78166bce25458cd23fe1cc119e (-0x68151615b9436508fad50ac684f69d88f8500b9dc8c4afe40efa908364449207) 0x975951d0c02d093ac6dd95af945b86a33f4d4c44c5fe413e1e65e60aaa4ea537 0x3a81e1d299ae5bda9c7fb2454d04db7f08dd5f9eae49a9f93d3ccc525d7d11bb;
  SDbl 0x299980805c65ded1e6469482b70ddde8f720cfe70d41a07eacf925e8e29afa8c 0x6e95bf1463e898502a2d402244373b8898f2f1a8c1afeab5f16b51fab269d54b 0xd271ea27e23d37d9d42e4a219ab6f3253a46440a0e0404ae6f0c79c03bb9ef3a 0x1483afd8ccb8000a381f766501abeb9f075801c527693ca8ed7d52dd1c159088 0x6c28733fe4a3719f6fc2be6a607cb3ecc1914d33386d33d6f05c003bebfe001 (-0x83d5d62421562e56001ba9dd5f176d3838c8a1ddb82a8d49ee555c58263c748);
  SAdd false 0x61815b2904a0429d486e179393f35ab1225d064cf78c2815142be5f77a749218 0x83a1a74843cff185ea21a2758b857ec5bc7b2fbe51b8b0c30b888e70377bc3db 0xb39b2ee3106991d04be4634aec40c5a1fc0dc9603102372c324e9807e69a979a (-0x16c8710e8478915c75000699df183b04e0c77b3625f0e2468a5dfad80d578b7b) 0x252348723a71944cf89e8f6649b2022b1775c8cc2fffd0c88559fb508412abad (-0x804257a4cd29f4da772136f7e1e7c4203a8bc24e594a9c017dd688e70aefbac);
  SDbl 0xf380c634cb95ae4f66e3661691740f31692b0e5b90ecbdf552fa9276634a87ee 0xefbe0150f439d522b017f8f1e61c0d1276d2407347bc48b9bf6eb82b2b8cc4f9 0x41c67b4d7a56422bb6ae36fc8770d652a6cec29dfbbf698ef2096ba392d1dc21 0x8aa0c6793d439b4070016a78d467eba1194184397cbfdb68553ae859187dc9b0 0xe79db90ff05d2d77dd70220ca6babe38addf517ce11e8f782f6452cea8bf6b6b (-0x66d54b57e400b70f5631ad1caf9fdf8ddf2c6ff6bffeceb5f978d9a3ba81b061);
  SDbl 0x990e28aa7c7dba6a92643aea4fed6b50f29d5bcc63e61ab5dc1388f2f11fabbb 0x8778544ec16dd0fd4a020a02082aafd32807305097dd51f5ecab2d212f5378ca 0xcf01ddedfe6afe2dd0f3e657806df7b8a62bf82c723c9a35f4a7b29cc45c2cad (-0x252e67475eca5d3adc89a35f6b418f1f1baf7a2a33fe15c35a7ab9b1d42f6ffa6) 0x5b81ed649d6b8c6941d64b6c582b63e2ea75a698c5d578831c529aaa65efa823 0x3e5768c658d44f8f1bdf04ac36fff4d9d99583705c3800752d336a645abefd79;
  SDbl 0x342740cd0eb5d02bb5b1302a220004f401404072e4e9030e92dc85207c2ffeac 0x4ef6a83a2ec4539d7fe1eb00eeb3e92840f54f34aebec8f004304f1dd064b4e3 0x1237f9569aba9174619a3a5afb88107d684f701e0dd487c40d84177ad871f981 (-0x82b826e845eb50b6685c3d0492166cec34e39e5b51ca8709ce97adbd9c1b564f) 0xa9ff858277b7beaceba7836fe32673f479995241ffc76cfcf09beaa0e89e2e7 0xb8301031e8af07b4a86fa2c7d6b313e746af7a4ff2baaef8099b309129a54fa;
  SDbl 0xdf12ddfb6a12499ab0f975535d37cbe5a477855d8fce6b534ccb8801556bb1c3 0x42cb6884cc97f35abf304ff866ba5eff570344f4f9ac503a6d706d29707d5a75 0xf2be2ea954f5070ac312c91a33d7ea47509b63044d5cbc7ce4d41b472c369776 (-0x295180a562d115d0a5fdf7d1fbfe1425d778773675210423a9089d75810478ae) 0xc261e020bd04b2fb55fcc19f595421c26fe9c7c2b6a6503e8e57c6857ed589b2 0xa9a9216cf51f4928f7a236fa99c63032d9bb4995847f1c938cd6e26afeea12d;
  SAdd true 0xa8e4515e28428a85b9d11f43f058d38a51c34d9235653155f0bd0e533ea868d3 0x57e3d777ff983ee34988d11edbd5ee32377feb5da12d51a5c505746603b035ad 0x4365b71cc1f1b6fd3555623a3d97caf9a4fdecbd6875ef47c56e53440c619762 (-0xa92b560395be7f37e7205c8f064ae34ab418ef7b864a44616bf2b52e030a86c) 0x6f6c766d0dd83adf02c8e6c82c972a6ca7655b14db35b381204118b6b39de700 (-0xdead946f561749873448381dd766535cbc73bf6e4ecd94755bef11b5eae6200);
  SDbl 0xb1f25e549e01f725e1e1b592befb37184a8c3512d1aa36fea23f0348a8668dd 0xc87e309b34dc42a5cf9ae2c31d37bb3d5e5e3a87a151986d481ec41e8db40738 0xa5b5345e04d0ab1d3214ce61b1eaca365ba406a7d06f6fd4db3f41f651845583 (-0x54aad15f8ce5c388fe7df79864813cd5af3c032b1eac3bdea965018518b3ba7c) 0x7bb10be7f8ecbf6323365b07f5ee3c1ab614d45c75dae28b8d83825ec423c9 (-0x4e455307ce42015cf837dfa232e1aebc7905762b765001463dd733452ebb61c);
  SDbl 0xab368735e596613a2be38f9a1d118e9aacc10fc46bef09db091df42c1cc1d9ec 0x3bfd1f938dbbb745e0246edc876a6b780b60097f12753ae26cae32a3171488 0xabf6c43a8dc88e290680a6ae00e469df134466aaf963beb9dcf85a4d23f7306d (-0xf969930191a559171cd7cbf000165589dea4ec58b2589f398d706e94b79f6acb) 0x7281e43fc55f8911f9420d92c66776067e3002df384d220c0dea72d9cf253168 0x85eee02009361060fc82fb7219746ca354a0025a3979f4e316b7ebc9ec649bb0;
  SDbl 0x20ac5bb9d46b1207207477ba359f8e5e86bb39a2960abcadb1e4cd3d20adf6cd 0x719bef07afb39b37a924a7b58aea0c2ec2da835dbb1222ea57f3efc11a62964a 0xb66a9753905d368254af7dbe8773192ff3f0c51f6302a0ae340242bfa69deeee 0x2be515b5a10f370e7e9091b4ff1a8ba6fdccd15b2c12afd342a8f33e47f98e2b 0x42b8af9dbd96344af5cbfb7b56b27633fbd1f9b6888c968d14d6889a1901f31 (-0xe78535301562add4027375a3dd5bd4c1d4cfcbbc4ded74e25d8a9c22f298c4b);
  SDbl 0x11980c54a0d577b71824bc8322190afa737d5f086de99c3e978d4b418c7b6213 0xe39407a01b00f8c9341c9a9fd9322ed09d73cc5067c9f08175a33d4733800a6 0xd312488b42aee493c7338dee8917c5e7375701ff77cada4c7b7602cbb0b143e5 (-0x7e2e3fc16b3ddcc434d0d0d9eee379068bf86b5b2a19e589dccb69c03c6b472b) 0x1358bf1e3a8ee6452a5bd1e2f8563bc80a03f9d88db14c4651df4f47c289fd1 0x6d494f88e829aacd8f3aa1fa7b1209c5141c06c2b72dcf94104150d0c114fa7;
  SAdd true 0x386d7b49e5bdfbbf2a9f2615351f3411541ea1ecafa3df7a7de66cbdb884cc15 0x55d253cb04a04c7b17064f9e302d55f5d7c2242ac7e2f15b8f59dfa6ce2c079a 0x8fc7d7bf55e4c3ececd2f477b56538b0b6eef2e57c9b6fbfefcb7934eda40996 0x80e20f63d966b9ebf55a517493c36a9c463b0b1e367b761294c4cd4c94cda06 0xc7014c29940eec801219254a5e0a447badf4e6640f5a759db0c1fc12c57034e (-0xfc81ae2391a67b6e2c5021a5c3c7951cb94181d06412b10b9b36e4c804bb081);
  SDbl 0xf4e623e262160df7a5a41b805a900f9e7c558417515a2039eadb6e70cd44a78e 0xf1ac799449cf17d3e0db4c17ef0d307da5a818e37807822972af4d10aefd0091 0xb6ebb802445fda1bce030a7fcc1f24af7a681397d9387e222d81d71d53650fd8 0xbcc76d54e39cf112591f8525a7e5ad7b693b799a1ca35f6507675c1065510381 0xea47834cf5117c917e273902ecd76caf1d4db038dbd3ecc40bc7615b6e3a7d01 (-0x951807db03539991f299a3f6ca8b9b49d60bf5532ac74f9c4e14d05acc07ac90);
  SDbl 0x3374e7ec1b8dcc0896cffc8ae590b2bd55679bf6a2e317f017e9804af9a2509d 0x4a035213915553cc1e9934580e5c2d0f4a987afbd4ba9d0e3519378821d108a3 0x6d1aad82e15b962425c83174733dffe2bc9bc91e238fb113755008d9fbc75f41 (-0x262e996fa4d778e05cd652b6d0c4b64e95cbd54140112b643d70ae2e4016d7890) 0xa57c9cb1d67351427e5a7c5fa5d55888918335b939c2af290cd0f29f5b4897c 0x21b34368f16862b901a6e0ee2416dc41f14c88d4795b76ffb1083a559b1f0223;
  SDbl 0x1a7c0e21d71fb91ee28157587cd02e570ee0b53e06c7c2018cbafa9fb7d24354 0x5c43844ffac70a25e4378659fafb2b62eebb379d45892ce86d542441dfe2fe6c 0x32406fe907e7b951918aa25b6868f9ac41ca06de205b13c3a0a279bb28631324 (-0x299e9958be369d2bad25e0a51d99f62f2ece9472499e8aede090fa916a04c150) 0x2bd6efc93ffff52d32119fa30e842aa4f0cae31e2351ea49ac8980583fffc22 (-0x1e35d346637f185113fde08e59db31ebecc0628fbef59b4fc4e80747cbb4ca7);
  SAdd false 0xc72edd111aa61b58606d9b6dff1bf39e6281cfa8f0e4458d783ead3bdb2eb8ca 0x4d77c2e11ed5e4e951382b2d45ac11a6d142159ab02f89e83db45135ff55d9c0 0x60f7a343d020cf19e59ddce753b322af406607c58dd3be3b00b5daf8c8763d1d (-0x20493115bf198b40b3a74a9c21dd0ca95896ba6bd0cf467c07c32e08053fcf93) 0x9af9e44563743fa1f52db03a4d5c76a9b4b277f26c10b1a251979134888a4d8f 0xb8318c0dd75e99cb602a1060bf9ec27f6ed89d83e55c54c74587c8f9436c089;
  SDbl 0xb85a32ed086cb0a553d0b449f757f8cd74ecf7333b98650ff1e771b45fb371d8 0xacfac5a476b07caf41e0d71ce52e3c560fcaf3a5bc554359fddbb8015f2e518e 0xc9bf73ca52f72bdb3a4cc1096ba33704936461044c05442118cae27e81d684d7 0x4554859e4e4ab2715a684c5b4c1c0e17749c29ebe77b7dc27e9aa3fcd21c750d 0x84c1c8fd19a9661a04eaf80dadf58e8328d0a2d8324ce0e532d4e666a7299ece (-0x44c7d10baa922c3f57e97f402c946e8d8e3d1f0919abf2e50e233df813223a3c);
  SDbl 0x132a5dc150ac77565d000f985ca4a7910043d07af8fc25760f98d61ae248bee7 0x39d98b9b8d492418a95f1da520ae9bbe55ec651fffa6a6e9391afb0cbd5f066e 0xa1ec0b1cf183de3ffaab661f10a4987082d8a1cdfb214790e6e95be08dbd644f (-0x140709bec45aa1ef54f8d7f23d35e586a7c31827eac3ad7879dea3fdcac395fb9) 0x16f50ed992d69d39f7edeba2e785618dd1111ef05382ddc128cea67af6ff519 0x89e84ec39d16b1781d469c8a98fbd91f6d1399d93ac68d31b0b49a9d2c55f46;
  SDbl 0x1665531077373fe20fcfd757c7cee44d55e9730a963ff2bf17e394c455cb4e5c 0x3b2aa0f5d86706fbf89c99b2c3e3e5ee92186b7f2e1da20b693149eba7381e64 0x57a54b32214cb661539d6fd8f34061c742ec9beb0bb0bd7336366b8e27b39d76 (-0xae30bde254b76de3cd9078980e4ee72d3ec73c4c8f6835752391c7a3f2236ff) 0x1f592617c64d151b1560028205620190d705be8a0a1c45dcd943fa6ac11fa30 (-0x1d7d408ecc4736aaf3a009da3d4981367a1ed38c7ca8f05b38e0c26d2b6dd3);
  SDbl 0x9683af1374f0e8e8d9247230d9fc378d9ab41dfd98d51f6affcef40fb45c86f0 0x88b2ea20ec63801dacbbcc3edeb411a0b0a504d474e3d788f4938201a66fc24d 0x338c5333c3903eb0392440f7ae15e23198651825b73715737bd0abfa2371887c 0x3e09d74baaec19303b98430c2bb94a791c423b536e5ec9dbefdc482dbfa3ffed 0x587e94e7cb2e2fc2f78f4219b1d0b1ca67c78f79b66c907279928686313fde15 (-0x2d95bca2eae37e20de3e05d88f7732cb7318bad5436e4243a0334a5b9529399e);
  SAdd true 0x244166e125677f1e5b3852d3dc80a112fc4fbb7dc3667427ba0d06e04b837263 0x243b8fbe245075bf163dcd56644da12d4bcb8150fba95eba5d1db67395c7d65b 0x822694b244ed37f6b32507ee03842fc0e483177e6fb27e67ec3d7845bd17b9d9 (-0xc2b74743106643e570e121941ed9ecbc8e1162fc2dab76523003733d578f10a) 0x52275a4bf54bfc51517a24e459f066ccacb2bdbd0bc7580e352643a2915bb26 0xe3a7363cf099830f15eb3dbd2af79f9ca3df2aa180833d44687511705b13fbf;
  SDbl 0x78ad2480943083e306c5e6eb465bfccf2f11f72e588d983e7652d1ae70b9a227 0x9d7710930e016862b64355a39f223cb23456fbefd763bd042a72683fa2c01172 0xf88910cc8a29f6c0b83b560a5a411878ddab1d61703af92ff74568889f26e9cf 0x6b51cdcef642190c3f3dbdb7053b847749dd6194845e2a36afd0b35e88cf88ea 0x38e2c7531eccf6cc61618561b51771420b63e991711a587786f2c5a4eb3c5c37 (-0x3925e2e3589e7c9df3b7f78eeaafd8314fbacef969d7db7a799cff07d0eccdd7);
  SDbl 0xc40cd7f7d3c10e6bd2b197ec06283c51393d257b72efa8f2144c33c18fdf3ed7 0x414818d3286a5c29483219937890a065b3d87eeb8dfb8604652fae545b4a1c69 0xccc4f3f28af3b77c1fc633273f2a2faaff39a830f7e6078ebcdcd6eed58edbd3 0x5a190ccc33cea9003ad30a37778a9d41f6b20118a9e55f562b570f2e97520697 0x9623ab5907d159201077c9bb149bfe53f15614db47b068409feae9c2e4cb66bc 0x469895a77f026cddc0edeaa2c8c4fa47804d9d6ed0448df9acc875266575cd13;
  SDbl 0x377445e2eae7a50f4927b376cdc6433ea92a401cb8f549f48e1871eb2d262090 0xfc8844f024bf2326bea170c277ba5101638a95fb91afbbb548af0417031f6e94 0x389d72c0d5fdf48b3129af1d8c1ab9231d1cc510e294743639bf47a20be9195 0x26c590610633419029421b3fdf418027375b0382fc64e16b3f067685d9415bd0 0xc032ad6f5abb175947b04551326e889086a869e80b5b276a3590b3f6acf5666 (-0x288fd5aca6453c66b98b989c4ff318a6bfe8ec5a1eabeb5742a9d089360cfa68);
  SAdd false 0xd90db7b95ba2c889d7079308800757a9c13909923c48fe811744f7f3bf2ff0ea 0x75b354d556b52dcba1dee1595f1ce6fc6913d4bbe299853ea9f17f167da0b8c3 0x6a4d382e26ea68d0be60c59569334e6d43d2c1b36e6de088f3cba3da53e1f845 (-0xab119a886326306af5e754fbce7674b717e306b7a26e542fbc8c8e36b14cfcd4) 0xb808423522100fef7b62c8b2dae017b4e7df71471c16bd7654fb4e032f69063a 0x7251b91b341cbaf755b2bb8e16a440d0a2b22c546d9d73bbb792406653fb68d0;
  SDbl 0xf7de670c22526936be48a7ee8ce484f30dbd91a07957e0a82887c635adbbc9e9 0xe35ca4f39da23e82b99999d5e3db737601d54f0934cdd476a78c4b63bb86bf3c 0xb62871fd5d35b14aef859d0e2b62c5c2f953426bf8407b34f85e976ff7e105e2 0x2b817a6aa277fae523ddef3af21535e97e2b3636ab8c77262e842528354a65fe 0xeffeec113cc03e38e7e06104e84a9098fad9ac0f9a9598ad55b3ea7133227ab1 (-0x6a2da1456cbd97e0dc741594bb556e537d4268d9f26f162c3cd8965b43691cb8);
  SDbl 0x1bfc57fd0576ca969bc11059505bc624bce9ef73842782c44ef11b593b6dc9da 0x520c5450de3f899771852b4870674742c6beadbd0161d9dcd53609cf5f4c95df 0x741ad8635e9bbfa65674c9cdba84dfddfd3919164ada92474b0e3419c4d983c9 (-0x235f4a54bd119ddd0eb16b212fb17c08c5bfc33fabcd20e00cdf0b74777ef26bb) 0x30f334cba96f7b1e290fbd34350b87a73d9bbc98fdc4e52b72480e2d78e06b3 0xfe2b5828527833a533f68144f075e28ee6210f7772cd91dd5ec9a287d204b79;
  SAdd false 0x74f7421edcca38240e5582122e3f6f39d58d8b829af45483aee6163f28398732 0xc59fe6e83f249e619b21d57979724c31d8c3b4115dc9c5a94a654887ac49b56c 0xd2b4ed06431ada89deea364408a680816738ea6389e13508ab917aae83f5e29 (-0xe4aad7e409190cc8868a4c717b0aec78951dd644b310cf35b9009fb1e4155ba) 0x357102bcd62a41669b7f585a25735184b2bd962ad3c812e3f53e6e172338fa4e (-0x34ce7fa937891c989da88823489a7c694d481b551348b4e3b82bb0a5bf6e9984);
  SDbl 0x293da9a5e6d194a23863b4b2877e99e102f8e5f6950977192d3908f665d362cc 0x110bd3f202e09528b2f461f2d241d3a0530b455991ab11bd746ca3b9db2ac42b 0x8a0d4d6085f2380a0ee7b1cf4977e46daf9748903bbf21cd4c7572623718ea08 (-0x1c5704071783f46cfd98f21da3e83aefdfef30c2ff4de97f9af274701f22dc4ab) 0x6a4cf31741066f24ff4408f760938b339196cad1543094841701a3839555c73 0x1d1735fcd8301cefa77ca195c49f9a14366006d978dcabc10d10fdd724c22665;
  SDbl 0x5d14a2bc44e4c9b0ce1203a0d72eb93ca16908d67198e548f5162b6c372c9ff8 0x371f0401091548a9b4d6390e2284649eec48450848c9258156b2f04eec1302a3 0x9ce9d866e0750566fbf5e478422a8a3e8dcaff691cc615b095133560eb3b7689 0x60fc33ba5d3405fec8182db4701a268991ee5881fe221bec62820629fd8e3e28 0x21d7ffe6c0c3cfd78bf371663fc9a7949ec2a98cb7f3ba1179a3b9feb1328ab9 (-0xdd80a296905984d5caeba66c91feb8b2ee5e3febf1593a2b5c3425db942932f);
  SAdd false 0xa21c0c3d129be7e8e9306da1aa36d36e7254e9bbc8a2f4786be3ba255318a685 0xb1ed999b496f7ceed831a8b1ae3d2e86253d4edc41cd8757d15d031f843ac7ca 0x157e312d185ef0199f6c17d6f3febc0c7e85cd7860d5d35e84fa0e9d8d9dac13 (-0x2c1a46767f9ff9a89b2b1922efd97938d5e4d73083bcf071edb6e54acb10bde) 0x66a782906026ae7e5f9fa24208b101a4b33e1470ef76570a2979d42bc0597e1b (-0x4dc42f2342867fb3db66401e73c0bea24d591bab85be49687cedb5af8ffe2621);
  SDbl 0x5155581d21dcd621659b50eaf4eebc1a6f0643ca5c324c9aa541864198876877 0x43f94de96e2f42abd831ba172d79cf1a5cfe0f976fbd51d0fd374a80f5ae8895 0x420252d6e463ed56b6e51021c37d09264178ffef64631e936687cf76c3fb8aac (-0x165571116119a69157f4f982a7523383798869652a142cbe83098187776146781) 0x19d71e362af164f603254e6f93b16dab838c0a0507967c439c829ca5560130d8 0x22eef3e9089920db07a9f65d089f6c8b506aabae13d31a94aa91668547c74d1c;
  SDbl 0x8612c9ea6747de8a0ae43ded08df41b246d1879e3a831160f4e64e2e11b976c9 0x915001d5295ea844acbde10cbd93e9adb130451204ec915e674c77f7ebe2fe9f 0x35bb33ff829379a3cb48aff73d2ecc72c2c8d0ee90e10210e31c31af0ba349b9 0xefeca7aad75554bde39f5cbbe805902cf3467465f42d50981ba2f4c86d1a210 0x4637acc2ae8f5ca651e25849c5ca277b22dc96042d001370644bb89a3fa025f8 (-0x28810f4616c72be52d9e13192ba561b61948b79b51d40f141914cd6abb8de1c1);
  SAdd true 0xbdcc16a8ccece684455881334353b44f5cad4b987a764761617c908feec7cde 0x27852d900c825508fa4d6f40cb4dbe74813b6406de3acc3e509815b9f44cf04a 0x3bdab1c09f5cf728b607cc783608bbf06fddecb5ee3d231b5b14c828f376e497 (-0x46183c290daf6b3dc5865b2a6a293a621f04ee47408a6780539331189f92fc9) 0x8cb6fc29ea54d49eee1fbc956591df1f3bc778d04fdb6d48a4471c1544932c 0x4e6f15b5abd983f69890716cbadd43a9ab73a81ee35a8f5fbd273f90fac949a;
  SDbl 0x917278cf9f8ad718afd72daa25bdded4da0576f62a414c6e634bfd31fc260c77 0x6a2a03761b34ecb7322a0736101bb0610a78254499e4b04688a88f9587afc55a 0xff4a2e47aa0890ec576ffc0931fbae1faac9c5b2edb922568ccc59f247b3019f 0x31b5b92207eb97a1fbb3491cfbe7fcb3d7c45c52fcf410130d86525935a5d3c7 0x52a2e00b574b8d527016abf538f2147b4d9b26d323722f071e8fd149745a469d (-0x25dd2a0205b82f10e677205c942513de5ddf7c0c3acf162588e72b733f884f5a);
  SDbl 0x2f0e09bcaec063233eab9d28d903b3ec2ddea547e2b5d5db2941483884d005ff 0xe44516729f9973032b543b456d04c29036eef399ca2d2c628994367beab78be7 0xa423069b2088dc44a0302342cdcf4a0ce61c46de6020b2ae40964b4622508ec0 (-0x263b38c21136210dbb6cf325ced696d4ce442a8dc909d6ca90d884cd6f7e85d9) 0x8a6285861d2b924d384c523e53b233f7e1778b949712c817e1e16de4393229a (-0x1671aa9c6f76595ba4374cd1091291c848a60010dfb4c8146f070bd1c3cce82e);
  SAdd true 0xfccc813c3e030cc90c20ee9f086dc7d4e1a9c638ac95c9c2da1a2b617afd92f 0x9f798f75a4da90331063279a0e8befa48a3ac662fe87af971c388ea31f970723 0xaeea18b56a907685580e30dd4335937b32cdf35aff3146af59cd6e5dc22fd87c (-0xaf483294a797b891e06664352634efec557d8d97f20d7a5d38b6c4edef33f40) 0xf9a341cdccf9dc82309c1d7925cf824716afb6d1322ab924efae0325185130 0x43ef4dcb9bbe3f55943574994e325cd4b212121026e32f0ad6ff227ab01e340;
  SDbl 0x3f3ee06f5414c04577c0ff61639d300db47c5cc3ca737f2dbaad167048edafd2 0x9291efc5a43a302e84882bff85b1d9bbda5621d0bd8504bee4382def95a4bbb0 0x364ce4472a4df8d37f922e947637e8da578a6a0da2f22fe637c94960ee3d2f3 (-0xd39b8988f549dbc9c67ca7d6577dfeca9d92896e4b25be857f10edfae599e718) 0xfa001e855b1f625fe5ee2ff6ab409cbfc4bca5e1570c74593dccbe0b13e01b2 0x3302bb5485d1439b39f90499175187bd3584497240b5c67cea93587d5472a19;
  SDbl 0x2cd66112d5f2aca01e5dea643cef6ecee38f681f1718c3fd48dfe64a77aece8 0x2a792d5a99b171379991cea65ce2a47b10a6fd1a79ac75a0643d0ddad378bfa9 0x7802c8af3b50efc4159ffab4d97aa527fb21e973dd885b0463b65b902f0dba5a (-0xfbad54ad90a85c867fdde886957bc6b49575c3d2554449e02257ee517a2a9573) 0x7da64e4f1b2c97947952de4529b871cd53d1bd79dd002c166585ca665a4c9 0x123b6d9607ed3e9940173e33774a77491565cc9da0236515c631b3b0d68b2f5;
  SAdd true 0x86f7bc71ccef7caae7ec9f6dee88efb707d7adaf5173f3f1c8e603ef0064e6e4 0xdddf0c6c5ddc819bda4cf21b64ab9bf0ca8da53107ed80300da881901019f171 0x4e17d2caddf6a8cc7c9181d6517737253f4a82dcb941dc3d9f9b4b5cfecaed27 0x45f8c621ced63bc41fb576a7cc00fa48f4cceb4bcf5fccad645b63aa52df38e 0x472849049803cd406330b101cd8cba48a82cdaa6d1374403a7bf3776e480aad1 (-0x5e94ee1c74cd425f7c9777494269275ee462976c00b33011e477f6808dbd525f);
  SDbl 0x710541d4438c5fdb62d3124f7711dfaee2c315640a1df5956e0731dc1526f817 0x79fe93ce3c848636981b2d4967e8745f37afa6b6b9c7ace5ed3c29701c13a8ab 0xae214021a7673eba7bf6081a69ea79a49902aa87dddc128499f1f2c180deaf21 (-0x1fbec5c304cb36bc8b613da255f20609e8ad94ebfcbf0df196382eac03e2e5162) 0x31e5a43938bfaea1df8ed3bb6c3d11c7588f9c1a8b4e33596b988c65df06f97c 0x2c18224f22c52c22ef34bc89d0a0cef2214c6d472923a104abf131ca7135427e;
  SDbl 0x1017cd6672094781884e404d36146a044be19d4f78a0698b12c3f3fce0789db7 0xbca028efadf0268089645a67819290cab5b7373ba1ece1f50e4994e1d6896a5b 0xe235e716faedad9ba8f53f5a5c9ba3ea813dc101a844b9eade4b36f84df5bfbe (-0x9883653e0696c3b04e6a1df65dd35b67d7bc9644f7bc9f4b4e5c5cd5ae943486) 0x102fbe35c79de205580d7c4f3f464bfacf871d012fea2093a44b0a591f6c2e0 (-0x4304b4c8fc3c7d69faba7938e675e0f041131a0491c8cab8ffb1eb2e4b52c51);
  SAdd false 0xacca39bd113a282c7ca0f0e9088a6efb331c616de97451e418bd590f59ff445c 0xa209225d05fa7309bc9f15624263605d5c93c193bd6c588b1e42e2010dea13c9 0x52dad560ce9a3cf82498f02f685d402b29fb1038c628902e0e2e51f9e1737ddd (-0x5d0c5cc24df95af36d9048a5de678c4e8f6537d10c3c38de1fd4b7e181a01f2f) 0x74a05d55af2b706733c449d85aef0eeec9dfc91e6c1bcf2144f94592de36f1db 0x11f279950e44a987a341027e7829277a57da828e80afb7d7cead7a81c5b95923;
  SDbl 0x87fe893a1331666820141286fcef357a5eedf3b0cf60f3d5d34819b38609488a 0xb873626be7478019312fd373eaf5c9f4f7f9198cef2844c75d7c63c9f4dabc75 0xbd66e52d06bad09298421171fdf663150f012093ac3df0fab2d30a36d056ec5d (-0xdba71f5505d86c04a1949d8063f56da23030220f26896aac7e90e85277e7a6d4) 0x483e71d02149d790bd2ce32fb6525e80bd36e5b62f41fcfdc90e0a896a6cf9a3 (-0xbe8513765842d8d99d539bd657710a7d6d8e569630fe2d6156d598b2afe490e);
  SDbl 0xba39b463586c53a320f6509b192f2d9193b4b8c628c7f5989783f879f91f3cad 0xe88884b7f3602c4be7bbc1fdaa601d90a48cc064b0edcc17c93e50a5ed167f4d 0x45ed50cde37c756369feb05c8e19b52eaa82856f7f8114c9f8238bdc103ac4b3 (-0x7b234cb35a5952ceb362f9e4f6f67b0ffd5dec50c1def85b318a4ce6decce54a) 0x8777e722b74e8bced9c9e47cd2f073a7d554350ff5ad352e5da4c4d78c846b4e (-0x22fa31818b982870dc24b48e043e0a2fbbbae6081cc44b8716db433fad3902f8);
  SDbl 0x5b94300672590bc1f5d1dd2fed1cfe9be55595fc4e248ccaf904ffd27f36e91a 0xf06611c139de380361dee13b7de930273362c9c93fbee797c689c1ce74411cc4 0x481aff2c9567c37f31befc8686c9e70c03b01800568d8042c6602ffa8a6d69b9 (-0x2479f7ffe0a0e552b6aba0d49eb902911484c05b2324062a02c52cd0cc3e552e4) 0x20c2afec4684a048b734c4e8ae4ff59afa700d79463225c92286a1635735c4ba (-0x2d04eb195624e5a8147ebac155b29a186b7f5df326fb63f5b8f874ca198847e);
  SDbl 0xac827e4a9d9ac1c20c748127507403ab7bf1a0773f38d46873bde7ea5213fd9 0x89d09dd1bd3a3d1967f22a8d70e53744d848cf6ec2e990666eb3e9adaa5455f3 0xaf03d3c15013bcd1ef9f248bfc3d00fa4e7b984fa5c79b9256635fdd9af9825f (-0x29f2bc160bf73d85067afb51a4eb30c5f6d706e401a34ad2f7dd79d4686ede775) 0x743f9c393a1d2aa69928962e2f139b5136605998fc60bd0dc6570f52f8098a 0x4520b46581e73a78e9b184f2b56806d7827a167fe8a2da649d18dd360d3f5ef;
  SDbl 0x29736dafa4ef6d9d121fb8964f492a4ef82276761275a61e0a4c7c028cf98eea 0x1565b9fc1cb0348bb400209eaf405bf3030f587cbe4ae1e27962563de7c806a8 0x6cfa1ab5f281e2247c8b59e4f826dec31506cc68a98e5cf41c1d5eac62a8b2cd (-0xa5e5cb85077366660e4b5ffed53a60792034c967b16c7d816c73af67e097ebb4) 0x6b62d2e0458185d9c37cc8a7ca67261fcc22d25f33fa491efdf5659f97444aa 0x12d99c63059be5bf932c9c2c1f9786c59349293b7e76b6d37c4a140c3173209e;
  SAdd false 0x4060e183e6113610f392f22ae9578ed17766faf8a9f17acc1842882d4081b7c8 0x726076a1eb0409344daab9c8cc3f6803851fd3aa447347d23b061b2e14208f40 0xf7eac6e924a1399fda63186aa9b8c7dcf3c7a81b87d3a262d726e2089f0bd855 0x762da87309884bc6b87ec4d27a7f9eccca2fd6da27c0b6a96a9abe994502b5a 0x1030956beccedbbc78b912d7d2feae8d01b915aee4847b6351827d0673b57e6f (-0x1761df1890cffca943926ccb9082ba1368cd078b3fa050c11f94f67a3ae4161e);
  SDbl 0x36cf3b9cc45bb00990e20809e37a101b96d2e1bc2dc7dcb7f9b1ee52b30f6552 0x4da2ab1aef94f80c002326e2fa0069fc45f27d21e76c13759576c344a650811a 0x53c2e62ce7449bc99dc363d005581304309225b22a663940b5d5a5349244b906 (-0x2f25bcf67db215511cab535c2cc4d99730bcbb85d54118e7808f30d113c5f877) 0xbbc14e7a3f9f1f4861115b7bae9136413a428566efd3b28989f107b1adbd156 0x7ddc6f450cb1e240e3fb797e98fca8839654a85a4a8695240db80e388dd0b2f;
  SDbl 0xcbdd908fe309b4a5997c095d85e29a777891a1291a2670a6085b23620a7bad10 0x9c68daba1699be9fedb0854832c6fce7098c401d67df821abde7e5ac8522b627 0xa6bb127bc03bbc96f2984921f4334227ed67846287091678ea0d9fd062874157 0x3ec64f44ac9a954a181bf2ec617916a11c6b33b2aa95aec810fb2a528da46729 0xa2592307be7ab6929f3cc1fe0177079ad4fb7fbe484b2c790704a6b0cf65175b (-0x3ebb5556506ba68ea181c74f30ccf82cd3846018a744ffb580d607dd10f7ebd3);
  SAdd true 0x7b031bf71810142ea57c13ed7845ff449467662865e57def8c1dab2a8cfba96f 0x8bbf4e0181e5cbdcaa7e3f0900b0bc3b31c24bbf25b7186a6c40e0f648c0ec76 0xdba98e510237da14f34ef6ac0e496ea26bd1b38e17068c1db8b23b59df1eddc9 (-0x32c329df365faac813c9c8f13c3f740405170e751f73976370fa6a01bb1e9817) 0x3b1bfce957140e4178bcf806e9f6de2df2025cfbed232aa70bcaf108e9625943 0x801aa6b549d0d0bd41f0ac894229243281c0a60a6794b6cd2b48211f88ed261;
  SDbl 0x6957529430e8497cb9eacc5737a06c7d3363c1ae67b735dfa47cc1494ebef832 0x92312965006fcdf5c4e9d1cbc8ec17507d88778e49832fedc5ac206ed1851ea6 0x4a12bcef7a3d39d0f484fb77a2350e480963cf7ae84bcf23f60b8560ec052d9c (-0x3014f74d7549dce50819fc3e9132ad7753e57df5c2936f9d91f0c376e5e2bf5b) 0x2b58bf86f6d3cece9f1d95aa7d4c872da380cfe71051beba2a600423902e0dce (-0x2a6e5c193b167bd07cd23f724c7cc47510829bf1f8fdb4826a94ca48e4ba73b);
  SDbl 0x2da264bbd6a5795e4536a8e5dcbba4278bc51ed1f516d449104afeeda1b25f28 0x9b521c9840e5eb5ddfb1ae697c7562315a8b29087826338f43d5bbdf9d3aca07 0x143be9361b70e763661e9a7610de8b367f2188c2d9ae079ec6022d6373351c97 (-0xe00bc58a745af13c3478bda2aa80b32c3308aa5ee660d9aaf4b6f31b85f20dd7) 0x8227e6db6f79e0b07267644b440fab407adfa7fe0ca2f370cd494b479465113 (-0x1a095317c1d409725e71ddf855094472e2803186ec574b7a6f45c1d3757efa5);
  SAdd false 0xad1cf33902ef5e8f6ad3410621ef6b40000574a26c95632f9d8382ea87f209b8 0xdc1aa78740b3aeb7f57afe62deb14366e8f63d468ef339eaf391b726245a0318 0x4f13352b10c0d2c6c71fff5a424a7f45e70f43b7bf2badb636c9da99514c7701 (-0x46b3666cf5df5446dfb5112000575b38edcef3cb698e4ddcfe8a09b1b9a28738) 0x751024019e959670e07b787ff3977b3eb629ff48e5d55ae165e7e91884a2cda6 (-0x2bced95faa16d129af1b894b5eeacd01b18a419c5b1d3663601ce46c1af9cf30);
  SDbl 0x699112678d26c2588d9b697d1f0de6b77210816b588c90f27a6e2b5f80b4411b 0xe65fe9aeac934e0a679bdd39d3e4dc679bf355fd9ceb9a2a05a82b5f7f91b60d 0x6cb36d41152ebdd0dbc0ce1b1cd2a5a440de669e9ce422a4261185c87edd33c9 (-0x1f682176880c822bd3e4001954a7d9c06ce7cb48f4b7db435539767f78d3ae579) 0x2b88534ef7f2be601ac53415ddb1d5bd011d4c2bace7f884e93b759b29bf0364 (-0x43c3a19adfd23116e8f5620d7f657b4ac520a2295e6d772c55340d91842405f);
  SDbl 0xca7c0c6a58897a4d9a57549f3d13f404d37539e8b7e341b36f2d6d8bdc4671ca 0x29c6052fdf2552579013829c957b341f8f40c19693bf4b05f248483f3a2dca54 0xdbcea721403a70dce92720ff4d88676246480ce4e875201d4ae450466bc641ef (-0x1c1fcf2b97ca293a2e53cd79ae44a8b2bf5e070f9c25dfb9ef89ef5036027b53c) 0xa027ffb47b80de5fc22f912a84b085767923daf706432079e1a5e2ac9c45430a 0x952cd1fce059d90181bf41393aebc470f3f22acb47ce9be11e72c59e9e28ccbe;
  SDbl 0xa525ff5a9b38c4ace7420c50f15f44ea68bb4d5032e3a03a224140ec745aef2c 0x13d4df05c3b43f588f0711c662c944fdd873af15f9dbb7a90a45c404a73d77ea 0x3c8e22128a819f8886407a98d7b9621c56f14abf99fe3149adfab814a0785ff6 0x107268f2f6977d41b67c9664737fdc4c01c4f87ac1ba2b0d615073e6445031685 0x6a8a00cf0587ae0b5b76340b73c310e52905f2eebeea787d965cd2563135dd02 0xe27af56af06c3c75c1f3a331fe93914e79235b0f9fc5cfe2cc0978e6cbb81ad;
  SAdd true 0x9270ddac4e90d55a98cebf7cde23c9dee0d64b1f011cd11da2a2c1d20e721f25 0x82936c9e54a0838b902b6328ffc8e9f811fbe5740852726413d9f65eb1d21419 0xb517cf6915c5b0a0b5b691f76680a56fcfb82f82dd8157d6214bd7a57c2036d9 0x11b267d86b0c001ba7b37d7d7b5c9c30c4b5cc63307ff4faf7c77ae7c18e41b9 0x53c4ee9b9419d45154c50d2988b0edb009de79a94283a4ff89a46ef0bf9e0571 (-0x3f5980043f003484607713377d8188db530665edb54f9d4b3822ddb43e152566);
  SDbl 0xbf7b56a8a458181e578f3777f26c4ce07b41ec692a917203c621ceb47f09861e 0x66fba4c8b7e2f79c9bf07aaf951a7a0377d9fc5adef267f5df271068bbb7b16e 0xb6bdd9e00e43523ccb34e1c9de97dba78b2e2ef17d43f91d266d633fc80c849f 0x4719d956ce152dd9e8e2e8d3fa379cecf68c3a05ab9ba1b906901910ab8db874 0x8f3946bc97d864e458fd45273e8c9dca56f6b9b334f96684d2d7a789a6fc6e1c 0x14a3895ca2aae577b9e5114827b838d95675b4730b796ad01ba8d124506ca96e;
  SDbl 0x750e8f2df82d15fa5ce60a89f8a92748470ff933cc99e9a06fc5f7d5af90967b 0x98277222e2f89a182ced0ccdafb3f96edbfb44ad656244ce4ea3f56849032d7b 0x70b82f262727643b41a10bbe0d48fe3490fd6ecbadc38c59d6419c1fc39c42bc 0x2ad5d64f0c3e53b627bc9ad0f5349c19c7f01140888d6dd725a3937c12661cff 0x35864fb4337b0e3d02c64d5bbfb35b74d8f0cfeddc29a40b28415425f39e313e (-0x167bd0bfd32e9df6f8d1f53d84fdddb1e70b6598624d89de454b66f9ac130066);
  SAdd false 0x498fe29d2a0029987895912982c3485ab3ce59ce01ddcb65394967b2958bd04e 0x766e2ac26e64c69be48cac8eccdb96ec24a832a2758e01caf71078d94c93f3eb 0x4aae940991bb18597f4a9f246885954ce854724bc7764dfe0289532414536478 (-0x1d2225cc6108796cc3b86926275a60582cbf6b02886423aedb52fa88c35bac85) 0x1523601cab4642a8ecea8e1ccff2a06780ea6545183a41ed5f2a367c1eb0be69 0x9b0c9b3aefc67d7d6dc5e4b7460a2d1c97da5d672eca896ba880b937e171d54;
  SDbl 0xf820cb7bc7d9fec74a2a7e6f642fbc566fec74cbbf2d0de7076a1e84a2b8c48b 0xb90128de264e13067e8a8ae164bfcadacbd16de26d3ed79324bed21567213f84 0x37d1ac325e578ef9275a65e0c230e6b3525c6024dc9387a60439be05788d7df6 (-0x1397db4b7bb555079197dd2e0d2a79b4f808eeddb90643c1b999fee36008ed28) 0xf07f8e7444656d637779d3d74f8363881595d55fd347d79231ba2254f59403e1 (-0x4086ed759e40f3306a9433419d1fe2044f86ec8cb1d6b1acc72f0e96b28ded7f);
  SDbl 0xb79606b7c4d28b35812f45cb2374044ee04554e38fba8844d25af1e7d44723b2 0x8a724d5e9b55537d723f11f6d5f83e574520ac176dcdfc554ffd2e950c2e2550 0x81088094e03d8bc9a3f136a51dc884c452ae265d51147087a6b2f1305ec1681f (-0x14108d664be539f20830bf8dae112fe2f948914e427bf80fb25013060ac49b9eb) 0x83a7d5871e94a06d9ad6347b57ba6694ecfc2f1816c9c94bbeb55ca038ba7c94 0x216367d5af86367e0f32397e092652b85f35fd11ba7ceeb4d3b44f7c094591ed;
  SDbl 0xb13d78372387ac3ef713e877e797b5790062948f4f994176a45b0b5a82931b38 0xccc675105f2996358f78ac33a5ddbedb1ae470f3a99283cbe7a2a8e7823f75fd 0x996fc18a009b8234616c2de8d3fe1fe9e4fbdde975a982d34a510c2d25d9c4a1 (-0x2df2924e783bd6f3dfbdcb97a230eff343978d5dbf7ae1a01c6f37fc859d6c93) 0x7ab60eff3c925705def309a9a0b2319a807cff6ac40fa285b76d56847566e45d (-0x2dec1ca547920bc6231c2ada67924d4e81e5de58e96402558f872b69a6c1ee68);
  SDbl 0xd4ccec81c7b5f8d9add263e410bc581897f7c5d83913b360b9fd2a6493fdd119 0xba7f0d1795eb6d9bc7fbd7891abb6b46f8e038dcd5bbbc72fa3394415f6854e5 0xf12d92e5884c0e430904191057cf9e96ccabb136a06bd8cff0bbfbc46b5a9a9d (-0xec4fef18701063726fb06e04a9dcb08f66ccb42c29d450cc91b8ec33cd1b955a) 0xb0e40bc16cff43f0f3d34ecb3b2e74421712e4149461e3c01f99dcbeb7b36c6e 0xf31c3e40830d90210ae704eb9a7664f6a5d97f84bdafd3c98f78d4a0b758be6;
  SAdd false 0xc3ee63bcdc9ccba9e16809a01c546d05f6dddf14ff33a819b53ee6fa016617a7 0x593e75851c907e42a49dff4dfbe4abcf8a1198fbc0fbde6c44e97a4c861d4feb 0x477c742959f85d80e48ab8457660c652546b6cadb463d7c88cde18334215a12d (-0x67e15a7336d5c7c1ea9e5ec50b91bf281aa9b3c70c1ad4fb7660c846db4ea5ac) 0x95f509efe811b9b56f43b9bf9cdd61719f497556ddad4938e7ab1904ef8eaaa6 0x4a6ec36580e7e1bd341116f99d392104c4d1522dcfbfb592b53eceab3a7186b4;
  SDbl 0x12a9ecc237dbc59c2190d50f451025fb68fbe9f5f87bb1badb9130682b318322 0xee147a834f3cee763958f8d176efe176c646a9874bafff8b76e430973e7afa40 0x9524ae3859e2416cf2b8a33a6115857d039f960e26f2945059d1bea10e4c940a (-0x52e90ffa46869273f332008b2874fbff68915350a39f4d1417bee094d95a38cc) 0x15c5615c49ba8608b17e1aaaf65bd098f3bcedeff2b158597822def6885c992 (-0xad9d7496d7d4b68d83b0d010d426e02277f91eff96f10a012548ed563beac7f);
  SDbl 0x486cf6bb7549d2287f8d8424768498050a44d43488525b5832ebeb807aaca911 0xaefa13c14d17cb602a5c5bb47e0e7684e99c3ae66a4eabfe8bc8faf622d5805e 0x921aaeed604810460550500b314c7b9eb044036cca6dc2db1c77a00b05c4231e (-0x243daa7e13a1c756c66f9f2aa6f5e2b59575404c467a67ca12fd184e60a2dad57) 0x147d792aa26ec4592bd569c60c2fb16019ca79aaf2be8e658a840f8ccd4c01bd 0x11da48db903e63776ec55a87e30c9a4f17eac68330149f9653929d7568c56d26;
  SAdd true 0x9d98445747b284b2d9fd8d853c5ec6a56ae79f8fced67c76ac4dad44022be378 0xe4798dc4de7571085cd77c3b9cdd28a02cb0c04bba8056a491aeaa3f0e6653df 0x14f3184546c1ac25940f6bcb9f2293a0f84405290611b486da65189a2619071d (-0x4c76a029a229754ca4730937228bf1f9aab41bbfcb15c5ce0a015c76f6a8deb6) 0x61041e64a8d8b4fe428649229cb9e8d0d52a696162c41797ffdc2bea501a40c4 (-0x20eeffccdcead10795790b217b5a489b324660ea354ce03adcc1660c74094e4d);
  SDbl 0x4b78c142ac60eeeb4fcd9b36930b74395459e9ebc057b520c4824c0171d5f669 0x261a056e0772dbe95dfc00511c8c3a739accf269c5d710ae7aa569d0f9df2299 0x847ca36078a8c7611d8fbf7800608620520d27ee83b24e7ee6d2ddbce649f6d9 (-0x2576006fb876a8a85574845315aafcc08d0f0edc200cc2d43631cca52caea7d0a) 0x163ffa32e7a7fa584351a9752d630f9a792fd90229f762c572c5e3206cc3d346 0x381fc9712c6d37eccf876e01b1da74470f04850948399769632806f4d2588440;
  SDbl 0x4e2c3fb0ad72809373f086ac3befeb8bc17b6405544114557002b38206ca7af4 0x5d9a4e26d37bc4abf23cbbd8f3d722ced4e907b93304f52ec82da7fda65c6a4b 0x5ceccc760af01207a0e8a0f050e634078cd50fd3431265724f107c384147352f 0x3fe68b8e1be0af69708a89835f2850efa507586c28596ee88e5ae0fb90f79ca8 0x17defe75b624d37911b893062d0f74766aa457f9dd44292743e445e5e5fd36ed (-0x10f2ae03be9273dee0ed5feacb02b8d6b0bcfd36a413fa6e3b313055fe67aa50);
  SAdd false 0x8181a9837e0e3fa664e65a60064f25878f1e7710172a92908aa8dc621c40cc5c 0x2e7beb19307fe2edd6f60e68e429780dfcf3b9a0c11f9d8b172fad16d9ca8e3c 0xa8c8b6136fc34f66104ebf0032d232533b59c94a24374d1369f7d9bfce19d642 (-0x15ab57a00eeaa6a2b2d40893faa0a829182a35c2a6e0d7f048179233801fba60) 0x4183ee830d5234fdf564e93008f36b5a3a0f96dd9bb8bbd0e3fec712c250ac3e 0x17d62d6d23fa7fce9b0d9d9159163d87ef045281c30222d498f405bba7da020d;
  SDbl 0x4aed95b97599bee9d52648d73288f56caa88918ecf4c4a5bc7e97f9b25e1e00d 0x607e490e7d4f96faa750ad995254c9e33c055264c26d63a038a2698e5dede9 0x9fe04a43057c009ee62eafe9d29bf7f5dce0aa3f55d0bcbaba4c26fd5f7479ec 0x497b04e8689362d277fd0453e0f2b3233c6c7645d3a60017402137b59f8c9779 0x15ee370ddee04158b18711441a074cea1a2991377d43b7d8bf80b4c9e50249b8 0xd7eb7cf5157f27e881a6c82c6b0617c10390591ae43d6a98351970b64ce8bf7;
  SDbl 0xed87bd99817089eb9b824680d5164f47e4b77b879524eccc59296263c4c56b7f 0x7729e50477af6ed1e5b60c545defd90c82b7fe2c1b1a8f5bfc2634dd1ea37852 0x99dd83e68b3188e4106d40ef77732582c1757edaa7968efa7d5b79dac9b6de7b 0x128ae67c39dad87fc10ac6f75c1fbcab8206fc5d5e2894e104a806ce884757a08 0xdc649d089a618644746c1bec03da0b343b7932c95641055a91ac349d24c5eb23 (-0x6e37704b06b5c82f676bcf9e58355b3d77eaf3c6f179445f9e316e6f4cae1a82);
  SDbl 0xca251005349e614f89d38c0d76e53dfdd128cbf444d1664a5a6833cfd10a4de0 0x7aab0e27d9673748d9843d6b9f7c2af965b4ca17a2825502b88b6a2ae944d6bc 0x6b3f1ad4af411c325df334c312c1461a4150cec7515edff0e379e94b8d2feee7 0x4c963422448bac9bf76f012f60ef3b21d1318001664e28c7f53d4fcbc1739989 0x9f9e82a6792a50af04d478b52749355ff142d65f97fda47c1674d013395b4360 (-0x2c46c5904ccfb4ada8206df496fee02320646b97abc034220c174bd985cb3de);
  SAdd true 0x46c0b0b3641195464fd8a35ebad66d495e1522c47b9cedfe1281265861fd26d4 0x1050d44f29392fd634bfcac606932d3355bdcc3210b3f0597a4848681e20dc32 0xf07ed9642b577ccaace401091f9d6ff9c69851106063102bdb9e8d8fe713b7b0 (-0x13df1ca7a9c931918418671a4974c4e470c484e3569fdbc5245361aa37998163) 0x138df1abb554d0fb576c3b39d60b3eaba7c702aa242c8e8107728499cdc68825 0x1d64b8e54e8369b14893306c8970bc482ab68436c8ad6c1aece99776fee5b04f;
  SDbl 0x782214daa3c3d6eefedb1949823da97ed00f382cf232fadca85af3bda695e133 0x63c1e7a49ed0400e4cebdb2b863986b1bfa43314750e6e361400694ae0663183 0xf2dd2a36eb1a3d85317a34b7c957012e80ed4803a9ab142563b8cd17db38fc94 0xde9858814f6ce8983ce37281de7c81d80cdb9834f7c4141c11e6fcc7b8135d29 0x385ff816bdadf5edcff9703737cc1a3be1427b54fe376d49d178eaff0d2f39be (-0x27281ce0e0ce8300d3d1587f9d6b767dadb3dae405e565f1ba78e3f26bc21b99);
  SDbl 0x740b760316cfa98a7ae0780fc4c9e0b5fb8d834d3ad5158d1aefee2f8c4c49f 0x8fa333fa2803bf4a6600d0b20c7265abec7d2804e1e71071b22725a7f17ff07b 0x40b68be37cb507fb3fa8f4dad5b72a0bf6ad7ac1ea6d611eba6f71852e4a49d7 (-0x66dbc146d47e3f46b3fbb6e1affcff7530df959afbb72a11e0b5c9bcdc4624c0) 0x349a63765bf1640568655c3b3f61ffcc25b4d04ab7f6e450af774ff7d078c0 (-0x13e40d7f7e788f671487272c68fe2cf97cce9999e876140b6fad2d72b693d8d);
  SDbl 0xce3bb6a2048fb09fe9fd67dfabd24045e7691e5aea6f12365909658e08ecf39b 0x7ac96e19832d7598418f707483ee548b39190c129e3dca1c550df9da39a2f9a9 0xb0ef843a1688f3cf7031802ec854da99485e9a79530ac739eac890639531103f (-0x89833aba9527da353a73012ac0d2c56c4289b4ad1033886acb8187aa74b90312) 0xa62427db1674475df1d1ae9c0bae5a548c8b4c0ffff9d07df3100caa5f0b3ac6 0x10cc1a4b75128f743bde17261a4121ce3beb834dc302ef21b9ae0ced98d092f0;
  SDbl 0x9a249d665bd5068d261487a2358e7c4e5ed47f992dfd4d06d38b2b7e6ad51382 0xa6b8a72af1f255405ae0d76078fe730fe38822b0d6d0a755f9095bb77a47af13 0x229f6975400b69e61f47beab1067d7ff235fa1c69d10ebb330eeda13e9104733 0x2464f5bb5081acebe12f21a13ba3cd378306798bce84c8eab39057e08b06bab4 0x5cd0129c28dce7f86b1bce09800238d126cb4573c79539fb3d1749f2cdbd1461 (-0x1a7430fbe49d398ad999fa59c7c524a4b299e303b6b7807b926a630c9f71aaba);
  SAdd true 0xd253ef53409e910266197fba862292bd925907c355eb620366b18539e6bb469a 0x5b4590a8183040758e39d3adada5592b627b7046de9b06dec941eec203644960 0x5542fbb1c1bc65595b60a425574693b540068aa234d0faa05ca0e246efbcbbd8 (-0x5f4426c19dacd30ed2f9c3e9ad151a5319e92ebbd9ad6647fd52a11f85407cdb) 0xaccdd02a528a6a9f537ea1a07fafed37c43e7d1b17e480feb3fb0f91c083d896 0x3dfd2550dc6aeb6a4152ed9bf62f74b569c06408f8314a18e87448da0a71e35d;
  SDbl 0x9dfa77107fa81830bc890c1019467a3e3740eb2aa6587d193859a37521d1db1d 0x7b16436884e2526e5471bb5d1479f26ed86ad8369c6b35984b00a5792c236fde 0xacb7c715771a4f19ac3ba0ab6b4efb6d0daa49b1585039f0e556439034dd01f 0x79b679e812b61b6131f92b81cb803168ab412e5139c77734688233d57418d0d 0x617d2b1761ab04d0e343e507495ec899c7d3aaa37825d490a80985f638076155 (-0x13a21e3ab6358457c9b8a937074c41c519dbf3fabb946c6badaa9d4a3e824dc3);
  SDbl 0x2c4af572218be4bf1fc5a88817d0ce4e7503a2869b29ea19c1d8247d54058956 0x8ca5153ac664c7dd6148acbf51a100f9de4c140a295107d90f18a401433b4694 0x95321e2ec01dec0a3e20971af5bac0f60c5c22dd3b56d0946f9b494a16a84dd5 (-0xadceef04f031def8dd2417b0f2a88413f4a732808250c21cdfef2613b37c354b) 0x7a9da521480fcebaebe3794005ccf61b9ceae10ab8cc641805dfeb88478fd6c (-0x309b02e4fc7b5aeb4c8fb19eb3ae39e46cb6a7b5ce653902a2747a078925ae8);
  SAdd true 0x114d72cbe0f328b9d66840b7b9f943162503ede6d527a9e9781484ed787f40b5 0x8715446d3d3e5de45549b8938598057a105dc64036c0b1137475aae8df0aa086 0x1544866bf91909a1fad9c073fc3e4f82257a55a7df509927b7ab6d5bcfc59b9f (-0x61317a480676094ef8290eb40cf6bf3d0735c7f15caee69c8337eead06dc744) 0x12b60ad572b35139d02904d63b3e5402db97c38c4c87c249990916661a15be8 0x603b9ded37425dc0e4069f5bece6c283a79f0577bf5daeb1f50a6bf593018e;
  SDbl 0x7977d1d9df1ed72912eb10c1e6c5d4c314e1b5a97f18dd69c21eac21ce619cc8 0x346665471016d74f479cd9fced14212654856d61aa5f06aadbfc4fa8f28eb499 0x727b9981c795edac8604915740aff56856bc01567b2df9821e68e1e9fef7f9ae (-0xc1a7a02a297bcd3b10962ae2e6d693f1b33f4977d91221e6329eb8f0238b9e07) 0x39a27c74f3208a422f42e9b9a4f976f5c1332e52063653dcdfcf3c60a10f9965 0x273b5a8a0fcba31e274235b9a5e1d9c1569d1e64df036c1fc1e318df6f5bd825;
  SDbl 0x888f661595c469aeb6e2cd866566452eb81bbdc65d7fc21da7cdde6e4a217394 0x206e88f0600b69704464403461eb6982b3963184f89ba2eeab1402997625b3db 0xe156dcce57efc6e9a0fb706117cafe8a571f31c31116737e092926f9ba633fc1 0x59f64e3057defabffa0afd22c1068ee0391f380fc850cb1ef69fd7f9c7838520 0x48d8acca6ccbe3ac8e5bf98b134793f476628922821029c56159438acaeccf7d 0xaa6dc789d6777bbe657dcf188705c84d557bbcb08047bf80fc90da89cd37197;
  SDbl 0xe389bf29fccdf861825a81f84c7e2aaa83baf15262e967415918a413ee60f634 0xd6afba2a6bf092c5b69ec8d91e4216ef726723a3042a8ae316500d3ec0f7fe6c 0x580277d07b2d401e14c3a4a7c6fb7229fe7e551460f15083e3c3f5f3a4d46a0f 0x1843f153721e7a94310ada45d26f4d82562e35b435592c249bbc6b218fb6525a0 0xca3d93236a431c327c0e5a06743022efad6d489c4834b5929ee87837697b6b92 (-0xa1fddfa2fac07196e1b161262bc9047d48725b016294fdf74321e6a79609dabc);
  SAdd true 0x167ed154b070a88c6136e92b175407d4c560c335bea684a7cbc86c0f575926df 0x5d0c7f82d49cbe0d8b0d1863dd465079f256731d09b900f19508132dd3394be4 0xfaab55656098030522b2bb5ef2b1c92ca385d6a226ecc607fa0c3bae063c512e (-0xe6766c0ef0ffb4d741af2cadbb06e98f51db8ac09cf7e8786dc9fcbb76214b4) 0x1fa0acd4ad67ac78c7a8918df226ec17b3a1bfd7b1ae0092335f85c2888c8d6 0xab048d7d075c9be2254bef0aa0a1285cc283c339ca75c2f2c928da7fa2b06c5;
  SDbl 0x35e047c714d85bf8ba033968c259875eba9debaaf73adbdb75bf808048590489 0x2416cd0e43dc78573cc9439ca777bdd2fd15b080d3fe302c730b9f7f6c4a7581 0x985f7d16e9300156b4c944544223d2200fcd61bd57e94209ef603f15a0b36993 0x40be9fe9140b741ebd1953b1901b3dbf6085f1f1dbd029fa635502f4d01d5f1 0xb56a2362a7cbb4d87dd0fd08c5ac786f30c1917fea4aa062cae0b59db667bf8 0xbfcc4e6c4129e0ab617983b3896b9ab29094dc18e7ac5fa6d7531fe755a73c6;
  SDbl 0x546c82b37630897f2dd17ac5bf07a21373e1b34394b2996edfd2bcc84c42c521 0xe7d538a715b21d29b79311575801cb9db77299c940a1d1279e319130f986363c 0xffd55164c40cc1477fed67667a9c60db7f37113293405a4ab8cf976a939ffe10 0x553c9323d582468aebc0df90d660ebd886669fdbcc75a96035296897af000b1a 0x1bd763c46b8db8cbaf041474f6a475c46a1836410a526c6d4b909e29fd4b52fd (-0x408d7393b507cca247a7932fabb2da56466f0fea7a0d1f20589c53366772d942);
  SAdd true 0x408f0e2b2f756dbec2fb87598648aa04d214897b298ba9192e6c8af3e0e6edb 0xee2839de4f3b422027f6335a9560bf15fb434c7b7e1f0c42872a6c744c51e6c3 0xa4d23a41fd2eb09a2092312b33755628e5b2ff9f17bc8e8f77e0965536e98d01 (-0x2da950e1b8ea4ae394d358efe3f7aa5c59bb91e952670f2e85519d423774859) 0x1047d7067d0a53904be5fbd0d35e2e9107118d35d87a5525358542152fa26d (-0x1984905190213294490542da2944b7dc5b04f10aa947e7f60851e781fa6f72);
  SDbl 0xa55d71b18243e4dd39d9344072e6106b6569905795ec12692731155896e45626 0xb2fcbc83ebeb1fbb8ab1cf465a61ba1ed3a5b7f8328fb4fa686ab0031f8c4f5e 0x3c01ba28921165a718516d92b2138e2d1db7b0a9a54658cdd3e22d1a2fda64e6 (-0x1c3bd2386af2c54b2971d446db306e8dfa0f7482066054ebf40e75252af9f9eb4) 0x6ad196ab0a33f119d3b8c3b2e44ba58de1462ef3ad295c815c25b22d9f828f40 0x2638a0df2b93b36b1fb96485c12fc6156ea7b30085239a2c364acb305c9f8ae9;
  SDbl 0x2d9fcebd9f7077f5ec70c4f6129281bd52e92f0e612ef300847c403bb6f9a8f0 0x8f3bc43fee3cf47524efa781b2693cba6bbf008a1c53613ccc557f67661d2155 0xb50e462797ca4bd739fc0bb5f7adc86f82cc3c2a723c4a8186a67af43fcb834 (-0x16209c87f9b3d8fb875ed80a3a8e085f38d3b3f98a9394465f3bce340ab159bb7) 0x821927128b0e36071ba0cc4e484feff15b0589f68ac68c4c657111e52d9df11 0x65f3d5defb3f9da8521e928f3a7f87ca02a90eec1c385ee3abe8d2978a50caa;
  SAdd true 0x43b8dd58ba94f8ad67ab7ec3e4136689779423f55d23d415130e241e9771a739 0xab72a114ae27034324d64eba9b91f91a41f2539438ea4a2e7d039f406fa89da0 0xf42f41868a3d91213a4134a76c6a8edcdf4b82a3d1a6937878a5ea5f4e8483f8 (-0x1875f052004c1e53e4effbcd22ceba47e6d2c28520953a990f51aaa2c50db9f6) 0x11ea495b7282ca91b3cec1b44a43a48ab8232443490a9b7d2b34e51abd84c90b (-0x776bb9f92aac81ba8ce519c31db8edb6cf8d882f7ea2981550867b835402a21);
  SDbl 0xe6cab3463de02124d2e9b9bc932c3cd05f6392b495b1d317c95ce2a3d180c81e 0xba621baa3cc102f0719986e0603fc90f0c28418d9a43f3adbfffa56aecbba354 0xec1e05fd1f33d58fc401c8fdb8fa85842907f068157201ae48d41ee99b900053 0x5fd096c128c2b944c3500ce85d80a0580cd4c3cc174ef2617d10fc6babe67ddd 0xd010daa26fa489b23c9d8f65f57796a1dc797a399fd4a42bf1af8e2e159dfb10 (-0xd76fb8eb1661812b99e370faf719e3c36d433946aa5e236ebfb713ec33c309d);
  SDbl 0x686a87336b1864cbf2645aa15c6f080518c25734a53d1005737863bf14096b5f 0xdf8ddaaa050d699cb0af050f40f30827f4c641e9f7266539f1fef51bf1877a42 0xd32ebc63996e974bb9710b59cc7c033732350ba34738706fd8c2cb4e4f03f20a (-0xd67b3a456882d5b190f93c18ea477ba1f1c7abb2cbea83b2ec623ec2243764ed) 0x2a96ba2e2f96818ef0416fcb0f1bcc765f229abb77e5d71e3e431510394833a9 (-0xf293d56976df9d5c9ef1f867cffca2678cfcaa82d062165e6ff088ef493d151);
  SAdd true 0x79a6e7a22cb371a484ddb0a5bbb73d342c8823a6a603990fb3e7f96809b2a493 0x23d55e6d7d4e152c11f2b338d663da9a77361e89666ee9ef8f76144d09432d36 0x688ead1c8c7055e225613c900ddf77e7fccbb59d45ddc3838202bf2b212c939d (-0x521bbcd1aa0e950eb26f5576eaa261c02c1675a698e52c1e96d49014ffdd0fc9) 0x39cf33c8bff8e15618efaaacc4e1a875f23f3a9d2c73ebf6f9db954691de6fd6 0x59349633e83e92a7c8ad5dcc372f3986639870f914436a9ecb9c07cb514497c3;
  SDbl 0x305f616ae607d35f2fe0ccb3910552922093b7f4c8c3dd51ce8fc208653c5c49 0x157f2c40076e12d3a6d27b262847cbba94f86c58e36bd6e7a453f33cb82702f2 0xc8bfec4fd4d09894c485363b0b65854f32c4a2eea4276b799156f37587b62d3b 0x18774d6a19b00cde1515f0bdeea15647bc5bab491c009c093f805a3f71a30e9f 0x923e81191cfc0195fc4d2dcec78a6d01fc314afb35d137736050439cd30d08d 0x2b580d9cd44212e86fa623546a9df5ddbc5b7cc6eb527675e046e6cacba4374;
  SDbl 0x625e1b6d13364acae484285a3bd7abe0b1d5f0ad6499bc9df1e251f6df9c4b3a 0x98dc41c792921fcae424041dfef97ddb751736a8c2f518e358c1290ce6be59d5 0x4c3e2473145b33c6ed8f9b2212d37a4b111bb03c43ed0e94bb20bc53e0389986 0x94dc33947aa565317e0fb4c659197e2bf6ea3d6613b047aa492a7bdb2a58f58d 0x25cc2f97cf8c0d40e4f4a4cbd7750ee4cb5bfeba5d636af82fb41d9386415695 (-0x3279ec7ec7460bb1da19486bb0f501114e31b1f40c079d0aa142975b03ff08d1);
  SDbl 0x7ae691e2cb5c8547a64fcec247d51d3e68db52847048c127b9d7f31e547f7ba6 0x2af9d1309a89f4e4af8c0d465d5dbb2ff21eb25467e543b2682d6536fe6fd09b 0x40b83ee6e5027ba03a78dc36046a9471fd8447ddc31cfb954798e8989dc99cfe (-0xc89e518e78339cf98edef08a19470f099d9b98a33a8494c9ac4d1bc8d4cc7c20) 0x3b0092b6db7cdf4922a2217993f91ad12e2ca98400b24aac8e59afc7f17f94a1 0x34c0e1b7e98ecb21539316a19abb624766e63a477d0854a4bd4cbad103605ce8;
  SAdd false 0x2af0ba61d747884179d5aad5582380bc3d3ab0ae8385166d1f1cf5788e6e4b49 0x1d5d3033d784386234823edcd49a02870c1a96d418e47e3c4a2448d0750edf4d 0xbd7d21f6ed4a09004a7b893bfc9945d48278c1abe74ca82e90205e2f68a33767 0x14e9c1ccfd4764eb6117b256a246abc51651a48b517c651bc03ad159710bdd5 0x733df8620fd5093e2f97ec5db8ffcfe9cf4c660562697c30af51a16e1eb49de 0x2487f29680143d33950e7e7fee629e5fda020259ea9483184a2933a7f922b27;
  SDbl 0x5a0a3a202be8f5bdd8daf029b075cc9223ae85349e27b3259d671a1d03888f32 0xe3e8967424c74d7a9f39da65c3f01a97968a106657616679d281f0d6853aeb4d 0x9c6fe7dbbbdf64c32f5b990524890df861ea94b5af3f5b27ccbe4faf0dcd7ff 0x7b30632dac4a321363d159f06752507c90b94b7b13afb540eb1016d43483013c 0x1fab31475641043496af7272306a853cb291634c63fc97194e7b6cefce1fc423 (-0x45d4f0796826fb25c8ff9a39bf6f6e63942f7c1ceebdcd65884f11138331989a);
  SDbl 0x2e97cb44c6cf5763798786387f9305b5330d95635f896f7720e6a35675321540 0xf2439ca24a76233252a35aaea4e4e9944e03023d9e9c614daf99f6e7eb655a1 0x7b6d2b7071449bd789a7e7145f80ea41944c9da768aa832c90d28b0319c51c19 (-0x25d23ceaf294f12adb7a40b991cca38c9206b80b5989a1a96bb7155a7b3f87608) 0x87ae70e2c7618d6109fbda484aceb851a63c6161cb99c0496a0e8e2ba689c3b 0x26b9716a39e4deda0306b2ecf5d32729e5f6d04544d7b4b5f731e35eb19d6d18;
  SDbl 0xef50ac49735706117a0b35dacd5365066f5d35c6a7b3d122e55f5fc864078655 0x5dade101a480f697d4779193da12359be170846b9bb411320f9c8ac4c11f7ed5 0x82d738285501c2ec16a518475296e63da8b80e5f08bd90b2868dd647aad3de26 0xe413d5c7891de77ca63287f17ef9eae1804d8efbcd5213007be34cb885041926 0xdfb7bb1e26ef16e67f7c8b76320d29d3a8b5a5c3ad362ba1f7eeeda6b76911de (-0x496b42fc601bda00bcc673e3664268fd9116266f14403b294f4cf2b5b27f1f7d);
  SDbl 0x39809693c849a94ea71471e4c334fc05a5ed94071aa143bf3ac60254dfd1f541 0x6be75dd3855f8695f349c03ef524f73fe4b4f87ae74dd1491ac39a6fc1eed3e9 0x2ac62a25748bcf538c5807f9c193ce05a064e21215fdaee5afded296cd3abedd (-0x2c101a9a02b0c07ba370b010ed374390fca9a8f6a4a6fde779575775d39273a4) 0xcea83a4c8751eb9113717bf8fbef2d200d3f69e23a38235782343d7a7165712 (-0x331f1e70c7a96d60a4c99e61b8f4aefc62f70c56f7fa6949a2f5dff058ca4e9);
  SAdd true 0xc2ae3a8e64057147ed1d99fc9bf685b8139146c9bcfc06d397cea2e8728af060 0x40c6ec5b9d1ff7091ec4cd0b9ab0da0c02dd4e9d564f06bee9a8d7107870a073 0x85b2726d26fd50fd98b4f2a000818bfa30a7dbb88346ece1fe58fa8ac3a39f21 (-0x2b732bc20e17df1bf811213d11702b19be759199abc09fda5764b6cf8999417d) 0x940c87540a9992f0a033486b16c5301b766ea866b64aa798b3f97f8be477c523 0x20cbefe774d9a80f777e2bbdc72aec929ba1141657e00b35f30a149d67b071be;
  SDbl 0x1b022fda8d86b838974ac3e71822342c201fce5822e13e8d161e671042570cb8 0x5b9d48667f4f8853f69a16f12673bada462cbf2a190968b2edb1a4bca3263e48 0x66e3930e8c465db2958181a9894d7fa335ece00620ccd4a984686da1e3826c1 (-0x14f645584ac63526980325a9014e4b4744b156b6207cb7cdc145f229f2fdfc78) 0x2d9761ce51011a0853069e129a0a5ec9cbf0ce83dcb756dbd94abb50e55baee (-0x2d4d666250c3019b1c2a995e900deecb9eeb0f05a5c56264612b2225ad1cd06);
  SDbl 0x59ccf87ae9ba7fc9640ad96787c52376f2a28471833a9cb05ef1970a746e45d9 0xf6e1fecae3919adefcb407791546fd367038625f381dd65bdcbfafc3f3d678d5 0x47291de0544c61dce2b93ee77a8b3caffdaef443f9fa57ce3656e6d7121d0e7e (-0x5dd8a665bc8f5fa30d63776e7aa51162d02b54dac0d31afca20f6a33005ce075) 0x1f8028e28b16b6d52e5ab58c8fdc87548a2d3a864166e0237599677c78984374 (-0x367734df9284e65f982db510713a5c583016e70604c1da41b9a54598ddeb283c);
  SAdd false 0x9ebc47b153ba07f5149384df24045a5068706cdbb5d08a2a5a04d6095d18188e 0x45d767aec84bf41e5b910ddc1debd017d8fe960468a3e221425285e66ef1bfde 0xa9ac804400f280583e7a57ad1efeb3d2a8ce3ba4d464264d4dd66e8706b4cb6c (-0x799a5435a539871c4992aefae24a6ea9478f1e8057a2c470b715a230ff176f5b) 0x626cf2f8a64d654ceeb4d0a44a517954a45633ae2e6cda7bfd62d51bcd19beb6 0x6dc6be9f51621ee0857663962d8c6d100a3b8344bcbfdc95a122d0b6de7418e8;
  SDbl 0xaf38dec32452699821c2a0c13744ec5e94db21c3f3fe9356ad66395ecae0f68a 0xeb10c1b1bb6fb44f322f7d8008241d8f9aa353cf32054ea2853a353ba63cea38 0x2a4a1ec72d44bcd0063bf043e8073071557e967f7bf3bf24f35cb4414eefdeb4 0xaf1bc0b504ec59070f5dc7b1b4c3e4e47999b3a12bff35f74e43090fa87c2d19 0x77eecd317ace655cf55d42d70b48325c97e4fd7c9dc6c7d04420f4ee5d32e790 (-0x7116e8d9d420e9536b517b635c67ee48ad3953d95811fa76a7572de98e64055c);
  SDbl 0x1bb64a2bdc2fabf0ddaae2feeaf60ad2462a2f6d8556150a6c652ef6cfc3d765 0xa5fec7900523731b4298b10f3a93675b8f282781093e1d47cc2dfe602ab596d8 0x9e637e5dc705161da803e1b16ad0ad413437b53998bf058dbe75ef0c77540e69 (-0x27e5f71bea4d9e336641178a02e1954461e9d15b179f71159b6fc2f75cdf0cd4b) 0x2fff572cf4c7a4f5d56b0a3baeb13e4cea8c3e2583523345287da9448169d6f 0x77a142c7166cb44d3d7a38b336e084156ef743bf0fa91a6c1f7c73840ba683d;
  SDbl 0x211e3d0b7e6d050b63f2f044446a2f9e3d2ea4ac0c914b7e6668a04484a53ddb 0xfbd7147294849a96bb305d14bbd23bd2e81f6a522afd01c884bdfd3cca41c3ac 0xe1525f2e003f13bccb02cd67ab874216da0eecf68dcd1be9c70ee34739424eb (-0x119ec2f02775d2f0f8dd3facdeef6345e2342ed638dff94d8df0cd04881132ee9) 0x448cf4f582106ed86c671d04ffabd3fc96c819a8533b3150d548b327c6cd803 (-0xb1b05baa725a7bbcc1729d498de362e87aed436976d5039c0580537fcdaef50);
  SAdd true 0x2e11e8619cdd84e910a6499f5b3b7f99d69f95f17e05f7ac8a714cc6a4b71adb 0x7f5f0e871615d6a788b6bc9254f580f921c838967e530e76d22054b039311669 0xbcecc26bb3100a135f88313f6c89b1f6dd18fe3a33f12771f90bf493f8c3cd9b (-0x242f5f1eefd438857a3a90d7ee58dacffd1842f1630b32e2aa4946542ac97464) 0x84a70c3cc91f37cf665cc7ed180829027757cd97e2424d209b7e75236d41783 0x1666460506de133c20161b11ec1147aaaf04f1b12e8e98207d2c240fda95ec35;
  SDbl 0x299dad3944ac2071baf45c462307b320bae20269404e0baa92ee47d2fc2725ee 0x729e6aaedcc8ab63440d3ef40ca0625b06033cb6483febf8d7ef7e627b8aa349 0x4f292e9d7441ca823983c5df672bbfd7843591782df36bbc07796ebaab3918c0 (-0x80b1cac876aa633da5584546b15e1e2c353aab523c5a7d41e392447bea427504) 0x6c3e29a4c37b3bed0855752038e535d23461a07685725d71e06d0a1c9ca26d7 0x212b50327e48db3cb800f902462af0c6ad254e6ca35ee162764dcb03aba3e9b;
  SDbl 0x4ebc62a86e74743f1c3604042913e4cb2a9862569e34e71abda4839cc5f37e38 0xd0a17948f5e5174caf73b5c0099aa6515ac75b5df5805c337e461e109dc59854 0x6080f3a0903bd44f154156729ccb5adc79982ffbbed00404c7fd64abb6e034ee (-0x6942d13b17ec681e7c73af3b49fb494954065f474d89256042899f11cf49b390) 0x183756bfc8edec034c517319e7a79a2df5b2cb62a3803879b9654eba884fb2a6 (-0x1cea1ceccfe3ddc3ee564fc4cb5c3fbe2529e1db0f8697ee76feb96d0bf4adea);
  SAdd false 0xfba207bae4eeb824274b6acc8a0cde15b277fbd540d68a45ef1247852fd74a7d 0x7515f4f7f7cc141159c34439b0d075c78e12d94cd783d73c857ef5cfde130e2a 0xa56eceb2a376dbfc751fdec27e477cc9b28c25009138a134ae675a863c63976f (-0x9b2b65a2b32a25473156141d1211e3c93d4721b53bb303c18c207c26184207b6) 0xf75721b73d08bde5b58802107e35baabd37685e4938a10fb6b95db1f95829a3c 0x59fbbbc9243906fa046cc5c53ce34e4899e6893cfc381d41b0e92c08fde031db;
  SDbl 0xb4407826265bb3ed9a98e95ddd70cb5fd41f65846857af51ce71a657262c69fe 0x789246e2a880340d2c27dd6980c6b545185249927656fccd167906b46ebfa410 0x7c96f88b65ab7381eef303801394c09a806c473134503e3a89c96507df6b9235 0x484fe9f5bcf69495e2898e5e883f14b3d727c6c2b10521fd7840192b4f0c4e65 0x7eeab9327052a5b7ea2e8015cbf88ea8f3a396927af56bf335e4488427b36860 (-0x2744a504cbefd4d237e7708f8a7a7b6057fc256d8a5f44537a22d3fa7f0c628);
  SDbl 0xb6b63043334fc7172d34f078fd736e4a228bef02b231a495607920c661829493 0x5dec9a0705d59a5cc5d2c7a23d20dd74f94f1545dd174e9061d599e15ad31564 0xd4e0a635e543805aadaa01de4cd53c6327446ccc9377d31d62320b4f951760c4 0x77b9ced6408c274c7383166f55a480f134efcae635ee7711e332b744ca2521f 0x82678e48b80337ae91f28e25c164565604b7575c7b11bf2d3b8adcb396cc111b 0x1304bfb32bec6984b3b2085c04ba4460fe349c3857d0f2de8f655266a1d99635;
  SDbl 0xe5cf3f8fefdd7f4e3de5d5fe6cf99d42bb63574d030771ac6ac8ba030b854191 0xcca6d56c93c93d07bd4f7c5fc005ab259b5591c8f66d74bfd71be2ae471fbb6d 0xba2548726bddd7d0642768cd2634b75ce8b5ada0071272b3f5a7adf9d82e47c3 0x116d14e9fe643acd2b722b264183c54eee3cb4d97de1f93322e61758b969d8725 0xce4c6f802bfcc672e61e20359099f8d43a23ae8e39981fd32b4c200b5550f214 (-0x63663b3658e3caac61d1aa7378dc3993f1a64c2582107f7ddbac77959f7b0360);
  SDbl 0x3c89a07bc6d54481ad6b1cd36641cb920a988ced35e8244c26da994710597b8f 0xc080416fdd5231e7f14a9b60fe910eb825b2c83d45fcb371f2467e2af7db642c 0x78be8a6de5124aa5cecfcfb08cef5a17569b5320b8dbd50f088366e6d23cdd2c (-0x192c5535d5d0626e9f1d3def64f2a345d94c8690664e6d9d4e25fe1f8176448a2) 0xe50cd373c9a89fa99b0e128bf3a889db4e4cb122927bad4b4937d7c810a2125 0x2df92f26c582187e3b26aa0614cff3e424663f0571b1d38b59df83427b92ca0;
  SDbl 0x4659ab271d628ed34e3fbb03e56cea38dc12b0e03ab762651e26ee07f6385cfa 0xc7c77304d3e1a7d9ae286529140f022311517692b794e89c18216b1251c579eb 0xc0b6cb782203af5ec5191419c206b512de421fbe7093d509bf3f0eca6815a321 (-0x16fe51d998938898cd58ad19ee5778325e25ab2e081a769eebf61ecc359a86343) 0x13552901eb06c4e06af350af199408934ef66eda336c0bc499b01aa2fa579e1f (-0x200042ca501e29e7db144a64ea8dbbd66388b5bdf613334be5445bd8b7b9f2d);
  SAdd false 0xe3a3afab06ff141c3f47a1bfd53bb13530ac94f48d40c793024ed000220a3cfc 0x6af373355f84f872887bd3ae98fcac3e611361185f775ec52add6d50cbb8e9d1 0xeb7b6ad5dec307387af4920dfc314e7cd6ba7baa047d6b0c9393c35a34768a69 (-0x8480bb9074457bc70b2c969a0cfaed449d5198eee9019fac0ebca82831921452) 0xca6bb233452a3e840fd04bf11be9e751e6bcb30615d723cbf328e5508e93c073 0x528b568417d4c3a3cd37dbc92910a3e3536c6d6b573ffdb2e60da498a1643bf2;
  SDbl 0x8b90c58ab55d34354f3222a6c151b521d0df5e8cba2bfc9ec17409075b622fbe 0x569a7d26bfa8f290349467d2c1b1b403012f859841382613c6d1cad3eaa9eb13 0x8a829c2d24c82577a1fac4cf2d0d8a9af988412186eb71c6992c4a75abea6b86 0x7ab6d383b18a3397bd73d6acf4cf7c1a060a6acda6eadeaf222830f732ce5404 0x4c168863c1848e39dcd15b60d519b602bcb0a8305417f12c5503b977d7bc6db1 0xb17cf57dfd665a398de929989632b847cecc2ef57226c10d704665207bf02eb;
  SDbl 0x4653c3b7885743a0a8f44653afa852061301fe91ad6b65edd1ce6bf8ca354b2e 0x776d282719719e974849c0c20e7afc7ee6c3f7a5ee5941de31817731efcdabf8 0x2f8f6ac15720cb71f567404645301aea10d16d5ccfeef8869d23630b8f2bde83 (-0xbca6a0f0beebf2100fe853cb214e69534348f24210ffe9a49af7dda47e57df0) 0x1351ea70f085294bcd7e94d698c6701adfe3d7c1c23d375cb14ac9fcf60185da (-0x90458279302f0015b14ef864132871948829887a38904062d91f2a4bd90f5d1);
  SAdd false 0x368212855474a7013a0914f8ba9f32ec6ec58119ecf35b1ea03a689692c62d42 0x299ac36e4827f931d222c7a6e62ebea33d2342e389900098d0f5605452c6d5bf 0xe04a4ba2e37d660d2fa41b9f70e115a58a9eaf68d643d8720b6df7bebb85f827 (-0xe9e6c408ba1b95e322b7fba76ff9af93ec647dde9dbe5be7aed632cbe7bf782) 0xb9b21e71bfd242682466068e626fffc400f613ae1bf8e2a18bfceae23c8b17a 0x1091ebb785a18de3ba8e38baa3de921877182f0bc1872bee1f867a31693096f8;
  SDbl 0x3f640a9737fa2e1c014c5c3c53ebc54b6e26b02bf44af6398715e3b7133dbb1e 0xe33a6ae88864577dfeb88bf26db577aa0481e78311493e044968ecefbbfef9bb 0xe5996d47b9324dae4ccde0dfa8143f64533a75b07958a9a6aa8f078fc9b74589 0x5acb0d594ab253d6e53bd7f1ac967fb1a7ac7c3135c21f33e8fa99075d3d0a5c 0xfb2644ec3d36c2733520ea6929a9bfb0d0b1a9f8d8f9f0896dcbc0b387bcdb5 (-0x2df6d44291d40afe3587e38843e8a540173d2f31b4ae410ce435966edcd976c8);
  SDbl 0x2ef036d96b762b92c974bf724c1e3c02fbd19bafefbbc78d0f72524521db4d60 0x60d690243f531383786c9293d9dafa56d29dec012694a7a485e3ce38d3b485e7 0x524800419816b75da62638b5a09a0e03140104e328c481c132c9d0ad8b409ad5 (-0x208dfef73a28e4ceda786610814c385aaec9df0c7c673729769a114a6b59aa4f8) 0x89b351d0ea39c54b81716d87195687d7f42a49a591e068c2cf22c88120f955d 0x17e84adc4293a9b6ffde2e8c37be7746a8545244a633f74d3132df0469d9acde;
  SAdd true 0xd8d428cc6551c7db038e9b5a27bb03b89828576b93abfc53149872b6c2a89d92 0x4c362bcdb5cfcd66ce1d9fdfd2991cd765f5a40970f9470152b0367f382fe18d 0xf388ab2da45dcd365ac023e45f8f940ae2a704b51885e6fd743b643631c18020 (-0x270544d0377b24905ddc6d1231b00589d3247c1d9fa784fa493a66399f2c45f5) 0xb7a6b4ad3ba9083d054c2a9396ea546d42995ae4f9160a20d47438c8c69474f7 0x11786cc5b4d0698642f12feb6c0096a89ab449078582961356f65914a3812da1;
  SDbl 0x8dd22fa08aef75ee983388cad88bcfa8d77448a5777369066972e67270724658 0xba29b4c446fe19079ef80ca33af41ebb52d6745ec5f3a6694726cc41bb0369f7 0xe5b0dcb231b6154918d2b3b813508fe6e7e4820a9768eb5c655a21ad38e20a9 0xc9c3d2fd970bfc752d54bca58774528031d1bc021bfe8308f01aff2eb5e3e0f8 0x4e91350953dd458186ffd00138e646667dd17c3925d9ee6c6896425071aeeed1 (-0x3ce968ab0f29ffe778c4ac00909acb4b00f5e46a64ecee60fde785f70b787ec7);
  SDbl 0x6586544bc15902e4558e0db0aed78cbed67ab74b3c2561df8561bfa2e6f2841 0x207078e0e3679e0611a5104a173964e31aa2642bba33c754d2c7c5033e99c4cc 0x9d8d8d6c4f625c1e97b4484ece8b924737275f34762765fca76ab6de6178372e (-0x1956bb5d0deca41b117d1b0715b2fb6087934d7e07d440dc105c84ff361fbc0e2) 0x2843450049e3b7c4c2843e8727755fe9a175cf0a2d36af3964e5d769ee3839 0x3cf6be34914c7f14ed43bf1ad7c6d11335c9a6e13e45039e201fc30c4bfafec;
  SDbl 0x9c113f3a80ec913a2b423fadfce1116f09f3d1ce16b807ebcb0929db68d44776 0x7eb03ca1211a04ea6ed099b9457d37515efa2fd7fe4b5db40309b5bdd9fb48c8 0x5965f1a5d3ba268e34d35e601588a43dfaba76a275cedbc4d8e08edb0dfeb4d8 0xb3c4d0168739e5fa6927966162e6074802f38a0d53b6c0a14cf015af9bc4a545 0x5f25063921a84f766bb4a75b6343fbd877d7996276b561d2f94a05ca07cc27fc (-0x397534cc99e7a73595e74bb0da429be42120af841355f876cb787437394b59d2);
  SDbl 0x9bdcb58910e3c5303cf36b7cdf1d81188be2b4454d94c2c55f07981430882673 0x96fdc5dfe97d7194f0feb88b519eb804767fa84fe4982f498e1435c30ae76c37 0x43824749e709b10df67f5a8a6cb287c7c1c254b501aecc41f0e3e0a6156b4797 (-0x4f3a466662b328cf57842e1771a3a594d8bcced5cb27172f1fa3c716bf634553) 0x5ee5021cdda8f5a55c1d034e167fa38400c6580f49d5689cd3bbb872bee7a61e (-0xecbe5f6d9369c87dfbc590429518a4a1a150bbe7fc958cd050f582332479eb4);
  SDbl 0x175ee3562b1c3e566723e74189dd2d52bae5571f7ea2fa7b7d43773aee5b4ca6 0x8d491761fd9eb3ec6f09faa8f14105e95270729389e54468a55c91965de96cdc 0x6cbf76cd1c6ab7fc2997d351bc2d3dddd81eef59df3f24b1c3e95fe929b7bb30 (-0xfed7a9f831cb4f1651df0bb0f6d10ffafecf27bd4e09fae885bfe390d3fb2464) 0x22230053b0ad96b9dd0a85ce9afd61f6358f4c69529494fc6120ad036c149a6 0xe2d4a3de5f255aaa2e5e71ac3e69bd369713fe3e150276dd35beed4b4769c5;
  SDbl 0x87f98d55544289ff44e0a7a5a7859465accab70ff78de1ff00d6e636f162554a 0xa6ad00c1b420aab5e442b0713ce66a72560ae764e795460d7966f41005882a67 0x502b2a23b379ff4fd7e83e79664bc4ed8d8df179c47965c83c007da2bae09e4f (-0x7666d60c7c06a453cb9ed845c6ff26c164b3b3fa4e59e8290378b89e44ff0093) 0x48392654851c58928e43d7a7924492adc5587fbed170463fc210d9aa0448cabb (-0xd7c704402e51423d38b1a25b99c88c211b9b97e33e2dab49d0bce1b885fb553);
  SDbl 0x2d49f7389080d1e9e8bf245033a324e80a0ff4a758ab47287f7456edd04b469 0xc5b1d8a62dd108524e84d249413c49fb96416aca22cbc80c98df7f2f853dba3e 0x4e4cc3ebf5d849a655fbc0446e138b73deb15a4d183cb556f7d61d42780c8eed (-0x143c89daca11f2cea745035955029c8cb9d8bea34a4db3f9d0b7d73a733f7147e) 0x8031648d7d0fce4ea094f1c39804f9c6518cd28e1d21c72f2a38023e23bfb (-0x57cd04945e684b801a27610bde9cbfebf07a0bf88fd4f9caeeb1fee81ba795);
  SDbl 0xe11e56b32157ddcfaa17537abd9442d5d486952d3d9f29d690ff22f88428091d 0x5ae35534e8948cdbc715c87d6f6bdd9ae00344d0105ec1b7b221ec79d1df42d9 0x38b120e9debc9e0abbc7a357f8c13ea5a4ab7da767e3c800f513aa37d95863f (-0x1404c198c966dfb03601abb044b4f4d0fc23a69636068b0fa9522588107d696a9) 0xc5f6580015eb743dc9d3ce7ab1bbe33c20d663a342822f0327e43f001af7aa0c 0x5dec29e66f83aca1000b8c1fe9c734b9c967163f1d07670a8faa85d795f401bb;
  SDbl 0xe0cbcf3e903d37383651cb819f68f18f51b8be2dd95fe8f1f20d6e01014bbc48 0xbdb20fd0ac924d8527b4f898f95ef1d3cecb78dd637a9a72801963516256a8a2 0x306e986de57ffc32ac362b8c9444555775169ca82966f93887fd72f5452c7bcb (-0x5a94e177c3a68b41222efeb871af9fa7a671db13de36c3f9aa9e4897dbaa37a0) 0xc5654cf096cf6b35b73d48e67e510e4117f81c9a5886499e8ca635d4996b5a14 (-0x56c38d33ea670ebdbd237b8d890b93f8cafb70e157d3d3870bb109855206c16e);
  SAdd true 0x4915283561d0bd2d3e12b243ed5fa00478337e592e9f614acff3c9674c21af3f 0xf3932ae9d0def81275014d26be93948832d33f68673b8f08f1414330ef42f718 0xbe6e122c82a25e4fac76043d7c309f7c02b7d0dcb558b4f3fe59ea82fcd6474a (-0x27a92c2325fc600b4ea4eda54e6b445c8cef6847ce73db97bc422bd1e3c21346) 0x14dd12ae25b8e483dd780ef1a3cb735241ca6bfc4f97a95b102af4dd76b0e300 (-0xf61a4a7dc383f6fe532102f17d626d74639e5232e474c4704772ff360fd43e1);
  SDbl 0x353d932a533a33979dfb6f9ef5dd03635a8050e631bdf88ec1af8d643a3a3d07 0x93fa99ea01fd712f6aeb03c452f45ee45a37b8737e64b46c24b522bd94fde9ff 0xe546af62ae3c25141fda6774f79a2a1ffbe6835c02d7558127cebf7cf3c46a46 (-0x2680cf94c86ac9d23a7bf0942eefd32b256345ba44eb2a2470cf02334529b334f) 0xb128dbf084df36ca7613155ff2b71a2d4710482e88d15b257add4c091cb81fe 0x13e19454000971996394e644643f7731f0cd5d5ed751877c95bb4ef562ee60e1;
  SDbl 0xa0b2166998ba2f8666da04a72eb14453714d7f545f1fee4277bd7e08c297da45 0x5c85803081e83add7e0294bbe6addfbed5d36c326e972e1959d5d0e6b13e6360 0x33e05420355a01c1d23c411618210609b2c78ca5fa81bb4dd5a1b1fad0c01fa2 0x1f3a13718256549decadf5f97f5077b32b144dd5f9224402b86e9b1a2c440244 0x64df17e7909688084c11cace48d3d68d8d4dbbae3c5b3f23fb1a052e0fbaa0c5 0x22cfc45ae62b6fcbacb1d1053244ae8cf4db83c87be74b43569573a66378db0d;
  SDbl 0x8b217b17f15a094eb629555196c87ef820227f0805aefdef769eb44861ee8066 0x6d1ecef6c3a9483bdcef75196eab010c222a4415bf577ddc242a4fdd1439068c 0xa6d792a5d7079d1da7ceb75a0aee228fb1650dc4eb47132caa63ef725663c79f (-0x2bed80302c9c664064b2a31a5d6b292d17e344787a8d010289be4d94f2b9091b) 0x4b9d600d43116388e9d73138b4b00f0eaba917b43ad1854fb1bfacca2ca7a4a8 (-0x90569840c8d34b980eb1a6eabaa4a9e57b21fa06a92986d2fe2c5b2b8811537);
  SDbl 0x79d2bd145f1c9971ffe7fc4dfefeb97dcf34dfb654390e0d7156d9b48ec0b9cf 0xbd1ff6356c1d77b1c574fb6d17ceea39afdc573a1d3dea6168fc2cf62993c7e2 0xa9a551f276e6dfda7cda63fa993c128afc0c37ff3839f3af2353af22d9ff3575 0x1340b8e869798785970e3ed92d899c8b82a9802e2e441995c980f9d9a127f48b 0x39f8e4383cf50e40fa46be1db4ec18bb35678e797e08bbcb529c345f70a8ff99 (-0x261267962ce1323ba2ecc3c530f01d267907f5236a7bf30f4c9147ed41038862);
  SAdd false 0x5dabc3fe9ec412443b6bd5502dd84d7b2ae7ca2a71a1acaadb4be875c0a5a38b 0x6bd3cf67cd9127b8709793224d7a2f9449fca10417f5c6de1d08f67677ab0f99 0x8ef5b837df822047d6f694a120bbaddd0ce8e9000d59b3ab0fb96dac5d199206 (-0x329ffe11d60fbd6989b5f5146bed06c5a5e7e3c05df9ba5f152d2b6b082dd56d) 0x22463fa68dd6b1faab893baa4a0ad6d82d76a2cde836d51a71211b6b1ae2fec9 0x1dbf363499397ad16bd76ab0a1b6156ce220b73b122363048dcda09fe9593cd8;
  SDbl 0xb12f4945588ae3302409f13aa7aeb42854e353614d3188ea6abd7a849d5b0ade 0xe24d3dafadcd26603f50c439174684dcce84a31a452f352ff9a565e949313723 0xdc4aa1a236dd4c21b2d4c78834725d34bb34b9a55569df9ff38e2f77d50bf2b4 0x3da45cebc2abe131d30df31640c5c23781a283ad6c56beb0b2372ddd9c0621e8 0x7aa26c0e5b819c7e68144bc402b909d186f6d88e979ddac9e2f3ba31323d3dd1 (-0x51ffd773fb62ba5c69f8cd155b2988dfcda25896ec4d21223b7f59032deacd9a);
  SDbl 0x90f68a28821750af7f8f00196936d62b38a544cc9941fc495139b32550f4dd93 0xb876657f063f19149eb9406fbc9189c6eec556ede65de2f9c40555ec8f17fcc 0xe12f7a8d68f0e3ef42eb1fa4315f8f0fbe6d88652b20d5921ace7324dd0705cd (-0x15ea9259f1bf3500e48aacf7533b28ef245597fbcc451c9bfee6f9c1a1c115660) 0x521648dbb4da3b1a42065e7ae88a0203fbec2377685d1879efd78e005b54cba9 0x799e1f27649c4896d30c036b8ba5e77a8d81cd1b3c418db6b23017c51d4a968c;
  SAdd false 0x7a98d3beb8b86d98d815959348bc7e6f06fc9b44002bc2cdd09ef83c1ce92343 0x9d714a2a2e11b90664b28e0d4a94093551589ffd064ac8bd5182aaf2fcbc456a 0x11dfc8e784ac5ff33f2a84ad0d70b7111505ef95451d598f186adad9d87b2c94 0x12caa112950865b99f62b027b72fda7b92aaba4110451e5b28e75fe94fff9ae1 0x3ab6050e24651b1cb3908ccc79a68ef98e0b4f086a0674beb38b1a6b1c28d674 (-0x45e0922237c09b9105e58ddda81d745e8ad460ca67e6fa6446ae56efde997b45);
  SDbl 0x8181c07e5e475d1e4ad18c44721f622633a9de8ccf6765bfe8cdce295f5e1e87 0xb02a7fe4b4e9c7136924806df39b9488d9754ae36eee519ed35730f428d34e92 0xcc7d2dd6699a6a3be8e63657c52b8ac41577880629344f8c967382186ae31b22 (-0x11066ce6cd23e7cf143cc9a03e65257642c060f781a9f453422f116dda184c46f) 0x418405c32ca0c1538934ee32e17eba7da6d8ae23b6b9cd9fb9587e598183ee35 (-0x978d17b40c334473161317eb9faffdcfa9b158fab7c31ef2079710194b93432);
  SDbl 0x8ec2a52bc9b250a44027cb6744a7f99949419659c1b170c4431896c70eadf99b 0xf6c6f046cebab71a9162e0c3ef4bcc9fce7bd9ac6e824acb3c11f014385bb530 0x5a96a48131edcb4f9318ab0cb2e38f988883bfd14634a36f3139f1eb36005df8 (-0x879d9047ef358c20ffe06cfe4aa8a57b76a32f56ad203c1c18daa66ce7631d63) 0x4f9c833ba44d8071512f331f2dfdd407475f62ce3090d5ea3fdd217a47256e7b (-0x27607672a4620a4bde71cdd30e9be7d7278cfd829c0b843549de56db4ef0b73c);
  SDbl 0x376ab4050a036215911d35c98aba046e5b808032f0d8594d5b6e4e264f43c532 0x1a9fa37e1afa5219763560a2ad6611094d92fc3cf116faa8784a791319cdae84 0xf11c116bbe2dac0740a413f57489bff484af6534d6ad44aac1a53ecf9e3c98d6 (-0x2a270924d68c32ec03ed1a82e4f5b8c580c130c6a33cc78406b6455eff77da9e3) 0xbff05d3c90fdaf46dbb00df727189960a70e851dd2b9cd300a270bdde731b20 0x2fa8349510bf08103e9af13c6ca39b3c3ac4ca7b43b79653e897dd3cbe594d36;
  SAdd false 0x15dde61103feea86bc141858142ac90ebb502f90461e74a242f53e7c0d38c454 0xbc079d731277a1266422dd91a2547c60aa154ed6d4b4a14562abc922633ceff6 0x2dab80bbd36fd37b3c6dd66bf9578385be6d93d8ffe45d47bd57bc054b22ca40 0x20ff78d630e9c9572048314dcaf419ca512189217b977329f15c5c50d7d1c8d 0x1de2815d4a97500717ab2df65e650db0dff19a9a4407ec8e4c2d5d7ad0657b1 (-0xdc96f52138efe9043048b3042a7ecb08131023aaf7bb09843df060cb513db82);
  SDbl 0xd0199e4a24f0ed2cf7b88a235ff41a78c68e47e1cd8ca3bd1745d50dd2413212 0xb36a85a9f9eb7d091b475db050b53f185dd7cc75010b2fe11149aa95190895f 0xd406f4b24cbc6e903805c7af9ebd41e5d6727a95a93dd252c11aa7185a1dc288 (-0x15411b947d1536ca0c6f6d71b1099b71bc1a0e1adb4b0a380c2001bbefbadafd7) 0xa929a3c9718bf7539c417f114a031a163e48a627fa536c3818181c5a191b6007 0x8fbb78e0899ea7c5d9ad544684ecd77a24adcc85f40a624a8eb0b78dd0c0d82a;
  SDbl 0x2339ff21b55653ede26825b7a938a5eaf95c24a2629eb66cc54a9672c4bf70fe 0x4d8fbde058fa2a9f14964e12076f586e811329c3b4deabc593e368d2a69fb344 0x7193e92cdb9a4d2a72a5411a2ee2b3821b151207f25e7c1aab2e35f27bd2bd72 0x38e0be35e6eb6be59b83ba37d7f917fd9d2aa2b64f1c50ce424bcd4f738f6de0 0x4d8e8e6d7b56ffd7f7578d93f016f156f2f56eac49208d74d149fbe8cdd89fe (-0x92135e6952a51b9ad4aaf5145c1ae9d2f9852227033a096c1df985e8cd4bed0);
  SDbl 0xa28861b936180c9a1dc85bd527effab5980490cb11faa3564925d8a937608784 0xc38f1a4023e35be5f80d8acdaecf752c019b44deeb221ba6e2dde4428e892a00 0x8925dfc00199f7fc03cb94cfaff9b34b63adfa73435ed5833ae82debcfd39e34 0x49b8dc2f54cf70ff0a86e25a1f9f9c2fc0ff370048701f78dd9d46640d5ee49d 0x6730e456c9beaed4aeed10d44b346755db53dfae5cd1567c88606aff390c1478 (-0x4aea75291caed29203ee23733278ada69e28eb1bc0736f371a65d0f717db476a);
  SDbl 0x64f5bc65b8cad6226d34b2bc0f5cc7ea93e7d9b04d3c416f0323e347049a3f21 0x2304f74bf59135b306258e5c7bb50c6b2b8f7f8d3a26436f4b82fa20ad74fb50 0xa948c6a0fd097a13acdb3aa27c5edc19c0c4ab3a468d980fd2151d9d7ea9d24 (-0x153fd12cc95c609bdc8d1ffd7307cd5fb18e075565cd5188832223337c250616b) 0x27d0e711c588a26fc8b29108812f5f1082d74fbb731521a8eea0096ebf420d0f 0x3f5010005126144d86e0ea22c6b4428975fe6f736b20a55031be4154d6c6e6a8;
  SAdd false 0xbdf10c8b6d29bd165ee36b6aa3076555bfab36f3d97c62a0b0aee75812fb61ea 0xd466972309d212461e9af48cc08e87e0e2ffe8e211c6161ba6700ebf50d7676d 0x747a427a63f1cef3c7eeecf74564d48fafe90710f50645493645dd9f4fafa844 0xbaf5e4443c2171a65998f3b18dc6e36208e206bcadfac99bd2f704995335475 0x8cedcf7f0b3e5773bb12cd42f53d6a478f156b803ad701a2d04560eb2349ada0 (-0x839c189af62d67f3ff7b935b9a064c60593f6fc63c1a7b1716f3698b2b08eb16);
  SDbl 0xbe1b68f361b17f6c27df659ce42645f7e220c6799327a14b0786f30008bd66ab 0x22d2cb8d4ffe5a3e153a7192234632e3cc637117b9028d4fd8b40aa0195bb6f4 0x6bdf996b8c33bda3945aa67dcb65f4a9289995c3a5465d558176e02a60cce2db (-0x163afce5556be4d53d2c894f5d619e13228e0edf1000cefa747ddfe9c1a8c4da0) 0x8d2cb2b9208d6e11605537604ff373b3f8c5c225d68ab86dbf5b2393495fcf95 0x83deb47cfa57a2bb96d18d4584e813f8023d25256e15e43045e0ddff4738744c;
  SDbl 0xb9131a3a4f46287713fe2a45281933519afd981d872bddea625e9e12ea48175a 0x508da32b1c20ec443101b92a084120c42b165e747458d9d35ff6a693a66f529c 0x70d98e3b8614ec8da7798e350ba7de95463302ba604e1e7b2236d340d19610ee 0x8dc3421cf6d6afc0a4238dc7d7c3b64ba7a6c5943421fee5f563ead0dca4adb1 0x85cc9d55b3b7ad9e14d8e4a8a4adb2c6504729a1978cbb623de87c2e2c6574e0 (-0x210f6f5e8eaea2ccb0210d3b0f09c274429d3caefc2d341dda4e5bad1a7c3b27);
  SAdd true 0x48c94b1982b55dfffe29b183d2f9804e20603d9bfa223c16ee87fdb5034b6704 0x3c921562b56db0a0830f935d4a2f602291cd34657dde26cf3f8baacb23e51a59 0x6292102c258adc98f76fbe8c203aeb46d5a1844bd382429d419c2a9b9d92db26 (-0x877f06cf37278da839aecf8729561b446a8fd6868ac735f0e3c6b756028f5fa) 0x14b1d885724f13541c80b38922f9fec37ad5b8d90ba92bed485c28a05fd4a9ac 0x5ae763f6537f6992c63ec0dd1cbdce9cf277514a67b32fedeea86ae83bc1608;
  SDbl 0xf6cad2fd85d2836385bada08aa69b57e8f69f1efec9424ca51858d851f7c152 0xde250e5292f20bdc005f14ec22cd46f2dd64b5e7d1622aacb5d9f774a1dde7fd 0x45dd2470fd064b56e530be7629658cd51f2cebabe2da21764f5e9520a32e5334 (-0x1f1d99a70d9eee823716892a5cc5d23462cec54a97322b5f37d99151dc071788) 0xedea6e31d1171d8b96c4a73270a87a33018565ddf299398053fa8e676f5e6b (-0x9bc33e5a1ad03a0b994a3ead6848026df0ecd70d777593e1dc2c38185484f1e);
  SDbl 0x3649368379aecaefe68d6ab46699b988ccb7b6f187b3d10777da1321f3a57d52 0x52ca7d3001b5bfe6b0060db5c10e4f7788b8b62d68c68ae99d7be403d577ad4a 0xb2465b17871b98c45532986cf7b54ba380b3fb14d8459ce636f051e0f69761f0 (-0x224ab9d5fb5f57983ff4695c37cac4d0114de090669dd4c2b58daeb0bfad06538) 0xb82f7efa56fd61817dc95bbf2b5d35a62fed0a6419391c0145fc0e4a4264f00 0x1d8cf51d773d9b47f2bc3fc9d00808155110c395f1de9bbe0dfef76377fe80ce;
  SDbl 0x41d4b54e62de9b3379f01824f9a420821008a2ac3bcb6ecd73b0b4a9cfead228 0xd18a05740de198ed53d5ebf078c9c20aaa0ab97579a4d6500b1a9e9a564d1ba6 0xc62402f3754bd79b814dc223d0511cf676850e8d94f1f505abc2297978895e15 0xb5cf237dc1a45848ca17077e6985c3e0fe8fab49b626aaecaafa344858ef129 0x10edb4cea95e701f07d8e03a91095f0566d1e870bedfaf55faa316907396cffa (-0x2097f1fa7ab052d54549ab31fc7bc2e1a9f462e17b3942df35f4056316e6899b);
  SAdd true 0x30b4894201e0b3f6c2cfad67f81e586c0bbbd70e4cf4a47c5a8d1b9713ab23e0 0xb08f6dac701791516532de6e7868dcf0188a07744a215d7bbce481419baccf18 0x446ab1c4a95c26ff14e4aa52b78d06ce33779f136b96cd38cd308ff437676fa0 (-0x1e34f83f854e825d55d3767da389e843e04ba318627bd7600a8d4f719bf7ed55) 0x94432ca1862d14b2cf114c01abd9ed50f2051c85130a324e5a0f968f2ff5b85 0x6463e56c849f3c4c323a9cc500e42e48b7f5b33603149e960a139c2cc5c6775;
  SDbl 0x272aeb24d5f6b381f6a5ff4230d9f24ce1bc12c771c9fda298d3237248ee2bad 0xfb330cf046f03ee8f58f2137cf979768c081c27b7c4c098e142e6cafef084eb9 0xeec029a27894e80651b4146e48aac8944f40cfbd87551bbf876d7e33ed548c8e (-0x15861229ff4c6ceae7f30dba4c1aadae4852386346a90e87127fec3732f752783) 0x5fe1ad73f42209b8cd52eaf5ad831058564afd1207c6621f5f264f899425a00 (-0xb6b70aa72df6f80ec39c5a15a63e4c0ffa47d191713ac73f0fa3ca13850b905);
  SDbl 0x6f90a6d4c6ee2ccb7399ba986f9da8e898dbdb5e7bea218e224653804513d0b7 0xa28e6e257ce98e7f50007d99bf510f990190040526fc75a76fb4ac17e24914e4 0x29eb11d36844af8f34455643eac32df5d1b42747f0e5bb0e190aa2a3477f10de (-0x2135efd323b315f811978b4468030c3efab5b9c904db33fb85e3f8ba6c70bedf4) 0x309ec268d139bc0a9b826e919558c58ac5fe051a968827edd832746c7505cf85 0x26a17737d278cbc7b7425052570daa73c6e3d868373fe43b60a0738305553629;
  SAdd false 0x4fab09dcb89edd5a1f03e74a5e81955ffba48ba97dbef1939f1d370b59d9465e 0x5b16c4335143d2854f5363c2b63c59e596f3a34fc26cd004958c67283a934e7a 0x4d0c1b7f5b9e6979b88824a47691c4e421ecb769c5799cbdb566e39654779271 (-0x22c9f24fcc0df02c6021e31676c10676291969872c2b412c835ae53e469948d9) 0x18cb025c7ffcf67ed7485850d727f4aa256915914db4b17b8cde1d5f95754da1 0x163dad2129d2e54a9f568b871737d9ed2eb90318a5decc9c5de906c0491ccc63;
  SDbl 0xd0c4bef3c544f68121f137eaa90b07b372880ed7d6510cd9bd5e6e1a39e815a1 0x9a774bdcb63ee075168a7c6fe2a3f25d1da2a5b8f1d323918a04e94aa85a0017 0x606c1dc06729d6407475ccdcd426e00a6f823e5fc04d6958ac3d19586dc25438 0x1c6e85a17ffb365ca03672c04d651e08856fe6a00adc268a6c1b3381e542fa47 0xaa404d81be85309f824002599368f8bdf092a0ac1f0e0b9fd60dcade35dccdca (-0x33af2367b19348be7bc71471cdaa3a24d32176df898913cabb1b1ed9fbf6849a);
  SDbl 0x35c239ce2ac230cf202c61cdf858f2a31c92817200cdc646e36fb09eb8bcd05b 0xd3417d64cd445ceef414b87779e7e1963576f93b30943fa86de497157193c3c3 0xab82d86b121f676f36cb2debe06dd64b779b7c8cbbcedc9a4078a1600482cf2d (-0xef1c28de3423997fb9b2453c9351e75e1b84e5c6bda901bbf1a4b9ab42bed9a0) 0xb49ff4b1284aae6212ae3a72af0e60341581daf6cdbe6f544262291430bc398 (-0xbecf24d8309f00b8a35c63272650231844e36fd03f7e6f8b0446b7bc4e68e77);
  SAdd false 0x6bc26a0162fa3a45e584cf6780a280ff862b3e7b6cdab4db07cdd0af9ee5ba62 0x501f5a3a11ae2712b5f75b1c34e92f98fdfb8cafa516ba254c70524b11114f5e 0x967102bf57a5c0846b30fe39b9d2ac210c04e28b8a876b262199a8861417b146 (-0x438e0ba689a4df17fc407bf54c4ac7715364b4802c7b9e26ef8940884fa16b56) 0x2d5c18422c186e32106030ae1714096ad299627e02da65995f26bcb5c2eafa64 0x3732dade9261deb39c6a0a2e63a25b21a3478812418fe0c2b95b70bae9bf8fc9;
  SDbl 0x7428dbde9bfc5a6656c43a711868bcc5c0210e48bc6cfdb6ad48a3ec6b6a6e7 0x6479d777c7ed8017f69e1c1b40f50337f5fd7d09d2ce11d6d4ab3db9bd81b61 0x30ba7abae64f3149e8f8d8a8979ef7a201f8ec049215b84754686c35a73c72a8 (-0x42b26dae7d5c4146f2f38f77a56accc0f9daed9d32805b9abafe7d78f6eb40cb) 0x34b50dc764791f050e79817a0ebb7835085c9cef216b7c84ea680eacb655ac 0x21818aa99010d9f98c5af6869121588b98eec8b61cf5e76d50749ff39222ca3;
  SDbl 0x59d283ed9426cba66f1813bcd4ed7ee6c206e72438c5e7b8395a755a82af4e3 0x4fbcb891258d22b2f0c4712676e5e7ed2bfdb7bc0ee1c148c2971eafe55d0727 0xa46e3edf89607c6f648c6d3183131310e489b7bcc2ffd694b55d5b7c64f9aa12 0x1acce99126356e7d1cb1e5568877b3cc37ca7761832cb53f517f8cf16f53a50 0x1f840cd8064b1833369662a2c316da6d5d31e380f2a34f146f5509e84fbca0 (-0x19c61e575963d1c89ba83397b7733f091ce9095cf8a93e1fb636ab773b81ab4);
  SAdd true 0x68d709b8dec18dce823bcea62c1814a898aee4432ee46ab05db25ac2d33f86f9 0xd38f3cd50d075b65aa3c7f94ac52a07a05a7ee186f025e5d47a831638d58bff1 0x828b2e42611d33335d48a743178ce35ded8d80d6b27308c476347ee377b9fd1d (-0xbdd19a3752e844cb1bc7f77ff8f834e008f54cc15029dcf149689463f631a12) 0x2aef6c87b4d15e06438958af16c8f2856145bad60b55819f59d427f67a4a9dae (-0x35fc408a79b6fc98423d97cded4c4789ca20dbb7b7f865881f310d9f0505e057)].
Lemma us_pt : pmul us_k G = A (kf us_x) (kf us_y) /\ xc (pmul us_k G) = us_x /\ yc (pmul us_k G) = us_y.
Proof.
  apply (replay_point us_cert).
  - vm_compute. split; [discriminate|reflexivity].
  - vm_compute. split; [discriminate|reflexivity].
  - discriminate.
  - vm_compute. reflexivity.
  - vm_compute. reflexivity.
  - vm_compute. reflexivity.
Qed.

(** A square root of b: the point (0, root_b) is on the curve. *)
Definition root_b : Z := 0xfd4511e81736a60f07e88a83d6cf5a167fae6d1a9c9330e76e232e00f5cdc154.
