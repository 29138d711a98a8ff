(** Certified multiples of the base point for the key exchange sample of GB/T 32918.5. Each certificate is a chain of doublings and additions as in Sm2Order.v. *)
From Coq Require Import ZArith Znumtheory List Lia Bool.
From Verif Require Import GoBase FpField Primes Sm2Primes WeiGroup GoElliptic Sm2Group Sm2Spec Sm2Order PropsCurve KexCert.
Import ListNotations.
Open Scope Z_scope.

(** The initiator's private key. *)
Definition kda_k : Z := 0x81eb26e941bb5af16df116495f90695272ae2cd63d6c4ae1678418be48230029.
Definition kda_x : Z := 0x160e12897df4edb61dd812feb96748fbd3ccf4ffe26aa6f6db9540af49c94232.
Definition kda_y : Z := 0x4a7dad08bb9a459531694beb20aa489d6649975e1bfcf8c4741b78b4b223007f.
Definition kda_cert : list step := [
  SDbl 0xd6a6796a27dc312621ee1d7807d53f6f50deb90e13e36666ba6451403bb1c3b0 0x56cefd60d7c87c000d58ef57fa73ba4d9c0dfa08c08a7331495c2e1da3f2bd52 0x31b7e7e6cc8189f668535ce0f8eaf1bd6de84c182f6c8e716f780d3a970a23c3 0x11d6cd80f81a9b5e9badabd304c2519d600d3f8b4fc759d131c1e2e5c0ec83c10 0xb3fabf3fdde018ae8b11c6c6c230d119ab7a3586127dbf7325ee158cbb960de0 (-0x1e380dfd5e1b5e2882e2747670d8a7457ae3f364a6717b3578c57493fb0d2b0d);
  SDbl 0x17e021789ef1ed9ec506f9ba33bba229384f476f5c75b6707bb4d0c32e74636b 0xc239507105c683242a81052ff641ed69009a084ad5cc937db21646cd34a0ced5 0xb1bf7ec4080f3c8735f1294ac0db19686bee2e96ab8c71fb7a253666cb66e009 (-0x4f09124c394fa03cef9d066ed39ebf371ee29a6771c9f23670d82169e1bc2c39) 0x23a0a3e463ffc20684142caa30690db7211c7346977c77eb50b4561c8f25ac0 (-0xa04988a7d8bd1088592011163b1877b16a3712bdbe2746cb993e93b5aac0173);
  SDbl 0x65ea2030ab7144438852944b7c35697255cfc01dfe1aba9d4fcfe4fa492035ad 0xb9c3faeb4b1610713db4333d4e860e64d4ea35d60c1c29bb675d822ded0bb916 0xc519b309ecf7269c2491d2de9accf2be0366a8a03024b3e03c286da2cfd31a3e (-0x12c8a8773f350f11e9d9e0d929a9e07f124dd891cb837406e06d0d3b579fc0e82) 0x289293856cdf92909040f1428c3d40b7bc88c227a8296c2ff05baf3a35cc3fd7 0x35e070e389d282d30ab856179080bb1ec1931edfe054b6ec202fc382f19bd34;
  SDbl 0x3cd69ab3144bad2d8d82e82f98a39c834463428456b2208fbde56366d461a775 0x35648233f554ae51bbce44ef5db3e419ea133cd248a93e2555645bbc8704fb68 0x4d7ac60f6d975ef6117bca9ce885dd6154b1870a6a651664411a9a30eca2046 (-0x136b802f76f3329dbe0315700a6e3068a4e0f0660b006431b044a43e779107703) 0xe754c6b00daa5ce53237ee442a150593b0d6763a9f6f57755458e4244e8921b 0x1f75581808aea3797fa74c3c7f3e98844bd03cec16593ad0e32270ede0de07fe;
  SDbl 0xe7898e699636224c4d62603458e31bea0b320c82b10ead86029143510cae635c 0x25d3debd0950d180a6d5c2b5817f2329791734cd03e5565ca32641e56024666c 0x92d99a70679d61efb938c406dd5cb0e10458895120e208b4d39e100303fa10a2 (-0x18a5e2cdd4bc15ac6fa5da2935a056183fe5b9eaf39a961f797fd2b7def60793) 0xd16988ed1abb4ef422a5eff217fc367d4f900df08524ed1d00b9210a968e142c 0xe13e0907dd0b7f3486d951310b7bb8f94f3af29114b0972f08830ee2d293258;
  SDbl 0x3763ac95cf9320c99a99ad110d56564ef1bf8c2d451dbda31a2a214ba88939be 0x97662389f36ce643a47dcf644f700651e988794843797b0c4a69c806e78615c2 0xcd4d9449aea5cac5328b8d67d4ae956f5eb06c4515ff01bd17eef58bf866b33f 0x2ec711777ee4fc0ac90cd17b70bce34f1d8c83303e31ea72efbd1efc3611e435 0xbfbfaf75b656572556356acaf803817ca044688aa3f08d6761f15256d6cb996 (-0x1892a4e9768f79f56ec0b43d2611b9df18cc298cbe94de365d59f3e0840ef44b);
  SAdd true 0xe38e55d0ee68c0d03837d5f478dbc37a912226aa58df9de555808c0cefd1d59 0x403b18162679c05515a8ecd063d726ba7b1eb83b8306ace5cd382e53ed23ae1f 0xeb42ebf496a7bd698d61a1c805ef7074df882dfcffcc84bcd0a5d4ebea56f425 (-0x59731e5d63a3a3900b58bfaccc0565edce407aa81c0f8321a1916ca95d85c5c) 0xca45bb54a1a06651a49c52c35fe6a5a17d8cf2012619864cee50e5c6aeefb7 0x4d7ba240c5675caf17d24861991be71ef2159d7e1defd4a3c7d9ffc1ab328b9;
  SDbl 0xb74c3a90b149d5352d90e8ccd1c8e737b9e609f100423525c96df6befb85d35 0x73fd021127db200837fb5e89e4ade4a103c3310096cbfdfd2aff1d698b3e9596 0x6eac311bf6f3a5af2230ad7167d0a7ee884aa70a81db42e61e56cc63984cbbdf (-0x1b4a708229a4041fd80551a3e04a1c43057b3656db9ade54b49df352d5db8212) 0x833e126e3404c734353024ab02248b700a341f3f38e07efc5976f4516664db (-0x250f07ab397e87aae33b754c918e9c3fe1e14716bd77fca733adb9b852c2959);
  SDbl 0xb77446f9d15109f96bbb71f7f8559c5edfd5d6d83416a98e74e1ccd99edab650 0x7a81eb8bcae77464cecb85919665997936fcc10d73ea2f7b9f21fe6301025a6d 0x3ef5e1da15ce6537beecef4184731d2cfdb9ea0729e384ca83ba918103b2e6f8 0xf6d9e728f947d0869771b38940720d0972cc91b60db5058567c6eb894d5c49 0x8377724a12cc923ee11b6b1d55f7e7bd8868db862f68f776b894f1b05569ac99 (-0x4abf8ef2f3ede9d9436c37f779b3e0981ef42cd82999bd57b35affc17cbfff9);
  SDbl 0x34ee25b27bcd965b6180c1a5401a8d2e3b5dc02e59b01c29161ecd6259d65319 0xf390b1e58922d707cecf15cf64b7fd266f7dac4a646443586a1186602bfaf571 0xa735496df31ca900c9abb5e1c68db44f20da20bc7b7372793c24c0aed90f317a (-0x95d73bd6986173c242e21c186b6068de25fdacd613d269264df8ea1226677538) 0xaf19cdaaaa8686d2f68b7592618d99389c557b812fa6ff9b9c520cbc33a71da (-0x19079dda4496bd39c1860f9a1dfb7f85ac64a48e10109b9c0a4d6bea5d5c782a);
  SDbl 0x6eefa87ac3b4d1f412646908caa6cc4d8946d36806a71b0cc2aa75f81e77df6b 0xbd07d498289852c2719fc6886182d2a1e4c60d3800cc975bb08bd295a050276b 0x7949160f4c2a340e6ae97bfe93c0637039b8dfbdd572202b5a7c53aa2bc2e583 (-0x226492dd95fd3d0b9d30ab285dece6f1476e4bf1293849641bd587cc1bc41745c) 0x3012d525b45d00efeb6b0f06a8fbb458f42d51f49d5b33710079e1876bd07b94 0x17a1dcc1ea7f86ab6417e9393555053b0f71b90192f42ac88b003aac622cc07b;
  SDbl 0x59f1a69c4899868c2e763cca986a600ac6a91e611cf351b4ec811c77dce8030 0x22b02bdbc1c77f09845557162c515909e69520421c80807e1885ad9ea89af142 0xfa3604363881c5b30e02474c09213b6e7a2e707edd63a7293b3c9de06645d9a9 (-0x19d6a13c68334d37d99103fd60f585607330da0d36c2d8a8f21615a436097bcf8) 0x1f99e9f3e8c468205f3297de9df9746fe7e36b8807793dacb858687bcb3718 0x363a2aa29fefc34687db123b6bb30cc8ad382a64c73626f47e9e53eeafc177c;
  SAdd false 0x78e7a99cd88f575b93a8011e25bebafe95fb58ad51370f84e08d97a988fdb9b9 0xc12bc699e769a1436a45d4b3fb0e5bc3cc8baa6744d1d6d2d9f461a98c887bcc 0x31739e0b819ec6232e2b02fa19e5e11c5c779c6a01396279ecf93ebd46a9763 0x7982a3eadfb95af4ce32b88b154eff6bd5c97b682e4ea531dfc436753bc0d99 0x391a00a6cd8fab42367d39bd83cd288819f12ed49281cc2a94a44fc23a08fa24 (-0x4ad95b12c09c2ad250efe446d92f94267c1d19c5dc08acfb027485292b26b73a);
  SDbl 0x5e3aa3177a283429ae1e02211f4b11475705e305a745469f37d6851be7ab21d2 0x32185372b9cd14e7025b45096664824927d982a3334b697632a0eeb4b7b2ed8e 0xfdc78365fdd28d7654f04d4ed3fdb8dbb2ae69997c503294cc6bf86f3ebd0304 (-0x1b302a1db6f42d368583ae7cc394c5927edd6ecd4b2378113264799a03450e4bf) 0x22af1d33aeeee5704da09fd929547748422271f7fcff74ba9e8e124ca1c014e2 0x34a9e9d72fa0c27a99d5007854a60c442b4e6ad2ae359240121e9b8aff38ed8b;
  SDbl 0x84823d9d9d68cfca7521807e5f39aad7ef4a10f68f8f9bd15cba07060659116a 0x4c513aebc87888c1980006451395c6d9c0bbe5a37df09aac6aba77011a05bf13 0x76c6ef0be3a19fe8fff10f899243c4c6f58b931ee44751da52eb9b1c9efd5054 0xe94f6f936a330713438ced3d4d625e7df197b8d23378d960ba60d2eb5603a8f9 0x449691cd71d30497aa9b9b0df04eea8d0e45abd4b69c6a6126ab6ba474885a4b (-0xd92ae8fb8c9f97623f221d8f5fbf009d6cc682d177b6d602edf3e79f6d41696);
  SAdd false 0x2ef1304cec466ccbe0a3a50f77cb926fdfb4d7400301edd28f4f57609f574473 0x9927b12eb2dcff2dc3fb63712cc89e78a5fca36b72a0f1facdaaa2633fed688 0xab278fb97583d0f4f6b7c895a5f8c545f195dc9edb50bc1217359d3c0088a412 (-0x4af536cfd3f2af6573049680f097029353fe43f95fb6dae9b348d3e6f6ab0d1) 0x89b9097a776ac0150bd68b1f9e3267241f4b2fffe1292a09ace61aa0ed9beb9 0xc3d28a3715cbc72489e40eef6a5fa66381d9c2897e8869e15682502186991f5;
  SDbl 0xecf93faed09c76e22a59bcb7856b37438f53dda623e2279c1aaa205293a5b5f9 0xc752d20b03c3ba0498e335459fa15000ade99dc1bc35a2a9784f434d6b9b0bc0 0xf9d90bcaa334bd5dd347d8696ff9ec13f8adaf61567302e44c300763ce12e552 0x13bcb57b428d92b45b9cf56440d52563e9aa38832bbbcbab08d3d97075ff259b9 0xdb5c80181de64db5a125b15378ae7dcf6d3518e26b044777368209d5c944ac9f (-0xafa60f75e66297b964793f43e8b3d45396627036f1d6a16eaed313bc33bc1b24);
  SDbl 0xe9298f26e47219cae76ea0c16c96e4bd26662dc5dd77629c6c588918596339c3 0xf10d28f9ffd1278474006d6c60356999d553253b7de0a139e0a39908bc626279 0x63e94b9c056adc372b8a31e9810baf5057987e0f1973bc908d922e413d735bf3 (-0xa7761a012b038979d2a3f08ee103e5418f3fc1cbd3078cc52d95b938b35aeef) 0xd45cad54cab605f47d874f9ac72303f288dc5542da0405637d8e707443be0f70 (-0x26015f4d0324eafda95c968e979039a10d645bdf8bea361384b31b1b2fc87ed0);
  SAdd false 0x46c26d52dccf519e3f79d3bd8ff99cab0516785cee1e847c5bb346ef3a223a75 0x8a3b5bf06c0271e1f6604877e8930878fec22578972c52aa3a8624a65687dd 0x48b08cb37e41c7227f8a73a805bc8b0bd4a33465c0445dc88085bb8cc63f192d (-0x349855c403b039e05d74b786bada83e656ef50139fb94727a71690dbda29563a) 0x138ee77344969d2841eb7934555ad42dd8c9322fb01160f4bd85bb2ffd9825a4 0x427a76e725077d9f61e16751df5ef34cd6174f7d8055806a10953dd2e00833d4;
  SDbl 0x921db346709026c468c03a9f2b4d087526cffa7e4a6b46023f0f31bf5823684 0x2cb392f459f1393ed826d51abf1b549e986e1c2fe3e6931c0afe498f3cb8383d 0x9a6c4e3a7f16c0550a83a8c56bb7829d50e1d5b6ae7ca0692f596cc05b94324f 0x52ec3f896a5400513eb8dcc9aa70b3f95ea7fd4c326defc9b6c0e3bc25f8bf0 0x5365e3eec74b659aedd0b5035cdbf90d2b3254dadfb677278abf6c77b953e7 (-0x1934b391009f1aa2129c34e5ed43ae845b174911814c975d133037d47d98304);
  SDbl 0xe8becec4127fcec2631f52c5f9391b114f119408587af8696b271579d249ab78 0xaa4ae3801a04a115af3ada594e8252a6185ef0d62fd5410487eda9355da088f4 0xaf69320c16f5fe4c8ee75ab58dc37ad9d1d91e2139c31a543cd2a747b6db4a59 0x1015fd69181a81a6fe21f254a7299bd4d15dcd4f6461327953c80a6d050ed8788 0xd39a64fbc72da565092d37fb0dbc31e4e449578523add1b982d7825fb9c7712e (-0x722ebcbcd3b657f72d70869bba0e079ed301059655c092432c0f002930917090);
  SDbl 0x7fda7481bb53eab63b1f1b48e369aa08c5cb9ef555523c72584d9abfd63f2f4c 0x1646a41492b4d71614aa7a9d48c3bb3b9b83b50c63f45aba591814bf41105397 0x916eb10a6cae8df724a5876e5c7de3c61d8de0c06c912b958f302e4aa7cdb62e (-0xa4a0e5b1a3888108d8251c0481c94cdcaa472e5290ce8c06f5c59d243482592b) 0x3fda7a0399b09b5287118f035aa6b10fc1b02252d46bd3f64abdb1169c2c66ef 0x49ec6a7192ce878215c2e03d939263c3ee2a6e8c8485c41b54bcbcc78a2a15eb;
  SAdd true 0xac24919c2d10e9330d3c8cf0ae0784bd43ae50e6e1a35389ff1b736ce49391c6 0xfb43b1729fa43e72a8ad05e44db0ad7e6c3b9053175f68fdb27258e6042b6945 0x9ebdfc8aef16c0f0311aa60603b1b94ca45cdfb5a95aa8480eea023b9fb82bdf 0x1328c0b61655a791f1b2fa70c72a06d234f9e182c6e55f72ced0afdf418e5f52 0x73c128e3970ed955e3eaee1198614e6a98b8a06af8de7af50b8e9f650c224c7f (-0x99fabad0b2fb6c5344728934fdaaf381314795d16cd759b567f0adb80f55cb5f);
  SDbl 0xce8d2451f95e2a3db58694e8ea179ad79f87fa469be0b22fdb731259fbe98e1f 0x2ca87ba04251bc8b919382af977a07102d620a4a910bbf4a37f5ee6c9a8fa8aa 0x39d53241f25d8b00aae9c163a235ec6d0b4521abb8fc608a5b8ffe7b9a281495 (-0x1e3b0a2d6677b686ea870fc00155495d56750328a8d60fdfaf7c4800e13ccfe3a) 0xa6a774459b6eda5dafedcf2e61b2d28f5c98d422988ca549eabba0e5d5921373 0xa6b2ce1c8e972c33d5293bc2446e28a94a761893f6f80b5ed5fb12f1c51af3af;
  SDbl 0x6d35f5c1898ac98e2217fb437f00faba6d31072ecbb2f7e9873503da543999f9 0x8006e3ef6626f0f60b275735eebd3397292d9dc87b73746c7642bd1c9ccc1d51 0x2f79155d1abc7483e63a59561cabe95af71b0c4c3a05f95752d8e9c64d65d8bd 0x19f8e1f7d6f432af5df3a0459729c09b3bbd4ca3425d4afe7ba4631a72368ecf 0x2e96fea6abc625557c9c7bc45c38e1c8f031d103c0718fc79fa8ade07c6dda74 (-0x2390c4fdcf0010c20bea5aa751cfb89d7ce74f45106603f737023c4304bdcd3f);
  SAdd true 0x1826806333bbe95ed4fbd5060c8a178d89906705a3ef6e5a982c0876ad2cb3df 0xc6fda25ed4fb0daece50538edd63e3dbf7c7c256025815846e2ea5df8c1754fd 0xa9ffcf9d5ff281c782c4fcfea0ca32026cc846e870fff1a51a198c6f2dab64d8 (-0x749d39d5c08f6a4e7523fdc824af7ab5534d46acd45e1edcc681441c96799e7) 0x2473ddcf9d12f9501115f887f290dc6f51193f23a3b850ccb8a7407a3264ad4 (-0x6b1ce119c9abf9f4828c0868d5ea23c58d3cf596be64fbf939d7bd5acebff97);
  SDbl 0x369cc1a26e4da34991bb3529d672f74162b2b9c0cc35c8458e5b66bccd89a063 0xe3ed3aeef8e9d321e02c0173be8a90a9bb310b7d32fb3d974426642c65108864 0x20f1c78c77331577ede81da558474a82d324deb7bc2baa9eb93304d01464c9c9 (-0x1877fdad9c19009bd96476f8336786e0954fa5f325b65ff073fbc07b622c6f8f8) 0xba681ad229c029007beffde0bf28b9e807ac3186935c289132985a7e0cd4c15 (-0x62c421263b1759a6d43ef831e47460aaa4af2679a81bd8c2cfb5a431851908a);
  SDbl 0x1b025588734d778b772f6b41d448e53f500991601cad2dc98931cd624878d5df 0xbfdf432d442c1f634856ce3ff4ee48792727f6c37582a77011b5082b616582d 0x766b672af52af9bc6d1801587545f068d849968c235a3c916ce901fc678ba882 (-0x259d81d2dd9d723aae51ed8e1302509a933cec5886a6c80713b3faf24c450d101) 0x2d97e103de187c9aed3b753cd0b576917a037cde37b5733e47b02c8dc7a90b4 0x16c8347a06f9fd4b5e43aee58346d4b57daf9dc5b67f3b03996fd482d41aaf62;
  SDbl 0xa8c0878ea412c3255b26c123a0df6fda4f851c37c980887de76288a7eedab61b 0x6d0799fc30e7c580b2fbaf6a00b9f01d6008f0a3df2ead695da2b584c1c202af 0x2e7b5b2635f197862ac31e899d914ef87cc17ccea51902c4b18e9582cff405fb 0x9a6fa9321f75e57ee42ad11e2d4091182bdcaf6d81bd4c44fb450fd4a5da844c 0x6f3d42b74453bf833bc9461f95de16815891fe8d81a0581f577ba9db52684c30 (-0x3ff74f6ae3c185e800c0a9e25e45ceac8369f9a79c3137558f84797b7378e9cd);
  SAdd false 0xf04d339f5ad16694a56863e59ef4f6b256905a5dc2887a0896caf1d98fb6ad86 0x1b57225d878757a1757fc72920f9eff4438ded5e2de48f5ed84af2cc4e1d1b35 0x713b362a37ec79eed74a3f37ad235be54fa2a3485fe8dab0968f4eb014b1e222 (-0x36b04ef3ce2d22c88f95f66e8a2bdf3b4cc05e74abf050cf9c1e87f673cfe72c) 0xe190d813c41efbc38ee2c5d46ca78d1fb0b3ca5e4b13afb2e0b9dc775f053087 0x4cae12b2079b2ed8f4b727fc671442494a531e9d1bd48f264ee5ec8c352b4c41;
  SDbl 0xa765eb241848f1a48b30c4e20b37eda443500b63b26039199e4bfb1d0fe6bbe1 0xbf79891c14b32314675c17716fb41e1f6e42f55e9eda4f2c45d2ea99d6877bc1 0x5b89aacb7e3c60de952945307a710da6c546de028f5dbf1a12eac4f75e5111d8 0x8b52ecaeb0dd0631de208014c18f0706b9e4eebdb984c0c05390717bd88d7f24 0x6d76215ce79bbfdd03810521a26ddfa8e2007b504cc19ecb14e42f3df293366a (-0x6b53c95bfb5269faee32a549aef43a43e276bcb830ac817ca0a0fef7012fecfa);
  SDbl 0x9ae364488d310a3bbce0806d4f7db22944cd8d0f6b4fdd80344d8cc7543651ee 0x333cae8bd4aa588098be34e12bb81786af0dc164a60f636a3e118e2f65ab58bd 0xcdf9025d7a07f35b8501650aada2c6df2f7ad8eff362a2fb5bd758584cfc60d (-0x13edf7d887cdf076d53fb9c0afa0aeefb2ffd9b72405f23be4d1d1f76ab04c720) 0x5db65ea2a78886c8b62b1344579d3e3a95c027ea9fa9a5785ec802143819d6fb 0x54d92c606d1d7140ccfc1ef009b95d4f91a50e7321159bb982b12fc99c8c062d;
  SDbl 0x15e387696a5cc7db43dcc0cae218ff68b3b35c7af077e2a4c8b9f906f707b1cb 0xdb45d16aefb7425c8645f0dbadd448f3d58436287db3a9c1bcab0702d80733d6 0xf3e2f71c88e39e49025dc1fd1fce837b14c4489180bf81bb2762634698172ef0 (-0x1c90240bddd299ab7c95a614184923911e9ed6a468493fb587d9113d7456a006) 0x1df1e70b9e5515b68f80d0cee1b75cddba14bdcbbd02b2b96cf0e8cb4c98e57 (-0xe5e18d84a5ec8288a560e4971bf79061167aefac68934d46e30f0f895170530);
  SAdd false 0xadb8b18b4e0b3049e35607b2781943cbf5eb8b4727d92ec860436edcbd0d70c4 0x5c8c5ad98a4112c8754dc2bb65c8ed1abb60bf517b5fca63a2c964aa4daa0591 0x7a736d63aa00b0c95eb1fad4d460d036bf2182f59760d24f2758928fd6d6519e (-0x7258d6803554aae85757aeab308fbdfe83f90a080453fae21a7b5d8a1ffd4815) 0x75e3253670c0624908f0e2df5bde935cf4fad09e53bcfb7bc29797204b69981e 0x55fec25100608182cf261b80024c5935314a3632c8d1dfe53c49b25370d6e3ba;
  SDbl 0x635ae6a53b20b889b242ca524150b438bc8fa38afc864bd30d8311fc9cd859ef 0x7f97117e30990bb9ee181e34c7e1b80e6a651da5b7499b575e312dceddd7eef9 0x1cab1e5a211d61e1b4256b4690e75f7af355d9c815d049e8d6f7a05e7601d096 (-0x5534e56187ba394e1c3b52ddf8b12edd83bf9381fc0793bb415e59c97734ca4) 0x268f6eaaee45a14b406407cb0e008f97a6b9c4fdeb08ce766d2ec6284e43ecfa (-0xd9995f82de7ae6ea8328b99b80b64c042a738041b362103463e0276d265cdb4);
  SDbl 0x56339ea634cb3e5f84b5199c136ea1cb4fdbd33ef08039d7ddca6042686a2045 0xb015f1ad488fd0a86329e143c3829324ab23fe64939d4fbb069d5f018b58cabd 0x6e198b4b4d605d857d2696cde4e4c7d6117c47e8614290664ee1670c15ffb87a (-0xab772d681aee2300c0406385c44321abd81c1147d6f3fb6b9a7d4e531f62264c) 0x1d06b9006109e4f6cbb870b64c08d36ea0eac2277d1d0bde1a98f0d479d35616 (-0x105466a45665c83fad84654e719e55607f756487dd8010f74f150711f5a2bb1c);
  SAdd true 0x1a5df3c31701cf8e84c8cc4d17686b8e74142a39287cca413a856271cb87f468 0xa434cf96e6186140034499a0126c0c8c182cc7e36e8eec010e4c59ef41f0ca22 0xf2d1f2f8550f4ac3830952e92e15b9caff58123a2990423ea0f217bf4b79e8ea (-0xce83eb45447887dfc1fc3f7e0284050f2f75e14ea0505a6dd08d316071a63ea) 0x2b737fea73e3fd1e69f99b8606651ad1b94ffff285141c70b3db4d9618f9f66 0x139398f6a44a65aa9303be826dea4c69af112fb4d0f1d65038f38a833e8a66c;
  SDbl 0x333d97a4d731b868e8b1b43b7d4cda70c59509980844bc1870182a58d8ccec55 0x2d88cf2240d4d02170e423903b6ba66db9b3e4f78d80934e9b477ed989bdc2b8 0x21787172e09de3e1e4b97965a5ab6a7be25713379dffb687ac6cc0badf93d1c9 (-0xdac6a012ba050ad76e29bc66d9359fffa56ae210c694e68128f3ba904f4715db) 0xa41993d5661d66a193c1f3dcbaa19304a82226c528a8af405e7616f1bfa82c3 0x17c0d15f4eaf4161033501acaa407b2f3165d76dccf7cd9ef75e4d199ece8c81;
  SDbl 0x64c8e1f861d5790a0322879af75c9b4790562d5c4804c8157d96b77f690ec149 0x8a52c9ab5b874c8fd2ba61fec1a5da890de00cbe163c82cec9dbbd4fd71bce24 0xbfeca7845b15430c9dbfe86f26257d6866c16311dd979ba2c8f828c4bc1e839d 0x20e7a1d5b0d4a2befc911693aeaa55758600cf0ab108d7a460ebfa5dec7761b 0x27ad8e2c0fabbf3ff38533c9e6710a7075a7427425c5228cb4c77b2d52ac2cc3 (-0x2487b590fa6566c08ac165fae47454a1ed69f7d7dc7f43b585f06a0881f7fcce);
  SDbl 0x6d9bd1969865621d5029de25e2f945311b7e4aa70f9b2de4480ef944cc729ee8 0x2d1c8437bfcacacfc88a76a86ed2bc68127598b0c5a0754e00b577915e46c4db 0xbbb291a18354127d6c8d2498d23114e5144b48b770e7310cbc4d1e6adbc00913 (-0x3bdeeb1c22a62a9c2b1012549351b909e9f607431e1eb6c730e7f2a944d67963) 0x2eee0f51e4a82d1026264ad71907082f4b17c608571e4e6e79c2565d633b2ee3 0x27e8d7be92349d618a33b0d800ad98c7ab8068ec98b1ab566bd279564c911488;
  SAdd true 0x36e2a2e7bb23d6bacc883fdba52ddcae060e57e35efa6eb3b1ff0a0eb367ea41 0x3fc5fd3c46257c306ee6c5c47896e46d946c42296815c840896e2bd7b7d0bd7e 0xd348fbdaada2a2e8ebd76f357494d707a77cef955957807443d77f1ae91dd3c4 0x1367ae8207a5a0c547d23152c509ab88f1b3af1e86790ea9888b9a2304684a1 0xbc4655dd78809d866e1f60cb116005fe080dd0f5b7da75a309aba110cbb129f (-0x4004503f17b7ad2aef2572ddc4a2b4ea63ac3a0ad9a54b114a4d87e5f4003c6);
  SDbl 0x89a69fc79d06696df62ba742b928791a20dcf4a595771fa65f997de5dd9b4ed 0x8613b132ca1eac5b88b79b1e3e9a4679afa6052689d87a37c58484d16a714c5c 0x8b55e3d19503f7810d9dd3befffa502c46b3ae5c55c9984f3f8421cd753bb2f3 (-0x2175b0caff8634ee106dfae2bcc1e2a6ff274122bb7714a881f26bbb2643dadf) 0x4a03c3778aadd5536e032d2eb0e00364e49f4547b1a7a125e994dc6e6aa3ef (-0x25cd5792d893b0abf92db53138687c8b42e698fb9f6555edc68d9d09e601dc3);
  SDbl 0x347b8f734955477c22164fbe61f101b12b619f794c7ce480810dcbf4fae0bb94 0x8c40997e76c7149bc7e168bf22e80f7127952536ad1f172af12dc42f0ed62ea0 0x191d1c82ce956490b13bc8610dc461a04dbd600d8ea3a6539cad7884e6ca08e0 (-0x998877d1f1732d95fcd4a592a087bd0cb87bcf211239198cb058c73e79b9a7cb) 0xac26dea09b78abf6656035e4409d3820effe6a3c3a5a934ab70d00c074739c8 (-0x1441a38da65c0a0c857ab71b94d68b2504da9a4ca832906ef2a6a6884dfc8dd);
  SAdd true 0xa47a9d79daa47362ab5af69dfdee108751f62115944ce4f772893d12cf1a30e 0x851463e6815ebbebd1270fed85f2c3d1d49b0478b27948255ee49dfa1825f585 0x78810807aaa146a4068dc2d563a0a8297e3583e28ac5c7654be7f7c72377a922 (-0x397e3edab637f5df79235b018045eeb09edb5e63d5f1ad5fcaa1002d169c362) 0x69ad547f02d31d418823938aa8d1cefc42f1187a926f13dd5a62b52211c428 0x49bc1d06f2155e0c5e30f1a049281755acdf4767df3d12331dfa92f1d76188;
  SDbl 0xd6185ec4ab7db5af7db80c24af25535d1249c7e2135d508dda22c9289a9c33eb 0x7a5338e5052f0d6453f21b81c553589df39c97fb79aa9ba07d8da04c50b09f71 0x1560202d5137c0a184fbd3bd5d9af97b59dd6cea41fa3151f08d9cb9004dbca3 (-0x5fbe9719a9fdb4bcbdfa269d4623339556d50551ab35878f696476658c68b24) 0xb30cc0c369b8191e3d9ba36ce452b09ff9121a67933c48ab3d334f0a740d10c2 0x8fe800a7fd5c8d2a63526d880a60f3d5ab3d840215cbafb2b9bced52eb96569;
  SDbl 0xa7613d9ac819898caf70774840adeea25bf517646bc88ea407b573f6035d2338 0xf5e948e2422884e4c01ad47a5de1a60744b933ef45fd0a4c96b2ede1637baf34 0xa57494c72b5859f5c251be0882c547509db9763eaf0504fa96db5afdb1ab56f4 (-0x9366a0bc16f72f31212ffdcdf65f3adf3aa9eacc04be2365ee5bd36187fc69b0) 0x6d7003501ca019116cd03a42bb9dfc9907b313983628c6928feede24195491d6 (-0x50cdd6080d3733eddba93b0f79b3bbfb99b84edaf2daac4b2f5dbac56b9cd0c1);
  SDbl 0x2f5c98127c7d4a12aee27d17fd14bd0922552882ce7238ff6d43729305fe9aa7 0xe6c1e411eacf89c0c3883d75f0e9da1e533a491128eb1b7f566e2b501cce00d8 0x8ad72cce12ce6763feb100bf5c8289d23c4275e12111be258df79fdcfa5bd364 (-0x287708f489a1cbf792a612c9ab9052dd7286469d3b1446ce14d9aea59e2b89aab) 0x8c321547a1891bf19dba5d8e3863ee7ba54fc899ce4d4f7b623c0071cf4064f 0x2cdb6aaf9b5bab771afae50820f82993a04841d0909cfa53cf30e024a8f1454;
  SDbl 0x212da0cacef200bd3ab1ba41d1d50c5e468c624ce3f2cd702f1328a126c5c1ef 0x8d0f69ceb2036eff44195a53755c29dfb28aa58492d4f232990776c26a947473 0x158764c2c18089476d16d68946e9b37152c2c9e9178859d86a1c533dafeaf15 (-0x24c05f264170fb29f02f23ebfc1370ca31ed868a3e72071af94870119213759fb) 0x44ccb9639f2143503ba9aaa307d0e90158509e52601caf32331e06da3703902 0xb9ffe78cf842fb2cf4fd54277eacaee2baeed49d07c5d79cf793cc5070f4b2e;
  SDbl 0x27c20e009294497ea2f7a47c348dd424c0dff9804fac8cb98ed922ad5740a75a 0xd2583efab01c62fe9946ad6ffb451455b060fb314ba9db481efdfecfce1de7e1 0xe7a211c60446d949430ae3cb38b9a76ca5e6452bb4b6954b125e39c8a3f02f09 (-0xe8c2f42e7f898f1626a0ba24e6e11531f84c83b7f9fe21562317c671d22f3dcc) 0x62cb35d6c781a89f205e189adaeb26bd63ceeef736b8eec8ae5d29d5ce04523 (-0xac29d756d230d01f70a2d0d6bf54390a53550da405b862d89f13a729af1cb36);
  SAdd true 0x16e70895e3b6215630e54d1c628dda710314a949c7c1f8ff6d6df7f921859063 0x120ba897d44f349589094f169a38cbfb6796270944b86d9ed8f10081a0c80444 0xae35e5aecd8629b22fb5fb991a8df97806fc5e5268a4fb9c86e1566a59999a86 (-0xe46b1f3847ce8d1682e0befe7cf393254dd70c50aaadcf0b57a308eac761b5b) 0x20c85fa43fa7c637c92d58b0c161eb443c430b4d6acc05e3025a55bc3e4daa3 0x1134207b3f9f6fdcb0b8bb33bdab4f3e1b61c3343f0cdab346b7bfcba7b973d8;
  SDbl 0xbcddc27b917cd2f0d0269a043b2595e00597145ce2c579487c7fe915dbe9f4d2 0x4f74d151325f9d268da63249ae78cf67309a76d9676efb9827e629dd4ef1a40c 0x3bf33d9ea69dd9b91a4a6d2ac84a5b1dd4b4a341076480367078a6cea0ebd9c8 0xfd3c0e6257058384a03ff6711165af95c15b4279ca275c761b051b2aa479a255 0x8b5675bf661e813b9bf4e8cc178dfd6bf73b712eefcca98bd0799dbdb41cb050 (-0x2d4e6c57cbb2393ff1645a7910337ef7a7d9b5ead7b7d23235a07097f602d9a2);
  SDbl 0x76aec4d39dcea34f3bb7f4eae2f8a06d2e5bb888b0c5eca28f074e1bf873cfcc 0x3e0c2dcbc7e5285f994443ba78d3ade0be19f2afc4192e5811f0bb7edabb9530 0x6c50d998dd3de4da9b9a168129cfbf478ebb9c81f1457b1fb4f4a2bd06ac08d (-0x1265d3d5e75d334a0bc8e55614b4775b9f3edcb37074012ce9e3b146449e6513) 0x370594c3737f50c86c3bb7ca6ffc99707668a1318b09532030665331deab52b8 0x8121de12d0115043057b7e4e8bc3e5343db0ed6b846b3905cb471dc536adf05;
  SDbl 0xd0747ce891840d33b9ff43de7f4d0ea95f5524b0fd4dba031594cef1ce2d50de 0x451ba0c65027867c6b4766fa803db5c93731fc98e9d8106ea94d3b96cbd1e859 0x29d166e700b3241cf5c90207300f2e8fbb1c22087e6d6352b9f4fc875268e925 (-0x221755002ecbf14f573a29b22b4644090d517296b9146df66a1f92c9addd598f) 0xa9bd7ffc05ea155c09e257fdb986c1b739334e1f68e9a23f1afa326db1b19235 (-0x5bfc3dd93b05fe7ab850484a24f84ba1c510e25c45eb0c1faa489c2359e68c0);
  SAdd false 0x6860a8a652becd141e54643e5b5e7e8ff37d262c76c4fa4fb0ae4bd693038720 0xb60f183621d95d643b7b30f03afe647f07760bd7322685b5e10810a3c6ada274 0x884b93dcddd2591365cb41e04f77b8d70abfc9db459f0b92f5daa02d53f636e (-0x77a3f3e9ebe5bcc66a5a2c87a59558985d48b572e588b8968507551d24c6986) 0x2a8ead8639a27bea38b8f4241c526a472b335e2860b9d7441cafdb0893b93b94 (-0x2e0d8e3b8def6fc94d0044cc500ed21d75b452b4130b743784384789ee6b330d);
  SDbl 0x4135af39357d4358b7ccd6edb830d02da8936c77994c0f656e3b61d4064a3526 0x4c44693275654731e4e8598cd3ef3b087a765d8b2c98d9c0c7a704784ca99e64 0xb73135b927c5b64e8f7aebaf35235e8a86df67028cac479572472624b0a9cdde (-0x180156d4498514904f4bb0009313ac5b1c0c551cb8d2b7946be4aaa48f9f802fb) 0x109c4e3d23655438327fd82761fd7bbff2900d93c80c9a98badcc2cf4d0421a8 0x1af2a5cf775e083785b87dcfb0e16b12ffd25bad42ccae08dbbd36ef07d946ec;
  SDbl 0xc36de42835ca433a456f2e893e3c1217bcfd3599dfdf72a8b863bd5650ece13 0x6185b2212b184d178255eff33e70d756cbfe73a298b887aefe49a49d9fe3c0e4 0x3a3b09deb0188f1a0751bd1300e41fd9e12357aefc73f3515f22cb0459d8f49b (-0x32aeee55ad80a0feb4015dc60d58a0e55dedd65164440cfc4b0a9fa98ab711c7) 0x953098c1ecb82f8b1460dea5d20f8d71d71d4f35f86d790a2f507a0b406843 (-0x1039da4b6de3e354916a13961dc8f699f23eb94b21f9101937371ce9d69ae07);
  SDbl 0x68aa434071f9ca33803ee13234256d490277ec708e47100328f45eca3dc1287 0xd0f871817582ba2c512f61e33e4b295cdfafa65fb0421a9122c8c391907d7252 0x2d408b18dbcedf8da86114e80cc0740eb66ead0f46f7e70c93ff979df193856a (-0x6c79ed9f2777fdf16d4014f6376345f13aed1ada703574b1db01b7ba7893664d) 0x2acac7e1eaa7e7ce3ebbd9679834b22db37aa5944b3aab87e9211d0ce5b0e9 (-0x2d90bd397821d4df6d5774fa7f7f84f4d69c701ca9173981ede4c59808538f9);
  SDbl 0x5a652e97546b266faf9f94b1347372cf48d16c0e609bf0a29c158845621e414e 0x7d938e04a1da2471c97a7b615d33d62a8be8560f46911027b97ca1fd75806ebe 0xc437dbfac48dc1a58a2f70db41e1e0ca69ae2829c369622f77411a97bcb27bba (-0x1dfc8d57965f7a0f9d4891916d29825a64dfe7b2c43aadee9ef8d53dd4719b9cf) 0x1feb4cc05329fc1e62d4bd87499d4716b964a4df75ee3a9408f4e7817f8a9f9e 0x1d726df52cfdd31a5cfbb2a9c6def3193818e9b7ad090fcdd49b405223ee560c;
  SAdd false 0x94bd6bf1c85790e6ba8a38ef06b61775bf29b14dfc6b651b072cff510bc17689 0x416a8758f418387ab97fb9c1a26ee7bf215b324265479928733ab8e80a375ded 0x3eec95cd75d1377b72ef431f8782e9ad8bef6a828df61411e3287fe4e38f3cc8 (-0x2b76f3afb8c249580ce31016f8c9dd006b1a1a509d144050e6bdf7ad6aaccd2c) 0x566b90f87696a3a337be8846be9722a3c73ba38a77ce185c85dd7d58fb8fac21 0x22f43b8347a54a8ca402dd74a9700caa62a2e3aaa63bf282662777a2dfd662a9;
  SDbl 0x6b3a7ba601b5091338d62f73b1e14ebb99b647f62dabae605d29c5def3916b61 0xbb7f93ccb120b2bc417be43d93fa16c7ad3287fdbd22250b9f9ba431dffac13a 0x545f402aad16fadc75d352c94e8af0cdee04809d29857b84eeb402d96f6a9fa2 0x290b607fc3b67c9978f061a177622c2991c36b4a1f832eb7a92b46b4cf8e8a8 0x2ce9f0b93548fda19104f1fd4b75018d898c4a29a53da34d7fc82b50fd7d4253 (-0x3322aff0acd0281793688c7720d5c55d2f878d550e870830e528913baddf5469);
  SDbl 0x1adb2bce4cd91a7db071ea151f0d61c728c26e35ef975060e6282704ab244723 0x12951eddcf12fb69db97aa88cbbb3712d32207d272511137b6ab6742a70381eb 0xfb1aa4330cf2c49a61a324fb89c88411621b65907efb6253548fe7527a8abead (-0x18a4713a42a2faf73a97cb026eccd74f529bc9b3cd670c86fe41c3431e3e1fee3) 0x2d14089e4e3c96f73254b490625801f8c354d9c940f9f40fdba50618f5c9596 0x11b86d59de0c46d50d186056d24d4004896484d793d118bcfffa0c5fe17ccd82;
  SDbl 0x68356d2656913a4f3542929b6eca19de0016c6c9610d780d61b11c6a13386670 0xcb010fbe06a3c1700441c2f65c36bd1242c1afd62f8bc6e31f027fe364310385 0x5b02f0a74746ed4079d3ce25936ddc597186334ca1df72df3baf29f79388aa29 0xc86286f5bc7acbc9632cdde6b1467f2d369e346f01c651907d68ea13d34955c8 0x2a6b73d5b12af6cdad47c3eb7f0ec7aa2a30e31060de6686c2ea8e07183a965b (-0x4b1256d5d402c3427d86d83ec018e1c672ec8b8df7120b828023d8ac44b087ca);
  SAdd false 0x19e0f7ae6540cc12294c46802aa6ea851452ff439e2acb1e3022e14d64a49e88 0x8f9793e76aa976bd8c956be0a53f57eeb77cb53cae08b7e3e49d77397de27517 0x6a5ad50166fb195b5ca81398568ca2c5de33ab67e1cadd9e7f1294129bd682d (-0xf63ada6a60f396b0b60b1a495e289c7ab863287c80253d960db2b72018581da) 0x29db61273378d83f4fd5e92b1af8de2f37baaedf1b7de6f4796c92054f3c523 0x60182df96b3531fc99ce521f4cab57f118a9b54e9021c54fc611dc5b12a83e6;
  SDbl 0x261ebcca4948c09d62ef1791b4c0d7c29387f022557d2ea6eb4ca05b73d0bdcf 0xc91f740d36808e2396b81c04e1a5e593360d103c7c1d9d67092bd132eb7acb21 0x1276bb9830dd05c7fe733ca0c67f17099a87019d9747e04ba878a9e1225ffc7c (-0xefa54adfbf3bad5ebcd31981f8f81fbb86e546cb2b856dcc6875dfa6aac2d296) 0x5ad23bcde11a573530584b212a4cc76632b10153de076cd9d6fd9bef02467ee (-0x891139f278b9c3cf05791971f5df63b6e48ac9c44bd3525bd44f64a380fa741);
  SDbl 0x8d83ccd012174b8c54376ee69213f7d95c679f964416ed6061618d99ee7e05be 0x3a4103c175947bf7c538b305c7697ac401dffaa94b988d264b7e9e4d0aaec968 0xacf6657fd8b9eac2af08cc1b02eba5138b0cdfc665a660f329addd75df2b33c2 (-0x1c59d6a9b11afa178727e5e6c7893c3fb3bf3783bce58e6c3161ff58768839150) 0x4e3a7378c2f6e67b30e3da6045f57d259ef3427ad0cbeafa44b586dff27b66a6 0x4efa11fadf50101e125395a7abccca41b025f3a3eedf6c556e8108c2570b4bf0;
  SAdd false 0x110682641875c029532cdc3b2de039fc3ae779befdd2c2ee239cf3a081010e4e 0x37656882d28ca0104dacf266ff5570c844a051333987e898ad322bb4f5cce07c 0xf278a848d475919c81803549930eec29e6265d8f301d96ea8abb81c675f4902d (-0x7f7268fd7c01ab71c54f8e54d3b3742217f26892f622bb276d33408a2d8d55) 0x121dd7bab7c7680dff6b4ce8f293f93c94fa1be1f8b92c3237f099f7a5f7ee7 0x30a7e96f605a059fecaa42eeae65f5d36aa575e8cadb4184a2a100c8a1e407;
  SDbl 0xfe329adb4154651730748667c4b1359dcf0439a0fb9817a6723078e3289472c7 0xbe0ff6813544b576d9bb3b3d635687bdf6dbfe4dd243c3c1fa737b1f540725e7 0xc0de47237e97ae314fa9170edaed2a79b74d4336f61409f6ffee49828468b2df 0x1bd911930f72ebb6daebaaf478ffa7b8b750bce2ccb913f29b2b62ccfb0c37a37 0xfc68754ced5df940cf44f49c98ee857903385f5cb988db8ce4eafbac2613102e (-0x85b7d7a89709f80b5fc005542d4435d375f3652573345a8341b6d0a7f99120c7);
  SDbl 0x34a111d81bea4381f249b250123010773c122a2a036788dab3e64a47342a2eee 0x5fab988ec34025f98104b0dd55a655d125b601601d2d7a3cdc34f7ca63b86fb0 0x2bde213a7aa5174b2e5097ff758f5e82a933434cd8229771ffac9bc0b5f6bcfe (-0x1580619561e110b00e947703414c66d4ea0d6e6454eb045a13a7829ed0b64f754) 0xad1d497493a86d1386fa607930d57d551dc52e48d1e933f4c4b2400ed14563a 0x1367c6c8c141bd79969e8c86691c11bd5ce6ba1eb3218d084839afef9b6e26bb;
  SDbl 0xe2e8bee17bab1188f4c9c1499b7284b11463bdad1242a9bb739120eae3882106 0x42187a40666839960bdfa83136ed10a419d8df24ad2c0a6b7b2b18537e7b452e 0xaddfbc358ab8b8f94f4ee7a21be2977e42fc1930460cfc6ed2652034343d271d (-0x1d7e740afe6e42383014778049591a3a5189584370b7207d76f6be94ccfc0ceb) 0xc91fc4a16e7d6fd393674a0bae3aa112d343dd1a1480ce439f7075fc8749986a 0x1a36c421fc46c5235b72cd0adc7185fced3d6c0133267c1778be0b9acd3a230f;
  SAdd false 0x14d112132ff5e54c305d3d8da609095bd7120c01009310b909054c48b68cb2f8 0xf21b5f1c1737268a37fcb6b5be54a33ae894488a0251d9608a1af0104961c6ff 0x4d58a96cb6a2ab39d3b75501e31ef3c57ba1b74d4b908aac15ee50425ffe753f (-0x13f10703dd01c07fab2734852f42a05dd504cc0f2eef6244c46e01ec0e195f6) 0x1b1559185cac5148f7b4570282d0c4d191b86729bbdaed24d5c06a01ecbb0b4 (-0xe4ff8ab74c3834afc1ddd931c7cbc0883c892ac6e198d4e465fe66f01e74f2c);
  SDbl 0xf242ad677cf4eb28986e1a0d027382e89a8bf7bf43c1449f3d572126ec72c2e2 0x25406bcef959ccae9e500d8dc7387ddb326bd9a59388de1ef598844ede7a6cbd 0xdd30f5e0862ea478b0046ad1815e5d1fc5865b3dbf4eebeb7fb209afccb5a941 (-0x21c835d6bc6c792b026ac7867051bde3d62382b2a153e0f3bcc98480e394e293c) 0xe54221366c52a4d13d59ada72d90a9e6edbe3a64477ea19a3d7e7a949b9aab37 0xc1dc5535287a53243da5501dfecd0415dbca20084bb9095c42bddc2770ac6c3c;
  SDbl 0x524381e1ace6e5d2d5dc15bc7815144d28d3f32166132dbe137bc93235fe9f93 0x53d893fbdf8d104df0a085d936988c18b5d7c40200ac43fc147f7b6c3a1b1377 0xd883a3e31031c331cb3d1b7b57bb5021477f54d6e7e66d2bd5ecb582de98e73b 0x7de4f7769f207321f3a05893d9a969940fd5d094a0486bdf0c400ecb5320ebf2 0x1a6f5101eb38f44b5edb70a44bc0d7ea4c725bf84f5de18ddcffed4a0de3fe88 (-0xef90654b3e7e26555c8f5e2098b74a33b15f7f1d55dd1d9438658cb01582cb6);
  SAdd false 0xf4baaea998b1717ca83f6fae23d772459e3fbea526eb84f555ee4fa39267e27b 0x117f6849a1343132b4a5d3ec26f64db847853489636d0fe8e5d15fcf48ab5fb4 0x9e945a4d222e22a8217ed3422e66eb07acfd9ca36afbd73b34ce253442417eee (-0x1f9f16108c0fb7586cd57538cd2be9daa27d3dd47ae8ac5063f7aa9f19a5394c) 0xe9f465167aa3833130216951f58da26f902943c83edef6c2bf2a25a662bb80d9 0x3f6d5fb4727f4efac81b4dcb5f45f9d731147567352ff80e39f98e8afa07e178;
  SDbl 0x9f841922eebb2465487ebb7066e526b7e48a996d181c78293113b493d268cd3b 0xfda95a3a25ff5ab6944822dfec5c6855004867b2c05b788e0007a3db6f6d1a0f 0xb9f008935e3b2837ca8b51bee6e35c169775c8c0bc6d645781f20263f673812c 0xc2096e86b20062a00fe003b7ae95f9cfe2e08947c2717708a95109f5b1e395f9 0x63655b63b66fdafbe461fe0d5652b08a8b10301cd8c349fa0d019e1bd04c4dde (-0x9327ea160814d3ae7d9c33ef1a2304bcdb63b9f9690e6098757ec6be5b722ded);
  SDbl 0x2670ac78051a23fa6d2b059b917fa3a3f255a0bf1a02ca10d3f4b7532f064837 0xb0406e08923640729995b330561358ad0a0bc4932820bd03b2290d8355044d52 0x652b4758b47faf31aab1d4eb7f7cf1c72a8834b1222172cd58ee7a987e6d902e (-0x2ba3196042457a54bf25fefaddec6b0eff523eb2f8c71ef31ea7372ae74131a48) 0x5c5a4cb047f5d78c0fbee531c5bb9bb44b499ab02c95997dd6b90e48aeb859f 0xb9fa51d86ab21ad86395711893399c83d80da0d410cae906d62104ecf59ecbf;
  SDbl 0x8b43447dbe44fdc7b287befe55de8cca42cf898f4cb0fca774e6bdcd147f4acf 0xa4c011fa5f58154e8769f60f77ef9a7fc8379f0921b95a2ffed6cdd6b9aa2fd9 0xd0acf6a4850c56b33366e117c91cd22829829afa0a8776a31b8279a71c1550f1 (-0xfdf7cc45e6d64c3add886a89ab243877feaf896e24ccded51c59dc97286e779b) 0x4bc21e0dc485ac997a88f038559ddbde1bcdced49ca7842d953d505bbc74771c 0x641b7a79244bf7d1dd13daf666d2189b56ebb4f6f3b53c35e2187dedd191248;
  SDbl 0x50e59060be3645bbde0cf137cfd6789b5949731c256efd5f1c5ed1d3fb2ccc5e 0xdb441968516280ebb7264461c1652e7721080a37c2d696ed014572a02e9ae1b5 0x7f1c36c124344ef336dee13d8c2cec199f594261a8ddcaa115fce5d5bdd8180c (-0xba319a73a059d138f74aa61b9896628262573930a60b39e69aa935875c0f572c) 0x199048182ef37b52a05316f685025ece48e037368a2f0f2a31efcec26a794ee3 (-0x113a252bf06917b6b5f0830c270b5686f549a6a6d9a0ea0ca3e849452225f83b);
  SAdd false 0x1f1efd566f09dbedae6b3cc95811324ef74cad21f8ecd6faf8c4f99911415f8 0xce9c17d8fc5f721534cd45ddf5ea22bb01e4addea1c47ed36ffe9137438dc3 0x3ed1108e5d0cd766dcd9c13a9528dbe986a15322805f45a910ae6d14f4da27e3 (-0x147bd3a9c07ecfd88d835fbcb4588ea349a37ef91ab0e3c2e8dedc8ab90fc1d) 0x3c8851b4da2e356b112d8bc2ab23da50202bf459c26920d06a1d4388843ff 0x1a8eac2167a3215111bd89b29e4cba136e778ca3191a28895a907204b4e137f;
  SDbl 0xed92fcc506c27215b2fd8e147ad218170b77962b81d1c183e7688a2e9b0d44c6 0xe7d0f1426f3b6a1f090b558d9c0fb5514a76e3c234edae993c2b8a85f1226d72 0xf844309ba6d6843c299f1d154f909d062233fcc3a03783390a9197c55a90af9b 0x749546ec784351d209c93d4cee6861435567eb7ed60c8ff80e5cf0625002dc74 0xdc797c6af54db6637b83577e405bed4406bc00c74a6bd43b495846888d13bfd4 (-0xd661cc45ec7ed37df652ad4904fc769bdbb56fe2f4d1d8a977d4d14c69e6ab28);
  SDbl 0x64d47df22d2824118a5178d32588659fe4a35ace230429904337d4c29008d620 0x40f7172131efe610f79f5e2d733e049e00a15b66b7cbda59d7f0ac5a2a75de40 0xd5cfed99dfb75828752af73fbc903ad169facab083d11d71b2c4d18ad021f8be (-0x1b22ece9bc2418aa54faadbf62f30e8042e6c8b8c6916be40c381ccd4343c3677) 0x27b6b2c6320f3ea23e40712dd8809a5fcdc83c97d5eff2624d7447b3f7a13524 0x41b797b41810bd10c1a59703d4bf67f6329b71040e1acdde200ad9ee7bdcf619;
  SDbl 0x7fb686ebc092da24e45f771bc10d68ff20ee7c1719464d5912a87352b905488b 0x2c453ff706a8f5fdf2bddfbc6caadd0ed368ed78e256ddfe4b8a450a4a667292 0x5332e85bebc212af6ecbd90c80d5a8b8bd289406f7fffa80645a626d20e6f3f7 0xa3dfc499e97265b54561f81c3ca642c82e3dd714bbdbe65fc13e8e36421e31a9 0x3fb69c024719c7f5e8fcf224e87b0442e91f96814965358c6cb39fbdcf55b399 0xa52fb151337c768cf259c03467012273cb2100156573ae6b87c77bb19fa853b;
  SAdd true 0x9615a58724394e486740f0624caf592b43a3a712c1812a7425045ba928db8195 0xcd9375298775e816bfa5bdaee84aa7606712b5f482378729e4d54fd559d8c4c6 0x2b51a8d00aa316079fc7024aedd117e201d7417b7b523ae67d70539c3613238e 0x3cf373abaa2e0944df99ae3ac9587a45f174975d98e42c956cb1a255ffffed0 0x57fd5fcf49a3f4fc12ff0fa5a291d15c62d069ea7473dc437c9b80f951062b66 (-0x5e9176e2e288d36bb05e612e6a576dcc8a82025e99ba81897c76db059d93dc37);
  SDbl 0x47cc1118e9b64110f43ee2e3c728bfd44e9b73f4dcd60ce762ff54083b859f4c 0x928f0a35a12fd1a9990d92e679536a1bfcf66d46f68702be1512047645a9f7be 0x937b67a4b944cb83a2569788377cd6956a9788c80d2ac4bb6613a359140ccc67 (-0x1d6f4202cf1734534435a21a01dedc5eecb23c494abfe8ffdb9abd98352f424e7) 0x1422d427269eb82d1d4c9610a7f6c427838fc32b4d872f26de99f235094402ba 0x108d451ff92b77d669a2990612d684e5a7c080f0ede0eb6a8ff83b60ddbb1995;
  SDbl 0xae0e09f3a44cb560567405aa1bdd06132b9c4235136e83d1ff953ed5a807c33e 0xaa0f556a9ff436b878b3f0448d049e19c5e7bc6707317e07b6b8edd1127c34f 0xe180ef35edb06a5366e8e246b7c55a3f6a3b635c87e406cbd4fdb2d5d47fb618 (-0x332a78da46f46913163713d627e68091863e6dbe99ff8ca40d6e9569356558db) 0x7657164cc0b85eae449b056a0a389765888d56563309ce340d9c7a1ffa302fc7 0x5c6b467dc996b2849d76fc037e434137ce03dff95a331ee328e3c3c1bc0a429d;
  SAdd false 0x15000faeb22195b5b91e561fb2eb4db4e7d50321f5ba420e07ed5604ea90dae4 0xf66b303596228cfafedd69cf19a611038bc94692d600f764597fb1e39157669a 0x6379b6ce4b512c18dc866a5e28f04c962800c5190c44ad75a18a82f41c7fcaf8 0x34af09f01f05538ede967d4cac4bc2299123083d71331484fa7ff27def81a67 0x1b90292abe875390d6cf6ac19f14f8d76f1fb0bc82193f705985d0a0a2283a0 (-0x1357a5461daf298e1f71bce288fbcc4cc039a5944482d526b9d8aa08eb553224);
  SDbl 0x2909d96d8b11d46de436c8fca50b52628c2cb4fc691999c4b49f64615d5f35a1 0x478f59b4fef8214f494da1a9587302f041d1d0106c677ebd7bcf76c7de098f80 0x7314fdbf9ada66bdeb396577fef49728382efa301d2a41686e9bc86146246412 (-0x2a7b1e48536ab4b993402ea3e1c18c4566dd015c501781d0ff73a3f918976be07) 0x69428061f7e89f6352fb297b7e66368bccd3b482f7514c7e2b61e2d2dfe4d73 0x1c07ef986a2deb62335bd46a6e2fe47d211ee537522633cfeefee8e93c8185b0;
  SDbl 0xd971b57aaaa3306cc334dd4151f1af1804e58f658cf207a8ac784e125b4c7a4c 0x5d7c92e60f76004d85f1aea6d73dffbc826d2d87f43b07997b63b0585b4e4ef2 0xcd976b0f3a7710806163963cbaff3bcc5c3b443e84f9d51c047c6288f692d7f3 0x877d55ca203232d8b44b9f1c302f64a7d8cea664500ff98d2a1ecad3aaa42d4d 0xb8b1f82c64ebf4675fa10035666415202c4886d9b66ab3ba19eba56d37d4e762 (-0x129fd2bc235d4087b859bdb4f74c5a49f866fd60407fbe0c7f71100373cb9a23);
  SDbl 0xefc2aa11c0401aa36939eee3b1a4579f9f0801fc4b014c644548d1d06127714b 0x27d3bf2a5aad1ee4bbf245c83ea649561f5de3c49e191897089a1b5c3d03f953 0x5617e279dc25d02974c78a4d80995f6f7c3898006b49fad6d20b950c0290150e 0x11aae26820ad1cfc742aa7b8a0f8cb82e03996f4d33816e226000a02ab0b807e7 0xe08d0d943967b509f3d2265c87e57e3528d37b2fc0fb96ed6b3e023e66a34b3e 0x32416b42b964ba09e2fbee4176f348fa5cd99c51dfbb6a27c4cee064ff57a86c;
  SAdd false 0x2e2465dd186559913037128902716d1c62214381d13406538d40048f850547d8 0x243bafb705636f5969044f99e73e19ecd14092d3fd3390ef4b03e903a29afe4a 0x63b9cc6e13e020f194d71a72285a430853568dc782c9280cafe6c1a0b4c0d9a1 0x1f8d92e70d8e46177b296b11511da47d00f81680df9172ad8ffec77478ca471 0x85119c84bcc96acc3f24e76f00282dbce1d00928d1ac515ddb4c9d6c051e624 0xa5d596fee6966839f0356e737d38094c3f9e93f5528371437d5c97bcf0a017;
  SDbl 0xcf037750b3275eea8fc0371cc0c4933cacffd18dae91235bd73a3bcee849c02e 0xa746bd28d0780fe3668f6a0864be1b62aac7ebd00167e31d86977012c49f624d 0x48c4ed59fb5dc4a0a7fdafa427f7a264bf62a0c25889a10201c52d75ee78b79c 0x91e6a5e92aeda01177594531ec01beffea3235af3811b6871e55d9cb974b124d 0xa7669b012ca0996bcad24a16344b941c482793923e25fe601bbb027f7f54569d (-0x69f7b61407ebbfc3489482bbb6c6125208558ad9e7d0c6a32a1e9960b81f3639);
  SDbl 0x9c26c249852be411c0eb6d80960de402a2715d498699f1fd2a5306277a3b8551 0x5f379ab2efa8743c4f9d78783f7092963f6729345fb0042e8f3de6c8ba539bf0 0x86a4af4f01089fa35f5f04f11033f32de1cad27d69548468cd183b1e73fa6517 (-0xef2210d6448baac3e953d601fde6f4b27639187ed743f329195e9cd82ce52740) 0x5f3f42a83ad3cc9951319cf83e157d7ab728533df5fa39105327935856cf1ce9 0x2bf421ef485c633925e5bfb932c5a0c0fa0ab67a5723cdf82fe49ea3b8fc0846;
  SDbl 0xed72d8e742df87d6274a32d57671d5a5e9bcd1f18dda81c63c3fb2642960ea96 0x23dbba42bdf8f35ccdedf521db15f0b7101c8ecc853074c381da02e5fa075ecd 0x4c4dc06664800f3dce98b298ec0967eb18ff926563bc601223339d83a6bc1c65 0x8f86c8c038761857d6d5e4aad73f368e67d63e86f6733d65ee8268dadc590009 0xdc3dd922f3ce5b7d696147b265ebc5d65317f7de30f93b7cb9e1c3729b3806c9 0x370eaffd2bcbfe00ee4c9c7be268eb44e02ee589100de217a3bb83f23608b0fa;
  SAdd false 0xc1c82bd7d9c0871e3efd24037dc160a44b91cdc71be6bc391d2abfb6c8f199ff 0x331029ec8faf85127f79311008ae19efda073ac1113c2194744045158744ce92 0x92a3c51ddcdeaf2e8ca674bacc4fa071c5a3907eccee58edbf6c0ce30d68aaea 0xb49486f3f226e608c6129ca3e0bbc53bf2a890d458c099d316938d5e1bca4f4 0x92af6ea091ca305574055ffe0fdba8bebb09494dc79e6e4b40bcb04ef5d7d625 (-0xb826bc0f0031616b0841165c85f902e62751eda891c19b22f76959bc3672676);
  SDbl 0x371b993b0200b2657bc2ab6672a39674e1acb44489b054eccb11cafb404674d9 0xaedf95f4ecc2beea5d542e1231fa09a52ec8bf7306fe96e7c3abeb292308a4d8 0x88f82bfd0999aa305a887ed24bf3422c8a3c94b7e9877d264e8c18cab1ec8969 0x2093a79d541f46565b069eb29a2bb7e23a8013120d405bab2f92fe4f12701115 0xbdcded114e32d9d130c79d30ec6bc3e993a851b05d22551b6a791fd9590e20b (-0x1aa6e931ccdeb65396d5e6948276af7a83e2d2d250f5561e8b7d515e636e7257);
  SDbl 0x26a9beb0abe7c67242d26e471c2b07d6932fb4ce124183572ed18b3297f1356f 0x9cff516397144cd1a75be5d7275b6e779b5578d5c2266c04a811084938ef3be 0x3fbb42fd7f249a20cffc51b41fd80cd7cd9e405fd1233a6f7520d2fa5c249956 (-0x13cfec8993abf8e3f84e79f4550ef5b750a04473dd2e8902f340afa417ac64051) 0x5d6d529cc2d55309791f503ec29c531af5f443f07b3fe5e0a2d0d2c417b174d 0x18edc425dd8b00c440a1a8496f8c78d10f374a3233f4bc7f1a207e9c9728f679;
  SDbl 0xf692577682f41ed9bc6a67256afd4c52e9cdfbc4885d55008b2893c8873feab 0xd07c7572bbc59aa0c6931033f1ac350ee2773f4f08f473e4a1193670ff9d4cee 0xc5766ed17697fd094f3b6427308ee433636ee9288471b424d76b09e3d5c6447e 0x68b73a0c6de0e7a90a28a9228f321d8bb6bf479bf595436710f85a1ac1f4225 0xed7d93c09239e15d21b28fe0ac54e9a266db7a66be1d20faa17e2dabc16e31 (-0xbf5b559b721e5ca70c1d24785155d79804ea6b06ad7a3d7bf1e79ebd371ef1c);
  SDbl 0x9bc0c629b0665d30eced62cca2622c33e863ce77813169fba8e2ca12288a872f 0xfafb33c83a11cad7dec92b5a8a06d9c037f49260f527d45aad544fda1cdea4b6 0x4336ccdd5e4ead058639c24047c86d2d798537a1e065e2927d202cc5676d111e (-0x10d18a48af449b05b8a5894745e55e8a159807d742ecafab9e5316d840dc3827b) 0x5ec30120b24c132e0d155e22d039ce2a21be5c03efcdaca2394df8eb660aa3f1 (-0x19dabd31903c53ba03d745e96d7d94bcf8f6a6f617752b24c68cb99c5cb314ac);
  SDbl 0x7a326ca5fac048ddb36a7e4eda17b229ebf77860ff03b05ead796331e36ab1bd 0xe051f523c8b585ed718b6988ea2e8adb31eecdef4811baa66685958b8f66d5b2 0xb663a5de39150f529f23b6bca60d9c6242c9724e75546002d91b06fe4e0fa69f (-0x2a204112f2c0f68733ef0b613d3e04f922e40fbd531b3ee4c130af9c338a9ae23) 0x3a54197d0c45c93c40d67b2245122f37961f370861776771ec2d9938ef393995 0xcb9e839567e1298c4540a95d90570108a7e49ea91be7ec75ef25c052a3f1dc9;
  SAdd false 0x4045f465775ac9e88617e60da1c21e75001d6233cfcfd3a6122ae1a9ba51307b 0x3b01dd8ae7dacdddce7c76b6b6e35ffa8e14db2c0282c9cae69ecf7b65c22f38 0x91240fe0c610cf47efcff28b7a6170e78067c64e4f559763b728b66c33a1fa04 (-0x2b92be81a805bcac3b65479aee29a0802d8bdabe3f17472080598295d415f657) 0x10230d5073d45cf20464b1daf96bed48d88f5b5b797bb5e74c1e5df7b5711e98 0x2981324e9a165c69b2c31061a8c2257c74ac63cb4d94d6f455d99d404fc4c405;
  SDbl 0x9d3f13120408ac8980abffff76075c1c5ee35b61e1e6f05e64adf84bb528f9e8 0x5bfa6904fea8262b17fecc1d85460109eae603c8aaf24aabad1d72cf8f8e919d 0x2f34ba0f25114f15cb0109590d5ac2c6f636f5af67eb582b73369d0c0b60cd42 0x89802c75500977871015ec0cbfbe03a467766402a35c16085965a80ae58fe57d 0x60966ceeddd2bab24c37f978cbcf7d06b3498e03865d83ac6c642be53e9dcdcd (-0x14408d290ba0f74afc2ff2d0b7015627bb6bd7fd34989dcf8ed816824b47d032);
  SDbl 0x3717e5ca441d46f79c8951eb2ff89a147fbbcb920ef55c8df87314d18fe3169 0x8f606215aecba30f542fd2fa1b8f43e58eb2acacf51ccd3c163a8b42a22e3ec6 0x6e0ae225b19ed56c725ab46b5a78b9208fec5de6d7954a41c3165ddea5290b5a (-0x61dedb4e35a74eee12b87e55500bcc7c1854968216d5fa4fc869369849f5f54c) 0xbdb46f80dbb966524c7462253d985b954ac479002a87c0b72e00dfb6604ef (-0xb0fb4ced556938410183094c9915aa9980d949e6393f62dd5f965375254893);
  SDbl 0x33af1bcb102504d935d95796e08d2cdddc8244f69d79f2e269f81f099668eaea 0x2773a99cf4868e8c217e4d22d997b169551b0013c00728f635f79cf1d7ffdd3f 0x9a362f731d720fd3cd8a76db8c62158b20dc1326c76c361009c76d7c7452607e (-0xc47794b97eaf47628e79d87df4475be46cc064f0781ca780ed85ae400543c51f) 0xa6f3cd9f58285df8caee5b83735210329f5f0f8d29e8468f46864b92eabbce7 0x14fb3edaa3572d40df8f08925e31e585605f3fdc990643a3e75805f82d18e072;
  SDbl 0xb06ab17e8bf6f3e92c024195e2717441c272a648deada2b4ec5c14b72d48bb33 0x3abd3de91640f176d185df87ec6591f6af4f3497cd7cdc0e3cb09775852825b4 0x5e445898cba54b1e7cf7165e92aec2b17882b50ae2a70b386547a5454ecb0c03 0xc24db626c8034db7c38acb3c5afa916d2bd6f9883281a2fa55e5dffbb97cfa4c 0x7992e085f1e294821c64c409d719a2008f82c8c9ec29eeb9f0b98ff571945409 (-0xd4a9fcb344bea5e3b24a07e876e66d04658c0791cbf11f3ad1f1dd25f06ad30);
  SAdd true 0xd50e6f8c65e67f9377466ba0e77ddf97b40faaf9fc053bedab1b350da2664eb7 0x3ed49a633ce3b827e9a4d67089a26600db8c19f9395a5bed548986a8466a4d33 0x26332371fa2a035b986cdef7671fac3aa1fbfc85f0cfb69ba7a6a615a15ab1ea (-0x6a242a942095fd0024245b5db3bc0077066aadca6ad3404ef0030f9412f6bf8) 0xb1510670b6d8c94f8ec21f0a7499b05e216aa52ee264772eabf8fa8e90d6e0dd (-0x367ab0113bba74a38d7ccc39b5be894d55c5ffee7605964dfaa16ada6ed544a);
  SDbl 0x2b154139ee8b09a0c13b0a49eb654dd91c2fadc8d6b8da71a19644529665bbbe 0x1d083d62442d494d02c067dcad9c989c179b0dfa2b86e2ada9babcb89fd1bcf3 0x3bcec560fa1ff7c0fb7b7b0cae787e2da3e391f20881cd2f4aec66c4842c89fa (-0x21677c452d982c68884a2aa85fc3dd4059c9b53d9ba2b99d761ef5e8e0a4cae0) 0x74025ad418275f789e0bc3c72d1d13d4ce37f46de674b3996e133e0d70b3655 0x5b021ff5a277ba5b8ebbb5d821806c8eeb308776e05cfe05fbdcb14a5ad6c64;
  SDbl 0x843fcc3356c322872bc248d667b3984994fe2e46c38bce0cd37b6c52055b5f28 0x76b42b342f27c7b80b7f8d70561307c8cebdd1ec5db60993676df40a465b772b 0x49698ee1a21c9644eb7c834177643e714491e7d115c0d600951a1b842d73624b 0x33ea70366a2a5186453c64265d0174a1ce004a82cc577bf6337f2cdb86a4c1d8 0x4451da7b59f1a6b46bc86afae3bac70913e772269453aa89d38405872c303ad1 (-0x2e52ff76ef4cc04f83354df35544cec82d059acb7776ce04a495629fe2d832fb);
  SDbl 0x2247f65310953097ced4a6be31e7dd7f2297871d85c7fd5f5681225d86bf2c14 0x15bf7fe837bcebdb7a7f3a2fb3745f589abf24ab8afa6fe6d935645df24f32b2 0xb3232b29bb066aec31651158619b94c1c110e71f941b768ab4a93b01fe71ff17 (-0x9176741b8b208f77df6cba8c7bbedb59203f8c8fd71a422ecd176837979a2010) 0x49731a8a415c424666f3b58cb54c800ab3636895c7c4b6fd6614502c1973f78 0xcfbbfe6381fe4a235ebc55f9ad06c54733295d02e839b4abe8f6baa12e43bee;
  SAdd true 0xdf005e485ac03185ded5eb82e090333f6ad630394850e71cfdd943301baedda9 0x2e8db066695c090cc17c034f35ac704a629c0c24ab70dd26f9c7fee9f7d68bbd 0x484846b7ac1295b799b586885719c770fd1b9ade381bf0a40538a054c378747d 0x19478dfd5a8cc1cf1307c4f95904aeeef7e2c02910a24e642fa5362f784530ac 0xc241a442f315b1a27df43fff65893f989306914142ca0f80853db93d65c8f9a5 (-0x159ba560bb6c560235d0e037a25eaedad8033a3411fa0bf29728a20111634529);
  SDbl 0x3bbcb5b6320398eb0d64c1cfc387dc88501f5db9fe4a5cdc8fc4dd9b0cbdf106 0x3d1debec9aabd4157e64937b45147e1107c17185158da9500250c2aca08b15ed 0x6a2994efce597f802a51e3fac992dd7b23587022d153974d54e21b4fe4ef070a 0x85633ebddbfb4f59df5e0035f7d9c011a97a1ceb1b2c266f4697654393d8cbc 0xdf086dd6d92c9069c1a1d4950caee2f220afae0ae37ea8acfe82bb63a6fe143 (-0x365f9f9fec826a680b989e29e3fe4deecc6fda39711d8186e6c4e2527d61759);
  SDbl 0x1c845f684432969e262bb1461bed74692b7743e65124560e49566839c1e36b05 0x1d2654ba6a41256cca1d5241ee9c94f0019e34065310ca6de0b1ca4d3d190a13 0x64180034b5a4905bf1caede19cfbee525d04e4fd0046d3f44f300a13f14bd42c (-0x141eef32dd030aabaf9fe2ce5fa99895b3a3e67396bd763ad29f11231d386a2c) 0x32d3951592d2b844bacc23115d367e5e6b5ff6814c021f072e4e607fc9407d4 0x38f9c1d5cf15fe8d0a268f6802b7268e68b977ffa508846c528105c5dbe81f4;
  SAdd false 0xf6f512d6deb50eb1b36404f4847844ed4c14583f565b9643bab2cac5ddfdfd01 0x96ae8b770254b0990d32e5d3650f2927a64d975808a3da47dd383dd9d8f81de4 0xc42c114b7e75e1cc1c12c06f63d6738042cb8b4a585d8a8eeae3f5ac420d8e5c 0x14dadc1639ec36c5b3c99ec9f36aa6949b449cf9baf4db310cc62d084eeeec7f 0xee3bead2f2e915492652c01c881b2d367d5d096b4af314b0a932d3548158a2bd (-0x753d3ce7a74ea770efcf65a9ff6cc00abb42a991cb6283b1bb0ecd40b7a4fca7);
  SDbl 0xcd4c3562dab73a762d9f60e1861ed57c42c415b042f2c27908ada0b53b47d128 0xda32a95a32fadb5acf06a81bb89468513c76d281bca81598ac75d3cc46136323 0x7f53d081064b9c12720acb1fd060e2b1c5ac2a47c080107f36260bdd3b222ce4 0x3090585b148ffe6665ff572c1d6d4b4135f91259c550026ec7b9ab6de201a46d 0xa4a32430b4c08958bd572538483225ba6ab7eb4fc6d31479901c5e61d8f148ab (-0x3624e53c6ffeb5293eba16b4089098ef3dbde676dc00e86dcd67c471798c03e8);
  SDbl 0x92fc7b91cdafda741199785c162d25c547e95c8a04e336acdf0ffc21a8c665b9 0x60e50e22a6cc70680186a23e8008337612cf0b8179a6b3b37f8cd99c6ab69cb5 0xfca9b155a0251aaef0230d62e684d45bcd411745e42b11ec74521211511e785a (-0x19bb8359d00e256b55074a58139bac2090ce7699f14043333e99b94941abe8530) 0x5464f5f625b3ec0a40adbc87f211774f349fdc4ec356506b141b103ea445e34a 0x45a5e5781e456fd43e107b1824b7ae58c9255a163a3ca52955b207a5c2d7d9c0;
  SAdd false 0xd5ad2b0dc988c30529116f251e82836011fdedbd582ecacf5a46fca5f43519d 0x3896e737b546309aad6244bd68198a8a264df36ca59313a9b2dcdf3682d6d920 0x2f26e84355635769c211d4dfd4a01648223e555e5b714a07b14c0476af89171d (-0x2680237b0b15108244e02063f8da336afbb1690b634985ec32ec73f1a519e05) 0xb2599ec8db9738990ef752bcf78d5f7ee8aab3cd71d98bb6260451c8a73053 0x21a449f9359a8a0f76fd15e47950e7e1412ba32db077ab3b4ed9ff4848b7816;
  SDbl 0x71e41617f80e4a0bbbcb1a0978c84c20726a0c8f87a231cefb566db728a0de93 0x44bc5454c11d82b8575ae3564ec94c4bd29d77bd334eb8c65b8f3c7ea7b35ee5 0x64ce0cef1f663f4e9558dd041456e9752068c3a6bd85e0966287b721b6b3d154 0x46d442841c2da3e57e2ec929a58f41d30208b7b85c5f9b51eedce315d2ef4af 0x32ab26b8b841be6bf0988fd43f9dac0aeacfb2be7eabf213da8aec1cc41dc8bc (-0x567578b60022a73a6f983c50006b1fb6db7a2d2ea84f5fd783c2475d0017170);
  SDbl 0x2b5b55c42f1107d9a110b30ac79a839f770f3108994df7125e03a578666e8494 0x12265ebd0b6799c4cd37baf3254c3d55934f0d22542a45d368e1f885d4aac1b1 0x2e83952e90bd6ed573dfcb58873d505558607080ac0deda86f6305e296a6430d (-0x15389faa36116b246d39ca75c6dc1d92118d64dc1092f170927e88c1abb7be98) 0x757cf66055cdbbe2022c5fab59b0ce135239dbaaf9807dcad091d67003889eb 0x8913c815facaf61e0294f9c40973239188579dbe8c40e4f6cbad3a396f86251;
  SDbl 0x61208676740cf8a38a9a911722583dc4c6ec572a0fb0bb6755f49dd8b369d8ea 0xa6b779b49dacb53ca424d41d2410ef4e921cd397cff55712c98d57d8d66ade1c 0x7e64d91573fc22b05561f502a9c60ab796d2c1c435c0b51c13498ec0f4ca6e61 0x1f6f4796f60d4434fb53b853673400104ce7804bde9626e0586c0f4bc51e915c 0x24d9aa07cd08b9fea9d0b07084707596f4ac046236ea56b7a4d708e99c00ab9a (-0x385ddb6418159f6e7491d063a6733ceeb5e8221e9a294fdb7c799b104a180cc4);
  SAdd true 0x5df1e5e05e0ba10e9ff69841cf90b84546141c681d459301f4894952c3e10090 0x439e16d6d47848005d71af6caff7dd5ca03a5af8c33b018175b0399aac7d807f 0x7327934c69a5418a7a22573c093e13425a0d007f874eac6fc8faea1554d8850d (-0x2a8cc3a02b2301eaadc172706779756d4c9be9313effe12f642d8cdfbfc03df1) 0x2279a597c5aa576728773ee6bb2da0d3a1fa62a3ada8a75a3220ce1f59148262 0x245ddccd594f0ca05839325b33c97d3687fadb14ae16cbcde6920ca6d6214b1e;
  SDbl 0x3e3a0c38c03d24035e9ab2432dbdf95cad1e750ec5d9ea8bebfab262f03b5bf0 0x154a9c4c8684783858b59319f473579b4cd98062f5124e4e2995938683b195ee 0x3146e28a88ac6dfbfcc63bb4b6c2d6ae759220f3890c9db4a2e101a0314be72b 0x266ff8894f852d316252da0e9350308ebfb720c8910a4cf0133016d750106a0 0xf202b15168a42d5705fe63de1f1028e2ba1cb3daa8fe593897a88d65b0815ec 0xb42b8cd7c446495c28dd1067da0f3104417ed6769a5fb29d92fdde5cb2bf948;
  SDbl 0xd9d5cb16349ed05d6a21ad9b84a803079cd7d34e6228964a8d85434ff3a58f6e 0x7f0fc6ed0766b67bbcf0669a2c1997c9354c8a4e84853e5b9c18e692fdbbb411 0xa850b090e4028d42dfcef2b3d92c8258d3e824cd8bb0e31480690b1232d5d04 0x4e8c80093f4a445c77456b65196d0d80303e69fd8888dc8c3cdf5b63f3d608d5 0xb95c24d7f2a12bbe0091bda603646c21b414aaf16c4a5781c9d23a5efcf6cca9 (-0x5a0076176448138a817b1323a2e1fb0b65ad10eb2f2659e5e8330d38eec93bc7);
  SDbl 0xbeb0a9202ac21891274468a9a7523718db73e70c4145dbfa01a7241ba20cae38 0x42b9fa519433ef3b4614401896faefcb3fd2f6d6da6f577c62e769d809320e4d 0x58c971db9684e2d994b7e487c571781700ae9cc918a664d51969bffb895a2d6e (-0xad85f7d209a9aea75533d37ca8ccfe2c4b787b7f760ea36148a61d585a306660) 0x8e0ab4f5497918cd8372af94439e736dee05b22256e1ba8bb7c8aa0e58d94a2f 0x2cf150b47030385b005814754ae0b5de36ba81a77fd83ab007a3588bd2900f92;
  SAdd true 0xa657472a56e78412316c5c84915d88d6f91f98bf9e8f3756ceb03f0104f3cd2e 0xc5b8c8e2d310e5fceed7487be2383bdbe1b52ad9f6de0d342b198d7a9483dba8 0xb77379b200acb8c6706550c9b17c1c6076381095e41dfa774f9358fb64e79be8 (-0xa5e802ce0d02759bd65c831af70e46dcd2ff4b1916298254020b2c64abc58ba) 0x6c154e0cc75921e530890d062835d02c4f19d30b8eb2ce40cf1e77e7373baa78 (-0x551de2f50ccdc537f6a25fcc6703521267e7931d6636268d04949e0d2e387150);
  SDbl 0x9875a250bc36b485efa7bfb36fd2c2c14442b4c55ffe7fecc9c994ba14d2705d 0xfaf5b77dffe1fd6b070e9099ffacc36e2a94fec27adc5e4a7a1d3f66bfa65b6d 0x4306c455b881ff7e391355472d8690a4b6bc56a804c184ef73923b41cf73f2f6 (-0xefa006f9ebccca7421a2c3f302b0445c6c042e0105b3cfc5226bb65ba217abd3) 0x5acbe6cdff032ed977122daf3d23b0b29b3e860afa0ac1f2beddfcacd6c890f4 (-0x1fb4a446a86928390a2ee2dad368b9a927f030db04e7bd043bf5a8add49bd691);
  SDbl 0x20908f699592a4228de5cc80b4ecdafa5f70c8fd4b833d3e8e7fb0d997044a63 0x5b75e3b4df8724340bf2ac782bc11352b3693bd19f6f213eeb1cb04b1d5a15 0x2ca47f0791b23e648678ff1ee65429a3f48ded3093a72e2b0c13c0f317021d3d (-0x2d1011ee8209d32374a49554f24cf01863f75419cb7c3f7d937a8cdf53fcc1d0c) 0x424757c10a88423380edfb870e2d145ec79fb07b49b23094c474fd497b4aea6 0x1fe0cb5bd660b88b39be7fc68ebcc7b597e063e55ed0f0277fec8c6f4db71b2b;
  SAdd true 0x8594708f745bc0a0b9950749c495d6f61f17c61de826d3491de89b879030d95b 0xb376c357a191ea9e5352f9fec05a3aab39560450acb2f8cd248848cd41370e77 0x4c28f5a21db0f0072b0bfb81529c4a57661a0c096cbbefca901ff51dda20c6d6 0x1a4de53c8bab4b60832b8d3b062e4943a05017825705fbded3112e507278741d 0x45b39307abf74978e293d4c1dc65fda0f52032db61a418b6b5ed3d3424f576fa (-0x5d7509c6adfe1a77e27766a90c101a6bff6627ef70c2be281016ff10d772eb17);
  SDbl 0xf696978ffab9a49bacd4660c60f77801360fcc3cc85ec7250e906805b4d4d8b5 0xa831f2cba04f2b261a6f005a37fdf45579b70e9106724ef851e5e3d06539e5f4 0x7fb604c6ce66d100016d2304d3cb24d9b0b62f97c7106199b75b2a6060196a9a (-0xe6b5928f2051772308137232da96750de4aaed001a34539bfa80ab3f127898ac) 0xed85c3df99d78888c192ed7d28833cbeedc7778b2872eef48336eca2bc6e12e9 0xadac164b3961513dc32fda6841ee54950b70f05b75d1aa9d1492e686d9204d1;
  SDbl 0x9452ed3650fa3dda921aa38c8dcfa44a5df6db3f0339c53fc87671fe11b2ce79 0x816ab67faa8c542f96f53f9b00dcbcad50b4a82a37b587978a828d962cd89ab3 0x2ff0db4bff2d463f9c3823ca34b230c867d3f274ec19476c7af8e37ce11be327 (-0xb7879670e2f998a6a807daf254c9a838c8717b1ab989658b685447bc3a1b4be7) 0x55effd23f62ad26de8d55e99a20f71f049fcbf746ecfc229cc708ecb1e81716a 0x1677be9bfdfe509dc9365fdac81fc3078979d3f6859af3c8d80d6dd6ac786e08;
  SAdd false 0xb40acea0439a1b6ec716e49ac756f82ea97367690cd07d501c71eaee66805d79 0x9de54009c8fee0aaa9386ffebfa4f995fa347f43564f956bdf0464919041fb26 0x43487425535e6fccc5e98e66c54c68be8fdbcb7df03001fbcc32307c6aad0f46 (-0x37500fd21fdd79a3f66bb84a7b9940f77b3d84fa159b0fec1d95bb0127512b3c) 0x7e9f3306a8fb82c52c3ddc0b659ca74420f68fcd5d1337897375abdae945e76f (-0x14075c7aff9d69515c42f6b14901f8085151b07cac646498102b820f63deb038);
  SDbl 0x28c3b0b6d37822f0c455a7c82fb62c68edf20c6404638b4e3f283397550774ee 0x23401b0a7f7c63fe6e89b5d6bf023711d59ce26ce073c69e9b43003cb700ec0d 0xe5d88e6068865496eb17edb4079b766788b2baf08590a26c0f3323bfc7882112 (-0x10ebb77f7a01d3b0012d1b98942850e7c595c8ed5e7e5286c74ba1c69c265393f) 0x67dbccfd9155616dec73349a348bc692ba85cfe4f07ae4b474b10be31185515 0x13878e3c45a06bc9278489501055ebce50c6e3c8b44fea8bb3652d5f0632d31a;
  SDbl 0xf7c7ec55e422fcb4d17ab16637e3657951d06f4270fce7eb83b7ac08c90bb1f9 0x74d1b90ce9544d51d1e157bad8d49d5972bec42759c52a8068e9d2d509177267 0x58e63e8a63f0b1bbe9d8302e85ae60f4ca8b9e8fd2d8e866f485c81f1e5cdace 0x1ae5f1b775f08c69bba0eab0b6ba43450079762e3cf214fe32cc4fefccee0b0f4 0xefd3662ff5c611ab8f9609f61d86acf05c05527ce9d86b9571acbdbcadf90650 (-0x4ef332f412a752e02e5f3fc09d9ed1b3fb9fb063bd87cf0b2d1b0bf33f701c96);
  SAdd false 0x1e6b811704eda555dc65306e2ea9f0c453165c9495b753d8730ec98a182cf939 0x656560660eeaebd9489345633497d6e25765374b3d00e094ff948323313dbad9 0x15b7dfb3f1e1e13dcc14348397f355f15e0bca353a98beeb147e95700c17e32e (-0x7d944086e6d738b58136fceea9b6d168dd283ceed54fa93739ca3449d33b2cf) 0x39d5f66931b65d84bf5e11a6aa37e31003f4a554e1b12d3af7bf16c1f69b356 0x1d52c7398dedd9edf32ee865d65b6d978dfb4e9d892c22a1b74b0d67b09c15e;
  SDbl 0x1777d9a5ac38ac790fc23d7528dfac9f0ac3458846e5e99695b4d11969e2612e 0xfe9fc4111ba78547d249ea349ac649eb3a50a764a3fe6abec1de59dbe9cbb3b1 0x46ce40bc136926a8c2d7e871c32f01e6f882ed5dffa449f69603543933cab8a4 (-0x7480128f860e01c7e11525b3f5118bc371126ff27b45d5255d5571b45a985cb8) 0x226c137d82956157adaa8c9de0980100c290d6f79e6e63e0fa7cd3ed62b451f (-0xe0bfb5e68e73ad6283e7625526580fedb240b1bdb39c52d8132b5b984a0d55e);
  SDbl 0x71d450bab9343cace39facb2983d1c56099e8c8ff6d33a9bbbf2a5e2b0bf25f1 0x8726c00ee7d5cb025c128d160b31c3caec8bc9375e5142caad2beaa547116790 0xa3e4df16d71c7990a4d8277c5f65e65dde6b9f4faae61d82e17c75020bcd836e (-0x2b8ccbeee886c167afd8f0340d144316a15c915bdaa47ac1b234bb68f21420ba8) 0x329d1f5ad8d5376243f1f2271bb55cfb33b4b9b2277ec91e6cd593f4176b4211 0x351f80a9756e6c270518eca9eb6ad71244215251900b514dda1439cfa496cc01;
  SDbl 0xa3060e55ceabc3b3f08ef066d6478097953628f81aff2d378434c8693a75b033 0x1db0b91cef4774ef9566838868792335f08b87422b8817cf61d5f99212174cec 0x2937154846023f9139f7d6936f5d872d2c7f89adf62f928d7937dd206c2cdca2 (-0x550781b7a613a80a1cc136cfe9df6ec5c135971d9d06123b6bacfece2160ad7) 0x67d0b66659d2a10858e873e092f579847609ec8078753740aa420b14fc55f1e3 0x4328a5184bcc5f37f642714e46616775d10c289ad0d79ea9a25b2947a2e25164;
  SDbl 0x5d20349c39618d80d7bfdcad5e09aeb838ce8331b7f2a2df5fc231e18119997e 0xb901ada250add145dae69aa9a3712ebcb49c0dd44aa3cc15f99cfaa374e2b576 0xb567ae3c83001684e3d877b18cea89b0ccc2a5da5e04940b1d36f0367cce7227 0x13a7d85dc34a20df338565883251540d85dbf53bf8491caf851fbd45d5081935 0x21e06a46d56f7a1f6fa433495eb83e51aedd536d3fbbcab29974130b466d754a (-0x387ff2de775e9e3d99cf71ab6a8d6995183025f3c63f94edb622d73a25f2c34b);
  SDbl 0x1c8231d5b4c5be61498bcb764238c719bb5b37ba2518c57443fa907f7bda9f37 0x35204bf6746c956b38554048db4ba172553b8406f4cb5892ed8e142d308967cc 0xed0659b4ec44264155e0306bcb8bef52b3c9a3dfc625e1d4f9a52583934387fb (-0x168b314dce416c1f11548ee61d3ba24ffb1a563e7cb8b47e213439dfc78054799) 0x32cbd1d697719320ff31831d7caf2f761d2de0080d374a60d68612fb39d74e7 0xeafb8ceaf6534d221d48376095f1420efa5cc121bd58abcb0f6da2b18e1b49c;
  SDbl 0x9a1dd714dd22ceff394241f93113bf662ffdd71c1dee5b541f397569f2b00200 0x9d7c076e10ba58255122e143e1bbd4b1fe34bd7c9da2b4e1301bf332608563ed 0x30ac2f092083c1ee9046eef77e087b8cb9c2036d427ef4745c5929871ef1755c 0xfc4fbb10e7a3620a99c44059f5ecb33c5ae26ac46799f61d84bb5909b40973ad 0x5cc7ea3fe643f251a120cae2ebd3e51d9733e5aa441193014af13ac201943385 (-0x3ed358d7fb284fcf8529a1f3047bb6436dc3e18fc3fbeef85867f677cd22c0a9);
  SAdd false 0xa55af67cc07695f5c915c8dbc48847bc056913c03c7495e76cca913f45de067b 0xfc911a2464018a29feb7ec1fd06825bff1b3b5e7e50c284ca769dcfa5df3374e 0x1e8de05f0b52f07fb717f7a81c88fdf4d02e3361dcd319e235f71ab9d03a7346 (-0x44ee17bd57a940fd02f483cc6f9c9c770aab6fdf273cd8f7dfbf04e58f419abb) 0x6ace620f77f2916ea9c1c61b1eceaa6eeab9dc3edc72c55b4d141f1e664710e9 (-0x3d6a5e04eadca612312de7d98a88cb36e605c124de8e764b5bbe63a246fd41c3);
  SDbl 0x758810551f5ed01e9c8b1c42f3a2a1b2ee2329dc93e4c0694c6f142721e3ef1d 0x3e530a3ed3f04f0c2413d8d88a1eac7a79214f2afc23f9999a4b620c5eb14e2c 0x6fcfe96def2a5cd410dd54332d6e8e2dd3b2ebfa776b0aa32aaf6b5ce84e676 (-0x2cf7bcf6a4abd4a71d69f54f7dd09114058da650a48720875a5f954d0a88afe93) 0x35f5a73f601e66722e8e037fa9e3140f3a4f8c80d51c5afe60ad2a93b3d2937f 0x57577a5fd70d7d259c83b0878be77f9e93f4ee2352064a179179f07e107b32e2;
  SDbl 0xc8438f64a85d1d7009a2d4329f3df75cd788118d68df6c5bf723676e1094b79a 0x9bdd0364d7033ed74654fa38f9965ca9ba0d996e0df0dc191a049b3c33d1aa40 0x290f229b82e20963a08e6e97099ca74365d5e3dcf77647ed9ef429759c82c6bf (-0x2295fda53b69f553cfde252ceb8887cf3a46851be613ff7efe860adf2fad734b) 0x9ca9a1e242bcdc4ab8ccd5e1c7d2a24de6a60ed2d0ddd22501e0bda4e376bdf4 (-0x492c7a270a1c33654c5062d3cd112a6f3180dd65efcc81d5686a6ea5c21ea2c3);
  SDbl 0xbb241d6b9eaf51721eb867420e27a45bde9e76bea25ca05966dd924abf180ac6 0x32fe7bb441aa01c085f722fc815fd0dc30d410798c8c5b1fe0c2bda43f56f146 0xd542de27f99e8158910eccd101bc6526ef9c937c02b50bba55199a6ff075f6a0 (-0xe0a87080e9de5d68792598a17ed5bd22f7531664875862f699cd0703ce772b77) 0x88cdc8140c4819916ea0f53dc1492cd1c9c74a001a66da653e1aff4f2d6634a2 0x4ca95876a9f969974e69350d22dcd449abd5bc6168940240fe03e909cd63e803;
  SAdd true 0xaa318cacecdfd4633f313a2db3edf99757729cf48b6d412480bcce8d2a57a9d0 0xe2b36eb04b081caeb137b95eb9342c90fdfa055f8773c2affe0ad7806217ef49 0x17972df1758f7b695b4e1e1854d6ff7181624cba7a6a7598df55ed61bfd30894 (-0x266dac819b0725de96884916b091a330dccc8002be706995ab62adf55e07d0) 0x7125d86d433f6414596a5bf6c548d8ee7987a883a6c47af925cb29d0b8b70c56 (-0x74d02b8bfa4ffb4d06546896e2c65b44b0d42e3706712f7f057f5776da33a35c);
  SDbl 0x20649d95c6aca2c0f3ae09dcf170efb9d5a06572d91f7ffe815617d2dd9535ab 0x3f27a66031f2360b72f3d37a49e12e0f9adc4cdea2c2463fee6d193c0f419ea5 0xd85cc21e040fc18bf59cc1a0c28cd6a98a06bd5298e5930043253c1dc0caf2ce (-0x2544b90f8c5ee36275f3b8e1556087c8f300ac21834703dda99d337f8e16c9548) 0x4194ef0f3c8bbd0f6383dec9b930461a5886e0496d80d726d630c1011233cfe 0x14b1c050c03f66868a7b257aea04139c4e77917311e93371624ccfd3495029d6;
  SDbl 0xf8d61ba45ed1f3c0fe6cb9b9371cf928794a07d2864a52ef854ff6a865b409e4 0x3f9d5794dd7b009c92cfabb24c1e26a303e309f0561d098fc9508311b842de64 0xff1f0c8723c03382a20965fa514dbf780a34b06d1845ade6e51602d941f5f01b 0x175e003d32def688ea1da6139eaf4062f2cf6e75b8c26a6c45ed1065a2c0b4818 0xf1df88a1a360ed750086d334eb815bbeed46bf92d9d16d54fbbbfbde05c4489e (-0x726619dde7fa1c2dffcbde574e1dd3f8e06ed65ebeb92b2d95496e3f989ffb);
  SDbl 0x8fde6692b78fd14abc015cafadd6e76308c820019b6f2705113c6a77843f84bd 0x14aa615b45e52d8b3fab3cddd366b77428ff6772b96e05fac99235a7684c2839 0x2dfc8a08831602769606f70a2db16d7a96688789034ec8627b80b9b83eaac3df 0xef5380db6037174eb19f5f49dc2bf1693af59daaac18ad26d24c4aba7c3a654f 0x50da37ce497c7f6b43954c682549b35fcd5f3ea249f02678384fbf6f56f87178 0x1823077135385a5aab8db428dd323cd2919841e8af00ba9bb297643740f90a3b;
  SDbl 0x426122c7355ab142e8ec04fd3a1feffaa7c6b9d577b524da466296c4842b71af 0x916b2e3c91e18348843eb52ba6bf0e3a633d7d8c2463de77aef72c738f0b7a7d 0xcc2ea611483056139c68558ecaca54a0e91c8a2171dbb641f82423d5469db379 0x12d7eb3897d5d09f06b77d8beb2a9d3ee2799c3ece9c11919c5929107530ed2e 0x11363aca2868f21b126b30f50ec7d19eab4691b416a91482f4239b2e845dd54e (-0x20590ad286632f57f82043655b698ca50334c6450aedbd08986a532ba932482c);
  SDbl 0x81d565385a80f2c649b40a993b9b667617f4c58822ccc6c52c1aee6b136f451f 0x12db210582374dfdf9642e701ed3066da3e2cabae03851df24ce7d27e7e15ce3 0x97f8b35441f3f5160ca5cacc248ce71a5b106a6a16740a7d97b969cee327509e (-0x28b45b4c96186ee2125d9d63764d7f3ad6538b6b54128f8a6ef0c7477fd28e36) 0x41d8c1e4a4dad4f5f11285cd699ba82874015cf4095ed9ebab6db585686c981c 0x4030168eaf5ce5f355fea447c4d8b119c289eb64ee40e7ecbeb7c8994deaec71;
  SAdd true 0x5ec42af3148aa41a9dfb8aeaf4d3d1a1fbd0650b54f38f87281f2aed7b485154 0x5c7747cb94c5cdd8e8bfbb50c6aeb9b86d9f6c970657daf507afda8604bf77f9 0xc5d7cb9e2c57335b5a4d2268ad920717e79f0f711a5b6c17568781e4c54e8279 0xbd035fee9643ab82be7cab10e86be68b1071733d49623020f9b0f9f583fa532 0x2314a5dc71969438c50f7281fc5475457a5904cf6df66281718be51a8ed70613 (-0x1b3fbe240933a3a35f4cda2e5eaa950f248f95136934374df530256f67e753b1);
  SDbl 0xb39084e42da211cc8579ec79b47a3ea178ba891382f9fb3847dac0a57ceea834 0x71615174bd9d38ff187220a5a21436b34c91393d289901d90e5b5dbbadf41ce8 0x1f0f32cb6ed7cbe5c20c7d03702b387837c6b26676e58b2214b642b40ed0724b 0xb1594d61bb34302f6bb979e0472d0f59fac5c5a5850ada3a8ad5029f0d367f68 0x7df36b6d5b738115d75f29c1feba7a57125996763c021d2988402e50283ec24a (-0xeab7342168741529bbc22bfebc63fc30de871ab4b3fff6a6ad0009626c0b2b0);
  SDbl 0xb73e2df033dc9dbb7afd04f947bc36efd3d7eac88fa3d76430217c98476fee0c 0x8f425e80bfa847508dbbb3a3f36bdba164613377bbe334ef367af12ed6663c8b 0x1f8e44fd4aca14cba75da0cf72d2d8d20ed498b8665e5cc5d0511542b8024182 (-0x6a2e5b9701928494640f23d9b3e3af847eb2bafa94b2906802bbfd4ba68d744b) 0x8329f4c835e6d0c37e296e2a080beb815129fe47785ef9231ca4176b3e8c25cb (-0x156322316c1675227c03d59ace1c1d28e6f2e15bb33c07721029c1ff4dbd468f);
  SAdd false 0x665eb7bc392218fdc7205696d39d71f2a349f59e9b6e36f07ed7ec44b76aa4a 0x4c588c435549d8dfad31835542845cb6cad1a22db421adb318f2ee0e9a17a3dc 0xe360d77a7205bf91c52ecd0155413f288214093a09bcaacc20f9c767f386b492 (-0x24fc4cca76066f18eee3e70e7bbd12f27a5c95881d16edca41d867f14c84b7b) 0x28ef9d75988f627ce42b1e550760a8e3632ecfd23df64df42fccadda4bf7ca 0x1ac1eba61d9fdfdd1c831358a6e0b5b7b5cf9bd22b68e493509b25b65c29d7e;
  SDbl 0x2eb3b28f5e27723ab9ecc89bd558baf03857f4c625042a665027956672fbc63 0xe96921dd0321d7f98b31ef2635268af14e4e7bdcf578a534858eb7fc53ff36d5 0x1e4741551d109a9cb54ef613631d677b719a2a4d5dee47a98fa09a9a27599781 (-0x3f1eb579758271a445405e9150f1ed3418dfbadd17d900f28fd3c0c55dc469bf) 0x885124ebf6499bec5e1f9176f61edaa25cd2b3fbb82610a28f9172732f044 (-0x1ca73b07d2654f28c5187aec791a4ea0d60bc70bb8e2a87e335943cc5ec01a2);
  SDbl 0x97f5d48fe63cf15992bb5d786e2d7807ccc2b416443e534eed22308de4ebac05 0xa9c6b0c5f86bb433a5ae5dd7b7a3e168934440ff5e002483fa9d54db6c137ad2 0x6c4d473634b93ace5dd000eaed6ca29bccff948c1f956934900281809fd492b4 (-0x25a7f6ab829767cfc1e51a5a51a165a10a76e45e7f9fca27260ca675ca9ad9b62) 0x5a33ecd2a7bd28683f2c989472fa3ba021da32843be7deaab994c3f3e74d3063 0x25c5ec0142c3f3d4705673600773b994838923e2f74471743d121a249a807a26;
  SAdd true 0xc0fb67875396cc9cef433ccd6e168c80ab050544b5b14647011dbeaa4d8c3b8 0xba6629816304acef59230d5c667036522b7575c4c97dd418336ca36490d1b068 0x32dd4eea111969545d4d8405a9aee8896993b502d85de7207b09481846d89752 (-0x59b6610d018321ae73dfaeb9792d04c21b60b1fbdaa5977d7b35368f0abe92c) 0x917a122fbc185b9cfbb79c38fe1f3831dc6595cee34b56fbab2f1a940fcbc1 (-0xc87eda0ef55bdc11f011dd00ba71fd11b5e0b5bd147e569b3624ea7f3b102a);
  SDbl 0x53e97ddb0a8ed72fad07435540233f727853f1fffb005953061eac5f04dc285f 0xb8daaab75860b68c296a49287a04ddbdf54a0e5cb31676aa3b3f0d468a937852 0x9dfac77699ba60b767f515e31da0162f5ab72bc1a912376d48dc3dcac4b44a4f (-0x175d18d3837e97eb359ea4ecc1b3c3abafe87431099370f388641a59f5edc701f) 0x1b813c927af2b7d9a8e697c9cb244a6a381abdcebd3fa1d7461716f54a9105e1 0x81a2d45726e89b9318090b406198c575e088ec3fc700d5dc46314276caa177;
  SDbl 0x17d45aedbd2ce55ec7c5fc7769fe6e556c9348a495e19a7b256af31f9d27a6c7 0xd2d0ee662e6333fd2d4befb608c5e4488009e1e6e935f71ca4866ec48e56ab34 0x7a77f8b327a1027b503c0f4bab651c5bde16c531c6d148801f3403dd87cd6c71 (-0x1730809224a5a35010be448a31c41172b31fa632403e9372d8107b901be910c09) 0x237d87d744341dbc3565da61154c5d7f185fcabb6877f11c186b26b5034ed27 (-0x26aa93d74659a3a1b055572ffb2447ef430bbce99bc3e2ddc3646a2d9552f92);
  SDbl 0x12cbc32080f176ed520494f8620d5f31f41d73740f725d677088dc360b552e 0xdb1e5dcf8d641ff7cec9f43fb70456f754904792f8975aef234b3a2b693f720e 0xed542ab6ce38f0c6343433966e6b3b7d359be91fe67930203ec2f5e2589677d9 (-0x208c05919d1bd441c7fc012bfabd2ca84e0289099fbb3c1dc3c7ff6bab9407aef) 0x161499f9dca45dbf2309f0912164a5001cf35d0829fe6b40834afa13432 (-0x9c0d90cb9230e313ef1466b191d08fdd90f906878ce8947c1dcaf863fe8a);
  SAdd true 0x2fa670ebda44f1416cb7cac9a295ce0b7ae1499ad5a66677e2b25849c9d209f8 0x6517b1ffefdcabe5bf161e72e768d7765a13ae84c8287dd5e56bbca620ad0d24 0x68cb9e7ebd22cf286b646633a628487dce459fb06fe4c6a11241efb97604cb69 (-0x1f55eba95b44948961ddcf28fa178bf77cc3230f9e82cab4a5b86683e5d1ab71) 0x8de89ad46b223f2f53c4976e293e847773e0a23d8de421a9d718ceef1f593b9 0x15f7f5ee446ffde2980274c7480509c3ee7cd7f193957b3524a5ece3d9494692;
  SDbl 0x3b6261181a8cb97f1ce207e929b62584c4086f0c9cba3f0525920a49c94186ac 0x726358a561af2e2f031a8b4df925fd560f609f75be9772d4dda92852da015f13 0xdbc6216d4943b32017967bf12650392edc992db7b63927862846433df1fa6d9f (-0x4724b77eb9f6f009549624878d1fdc3bf7dd830fbc355321b77d0ba47eb739eb) 0xdc67e8fa54af631e3a341a75b0fcb6b801b1a49288b20ead0346d47592af5cb (-0x3158b68da43ef974195d71f24d6f1b27036917e2fc19fc377ec16157bc7a064);
  SDbl 0xa8ce865c233af0ba90c72fb61e1d0b00d02943e5329399a3f36d516af644617a 0x9457bcd37c88ec8f6f2c7a533ca07cb5a79cb16e4e0e5718743d5c2b32bbdb7c 0xa6b27185bc9707256fc39593b8958f2e73261917989e63ef423c1cd85fce36ca 0x8880c0ec759c429bf735cffe6b4d9ff3f34ccde868245292f7ef44807e2458ac 0x6f4fb6f5e05a5bd135da4c0e96143c6300873e57dbd9cf136e74422e80d0eb7e (-0x1663c6391a0ca3fe0f44032fddb8899d528da17de92d40a29e336fa0ca50488d);
  SAdd true 0x1deacbf2e58e475ae073ba036c1d7213e70aedcb19a7ba5ae8cd7cd1bd798d1f 0xcc64f01c5591f4890d2c9e0b940e8b3d18d89027658c657ecbafba23c730f3ae 0x25b9c0ab04fb93ed853a78ebcc3b3e1a3e1d39c6cc7f02bacec7475aa7100aba (-0xb6726d097198603220c84984a85ce31656adca3f10cc3bbbf9b7264c7f8253f) 0x37f098e86080c5a03057a928dd67c1df9b89cfe04f4fd03d0363323b2201a30 (-0x68ce787ce218479de9e0562836117833c7ca4bbdee709a6ceedb9e726fe466e);
  SDbl 0x17ea67c2dd84ffd973ddb7723e20b81af59fff8e6ccac4ecd2df5cb48e6a3aa3 0xbe3d82fbd741b85462573690acf13865afd5a44eccd1f57fee43237b213b89dd 0xb05de6cc52449b56fa82574e0ad449eab3aeb54cc6bf2595f6e43c034c4e2e0e (-0x1e2869ca6e64a9355954072008e826f1a1c614c8af3090887a3bd0288d5b69213) 0x23bf546e05534f92fd284e9637d29dd0d81c6b0aa738e6b02e6f5693f332d70 0x15280944f675474b13eb45f731d8988e081e4f36eb1b292bfde051eef987eb5;
  SDbl 0xab235dde14fa5c57161d795ab8e0dcda97e27daf4f309e661eecd84109dcdb35 0xd951b52b2ee5a4744fad647d516d8885375425454b98362cef340ed0291e9f08 0xb3edd161735820e1f65d41b13c200928a2eb5bb067d5513d4e8a42881dc18a4d (-0xbc4fea48f8c207129029bab0f6bf649c9b1d7163521b5bbc06bc375e0ee62b74) 0x72684449ef939401d1f680920fe65ad2ec4952a106aa3cfa81904ee932c9f9c9 (-0x121a3b3662147ca6b83a2d90dd6d0ef8d7f233c8568da0c80cdca04afcdd1cbe);
  SAdd true 0xb4d2b0f3a1de4a97dd464559f807ac8170d209822ed17b67279691619d449909 0x4cb05c205d97259ce9d80bfddff7997067b35263212c87a36aae28db7924c33f 0x9c8512138aa0b8a045a36939f53aba0f5171a0d5d1ee9d76df884ac8ae08357a (-0x75a43bbafff7093e53bbc8fa93f66419da681868c988f75de2758fdba69f4464) 0x7fb8f63de55f06442e9ca67ba7380a9ef844084b7ea426cc72bb1c4c234c14bd 0x6355302bccaa9ecf07271052c69ea1dfebbdede1d5bb47a3c0142038a141e4b6;
  SDbl 0xacabc1e1e6bf7201bff34fa40d7f864fe2b8de926b7f631741d83fdc75e08036 0x4a0721cce52ffddfa9208278686fb65fe1dc978dbb099b548e9ee15ba7b0135c 0x7345e8a79a38994c69855cfce9e91ad8793724cf5b017e401f7aaf9f39356370 0x8e39468fc843c4a3660e61157754a6a52e3649741fc0eeb071ca4b486b728d08 0x74773fc4992929fd57d82694ed38154b1916eca7a9c03f8a4d9d48309f438e76 0x1cb7c3dfa8d70d42827498998a9d3d6d812f7ce5b07732333605e26bb0eff08;
  SDbl 0x70473da275685782e112944ef0086795c7b9fa8f75071c92bc6eab349ea13ba 0xb75e688d02ea1215734e7f4fccc5d6ee3afd7dbcce32384e5db5bd2f95251e1e 0xb1667ca1d5a94cec0fb809f89bdf526760e49ffb4e495cb852acf363eecdd643 (-0x39e689fa7b36d130a3f46c3526cd270d49df98c74e055ca987e9a37ebf32c393) 0x313e69c196eda9412e126ec1141052e60900f8eca9292e1c7c8c82bef821b2 (-0x2ff49c7c0b7a44c2708c0c80d2cc3ff957789fd32fd7b0a19c6a3af79d28f59);
  SDbl 0x77b6d8532d28260bfc00496110c3bb8f8a5bc828f00fa9ec5426e02a5f731940 0xfbe93e718ec8833515ecb9cb04ccfdfc5b8c1b9d49b8301fcdbd8d9e43438370 0x7d1dce3247cab7c2460a15ce8ad1118e23ba30762edd1c04bb962a4466b8f58f (-0xe41da378a545d889b6313179bf059099bf13e0347c7a6419392f562de85114f7) 0x37fb7fb5d9077f65268e1cb7be29b5e3d06b59ed191db59e289e1e803b902fac (-0x200d7e0cd720ab5e6a4303ee51332512bf84e802dbb55ceb5c4818f63924ddae);
  SAdd true 0xf9bc8a37e40105d0611d64ce6ac5cbcc058c04c101e4c492e0e4f3ea19cfeacd 0xb4499c397badd269bdd8d2b532d3e0b85e791cd8f31ef1dc82b4572bf4dff2a8 0x31f5ddff363355014de08af99d29bc3ab7ad1770fd2cca8c3d51ee1a8cf81451 (-0xc438b3c7e09dbcad8f9d461e1bc2b333bd25c0a804692f039c7a233c4d9acd9a) 0xf3a04fbcf9e17c91bea24870fd92a869e71308e34b61de6ada2f78d5d28e82b6 0x45df04afa22a8c51bc7aa41de23e64dac8cd85b9e65258bb2b1db8b991e749b8;
  SDbl 0xb66aabbd04e66741c877ff156083c070a316edeb66a397a16afd871e42f4b22e 0xeda9ebcd04e0dcf71d3f47469dd81555a077d8bc73761f468caf2201c8ec3688 0x86cee06ae216b18fc2b1c98aeffb8ca8ad4160b797a318502cc217301f0449f8 (-0x135b3904829e494a1795631ede9dc32e3fe595c00db0f749db59735356fb9c65f) 0x81fbd8a3f0b1925f06748ffabb76ff05c4df46965789d34f746273cdd6f81b94 (-0x28e260f1b1deeb10400f3f3fcf226661a1ea624ee491c14ccfbe8168411daf77);
  SDbl 0x4350067e33d0b1c2e9f4c4983ee893bd3980e9f66fbcd91245652479516fe4ea 0xe509f78e1a2cc44286ef7e519522bd3bb46d9ef7c3b2a72ec0cd8b7833d1f84e 0x64f868cdac43f4dc708f3a35f5bfd23dd72466a6f40397ed90760342bc37df2a (-0x24f079c8fd7e6c85232693d1944e3496e925d647226631b37fc23ef84299000a3) 0x11b2fc6a2fdcc48a24660c377c0693b9b75d26289057d43787779a83620cbf7a 0x2448f20cd8d9ff3ab64de788922b0ec837a8c0beb6ca16150137269dcada01e;
  SAdd true 0x3d3c057d8685fdadd12914cd78c08fde58c3030c93c08935b3ed276d7c797100 0x7b807c5c7715a9b9290b63017486c1ce6316e9a4b9a812e94360db9a9f90564c 0xe9079b047a721b1a912cbe96ce5b049ac9e317a661c97e89c2d27612e231edd5 (-0x2aa44e8c7a600fdfec6f9b167839ab129f5e7242a7c1a46d20a2d4d71d20578a) 0xea5a8b073b6b732145167fb260f7a1445b29b2f4a76e7b8ff2a938802cdc361 0x193e80d73bbb8e7dc823dd28038cc8d5e60040c1da0f032864a2848c1af4eaff;
  SDbl 0x7e91a01c9b07841a491cf42f90ad23f32d6fa50f60db12729069ae1cb2759c76 0xe2520d12a1749176cfc7a63ff8cc2df7a13c97e1d8e8016392ef1c311b821269 0xc7833f4052cc9b920590a405984538f3cc2fb2a16fba6fdd1ae8b99cbfe78cea 0x33ae72bb73070ec9fbf13c40b10d31ea8a759f40a3030ef61897c7fdd7309b51 0x3e93ac732bba75fc5e21a47c502304a23b85f9f9ec01346c9a126df9df26b89d (-0x32d5a23b4a7feddbb61a8b0e7e053df7da3c80a90e7c84204c3153f8ca9723e3);
  SDbl 0xe506cfcd811cf580121ae3be571f150772b72b7abf8fe3fcc78ec20f29a3a88d 0x69aaece15be99671fafe71e547b5403b4d0fbb1f957f3fc1e54db10a187e9779 0x8fb7e2386e004b10e3a206db0582675ff375a080517fb807ef6921f32db3bd5c (-0xf3437eee276542c6572bc4ac7cdcc5c37f8cdfbb32cfb596d0ddc777261b8c94) 0xcce52ff4dc33084c5d1c7c17bef62f0913db3acc00fd1ff6e556a04912fb5ea2 0x6bf0b5a73e0425592b135946ea14ecd43a4f403aebc407bb6f47af2145331416;
  SDbl 0x451f97516e3822fa08a1aad15a2ea53195cb3f4dc20226b3aa2f12e6dc8b3ff 0x2b062915e33b91dd005884dee01c64b540dd338d5138528676df2e0643c9ed03 0x9ee24a973ecee60b863a4197e47ac8fd111360df4949e414cd72a96490a14941 (-0x7dff2fcb60abdd0526d898ef9ee46bb16fe8a51cc0cb078e91ec0a2a306dffb8) 0x12aa0b77f73e29d860b0c9daf968eb1841131284eecc2160a33bd591c883f4 0x10ea23c0baac285a976aaa9e5099360d0b6a1aa38178a739300cbdf20feb913;
  SAdd false 0x8a0e325f6dcae866e0562061c6d9ee73322a9b10c17353c6c424e6d00f075b31 0xc98dd8f23af4b90a4f782f7720830064459494a1a750b9ece62ebf62d4650f86 0x444c6d6496e0c5b2fe98caebd8e16e92e68dae6b5bf964bf8ff2997b13e5f774 0x42d21af60ae07c1d1c0cc7ff0cecfd6157f683d5256279d248d7ebcdd8a1d9a 0x4a734f18b92b7e4efcbff95b46c4e7f645e58dda3515d2a97bee1a6c705191ef (-0x557def6a5385436bdd95eaf727baf096c6bf8e7ba3e9d5d5a0393b4de9ed9338);
  SDbl 0x87fb825794a609b9d3947a1c0fc77d06f70d0c55ed534ccbaf5d0bf62535be58 0xa20d65cd36f698df1351ccd7d2896b6993093c5c11ce56a3b9db88c9850ac2ef 0x671b846ea4bf74d51a128c9c1d028718bc33c5adc328c78eae55f6893553fb95 (-0x193815905d88b9fdd617f0d002bada1190a3ebdd03bfdf210321a573d756b6157) 0x483b3a91811ce75991b4236ab24fa31345c993aa3eb83781c33b12215fde23bb 0x14fb8bc63d7147de3d152f072c27ee91cc3a6113f899e9a29b07718e4f148d21;
  SDbl 0x77fa8b29424512d9ce24fd74e1fdeaf053720d6fec45b84b56e3c289e647415c 0x3bc68f6f423c7a0b01d0e20b7fb4b2bc9d79ddbd945c2f33556317977e095389 0x25ed22998b6e6aafbac2702b36bcc3931ca392c9b1bcd134c6356f3401f9c5ff (-0xd31979abda7d0fa7a3564939900be36fead2e7ea641076f32e21c6e7d3732bb8) 0x383ae294ac125da148dfa17ea770bfa04cc06bad2bf7c355c97aa76be6670057 0x2fef066c26a9bd541656e285218013c385752771e9b481058bb7dee9cc36d2ec;
  SAdd true 0xb0583aea91894d4caf4e7a902015ab0205ca3d3b55193973f27d3ed1af976ed8 0xe3a97dcf7b4d98823caa9b25e4b2b8b448c5412001233cd6ad54fafedd8148ec 0x846fded67d168c28defad51990f295ad53235689ecdd2bf0fcd78b06731124b6 (-0x63465964b508766df94b8c911df530d2a7deba12aaf4a0cfb3ed212a73e85af) 0x79796f6b906968fabef2ba49eb29b39af4980c92b42a68974dbe58504c08bafc (-0x73a5e087cad68865e4afd96fca25b63f7bc38d29d38f9c58e7341b3407e87fc3);
  SDbl 0xbd20d5a189912064f6e651ac01d8b271f089eb0ba8f09172432a6b0dd9d18026 0x6d42d70fc168d6aa91de029ca5eb51c437c9c69ee599e32a2163d073fbaac2fa 0x9e9e243ae4a952e3aa491a5eae47b24ab2fe07685d204fa909f0235b9ae570ec (-0x19bb2e7f7d0d54b255a686c2236c6c54b3687a1be58ab402bfa3e312bab20195b) 0x8bb97fa72b82629e2baf999629c09689f438b527ae06c78691da27e2cc7b4f2e 0x5778f8beda9a8b0f210545a9abba86777e9102e824a8cd50c54fc1e1c893b3b6;
  SDbl 0x12b1d1df781074859eb98f90da9673149b387d2b28d1abb16417747fda71ac5e 0x92732d9d8b1e82f645d4e303c2a8842524b7b1909100cc2921b82e7f72b6d359 0x8855ae4e33f64e4c5f26e9b6d9a37815b7a72e7603018daafe1945ec985ad87d (-0x74bb5debfa2ad81eaaecf915ee4a03cbd87d9d9414466e080bdd51e462fc78e7) 0x15d7d07515279487fa6aa52f2efe533ada30348499e5e628037ce19b301e6c9 (-0x2b73afec024ab6d69dc1e279b398916cff65509823f1a67c86c5d20db62dfb5);
  SAdd false 0x6d641dc69497abc08187b072246cfc7cd1ad71b2f0c51d7098a7af145a77a14d 0x13d1c9d3e85b273d057fc66c8aec9278d758c47f230838c5f0b91868dee482 0x852db15376c61452ad3da489e3d01d61b9cd27e130cda71aaf8ceb551e22896b (-0x28e2b78e391f08105f4985a90205ca9ee08a12cc0a227613fc4077c5773e8534) 0x2ebe68828fe23ef73a5c00ce088481aa91f108b49ec0996ea55c5dc78faa3b79 0x3e8bd85f9a5f5384781b9c7a582fdefdfa2ab657b566907cfe11f4ef5764543d;
  SDbl 0xd0f0d3bfa9d149840d8dc5305bcbe5637fe1e495dcf8259fa12d684a3fd87569 0x9bf0834a66af9410db9630d813d27d6da53ca528d09ba1bd69bda0765b0c23bd 0x63e42aba76d36b76174e5b4aeb93657a725bca478cef1aa69e17f42330acf1b3 0xd964cd8b4471c8ae8eae207c211f30f5a7df182b27852dd651e4b32b5fceee43 0xaa883aa5d5003bf418c165c1cdd2b1fb561d96cfe97b2840c43fa12327c0c7b0 (-0x7f35f00af65aee12f8483893a0228f8b06675e7d1bebc5eeec919385cff39eaf);
  SDbl 0x4dc8d346cff2bbfdf3cf76ddb78584c796a41661af782c07df675a42b720f4bf 0x675bf8c41c34e5663e26f3c2520b81145cfcc7d0bf15c77a49508eb37214b0d6 0x5e876ca89b72976a4bd2e3b51d9972ec7d6c4d071933432351585b31043ba837 (-0xe04367c0257a89659f098f74f44e8f757bca277762e00d6ad2bacdbb6f6e3482) 0x17a26ca37dbd2b6082c2ce019775d2dbc7bacd7c733091424d052efcfc7051cf 0xff9ed1ba6cb8aa31c2f97abe4b64195a7113751790bfdeaba1a713d0ce5b391;
  SAdd false 0x1cb5c614483db02cc468505c784facce9b0babd5477cd59ea536234c4458ba4a 0xa18ecabe28c5f3ed142ae9ed22959c279504b8038d9138300847c888fed251da 0xe92f87f17b1c38a33da14c7b6c4f5342b09bdc23f6fcf8fe9a046b65709d3612 (-0x5e5e3d19165720394d733a66b9e0228ac8cd2c6c6d599603cd91005e2c95682) 0x338446624f74b85d9c7616260846535d3219b5e3876a74bdddc831db9c3da13 (-0x686e1edc07dc08c6ba95647db1f3d3f84eb9440240285e866354048abf9ae8f);
  SDbl 0x5dfcea989513e00b91a48f6543cb5ab963594912fb0905e0404d65b653cb746d 0x589ed8deda62e1fa8db969fb1e308d8a2e9acc8f2ae29635fa3f57ab9d4323e8 0xc4ea98fedcd3b85aa2548ece7d34cb706aaf2d0019f8201edc1b00e7276556bc (-0x86a57640c3a8c24e94f098db21c2ec6a72c060e3fd9ceea9ca3c25e6d7f1526b) 0x2281bc51b232f7b4e4ca9c350e4ea9699cb3eb6a52dc5474b6a7cc911316d133 0x1ac739e71e196c9a288b653f7478dea3ff48b3b00981a4963880215a485454c4;
  SDbl 0x59ed0e7ce28194f7c009ce22e6592d3f8f21a0f060319b00f1b416534922f3e7 0xd2266dff3a3111d5f815321d19b18cd975fe1cc804c7d65a92b39bf073b4bfde 0xb4102b98f67b12f381d0bbb1d38aa04e4042c59347c390c3b8cba131922e280 0x2e4f080d915da534ed8da43674b883af2f72ed17e0fbdd433f5ff48563f05775 0x1f96af96c92212cb419eebe735e33122eda2d190707ee1f918df7b9e3e7ead3d (-0x2ab0ac3e2e5343602c020f4273b932e89a074f58f1587186bf21be088b3d89ca);
  SAdd false 0xab41da54c435d6f250a95a73d91d78265f2758387c04b9312050b902df130990 0x1c51ecc3c67e787b5947d674ac6bbe45b6a0f77dc0ea2b4f6968c00b6e140e7c 0x599de6f41962692880041363a80de75ab671abc566fe69fdc7410f1aa228b4ae (-0x6a9f4ae225e6fbcfbf0d2e6254f58d44a167a705a4cb628cc718db4bb959c731) 0x72910a9e49f1155a348c870c04f18d2b8cc4a302ec90c1d0b0f62f31c959d221 0x79a3b85b2b285dc7b6879955279981a1872487d3662249417aff70f262655e0e;
  SDbl 0x2c2a92f1f1eecf8b49d5ee6e4ea65a2733d11b48f091c820e81a88e0966c7ee6 0x9aaa337dd141ae5e4c2d2b27f97d79598e5962d479201d58b0f1ffbf7fab1940 0x384f9d619171b9427defc906d524579dbbd9f6ba2b26ae614be18bd22e62681e 0x1586040dbf9b7a8ceb8fc4181c1480d5ea066c0883973ba283c683f6aec57385 0x79ea997be84ffe9869bea1586dc46f2a9f614a4346ac125fff5baa582dbff94 (-0x15cc2f296b0326cfbf26f264c29914cbfa70fa8845ba7d765e24111ba7c4bf1c);
  SDbl 0x1edde0411de712329134a47f90da30a0745306d9767d1a95f6682e2243db763e 0x8b5af4289f6ceb57db5d76277f0749a50cfe6dd74c72d5d3aa258149eb224703 0x9e25831480ecb03e7c35d64f78fc73e834322c6d38e698d1c19846a18756f9d8 (-0x10abf6053e0dc2fd5a91a5b87f0d146e344853cbeaaea8ed2649da2ae4d01668b) 0x3b8c0dc3b9a8efa139f80e727e0a3f8532a26209fe0d84fdae33448f1c7427f 0x1d88e3ee68eedc73b2445abd8f556914cecfb046ce25994da783d56da7f5930;
  SDbl 0xdc3d45987a9029fe7c4d70f8213a9657489715e67d5b12ab661b8116ae8a11e1 0x3539715a8cbd025850fe218adba184baad927c5ac3af364c817e513b8100c402 0x6e5b453d0018b41951de250a160febaf064bd6e92d8240dbec9150bb647c1085 0x2c887cca66ddcdddc45a216ae8b77f042880bb21d04c5a13005e0794e68a2068 0xbd795e490db71c0df326398b7107d2057109a98afa22505c2793845e3371aa47 0x4a1969cfe2a6b8ab4a8b4102c72334cb7c63ec239b2e6ec3ec1fa5741e21d57c;
  SAdd false 0x33823a71ce4e2802e5d34985c88391ba78d66942ade73bb54a951c6bd24c2629 0x1bfcf4b8e2ef03e0dce1579d77c19a38f28b06328b1c881976deb12539ea93d7 0x4c9bca6b5b7742936855db61b2edb6e62670cc2c391611b3b2ed270ad568569b (-0x7e82bce9a723dea0256860003d99345bbf105fa69fb060e4e2a05a648e8eb3) 0xa5d2588cb7d94edc763b1c374e44958ed7029cd0ddff23e293b6461fc2f9a0f 0x513e34e70462c19e124ece56e1ea994667177ac8b77f402d2ab6194f96c4e3d;
  SDbl 0x6280bb7d1a2f013c90bd0a3e6e17564d777f63964138bd3c06d4743033f2f3b6 0xf6f17ca67abdd6481522dc8fb66e3e725c1974c78a8b44d12163bf62ba5896e2 0x35304047713ec35d0cf596c6d3e0ef96b51bced3de6880c3cc8d99cbf3ec885f 0x31c652462746ed89a938d2b66a302597da62d66f33f6a1144b8af25a0574754c 0x25e6d047f45cfd9ed021bbfc2211fa276fb6215c9678eee82f2e19c0fe12b92c (-0x543fb6a8de3ec146a0befecb9c6ba2b2d0a96b41597170348d91dddd6a2b8634);
  SDbl 0xa85a76883a52dde0cc153915585130b02473f068a2f65fd2b1625fae28f023f4 0x5c7683f9e22a4a904ca42fb7e00c49dd8e59fcef5d350e3bea54562a3be5f84c 0x7afc76e27acf326ace314efba1d3a81af9231fb215e6722c90d08cf3c2ff2b29 (-0x284aa128a1d268ab611873974adac76b150b26d651faac76597dd49eb9565108f) 0x6eb6db8ac9ee7f4841ba7b79909db9c8558b963eed05e69d569ff0c0020a8580 0x659749f3f98b492755cb87841cd581e97cfcca96d2f5a5f868653b6d695e0a90;
  SDbl 0xf93a37948351ae3d0b606c3c833abfe9f97c5ea9a8ccc36527dbf73b2a41e9c2 0x5a482977175e1c008f61b33a8ce51d9fc4b35fe19fee57ab9ecde6ee76775025 0x8db3dd5c05a562bcca3cf1d14610679d04c6c01b640f9d813458d12623ad7262 0x8b46dde58f1b7577a2355c61e38c17720fe6f9060e833ebe0509eae02c41f789 0xf2a24d5d1573d9e7fbeaf801877aca208b68a6ce32776391b31ac62abc4c89b9 0x21f9502f45ef83603e33ebfd6e636d593a1ee57fab7bb43125f017079deb0fd;
  SAdd true 0xc019ca399d120f3d8b6375436ab2346c267f930775df0fa9f29823315a75aad9 0x72b2b4e6a017b719ecb8581a9c9a94d8026643658553f5d48fff984d451504d1 0x4bc2387319a15dfe8976dd0e1475612af453997137b35b0c20673058ab31abc2 (-0x1da6978605fa5233cd7e7451b7138f61563925daa44c17bfb161f61d4f7d2314) 0x9026b1f01ac16f2b3852e9d5e969889fadc0f4f97e3acbae8cbe157cbe79ddcc (-0x12525e44e77c0ae54a383a2a1bc4beca64c3604a8a889132d95cb76b48dc8410);
  SDbl 0x3d82e9b10e7d466a5000df69dcd8490a3c1845293a7393673db2dbf128217b3d 0xd1705cfda402a377bdecd8e39ba1cab2d09810891fff59317ba6599067d1bbd6 0x8fc2d9cfa8e99bdcebcf8c2e626e655fb4b77faa025102e836fe3db5a4e8d50f (-0x75c2e7205621a3f4e6e343120c781e762fa11008ff64e3c95b0af25cdb98ae94) 0xec7a6509cd5d7efdf2a58f0e9c1e4ffa644e76f6adbe3934aa2a86ce0ee18ef (-0x16c3a3d912dd81cd85774fdf3a237f677f6c7e0c0c6a5d39653ab9a05d597bfe);
  SDbl 0xf62d3c322a3ab7fffbb7712d3cce4e81f95b60bee09503732bf89d0e6613d1fb 0x919fe42ac8d08f5c50d78598cc9db23cfcda71eb5ecea83f0caa255cb2574c73 0xbe03f84137f06d0e238909f3ec630c7f37ff3f20427d23326871d72fab50ecb5 (-0xed8cb2c084cf5994d7d3637e455c97e4ee66ce677a881cef3cf9a841ccf344c1) 0xecbaf7af8dae3794419873692fe7f718dd6f767ee7d6b031393a362ca67cf806 0x3d5d9ac176a01d5bb4453923222e96428ee5c1c3abfa980fe17ba027b5e5b8b3;
  SAdd false 0xead2ced889064146f973aadad92ab848eb105f8e6c302f19a3c0b1b41c67cffa 0x3c6ca1ad0a7cd2ad614a743950179b5240ed77bd75ef4efebb9ea4f0c574bec1 0xb8a2fd561ae2c18a249a86aae89b3456d52c1938aa21b6ea86a2e2db33164434 (-0x57027bd20a3923adef7382b7d495faefe7a6b0e5726f8965e19993ed615c2b5e) 0xd7660fbcb447810321b44a5fb6e1d0ceeeb26b8dc0047b9263e804aef6f63fd7 0x4e2703ab19a17b963d4da3c2cd40b472289dd32179665bfe34e9424bddf7e315;
  SDbl 0x57f73947328cfe8f5f498ef1f15b5c2f358b554ce238de66ac3ca35d1d3d9f4f 0xe8d2eadeca6d49c14634ca40d1973e965197c7ffb36bc019f6d4f719b993143c 0xf3058a737940fd64f050044c9ac30aa23723cb13f6c648b54505f5c1ab49f911 0x541a17af37989a43cde0ad41a264fe81b2feb40b94d4392ef5bc077febe27868 0x1e39f7ae16ca21169fc46d3df04f118ce3bc66d437d58670de0ee2a80fb3575d (-0x3b3d40237b2d77d0b0ff1a38b94c745f6c9b67360053aadb4ddc6388a7dcfcc6);
  SDbl 0xc27b47b9e5356b0b03f279bae50a0204f54e2dcc658ec29c05f447bd06c0d441 0xe71a569415aeb4d0f86caa9478218f83578c8e74693394fc51e213c22fa1645b 0xd9ca08935a13bca8abb168d19b4d1c12fb76310181694763faf0f3f5ba9df40d (-0x109fe7116eaf8a6021f2b1e70cf59ba7e9ebdea2f32ce730bcb5e3d6302105875) 0x93bf141453deefc6983daa0a3d542dd715471369dfd2e9192b00f0c9854bd452 0x14eb48b4f3a53ae32bfec8c830110371efbf6ae0b6499adc47952c10b23f0fd;
  SAdd false 0xf999cf81546f69afad5cb37f60a0605f358f1bbce7fae12851527637ae1df3a4 0xb2c7144aee6cfe94917b317d9de36997600d1946e156e3574a695db68e33f11e 0xcd3cd1d898ce9a385002c5cdd669c0d0210708328972ee73bc44b70a33628f04 (-0xafd3aa2bd29dac4439bb3682834d05ca37e6e4d69daa9deb3803f192da40edde) 0xf35c92143a66a2baaeae1bf7c45b3cbaaf161a3910a542274caf1bd5e6190930 0x33046ba5b9bb713b1b909ecdf6f1c4dd0f60414d191138a679de737d1b96c8fd;
  SDbl 0x98a142d4d64849c48d8fae0444b83eaff77d121537e57dd256abe3a519f6479d 0x9cab16b15e688917b1143f053866d5339a9bda19e9bf21bfcba1ee41c7ee3660 0x7a660e057fc9042ecb8ceb97d504ef9ab161aea8758d4e8dc93e5e5c3671247 (-0x81d18e40fe654e62ec2780b589284c33d845dd1cc108c57a738cb9779ebf245f) 0x5affe4f23a9db2e94d12d68dfc3c02a4a5c38efdabaf5d86fb9be4628491a253 0xd2e8bf35156030c6aa4c3795dd9b66bd2be35968a67eb48d69ab2a106a768c5;
  SDbl 0x9cf49fddc53a65eaf285f01a7b18670e40335e6892a995d828c55e837644ad15 0x880992d7d13ade3ff75d0a36b3d46cda6f6a8687bf2563bf1c1640ca5b3fee5c 0xed619c9d537a136f86fea26b3e0f7395b9fece79e825f122c8f4e9a293eccf7 (-0x116417d378c0dee47dbbb6f4680d6048fa69d5e7cad8a1604e67af539552f09a9) 0x603b0c97cb2f6b3d1401b646184ed03c41621acd0c4bcf0c11002bd426eef763 0xca6232c7a407791f3b28b37baa0bc0baef6934401b5d46377eebfb9429f42ea;
  SAdd true 0xd2cca0c5e3554e01e5d84ec0c18d52a6deaa3e42d52b12d6ca7f8d35f1c23ae3 0xa59f6d352480baa46ec668c9e5b9611f45dd6cd20121e5d8d9da87cdccff41f2 0xf09c0626662838544f0e074200788f174b6c67f6fcc98b02d9ba633f10f3b210 (-0x4636ac084fcfc51cec69ec46cdc07a7ccc22dbcddc76f30b2dccd51109aa4b38) 0xad945b55f6e69467b3b09957d8707a296fd06254c86c1a6eca7757e6a7f3ffcc (-0x185c931f301b57d81b2241917fbe6da515dfeea5227d4ad86cd35198028a66f7);
  SDbl 0x885b033783beca2ecadddbaafc0ffa08a44ffc1997fde7456bef17f012b0c2bd 0x40e60f64ec60a080d07999cd852bc1c8e4a5d2d8fd581777dc6a531b00ac18cd 0x97c05e520919d77d912168f701ca105fdee7ee4bc7eab83fb0c669f398e1ddb7 (-0x4123d6ad196d5b3cb7b694a37d8a4a30d84124e3f7372fe47b827759146ad157) 0x48a0d3c68e1d8d5c5b724a75320eedb1887085c157d7c31b2570f4e7aea79d28 0x35a648ff303dced1b09cb5f86df140c1784688530846f46bb23c2e99e7d22576;
  SDbl 0xb91fbe1712d8059173fa63f464d6b710a2832e08c84bdcdd04e17dd38e492bb5 0x3219a1ab49310162ccf5bd7a15a93d5b59eeb13a249f83e3f27cb46a2f4fa68 0xef66269c41823b12449e7bc11088fbf7fde245b478cad655c07e3dedf96ff250 0xaa1e26f098ab7949f3642ca18fa6258bc392117b8f01fbd1853c3a8a7b603db2 0x85dee4ad75d7ef181529e98fe15753828141eb9b9ee9c8f12b7061b7e39cde09 0x2caaa16a633a7f1ba2298cefae1330656723cf959eb280549a5548aadcf15b9e;
  SDbl 0xb0d0ed799351c03b43862dc937b970c7ddc30804a418ebaef41a5c81a10680fd 0x60e2fd608bc894f57f4cf9e4ec61c472269b728dc314e29d5a3d0a77c13d023 0xdf59acc9a4fbe6f4220f967466260e1acb3182eb241be9230352deffccda3c15 0x14a95cd2c4082ec8c0857247d5862fa92f0a1cbdfd80846e10ff7f236cc38ec9d 0x7a1ff10a668a12b639acbba0d849e3ee7bc7c4ed281aab0f7e0261d23b23caea (-0x20509e0de35ea67e658d7f89904a634bb836f3bf7723a3109c4c36d9dfd17cc);
  SAdd false 0x9324005169895baa868dbeb79cd1f34a8601452d90716cbf36735ebf795ee7ef 0xec036a5a257318b58afaa89367a9e2a081f6b43baf645999878aaa489d27803a 0x3a4360233156771e35646ffca75c14eb9ee99adf3087d37f6558673a23ece2ce 0x19b3144384d26c5a05e0110ee708dfe40cfec26e71565e6b4f210812ef42222e 0x54925d6deaabe5397d967eec44bd5efa042f13b7dc44479092524b6838e29403 (-0x842c275fbca180c4860e28f8dbe1a45608d9c4ed6e27760f43f4e0e0e280baa4);
  SDbl 0x9cca7e00860e561708dc271177f11bb5e8656f925f79ab281b2dad94516e9f 0xc08e7541facbf9c80817f20ab95ca7e4492eb2489ad098299d3b4e8bbdf7913b 0x6b98e00ca01421dc6bf212ea8613359600f120bea3acc88b98dc029fb4df9845 (-0x28c7b861f5157ca36d26a57802fa697d39bfcc11bb228d0f77fa1e3ab87d49c7b) 0x600769bc1a40f53e6c58efefb94c314790786af9884b39e4f867efdb8aee 0x1a9da507e110b00a8673fe3695d463698fd6ace7f070cdd8689dfb96a678b2;
  SDbl 0xf16d1e392e8dd3078482126e90bfd128a2dc28646103b5de4e12364c46e0d134 0x917dd6c2c336db86ffe6c139ef87988a7d682f506c1fa1a1dbd0b08e0c64e735 0x1db497bbee0a195c766b19bb9bc567bb515b0de65183af45944db655edaf6361 (-0xe7906e0e3afe05537392c455a2820fd78791eabe10b69b7a6840b7f8b57cdb40) 0xe3aea16b4d98c1342a91817c5f5c265b60f0105fa5b94f25f9996eee525e171b 0x2c62b4d7e1b60316125e3ed65a68a6719e202b83509f712ecc284ada6ab58c6e;
  SAdd false 0x8c1b15c4b7bd69ef57fa199bede0dec3e82c578424c7baaae80454722aa0e70 0x308e30182cb5a901e05c057cf6584038b980a84ab05672000eefce5ef5479f29 0xc308df95646402c747f70a8743232a7260d7c6b216f4dc432750b42c2812dc37 (-0x33d747c7d78e85098b457500bfde2afa766def457c0c1a40bd7074c24e93fe2) 0x4cada2ad0efd6dce20ff5d199a41f7d14cf51983089ac5c14cc58947688a25 0x350d50aa39147a0e185e74b9e98c8fa7bb7074ea10484a3dcfb6e4cef0a1258;
  SDbl 0x7217803bd8bec349bcdf22731edb4b55f2b24936e09a380023790fecd4ab0174 0x160ae3a7f90dd4a87e2b01cccd4fd1671a6f09a744bcb8671aa3a532df9382b4 0x53201a8b411e9739018af6a61c001cd8e71934cd3414a7efc6c26bd9d720912c 0x9236d3167e89a2f26b8cd13ff3a3d80e3c1905921c98f3a088723cb4b0cbddd8 0x32d8f05dcadfaf4ef11092a4bfaebd62f1bb2f55fd5a18cb4ab94f6db928a476 0xbd0e71db9d3899c7a858e80538f61fb077628e1cd77a067eaf98e3a8f53135f;
  SDbl 0x3479011532bc8c3055ef7230cb5d506b88bc2ec0583f7094a559ae10b8ad88d1 0x5e50e93c35b9a01620d7218bf66c62a0c3539b55fe1947189435af06a95702be 0x7942e387ae5cc671e065c1e2450dc636b59ef246fae0555a581efec0646c1252 0x1c62010f73c2f4bf6a5889cc204bf63446d8af010cc52ba9ea0724978d7621d5 0xac161a2ad691cf9ac1931f27e591dd54e21126ad9321c99bd43d8fdc4e54d85 (-0xed06289104ae68b1f31f04e7d7450949fb735b8e571842dbbcf628979108458);
  SAdd false 0x5dd5ec1c278de42ed4b6b722ec6dc7e35ba0b5c3389ec514ad773b8eefe8b103 0xeb8aa36b31e62dc291f2ccdcdf70a1252f3c877e4a476c9c3aa04cb99eb3c6d1 0x6492363d1498d98279bdbfb24a01f2daa075f5283e34da25413389f6a9ffc75e (-0xff6554c1d151e72a4f4df4467cac5fa63d7815b6d6456a4b231b6739686920e) 0x2265204f57bff63d5e177bf4536691f53dffc560c2cbd57458d631f09182184d (-0x33c3fbebee3dbc1c0f1ef1e8f8dd82dde55a4e72b921503748aac7e17fb4b717);
  SDbl 0x84994a21b2f72fb2b39e963a982a209cd0c0b9ca92d047f3682f71732d916ff3 0x831e736b2d529f1622d3d195c3527c124f75802e69476e2a437313de7cfd787f 0x466b464004f8be2222fa9ce4ede6b2a12233f888f4e80020132edd1b167d458c (-0x221f840617e8d627ad76ca64602c69441098e4422b61d6dbd6c72deca92ea1c94) 0x44ae703cb6fcc4ca8c3d4c321e717ae449469e4c9355931fcfde1f044a2a6578 0x36164fa5ed475ff16e65b9694f5df0cfdf6b238bfc1882f2113de695ee092714;
  SDbl 0xe8c705e406e14c8c83d21ae249666890af56901c7dafd8965abb0a705fb8a0cd 0xf95f893b28261a2d9554bfbe698382cf3fbe80a9d791f1bdac03658685d766a0 0x4555bcf35d78d50fef3c8079f5071e8a9f68a5caf367cd10739fa15e48b48542 (-0x49689be439e15da9f7220746b3ac909ce1250bc3fed2164e9ec3f7cd39987538) 0xd3a9556848c715cd08a6047c38dbc524d4f375726e5f3fb1d1844963ce217375 (-0x6b86eb157614a33c31770456cf2eb1b991534a3fcb6a250c8fc763fdeebde4c5);
  SDbl 0x9885af388030fe8fa25b7bb6e6e4a5bfec9c91f37dc3c2d62da54ec698d5cfaa 0x74d40b881b560d83695ca6bc148c2bc3824d280339dfa938eb0d8d68656ed4c3 0x26b32eaedc0415f559443a660179a11d0bc8ba3e5c93647a2b953bf705db4fbd (-0x28622bb7605b3512cb4175aa006a4f65da4bf65a29ae3af4f6120df69416a0bab) 0x5adf05e2fbbcb2d15f70cf894e30226cad612129d59e2bc8bd68ec5057c5451f 0x4ef809d388693b2a09c569716155ff542abb3d84d4d36ec53420c894a64c453d;
  SAdd true 0xbd2ecbeacbb6d7209896238bb0d19f3db590003c86bc64595fb38c0820868fc2 0x167cc5058f2cda6d66b218d6a5f618a226c8f759f5868bcf296a7efaf8ff1e4c 0x9083f4b3ea38a32145fa4982b2eb5410e0094896e8a164bfbea0e4e17512c85c (-0x30d16b4ea636166a5e46d5833ed569e148046663f955d89e45d68b0ef50ede25) 0x8bce21a72769876f9df88339ff38efc8ce7bcf6f40ca962346bf3b2141e818d2 0x45b7ade30e69d6b73ad14d49ecd2967a764b99160f808ac4a3459159850f58eb;
  SDbl 0x33292fdc082d3522a48671a277f6eda351c728b30e445cdbeac5c76dbb2c2bac 0xefe14e56615d7b0c5350953f4d2f4e98b7b6be86fdbe3bbca47a88c78ca301df 0x2712af0c94fc22e4e586590d5ae7d61d7bc51d90e56d63ad4d9d2e1e8dc60bb6 0x33d607c7e7cba76ac6b23190f989322127dd01ff41a2af28c8f52e54f4cd900d 0xa396fb212e899778d07c510b7292750a6d6b4bff0186420b83b5ed92c0e02e7 (-0x2b72011991d0bb0468f46c1bce2cad03cd6e38d04af4b5d5b385b8c1c58c942a);
  SDbl 0x939403782fe12fdae8c153f325772c792c796cf24f83e76dcfb72c7ad2ce1836 0x67ef9c9cf0fb9bdd0c32629bcce40fc3d3aecbb20f7f649f9cbf99eb715f210b 0x27d1325858e640b2c36f727a24b8c7028e1765760d7efbf30dd4fa8c56f4a9a4 (-0x27546c000bc3a430b6ef5a080cff036ccb38b3f3ba6268e70e80e5f4684ae9008) 0x551351905f1354714eaeeeb9e345c1bd761803bd35bba24f8228425ef972f965 0x4e5e62a030e8fe13103c7300f1b1ba0afb3039f1fac10ee2a399ef99f4bd68a2;
  SDbl 0xf766e4c11d9721c866f8df9d3a88cad707d34a578665645946073e1a533e8ece 0xa44ab76a51b0b008c238d2e9f77d3a41859632a3ca5537e984c48c443158aaf4 0xfbd3e0c6a1410b66e36cb3520627a7e99a11d6ea606a4f2e6e6a30b5f37e972e (-0x31a25fe127abc0af2d709cc25ceec406b45898ee4fc2cbaabf9ac80020197088) 0xef17b6c8ac7d7ccb245d491594604486b71256bffc55fea6f60d566004a5bf46 (-0x3a542917bbff7a6831864c114aa0e40a8421efc11cdbdf922f7ec106ded287b0);
  SDbl 0x92e33cdfaf81a31cf5a2cb93cc28e673bc42c3a8cace785b19c40ffb19c72b18 0x49e8320ce42bb36e9c340df00a386cc4ac8f54bb34f017b4cee5903dab3a9868 0x7b51364dda0bc21f38f3beb8e15f7bb0364a661544c7357b515cdce4820c0b30 (-0x1b52b485d5f974b000dab2bf10e7b72d21a4f2da094dafab8b6f1d1e0e4ee2f3) 0x5447fb247ba2b6d0c9ce43fa0ac6f308ccaa224855ce7dd2457ad657575adc10 0x33dc6ae9cf35905a4dfd199b2ba247ae134cef8c12d18c9c909cc002bec7613e;
  SDbl 0xc45fc4fede326f0e0afddeae287b4d9442de1957c84d2206721cedc7ffe89d33 0x53a9a96c6d083472ab5afdd99cc8d98a5e1931f25f32d9735c358901c3286262 0x157e72acdbd03d9cba3a4dd6572760ac16f2bdb686ff877207aa449a8d3fa6aa 0x7d2de1c59561910fac21eb12dc1ca63de9b171f7c5c2eaf46ccaa070900da99d 0x96a2c97aa7a02ef17bde7795e897a9280c14376cf1db06899c5299aa32a5fb09 (-0x77bc5b24e89a9697d4e58091ec37f74fc727caf1c64772085c20dbe46e6bf58);
  SAdd false 0x9a4415c9c0b23e47c25023767b9b4f4db040d6d2d2164c4bd6d52de59ee69261 0x44bf9b74dba8d0777e670beabddceeb53c89af3dc31a75823862c15a6fbae045 0xb509f378d0388d0aabacfad99edc1bd7847400b7457330b0bb6a30e22c13d569 (-0x13d27ec434f0f998efd9384a0c9d162172650ada93cad03b5d685de19b602990) 0x5cf5fc52add5868f80e697e37aa18103e025e631c8367c7189ef28005030eead 0x8fcc3d7a056f6797ffb3faef67836ada636b029f937001af39159dfdc92a516;
  SDbl 0xb4a9c8606dd682b23a8f89f3eea3a29e06468b33019537ddf3c22be9ac953e22 0x94538aca2a092041766490aa838cb757a6f6300245b8ed8c9887855e0323f5a9 0xdfd7a615bccd64e3dc86f09d3b6515fe29d15f8da9af2bea1000b77f4c4da46f 0xc82312efcf4a3ec158bbf47e43ed6088a0e56f2980236aed881bb5d4a758ebe4 0x7f7f3262461caf573400bb111d6e2aa255ddca7bb695f41f92e19fafcff139af (-0x3828cb3abf2e5153fa9d62d99efe362d39e2fdb112da933b181686e4dd4776e0);
  SDbl 0xf818d9adf4f4cd079774916f8a6a6adabab9037662b00e494810b8c37bfa2189 0x2d8e8d4f6234c65ab1b1a907605587115081743817b33f3f862b51424d951957 0xc1d985414bd1066bd3bef628c6322049de52b7bb025b4742bfc47f909f5e003c 0xb00b2bae9e81dacea8e05039bc5817d6ca49ec38a0147b397b46b013a78e1fe2 0xf070282b84c0c2ccac768e64530e6f05d2352b9528d19defcacc04a929e46958 0x6398cf69e903a96f5a90e1e87781e1d6ea511a91198aba64171e0dffc9bd2ac9;
  SAdd false 0xb1252bcf5060ab1e7d7b537414dc0de08e294f9ffac1e67d664af87d36554fca 0xb5509bf498d994a6968f74b324277890a885bbf0e5e4f6146b367295d206066e 0xcd6ccc1173b1e26f871b9b4a6cff982c5767d21fb27cca9bf3deb75999e0571 0x39b2e6fb20928e0c2cdd5b90871d3d3f3de1fc2667cac85437293da6b5258c3 0x7a946bfad926a1700888f966e01630da9c1bc58163be6baee484a40605e54928 (-0x5df0e2683f993ab951d1702f947c39a2f5ac24d858d3796fe4c9ab77da1bcd2d);
  SDbl 0xc935cee40ff5e06caeb04c14dbfce91d9b6b49e41a716379b530b709e5ae3744 0xe5f3882e8c545c218eb3491eb66366d8d603bd64a6a32981bc2f4a8c9054c379 0x497c87fa963f0b1866cd1f2405717d43fcd91b47600107c88b5ec41056007542 (-0x16d128e8604f6b8ab80a08b26cffa5b24707cf570a9b0a42dabad12c2c1f16c3f) 0x9e258a3210d81547cc4ea8ef041b631f5ce4a343359b236ba9c7ef8160028645 (-0x263a2482fc9e3b7e291f2898d19a7edd2237a1c377c965d707faa50a445ff161);
  SDbl 0x939c2c8cc0d7f844003f6617b63eebecbd335b05df72167ca3643831ded8749e 0xdac0e54ebe41ab259e1df7f08e4a18da8e3f0aeec12e4110dafa1f4d6922b4ec 0x8ae7c2c67ea40b41fce47f84299c79e375b03200daa6eca48624dc9eb29369af (-0x216ea1e6c3ee96b1402b75ce73e97c98e639cca09da193cd7d9dcd88ff437dfe8) 0x551cba704de07872b3dd2a055fdab067c4446a79e4f9848c400acea3820caa5a 0x674e854a64a2db3bf5d8ce1b0113bafc4fe1daace35c77ccffc361a9c1effeb;
  SDbl 0x6edd3522ed08bd01d951dc6ffe64dc5c53d93625b1a8df886a2a92d23d4caf21 0x34b68e30f7884caebb97ef89e29e1a15f86ccebec6cff580f022c2da171315af 0x8938bff1dae6dc57954435efe6ad424b680963668a0f8e50c09e5f0b8fbec4a (-0x1b8780e779a1d7dee447639a05056aa99ce2a5c8d1c220c4af5d8aecd46c05471) 0x3002d8cefd0b173c590ccebe981885832c3c570631452b13c30468e2bbf25d46 0x47e7ead31326191999816845c68e3be2370bf63be50a944a8bcb82fa5a951c1c;
  SAdd false 0x33dfbb00cad851c4cdc09ac7d3c95e110ef50fe7771808da5b21166ce8407af6 0x9a7254865ebc54631208b53fcbb7b577df65644ddb6d70f17b6aec75c1c3242b 0x20e37b71646e6ff1ad5552c0257012ca279380f3803a713d5e24ede074195222 (-0x64e2becbe98761b08dcacb955bd1b29d294b49c1e6f9aeac5b5b33d6a8adfb) 0xa82e809af50a5d53659757a89ebe3f788b32e297bed534e673cfe2d76134a3d (-0x149d5165570e191156c58103f6ddd2134ce39418c5b3223ccb8a03cce7d5be6c);
  SDbl 0xf39287b4ae63cd72e78ba536d489bfafbb97570fb2165fa3a0ce982f8430898f 0x553f461e16412b5579dc271dc4dac36eae82a15ba53d278c16f2d26c49f4d8bb 0x8bc2f1f563a347ba246f3cdaea42b4d4b41f3089df305c5e4d913334786bdb5 (-0xd8f3bf9396bbb70baf322bf0130e747300394e0bebb87d9b8357b1edcd17c854) 0xe7bf8180fcd7f2d26d4f15bc9a79530808a76a96495f9ea97a3641c675f0c330 0x41d7127a39c01e4dd9a6b6d45ecaca92e63b34a0a927169aeaa135888404fc47;
  SDbl 0xc490b15aabd3984a9b2f773f4f18f336d80b509c46af062ad30226f656f4d406 0x6469c25fc137f3ba3af4808989fd62c02837357a04290ef6269b521b1703287 0xdb471bf08c6074d6b349be2298f505ec4c9ae3f75fd3b4baa54a64cdd60bc798 (-0x47bf34a391a0dba4da0f556f580f563ca80afb6a7bb94633dca962583bb062b4) 0x96ede15b6ee9b250dd2b91b4c6ae0daa1635a0eb6d73f9b77134add9624ff3d9 0x3ca304b7b22e60f68a634d60e3ed006f9dba8fc274d4a0005fc9a5b7cf439015;
  SAdd false 0x929af6bdbb360ce238996206835d15a183fa1f8ce32f66fa312fc881c84a98cc 0xbe4711747847c86ceb2ecb36d6e1d506579c599855faf6d5a24fd3c07a564cdd 0xce5929c62139bde81903739f55f782e429ad087da6e3191be43e34a13127aa7b 0x197ad500901403dd48b8051e3056694c7a11e1230653b8751186e1099f5f7cc7 0x53f51f3e87953361e7ca0cc58f1b7aa5e82a792b64d7822f3c8a6c57edf0119b (-0x695fa4868d0b631052447caa98699da4b508964ed6d32575b5be6c5374f08165);
  SDbl 0x3920637e62e6eb6aa9aca447202524a0eda5cb9b9cb20917ee95a2393b01c9ba 0x976a40df92f02dc1ff110a35a5fd3fd588302508e6423e7931ce487eb2eb00fd 0x7fe555e5bc53fe7f3c8ed9f60cbc5a51a8ec21682bc1b6b700da76b49b53a74b (-0x14c30c9a2a159b70cda0d5791b7512b22dfc99ffbdcbac347e483f3869f9efc64) 0xcbf70675b0dfddbd0e122f0a2087f5b606e7bb8b31a59a73434e02cb92dff93 0x8ac1525d6b5157c46ce0fb4d98363db7cf9d3e327c228cb0623b12fbe135106;
  SDbl 0x6103e36101de87acf99dcdd08c41ba44580e8232384a0f5708054ad8ff9a6ebb 0x3f284b4ddbd339635444bc671745d7038382b74026df7fbc1cf3222b08ed753c 0x7e9f2e12dd5332032c103bdeda268d742bd2fc316ee3053c562275599360d2f8 (-0xabbbe03b866bdc2276158056e8970fdb07b4dc50f07630dd9467095f92b9ed7a) 0x24c3f25ec669ce7a18e45066ec834751544b578a34e33b87e16db5d67be23a9d 0x2172553626ecaea8e25beea592682a354be57c607c4e368110af7452bf587648;
  SDbl 0x7c2bba729be82368fb05919d7a737d11a410870cea17b81acc7bc53d91566a09 0x5585f129ec6f2d731ddc1b1c2627940d84b2cbfc7221432bc862c9538eb75921 0xe3c3e429a3e6dedb6caf7e832c6cfc7d4b1423c73cc5525936027b02f47b69e3 0x4c16e454e9c09244d6d282f9179719bf2d05a72c61c96271257fb4a6da337cbd 0x3c3a64176d8e643d932720d20862431514097f74441f659230bfaa16049acf48 (-0xad92e5b8cb03e386ce6d3f7667c5c22194e59de960abaefddd19558e7bfee18);
  SDbl 0x913e29ded76096b77ed740e1ef6d625b3ef187055e5742555d17f4f25865c14f 0x27b16977498bc048a4a4e47adafc6cca77baee785d146ebd5af5ad9545f5d84e 0x2d9e7960b8850ebdec3a801aadab10df413927c9ba71655dce340a44a1be1e69 0xacbbdd2cb3625f56d34b33919ae9873bc399aaae982f487719a58af6e1b042a6 0x52677a87112c5b0320bd314108ec36cb55e18cdba557802492231187f916542f 0x1a0081d4141ed7628bb3d6f2de051ac440cff79990c8574632e1649ee524b42f;
  SAdd true 0xb6cda64980e1065affb08d3adf09fb61b5b6420f8074d482659ed288b664d9af 0xaf8cd18f2840872020a6dd79a90302bff8f533bcbdcf214d3d388cf4b851ac6a 0x2cfaa7a1e5c75191f40aee907645d9a3e991622d28d8a25f458714b6e1f76d7 0x7e8987849299aab16d4fee1a216d7a669cfeae05c6cc37f6908d957b1604a80 0x82890da4c384d350ea46cc88c5597eb0a2930dcba5ab358d7d468ce393c1d3de (-0x61031ef2fbea438cfeb7ec67a48414a6f933c7a561d31fecbbbf4eb629a0af9c);
  SDbl 0x1ba4bd4b9aa01c765c0332f8c4b75260a81d642467671e4d1a619a8ba214b7b4 0x58501b34432460c1001c04468761fe79f7ab485d5154b36230ae5d4f1fd5e3a7 0x2eeb638e6bd4251958816e8ce632855ddfd0c1d149b09ecd7359ab4ebc1001f5 (-0x1688a0fb7ba560427430cb857304742db009fc2465afd46b9ef87966bb826acaf) 0x2fc29f10a70c5badabbce2d43eaacd5d1136bc9771355718e952f93888665eb 0x96b8aa207ebe5d52cc9e4d51431ec1909e0c907f58c44df292cad926166eab0;
  SDbl 0x8d53a933f4b0d5ff37b0d22d4f2593518ecbae6cc9eea08a8f394847d9e24bcf 0x5582dbd4dfb917d654d0a346233f1990ca7248ac4c5f8221477e475c569974c3 0x305e6f34b5e5312bf369edc5c57f4597688b4cb7d4fb197574fbb05ce2fb2d25 (-0x27978cfbb6add1d19355e02cf6b5133031742168a66c6a2e75253c452095f366) 0x4e0543bab1165dbd7acf0f38c74bab4ee441077553ec6238c5111899b8564ab0 0x18bf64d27a271bbbab212724d085f27b648ac2bbf97c3e83b64b8d10968b8be;
  SAdd true 0x2c500fa31ba09c29fe567de30a53eb68db240a4b91bd758b7653e35bfb8020cd 0xeceb7626b9bb673e35f60465dd1d9f15475ca09291cb35766ff7bd44ca81eee9 0x3e0631597881cf26114db7a000133891a91f381fce8b7bff4ceedb1c59a574e9 (-0x6038d66935efdc91499077fcc8f270cd3b27db5dc7f8e1c8fcf0aeacb18bfb9) 0x7ab9e69e0109da2ed8c5df41b4bf5306268c35b6e8842c0e98ae9f98533f44a (-0x1a355475fe3deebc44e464edefb027b62798073e59dd2ec151f0f9628df0cd84);
  SDbl 0x9f41c15b1b8d2f3fc0d2b7f12d27f3eb90f5cd28cbf4e651c9610449fae55ebc 0x7d13d87f2988663e3c0229f396af84580ae8de5ea59f20f2c3047e9a48274eb1 0x305ef45b252e6d447b1ddb221dc32cb8fddb05a397560752c2b9492afc99b7d3 (-0x2449d611b2d89f2eaed50751d31927c2dbc698d69ac042f8b2351546e5c60a208) 0x6312bf13519a9d6dfc1516d2516d65407cfef512c11ba58d68d147620dc49273 0x4593a523bb38ba03a0171e6ba750ea79bca6b5aca2c4b56ce69fd7b252c4f39c;
  SDbl 0x393cc1902fd11c7f3d707e1ff2feb5f332c015338a761ea133c0c562df4f1808 0xbdd0145718f5e85fed471df58096ae66240afd701647d1a4431caa932895272a 0xf17e8c7eae0aca6d4002902d373cf300ba8621d655f293d8ab10c3ae044b4f18 (-0xa1b3ea69f0a831e42aba7b1f68f497ad38edddf3b3efcd33ad26b0f7c3f20a10) 0xccc1c9d90085ea2b62fa0970f96ba045e6caab70f4071af16d00d59f1b2444c (-0xe794663887baade09445910e45eae79b8195507d9e0a23a08a6518c7b09dd4d);
  SAdd false 0x3668324db5956ca2de9b8866518136c8e768eb00d6d12757e6a6fb394da5434e 0x4ccf37a71dd011bfd7dc7f220207dd8a1eab37b315988cbf4ac01c6750789d3a 0x1773a993f6222c18931714e33b22d7ae1f9e1a637257fa7d7b918aed12a403d8 (-0x1d8cff811eb9566e47a1ddf61cece299f4cc426910e599f243c8d3caa1dffc8f) 0xb901fa1bd312563d28f3d126d64e1ee633f46c7dfd2224ed0ef4a9aec1c4d67 0x18042d1b570081395bc2be919b2d2bae069adaa773c8595143bd9d5dae737bd0;
  SDbl 0x53cb0aef9c3141de2527aec31a82a4a6fe1db0f024078bcbeaee584b0a56cf6b 0xd75dfae137afd25bdc99989ff795866de0c11c912b7347499a1b5f1cfd29269a 0xa596a67f6a988d2cf21e370195a512dc185a27cd2ba9a236c58978f3ca217251 (-0x35c8deed35df2468311004ec38a45532704e5b4e459c77d068352e1633a1f327) 0x1b6d4a21d32e896f31ff9b225da11146c801dbf40125cbb72ac599953e282a55 (-0x2d5a2e6c16426e7e8e4ce0426166b5f94018e6fee1a9e35d88d70bc1501c7eb7);
  SDbl 0xcc4d6b4a75f24e3b4fc20a5c0bf9427dd8dc89ffb2531f860f82bb6090955a60 0x73a00c854ff1ff02b39dbc1e2c2d5aab90f6b653a875e4ab2932c43f6ba9a97b 0x2117c40e95021a7c33d03437574f7a79f43f25bab0e769b8a9fa4da5feccb69e (-0x11740b8ed34f4d91e235def91aa65bbdc5e915cad380ff8d5f639cf73fa4e72d7) 0xa30b7a6906c7ef1b91655a2907a319f8b6395bd84708597f60351dab125452af 0x4f9983dfa36502c6e4585f80d2ff012f480a7469aee99ef88217d8272417574f;
  SAdd false 0x2e54da6954326739bfa5dc6a80691832eb76e083d4949f9881bec470b5bd41e1 0x2315f3c7d5e927e16153e0aca3b503a37ea7d487a401ea627579b9293f08d42e 0x14810b71f79b96404486bc2bef4b25d27301a8fac0b2fe002ca3b27746e58c67 (-0xbbcea44856e3e0fbce927a04c6c98f094b003068f82ee21e64b7c40bed5a10b) 0x8629a9df21b878675b90d05752a836e53323afa19bfc332308b6aff5cd0eaaf 0xe938278f4dfcf3ad976630d137287122f0f0d2804d439a4426bb10e4b553d58;
  SDbl 0x25506ec9e7d2dedc58f776c01047eef5908d78622d25a3d59f9dcfe428768dd 0x767b5921c1c4a474fde4774eff38f9bd4643bc18668e4544c386c7215fde02a4 0xd84f2c927f1387dacc678f3c5c8468a4f4e864868a3098e8425d83430173ab0a (-0xe0d64a45aea3f79a34baa32802ae634b242e91aa0d31a4eddb0700456d5710d) 0x570594bd09653f9de9b05540612fb3768574cbbfa87ba3456313625e55c37 (-0xc27db6d0f06b032cf3dd3f2d25fbec301986f63f6e87328d852640d883bcb1);
  SDbl 0x8292d6e8d9c384e6f68fe018a8c990a622e32f26320753d359fa3a9f6cbe0928 0xce925c74ff1bd29f9445a85a13c3428309ae8cd68ef009a184bab1396f32c0d3 0x7bc6b2846085a9c4322a1d324c22bc81e92fc17f18f9822a343fe762e9c507fa 0x3826b9f40a07f3b5fcac350ef7adc11f77e9fa856d9802e7f0f00cd9fc60c40d 0x4299767e95c68c5b0d71fb8a6f4926fc9e3365ab317b55fffb41db00d73aefdb (-0x2cee36c3b41ed9b88f018f797a763879af5e63d5406051f6d81942bbb9f7eea4);
  SDbl 0x79ec6eefa593daebc33330316b9b9860bc65567766c95f1ed7bc99d838738e5b 0x6ce1463addcd3da31fd7fbd1362e6a541bcf69b2305b3fcbbab4d6c5864188e6 0x1c78dbd7e6219b90ae3a589f5e21254678faa58b04c19f9ef6b8ca4f361d2cd0 (-0x17e292b0e5c88d69c7e441f0bc783db1c9480c01b1c9ed866cc06ac54b88d7a04) 0x3a115b3b7e833b6ba506d2eabe754f13f6bfeef51f7b34fe64e677375fbbf633 0x2e86ed17b0ec101738e3e7f05169be911489c31333f2e1f3cbb181b88da6dd8b;
  SAdd false 0x7ac86c023017a9d2f6464d74d811caff19d6f1ef320ed0b9e06c819d4892a7e3 0xebbae979e7a1c99dc3a43605268f8c10b7c0e39b1ecb75ac89600da82a007379 0x5bf4b29d463d089d4209f7efe459bf9f2007fe33d50512394df55b83e36df6f0 (-0x1bdf1f527d8fe7c9f0906e234578e09be013b85e32af23861149a727b6380cf4) 0x3ae3a3db41b72f4a6ec487ed0ea5ba074bf96aba6d23f3cfe83fa51546887ddd (-0x3cd70758b72c670ef598c3b62456d36a10eb5ce92066df4887155262094ef6e7);
  SDbl 0x1bdbf126ca9862b243dd9d5429931a6d3947c8fccda33f0f77e5bb0e22d21c61 0x4385d3496a1f4dc6d2531043bdacd669972ee0f52d2b4db27d6ac5fdb782cc9e 0x13f0091136efcbd2ea7e92179a4a28748fb82abfea203cedf1d922a1ed593381 (-0x2772e73c6d6cee21329fa159f17bbf38283278c366bcb54fe6d062fd790d7d450) 0x30821d4ad4cf6b2d4039a37d7a23a492c335b3bcf88348cd37394b5b53a56cf 0x124e1d34a1e9341f9a03e99291589c4481cdf8d600557f175c58fdd4bb44fd76;
  SDbl 0x2d057cb1280824312f3e79378a65e1eb93fa82c1781a1d607a56dcf49fd74159 0x8732c4fe85bbdd01ce9a3ae633ab0653b3c840bdc403b3bb0d915e8a38b64ac4 0x2752d13244eb09add667004087d292faa02958dd5548c5372168dc83d404dc6e (-0x2e6ab9ac98210bd5a490d6f8cceb19bbe0a7fcee17f7444e31160fd60ccebd29) 0x7eaedf46ba5745f64c180c7285a7f9480c57b5bac2cca0b3e2848b2458f930f (-0xbe6d9d43486ed6578344a62f74348547c896eb962660b5abe16e962b4c96edb);
  SDbl 0xfce8d07f0157ac23f1b40394e6746345b8cc048cae769832f71e3b0ac8f44a3b 0x29c0a7f4a6bc2a43465f33af27aa96be12848fdeddb25537a1918cc010cf9790 0x8ec12e9442152d192ad0c696c7f45b87b04d199577ce3ad1fe57cf06bc48a0cf (-0x88812f7ec15c04b067903070fde0e908e56406a7376bf90b1a0f20222dcb8087) 0xf9db2e359480d935263a5855dc50b52c508c24fc3414378c91d4ae1ebc3e037f 0x5c51501b7878fb9917e38d0e8960906ec8ad292e2b30a9de7ee4a27f40c52841;
  SDbl 0x7f7790d33c61be734f3bccdc10917bb3c8757809be081726a7f08f6f50226b1 0x9c50fcb1617482a38235353482d4b98fca4e57b286c6bac48cb9d9738cd1b98f 0x9faa8dcd7805132d3c974723ec7f72c6acfcc0d45d5c1ccac931cc126e968046 (-0xb8b4404e62c3c0a24f062679930fc00b68178c3e50872990039e01f47963f41) 0x3f77d989cbb14999d121ea446f6a608e3f4ee3b1193224eb3468b443d3e24e (-0x390b1bf0f50cedd66f94471000050a58a18e51e026748e6988412ce779d839c);
  SAdd true 0xa76e60a91df2322f0489a32c44e9bf600bcfb9b63c052136b460313c0152a894 0xa75f1a49d1087412e929652db199e4d5380493ae9015c616174cfc92d8fa895 0xcd1a533ee5c184691f012b4eba9b2ba013b568a4e3fbfffb24478ca376b28bd7 (-0x4508095d47fe798c190978f79d3d4c2786bc9df87f5f0187062eb21d471d8c06) 0x6d8131b44868317ef3a5f4a7b976f2f2c13bdefd8d96dc518d3f816457db415b 0x5f64c766f1cd4655b528762f8a32fd5a7447390fa554a5ddb9ca59e10ddf2b95;
  SDbl 0x98da648ad4c3c7a1b55a2cf9d1b0ff1a26c0b240b8f90e3593e129efc6bdab05 0x917f57887860047bb1cb8839074397681bb54e5f85ff9e8c4f2ba8b65ba90a71 0x2e0afd4ad9c779d2d1e4991318ad2741ae5ead4a371f5a12f27f64fd3ae4cf09 0xf3a4ed258f759b65749d77637fcd50ee03c1807814bb137ab451393a3d2d03c2 0x5b4411b49bdbadb7aa7e091875b972986c1bf0ad5599ceb3441469e10326ad82 (-0x50a0c78945f9b7ead66fedf059dbba6ed8ff2dd3ae55a684184321210c1fc7d4);
  SDbl 0xd2e8b67ba6ea215aeefff802bcb2c45a1ccc3467b11684dd64d2c4139ce10288 0xa3482bd7ac89dbe0753d086b096f00f924e6308b7a133ee6d1f26390b7a8bf1 0x58ac234c8c7131a757940dbad6d36f9109f3bff98869947dc9cd475666635272 (-0xac36c4645b97378ef75e15c9ba6141be378fd7450e3fce3adf13d6b1ad4d0bf0) 0xadc29eeecdcd53132bf84881b9a94118d1fa1dd853f0d5ee6eecd69a8fb63893 0x6f765ed057e532215a6ee323530e3a092ddac14709ceeb262e552dad7d17ed7b;
  SAdd false 0x1291bba00ad70287c6cb62ad986b1052eb98b6fd3e0a291bd6849b2cadf72258 0xa6addd8c9888712f9738482ee2861a80313ee41ad4cf54edec23b0678011bac1 0xd2f8c6bd8e82a07dd2b16909100777421b195c1f974ce29f78e0a39947a8121e 0x2f13a710fb6a6997b7efeff7fd18f41033ffee2fc0c20fea1334044a2d4475d 0x158d15897ae8928385d5c5be6763e0ebf1e8f6fc246acaab91acaeb846d3d39 (-0xb599bcd828f278344a9fc03a79fff3e7d64b15d4759e7c42b37c55b6f14e3f0);
  SDbl 0x2a2400dbb83ee59739e710a9252080b463c5e569e44f688808c6f7f733d0bc7d 0xfd5ce1045ac9eea07434a303d54d2f7825f2dd5287ff6732fbe022afe0d45893 0xb2009a39837ec8dcaad4da5ee80e04ff0b32c960f6fd0e8bc1bfc8a32d4a95f (-0x1001cdb9f5372109c6034ef59b44b68d95a9e0bee793ab9f09f4afd4c37e0b0cc) 0x6efd5585d3106f34ef06ba1f66c2332d64b0576d4ca0ded9fc9befc3d0ff90c (-0xe44e778971605549acd4f09081b9b7a7957a67661b02612af85244749f5fcf9);
  SDbl 0x71c8b9a4b527958c8aedf7ef75608e4f526eb064e023bbd2030784685bdcce5e 0x13fe6e3edceddfb9b565b607640cbeaffee78aa59f66cc559eb94355ba4cdbed 0x42e212a50c8fe35323e950b6f5db041bc5742e6a2d43a53d894d7b4bdb526867 (-0x2e65e68ae20bcc7db723c722b602465b46cdb7c0dd2b0a2331da6b20e03b1188c) 0x3292d146327a48f1c1c72e1c236f510be0c47633d1a3dae2a026332b500a228f 0x67b9abaea5283d8400914322ce454852c31ea6b51861f319ee63688cc171b8d2;
  SAdd false 0xed63a6fc2b58be081de4cae6189a0d7ff4958fb0250a203e26afa66538d85ed3 0xf770c27fa4c1de81fa9095d73b81aaa687183de4b94b34614e7a71daa4ff1af0 0xb9c7278c8e2240b7a6cd87cf9fa70ec4c10efac4916e1790ad43cc29ac820fe6 0x1c8983ec595d3d61b06c9105ffae570c91048c8a1be7dfe8496eefd9c6b89f4a 0xdc21a9fa58598114ce79d511443f6c35224c90d56816c66893c023df1b68c9bb (-0xd2e961938ea5e9109285407a4143de9722951fd84de21586f867c072c1967e3a);
  SDbl 0xb2ff43bb9be101678b94de096f165231a65a959e2d89d8e4112f5b1abec7ec64 0xc398ea4b462dd78eca81b362ee6803093df340722fde2035dc8d9d38b9a32b9f 0xa34e6783a9b600c2fad36bfb8235f59502a2a868bf4be11b3510bf146fe7c2b (-0x1c9b4eaea3a50fa0374d88eac92ac06ae690eb4bfd79ac6cad85f8ab62b9f98b3) 0x7d27f8b9639926030e5abb273661ff607aff7c6d58b2f00bf3f2059835e0da6f 0x243fc60c65fecc3bc8d807a0b810b23c26a883b005b803222f393a931d01646d;
  SDbl 0x736e823ca4ec128ad1a1531d05501c96be1bc0894f9e10088990bb971aa45d81 0xc4d689e968594969f7643404b97a096041dbbf1dd1b6fc089e72213f902f2953 0xff60a6e7793c8e38f629669646b9a72a5bdddd1fb8920d10da4e392e5768f607 (-0x1b72299ea495483ae916e4e6fb249309959c4d59983de6f4185f140eb200dfb16) 0x340c78b6de97f21d01f808daab980712501dc562844fcada8326cafce0068590 (-0x8f37d03627c0321e9f5b93101c3081e9fac6ccf8fd1fa19bf2ecde9a93521a);
  SAdd true 0x9a17bd345f7aed3a4bb6b487db1d4fa4105899f6870a4d7cd0a77b12e8f2e836 0x49a4beecdb79e133eeb51cf24c0d6a6d0482c2206941990171b27d14ad564e06 0xb5f7fa4d630b7501096b7b218ae3305478df5ea2ccf238e9be7b734691efffe8 (-0x57ec49c0055462ec39cb85d89ab2f64bb77af9ef64ef010ac2b431de9e660fdf) 0x5cc091d6eadfff0a1e4655a4c6afab0c5ae4517a79db5dd5c9c52ce7b81800bc 0x4a2760a26a82beea712d426ec69164d458ba4364ff191db6a99ecbad7212ebb1;
  SDbl 0xe8ad0e02a6f1df0ee611515477f6f45e52db9bc0e3a93cba9f20a5c9231d245f 0x2226e4680d86591fcfeffbfe61b5992939da3e2c0d412b3c19dee368b1642092 0xcd868eebb56c9efc49a7c6c5f1726636a1e23b80548ddffb746c6a9664f5da99 0x10b395e07b6d05ba9f729ffdf97957996506b1b96772e5765a77a6c60a4c5ca39 0xd37a1e61926a6fdd8a9875e11c234ec80d5ac9dfc90cfccd2a0d4f20cf5fe15d 0x23e4c03e74f8850656174d56e82f6748f26b8841deaec7954ae68ce2677eac75;
  SDbl 0xc4eb51c3373b899c574d3d253ce5ea530e5a048f0962dfce137b7a7d887a7d79 0x5776402a15a8869a5acf97a4208e2c8deaf752e3c7a11986cf7023eefc4c4482 0x33b9d20566efaf2456b28ade31ea5906aac8065cf246cb7ea2042a59fb6257be 0x12e84d3706060e8c44a44b64b7ed508267c3174ec30d2c2bb8b1a9bb59ce86b27 0x97792d82ba90dd59a2faa12eb0815829b631e61dac869dc02aefaea9fa412275 (-0x2901c320b555215a25ae4017b7e7a25cd132b0c53faf73adcad1671a3e02a139);
  SDbl 0x41012329c03df6a5a4e33e9c109fe8906097c76710a13f3233771233e1f9797d 0xafbf656d65f781cc868736729e092d4b496b1fe88f736532a7293a9d07d370fc 0xd73c74dc56894e15ffa312b2c560a8e6ec3f356c3ce89bfc3c6a7beb74f635e (-0x3f5ff063a339a43a2ed25fdd8a27ef118032dde163f52f919e5e7acf12075583) 0x108193dc8f48fcf8aff6f9a751713fd223356d0abe465dc19fdf0c01b79a92f7 (-0x166af6dfb92dbb28e18dea4ee0d715cb9623f813a999213cf9ed62994b9de352);
  SDbl 0x3d6cc1e429f3883753900ba94ef844ec217e85740d5def166bf99c1cd4e756 0x186a3dc7a587f311f11f983dd001bb33b6af6703b6d5eb58cf5582f5bae0eabc 0x61c05457eb8b8e4c5471e8840ea3baee70ce88c4b64253b42d33f0e8fe538c1a (-0x169ef3eb296aa89530cf6f40d2f09c129c9d021b9a76dd883844dc701e689fefb) 0xebd029af618499c36a7688e619605788136739a01f4a30577b5030b7bd0 0x244f94fd709f3877bace96eefeca9ccd5afc115f9a54a09d0ea17ed80615f8;
  SAdd false 0x7bc140b2bac93eb4e1e90f937cdca2e259f58a48d6539dee350bf586dd12de56 0x96c3f1de8d8f41e7afda188ca2eb12c77ef9930b7380d83e05d2f6682efbac28 0xcc9a210aa719308a930d36cb7b1d8796fabe6ee8bd7a16b8b104dc2b111a667e 0xcbd58d8111ba03266c8e8b1e14f854393d0e86d2221930d1b6485bcf6d69993 0x3bd3460e992825edde796e202468a6b356197629b489787642e3cb9a9bf7c6c7 (-0x3d147b16a76a5da2fcbe8c1f095bbf30f519c317bae3f856107c4c65e6416b20);
  SDbl 0x7b224afba5806a6e1dfa72c872d8486eb46b6624329cb3ffb37c10671ee50f18 0x304e860d56ab66afac457f472872992fa8d4ab2e96e1121b005d100d12aa51bf 0x7c91358ac6c8cfb18494bb205f8dbb4d7b7b18935af6b8dda40e8ef3bf4de573 (-0x458bb3b56a9f2a7b14d9746df9f037d3ca8c03c4feb83e2f9d1ad95cf3c0a8e3) 0x3b39f8a60d11c81455778fc7918d10e5c89b37028dd9aa2d5ad35b0fcecdd7cf 0x31482468b0f92ccad8fcf9cb334b1bb1ef4defc16070b2fb7c76ae4e368eab19;
  SDbl 0x5119b60b199ff1a3a9b5525cd18736bea2798193b246a821933e56303e2f7259 0xf06f9aab077da9f249d0bb96b630dd7e337080f5d5f053c172caca0b2aac6701 0xfcb13183d904e4c43897220dea3428b6612af4d60ea31d7a39c5f80ce424f668 0x33944a56db8cf6693f1414c6bbce48a0a5eec1a0d1266503e045f1e63e954f8a 0x19b147c82f8748d994c746e0d2b8994fccee36f82928c56698af3897043fa78e (-0x3cddc360fe85d296e5c65df9752cc6300aafb59e462fb2ea8e379710333e5c33);
  SDbl 0xb77dbecc70c695b1fc3efb93b33319ef40ec017e1100ab7c99f187c841c4d33c 0x24e661e3f3686415bcd6c960e4ed47065d669f5c47635350bdc85526f625a0a2 0xfb6fc40870a3e5c0b403c371e33318c5616c1bfc0fe1975d7f4aab6207856237 (-0x13b36c57a4511211d2feaee16836ddccdf78cf75ee7bcf492de8dfa634a6586c0) 0x8385048cae9b2b2a096eaf780740e8c75b6bfc6fb609be2fc92d08e4b1527894 0x91e31149fd9a0026f11afd370277ab63705c1c90261fd89833c0a3e186d78d5b;
  SDbl 0xa84fd34119a7806cede542c91a2a24d5ca9eac83bb10ddf49d51aaaeadbf8836 0x597c4c5390565c09397ff992807d48dcea590624f5066c31339466de76d92e98 0x4347b4d6750a4ee3b9dc6ca2a5c3acae55b133e3d2627baa99be12fc8353944b 0x13aaaaeacf38bd4404b9f2dd8d68fc93506be81c708668f7648504b21ba2ad455 0x6ea8de29f0d6ecf253a394404d9eba43a8694830db67de2139c7c25ede170478 (-0x2292c781a98ff06a1dc348af5bdd85c0f63b3ade64d6a1e1eb79d272c352679a);
  SDbl 0x5cdbe1c43dc66ad5e4d44c4ba640eadfcee3b3fe46c7a37ef08ac34d8e9abbb0 0x76458b6725d80f6af7cc5403e33591ed9442b86ca10202fc1104e93c9364aafc 0x93ba7e99589351f3153ec23eeb2cbe4d4dd04d068bd941d46a6beaa001a6d621 (-0x2d07deefd60aa71d6252a91297dc0abed0452c007c2d5594597296c3d94c8a63) 0x21aec7213af1a06b2fe776f30a8759e2e9ac9d186bd94bcf4bfaa95be7bc6f2c (-0xa710c36fb6353b9db6b0b4ed6ba236f4c4c907f55a9db094b3281d9ab1b04d4);
  SAdd true 0x7c0876b36730b22af4a7507eb41a852ebcd30d240a6b203e05f4eb32a970ca93 0xa647a286cf8d98ebb4c82e156044e3ee43679c552ac20d890515afc42ed2e8ab 0xcf4fec369d3e05bfb33d040c60c5a3e37a622d63b886af40ca02ce40b2da878b (-0x20b4a67c561abee90379b0dbba5ebdcf4fe94398436b136f5879ea2ce38ff312) 0x3c183345aa4fb3c4c5f20e72c980854ab44cf8967951812fed1dbdf5fe97b805 (-0x17429986c1ec92465651fdf42d10270ebebd8835fed5af024464ce7a8af520d7);
  SDbl 0xae86c08681922b33f658703e58b1d263052d1277a44941cf3b307c98eab7b386 0xb58818b67b5316a85564444b1a92eb6d85c55ed1e56db734f9af59ef6a57bd69 0xc29272a5c3fa960a4e8752ec2ec20266d4afca2d8d5d71152d3f2a745102d0bf (-0x29580be00ff79a8348dc0bb2317f2885ac2a66bfdeabf656bcbf9b78bb0520dc) 0x76fb74a56cb7d56c7165c180ed03f94403f392bf809f27d166576254a884e49b (-0xa65d78aaa33cb0d10e47bcbd906ff7da0c56f37f40ef26d09796ad234087242);
  SDbl 0x9a8f21682a0762f14b792f5db219112cde44a184d7bf8b57dc31af17b6fed90b 0x61c5e9f1791e2aa40a248076ed952adab7f45e71460b8c5000c92206e88c03f 0x7d532e4cc49f2a72bacf293fac8198fb0287af41f1fb73907fc2460e3c18026e (-0x973b6d91e5cd926c462071c3f4cc3511dfde4125288bb40954a7e51bd29f1f3a) 0x5d508438069c60baf365854ae538cf6489ce550c59edc35023dde1b635609498 0x69e8e203b2892dd9868482c55ab49fd5a33647adba1c9cdae58ef30a3af1585f;
  SDbl 0x7fc249b020ee1bebfe6c3fccf37d7aa44455bff76eac2b8be99a4944fe35a0fd 0x5f132e93b66bf0c3cd769a2da8cdd780294a0d129f8fb529b73374a0bfc2ac23 0xfe3247c7832dcb76d7a4022169b3f77f15a0dcea60e41afcf7672d8fecd938ec 0x7ca6bb6bd67863e611e6df87d06cef8cb918d641e4406d9e141c5d94d1e16114 0x3fc25890c4966d1c5442d084df28b97fe36926c2a6246568de2c51c782d4f298 (-0x2c65f5cfb501d6ae695c027a84c4e1fafaf4556fd041fd6581e18b334f2e2452);
  SDbl 0xb2c32deda8e336def6de5cae684960baa437430e8d3b79933fde763183ef0616 0xfbbd7d0c11e64a99e1c4bafcf56f4ad68636cb068690e3ffa2e99020164f2818 0xb67ee363c812b9915842477897256abc630b5df33c006ab57cf3e51f29d56922 0xf913cd9cafcbc5af7aad596f736be3b19c00038e189642fc64d461e803b84dc8 0x7cd400adfbfcad23a85efa15a6954a4da026b5e46483d4c7900d5d8eb49b767a (-0x6d65dc65437f3aa6add165a9445bc2b4d705bb4d8d3499eb14b13bdd159bf8e4);
  SDbl 0x2a2930d1c031511f3a62608612e3a20b9ebacc538eb36506dafd9c2a96b4fad2 0xec52fbaa502ea9975106b7d6595ac01588d554dce66fee68204ff11101472ecf 0xd5c3f71fc4f53fe89e177e65eb308b874549d56ff367721d5158c3d48a0cff37 (-0x2aa8b018d1877d8862b8014b9bb1d6308f3b78c59bc9e78b4a045733374005d0b) 0x6f18aa586809cfda0e5c63dc21b1787303dcd143038dfa29d443e8968d6aabb 0x289f4395ec2e97cd25fa69a72d3b12afe2264d64886b91623a99c649c92a077;
  SAdd true 0x25f81261345b0debece22d6115232bc905625b0f3290def0b5292bde08ef3645 0x59c4d13b806fd6a781345c6aaa133fb4f50a4209958bc1662ecc2319a361a34f 0xa314626ace6463ff154ab931de4b1f4cc6c8e320762dfb695357587ac8684fc9 (-0x1b856060e12e1f68ce09795dfc07449e552511667c00bfd2c1e5e20e13893a6f) 0x5a1a5b3bc6b386a6daa67e47a5fabf3d0e0449ae474efaaf0ef391d279e184c 0x15bc9060d9ef4571dd488478cc2df2ddcb8baa99bdd1b963e6da1c2b5ba9b580;
  SDbl 0x9d68f819ad6c62a38cd576bc900828527c73897ca06d7c5ef8b14c0af690ed3a 0x2bb29c8744ccf56144753ce05327c2ec7545e15ba517fd4871892d23a1fcc749 0x4023724dc2ca39fe2bd97ac78077a5563faa58b2846ca39fef1898d44fd79f3e 0x6a1d6afa4f641faff57fd6fabaee360805a29660fc301c29ad8bfecd4b04c60c 0x60c9eb5a64cf86fc78339813be2a1ef4bb88f0580cc073592745a0d7b3ab9cc3 0x1c540e5e502abb1df48bd1b0430ef08d9b5e8f29dd4f5f9fb46f63e2e05487ab;
  SDbl 0xaf8e7e06e41133b4ef6dc19695fe23890ff94e35a51522a68aa257e12bdbb73a 0x8e66a80ca9478e79cc7144e31dfceb70cd4920db66cbe15c386a005089255070 0xa5cc0b9438fcd7226fb747274610ebafb1b4f612be980b1a0ed46ad47f3240ce 0x4197652541d8a20dc3122a20f075cc0e4f5d9e75c2e8ba854ffe58ea931cec58 0x78641f9df1e3701518d849f133a257da75007499d62a851737cf4e8350bee5de (-0x43b004561d3077bab287c9dd9ba3eefdfb5d14bd1524ac0b4805afeef65f2c1e);
  SAdd false 0x2e8ea0956b322526157b8471c0a27c804ea01f4a412000c6abff23aefd3424a 0x97b61673d620d575c32f1072a2e833c56077281bc37c138f84bb41ce6039f485 0x2b919cc6620ea678b4d992a6cbcad36d139b708769cbc57c9bfa480b7de97259 (-0x10aa2839bbdc8099628710edaf9ad7272517837859d70cb1db07edf13d02095) 0x877912c457b9f5bcf25a60b6421c917e1b8a3f03cfb160659720399857c58 (-0x1b175bcdd1d251af776c9c3bdbf3b924439461e2cfa36a80d95b57ac5074c7);
  SDbl 0x8153ce798f308ea1804232cbd88f4a199f0600a3f0bbb50bf2f855525c77e47b 0x5406e40e5c801e69f50aae73f921895a32c568a26307f59ad3083d927496a9b0 0xe48b37fc8b9adfff6c640d2006414158eddcf8b6884bd652396b7016400dc0f7 (-0xe1b3a94f5160918cff61c6dd61a038b6eb7558cca59d4771fa3129e37269023e) 0x415591864cff36ec5e8520aec099a93ebe71b30276da2b9ea640500496c53fa1 0x223170c9b99a09add893e2c70db82088feaffdb80dce30b2f9956873c2d98af9;
  SDbl 0xaa42414bd1899f201c530461e4d479acad38a996bf35da76e6e9ac84f79b92e6 0x36fb917f9a7f9f0c88d03260e972172321e325e2178ad476a230f7bb43d10b8 0xce03d68b635dc3e9884226b2c98a5932c64351923cf639f9c08a9bb449e36874 0xdd41a1307d676757f6932260448883f34620ed404a0f5bbc27e522d14a431329 0x713c0fdedf467907e666e0a90f301c99dc507ae2ce137af90c35696d929b3d74 0x35993e0f26eb245a0055f107f401dab34b90489b7f0ddba6c1b740efba0c4a9b;
  SDbl 0xf7cfc16acf86d9cdfc8d1dd81fe063f6d3965d6c6adddf76f0dc4735895ee421 0xbb1156170f0d83832b97b52bacb40a58f368d5ba248c087508c39a94e5392073 0x54f958c8a8e208a54bd20d0cc386276d0f5c77e3844ce512b98f69a4d24b1eae 0x18eb65c3b6726cae6aa9068fd6fd1f281a21920ffe91fd043c78223be2e76fed5 0xefe28fd769369db0f9fdaa24124044db35d221090c5f47ff16c6428aa82c75a2 (-0xb1c1f4e636ccf34349f63cb636e64b2dc8bfca454556e5cea79a9d173ba6e5c3);
  SAdd true 0x3234420d92630f38a6beb083092e55474fda48ba4b6ee4c09f3c2065510ab949 0xb724da87a796e6026ee5cce7e324b8aa2be9ebf5a9770be604a526b2a81fce3e 0xea04c4b75dd37687fcc7b4f92c22dcda3d998096ab3cd8eccd5deacd43d0a621 (-0x1abacb891670bfe0e9e0041323427ac00aa5f9f6bd29f85a8d4b7269cbccee02) 0x9d874783d959edbd359beb35f7739c666d8bfbe96212bd83c1ac9838ed6cca7 0xc4fd2e4936ce258cd66d4d9d169c146eb61253db1bb270c7a455de626906b2;
  SDbl 0x5f5c0e0a9ecae9d4281088cb42f82660273acfd7a1f15e2381d69adea69d502b 0xc6e696e4842892dda0a2109115587cb3153af810c17f9123e9e54c087c141a79 0xf17b12e53619503359c0e236c96123950d962ff95ced0fda76799c5fa9193dd0 (-0xdab94a1bd5fb2f7bf636ccd89b9a7dee1afbd03278078236238fdb5ad4e2ea0d) 0x238573861dc758b89fecfc8e77d1ba4d0bbad1fce4353d01eb906e369a7acfbc (-0x5de8f636cbc6217ccdb9b62c80c4eb91f38cb4d23a0ab27699c61c11f0bde26);
  SDbl 0x30d692a6332635964cde3e289266f99c53aff6e19be3615ba50caef8f0f1abc7 0xbb99fd0acd0ed40c45feeeb7a4196c4a1b50f6ebc1053c1887e631aac774cdd1 0x49f6ab921f34654aeb44b93da6d81ef015b803b5804f2bace5fcc274bb12132b (-0x173798dd4e2470424e9c210a9a60cd006409794854b065973aace30b0e68391d0) 0x9512ad7de5f010fc7600995efb141c6025406c5314387457e836df1bfab8e12 0x227d55a762798a3579928f442422357a06ef66bbf395698fcb373c1e9fa8263;
  SAdd false 0x9c8bc543585fa9340e1475b193eebde3d56682e5357aa2156609cd301b2e62d0 0xa55fcc941ebcd90b1026ea9f334cf13a957e1489fffc34da870594ccd8b394e6 0x88dc705c41a817d0df477f25e5c262d25fc6c18ee316eb97b70b41b66d991b84 (-0x53acb151fd5818ecd00570812449c45cf8669a7ad2132380d9e6aad5fba1d7ac) 0x5fbaa4ba4291ea8e0d40bb33f26189cadf12b40b1d8c009f4f1d0cc14a90ee7e 0xd979841507485dfc38909b79592c890d0f86360d531b4d8315a77aa30a8f9bf;
  SDbl 0x9efd629ceed6f4f67c3f006bb3e229465479d7330802d736b8947b8d855dc550 0xd973c06c1e326d2b1d028028845f538f61960e350895eb22f4050c2410e81979 0x1c57b6a44a891a3cb2d8c4634eea1c11c49f1e7255fb42a08fd263161c10ebb3 (-0x967edcd9482a4302269157c6fee88ccedf7c81744adc356115f15e8639361e97) 0x62bdc08629bbb2d722a6b36358320ca035700a25557374e9932f6a3fae1b0a45 (-0x2057dc46fc917386a573bf6ec8fd621c9a8e7a24dabfec9be9f897c5f3806bd9);
  SDbl 0xe2fc27cc73eff7e6af08a6490439f79a5a661b863111ef236488f5f784d72b51 0xdbb70cdfe7cdd9f2f889dd9d9715f528a29c090d9c57af339a60c3d1e42e13ab 0x5b41f0736cb3c50cd893c664b47fad05e1026ba977dc74ce3455e853c7fdbfa6 (-0x1f7dd9db18898a426159ceb920486661bb058b2d60d82595b3bf523620702b7b6) 0xc9422ea426aa0f639a5ac8a9901044cbb79ca9a5e68d7444bf4da246b49bf6fc (-0x201a4178b443977c1ab7b47eb93c1ed20a3328015512ccc09859f1499c8c4d5);
  SDbl 0x3d56800636b0c1b98c40a3553f5f12e60f36408da018b181286b03d9a46ff648 0x442b1de6cdb1b3f1e9b2aa507e3a90bc1c825b6eeda33d1f6cc7aefc639079e6 0xe739b77668d9241859c30d046aa983a560703b6b34caa669f833ada0cdc63c54 (-0x209fd00969a31d9dd032748990a6050ac13b0f7a2ac57ed4f48aadae40c1e58b8) 0xeb2563d48f588293c283e2608e472246e8e13c79e99be8172245c0c6c8e2cfc 0x244f8cbd6c5b55704dfd30d4d50c0580e39235640309fcec84c32e7c17426e92;
  SDbl 0xab6d8db7f325efc8291cecbc4cffc0927f9a11e015c1c3dff23508426ea9e9d7 0x77e458a44d58221a4293e625c88de1babdfa3c3cb16f5f4c875f69a212f38942 0x36bfba24446fd62596d8ee8468c68e41a269ada38e32d6e522521352cc9574b4 0xff3834d0450f94e95de3162bac0aa3e54bed29754b09ef58bc8e5c536eaf72d1 0x72cb8a362eb96cdf17696c0e1142b031c2b16de387e30cd933d84f03829d6a7d (-0x22a2dcbce97a3bed6b153cecdb7a444b3dac06a81b98f894985d828e44bbacb4);
  SDbl 0xfbc13e9936770cf6bb6030ad7fa8b602c74dae7debeb9860ade2ece38129e4db 0x81dfb513d4403e5e4b6ad6f6c5c6161a1148c8aec089ebf649db722213ec1948 0xd83d5ee432d212b861831762ff8c705f2a1bbfd836e876b89cdf694e64ed3817 (-0x3cc3a36457087ff6b7b4373859d1adb9e92156d7aaa4ddf385f6833f9a932cef) 0xf79482a0dab4a7a20a5540a35de9a27bae7ab9f217c66126b883618469165873 (-0x9d0fc92ece83073adea0d7182ee3228c9d677a1a29f5a7657aa974c829ec613);
  SAdd false 0xa2c14a5da8b5cf36b11c75b986fc53c6961de9466905858b54efefa6b0543b9d 0x6c45785fc21e4d1f8ff365542eedbe11e5d04fc2d85a818ce1e5b12a45e4065 0x3e0d4a6c6b57c8ceb5e8dd4b0b13f273392e79281defffd416ca5b51ad67a142 (-0x324ad4b9c88f51e9ca405cb0c6f55db20b7dd10af04121f1bc1f768c4f018a9b) 0x6779341027d1f840ef845760d65b4f91a3fb5043e249a370c42daf72dead102b 0x4e4444988c14c888cca4e04fb73bbc5ef12f94a36a6cf76e533c6199bcde8522;
  SDbl 0x409b090be74ee938796bebc92db5c109a78801098ab1c3abfdcbe033af9c1133 0x7dec0ef9e4e1b8691227d135eb1b9c64175be7926eae77b6ca995b4e08314e54 0x6cf100c70a303bc2b046cd54ce2d2112387902beef10595cc01a581773385f92 0x1ec86d9fe7888a4cc5a04cc6678a5b5271e7e9ad31ee9798f52f4396a7f6f33c 0x104de269f8b14765ddf7ca94de4d0876b40b9905c8b1a178c33538789f9dfef5 (-0x1e12171f1b417e84a838ebd2fb1491b7a8cdc52820af1a1025664d6119c3598f);
  SDbl 0x9b24fc14d0a0269fd857022657d66688216e478a9d033c9724d6e6cc3f113cef 0x8e8e475ff42dbf98d1a5a5f904cc0659a74233faad461355f7eb941bd7aa05a 0xa49c84ff9f7a389de286916c32f202fa5ab7c2025af62197b317b5771c9183 (-0x35c5cf9dbc1cc4d1a9b130fe1e463d7a000dc67a0b55190258c57a452114ffef) 0x5e05ce9970bb66d66cbef9c29ce8c96d653ef3af6005ce55509d61cf059e55e1 0x46e9d268bef23abadac11a96dd9f764fdd2b918132f0b10c11e41aa64567ecaf;
  SDbl 0x630a400d431b931b202c3cb500061b2e1c0c4826850b891fb726d473feb46046 0x4b27e87a769444017a4dc184d08884762950a58c8d4ee8b96d34956a568f3a8d 0x3a60f3dc0cacf89c1e5a9888f3c8b13b1aaa0d066748fb6fcd221594525fe142 (-0x6ec8354e24788497996a71b82f17500975e74cfee759279a3b8d8eca4ff4bb) 0x2650edf37948221f9e3acf584c544e2b4b1ec62eec3384b2f07d2ae762dfe81d (-0x19a105972b841cd281acb94311ca0a747b2f57badd1abab067edd1d09b324349);
  SAdd true 0xfccade6549476ffcfc80244d63e5e0a6050d72ee99b8ef4e159b26caf60ed081 0x376d24ed1cf58209166f8d22dcd9f726a7e2090a8423db5a051ec237df159277 0xed1d79ede4fed28d0170d13ef25bd428beb986553d156ee6b66a86ed913549 (-0x181500e0eab3ea30cb4697f6fed3735ab3ddc6154ce06505113a2ba716fb67dc) 0xf9a0069c1af022fdb4ddda0a6f11722ccebcb9ac370efe079bafcc04050360ca 0x137b7b014925f6e3e6260f68936c33058b4ef97144dc72d5916abd11dddd8375;
  SDbl 0x54d1fff4853c6e5da7670ca09ff467fab9ae76e0e15d4fc08e00b751179137ad 0x6779d5b0cecabf53c87ed0e07c3b1ddbc220eca28989cdeec1c30e247f11acbb 0xf9cf783877e77a0479e4ff471a3f2e0d47f71a18038730bac5e1163b78390d7c (-0x23631cd6e58d94e2f54a63b862f8788064bfc187a5675aea2f499a58ede388ba) 0x1c1a7c3c80b4bc52cfe481d67a264d8b0b1f6f0299ac1ebd565696b9092706c0 (-0xfeb94671f3713c9b428aa26121731e5214d14ef32d3ea63bb202a4b56af6147);
  SDbl 0x2294b5b80108a197e8224f87b9e65cb72b002fd6f57e6835d1e82d7022d06b4a 0x6a25610535e110ab5dc2dcc6363a960eb5752ac56bd5177f7aeebae72f8e6992 0x27d1b7cf0a22a74625fb3e27fef2f5e535a4c65e23d1935890e9253213fd8894 (-0x39fc7557aa562ed24e3c863a27039d97f3a1ed28fb2eaf83933dc0163d9c01e8) 0x4abd6a782b1094664e8b83e4c504e17fcb686f000eaf20ff382ec42007ad1a4 (-0x5c5592f7aa796ba6f296568273d21a579a4fd62ab72b20da241509501cf6ca);
  SDbl 0xc19aece9c254365b62796c81098e972ea16f0b6e21a742878a29729c0162ada3 0xae11391df585d66812f25ed4762a987e0a6467c2ebe3492128103a24bb608a37 0x7c1cec5b662f166984d35ba128fa2307faaf2ad372684d1cee283e21b57fd822 (-0x47ce843e15026b0ab52e63e1a3c8399100b4eb58246721053b8bc3ed2840aeaf) 0x926af6faedeb9200b3604fb128e19202d1d78e852e6dccab30ccf9e66deba792 (-0x335de8a64b29fb9c7e6f04254a7498250bbe62a040f4d37abb8049e20b7e553b);
  SAdd true 0x95a8c1dd212d5c5d5ee11887859a583a83ce8ef09f647c30bbbe942799e0c311 0x7f730787f8682bb88a8ee540ba429971c6303568e8c8eb8148213ee26a2a83ac 0x75e1909e2d0a3957b9c2400662516bfcdbfe0c2a0788d8b7552362cf6ced9fb5 (-0x4814d4796e65958013dad40eb56bb0778ff3725a3910db3222e23dce8c9c2b12) 0x577de0eac52765016208ef1e39ab478af5d95a3fcba8a7045dca38e214749b89 0x1b40cdfa79feb71e6f6c1ce659fe894c36f1325c05939ffadf4bb951ca3b279c;
  SDbl 0x6442ed7aa514890c973181bf183e7e3e1a439d57807bc3638e866a4497e87a27 0x98226975ee52a9fdf350a5e456cb63f455133466e8a3487b8f82aa09cde58288 0xf7255e01f43bfe6ea3b803fb3f15d6636eb200482ab6c185728a0c0e6fe92324 (-0x6204237bab064bb238844e6cbf1737938f5531430e3014625dc134e8f232ba79) 0x27445b0747c5d5199029e23f754a9d8e010ec6292ba4c4326823e3deff4157ef (-0x9aaf65e6e3cf3407a0095d1dfa69a588131b43a47c48aae398a006018d791a3);
  SDbl 0xdef7d76dd63156eecc001642ebaaa5b9d9b713d44dd16b1a743f2bde368d6257 0x5bd70a0cab1b305447c2f4a2e795aac9208757c020a5a579cb86e75591eaa2d0 0xc4cd89a1af143e051341d1bd9c0a7aee4ea5ac5e62b45c5c6a475a82db16caaf 0x9f48b387949adcdbea5258377bb7b9d69d560f3c839bba82199f9f8f5895c645 0xc232c994aced5c7790cad41a162078b9f3596d01c4b70f2883da7ef30018ee4f 0x3483bc33b7095a2943d16ef1719e5ed06655acf9697f45a50a635e6cd6c1764b;
  SDbl 0x1a11d8a2cf4b33de2c1ebc26789d0482fd2f848ea0de52b5fe743879b14156ed 0x1139c9b28aff6aa8510e9b13a6a8d4fe597ef2c681ca1ccd9f7d53c86f2d1dce 0x5e96d12cc542fef77865806f6b19d43726e0783aa2fc6f95d9b84aaf4af9de15 (-0x3ac290fe9a9354f11c80c09bb10dcbc4bf779573a432d598b3790beadfdb2109) 0x2a7a13f91b5951f80bcf308bcc9bdb4d16c9a6c1e9d3189833bdb8897244c05 0x7992c1e9711f662be5174499747e5cb77beab91f73c66a81a2178d62a6bd9ea;
  SDbl 0x1e551c341a8ab3fb8d69f8bc2150043c1d8bea05e2fde694bc20dbb26b542604 0x3bd28886c797d00545fc72a099de8a6321744a80bcabafeedd06f4dfc7872e7c 0xa7834813d6c27a9ea6addf7ea149f32a634fa515721f160a6612c70ec950a971 0x12f0108582e5a41b75f383467168b558a10ea7be8cb5d308437db2749427c8a1 0x3980ee7f785a19b942efd1d1cd9ccac3c7bffcedd8fd21753f27370559c3a08 (-0x50c0fc5a0ee9ba83cd3f79b954d525e2583f1c46b4fc61265e9dd44f8bb61c2);
  SDbl 0xfe850ddb8a7fcde2598e0185e4c44db0321553e41319134eb3d612f70172dca1 0xd7fb62281a94e79cee9798d4ea25e9b2dc7e437d5dd723006adad3dc61893046 0xcce055b2da62928556d09ba5a808040596c8ec7a88811c8673dd0326f01105fd 0x123267b5cd950effbf0562f6f2316a7ab0f22431fffcaf9195d73d538e0570c0b 0xfd0c4ca80abfda585e27fb0f3f11ad9c7d44a5f139a7e3a52f0e41ab710e6ffd (-0x9b41b19bbae445e6056a6e1beb51b04511d8a6ef1d3d5ecc1e2d5fc71bdd9888);
  SDbl 0x915ec96de8a613d99fed4e42661f184cae1cf713cf353dc9eef4df415d1a2490 0xf8dcf2132dd6dd7fa82ff9ded449f70bf05621c014a7764b4ebe436cbbb7702c 0xfefab6a0439f1f1f21588bfa6b8e049c41f326cf32f19705ec0c48edbb850d86 (-0x139fac8f07409624a664dcad7e34dd1f74a9f505f9cedf4c17df89c5ea626eb37) 0x528c83475f4d463f364f9f58ed5e4cf502980c1db023ab2ebd1e78c96c50ffb8 (-0x12abef3648d0f62707a367e1910cfc7b0fddff83facdc97bc46c1cbb0e0da31d);
  SAdd true 0xa418108bbc57a4512e7c5a3c99d6bb7dbaa28c86f24f818cab4ffb91c99283e 0x9c51fc325a337cbf7bd252656842eb4084c2549c6b7727e8340c96169e0d06e9 0xfe2d8fa5e95323b3b67fd87feb9875f0d203122fbfeb3a49642b43a70fb5acd7 (-0x7efa2a94873dce2aad6c0b4483517e6ef3fd6d81102541470a489308dbd7270) 0x692ed7768dc4363e66d3ae7d5289925f95bfc6622243970e3b9501dca17cd8 0x3b51b88682e18350da30dde72c36d25a1bff7fba8d8962f0247f04fbe77c423;
  SDbl 0x3b3197e2c8fbc48115c2e1cb4ab5068d5b67cdef3acf7407b69c554a74d0907b 0xc4cd4c0a3cbe1cd704b5dbeed72fbd413dbb6c546396b954c9319c68a2651226 0x2c03f4496448a086556d25a3ac460feda352df660577c343eac116e2ae6254b8 (-0xa8d09599e57b7371715ed047d315c727a524b81ae4acaa85fdf4dea540d8b66a) 0xdafe59e154234934ad5f37c5f83923d427c7c34d116bc70f98fe69f4d1484df (-0x95c4305aba18c0443db45b5b51f9c2feb421b4448de231c33c58c59dfb84822);
  SDbl 0x53ce34fe0f4314ef4f2ed0df7ff7dd19e328eb842fc6fdefaef2e41183103f50 0xcb35025360071973d88958cb5ae72b10fcf81d9219a697843dc30717db0c1195 0xc52fceb6060a99f10eaa3bc9eec2babe1509c12ffd82bb9736d368b84c0ed19a (-0x1a90f8a3b97905e539b98aa6c11c5d2db20bcd50fd29bb08fc72fe9b208576a17) 0x1b6f5c762d2d9e5496311a31d2e04106dc0a85b137525c3ec0ddb575462dbce1 (-0x218c8e1d3b35098dd8f69f217ec33cdcea5ea02675308bceb44392d7492b5fe);
  SDbl 0x1310bb7c716fd4efe15dc9dcc4bc301bbf8a4cd74f65b4aa37246a51d21514ba 0x75b36ae3b31e4e0dc502e4a79f51894090b0c2df670c19a56b07154c2f74e47d 0x39447608f21d4c74cc6abf831ea97aaad026ebe38121b5c136523f210a31e2ac (-0x1c6887683f056c31440132a60c7eb9ff5bca0851ae0f9e0eb22330d2e220541a0) 0x16b7cec731f4eba24400ce19ae912691e61fcbbe45ba1331355660a555b7083 0x65e34f60175c6297e09dfa930549da2e580eb4051adebae565bc57a77ec10d6;
  SAdd true 0x89dda4979323e0ef70af2a621d3989954b7f5959d68b34d7bb3095969a4d0750 0xb94e7e921fcdd111246a6035676d36f05d35126736fe9fb7f19b2fe7ce4eaef4 0x6f12ad376860f331cd0f58a9a4c849dee38393b94d81ee51a36c62467c061112 (-0x240bb61fdeec72dfb0e02b91f31bec3be701687b94aff2997d973c66eb890f2c) 0x4a3efa101d41fb07a25e6105728400876278e3e97ca17e4e563415038aba8f38 (-0x246885dfda1625eb1386117630090fd7e3754bf4b9a3a7a9b31d1c9765648612);
  SDbl 0xaceee034967686c4d9774b6e347ccc5727f554a34d4a81e824e886a0d4d6a599 0xbb3f188340ddf3b0209a05023eb575563497955fd5553543a23ea50e17fea19f 0x825a828f3831d9fbe79201a12b5bff790657bb37ee3bdda31a7522c755ca12e9 (-0xfc573ef7d88bde7ce42610e6a25044d9c2e33e344f8a7ae21ba9bec31e97d1d7) 0x74d1dc2cc524f7c4c3cff8496afbb4ef7c802bd7e4749ffee585a35f05b16a16 (-0x14f76d00e692d1b922e68a179a85773959fda18610b83d394ef4ea745ad9cd2);
  SDbl 0x435649284cab7a82b07c607988a9560251e5b280d180c097db369073788354b2 0x21f6701883a7943a815df17f6c4dc21327a681b6fb8d1aa4306d4d0feced0bca 0xcbb0128c05ab3b5935a16f15ee4fd3291661137caea7351bf494d82f4fb2f2ff (-0x1564c787078faf0fa4e9fe20ce4f42454998263ed966df60a00e86444a53911c4) 0x11b6476065d38ec8f66e51f1f984af07915c5448c68df879efd0dc7972b90344 0x2851ae4a84fb790f81307de9f7360cf327355b6e4bef120b003eff306a19f3ce;
  SAdd false 0x26fd91856ee28f90bd367ef43fc3012d9b56e3e097ba179f46d9a9da46b4dd01 0x5210e857512a60b5bf176b8238633b2f08443a778f6c6b23752f1eb6ddc083c9 0xa6cebbf9ce2145228b2c96ddf1aabe695fb0c0dce2baf06b3818101233f1a049 0x28f4297d899a4bf3e683a7551ef405148cdb55a8c0d34bb40974c74eb2d4a63 0x5f0425c97511df461a5e7fa58765c53b7b77377fbe973d193e990f7e9c74a59 (-0x753935a409815039bafc91684b247d7df96f2c6876702260de67a8ae3a4d1b9);
  SDbl 0xf81b79d1b5d01bdd799e164dbb9a720b0da1e70db60cd62052709d34ef736f36 0xabc882afb0bcdcf89d09c2c643fdbd62d2db62265c95eb286b6273eb3455bb20 0x181f1a371b34d466231afc3708909db5107d395ca388fd736e0c57a165b7e831 0xf467d8afe9536205958db88fb28691efe2ce6923b0f093cc6d7649912f810ea4 0xf0753efa2cecb886428b78421089d1c0924c053c94561e57b13a89b50102e34e (-0x56f37e94816c01cc859634b9a1de0005e275f389e1dfbd48d86e21595ac9122c);
  SDbl 0x7327773f7a3d3330f5c2a352d7fe926e5bd794d6baef16e7ccb1a979be55222b 0xa67c6b278ff1f7fa011731b6f95a35d32ece8d9cc9a2f48256415beae412a139 0x248ff2d3864ecacd58e0a9964436054455b6f90f684f060a4d20ad6d09a5de82 (-0x1441d116a66301bbfc0281adbb88b81e4e6a4e55dbd7db4e0a79d4fe78de7b879) 0x33cc7b38c882c93ea84fa348dd0ebfb309f90b6b0cbf8a198476b613c3a0a440 0x261ffa16e0bbc8eba5f0deb935f859bcd69599f0b4ef4465d39c1a7fef4bee6;
  SDbl 0x6e6d48fa784fb336ef28c896425306d27bd1b8dae736ae66b28db1b57fb80ed3 0xb4ad799ce4170e4e722d2f118eb7e62fe6433d3b37e5eb3a0eabdef8459d0031 0xbaa0baa0ac613538741791f8860e00bf1e009e4e1705eeecca72065842f6bd94 (-0x12545da33ef30d5caa594bb7ddc292f9210cd2528298dc7efa4254f9f15fcc63c) 0x2fa2195ea91ee3fc847157be1b752c8c8329438f8604902c9c43b765639680ba (-0x61f232546e06ea07a4915e67fdff29be028320eb23d9080df602ef472e58d82);
  SDbl 0x89686c57c639466f58e8414178f896b387c88510eeb0d0195cf49cdaf458b199 0x9fdee7063824148e007a75019d59a78f69f415ad788d3de5868adab4ea6fea06 0x7695af7b14d6ccf8339b74f881f1e65634baecff5cb1f14460f8e49e19d7091f (-0xb634f1682d2572fe1b11b05daaa4569029a8227b62d6594234112d32c08726c8) 0x49c0ee8e711577d3808ec2d7aca4a81bd036ce5ed835a3a4f78076cb3944fcf7 0xb2b092c828dba619bef7c71a06742c4c6b40421a82a7d149ecb676c17bfcc00;
  SDbl 0x832402cc92ddc42f4187d4aed7d7a4a67668b09b1a609b94ed8d1be66b0c8705 0xdfec808394c6c9aeb43e33793cdd24e291174607c159eac2a6ff5eadc46c7c22 0xf15b9996d01a0918a2fad5d2f95266df5e31bba0e1da624f8214ed91794bbe9b (-0xb20560e52dbd229a18d92cfcc2a2fa6c4d15b0dbdbbf74cb00667d5b558424cd) 0x432ddfee6b0dfadbd22c88f35abc1a51276246909344bd158ad1efa07b9e0a15 (-0x20cff82827a0cab5afc03139d6f56ae6c0c722c8327af0f5f48c5cef6c9199ba);
  SDbl 0xc1c6f6c5ef207c969dfbff8716a8797459e27505f63ac0178df05f4cc3fb47df 0x60a589d41de4c8cd6405f1e81fe328406d4c691c6d35a2ee95129356d1a8db42 0x96d45e1fa0e71e5ccd0de58826fe934d940841b52cb779fb6653739fae485151 (-0xde365e8fef081ec97c7cf67125d8d89854f9b4dda22f0ddcb2a8eba620ff2e81) 0x92ad9ab9ad4b7d71d74cbabadea2fbb49949a0e8e1a618db085e5c269d0a5f45 0x60576b8e0e3999662a44712ffbe84fdd4652546cdc6ce74b28cc374611eccccc;
  SDbl 0x8f5d233a5cbb31b1c1483b6de8dc3f7d9e9075e855ce8880ee390e2876c0f536 0xb57592a315cd1477ca156fc93e84ea3208207e7cfcd6d6d2ad580b1ab0975432 0xdfbc1a2a5f2a3268d2e19e7ccdf2ecb7e01dccf5ea76a75473ba58b8d90f8f2a 0x3b7949b8a746648ba2c67e8cf3c2bda761129b151de2b9919e75fd7a3b969edd 0x50492f3e2122b36e2838084cdb761463618a89ded7480cc1cf3c3569d008a352 (-0x2f7f102ac638f432e4f12af7dca8cd98805c0bfaa8a0989b82b357e2e49cece5);
  SDbl 0xd845b6b119d8689bbcaab5acf3ebe50a6a9f06eb79bb915a10b36049772da3ce 0x63b2085a9e427e84f84a29a4d7a49f832ef696ef6f3418825e524c806bd05ae 0x67c420ec57e981e1c6787df346b4f3a140d7113b8c29e394da910c99f3c3c422 (-0x7d71f2b5598398c8f228143b61536263f76a4bce5ee2b861228a048fa17564f) 0xb6b5b747902b21bb3718fb51bcba4e908f010f1350dc8ddf4423d914e4afb44e 0x94090816ef3e4c9675cdaf54b8ae0f4b6566a506dc246149cab53324f5f61914;
  SDbl 0x691a4c48ffdbb65d3644de4cebbeed53ed80b0660c6fc8e57f3c88d7a2161fcf 0x91eccbf0f4e5f81acda0fac0304f05973486e234d03e93ab97620d5507290c54 0x9cf9730bbe035a370b8dce79d7f18771a0f2733d028488a8ad2eb59ac48e9be7 0x54bfbb25b50abf5c1f30d31cabc86cea4df2777cb854bb1ab980c22243355bcd 0x2b269547a298363c83a1191b66df099c67efe58b6f6a4ced6e8ef7079d1b4e4f (-0x395a38fb387d8441673013d2ee0f93740e32c36bcf5bae72b68af5d33d4225bd);
  SDbl 0x49ab4e1626bb39a121371c9266841540d7d5a379df7567665e20a17920c1911b 0xa13628f1a4a2f8587a460fb6a5107893a5df0c5295e198f8c8fa53e7aa7aba8 0xad0c7242299296e48f5390891a97c6b47484a80e9e943afc9fcddb1dea4db1ee (-0x9f31f58fe321d352e4152cf75d2de1a547efe6f9dcf9e1ed63a99e91327e9e0d) 0x1533252a20b32babc80f2f8fd139a0f9d744589633fe25622ce3a7bfac042b77 0x2717e6b67223d805aa0f7cfe09b3e88c89cd10eabe2d0f63acd3d9d733c9afb1;
  SDbl 0xa254ec9098ae0e3954606d429cfa66ac1f80f19a1e3813fd9bc8e7b9cb9c16e3 0xad1974a672fcbbeb885ad7445d58f049d50fc20f1c5777270af85cd572a5b42f 0x8acd84809808810827810bdb112260c16ebfc01240fbd40971ce318e9bf82676 0xda46011921aab6a53a7491d396d6ea7d1f47a90bdd11cfc48cc6a8396a6f26a9 0x66ef979381aafefa6f2d43d6926a755eede94aa9387bfde7e48ffdc47f413e36 (-0x675fec16ca7c2858e5dfdda96f8fabc477242279478af55f6a5ea5067f78fde7);
  SAdd true 0xbb735ab18bde1c8d8da7aa0fa67d325cc20c3e0cbbf8ad6c2ef47fd81f44a703 0xf6ac4cf37f1b3f6779ee090889d30dd01059bcd7188f86663b3e18989ad50b8f 0x3dd0e67d8f50df333ee95254a8dab585749d9bb6114c245d5587eab9036713f6 (-0x59930c6783081e71c9b832b231dfd589990bc2714760a2783c13414f14b59f9e) 0x8941ba7a873d3339dcff615e8a3b0edb85cfbbd8c4ffef046078390b603a4a7c (-0x35df6b084f1b5b4f2b3695d37af548323b70421292d3b3a3bcdda01030931f74);
  SDbl 0x19f36def771384f86244bd383c17061b6b31560d802fe2af1c457202e7195748 0x6dde24c9269da9fe63cb6187c591e0fe831faaad0cd56db67f2cf3b90d8f5e5c 0xebfdacaedb4bd0e6e85f89e3f33730b22ada7a74c26f1e284f79a2fbcea6e173 (-0x2bc866ae37e298e655956044fb4191f21ab463dd62898bc49980f3954fa25a0c0) 0x2a172f2abb51d5fcb820b65f2c764ec8034e9375d46c2b12a18e9c42967713a 0xdde385c0fe84565eee53ddc79bc07e10fc4e7e1e699b70f35ed7a55799dea11;
  SDbl 0x8bde0b5f72f69cfed0edcb604abca5f6216bc4762413ba489a244ce3ea5a4ab2 0x8f0ef9da92518b003e9c54f73a5082514832c0ea99dee79a3a814873811c1a73 0xf8f6d0803554c926b3b851f075ef40f9855fc11ffd91f63adff8b484dfa975ad 0x746a163045c54690c9007bee1ddbbc9a7fec857ff88af9535fb40575156b1341 0x4c6ae0f1ad4f6a9e664afe5e3e819014bdd4bdc931e9e0fbffc7d7d399477367 (-0x12224d82c5e6e7ece5d1d10dd54488f6ea5f469d69a59fdd7163f9a825603ae2);
  SAdd true 0xbc4b5d3650772f8f22450e6ce9d942deb2965066dc74736cd8ace6f0c910fe16 0xe0d4c458e260bccf795461b8c8c6e97593591193b1a4083160061475a8c9c646 0x64100de8279decb0ad3cffa27b3c2763e0955d40bb62d6bafcacaf70d15636b0 (-0x43e1baf31ec729a02a750797315376c05ed95d0573c300a1c80a08faa176a045) 0x8a7ec71810717cc4ccc5c2ea8efdfe1d7a7723c4da6d195a57fa01131242ab9c (-0x3c25536d85ee6b9957682aa0da64e46b15cce314cd7e5e81014871e92d683581);
  SDbl 0xcdccdf5f781749ed8c66aeba74685aa533abb6d30076ac8df12304858104f37b 0x3b8aa0fe85db57e574399a5d6a249c4e4f45509aa86a2ccba6a11a5479850e8 0x90c97e235fff2a5c3bb682362720edcd3c8c2ff6a973eb88a6237bff99bb15c (-0x1af7d3adb1dee7d7a6c5945f2bab296af986d5cdeae40a53e3cf7a6bf6fb59bb7) 0xa571c1b44ed5ea0b80b4b1dec294b34e07683a0f58094a9cd90d67481fc1205b 0xb1c074600428b835fd1dc69f63677b8a5e627e9a94618d1e03d0de0ff24e49e2;
  SDbl 0xd13edc1191d387a1da874b7f4c2b176404d691b0905e5e6310c3be786a378f6 0xd9bd898c6b01c1ebe1071301d23c03b84a941b684fc4e4034ba7b2ade4e9a5fe 0x33e1412ec7064517946c75d8848807a1f0d4731d780e1eb6685a51d85c95ab3f 0xc32486a7f3790f762cd96512add5b73c31876f54800dca178e62c4be8e59ed 0xab07b2c4b0d3ec88ec5230dd1e4bdd1be309de977bb1e9a1d69affa9aebb6a (-0xaeee879e56098b0608d7848e5851512c04531dfbf19dbe0a7b21835acc29041);
  SDbl 0x9abcd83ffde92c84786a245df0e914e7f07295e87d50351ad0b963ca85e0205d 0x636c6202cdf0fc5bfe5206779e7694ee9cc72a14d90da6190f7616a4ce7b092d 0xfd4f82074d78cb1111f0fc7ca617828d26e164ec5cda10d66e73ab0d0423f33e (-0x1ece111a52ce62c3a83f198f12adc38f04ffcd3b797ae3662ae804ef7c7d5f3bd) 0x5d87bf7bafad43fce2d7fe699b2979b606e2e3ad41d95652db9dd5634f76f360 0x4784195425be5864c0606eff3cc032e17499e5967a249499e7b6829e9b108690;
  SAdd true 0xba579f8fefdc93c9ff8feba5d17925c63f5a7c9a8435bc9f76a037771b4450a9 0x160e12897df4edb61dd812feb96748fbd3ccf4ffe26aa6f6db9540af49c94232 0x4a7dad08bb9a459531694beb20aa489d6649975e1bfcf8c4741b78b4b223007f (-0x236a7ffbc05ec363357da8762b56c0913771b805076e2b42fce2c4ffb5b22b48) 0x87a371db87791d6b5ae194cc472ad1bbc41e928d4ee52ab606128680b25eb095 0x385101047230c5abee666c9e8d2bedeb1518abefab699634b6cbc0533b10280a].
Lemma kda_pt : pmul kda_k G = A (kf kda_x) (kf kda_y) /\ xc (pmul kda_k G) = kda_x /\ yc (pmul kda_k G) = kda_y.
Proof.
  apply (replay_point kda_cert).
  - vm_compute. split; [discriminate|reflexivity].
  - vm_compute. split; [discriminate|reflexivity].
  - discriminate.
  - vm_compute. reflexivity.
  - vm_compute. reflexivity.
  - vm_compute. reflexivity.
Qed.

(** The responder's private key. *)
Definition kdb_k : Z := 0x785129917d45a9ea5437a59356b82338eaadda6ceb199088f14ae10defa229b5.
Definition kdb_x : Z := 0x6ae848c57c53c7b1b5fa99eb2286af078ba64c64591b8b566f7357d576f16dfb.
Definition kdb_y : Z := 0xee489d771621a27b36c5c7992062e9cd09a9264386f3fbea54dff69305621c4d.
Definition kdb_cert : list step := [
  SDbl 0xd6a6796a27dc312621ee1d7807d53f6f50deb90e13e36666ba6451403bb1c3b0 0x56cefd60d7c87c000d58ef57fa73ba4d9c0dfa08c08a7331495c2e1da3f2bd52 0x31b7e7e6cc8189f668535ce0f8eaf1bd6de84c182f6c8e716f780d3a970a23c3 0x11d6cd80f81a9b5e9badabd304c2519d600d3f8b4fc759d131c1e2e5c0ec83c10 0xb3fabf3fdde018ae8b11c6c6c230d119ab7a3586127dbf7325ee158cbb960de0 (-0x1e380dfd5e1b5e2882e2747670d8a7457ae3f364a6717b3578c57493fb0d2b0d);
  SDbl 0x17e021789ef1ed9ec506f9ba33bba229384f476f5c75b6707bb4d0c32e74636b 0xc239507105c683242a81052ff641ed69009a084ad5cc937db21646cd34a0ced5 0xb1bf7ec4080f3c8735f1294ac0db19686bee2e96ab8c71fb7a253666cb66e009 (-0x4f09124c394fa03cef9d066ed39ebf371ee29a6771c9f23670d82169e1bc2c39) 0x23a0a3e463ffc20684142caa30690db7211c7346977c77eb50b4561c8f25ac0 (-0xa04988a7d8bd1088592011163b1877b16a3712bdbe2746cb993e93b5aac0173);
  SDbl 0x65ea2030ab7144438852944b7c35697255cfc01dfe1aba9d4fcfe4fa492035ad 0xb9c3faeb4b1610713db4333d4e860e64d4ea35d60c1c29bb675d822ded0bb916 0xc519b309ecf7269c2491d2de9accf2be0366a8a03024b3e03c286da2cfd31a3e (-0x12c8a8773f350f11e9d9e0d929a9e07f124dd891cb837406e06d0d3b579fc0e82) 0x289293856cdf92909040f1428c3d40b7bc88c227a8296c2ff05baf3a35cc3fd7 0x35e070e389d282d30ab856179080bb1ec1931edfe054b6ec202fc382f19bd34;
  SDbl 0x3cd69ab3144bad2d8d82e82f98a39c834463428456b2208fbde56366d461a775 0x35648233f554ae51bbce44ef5db3e419ea133cd248a93e2555645bbc8704fb68 0x4d7ac60f6d975ef6117bca9ce885dd6154b1870a6a651664411a9a30eca2046 (-0x136b802f76f3329dbe0315700a6e3068a4e0f0660b006431b044a43e779107703) 0xe754c6b00daa5ce53237ee442a150593b0d6763a9f6f57755458e4244e8921b 0x1f75581808aea3797fa74c3c7f3e98844bd03cec16593ad0e32270ede0de07fe;
  SAdd false 0xaef79634be8e6d66c4323d8c37f9d5ac5c8db3f8eefe8dc7e08607e9911eb896 0xf73b839f13912c1a3291676c38d393243b424f35f0ecce4c461b1bbcb80f829c 0x32ec7722695dc7cf5ee9fab985c12455dc2e788fb170aa144c3533771db0955e (-0x1cb2bdd199ed5f4c281a8ab504b40721ee8d22f7237273a25bcb2de89437691) 0x77957fa35c88ad5f0b742b4918a607d55e6a6a403ca493cd2589b72cbe20fae7 (-0x847b9b259c2d5da174fd16cc1a9b437e1198593e9e0d29aa3d584f653a14b1e4);
  SDbl 0x8cffd4a094e5e1f0da74ba29c5b4d36fcd6ce1391e2547d6d207f6a54af4c268 0x17a5f74d533ae724c315796922bf13438b1ac02e98d543cefd23ea021da51c9d 0x498470ec6752b2ecb9038823d9ad0d5f7befa4db8c8d3eff57d2e81dbb945dfe (-0x294334780c6880e98c432ef4cc2f8864d217ae25ae4cf090794911e78624b6733) 0x4da8d03939073ca7f9f60f5f6c90a73a6e0ebc957dd0c2ff2c953d0443e25795 0x7b2538680d799da73197698d53312a1ab36ad29bbfb6204598dec8818fb445c4;
  SDbl 0xd4cea3d78c5ea7e33a33bee6bfe2c275472f850f5120282fc2362b0d79bf9142 0xba38ae4ed8f3081805f23cff908ed5210693ab9cd8951ee43a15c7a108af767c 0x56b6c91fef0c02137b3440651da95cb5d4f1f91388ce0fbd3567e7eb19841fbc 0x73ac502e578cfb31d30da1278134f08858ad20a9ba0c04013692766b3ebff5e0 0xb0e6e629c925c6cdf0fe2cad42d0a60de35fec4d93a24e62f25e0846cd11dab2 (-0x8724b9a959fcd21ae5da2bbaa087305dc41b986c1c6db510a790c35740f407c8);
  SDbl 0xb7dd871f0d09299be4d4b07cb2a59179e95a860ac4792e0a3a290315333ab0ef 0xde9f478017f5ef6bf5c3460b16ba21a4324a4b4eba667d1a6a755592839eaf7a 0x4dbb4cad0a7e270623d8b2d4a678ac8331fbdfe21dc8eb9c8d31bc90b58a334a (-0x119d3d6da4502d3b1f524810fa60ea397f61768be1a92832bf59a5e81bc6a1cdb) 0x840e76e17b9fd5b406b56ee68c07d87a01368dc435d49f9a140bd3aab4681d51 (-0x1a24d74b12c358a86c1eb376be50e8a87e29943729786d528e6ea92a70e0d7d8);
  SDbl 0x3a8dcedc0a0d9f78b54daac3cfbec40daf68a485b0f827020da9dde757f506d1 0x104a472bddd01ce65538b8774466b3174f9291ac66bea7800399ff3ab9d2029b 0xbb6c944b06c2be0102d8e5447e22876512a408915c974a92bb530a2727a7c317 (-0x2213aeca65e5cda3b6064972dc62292c1aa90d0fffac5183d07f18a659113246b) 0xd649049477cacdcd911023b4efa937524647474aad0803db6630e09a6d6eaee 0x2f318d9e322c822e37c75cc3b83bde525a3de32f47a132b878b10a7716a09a52;
  SDbl 0x7bc893282960d5b7ab58cf0b1daff4e49530f57aa6c473773863742521bf7318 0x68f8dd0031aa5529e7d8ed60a27e1cc2af0d1bf4cbfdd44fc041a64a83089bc2 0x56bb89d77a5fd32340811fc2303666ad71f2cac7c132b4cc4a45a30d9e219ba3 0xb223ec49e211dccac2f03e347d08879cde40eae3b78198622316c699b1eb1f38 0x3bda5a8f16f5350daefc2809397733b1ec414bf668471951fccdb4f6d51e0eb8 (-0x2ae15d5c66b28fb44f37394074b8c8556a9c195a71f51a33b88d99cf8b32c09e);
  SAdd true 0x6455a2e1dc62b866d067d3dd9c8152b4f66ebc9301b0652a5fc9e013e17cf718 0x2f562a6bacf8811635659b0cc997eb71f841957ebd201252194d05233c352368 0xb86865c8792c7a6d8bf44eca11ac82ff1fc9af8f98f69157cb25a15d523f3387 (-0x153e841b51125c6f9afc72e467174a52bae1d7b3fab449f4917e5813fd13d67b) 0x275303e62d1f1fb708dab9af04ae8e5130ff824c029f2e8e87a55c0e74cae1b1 0x1696d573345b571b8e1795edc5bdb9735718b71745198084a30e6982ddd6b0ba;
  SDbl 0xfb24a9820a11809d8b90ea37a8ae300a4e6148b3c64c9331055d30ece01b93a 0x3461f756f1e018ef1f76f293b1583671243a44eccc92ba3acd3919dc39d8a4c4 0x87e8c7175b7d8701ef9991a7ceb4b37f6dbee8d12b76ba05e220f9e00b70f265 (-0x3a52929a77f66ae7a861f865af89a114ca275586f662dad8af67126fe49a86f) 0xf660e9a612ef042084e871b142329a3121c1744a299b74ba027fae61ca0a70 (-0x4f34aeadd103ba693aca725f8e1d98c6aa9dac93a5d6a7ad548cca796d0f3c);
  SDbl 0xab568f42224d9f3749156453f4da661d30c77b54ef685d091a3f286be033b54d 0x66c4868fab74822cdcd0c8c390cad210da0c7d1e6d2d23919b66984268903f89 0x461481cb236194b1b3dc954d9b1bfa4245b210ab977de6d95aafd8d574227fdc 0x95c50c91c13188d0a5cfb508a72caa26d74a3c954df96ea93853742d49707f6b 0x72acc0a75d1a72ea9e60b34d9eb3df892e66519d268eb8b8fdb6a5e45f2d8fe8 (-0x21b8def934e7536b41656918092be4a54e7659fa5795333cae7e7b2f6d86b77e);
  SAdd true 0xd5e95b526eb758cab76a908880e2e38c69ca2f6ad3f81f88ed8e4c7c95bb031a 0x6494e727eb7ae306b65b4afc3c6f1ad01e9876a152b9aeaa51e717678c5ec279 0x6e7d6585359a89709368085a15f4a52559509e8811a45cd4edfc6e0e36fb6894 (-0x2b734573a2319bdbb7a32f25309f8948c360a336138864b2b5a9e80118efb188) 0xb2be26af3b9c7f71a84cc7d1708463be5a25b8cf306289e45b3a49c95c35d825 0x1d39dc10bd901227eb13132795fd140a2c0caf0d00d14e54935a6640ef004d0;
  SDbl 0x7889eebe73408c08385c5495977739bc9349b461b366f68d4cfcd7938c6038e8 0x5a11055275baca16eb43488f0d87cfa350d04875e074eb734f4d546d377add8c 0x815c8efb8d5174ec7d15f36c53b9301f91877c2a56ae292dbd50b407460aa006 (-0xe816220c9d6699fdfe06f3a0d435f5ccdc411edcd9d658aa0a49148bea774b0) 0x38c19a242b4c247d0d0139b0dcc8f12d369a4bc247df1f68074b1663d592103e 0x4f37c3e5df380cde86f0d23664cdcb295304abb3731fd3fcf95b6e83f8ab9d2;
  SDbl 0xf772497ebda5085b5422c2e878f0009b86662ffa44a326b85450383b1131d6b4 0xf666101215e391bc5b90cab638c48d59edb78f8ecec7198644fd669586da4241 0xf38248c9d52f5d1c1465ac5ec576a9e156c51666a95917516c6e9d9d20a80c63 0x9b0432012e8d051769a2e4b44421cc60f246724ececd1b9ee38fbebbe2b9fd3d 0xef2dbcd90b1ca0dc12840c8b888af3b9b7cb56cd37601342d708b04028d68ec9 (-0x971bd81fe9b402bfba6d84f098326318be0b6479f52da39bbab5e300c0663653);
  SDbl 0xc16e87f2b09f884ea298ec1fc97babd7c99312539e5cd1a424bd6dbc74d93633 0x20beaacfd45ad9933440e67941c87f18a526e0c2206aa36129e4ba6af25fdb9b 0x19e9e55b1945d925677a9eedc1a17e45003ca2d238b061ebfb8f1c8f5151c2a5 (-0x1577c36640ff5abf5bbebd700098eecfc8cb56ce18855d737acf6d497c477f5f2) 0x9227d8b59d3a09affb34bc22404e31a9a49b8bce167d4ad4880ced42da24d1f4 0xa16f72bae95b91da1dbdc9f29caf945662e0cd1f9c94a0884a3d1032d13a57f6;
  SDbl 0x8d7627b6b8f2786fb2612294bef6d573626416d8e3578cadde2bef525f611edc 0xcf4d617bdfe167345a0030bdc08233c95a541d1230885bed97c4854249824ef 0x168324a7ab123fa0f1131a1f769ae198270c8628c195e7e249b33b10cdcc9b92 0x1012e82e411e8146bcc54a2a307a42c0a97d8a851b52e64ef151a2d26b1677f0 0x4e2b5e483882253fa90c50d71b708a8628e0ae795765a17fa9fdf67a5ae78f15 0xaef4c435b4bc7c48e3a2789491b6bde40108582047db4c608b9735bd4e93a67;
  SAdd true 0x340be90cc6f822029d0e33853a984e1a1f71d4097e15e56ff9e074b6151f4c75 0xc64aacc20e1b5ff2cb0c858d7c9eb95644636e743c171b970278b5e2f42e9dfd 0xdef8a458aaa25cf0cf2644d668ded29bad01c923567ca9d6229e4b14da3d458a 0x7affa3e8315cceb6b37e8e3cd2321a2237ae073d5ebc5ae488b4844b028b756 0xa94d73b16ab01320282fc9917683385a9e7c2aa205c39d37f065f057ee78a3a (-0x25ae0f0357b88de8ca685253d56a1b900478104e8424222f9e631ed9fd8ea37e);
  SDbl 0x1006f798dcd8738d4bd06dfe71e21be5c0ff0bcb8c5e6e1ba4d5a4acb3b5b1bf 0x49db47d2db9e3dc3ddda9d838061264fe6fffd2fd456348d922e35c2e430ecdb 0xb9a6c82439df12642ba3462c89e5adf2e4c9e1709f511ca38e9d310941a1d05a (-0x1b0db938e5a0c215455286cd3a857e647173816dbca03c67e14589b276175b3d4) 0x100df23a73e9d2b69e0d664a8b47b450bec4036f6a9b2ec513e795adf0e7c54 0x7ca5945206d02f90463644a739b3d1ae8cf30d757a01120f7ff3d12c3156b86;
  SDbl 0x587f3476cf0f45b84367ad6ce714019a4758129e708b4b5022170389e27101d6 0x67412238756a1c4b4bf3a5453364bfb7af229b4b8cd6e5c7d4d6311f7a4ab756 0x10ddd5c81f1de626e12c53ddab12c6e129f7fa3ae3f0437a2478ef69041652cf 0x406ec8cd270abda0d5034c512841dea089baec0e45535f10c981bc797a307f90 0x1e97b346e5941f9e7e9f1ca0ed28ab6d071b07a2c22ebced0173e878cbbd3228 (-0xa299ea0a48569e674d97f2f8e48d560064a5aea8b49d2ef13e7909c30a31f05);
  SDbl 0xa1380645f8289d079a61b58f0389ece891f34d26cfc2466879bf9b7ade16f5ed 0x742baedd4f2998dd32011f9430e5750ea20737740ca537d94281219d3af5351d 0xa013f6cb3c1969b54d3bb873d2fcbd964573c773cef3ae86e804416c1c39c7e (-0x67b2058d05e1304dc8a7f7555c52b0e086c4afabfbeaa48c444d6ee4205d569d) 0x65878427266e863107c0af5453c42cce5b3c0c8290d19e93ae2c4b61f28f2660 (-0x8225613802c6fa99675ba880b0c5a4912219a238064c5aca3daf92250d62c78);
  SAdd true 0x19618e480887028df3a16425bb156b868984f198fe99cb8dac782d505b2ed3a9 0xcb098ae7d8886c67f85c890ec3f32d954980a5e85801e3b6ff97c174630619ec 0x1311f16edc61a29029778624f981dbd795f010b344714c595f78a18130dc80ea (-0x67bfb7220d8f459ac38c477496afd12c71564524ee1b240a867b0175a27d118) 0x28432f735d905817210ccdb5c0c83dae6e3c7b1b371f5ed98db21efeb8bbe3f (-0x89cc4d4f15d8e5226c3272fba9193f8fa6fc5b87ec562a0b1ea2749fb7038f1);
  SDbl 0xe0c459eddef6049991607fc75a9662b0568f393ce6b784d442e68f95dc8d4bb4 0x9326986c2103d50336d6996172858cbd3b6089b54241959f6a29c0455fa2e89d 0x93e96210fb0a633e0e903812c005b6b9007018245580fd3474d1b11078cdbe38 (-0x1c19bc094671ca2ffca5273343a22e3ddbd71f83cd40c47d3efc1f2f4d6529063) 0xc55833fadf5b66cc4dd1ca004a7cccd3bb31ab6cfa5093c53cd8e38c4b0425e5 0x3111718fec71fa3f5b7e51eaf4d64d993d4e52bb1491edaa6e89c7882bf66e96;
  SDbl 0xa4104bf3578259a9b9a30ed4c5dbeac16ffc6169d3cff99ad02fedbc3c43b3fc 0xb16f3d530aa2e781142b95bdbba1fc537687751c71b8ea9f2ba8b2f05ac83b6a 0xe10218f736e2f3c3f3af3ac3ca467db30c3d3448ee2ae99896d561546d94c19c (-0x402a3003a50e78df932edd9a1f8136597ecfe006c0ac2e6c1c60c1a41e2dfd68) 0x6924e259c637521c1130f7cb0b7f1d386500832282e8c7ee7c937315459bac94 (-0x1368772a611f421f13179550a9500103b9b8962e0c62b7e661646df81053a760);
  SAdd true 0x3b48f5bdce5fb0a861546cca6e7ac95afedf637111416654dbe92bb9f891bb55 0x9de33775236e4b3d4b4cb446b24b430b62d2a521c42d653d2afc1ec0b2f6694 0x9b1601e1c30e0668af96239e013e10cf0c77081d360af84e2f41c8c907a22212 (-0x1d55688d7d98d8d7984e55dde9110be5dcacc9fd95cf0c78fa294f035bd5cbdd) 0xdbab610b183c10f34e2b1b098159a4274e73f072eea1d33d80ebda129e4cc8c 0x26ce2eea9bb3d90a9e15ab3cba2a74dcbf0fe116206a4326b8dc192486c9e6a0;
  SDbl 0xdc75e0bb8a3103d49e9ef013bb62d4039e9c44a695bef017371bfad778146caf 0xe743f8bb166ff302d4c1a8d8f1ba9db5aa9fad77a54bdc0849ad5fd3c80e15d7 0xbd9b36d4396a63472b8b117330f4d674c8eef9e4b3d1632f36ae9c698401484c 0x109f88431733c3b50dd95f2e442b6f6dde172f970a78bd0dc1818789b331d0c11 0xbddad08a44141b2629f6d4c918ddfe41d2ec947424b4fdb7013b6234a4f0c35e (-0xbea9676560b8c2186d9626632b73549d5fca76260263b2b8563222e34cf682d5);
  SDbl 0x9cadb0e7a80ef6ec3cea7c0cdfd3f540e0769f63d5b8dc21c9a035124a2e2a0a 0x26a079ebe6443510032097e32419e322e9b6452577f5ab85048986d94f6854ca 0x74b5752fd75207e2804c8b435dec5c225d2f89bd70dcb01725dacbd36245d1b1 (-0x18aacc22389af3cc4eef14dee99573baba554a9a2e30ae973a743e88fa6ffa640) 0x5fe42573480edf523a71127bee54c86557bd6e9c12b0c957b5ff8077f5053814 0x75e654e22270f63bc8b2377d73ff85838b34ed15fe3f91afb9e8fb288bcb6d7b;
  SAdd true 0x50d8bb451b9294c9df6b1974f03aefdce7bbbb1d5299c3f55b12ee4ef56e0843 0x9216d127504ed9f5ad710a06b648c09b1585bd8e1516f9fc9bd2490c43e8f6ea 0xa8b48e71b49a31ce12ef8693948b100a2636d5c39beb201799a889c2701e5167 0x3d597c1e503f7872db1a1e0b1c64a4f3301aa80d769ba19e3b6cc311989d7b8 0x19882c87d86059d11e07aefeb24bef6944c1bd283982a80b3494ad7f6ec57ef2 (-0x21eff5b8c165aedb2fec3743d07f6bbcb1699fd9de12b7115050ef41e1206e88);
  SDbl 0xd476efe8e5d475e7f9a8d85eeb8927ae0140c5f6fd1292bab2bec0006f8aff70 0xed34ad1a739e5458284860c7ca11ea10a87ef1552c0b97339955275240868d35 0xe75446b0253a56ea9822bb1f12ef70f5e46528307b7e3c5782ba49f9b0bd3ba9 0x1dedb4c77a4e4008132a345872eb8ebe81270d219b56cf2d5df98cc741153d89 0xb055349c7885a8c573721aac6a433dd337ff1e298217419a36f7e46f44b82a09 (-0x4b9f0f4ccc23ce09d0ceac707fb4ab280981a36992b025c6924f75e6d80ffd20);
  SDbl 0xded97c9179429bf3769e5bd17fe9a982405cb97858a85ded66558103433a83a2 0x7c847ebf2c9df331633e90386cbedf8758c818299bd2b7dc3244b68d8962f962 0x1680e0f2a0f022ae7d7ffaf2d0f57648fb7ec107c715786e71cca34d84d59da4 (-0x100a0817461f41c8bfa6f6116cd944788dd508602fe1fc4bae9e18a00f50430fc) 0xc1fdecd17b8a465b3dfc9388f8033c870f16953e9fe5ca0b45aafd1f5558e148 0x6218846034a91804834619c4824c77a626eadc877cb9639f0ff40adb659c54c7;
  SAdd false 0xcda29054804f09ea53f8ed2a949c46cfbe3d786e3f648a5c6b42ce30cfb7c92d 0xadb04b978659a23c31d44a3888a03c492a77ced876b80cdeda06d4e7640a7751 0x7b6c4bce6ae2c858ff5ec6b600048e4016b0a59bce9e0113bac9f21c320300ce (-0x3b3d6efc3758e15ab917d0b033d25f4119b154afaaf03728f1203a75b62f8c06) 0xa52dc262f6fde88a2d621dfd226f1982e2706bee9c36934bcf3738d61e4c3391 (-0x277f4c79e6815eb946d0e7eb6e5b1ebb2263f9c91bddbd0a6f10dcbe10fc978b);
  SDbl 0x6f101cf7353b00b5b0ae5a47bb367d904e616a1996920abcdece2ee1cc5a70fe 0x4e1111f26ad421a68b1f2875483beeafe3aec8fa9ff2c135219627354c5ae1b0 0xe1e6ef644df447fdfe45115d6038b309866499d69d8314466b6834ee8f7bd689 (-0xf66fcb84e3cea283592537cd34916529f91ca9a3e916979a5f0583be49b0a1e8) 0x302efa223285ce7c8387afb7a3f2617c49a33cb45391f8111a25a67f9ff8944e 0x297c0ec41b8d58128562105b7cda87733b439bc83724e8c57b2836828937f199;
  SDbl 0x1419bd3fc4a552c992cfa6402a7c493a9be6ec245fd6f0c4d1c3bf14a7ebd05 0xb0fe6ba4a50fda772b200e17bc61d4361505459221122ec100169ea3067c5dd 0x98c03f9b717099bff302c60401a565d7c30c7480ca4596d0abfe77998baa4f10 (-0x4533a0117b7cd9d9858750c3ccfacd6ecadf28af61de3f68ebc6bfa2f454205d) 0x19408287aa97da0a1a28fae79e7d0b9d18db0274818d034a802e548a12724 0x542d4062df27cf867dee134f75632ab9325fba8638533c3557ac186401d37a;
  SDbl 0xef16fd886ec476be7d46da085896a46718984efb2f88eb3a485c15f489916200 0x5b38e4989f9b4d2ad4360d1d95b7d8509d0aab933c228222f838085b0e9a56fd 0xa4d4162df4401c04beb3dd5f6e25c2a16f6e0855c505be603d696a4967173485 0x11be349ec8216b550cdcb7d3f96985537c243c28fef924983d094dddbfda36258 0xdf4bef762ca8c29876b0b0b66a323aa3993c02fd0f5792eb47171ebb45e5e2b7 (-0x4add77ebe8f3e69897e1f95c7172e1a28b6d14389ea9868ff3800c3f5e903c6b);
  SAdd true 0x17adb57c549cd68f2d8e9942deeacb1d1ed5c432a28780008cc2ce3944334817 0xbfdf9b1cf642096d45e3025c7b144ae32f10450d7778756e76bcd30c79531a95 0x1b98e41736fdefe234266ec28aa1b98cb3d4c7adb40fd8f99e4ff4f649bb3463 (-0x3bde41a5ac063256212734cda2e9bc5dbd6c83a5f955c7eba787e3b417cc10b) 0x230ac7b2418430ab7191353ce9e5fc687a0a1eb17e74c967c6cba20b5c2f448 (-0x94f466a059727355f42243ad72fd6a4658983f78bf84b1021ed51306a494470);
  SDbl 0xfd3c902f9432199faa3aac5c995bf4b35626dfac214eae6cc94999f3e47a7eed 0x52eeb69fb7b2fcc10c26445ff73c3d152764e7ea94a1d8c3f265a0b57750cee8 0x76f1188771b31d51364d74d345cd432dcca78ec571518440f3b9dbd3148b359d (-0x178d504b8de46d1f5f072c3e1d976ebe4f00991c770e96a541de0340fc66aa326) 0xfa80c352eceed104a34194c59aff991d4ba2d269a7f043af5a869a2d0924dca9 0x6bc3d7a17fc2dcea219420d40af3161fd6a4014c0d8f34d5f68b288a3c7534d7;
  SDbl 0x2f3a454e6e17a5b14465f6db4a8833ae8e37abd0d6d17b880f8737edc4a15f04 0xeecb8788cd4df109fb49ac5ec385297ec27ea0b1c19883582d33c5d456fdc3dc 0xe262ce16bf8aa341ebfb0c9e58d92dbdcb09e99d93bea87424569f10fa98e2e8 (-0x24b6b61ba1f572b1e275e5a4a2deec7d892b5cff42bfba909192d9f2d4ef9c2b) 0x8b672b64f7063a47ff3adf50dc401d74ee14925b2dc7f946321e2a07f53699c (-0x1cc1049481251ddcc2d1d087a47d96eb3df8a7ff615a6aeeccda326a65cd87ab);
  SDbl 0xa0020fa723867b5705ace3351a090aa7b2ad4947854641bfd1dd16bb941d06f2 0x8a90d45e8c6857889be5d270300c885dffe50cafe2c3b1bbc057406f19d1444f 0xdcf047903a877ed9459c184bb49ddc9e49cff87ffa7dae6f7d90c5018cf29c5d (-0x1813e0ea272eda09ff7bd998aa4005a1d18c824b524ccfb1ffce10d3b082d2f73) 0x640293958ffc3f2565479c6e22ebee60529c478a3fd42037439f7b3964c88f43 0x3ea57e90ee3c882d9be1c9c0f33c898544b1c68315fa13642e4af928b1849dfb;
  SAdd true 0x4f1bfa2be03f5988ac6cde2bf8eb73e9576f0f96009bdc3e4fd4bd7909125966 0x17b5b4ebbba4b68fa175c45f77c5f3f1c8c9edbd263b5ea20fd90c7a7affc0c7 0xb5db3fa186e4f1375469373eb6316d1eba8e9be0616583305a30ce7285031227 (-0x1b21981e1bae7830c598624a3b5916b3267f8a07202256de7ec94d740717b38d) 0x18724775e6946795f869e8b6e625f41a825b49ada59799e090ef286cea8d6539 0x237e2c0e8f271f222e61897fdd52785b027f3128c3253cc0c0ddb922ec30fe54;
  SDbl 0x614acfc4fb3dceee7f7acf4e778ab57029d2a08903c60694e817b52109dd2e17 0xcefbc439a6d0871484ea6a66830be62399e8b66a33a7be40fc781664e3321974 0x4d66f57cf1d6d1dddfe945179d0b6e39668554f32bc59cabdcaae81eea832ce6 0x83a3f9b7101201a12104ddfa4cc8dc5dab8c7bb2d543797fe96587bec66e090e 0x24f9c75031e003bc323999e544646f741e053d0b95db0c5fd5747b159f2f54f1 (-0x45a71acbe42a592129c5ff60eff247077d9c9413db143f515f51cec485abb368);
  SDbl 0xacf40958923cd045547c380a1d58618edd0b2376c67916c726ff294a1dd8a44 0x9939ffb33d9cccd1cccf1f259117488db49708655075dcf1dabbb730d27aedb0 0xd2f90fcfbd0a0be897877607088bf03e21ee0790cde94e28cf66457601401341 (-0x1ef85177abcd2409b7c34cea6da7f037d4b0871667e961207afb82b71cfac3c83) 0x74d8d5314a88a9e89c361d9d36921469dbac7df55e6106f4cb0db90cc9be88 0x24516eb02c56044439193469b9d9f7f29f1bb4205eb3cb928ff9cc6b14ff817;
  SAdd false 0x7b8e8e9856ba370f74e26bf4709cce26054651d12ca1f05be635c335589f9ea0 0x7fa97730fa26614c276d9b660df177bef2ebd28f5e1f493350e41f9c290105cc 0xb613612a1a51b1e38c2611afeef903afeb21f39a9bbef0483fbe1f37bf5dfd3a (-0x31736c5161a6ba57f4f96c5ef82e6b5358ff7e61e6f625bee26fa0aec617a442) 0x3ba24c691f66cec4be763a29d352d4200a9fe3404e631d49724c8d81c1be8443 0xc56adffbd34747adf86e67a0612ddb548c37339301295c1cd2d0e8930b269fb;
  SDbl 0xd4ab37ae2bc1ced9202486643a1ea2d9e93a7f80a625622f3ec8a8277badd56f 0xcd6003914f5640934185df176ee4a8b97039e4c9c7aeb138bd553f276d7e06e4 0x4058bdd5790e3d69c53a54f8a6db70bd4185e3ff57da939cc1d713c8e9707474 0x6f86e8b282a2f7ad36aa053feb863c505ab8ddc9a4253878601950a0d3e4b361 0xb0ac06bc97efc78b550e601abded6813fbd71901fc14c9ce0ad4456aeb882c5b (-0x408f2616e2f84cbde9f889c1bca2ea94126240d6259afa587c96fcf85ddd1cea);
  SDbl 0xa1baa0c0db4f08251d7208f2065d1ef2c9efc44942e4cf2092be910994859cfe 0x7b3afea59ba24ba0bc43cea5be087e1f8245c6753e68e4d11a1a9fa46eda053a 0xea8fd9af1ef65758265ade0fe1c7bfdf52f6653041c228f43e65f93744f21b55 (-0x19cfb4ca392256edd169fe53e55d0c3ec7f1b6ede895ffd443383a8b497be0503) 0x662c4640f73600c3f8c92689a24318ae329a06318be312beb05594d519a386fe 0x33e52a93085ff0b5fedddbe70a8901f1504a29ff67ce65f3afb880b67153511d;
  SDbl 0x6f7dba3d0206c2f6e99ca65fb61cf7590e2a285a3518d69708fda66b7e5e0bbe 0xc7dbef732dd8a1866d1f49cb493ab5c181c2f3c30e39a4cc50bf3d49a4183eb1 0x879f8ab13f2de9d6e441237568c767d68aec2a189e0db1393594934f4237701a 0x1a59e9a6d51e0d4869077b83f4a6b642714d529a626f4714e1c1c5b75884133d 0x308e45407f60d268cda29e06d1268136ff5e824b220518c7972f8da2d9ba6821 (-0x215f6abe0a0f63bf0347aade5d89cbaa31c2acc86780852d9b53fdb39c7db13f);
  SDbl 0xd445399a756df7cd1925a056926051d44bf05c6c18e01f26a604dca0ff4cefa4 0x6064f3caefe0804b6b5b84885210efe883846bc9ed5fdbc90675a8ed0efc576b 0x602e118c213702328f8a44fabf7fb7309c2bf0807c44fff14beacabbfd4c6a4d (-0xf32d6aebcbc9a9dc424cc4c4d7b7cc416573d77cdafc7a6a8a29c53cec298a30) 0xb002ba209cba4f5059755adb9abc7917e4ed67c085269f32202c59f8757933bd 0x55ca82c168865dfc7dc38eed11a8c761358d21559e1752d6c78e201f49f1578f;
  SDbl 0xe5d2191c425ab56d7cd00605fe8bf5ef809eaa85978d596d7757c709f9e9aa80 0x2e5960c13c1ee49ebe7583aca3c454cc783ff098875f6f2665908e86b561158 0xe571cc81fee7d634947e7b2c637ed00bf156720ebeaabae1db63070816e0f336 0x3fccade140a0b1560a2656b53ab2ad622f6141b0796f99cbabf74789b1c32328 0xce518d5a91db3ad6674222eb7717aa4176c40e4cd98e6170c2cafacdbac0802e 0x53efaa82b7b96fc61782d1b0eaa053f4c7236eb74a7f58f5488ed29c9436b603;
  SAdd false 0x605ce80a24d8373fa0f74f2e642d0a5008daf0db376171a558504ef8ecbae4d6 0x275fe14cc61579bd864c31d2a38208476c4fe6c78ca356305ad7a3f9b7950faa 0xb0777e3ffad60c19608c1e9f60cc9802fc243c4d45e431dced35572b300e02e2 0x1205089cd541bca0e27b10f1152ea830c9c7fc26b852996c8be1535d9cb9215f 0x2445cfbf5984d7c5924f2fc94630d3abb9fbf4a75e640f9da4540d6f72b1b2e5 (-0xdbb193ba2141753b606e93f6c53d25d1c6659e2832a402ebe77c5c68253695c);
  SDbl 0x999d31543c04cbfd9535c2f6ee7c1bf02aabc16d0374b2e87b78b373d6a8d954 0x7743997cd154d56ed78f47073178966e129bd96e15b1a783ee194abd494872f3 0x5761bf8bcdf1d5375ed73e394adef2e2f6e0e6330b14feb27092ff13e96d7f0d 0xc19c7bd0d08f2a3967167ad0af6f60f2615ff66bdfb22f788d0aa99befd70e59 0x5c2d457c96bdf9e52f70721fdbb5cbfc955ff151a99df89e7d6b1e8251b30eb7 (-0x2ff02721bbd46b179b89d7b699258a6ca8e300456394eb243ef3f390da97091d);
  SDbl 0x4ed670057d0c4363fd9c392cd2c1932b2d798c1ca583a471b96acf05d672bc51 0x8747dd583fc401ed61fff45f41413e53924bec8abfc95cd2e6dcce7da998f9d4 0xe96cb488b3d4ab34a5e9fd08f8ba21627c94c03b888cd38150113b3b13846dcb (-0x70ddcb04f4c3189a11d8b020553bdb7c10a372e1725c4d3d728fc54b16918642) 0x18475fe2eaacb6fd5eeb053ae9329efdeb72e242790196511d51048a8d7ece19 (-0x4eeb73fcf9b14e40db07ddf6e33dd972b987c5d063ae31f07c30916405429f7);
  SAdd true 0x135696fa42947e22b18fd250d59331690ee854aed2a2e34fadb0d160a14a5fc 0xe479a5aa10074adefe46dceece63d1d57b67b81268d6a0df1407d7bfc38563ad 0x83d06df7f49f56c697a15fd81fbe07fe798c63ede47369a3a66207501756217b (-0x6625269a15cb7211df23406d52137fcff2110fd2c7a09aad4154274632235f) 0x175f7b2f086f8dcf55989b9948c045814b69cada73afb6a492dd4956c0238 (-0x70a378dab35a0d6f2429762da9b9976325432a77f16876d5b6a56d3140621e);
  SDbl 0x6dd9646707a5d9d410ddab7e33b71694704a99007c15729ceab38b3c27d61207 0xf346ca8c4ec19c8f01d77346f282fb156e61eb619f5e3282a6330fe0714228ab 0x6301983e9bf1899254d252eaaf55ed5754afc951cd0d75281566d7906548960 (-0x1f29b5e4c45fafc4db0f1d930cdf2049c5ddec7cbf319b5f00c5ec704035b5802) 0x2f22d81b49b1b235e370813af56bc0320028e7733597c3d5a259c597b153f3d4 (-0x659ea66b639d579077a866d9062f591c99a0f20d5ec7ffac88fa2c37dfe1633);
  SDbl 0xc1ee190ea7b7575f413d3f7872c1f262a2ee4a18f9a5e74b8034aee1d840bbec 0x6a2d8dbffd07a884def879e37bb69636691874e043a6e62d55e93e1277c33937 0x720a382cc30104c799b7849e3ef9323333d6839dd4cbfa640ef1f89f4f70462d (-0x2ac2e5f31819c7f46bd713a2c1a0a5eecafa267f2e562723730786879fea9e258) 0x92e8df3b457f0777eff98f82f92ee759d1f52a8ee1f5d0797282eb7e9a54e8fd 0x67db89b8478fa33ac49c6da9f4d048888093b8d3298cbc722f16c03cded6549d;
  SAdd true 0xad565e928911b25988c0b23475e938fa1e30a1cd737e5d2ad3efc03c440d3d9b 0x73168120db23d4879cf47be658d8958b57fc0633ad30faee255c34dbf3d346d3 0x3d93aed0b1d9c0cbe9f13cbef625ef34a2ad0c9fceb4f9c1dd266ce379fc506 (-0x258490ca67bdd178965438ba5720c806454b5ab78620a581af6784d7b3ceb5bd) 0x755dd8f63003cc70a78d3f6dc95683600a12a4fe26d1788e8e814e65f651b8f8 (-0x6086e04e1a9bbf2a07738091cde498e7049cc853d23c2b760067106670d8b59);
  SDbl 0xc80b14f58d20f80d9f96e95e42940d00d1fe90a6e3a7f9bd9d18b9929c672ccd 0xe4371eeebba679326c6970909f450619b14d57c76f42fab55bad118178832049 0x92baa6567f02c5d0a95c1b998d566ab8266f138cfd79a20167ffdf76415e502 (-0x9533ec9bb7368c9f55da2c551432ecca77e31749cf86a4ca63bf676eac3165e4) 0x9c51513b17a63f3a47d803569ed901edc050b2f670337755e9f82f36735c91c6 (-0x586660f3068dbb635a4e6075de8d9b953b8be6f6ce74c1a3420ca150839eea7a);
  SDbl 0x60fcfea96692677a2bdec6ac8a01f69f0ef88a5841aaa8898490e3ae48673056 0xae577cd5c1ba1fa45d2185b9e281692c5ca4139657f13a031c564186d44fb867 0xcdb330942f722d0b7051736f4972c876befcbc69bdc7a001d567ac4c099e2b21 (-0x25b63d0e6b25f85b7c68d2bd3748f5cdd22b3a695d59dd4d0573ed5e55fd99ee8) 0x24beb9058c830e8001ac8ea41761872a3e3c6ed43823c67a4277f6d977019c15 0x14691a848bc4751e8d11fcd29acd12f231e6d6c1c4af93c90a8a45c44506ca37;
  SDbl 0x792bc27a313f828566ec0c04ee6ce650861bcb6150b4880a0acf4d687eaaefc1 0x175a4512225ec784ac9535b59f7070574ea1ad95f5674b9c7d86b0c0353c0d91 0x94fe49e387d30462cbc8115dd71025b19fb504d6a9cca4ac42bba87686858193 (-0xa1776c2443cd608a9e8af8e8840ede6c97bbfd8dc89fbddabd2aadbbd3a5f972) 0x395a6552a4b26701d4a21486f47ad3b863b933977e7d4967ea4b96d894fd8ede 0x47777e9811a02e8c72ed4a796dac1b1c4146e99297bde2d9a5e2aa6c7fb6175e;
  SAdd true 0xeaca5c71a44197adc8b20dc48c51efbdc37f10c384010df2d02a0f88276a5d2b 0xda885a0567be1d3414be1311719a575ec583dc553fa12fc2ae470918e173b72b 0xff42329b569df7d5e1dc0f10de22b0d91add04a2c4f040a67890a9d815437ad0 0x1924efef31fdf5caebf86515caee0a10d0a1d74510a570dcf6ffd72c02187afb 0xd75690f69c5792453dceb73e78d9e3fc3a3024824f56f4e9cd0c631de677f44a (-0xb30267fecc7a7d9e77b0fb60c7bd98a92f2c4577ef3c3e7c6992b6898e7c94bf);
  SDbl 0xa67f8639eef03b33977ffe56c9695a233532cc28cd09463bed9c7e935668f202 0xd4719d81b242ca28c3f7f2205086ebc71fa836379cc226e6c53b123c55086731 0x8404293cea76e559e6d7c8248da76bef5e17f389a9f62652e2c47bf081ac83ad (-0xe39d5cd75276b0f0d765dd288e50fee4499f2687b665fa86802fa8c4752da798) 0x6c49a19a0204f3fb6ba731e8c458a5f6cea96d17948af128d36e908339880d83 0x3f5c6b638668b0b5d18a8e789ca6d815a53fd3f63eec8e437c7aa4d92ef0a89;
  SDbl 0x5fdc47513f0839da94de2560d54a82ef840843a9f96f5d10e8ea0deb0e68ec07 0x3be5fc72b763266a027aa677c8b8d4e31e0b6b16b1e07708858b5edea578aad0 0x889a1b2edeca304a353e3edd68a3e76a4e143d3c505aa3b78e63985870f8fd70 (-0x1ae06d69332be2d9b3e20db13cccdb87670836fa3006b62d129603b1d9eccc556) 0x23e53a79182fd64c452d7b7d0f3a7386f9419fbf065e8410c5cbd3abec3c9101 0x391f134254800a014c15fd25872ea1a9c5354818404863722e29c623cea5ee76;
  SAdd false 0xccf1db4268c6c452555757bb478be45abf833c918ec7f3b2cb172312f03c4827 0xe569238262353e8153d16d7e61e612e5635ac75a890b23f1662fc57f0afff3ce 0x1988a3813f6e14ee6ecb559deb89e96e6fec7b8ab9d842aca347f543ac7824ff (-0x74f2a8cd56868a7a3a22635821154806d095d0adda51d129349aa75a4282ab2) 0xa41259f109e319902a2f2e246f37a7ffa6b4d59bb9d36fb9666d84efdd271d74 (-0x87b4a8c7f52f423c7eaa7fd70de31d7219a69f25251165465055376722e34edf);
  SDbl 0x8e0a48c01ec51debdf2ca82bf6cd5df4cf309cf2fdf222a3129e5d7d507aa7b0 0x8077b0b15b346d2ca74d3037741092b7321c2c0a87c8e2c5fdd30efd37cfd2dd 0x473c75771bee49c8730057f9460e17af5f456da02ae93fe51be32f3c964bf917 (-0x24c6a2b8f319ff9e353a3a656b9b98d041f9d526c9cbdccf4245094b36ac56357) 0x4ecf691f34a11f3442d87364667bc879ca840fa68476a1353e0814890c38a179 0x3801fbce4f91a1bf256107969893073ff5a6ded54357f33f174ba892a9564166;
  SDbl 0x514daeffc1ede6748f7bb42fb262f5a9f45bf7be14d3e273edc72094629f77ec 0xb22f259ca90c0d3e60ddfc120170665995be7baf27b80ae0b4fb59aac8a34881 0xdfeda06dd35870da49459a54222572ffd4a823706b204bcc97ffa2789c2ab054 (-0x94283bdd52e9d7d661ef50746adcb3a77f57544bc913fe2cc80e4cb1d4f8ac10) 0x19d24050b00620666510daa93da66ecaa53402226cbb086e3b5d539e58edacab (-0xfca22290b10adb2fe414fd72368b61574b8c881a58cb1ea75933ec8260da765);
  SAdd false 0x9d3667961a78ed7113629daa29f812dcd2b48741ec1731e0ad91186afb586ec3 0x3aa72748b33c8692d883948f4f4bdeba5dc1c5dd1678b767fa45515ab1b5b407 0xa76e51cb38c96fdec78387b83cf877f595c629f618f9b647f38072d76ff78a2f (-0x4e3f5f4410337c08ff453e2691801f312884f06ef4d04bcc6f677f2987576e47) 0x608bc69e5a41662f8f4090a34b2101edff20e80bbed31ff968ee1f53f5a948c6 0x4967ce073a3d00eeccad8ffcace99d2ff7eb0c996496d7c869dd99b1d76db595;
  SDbl 0x717b5a6d8b4ea54e875d302e80df95deca9b7021c64a05a1f1a6240e0da4a5d9 0x70024865775a544a96ca16e3f09b532e5faad08b0ee2e9a29ed050acb4800a43 0xb673f878be0e1a9c94c2359ce607b5c758b91a99dc36d27513a53437683bf7c5 0x6c203dada0ee57a9a5dcc4675c59d0fb083894a18bc208c26e5dfe9a7f7eaee2 0x324e2144ec7ea19a52777568e5c06a794d3ca935fe419d7b1e8da4e924720060 (-0x17a6ef3f918466c44e5f2ddb795cd67a7d3bc20b9b2c27ae2bb0d9581644b930);
  SDbl 0x4b1ebe8413eddd1c652913867854a44d0ef7d5069eb39ade37ff7e6db6502875 0x989ed0bcaab7b9270849bc27a8e07cc84df1edc2b103a5e49f89e84c8a424700 0xe4802f452cf6583c20460b22989352e9d38457b10285b0b118cdb8df88918383 (-0x27f237c4bef015038102f16eac8f21442080572fb54350f5b3c2753f8922217a) 0x160b0752ae75645ac77282b2cd617cdb82e545ba31de4cbc5428d76447bd960d (-0xbeabc82b33f7d333bc1c043de51ae4fe0a678d178b3f16dc243071baadf3a57);
  SAdd true 0xe098fef88a2430ca1609acf2db850cfdd855bf4f7dad9407a1ae21f1f4c29794 0x1ad24e63f17b142e43700112b1854b4ea9c9d8ea5a76a25d04ff6bafc0fba339 0xbfdf4c15f969b496679a75a9864cfc7b3309117cae9afd7825271a5447f88bd (-0x595bbd34a9ebf778377c810b23bdcc76b06ee0cd56f0b31b7936c1707f086aef) 0xc50c19a37be19d6ad3e74c8ebc4adc689ee1913dff259a83f53a8801487a7170 0x6e5e20c6807581df8dd019bb7ef08e5a2752b792d3e8f377a608f42efcd1fc34;
  SDbl 0x35b2569e59617e2b5b809c320bcecee28ab346526219ba797e41e016127e3204 0x43a5479fda498fe4c9c522f0751e207634e028f9f388d634c9bdda6bbb3f17db 0xb5858ecdb83d98154002d4d70cc88ecfe89feb4fcd3f2f465c09bc1c6aa6a4dc (-0x366517521affaf021c03f5292e1cc1e8e6851c276b16581adf00ad635eb31d8) 0xb43541a2dc8c3eb8a49114bd52105be7dace1a815a591ce77271bdd6780ce3d (-0x8901e1adb9b952dbbaa220c38625215217826ba5412bd3443efaf1a6f485bdf);
  SDbl 0x3aa16fc5d9bb487a0bcc62210e800e8378a67c0266a7ffd91939b4301972b65b 0x77826ac1620a3efe5f284bcb1a6eacff37deda757459e2cdd4d82400467a1f70 0x27fb6e4829b8d26687c7f944d543920940e5b07078571bcf65cda270b0b1565 0x1d85aa9c1cd9aa40ceedca1608664587ed2e0ed967cc88ced6439d7385373ba0 0xd6d8c737bbf72952ee15212db81e2f1aaa308782bbe80388fd1e3b30c06cacd (-0xbe0ceadb43ccd30a397a1361668c3b3ef272f39c52f5fa5eb9fb2fc2794a5c8);
  SAdd true 0xbad381bae4c96251469ca553cbafd8fde61cd912c0ed3add3c3fe051416a141f 0xa5feee5b1e351d48c8ec81e339c60ea5dd8d1daa7725d08058d389e5a62794a 0xfa4f960aac7976067164e896258f03c31bdad7bd321839d2bc371448fef76247 (-0x322aa63cdf2507242d2bd9ef51fdfc1cb63581eefd0c2c34165400a072fa464e) 0x88580743389fb11d9b65d464b0ec0cf71ba464b472397c08c36f9c5d6ae831c0 0x4fa538b810b3f2cc48c7ed996646f16e1468ae785bafb2913a693222286e6112;
  SDbl 0x64c79d314eb009375ed3077f27d40a1e1f9754c583f9dac947777266513fe171 0x8e3a3585a6b231a7b5a39bbf58498a7cdb42f3d15c355f4784180a0093f28bf2 0x6aece2c52cf27e8df77b5f70f9f39a2f96b0fc4366ab315efa2b39367b32394e 0xc3d1a0830b9ae63205e0fd5739f7f0a7ff4ef04aa939256769e8a05c1c458b7b 0x27ac8e747053ef59295f6975b667bdecd0efb253d0450ad88caab4970a91aaa5 (-0x33e81339d87ef98d88545c1e1d288e6209c7e02b826ea096751ef241bd808043);
  SDbl 0xf3caf7653333b257fba531e2fb4ed261469893529c33e0d6e4a849cd8e7593eb 0xf0a3a351d0d7d3cc73e75067061fffe2ae571918cdd86c3bfcbe580a8093e15e 0x26eb872a77abb0bf7739690ff299b35700c7390cffa0e9d6ef7572bb962ced3c (-0x21669ed3f9a7d3bc68772571ad812bd55a0701b4d7a9c6b78398225a5b36b6eb) 0xe82af2966228558e0feb377aa3655f30c2ae980c90929356c28cd9946a333f89 (-0x5db819846d0a42c5dbe81f05749bb401d506c6575d3d7275edae2777201e6b52);
  SAdd true 0x3bdd00bb82108906a43a0021c470fe06c68c2902167bfb9d7154e9be0f833cb7 0x74db4a37bdeef6b5ffa666272bff2dc61ddd719b731dfe5fc3581a49a976f046 0x1c112ce1f509c9caa75deddeafc5bce7ff6b98916acafd134b64a9a4f3635fb8 (-0x2c664c84903c2977c55fabf8b2b70742e1860f1cbd505d4b22a0f5500f2bf8ab) 0xdff9d20bfb2562dab199a518ba69728bfe2f138bd4a908fdf14d5d4b9a6fb9a 0x1cf208d8b50cd8e5cb58886b2733eb05e757c9fcb474a059a338375c341654cc;
  SDbl 0xf7ac4b4e5f0d439bc73b0ff21de5f3915eb85a6128f911e4a8d580be73840b82 0x1442e0e49ba8e2c48142b4ed6308270fbc04b236a10e421b4bd58805f5be40fc 0x67ce88f3c729fd704a93893c70f048e662ba6a9fba1f0bc1efe7e02e5f562032 (-0x69b7791c92ad4e8af64b71c6e4de7f2ec35b313219a92098942c52cb56c50d77) 0xef9ded4772804340bb4545eaef2fbee4cbd8fe7e6079a4c5548ec12e9e17b384 0x5d7410709089b778cee4af56420f82d0621a7a48f6ae5885f6c79fd47f404e56;
  SDbl 0xd334beac8791122de31305ec3c6666a3b2b807eef199d96e0cef4f4008c79892 0xaac3af9f0ae3a4dd6c266fef5e073428a5c8a41fb488f526dfba33108536c097 0xc5ac54f35204a45417355a054274ff8b3324be750196d88cb12b0fb4d3909251 0xa679ae77474aa477592eec647ec1df565fb7d962b38f8eeb541ca9d86978cf25 0xae3ffd2f19d4c197ea813b311b28f909f87a51da77d0b6c45285c8f4c2c98f4b (-0x7c2b2ca72b63ad0aea83d317304f1d7065ae9b6d7864ae46840e387f651f7f17);
  SDbl 0x25b021bb3e700d6926ffc0a40f3578448052716285394d8975ae04929d88722d 0x16f2fc88f051e9db402991300b5f8a30023b9c0465c201e883bda0d78090fc14 0x9eb6019dd5d1135e4863d2964a2184c551c2889cbe4347219994a1a26d6d7b25 (-0x11b859ee31cdb6a1abf538095727daaf2c445851922f5eb34e55f955dcf6f094a) 0x58c62ee8b806fee8bbf287e6ea11ca09f4191c81ef140a897e1bedfd6426159 0x15c2dcd76b621a0d831beb8397a5279cb745bd47b5933c28527258f4e1c02c6f;
  SDbl 0xd9f22939e88938cf77fa5a02945450af32ed459369133ef6fa9e4233713b23c4 0xbd18028a4a8bbc1fd9ce854d0962389a7b77149a0baf0b1d71a0339cf122f362 0xa48f4d20362a0d2e9d39c77fc63e1f7f7f10f26d11572a1e789a68ad1ba8e8ef 0x10810d3d9e4e3e0974bb3193f56ac7ecd10e8281d519dc2c44e2000cabfc77605 0xb98c6ef6dde44e4b5410518d62d83421cbe3c311a4474824b514e1f768edbd7a (-0x8d728bd8e354039e5792690ccabf2d126dd06f82151c56fefb1bd7cae55e9a34);
  SAdd false 0xfd2c0d6771984b50ea0a0847efe2b03fac1b92678c950632c8bb30da6e99d5ca 0x1fa4053546eccb99b30acab2c33068a77ac99dcfe6477df383082336ce6b91f 0x655fc5c86633ff24ff1edb0d8790d9007a52d807c706ae45618a0482d00c95ae (-0x88cc27f23a1c506bd94408d3404fdb3e9b71ddb64e3adaafdc38d374b5a8fc42) 0xfa601a140d29d6a1f22cbe6b48d286e41b7d224dcb505b35e81a8f26bb585de4 0xb90c9bda8a96e37aa96063e411982ac782d37dedc1ebe3046d5c8ed1dbaac6bf;
  SDbl 0xb8cfa6cb54cabb91a647ae0e5bfb5f4f5ba3be4ad1e44aa966160263c6372fee 0x7c8e6909b1ff2d9553c1cf72572195b553ec6cb5e35221ded89a63676ee2c7da 0xb9704ca0c954a6671878881468c61cdbf51547c5b3399b0757d0f64025c7246 0x925265e4b022c4913b2bb62b9965a3a05c12c756d89af45fd3626a53059541b8 0x856b2833f8ce09272e3c038e197e5646cc574d04dbeb688b9f2b33b07f72f8d4 (-0x587deaedc5af91a5c22d46169a3f92a7912f802d87d3741877d27885425ff132);
  SDbl 0x73170805e92e839b51e67695a842bf6a2523a8e66f65d5c30ee32aa82523993 0x8c8cf240fbf4856c0f56a2f774a8901998700fdb617c386ad38b24a266485bb2 0xc0f5a59a11d18ace17d70f6f1711e31a57de93787162f03c42355a690bbe8779 (-0xb52812ac52362c79e60c4fd29a86484d7f33d930422721c69c676bf5bb20777b) 0x33bdb347f48dc296fe7c15bea7858cd0573ec1cdad3a89e1626b5308ef20fd (-0x730c80284359ebfe9ffa70f07881791735ca0dffd1438bab5f4f3439760939);
  SAdd true 0xef823e7a355b42ce8e4a4f8044c68431ff4833c892ef5c8218d6cf3d06b573c7 0xee6b863d182a9c130bdffcf4581643a20a3ddc2ef7289a971780909e6997a31d 0x28dbc842ccb232823e68ea4b4833e975b940e19ad2fde9afbaed5c9b0a29e686 (-0x53ffa52bbd6c3c9204a6c0fe71061f37be042be4332cc9aebced6a8359d1852c) 0xe01472ec9312768935005e712839e03dbc3fe11a16555333d7cff9e9c36a0ee5 (-0x5b909712803cf6f6982dd9579cf456265c52e3cbd1c4b5e30e3c665fb9bafcd4);
  SDbl 0xec4b021414d19a516fbaa9ce1a3d307ea3f665d17d62c4a7b90324abdaecb619 0x339b666f7696ed92b848d3f6c321fa7833cbd47753d540d8b625f0274d27a724 0xc3a2b44e888042e4626a780ed9af06f8a94132495f75ababc9abf83a64901301 (-0x24eb7259f393d6821ec6c590a0bcc69fc370a5ae3d4b7f4d6f5732959f499ba54) 0xda1a61d018455b0d32d7c9b32141693a07e490855e5beea8b7e6c2fb4cb75eed 0xac6e99cfd6546348b1e7886ab3b89436bf7337aecadeaf2c957e13dab71b5836;
  SDbl 0x114e05e0d4c3a1c3e848797cddb20f0d9276cc6bb13508f42279175e01ad00c2 0x314095cb48294c2baadceecd857a7725b73d33e4ccad8941532aff4190a5cf0a 0x563d108ba34fdb6a61371de24daa0bb15e983ca1dac9d190348ece5bfff5d60b (-0x4c2ff5c9173f32c296c1f78de43fafe101d462e345a017b3b1f7d24156ed657) 0x12b748f7291a506b64e28a8f6ce4a0d9a1c6b0d6d7d72e02ee0a62ca0c08a4e 0x28bf9450c2f2b5e82abe67753b69534c82ff39d6b66a2fd0b1a35a668e2558;
  SAdd true 0x2336dad8d57d3cccec072d7db1d1461a55127422bca31366a602ec87bef17f55 0xfc72f8449944e4cb6d310b8c056fc393280613a8eb64ed6e75c27573eb87b79a 0x58d23866199b32ef1c9f82e73fb4008c696cdf731c5a4e467d9e4ad2cb701ded 0x35627e27803f485f97ea97323ed60abc19eba9342bf7e9c073148026c94fd4 0x4d80b985dc85e504db32803d2435fcf0e34017398b23916cd0f59c5861a8932 (-0x1bf36dcc7b7408b5f044f61357fde99e3e4e4910f2a556a4a8640fcc25a86438);
  SDbl 0xd59a7fbea5358eb90cae779df6c470614bdac1c859fe6d20a1fa4e25c6fc843f 0xdada423288bcd18666a2b4ab289a340ac5b7781118c05145bbbee033ecd90bd1 0xbda82f60370b5e2c8a5354b6dfe9b3470c9e4ff276c55d0083a3a22b7d813e6 (-0x2569e9dd3095dbe03de0f8b2e7a773c8ca258ac9b3a1252337cb8b8e79a5688bd) 0xb23a75d1e2430fa651ba2f0df89c35fc51fb31b75e699b881df7973faf8f7384 0x1c08561e72000c5092f0be8da0f5d2a7f74537e70994ebf64927ec0835dc475c;
  SDbl 0x7ad7205416787e77e2147d4ca24773ccc4d0043cee5e4453d33a763da7b88d82 0x7fa543aaa79b69a44fea66bf79422cc564e143eb4ec2be2213629f02fed2d398 0x9b99cf72a39335f760b1f3da3ac1691b6f79e24ce9249abefcea4ca4647cf567 (-0x225e927a1e761764cf725595ed3b164f082d4e609c92a7e2188eaecb84966afb8) 0x3af1bf97b1af77c34332a33fab1667ee7a3ef7b52657e53ba1aec9cb836c7536 0x2bc3e6534661e1631888d25f960919ff8b04659fd45af8a3a2a2aa1a383d175b;
  SDbl 0xd527d9d7b4a15030c2266d0311ce83b7ec217030b160d8636f34b7fa7b6439f1 0x1eaa79f3fb7a6eed6895dbf96d7a1661a3864ed290bc70e4f5d631e0cc889aa9 0x4de27c0f106ea6d1cd1cc9cd64f8b39d7c0942c1c44291fc492e112509f0b3db 0x442e39685c6d24a98f6ab1f810bc055ce04eb3e6009bff38f576d0c2d1c5d4cf 0xb17b56b5bd283547af71e7d9cad60b90d4ae8df350045d460ea24047e2c90cf8 0x50bfc29054d41e715de741ef68da9f1bf9f793f46f74990ec45942a67d84d943;
  SAdd true 0xb1aac121bac80c7dc144528a5a44babd83d049ae7124124778b1df3616ed4ab5 0xfb01a0242d38b8a7346beae3552c8785c46dd390758b1d8b0a8030c73fb6eeb3 0x1cef11c4b87a0d692bdf6e859194741cc2330c0234da53f51e87e14acf3b317e 0xdf386abf345f75a9e9e5293465546a66c243cd53d5b7ea064d671974ffd598f 0x7b4d90f632162400010b71300ba18d0fc09b1e33af581e8b5d16290aba9cda2a (-0x98eb3982031a95247a030d4d0834868aa59826b7ed7534d09d472a1ca985cb95);
  SDbl 0x6e08e7cd2ab2d726838b1b859a0b4eafbc271247c98507e12e1194480363aaad 0x50a808b39d2f6addaee6894a9ca0b60be1494eff89146104b14c2fa4a3c7fd80 0xaeac5d5c5bd77ff1b2017cae3e7e9b2f103b64b647b69bf84482b0c543ca0f46 (-0x2c97519838b6ecbfbff683b74ac6ec325435c86ed3feeb9106485b8acd1f048d4) 0x2f4ba783ceb3eb1283faf0074eb5c18d72f46e6bc2d3273dc9df0b15a19da1fd 0x49386c1ec06f774025a92f929e307169ddaac886201699298ce6658d26a7634d;
  SDbl 0x93597e4dc708b7bb9859142e0249644b5769cbcc45c4be171881344c0b9d2e9b 0xd2a236e3b0f15fcf98474b172f1fc818fff4b1be49430bf9397e8b198ae93f89 0x927ae4e9badb2b6eb2eb896c9e40ce3c682f08d3df4814c5b557d6091ff68117 0x7cd7b83a3ce5090119627126587c551f07b174e363bb8aa80e034733d40b1939 0x54cfe656b7c8f4f5d408eed5ae8bfd31a2482c2255065a63d31763d74ddf28b0 (-0x4ad018a094e8cbe6f4e57fcee98c09de118cda916af1e9b0e8c67bf9ceb9d630);
  SAdd true 0x6a66bbb517cd793a7b933c42aa6c8a3451ef66c17c8cd329ede3256ada77667b 0x100be0a7fe4e16a58fb0f664270c9833a4c8b11ca1c74f4fb1ff6bda66154f4f 0xb626079d67ae17a98351977a54ce96bbef73dddcd7240b8f6189089143988484 (-0x4271e218a7565908d8cdf8f5eeb67c70611dcd9772595444805f7701f96fd941) 0x2c393cac41e06dae24b042d91a7543da061e43f8d12d030ab7c63e6738eac486 0x50e05648dc01639debce1c6dce4459dedbc233fa60c3fad873bb3f7d310d7dbd;
  SDbl 0xd22162618da610e89cd13c90e738d5625771e8b44c2a4fcebc486fdfcab344fb 0x4dc37085bf5500b8a009ea814d99202b1dc06a7d2de4a6140aa21e9716c631aa 0x75ff5315d935ac0e3bbabdd930cbfa42e837848f18b5645b7e870bbf900611a 0x12801706712c82e16f663079c83e0180091a1a5156962ef337e13c569fa859448 0xac7ac9c33bd497f1043f8ff1916b048d962d7a4f56dcb15cbecdb89c3d58822f (-0x32a8a065705cb89003b74d53d3e528e368583dfb6552b34ad06168337637ff29);
  SDbl 0x5da4f0e31d31e661cbf1eb8c43001295c0d81a2a225a0250f34e56ec7c734445 0x74ddc28dd171e17fd56b9d0f453ff03af46f8f024e94afa9a398dcaa5c297bab 0x59b8354c16388b759bf6943cc6f26c1fabd4b8da5b20a655c310588c51f1c77d (-0x41783bb67193061562d07e190c3ac4be22f1ef0a72255c017f2fec629d56995b) 0x2241414aab1f8ad74064e5b266704576cf53df9e005ef92bfded009749832466 (-0xe4dc174e7c1c2459b866a8a1a6ca431377bc7cb8c36dec936120ab8e72fa124);
  SAdd true 0x48456471dd64d783340d415445bec6bc68d472f4af4ab4a1b05d32ed4860ee45 0x132cd78dd8e8fa6c0f92e204527d2c4bf21fc6b05d765baecd5b517a3bc69f02 0x4a8d2a1c14ec84b086da7a807632a26b28166a1455ebd8dbfb93a073ab498305 (-0x12a8f86d3d58be2f864842f8112ea715c52e3b593bccd6bec4182fd2fb3d0369) 0x14671b4f6dba54816297deb5ebcb7c0cc425d0434b3b2309ef29a93169b830db 0x1b943d1bffd8a94a72d128a66e3c75caad17046955751e5b697a79541210b2f5;
  SDbl 0xd04ab251cb5e47b35e827729ac61de6a2fe85443f35329668318a8907cbab744 0xf63f084359f052eae27bf2bcd73ea9a0816a9b9295d4ba12f132abe73fb0168b 0xd3ca2dab4b11f8a55397d1369fe75e5926dc760a1148bed37faf608b87915280 0x7501d658cc36a13269aa28f7ae4dafafec2cfa129223fa691c7f3c327defb361 0xa97977912772178783a633f68fd38ef427b8d6864aaa39ebf7cc78a3053b0a7f (-0xb8c109017910f713fcf77b32a60962d4a4c8b7643dfe1162d32df9a8a9247b17);
  SDbl 0xbfc550043b2a51f05518bddec47353ff4efce5344094418b2a44054ab2bf91c7 0xfb023786213dcef217e2968762955d55b6f0deecd2988e2e3a60e4a5d4ce43f7 0xdc1bdd60e202e61832f2f5e28f4b4f3fe3ccf780e1635a35b36e950830a8bde1 (-0x18949707fcfaea385ab4e7454166fcc793b98fd999ab5f8fde1ddacde3d0eb498) 0x8fa8057b1f76dfee348a10caba48f67b7faa201bf7e23c340fcd3954be39685c (-0x3914bf34792dae0cd57fa5a1793000664d50026add183eb67a3817f4a0274ab);
  SDbl 0x2fe82f29d6124c79df6c21c421626e9ed617f765321a6a10c77d1b3c7d7d4de8 0xe3efca74bb8f2e709caadebcf1ea80e810cc62da0d94398320ce11c70e3c2c13 0xc60f990beb11e681a38b37ac57081ed1251b24697752daead4e5afb599413208 (-0x28ff68bcf5f033080c540375ad7b9027debdaa45804846fa9f72c4053391dd8e0) 0x8f713e6ea16309743f8b1385a44f7a9d592c3f21ff99e605250cae8fb9351c1 0x4514ef935053b8372de3ecbc910df8c1dbc2d95085333b19b0538afe600b549;
  SDbl 0xcfa4410361c49f839a1542555998965ce554075c19492054e5d51298b18d94a 0x69f2705d371d8ba84c73b3b3aca2cc255d5a9192043962a479e7087d790f48ca 0xc0997ca4b92aa7c437f37b853e87f656a80ad44a025c5346e687041a40c16000 (-0x24cc4aed4e48fbe3ad296419112291dbe65d56816a0c3905fc52f0668e486e068) 0xa86b0a877d5f001bfa1df5d9c63933e3f587efe78c831830b4bff7c339178c 0x62f221220e899494ab9a0d0017ca4b44a12c435e57f869deb3fc9c8bc87fdee;
  SAdd true 0xbaf998b6e7965d87e1ad257cc32083fe6d3f9219735bd9cbbdaf70b6137e458c 0xa8bf57839f780022254c3b2e87e77a41244f3ada9684f7bde0770db7f887013e 0x608f677dd01fce100e521ac88e2e880125b55cd830c9d58eaa48ab6ee9558101 (-0x284d0b844d403f7ae24161134d6b436230b6b8cec8d866c73668870ee35caebc) 0x888fa544bffe5d60d0a208fc7e4545cdb81553f08849d098c86efc13542dfa3f (-0x2dde1ab571c63e2a075cd0ad10d3f8ea5b19b588b18cd78ee1a82e0876a0fb8f);
  SDbl 0xb1683cfcb7f5f28d653aa313165a098a78856fdbddcc9b1759abb5e218dde413 0xbf9c06aa3a5786594becd7243aa5bf21517b043c0e3719d3ffba2afd4ab559bf 0x1dccf1004cc049ef77898e33caea124f9514c13cf222b5877207b9e9435d523d (-0xc7de26003b1c5671b720df93b78c05a9331562e4c1d1e10e8df552f08e044d1d) 0x7af14ec78d304fba2026ffc21ba0e3067ff3929a2a1d8eda2a925bca17c382d2 (-0xfd7e4333352892c29bd96c9abeb901a3103c0bbbec6be4fbe6e1020f3acb72f);
  SDbl 0x5e7448e8c23be05a0126084b0e896c0003640e68e29a07aa132a4d82390b09a3 0x9c65f5478be19dbf6b6a53d48343d39ec3ed0c0985c9251bde86ff4b23f457d8 0xa97da0d909b4d377efbdfbe678f1bbc950b717951f1560330ae7b9f62d44a192 (-0x19840ff6fe777146a7fdaca1800f5da05585c6a8fd8abf886ab7a7ebf3937ee2e) 0x22d99a5d39315a44f1b264a4a5d58a77200d549d5541dc38e2c792f54f002d8d 0xcfdd8e9625ee9bd072319b5ab1807054a0275d88ea28ecad10d480e76bf9eba;
  SDbl 0x1c625ec3fe0a89c93aed8720817daca3c49fea1f819b8650b3e89a2a0ca64a0a 0x575f90e2a34682c4c9b1769f5121b5516a4280d21a060881387c2517003927fa 0x688f026a091b16d7290da560c9bfa138be522a0ec2f0b71e7270f8d09d5fa9d4 (-0xf90f85c688b2f5e82264bf25752e6f09e44c8924fbd9e38e289d24108a6f74ab) 0x325aa8793dafd59d426aa74f945f9016a97be33130d8cae8f25cd703dc00f46 0x7a738fab0f3f0974900f27b28224d0f3652561b595dc135dbabc25dd78a40ba;
  SAdd false 0xe591f0fb8309774acaea0034878b84b250c27952783ad0807363202a6d680993 0xb73185c6fec97475c7bac115cedd54474da81a6110f46836105e588ccb1dd09d 0x4ee0543ed86367edf0b4bc835e62ffd9f7e1441a09f7cb8b0bea2d9d9a208b62 (-0x20d36afcf9948c5b1a7e9326ffa4b16d29563143646ce36d4f3002413ca9e92c) 0xcdde6c55a61059468f1fb44992e4200d907d7ab784dd131a29391c8208d7c2f5 (-0x55ed702f4a9e94970d6b193617a9b800d1b39b961eff48ec3913555c540d3a31);
  SDbl 0x331f3e2a67e118d5109e0ef7e6540a2cec8f822798dc296e478a9db3de856216 0x67a9099556b810efc40433f42d23ff6efaa9a76dfecda40180902deed98ac395 0x53a26f670d4c8a98cd2733d984df3299f55b2ca62ede36477f98e975fc07982b (-0x169c6e25222f7571d391b04146535ade3794db6abf89445add4eaff94716e7c00) 0xa3576950cf6e0553d3a2271c2756e167e1b071b81b0a6ea23531ca737558aeb 0xfe1e595391ef601e1ace629965ce0dab70dbbb6102cef23d0ceebbbd35ff4dd;
  SDbl 0x8d14c893c8c04a1147adcf18ff8eec6b896f563c99babee6b34c95ba8b40d16e 0xcd89be07a1080ae5eabf6634f54d7e7a9cb8393f2ef93a5c734f61548f0f18d2 0x15611abdd287ba4b7801d70e899f9c00cfc025aceff85a1f12f795640d4fe545 (-0x21bddcd451266c8f0e0a83c80d92c0be1bbe7f8a54480368a734f4eda04bfccc) 0x4dbfe6a30d22554246c8128e40bf6e3f402d929e3c22bc0b2d65e9836bcfd4b8 (-0x382508c3a0e5de59570c8fe78c110189ec511f9768ac58bf1676b7917ff5155a);
  SDbl 0x4ff645e894d997fbdf7e95b878497c7c9dbb9b46f2032252e1e2235d84a0e224 0x452bba43a27041152f377131432757cd37e49adafd869e0387f3d9ec9d533e8a 0xbe61b129520456e11d58d7350898250a19253bddd96d9ef8117045d7950255cc (-0x1e1b69c939f107e3ce8de33d24b265f2fe2d1f0298b5454501ff340c8f87a2a9f) 0x18f9ec1012ed7d990bccb4f6345c6766774a06469908d0ca3f92281d26addb1e 0x2a9832be80012ff39b2eafe63f40c578e53399c76d88c62a88bcf7184033f8f1;
  SDbl 0xff3da2f851228eee14ecd2a957591749af4859814778d8d60ef0bf1211887e53 0x87e14050ffb65d77779639c295ea6b63af0729ef55b8aecf9be3c362a59f471a 0x1bccae537d970bc47cd0e6769406b9cd7683f12a10f6823cdc5c3d84ba6a00ea 0x143907e434d64b1ccc6c59a7153c322b30887dde98e6b32b83f44cd9b7590f4e1 0xfe7bd982c234944636eb7bb12d617c09d1ca879bcceed8299746700263bff545 (-0x4282e040176db2f83dac8d8301872f253cf014b2132264d8728534337736029a);
  SAdd false 0x6d988860feedf8008a542369db0254cb25716f7b71fa6e9250af8ca8fc152d2a 0x89d49a6964e6045245f5fc1c0d9900606945842c9471c8454e33720ae34677ea 0x571d8077a5fe131bff6a6c4435164ce29100b8ccd5db437fa233fc7722a1e1a0 (-0x246fe0880b13e38e419e3f16a86677e35bb86e10e3b50dcc52113f579645d8ed) 0x2eeb3f0503d7d269021f65328cce9e55e7b92adc39082b845e9a912b9b5668e7 (-0xd5c6e3e77727b3c313af6008a1e70ce06d94b128819c300b92204fe0e18b56);
  SDbl 0x8bacd006e32584e28739680e5f013c8420ac5a6c80c085ade1fe576109f6be16 0xbcd687ecc2538d4ee02c6225c1addc9a853f44bc9f24ed3d900c13aa1f8e040c 0xf82103a045c0df0a3e3798886166493b10a2f91016520719be7478672b732ad6 (-0x7f9012c40cdba19507bc104c0995bc1675e1d20fd934f79bd8ae7118c5d221d7) 0x4c351e8ff92c4894efa83a3d6830bfb47859286f32d068b60a38afe47aae49fc (-0x1bd47ab4f41a3608465d4f0f76787e067668dd789d92a703332b61258f17ac9e);
  SDbl 0x828a14d3a67429fbb4d92adc502a321909088687d0375e7685dff8705cc37a30 0xa4281ae478d2a30b6926853f6a4f04aad11a86209a99517294660a59e9e139d6 0x1ae3771bd653609bfd1e330afa53aabe9f0a583d73ee9b0c8c4a6555ccbd3a2f (-0xa4d62e9c53cb947ff1c0e72ec919132203ded04c10ae82a680bdfc7cf1e6e693) 0x429087a1ad7fb8808ad2a6810ffb22617e7e204b0aa0220aeb793298498b78ee 0xc95e36710b5cb373e68ff5291ec22948070243a6e27bdaffd432235204abee5;
  SAdd true 0xab27ada0bb4ef3b2e8c1d4fa8bc5ffa822dcd47fd258f57a1a77ecd8b4898623 0x57f9338ee4cf2b53aa28d4c8291c89c3fa96ea160cf8b883565545d89d35e944 0x30e1c1afce628c3639df001e89dd7d293c5c4a78754bf5992d467963957138a8 (-0x4bcefcac6166720dd16f4fdbfd05f25f89840f7bdc7397b32e8ea181d4ff7e82) 0x726e081b896535ce2df7f1fd7e3c0c20a172a74b4176222ad4d70429aaa4ef18 0x32ef2357223a2d24b886a078563a3923081804f09fdf46047c9f4365747402e1;
  SDbl 0xe5c4d4d102d6197bfd1959cfe0247a3ce6d5d8c9f085bf0a4bb7b579aa8bfc44 0x57b885460bad57a29c5066c03b7cd6e09235be4c39636ea463ca5541f420243b 0x59b0832f9ca5a41d5f77de5c24e25534c854e05340125c06c91ab828b4544060 (-0x2f2eb668da458b99b6297b7d9c23a4c2d6a8e182e330486b91def797a024b13) 0xce39bc154e43f4dc62c1e1759e004befb16e237634e8981ef2920914f41e04b3 0x3a0da25f5ee2a3cf2d1c915b7a13eff04bcd84ba7ba7b04a86392afc2546a4;
  SDbl 0x2d037c7634548abff4823f8534dba0feeda5c74710fd9c8ea4a5d06c208246d3 0xe784af0c96eaf1763141febb84308e8508b74beb89a8940ec7c0e2f45657e50 0x5bd78fe668714cb32906cdf7e6d0b82c665d68b3381f71347a7856644d573ffa (-0x3aa24f48f9ffc7d6b22e83238f22f020bcc74ac866fb0a7047bfc53213f4ad78) 0x7ea39cdbd97e5d6a919bd55e4eaade9c622c3bc8484ac25eaef42aa6bc1b4dd 0xce1499ea75b7ffdfe54528d592cf7c3eb6fdcd0c3f611dc3f475fb653207da9;
  SAdd true 0xe62310f6e0afbcdb8c54ad587252bd4d159fc77ea83d9da21a44d95c8eef1727 0xc1e60fd360c2ef50e8a1e20906842f107cbf0136fb2f5e7f9a0080023896627c 0x1ad98ae2508bd7ed546699692cc9f5d454bfe5d5641f76fccb61d6bce9d6d3ea 0x20a19a00c82c9b3b413aba5d1f0159f6239048a53db5f158f120b053ba757385 0xcee3074a0f4008dcc1fefa1f53145ab1331520f1763692675e37f4b7305e4da2 (-0xa14d32ca058228e3837e783dd599fdf6a0e5645b88c81155333d12dceacb3568);
  SDbl 0x4e95be88eb76128743d35c8afc8af1770c96fc5b5f6ff231784325a73dd38086 0x3c36090a626aed0c777e9b43c5c93638d696ecc8b7453ba6b2b918b128dc6b8f 0xe8a67ccd46e933421f3484f5bca55e481ae08119aaad7d9650f5ba729a6349d6 (-0x1a81a1e03eafa372ecec8cf854ec9f0c18c2b8170b8afe4d1bc02a7ed0af254cb) 0x181f97b2e0cd292d291d5e7acf4c85a9d149d2d4570fed69248f33e4a09eea63 0x2909d5057f07b586c19f7da98ed50ff5ffb167854b2449b105b8592c4f155db2;
  SDbl 0x253711c5f7a083fc5b2ace5c7ae19a134f691d5fb1dfcd7f7850b89af242af4e 0x1af425d2574a6645462a93aaf52f16a5ceb6bb69d2b3e5f2b858686bd9d2853a 0x5d418c8946e0c6d42ce27a8874b4205764305bc2f5a8e8b50c0a0d7ec4e3b3ca 0x192818fcf240377dc5a57ecd260e89baa5c7df076ad605e62b876c3eb31efb38 0x568f6fbe349a815ea2cfdf78823b1e23bbb38d37ea01a61338d6b27d747a094 0x4d5ad4e0771c43215161e8698f1905ec99002b2f54f7bbc88634e5fc9e4b4ba;
  SAdd false 0x6b61d66373489ad756f6950719ece223653ac24ca6ead83a409951a2a9d3e434 0xff92704806bef5e08ea5e25ca8a7c39cee032053bb499bba3c4bd88a58ce82e8 0x566244c087146c104a6e1762cd49aba2f937e0d1142ddac79c02ff8077df3646 0x9fd42f2ccdebeb02ba3f6d66854221565413a81682e7ca0754b3f16cd8d1ef1 0x2d0aee9b7a51687095258787e6fc934704075c061d9ff02328975a00c4c8d259 (-0x5fe5888ee93bda2cdacc9e513afa21dda33093252d53f779fbf5697095b49698);
  SDbl 0x37122d87669aafe8983b9e14f16eba6e9a3d692694e145c657d907b9f8aa7e51 0xc08cf97553337810c915016a4f07c389c2919756af67b600196856665a7c5493 0x27e76bde9e55802b16138b481cfdada1fc1bd5fe14cc0f801b721b9263f7b788 (-0x2d844b047c89db22493d91d1fed1d6ace3df76653ed4d89ee8da64feff8b3e98f) 0xbd8d0daa91297e1194e8cab4e78a87946ecf6997d703d52b3d042201a3184c2 0xd8ea61ef7f9329114a54ed42b5ec301bbf4717e7af332db376fe8a0d4966ee9;
  SDbl 0xb0fc2e4d84b211f0a053be420fb94d10ccf8ee64fc647c938fa1da1e0a955be6 0x25649c5551cdc1355a91b0c3abdca2a2f9e9be52a61f1b57110657953d4b409f 0xc4d1b53fc7da9d781a09b3e27c06d03619deda5736be90510bf3755250130033 (-0x17b4e79190699131b7bbd5cf96ff15eb2a2b0c650dc436b74809887b7cede1328) 0x7a5bb81641cdc27d8655efb291fb07fe46d67ff7ccc76a3edc95c027df8a9721 0x6b4497d25408657ea8a2b8c5fe32341ef9cc360a660295023fba44b3e2d70e83;
  SAdd false 0x710478ddb148012af0468ea9d23583ca13e6d5ab74b09a5a94efa48c9a5d1fce 0xf4474ef02f899eda8d199ccbfcafcadba3afbc26056036ff4d0b11b8270f74af 0xfcfe25f00dda309eb69304bb895cd25b1eab394a3b32ff48b9031315e25ca0b7 0x5e7a3b0bb708ea8444e0a4e13210afa760dad4707ed6c6bf0cc14fe71e23efc 0x31e4f2c7e864a43eec095ba854e6c7ff4eb8ee0c04267008b918c962a007a051 (-0x5b55ae0eee52c7a6b0380e570feb2885ce25bc8c19caf18759cbc8d865908a36);
  SDbl 0xd7302415459068a8e4c2ba2cc4518cbd86c2058430a435a86bbb0fd8a951379f 0x9653a0d50d9cf99ebc49e86aec771b547fb08c4dcab2fe41eb323038ce742b52 0x40c8e8cd3a57251dcfe612533e6fc25dc283cdc01b16d5996cb29c2788f22cd0 (-0x111f5fcac4f5ffd14b9402b66fefd6d6dc2d947a979f1754e25173dedb2d91672) 0xb4e1e5a9fcca88f206673c9c495cf4df6534c383c0ed9923ab6f8024efdf5fef 0x4ef95227d08e33b351cb65b20b944560bb3315e02cbb45c00a845f136aac41c4;
  SDbl 0xe4a4ce3f13466600474f53288242824ae71712d7ae4201815b090fddcfe5dc28 0xc8c51627740e5fbe5bf2febeb962dcf410e4c2d5b5a304be01cd3200724df99f 0xbc779f9c4b8f920fa1928aae8d8b5882fc9b57ba47d0756d0c8ec4514912d5b4 (-0x95190ae78c5e1e192d5d30bf671f16d45a8c8f2fb5062a25179e89a9cfe58e37) 0xcc35f97a0d85a3ed07287b167956f682c2fb4ea306f893b961e13cf5c2518a03 (-0x2d0d85d073349df4f4ad6dc386e83e2d0a56ca9286ed67c6ee197c6798c79574);
  SDbl 0x5356653c5ac9d49c0fcd90dd8230ae7ca6a082ea880ff71b0f0e46a9371c3b56 0x5aa60537524fc67965689a8024f0dd4f447b7cac5d825e62321cc2d83ce72dc6 0xeae248678cb61cdd8cec7b90e7c431c755c13422e9077654d21fae3d05d87cd5 (-0x15da8d81dc5e3322fd65f79d22622190884e2cb637563f5304f6f17b0b3627ab0) 0x1b2122cd6a95b0236640f06d42eadecfba08e238dcb9ffd264b8a2b124f26020 0x23d93c79e779d1986fe092032a86ebe4c43b902b131be4e86a740172c2abd4a3;
  SAdd true 0x8d55710fb0caaf4a98becbcbea09d9d6d610703f3a58e859c07a8a2e2e193923 0xfb2788b5f970afc9f62a927ff063dcebfe676735e902f1b563b620761ed2403b 0x94b4c6955b39eae0b5e8e8ffab519889df93904a4066bbfd3fdacfb707770f95 (-0x16046c60111bdbd2fd79a11f00b862c3dfb44805d751cae12b444f3a3e5f7a58) 0x4e073b0fdd20c1c99184141188c8b6f87c64c8d5d171e1db46d9d13ec56f47ff (-0x589ce750c53140711184ff430a61441065b58c8ea7cb445aa13fdddce503e097);
  SDbl 0xd93e6d1eb53c973d34df2a540b2d08ff6d331c9f2c166263808d482345e55b24 0x9483d33fa732ca44b85ad6b5011dae89ae2de2d61aaecae871e704c268b097b 0xaac957035acbef15af1d709b691196bdf5a170e288c328e10f2220079d32e53b (-0x1e6d0a5923a8cffac25239443a62300edbb90d63a329ba49d1fb068912265a720) 0xb85ae437d0fe8ffb6992cf689e61ad2929da801b7c95792ab5d214c2cd54ece1 0xcd41422f5e6f3a2b07349db814737f2aa9a1a42cfe4da0b757b078e0b07001d0;
  SDbl 0x3c5f8d13d919d4efb4732725b2c3569414388f57109624e47c3c417b125355d9 0x2c7a2a630dc07e4797fc4761f7f52d0061285e74e34621406c6fde105fc70f4 0x89b14e8622b568f1ff3c36958fee0328fce1b0ab98941ee5d18af33981cb0ee2 0x4f8b646451906bca250e7c498979219e0ff4f8721e8e1d5ddf4dcad832ffd742 0xe3cedcb5e7b09782b7b673e2f53557e468a91294e09ee2eb04f5ac00792b1f9 0x1889187ed9508c399cf9921965721f88af776f645eede356fa85fd13bb4d6ae;
  SAdd true 0xb81e938cf4e3c31984e587284bb5fa2dbbffac9ab75f80f355d03e5d2d7f54ea 0x3592e67939633a585ecfc454aff4c0d2a84938e55f61f7af740113cba1ac2f7a 0x85a31b5354b33ee6f33a099efb267fa7f97c879d241ca995cdce444d197073df 0x22839b987959cbe5b0620eff8ef50de9e8297d12b27ca932555d880ef65d26e0 0x846bf7c20e87f472ccfcb59d94cf429f29a3769b4d781f78c8274a023a9eaf51 (-0x248829d8751688da248830e11fcdecd38f75b1cfd0d9f684f3bff99659225ec3);
  SDbl 0xd0b5ebd05801c32af9f8b91379d0b17c205994a431cfc74801c565a5b2594cb1 0x1609e3f7b04fa17e59fe75eefeb94fc1953b5ec48708a4d3c60d7aa7ac1ff15 0xe914bf82f1d36781a0e6c989838995b9e9c45eeb215c4cb0db236c9e21625c6 0xb8448412144326e7ad2c0a0231536cda38405495f4dbc0d8832aae893adf700b 0xaa28207a86ff9b40b56884ab8fd7dab21076155062c999c0e0182b4b300ecba8 0x2a8df250c92774a4fca903472a587033dc91e9778e493ab8c285a973802027d0;
  SDbl 0xcecf6b130a138426d3beab17819c62ff753e74e020ca71b69a7d46ca492cd8ae 0xac4faea4477ad27a99c4a20665d910e1f884ccae97511ace0b8654ae064d6d15 0xcd114f08ac16ee7dc6bf7379d7911479f3588b56c8b1f99bf5bbda950d5baeee 0x1783c0514dbd1a25f9e465022460cbac3bae1618862465c77e27327f41950e00 0xa7127861a0dd1876a431fcbde4a6b6ba7e3b6d6409ff26a27c2c4dfc8c9b54fb (-0x8a16ddfe8a71bcf7b631cf40c5f87fbced97077b1b4ea3441e1c6e25aaf9674c);
  SDbl 0xf1ae8385ab9f3b6c23eb05bd39c3a9b671a77e01286c5393389d7923b4ae041e 0xcb681838ee19c62b5b6378362e029cb0091e78d69f7f03ff334612473df6d501 0xccc08f70779774fe08427388d52a96e90e3c90d56e5d355d35ae88a92093028d 0x2740aa9dc72256923e43620dd17d0a6b228eec8ef3ef76aeec4f902ce0da3b60 0xe42a0a999e933860be87143802b33d5111e77987b1db41c8b688135b81b8bba7 (-0x1d5b2df68bcea2cf1d1f2b7899d4b16fe26c9c33ab3d9a7989dc4c74142f70dd);
  SAdd false 0x58d7b568423671357d7473753b64307fe0fff80b7789275a22ce484cd18117a7 0x20defe36622dcff45f70bbfc91a53d321bcc0fde6c391e29726646d73ac97a03 0xc837180a7ad2cfeafa6731ca41b908ad06d34892976ea7da47d99a6cd203f2e8 (-0x34f8c9dc60bb75b38cd8dc78909909dfaa648355d3e59674fd8cbefe26c8f758) 0x1ed5027a02063fd7c990c5a274823b16e9af519b15433c87fcda99c8258f54da 0x3b2ed2ee569d6dbdfd63be0dcbaf5199afad0e4afa427252f2c7482e94d5c7c3;
  SDbl 0xce9d903195a1f1cd68bf1a95144aec231259de8532656769a68421f5e2f8acf6 0x2fcc77b83c18e5140c99f018adb6875a62c9634e92bb6acf080ff598394b11 0x8b1424ef243fa13258e77743569703a1778de1f85479fc23990eeae5bc6e8c0 0x136859a6ea952e1dac8a36983b3713b12ead811d6aa3ed5e7704dd8bb5d17fe38 0xa6c1f50aa19bf0c49b9d8a575ee17f8537e0524881a00332f8561fd62450c2b3 0x1a6117e1e9ae3c856448273521e34c7056b900ef45577a1b91174e56f943271c;
  SDbl 0x35b81f8811f53d99f504cc6266621fa9abafebc45de454a1722f3fead08a8af0 0xf9db9de9778ea7f039c0b46575ce26c11cd31b9d2771703b25b2f343714476d1 0x7626f8d743e50274569396537f79b1a0879451b40ac960c219b482a42ad8d51f 0x3a5cba20b41f4b07fc65f879c52a08a7c88370fdc52cecbdb3b99f8a3db7d60 0xb45c17bba315a3281b4c7c1f631ecf3a0b2af0a914cb080e81987ae8b8f6bf3 (-0x3464249bcde96094a70815897a8e2bc6c773f631294e16ead9732da063d1be21);
  SAdd false 0x84874267517814fdef8c40da61e703de3480650ed43bf2091536a0ee3507a2e6 0x3dfb2429a7060f0bcee42485375ab538dea3ba6b10c9b026af236fbb75ea6929 0x6d6568a9cd5af8ab8627c1426e0562ac645cb1f2c068e02031936beac84e39c8 (-0x6711045ab8ebfd14584b418c714c4d3d1fea36efccc532f2ca17957e8db09cc4) 0x449bc3f1ead0f5f2810d483792038de8f6987b5229fc0e51a05a1b328e3f6e1d 0x614302e32f6f00d85e6b4414798f0b438e38d105b91c48be95a87ed9fc0279f7;
  SDbl 0xe120beab773aafbc6ac6d55b8202068cdadee5e389369d56f1b1387adfbaca12 0x57c4fded302bdf2c286e7939835b2890177118bc8ab38fff235d24b4017b101d 0x73242dcb206c8d7137ca833aa7ba18bba4b5350ccd489c306868b0631f256f46 0x93634d76f2666807ae37a4d9a95d8c7c2ef3d4362c224e859ff441e7a7a43990 0xc5fa935a667082c32606c88e670c16eaec06fc148b5f83c276c896ad4fa7792b (-0x16adb4d5401f688b917f0eca69266e9a67f76980ed4f52d868d7b3484b5c11ca);
  SDbl 0x68e826d507cde9c0730c18efe3e52393ca80954ed18fa66e4e6e564dcf770d90 0xf70ac7c1f47c2815720f3330b51dbd9e5874a5b880c0990297bcae7ec67f6643 0x13b298f534b76e0fff81e9dd47284e96d917d9abc13edb0319d822fa70c15243 0x417c52f5c01adb33fdc15485c3997ce3501da7f34eff880725b0ea8a6269f18 0x2afd7213a956d4ced1ea33ceb15cf3b65d8902b639dbb12003da4ffa4cdd957d (-0x4144c9667fb8d7c84c097502460779d2555a0ab451769997dbdf9a779f9edb17);
  SAdd false 0x74679220c70c62cf51ee2aebc3644a37fcd26761afd6abb278f9bf5d620e906 0x59f8aab6d4b6fc399ca3f93f248135cc1ac5ac1de2a5b54fc94ee8b08dbeef3b 0x970aa6cf4451a713f553660e63400e3a73bb03e9c5eb7555b83aab9f5c3bba24 (-0x593f2bd5a52f5d8c71b97ed6ba7b9be897338711c067884bce7313ce97fbdfc) 0x34ee0654d31ad314b6c00720c8fd2294ff026859eaf46d416b896b69eede21 0x476bc11b723f88df4550355221940b61c0d075a9e1432346783bbe5bb23fa37;
  SDbl 0x5f074f5c4c570b206960e40d42d07e85f6da66fc5685e9cbbe04232d5e0ad8d 0xaf3322c9de34c51cbf5ffc8ec949339ddeea4762c1a4bc6ddf2ae897cc59f631 0x6b697473beb91ca75bf7df046b8dd615211237fb447be35bbff13eec384418d7 (-0x57da603accbec6273b3f45222d6849f5327e23d9e3b31361cf87395d0ef60ce0) 0x23466d1c13954c856bc2c59d158c381bd9e96ac3fe4517a51894e8196ff4fe (-0x1fa321943e296e8f034c128bc741be0288e8453e8fe232084f8514b67291987);
  SDbl 0x72ef5bb2712ccd957857aa68dd117e01602bee1a74d2188d86e6084f2bfd2e2a 0x699707ac9e73cd1a2fb88441e9c23685e2be37c81bc58f829c660a8d20118520 0x75e72ee4520336403928ce73cacd76f08342211b6ca272cee7e0394d7a0a0324 (-0x1074213c467bcf2a61eb9eee505d04262fea3251ee61dce545cd62c02a9beca6c) 0x339a0d77786d9f0fe331234469a881b9a289754069737e396e8fb5ea556e529e 0x1f4099bf78e7640b4c0fc99fbfb3a5c33c485d1a511cb7992ef944afd14d8131;
  SDbl 0x4d54033e0d153698c25d78e2ff84fa7584d9f0ffc10fa41163c8ff372e10c5eb 0x56488619d03770f877a9dfbed5e4ea91aa214b08f9adf27351f7606fa38a0a1e 0x72e5b64ddc2b1bda0348480c025e2b908ce7889044ae22019b6f2883661075b2 (-0x3b6d434880aadccc90fc45c64dfd73652b5e825207b387b3908dc6b9f148601b) 0x175ba5858bfd81a21b62798bd89e362f7eb31e2eb4e151f44bca385619498ea5 0x5d4f2fa4b8d769a7ccb655756929ba29a24e7219d1011178465fbeb41f40400;
  SAdd false 0xaeaec6496e1b055aeb5a1a7d6ba426c7e49d57685a169e7e1be27c4f4c2a7aac 0xb9c851221128d06e07f110aae8d0d7d2ba2988fa10308521c5bb6ba2f55443b5 0x569d025816fbbd81ffed1b6cc044f31a403eefed7f792e66d1bc3776d0dc646 (-0x183bdbe2930d6778007fcbd1d48daf03a5f879080dc562e487a88ace707899df) 0x77320cde6e46204314d9781f7393cf466d67a4504bf975f669a57b9130f25f0a (-0x43e4c9ed40e9ae400aafb73fc3a1ba68b5a185022b9e226dba18bab092cb1c94);
  SDbl 0xf2b6ae008dea826861e53b486d2fda29a70a37b3854a8fb79537211446ee983 0x18915ba9ec7faac5f54d11de68d5caa1d4030bcff6878ce9efa2cfbaa4e8fe0f 0x6191392c3eb1e1aebf43ab25257138a64d8c6aeeb28e25e298f9efeb07f952b9 (-0x193d529927b605eca6c624ab140e90a525ed191c924cae6211a42f9f96b1b9dbc) 0xe61de355d17bcc3faeee71d22a06471ad23349be3df1f54928db7f75fdcc70 0x98d8feb2632191063279ab6e48ea2229d3fdcacd7f2eab83772e1b1a66a5f0d;
  SDbl 0xd19aba2b73137e8bc3606bcec7acc3f35180b7804d71a713159eeb3fa0d38eaf 0x5bb9e8bac4839a6b8414dff1574c04b15de4704399c43c188c9b1fe35331fdd2 0x5fbf1e0e44a6188227d7929ff929c5bd6bc99d5547016cc699efcce329bcab67 0x98b254d14ae8c3f918de15bfc99f95835eba119f619b372959b67274f25af9b2 0xab9e0180212d742cc682143f75349b7913d5bf7d14ae189fa0be1a0759035e4f (-0x36fcb266aff81ec5d0e68b1bb39b3ecdf8bd9001439f6fb58452aeb47ecc0193);
  SAdd false 0x812aa3e148364763a943ccb61f375a63513f82b1b3cbc90ada1b6ffa2b4cc0fc 0x7cb5a3acdd1316a8d4c9ae1369e0b384d9dede9dcb14bbf93243bab76d4896f6 0xdd9cb8e2744eedfeede41e02f46513e2d0624a6bab9baf486225dfa88b6f6a12 (-0x14aa64f5c0caf170aacb9302a732d8b4aa3bd641f55b416db05ad73d35f77534) 0x412c00437ac70e3a7ac1e72f5301acc5342df1fb39b988df227acc1c24ac117f (-0x10a4579e0951ec0e713e662f0a77c1484800100663b7c8f2d1352383270a2b17);
  SDbl 0xd610c7a73a7051e36d26e273e8099a94813d87a5ab1b558a774572d9f490254a 0xc2956b4097d9c25460de596e358f17f21922b07925efc2490680e9ac58f317aa 0x8e5c35e0a522e546a813e18bdfadcf59a8e94fb817b576385e44ba145ae07b62 0xbc5dac0cae74db3140e947d9495dff22a558d51f22a6e4ceeead72b7c8dd16c1 0xb3000ee5d9508ff03b6cb833fd4c438f4a26504d0ac4fee59dec27682ad5cc32 (-0x3a6da550caddc844de0d7c821773a2fb477b9617f0d9e2b9265e1a3f608ce284);
  SDbl 0x9c811b1bfd9a39cc64b0cb3ab84be51a721f83e7c008698cbaa187f0f4035d43 0x6d5de6fc53a4621e5004841baf738abe2d13532820973c2070c38068c6de0c3d 0x9f4e0441adc192976f36a26ee647efd1526fee49da122560a81d80c1a86a6bd1 (-0x10da4708e27ee89c6c5d9a2e8022cb18a78ea9e4d51021080d7451a43f2add2a3) 0x5fad9a26d1d610942e7e83f2ae6d3f589f4af6307978718bd83d624e6f387c08 0x3418ce99a0490edf4f420f608f8ec3478abd1ef90db7582bf53d2bc21c5b50ac;
  SDbl 0x78707dcaae6e4239ddba2db38ef01615ed25fcc72ddcea78f5f06ae17cd29551 0xe4d3f9fc7cc50d0c58dd1fab2a1d4b64a9d2c851a440a48eb192c3a965311bdb 0x91829ebbceff74e2de2a49194c6c6ae16fe889dd444de5952a05abd53ab0740c 0x9b9d9623d8a1ecf2431a14b6ca062ce54bb9fb3bcad7790ce8c9e40f367cf56 0x38a9a75c8b5934bc2760d9d9d935ff1d9c4e7fd7c8703ef3868b8a392af1d0b4 (-0x3833d743d764ec71529963a4af99cf9653b43844e137e1c12cd9ae3f54ea3925);
  SAdd false 0x7f14caa02d17bd8af4240839074398436fbed3899f50dea10b7e985bcdce93ad 0xfa89da1818eea2d5d1d3092d1c991ca40607870781058951471a55aed48c2a19 0x3b63fcd6c7631e39d0b8814e251643c8e458ac5ebfa20d494a9a8e238482407d (-0x58640cbe1de2783fdf62d5535b7c00a3041b867d7db3d935791ba26ce25d0029) 0x3f15a2bb753b67e2cdeadf7d2b305b267a00c020e248889de80c72ae5b6d97d2 (-0xac6fd9257bca86a74cca1f3e9662050cd0ac62fbc2f54d8790693b29b331191);
  SDbl 0xf12930cc8a1eece42962e4c3cdc658074c9be4f166107ea4cb5071e744bd2ab7 0x2f3342217f8f9de31bb95a606bcb1626449e765b047d9c192ea7010c7f03c7dd 0xfa991acad734d1dcd5c29edc8f75bda6e411f81e3e581852695ec61469673a2 (-0x26faf39e152168cc1d801c4c4aebdac735451fa936d552abf7071a11361269366) 0xe32e9482aa0e63a825b44e577e8f785090a1f4b73fc669ecb0edfdaed6c58d3e 0xbf8d3cb0efa2d40f0c3ee94b9738642103021d43fc465e1bc81dd884d030a33b;
  SDbl 0x7bc9cb998f785b7e21821708bf815ce38c036b4048c1898a2e5642f947c5bf3 0x25f58fad7d31846e69b751093678fbaf26840c7223d900644997a84b64159a3c 0xccceb2b262ab82e19afaaee5a584bac8ee74d36f9b89ff6f0666f49a7172c048 (-0x19293b7078861266f83e22714aa4ce0b1c47d05ca2d78025941fa08f991eb334) 0x3bdb88b724c96147b46c1667769830a2e95efef78db99e9688087035ae814d 0x477ed88564073c35c8a562ec3d802238a6d312a18783aafb31face4fbfa917;
  SDbl 0x8a2d4de51b379bc55016cc90ba7edb7b14ae21b64f95d8737fee7d87ad598163 0x6733f206275a5bf4ddeccacf6e56952f814d7cb52f4de9077b788ed1ac822ede 0xe993fef6e33dcc07ddbc05d71f27d9d1f597b8d74eee41a5c89310d6ed86c562 0xcc34a0b9737426e35390d6a9538853691c348cda1ede4d1fbf76190839b3727d 0x4a94dfffc62c04e66bf8e9954c3a09ef842aff6921a029ec8e70a2d36e72770d (-0x23372cd55fd97f29c672856cfbb83bd40437a675a30fccc1ecd12082c1d15db0);
  SDbl 0xa11ff6e4f184b2481134d4764d6ccade2a753febec70236b57c361e4fd243e3f 0x77d865fb0acca4aba1138481b7fba46b23af8453f27ff5a6573fa5163538c245 0xfa9f5270c73c664c337a2486ef0890981bba68c5182e5fe7135c648cb7d86f38 0xa935f533546615a81e35ad9d29d3171e4b1db4ef2e8378a967608f8c6ea4fb4d 0x6569388a16c16bd608b537c2800c21871108fd25b7b5755c4e2b7c5777628c80 (-0xa7980e401c3f5ac80ac6fc4cee00d7ceeb39768aa8c071ec1037e8cf883930d);
  SDbl 0x84a4d3dfc27245e950942f2bdff7cb35050aa2d69b5b37dcdb8afb974a13bbc 0x40af9a86de74c1846b327bf6306e1e121f2731bfa7d794175f819b99c553732c 0x6565871db31c6fdfd8c22b8e3f167207f458d9b7530668da4de7f88ca6c7a537 (-0x981540b39a18711e8f11c0bb2f1b865c181e56c6aca4f2cd976894bc02c13678) 0x44ba649f2b4bfd3e0f59d8065b78ce403a5729055e1232e1eb045f9f5cc5a6 0x1c948cb12ffdca46e5570ab382adab9fde95c2f5d5c6e25cecf30ce46463b13;
  SDbl 0x804014deca81074f709a31e81d2869fe93060111b3b1a58c2cbaa931d4bec783 0x6b2b9941569bd482f3cc67b44be25816f1a886260ea0cd46d77c7e454693ae57 0x26d7607600e0716580d1e111a6bdac8fe4e565ed19833287e392b38f06f5c451 0x348f79419d73b4f153c56a7d972c5e2b9309955cd7b4ed2807a854e166371663 0x404024e97bd9fe4495497536c5b38982f4089b7b553cf96d9ee3d6b51749a7a6 (-0x1548a1d3a902ecdffe005073187b5a003e3ee360b875ad1a9b042fc1ba7be277);
  SAdd true 0x77141671ba9a66d806a81f732c4fadb0dc27fc810698ab608ffe29a1447c3258 0x87a911acf088aef17aa433c72645bc9aa1bcfb9b6e1bbe2d2811267ef443f327 0xa02b0c0cac4f1378eacf03c7dea1285b00b2bf27f5f9294e00fd4a133f1a39f7 (-0x1a3c44433b7091b9f656444ce61e6a0f8a0d4e5157bf7fd490bfbee53a41ea31) 0x3763ae71769c20c72c8e1eb5be77d98086df6a484fed29213b9e309ddefd9805 (-0xd408f46eab56e754f7f018597b65672b51b9f5c08257c5ca42760250327ba38);
  SDbl 0xf194a2062a40237b52e3532206b178d1d56249aee261ee7040edc5e861708323 0x23444a15ffe250509d735f76737a3d99f2a3ec2fdd79e85df89f2a2f196535a 0x988e09ddb2c030f365229e884ed2e4be238dda9d2528b518394d926a008d094c 0x569fc84e1c1c65b2f66250caddbad14a810c58ccb1f5bf159427576691788c46 0xe3f92f5c3d3299f2a4bd4db6a6552379ff2b57c84f968652f6063d5d525162df 0x7df071060c372608d89814934f0c6caece8648f5366bce06d8e5a7bf7274833c;
  SDbl 0xdf7cd6debe0ccc421b6fefa35696f5f436ea66d4dfc1fd3eab7ecd2e51369954 0x6f95e20a3262122220e910846c15bb31e52c198227c57b064ea21a6a37df7096 0x153009b8fc1332691a329101906eeb312145f84b370c224dbc571d2d6961d26e 0x10a4daba65b783c3c49d28d15066122e872fac926ce404c7dab18c06cc0178109 0xc31abb39ae564b064af5ab51a6bb691f6e70bdaec286e6142c12c4d3e7c693ba (-0x5f7d5f35b2f85e9c14694bcf84144fab04329bd7ab9c20d5104de78facf2b096);
  SDbl 0x4607209e1c933d058334af1d7df7a39ce1860c24dc18502d6d60e43643861a06 0xeaa297e22d6596336309e084f11564035df0bf09df3c2118a9d9a72793d8de69 0x63a3f8a997a4399cdd31785fed25f83695f8711cb442d855760618b854d84518 (-0x865281f9e3563259c4bc26465e2e629a5c3daaea6655be6b3b7a67a54df56d7f) 0x1327e6095795e441c9d51e8af6b8ccea29665059e5452df639e0b9959eaa8771 (-0x21a8e6bfbf831e2728dcee24b0ca6efa236338dc33b59d0b394cbf830f53e788);
  SAdd true 0x7a10470bc8afee8f701f34638888fa99370e9c5e28a57f74e2dd7d3258821075 0xf2734c9f08519c82bd1b3d99cff9a4374d1b91db07c1a1da4e86c742dfa43332 0xbb10cb8cbe72db3fd4522a9de679f337ca3382eb504f5aa592947d9abf152955 (-0x57ab7246b85adc807a217fd1787b88f76edb1c156618ee8d075d5b26f893ed6e) 0x3a3384c06aabd3fb663d03fde8296b9e995c5dbd04d8d5c0b63e56da7ee6b0e9 (-0x3b9f5588e14b0172305b72a8daab9c78242d0c7d07c4e2f78b7f1ce6cc641b6);
  SDbl 0xb7851f9f302776c3f533cf215074f3805e8d83ad1b84d42141c46fb229f3e6e1 0x5c00ab0555e57e4119a43f575327a8da383ad9289c20b1d9be4f1de37aa9b275 0x9f405694ad2993056fd0af3d1ca618628d336bd0b3d91344d0e2a2acbe6cc3cb (-0x1a4a601b40236bfcea35ffcd94dae555e7ac2b169b814eea9c332be1b5fee8221) 0x838f986ff9b7fde3f2bca746d1a8314c758729c5ac0eb98cb090753108930718 0x6bda2da8ae4fd415aadb19e77160385cdd7bcffa0b8cfdf231f31fe63545f903;
  SDbl 0x2d35ed578eb30435f349275eb36e56e008cc9ee2b6e6f673f4413d9b3a02927c 0xef6b9f4be1543638d3b79770f10956889d8381ecf1a5224cf69f77718293ff73 0xade36cde958b47f59b04d20d6c91104b9d5c199b34e7d9533cc9cc135b581a03 (-0x2af1ba66d4e46963c3754a14439e3ba8d99cbf8d9fa739796d193491b73a7c40) 0x7fc00ccf27342916b558dae8fa7d9749793d7bfff2a9e962a340ea9aa25b84d (-0x1a08dac182d0ebc7b379f002ad2c5dd968e77415a31e2cdeb3bae6e04ad8fb2a);
  SAdd false 0xebe8ad132ef42c4b1dcd312baf7cf51e0a60dccedf11042f5ce9f393294236ec 0x102837cedb9b863648f99cf41224457fa84fc0109c484357385990f4175c2dcb 0x42b330dfcbf72c92d3b089a879bde0748f8fa4f5f96d69779ed21749f5ddd3c1 (-0xadd8b62e4ddcea58fc33cf60c856c73ee0b0ae828d621368437f31ab0305ec14) 0xd965013c396154046ef6d270f8cf1bb7c71820fa9d6eb864e9c5ec2ed7c43875 0xcdbdcc07a32ebf96e936b17ee50431633970463083c9af48731382b0be3736e4;
  SDbl 0x94a2be33176c902cfd5196c801a1d90c4d0626037e1eb76dab260cf599d2029b 0x823c59003a1762d990f34d7e3d50ad6d044a0c1491255200b5adbe34949c397 0x67ee2b5b33b0868b78abe96f7021e9e0e6a9b1acbdb0f08f263c17ae6e62ebdb 0x4a64d6877cd7674328d28ebd716ff8d5c378d5c23c5d92fe5bcccb4cf7b98d32 0x564c9360af5ba072aa9b7bf0d8a0b0adab4fafd40b5e33452b65c5b7ebaf5554 0x4a7aad18bb21bcd167d1ae0bb536b41327adce3c1d23cae62284bd7479e0a20;
  SDbl 0x2783f76a6d1f95283ec90bd7c5725732e0a5ba3a205977df80f94eb9b47588f 0xbb5021c1f572249472026f849d631cedb38968df6734f7e72a119d447326ca98 0x3142ad05160062122a4bbf3876178389ddb0ec3c46349febb0ae46654f3d88e6 0x13a9773c9ade3b2c66b6667f7e9d7723942bc082bf3a0d1e6017a7664841a86 0x6197969996352000233ecc38ea74c3cc68827104c7413de73ed619dc5b1e5 (-0x1ba81ee92ec00247fba6971d63c2380d390c6beff51e8082139c4cc593949b0);
  SAdd true 0xa5f6cdfb5dbdbc136709eec8a5ee4e407a04ade725f699b267ab82f7db3a55 0x6ae3756bb2c9c29c69655b28281327e96d579d14221e440ec43c763cbdcb51a6 0x651af4fa05d6a2450249eeaa1883798eaf5d7ed0a7693caa8d833974534a175f (-0x5885855ebbf1ccbad193bfb1db29b2a240bbd0206d4324f9fa0e267248bfe1) 0x6b981376f7435b8042f978bd201503c714678d8d9962b0b4c6698385f0cc 0x3423943765ff4b0b1255daa154e6cc783d52d3a64f9dfe3065535dbcbba3eb;
  SDbl 0x63b506f1938fa42be1e45ab404bfcf47c2622f690d1921156d3dd5dec2018e39 0xa91da029e8229d4862d886d826d6126b1c2b2dba3ad8be06c7683205d26bf1c1 0xc18f217cfda13abf832bf785a2fa5916e214a0706d020a57ffa31eda01da9677 (-0x37219ef041034ae26ac7c9b827609013f9c48144e35889fde6b0c16a59be6565) 0x26d58361d0c17c5bccb8f7c486e21eb562607877e18a52a05a533e127e8d4c5c (-0x183c7f57f4fa96fc66c0decc1dd710559b8301b68ae5777d3098321be42db227);
  SDbl 0x5bfa95c4148effe024b6a64c25be04ee732ad3e35bf19e9e185aefab1fdcce2f 0x8fef9f765c56c7baf490b3d5ed9ca1f6c7021d25a8df80b2eea726722ef4e94 0x838697e5cae4a6755727fa57259b677b6916f903a8bec45745a1e13c012aa201 (-0xc411b2da66f67034a4ab28bb4f2f14591c48a41b619ec3775211311a0809e932) 0x210c1bc2623fc315709ab3dd17925d09c273079f32f3adbe16c069465eef8575 0x3987a0aef6408a9c4a4447a1b8be8c50c00c28af9b0fc60107f437cfd2290d35;
  SDbl 0x951c1b33e30c71c6cf4f643944f19212ea00253144f2627afe2ee02fcf5336c8 0x4e079fe315b8c0e0f7acbd9ce320b1b08c897715ecec24265f59829ea8680b9 0xe236e074a518b1ce7cec291ad3dc047bef5adb89a66dd754ee46935e11a0c8a3 0x9844c579b19751b6d90e707456bb0103ff148f7cedd7b9a6e15e44c0e7c8031d 0x56d9bac0b363de53e487f9af44f19e860d571e99ea9a26fdcb96b1e42efc21a1 0x26634421a63955fb2b9a2df008d2dda26bdf536b5b0cc11f567973c127d658c;
  SAdd false 0xa8f119a55a2957fa986b5418a94b7d1a347e59765b3d74f6a1ccd4a9dcb7bb0 0x346a1f559994d05207b9e836258fb79df8489d0a8a56adaa9c06b2f716e49417 0x1ac74e7e8acc4a8c0f3ef599eafcf4d15ca9e004e6f392be1fbc77f3959675a4 0x1e48faac4ee234cb2e52aa0b7dee82761982501d6466bb5e4f662928bb0c31c 0x6f7d54bac1b91074bbd45c4060e9fbd8915cfb6e48d85d25d7f776efd4f097 (-0x1f5f19d948a8f89571b060edbab1bcc311925cdbb4bd03f467633a8a3434719);
  SDbl 0x5f5cb8ee4148847b0a156858c88a0d6f686fa7a9758aa9a764f7fadd18edc77b 0x442aee7f937ec825e68951a332a582d6968c541eda1d04fe1acb0f10bae19469 0x4877eb1b269d48b67cfa143efbe9a86057818698fe566900ce55db7840acc074 (-0xc3e87f7948b5c5c4cbff8c469b70f72e2ac31723b1617a07a3910a4033a3568) 0x2385f2d668d00cdea4a84aca540031e88bf1ac6a141b8d03d4ea5c5ee37c477e (-0x5de418c4add143a65ab87189caa645b80b06d14eca756ade00999bdb803e482);
  SDbl 0xfa5cd7ffa7d11e1ecbae24b4efcba67c22449b5338cda854cbad6f9801b77469 0x2078fa2a31e82832ef9a0168f02febb5dcac72e7c7ef395edf3707bfb2a7891 0x347e1fbc3baa96509b3c61608acd3d778528ecd0258fed3c4f51d91d6e8adbd6 0x574a45f7d1ce6c50d04912d6d84190aa7a7611d6944135f69b0a532eb5dbba08 0xf4d9778c3e9defdf0bc4b0517850d8c68d958b55cc70a6ab26cf518cfbe04e52 0x40ae8727dc151340c1437b5b45d2eb6e45d25bf6bef91cfdc1844f73551750b2;
  SDbl 0xd08dc10563d7b32ed54bed91b2b7857023cc31b1d3f68cfb923dc6cba8147bac 0xe907d7a5aa35dcbf2c32e8edfa4521892e3c55b4443ed6a96d22307761e85047 0x784303843fb87099227f580b47342d6bebee1db5345bc9e4b4a1c5094a116d21 0x557aba426b693bd4a0795c51c8fb15ce9fcd90a425d47ef6c571e50527cdbad0 0xa9e6a8279d9e4797635ac70d587e5b5784be98fc6db77f8f7aebfab2099e85d9 (-0xbc3023d6ef017431396e3f626fbcc327b992388779fe9d4197962cdcbefa56c1);
  SAdd true 0xaaec90916eea9c5d31bda8ad642f62a0b2d6dcdcfbbaa9bb14ac653bffea0daa 0x500ca419ba940c96a4464bb1911fc96cf4b0854d29d7b4f5552110400c39bee1 0x294c7dee3f3eb0ce99daa03e0979a3ee844ed0193bb95ad69a933a2fbcf2067a (-0x79b10662be74da047dbe31913e8fa5da142209dc66593229a469870028323981) 0x721f0a9c7737123f4ed71ade9ed2889463620bd9acc1218ba2aef8aef9ebcf0b 0x66242e330dd597dba078b6266e2ab62b18157039ce6043f577c4d638c278b7df;
  SDbl 0x15e5a7b87787fcd0712fd888ef6a389079d077b441ffaa31a8b6826954e44aa0 0x8b7913ced40aa7a00533c7dde56883bd1d63e61bf616218ac08edda609329fb7 0xd85a78dfdd49aebb1d8db0fe2d4abea3bb7e31a438b83ce5eff0d1a2a58bbe07 (-0x44070ff0313bc49e16381d514dcfcdcd44b5e0a67e58fc1d914fda14c0085b40) 0x1df7b89c363d52dba0342e31e4dd5bcc45bc589dbca3793b41aaa581ee53979 (-0x51534185bba1c7ab42169604a4cb6c5f4b21670743c23a3c1403e1b1a5fd9bf);
  SDbl 0x2210fd04240ce6abd6e94734728b5bd718d1f020d35b26ae32ffe5c95352444b 0xd3ebfcb55f9f759e1306405d957c431cbd419eda3263c25b39917d66124d9e42 0xd30e2dadbdc0ce41c83ff736762841ac2c5e01583de2a916429bffb97ccc2ccd (-0xaa615f3f44e1bce71d2b4d25e0400d387809068e4d0e6bfe8119c34693ee91aa) 0x4888455b8b1a28ad8acf44c401729914e9831c6b5afed3d40c95a33b06eefb7 (-0x9a411b7f2c1d95803a234e7718f4ac3a099141156f8649b3a6f81a66d9c9673);
  SDbl 0x8755ef86e49bbc081eea6fc86196b6f92c1226f00898b30ed262f9d7022a434f 0x79496c233aa4af146b0f501a3c4232d986634359abb9577819d5a442b75e2a42 0x33c98619f12e0f05b976b90f52eb9c6506c7338a4bb0356e41958debef148c9b (-0x12f25edcd74cc4babde9f75dd2216cc3b8a00022fc3a9162ad69462b0341e597d) 0x478bbf797c58f523d29e869d31c46a55a42f57c5584d045b8e8b3255785af465 0x2fea2704c8f0b5c2ba74c4d04f2c08e23910508ef5d35d0cf9f414bea89fed68;
  SDbl 0xdd54c79d090af00eed88f737dedd534aa1da47e5ef422445745b9c9cb2e13868 0x9e351449d0bf21d895c1c2f25899d7f54719f3279669219a57f275daa1b7de16 0x7b47c7cc5111538bf98853fea4674d89de7134e7d1e1e5061ad974078821d9dd (-0x52d7394d25b29d535a6bab533bd8320d398404573035a27b5fcd4b99b056e2e7) 0xbf5b7cb97babd2c3e4899c6f915044d56da7358a66da0fab3574470b3d36885a (-0x1febaa4671b3bb1d11eebfb915b31f0894bf1aa00e994d7fcdf080013fae2b68);
  SAdd false 0xacebf41a3950a23c2d7d16bd10a6f8fe98a8861356587db717b075dc6343c531 0x8bf9632301b02be8e3780e4442b14dd252429d3f2546406211d66b7f49cdcdc7 0x82153aa4984732f88d2f61f6ac9482d5df8699a352a27a01d3c92184e874de54 (-0x48928b3c1bfc708ff3d27a6a2d81a545c2b589dc0520350f3fa5b2a3c215d75f) 0x74cde97dc2b97d79e0cdc443f7ba1592f7eca1e9a11579fe348bf4366947ad43 0xc50e934810d0d1fa95d30eafb26be836b4ad903f1483880107aa9f4ac8fce12;
  SDbl 0x3db03bd970d5d6129602b5a5b4734514bfe03d30f8357ea41405777338f6c554 0xfeab43566e00994b7f5fd4f1111f3e2471717ca89a8a396ff43d1e145c4652b 0x819b123882c98d5008fb92f00a98f6709dfeb3e400ac5738eac4f9f0250a1e4e (-0xa6e915d8dd4ca9af7c0bc59e89e1e3142a3a594a222a6d9df91ba79257f43d10) 0xedd75d8079c769649954f76c6f1c493efca09d6d9b42299a7d2633343d59d29 0x1de4e6c7c09404a062882069daa41003069d3d56e441ba1e3c9ca87fd7009d72;
  SDbl 0x4617244111302e8e98f443d02df4d602760e1e5f0ed2082ccd06fb97074f4d39 0x909c7ed0dee9970433c92671d2532db5d3ce97037f9f4418a23a17b6e3fb0566 0x1384d1afa8e4ad972b92d4b2def3e92983a00384c7825b81598e4917a85defdc 0x440033a5595810d6cdb4c17196eba0078858fe061030ca04b67aa13b329874ec 0x1330a9eb316a7768d366b711a94f35be8fbe48a41a560de596e56d71910a790b (-0x233c3f99904cfaae85874074aec53b03f0c24871d3f7995419e242c77b0785b3);
  SAdd false 0xfb14d1638d639394eff7b3fb02421fda13b605a1907683cd4b3f46f7dfb9a48d 0x26156b479b04f490f777a839ef615e625ccc6a4ed9b86ef8f8d32c4d14d21754 0x7f9042ec435e604a5fbded4f04c77214b2c8f6c61d230b2d4ffdaa1d126c1607 (-0x5c0a3b2fe09acbb7d7420df2a623d7be9abab01daa125013fe7ab218a0e55cea) 0xf641d44b9054e2d3ee3e48c7dbf6337ab482549ab5cf20d46f43f22a488a9bd8 0x687b19d738cb06e6829f0585c02b3c6b301d70f683f42248341c85e3afb95df9;
  SDbl 0xad7ed34180d3b8b580cc08a80bac92de67369ee5f22e9ad4c638618c0794c7fb 0x5f741edb6673ac58f9662d0eda5d91d94c07a8afc7333d79b35b65e84647778d 0xeb926503a6e130399113d3d51422bc6c44bff5de059838d8779c72de068fc10b 0x9be84612cb5155dac1092c19b7f81c3f447f70d20dcf9653d533d64a338686f3 0x7594a85ba082ab8a72149e61566c8629e70970ccf2bd7d08d8b15492df7b761c (-0x26e16b4f2606936f52c887062d7a0f346db11f0aa32442903bdcbebffb2e820b);
  SDbl 0xde300d2048946245bfc56ccac2dcb69a1057f61f3514c35111f7ddb5f5136f66 0xad524f01749a4306def4c079bbe51543bfaf51c27ad7527026a3b12f936f7aa 0xff535dcb091f2ab48e21ffdccaa2761133727bd7198e685391c38e75cad77e58 0x12e242b893b9bce11b22d468bf4a2d39266d260ee1f4ac80f9a9b25ac5287cc34 0xc0d75fc9ab803d50c9ea043c408ff17affd57682309b2ce9dfdd2ff490284a20 0x4971bedff2c4fcf23f32349cb6b182b71d83dcc10a43a3fa750a8ed03887ddf1;
  SAdd false 0x70527358883fb58c5931e2e7347330dc97b6963a05b7eea34fce30af426256b0 0x8cff6f47d23b60e26a63b498c4df6e88174bd741644eb401b1dea65438efeb22 0x4fb6c2ad6684144f54fd25a119de8b7e43096868b7a5df64d07502247b9c47a9 0x1185a8c2b4696f4f5b4e93bc3020a3e52520cc9bd2f43369aa1a988b8e06cf17 0x31483f7bc12ff02e0e91640dd7542b634481f2eae76776d84e37c7d729589e93 (-0x391c6cb86e35e40dc27aaee099bc04ad4550e8c66ac8e759d0a8c487a4aa877f);
  SDbl 0x9ed4dbe64ac2a22127adc254917c91a658e00dcbca450fd00a685c2639d83da 0x4dbda0632852bcd6f5c2a5d1f170f4f53ca77720170754e24add3bb9af0d911e 0xa4c9271578e5d345e58200a788c54d745963611c02bef0b0f329155dae5bc715 (-0xe2ca7f42079d7e7644865eb28e2060bea74089e6892ec1c12444f5cdce70b04b) 0x628b706d992355fe79fcb0d49c37de0651a6033239b25be362f91487a091be 0x273f3686d1101cf5207d9f3dcde915eaf899ed18e7daf66b9ded7b12ab35b56;
  SDbl 0x2a5697dcdd25f25049a8b43e9db706251994f2ae8db53444588ee01032eb9883 0x3489ba1d65226f85a39c787d4560cd48e30ed715f3252dd6e05f972d85e7693d 0xd318e088cfb20543110a7c15b73a2994f9aec4eb56b6e3d49c01f958159ed4ae (-0x1051615ab7244e3e38253f5dcafb1eb2ce00abc7f208bc484ab15a5fe8f7b0f5) 0x700871ee20bdb8fa4466eef786e94020b633e754a658219824cdddc5ca4b870 0x42b0a2a2cd31d4e31789c6b20fe5d23f647c7c04a7739329e640aad803b9ba0;
  SAdd false 0xacdd76100b692f96464626564c7dacf62f4bf44cb7e3f5681759052c0e489237 0xba2daca0f8c7ae6df9940bbf40a249da4f08daa3ed963490fad0660758bc3f97 0xc21ca01ef3738632efaac6e6b70803b698c2dff88207ba2eb01ec22c7304016a (-0x131ebf25b6f88dee6282499207e8095df5ca4ff8db33665f902e397e2f2f3f5) 0x74ba563b12362d4f8fa076d227adf4621062d98a58f2f88400d7d5457b7d55ca (-0x5a3dc31b0f0401cf8840f275ca17b741fbc928336aea8a1598d110649413c892);
  SDbl 0x8fb2314eacad24d854e296d8c4110a4a18091ffeb1fd52ac94ec78f937109a1e 0xda73bcd9ec88c8a4eea242d26060b4d0859ffe23ff187dd0a5a5a0e7a134e11f 0xc0e3fbc9e4d3b0d4ea6d1941f43b6c776306caf3e83be59b9b3b7a97c404c113 (-0xbc48ff89642fe6bb480d7db31b66c75403a2a611fda9fad39b0de8e5af28dba8) 0x50a88f1ed0795557b23ae7e79e4a43e0f1e16a027fc08c6109565b4dce2544c9 (-0x121d99fe7e18b2ce006840bc374f888cd2052a8e4207767dfa3aa1d469287f93);
  SDbl 0x174b683921284b1dcc42a2df61d6a851b0dd69bc549a35b49b26bd6504acbdd9 0x58a9735b33228993a7c2aff0e0f7b25eb310bd0ebee751df26a11a84f6fcd338 0x4cf6b822cc96582139c2fad7d0c274b95beb60a51de042ccf336ce2d42c635a9 (-0x20c215c020282659dc7d3622a9c21f93963b81e593a0b3760bf78240db4fedaf6) 0x21ea2f081fbc5bc656a80fc4fe7e9f10a70a21781bd0bec8eca4a9bc9047385 0xbcf67b51b4d420724d2c06f4669e496a510275dd3992cf53fc7427367cfa2ed;
  SAdd false 0x37ba2ac2f0e5e56d5d52fe4b9baf9100873e6b821f98e8832ec1c19179e6e4fe 0xb2f2263fd0323bb45f06069db73c2580d0d9731de34ca9a9bb6396c0b43d1d28 0x9d400b6c71daa895156af383cda768095278367ac0146a525573bbcf6f535f41 (-0x83fb4e8cd21dbb8403894ee64dd014c64f6908e539a32d85b2498e3e45fce2c) 0xc2185c1fa0ee7e5c97ba6c5cbbaf6d8191b317ba762cfaf4d807e5a7d48f923 (-0x13a74655d8e611add8cc9ae9f4be6291fa2add8e335b8ed18681c28b68a34ef6);
  SDbl 0x1b63b874776206f8055f4a4721bcd53e34794c7b50443690ad917e0ca22d46e6 0x4ac1ad794922dc25d95e7d993ee290f0d7ccee9082b28c19aaa85f72d62dcd4e 0x925e07b1d1d5d97590a83e38fce7040c1b30c6ad7b2428b8e6079984208fe5d6 (-0x1559ae22bb63df0795e98650b0a54f03a58f8d82c58ff0d9c48aea8cde99a720f) 0x2ee2fc0c318d3a3ca96358402ecf80ff5d14e695cdb2c45c81d29a7262970fa 0xb25b28ded866524c223b865e22c5de373d3bb1877362f2784739734e0f9eb3b;
  SDbl 0xb66e329924cbae860395861cdea9e069f2e0a7f43e3347292c387853e8575ea1 0x40c5a5bc79cf767ccac97d7a9f000ba14e163023d30cabd38727b199acc02b54 0xfafe7dfb6cb19a4d27a8ca7b8822b3a937f3e831b627064e6c9c25895f324b1d 0x8f1e15286da3c112a28f6902c0cb715b469b7c281a7e91f9a2ab4f77f4f9cc1d 0x8200df61c7ee488ee11ed879d02b82eba694b239a562d710b9cbaac414b324af 0x71d79c4c836bcf6111e0224107ff218facb2fcf93dce2a2a35f8929945f86b9;
  SDbl 0xd82edad1de21217b45145865ee4462558d185f5f6f0fb11e587cbfb269adfff3 0x1e415191c61410ea70cfade7dc00d6f14a04ecedcac8f37ff62929c5f0eaf771 0x8b962ee8464cb64ba7eddc9a3ed1ecf9e2ea5803391968708768999594f4e070 0x176bf12bfc55afd654805e64a35756b50f7bca4da7f8549d69c43a24975af9b9f 0xb68f19d63bdcf09b2898305fd30b42d95186975e70bfdf133b8bd2d406174d70 0x1d25f84c4020ae25dbf03525029d98c0edd90fe9bb81ef49511516d81eb0ce14;
  SAdd false 0x4d33c9a3871ed09f5bb08fa945f59947aa889f6df5b4015048e6a4f6387bca4f 0x30321a3d866bb48717e5453283bd7baa62b2cfe44c86b0bc4cb8250dd49cc0b8 0xbf033739ccd5fade19d72657c97fc2c7fb11134ccf33bcf13afb13d34be3354e 0x62fa92e23e2ec1f4dcf654f2631a101d65cfe405f4041e19b14cefcd883a565 0x174831c66c8ac431255aef9ddd625c30f10c2cac1c3483e188b3282a6109688f (-0x5690d752bd17d2a0e1f5857d138399201b7f29d59fe7de7c049dd10555bc759);
  SDbl 0x397c48278e9812f46bf288a9589da6814af74b7a5a480d9a3f160f05a4a067e4 0xb851c36986e6f37e257c50357bef375cb14451e0e075fe4af1c603c1453669df 0xd2f97c13e6d89899a4c48a0790b7dbed996f7653640f6ce0c64d5422ead3213a 0x3a906a724f37a012be1f56384c2b3fd19f18280fa11c8fc3e30dbcca00e1d5cd 0xce89477a510b68d26579cebf0091766b4d6635cc81ef993d3b79d56c746a83f (-0x1e91225ecc3661a41640da185bdfa0af42f85c49b9118dbaef36a6c1f90051bc);
  SDbl 0xb512ebbed14981a9571250aeeb10059d6cd8e8f9a7816be8ea16f079348ac116 0x7547b8c6680a96cc85175ab171a86956e261371e04e56c25a6fa650f5186d095 0xa0b3c047bd03afd815f174cc5ac73ff80a59cab0854a18f5f66924988fb969ff (-0x63aceff50ef4d74fd00afd56e5f6d45ed5cc0675f9f1f9fa22787f62f3551938) 0x8013c2c253f304ea4d25a19f91dfe8f976b3c8bca492568e42c1fc202e99766f 0x2f6b0df673bb1be45bc3c0d8b010809c04f74552e2e69d467d14d0f37d0094dd;
  SDbl 0xd6b196fdb339106bb9630ce06e7e538733e1dcfac48618ff9ee14e3cd519abe0 0xcd0e8ffcf8e6d3c79157a347f1a3ecef5b3825442df6e49056193427c8327261 0x7a91f6def1b6dc6efaa6a094b2c82e3c0339365c4686f530724e622836ffc880 0x6c5b92a14da2a57090318629495ba92a0b31e00624a8c760d07c443bade93be8 0xb40d63a2ff90e97269fa69cce83393d75a997713e01afc8dca2532b0a61b0f8b (-0x499d1c28327fa298dd447960fe71c98719fbfdec8f770968fc0b74613519f701);
  SDbl 0xdce3098230c8e5ba2b0d02406492bc973d6704b14b2f75c08fd07612e544fa92 0x94275e9d919698b92e40b5c3f07ecbeba054858ffa3277e47169d3fc1cae2c90 0x774b9e3853879176f74ed47138681a8149869400161a9a02182d503c9c9ebfb9 (-0x1193cb208d1f4ba3ef20d602705b94df4da90b058463c2f8011aa2d3e805f17c0) 0xbe9701b25fad3a7577504b4e56ec69b8b9768f5308f77b4c3255ece46641960e 0x3119258c06762275b0cee4b72f834c550fd83a3d224fb0e7be3a13b5557c9d07;
  SAdd false 0x419439e96ac54adaa587c2186cbf9933893b07a3206f5c633b2c07cd35959d1a 0xafa668e8addd322645a1e88ed4c245f661f6fa2b8620ae3b2251d1fc2d1138cd 0x91987957575515056d0a483cb74989982c48d31c3a46e94bb735da0d7d589966 (-0x18f271e2ad54296d6c057e4094acf12eb42be6361dd96a056315d6738738c0f0) 0x10cc9b3b9c0205bc93dff506885f815ce4befcd4ee6fb41ffcb99960785ef380 (-0x70b2d47680855c57ce664d2bf40caf61dfa226b01531b891ab67c9fbcf6ffaf);
  SDbl 0xf866e174cac821c77ce392a263de547cc69f4cb695dd72600f1d66b7beaa71ff 0x62cf72b9e534016d7e80b3ec78ed478835b3196d31c1ff9cb03503cb70ec2c67 0x3d5db005cd002f24f159af6038db87e39a529c355dffed23f76558636991ff34 (-0x4f025dc2896d7ceef0d6b75941f156ed4bc2701ec0bdaeced8d80e9113e8a8bc) 0xf1077e2ba98b58d547db825d95ff8295722253ab7ed02707468b067fad9f8200 0x4a8f1fcfb03b565090736c012fc7930d266eb84c0605a91a91eb5c2133ce3900;
  SDbl 0x4a2811ebf06ba2f86a3b437be2d2c3bcb66fcce16d0910edd16000b2ee59b189 0x86018c74b688c4b622a4dd1e9c013b193bc06b0cbdec688fc06de5fc50c2c4d5 0x3d777d82fb15c24a9bcfbeaebd7024e8b32fe1a449710e0807ebfd16016cbefd (-0x4edd143192776b77fd0eef69ed9ce6c528de67f7619c3d64ddf8d278f27e5958) 0x157b30a21775bbde358d62693dc1ba95a25144904e633e39f57225878a3a6252 (-0xa31fdbad3a5fe48e0fa2ddb778a086012716c0ae18f80ad504c83ce2987a0f1);
  SAdd false 0xaf3b95d2c10f15d526d77dd1336aaad9f0a950c09390659a2eb380023b73c107 0xc3b625b83eae01e72faf1fab4903d238f402365cac7b06c0e39fdf48141a5b3e 0x98e92ce9f8d59371bda9f4e2c809c1abb2cc18ca9c16eae54c061b374ac2bccf (-0x38f9fbb2074e547dce51d7e8efd944207591e6358f82ee2b990ce2e9f1c5f13c) 0x77f284b502b923bf5bd559d0e5f6f67354809c049d2ec6b7e4f97761605406a9 (-0x2a3cd18190c178f2a3ef190e0f144e2c07783c7314c582ed3a615b868fdb3e55);
  SDbl 0x77ab5aec1d97aee9f7975c16a72b7689e644e07b3a577ac1280eb0afe265869a 0xa8fcc5ee32ca844f8f838cf2f5899eef50f0a06fb37ead7642a252ee04704164 0x4a18b6543649e5d734b78174dcf443aab6197860606921edb0e9c4eb08f2cc4 (-0x131e78150ac3421789efb1a186f0eb004bd10fdcd4c15b88bb2d1cf493bf27403) 0x37f0c13a532e2d10be0061da911d17400fa92bedaad594b248f0e106c85b633c 0xc7e0ed7c5a2eb12e470333bae906a28ca8bea8a5b9fef5294c14030de74406f;
  SDbl 0x18957b7a60e2a2898591dee97dc2ec111fad7cdc94ff71a485078244807e00c7 0xc8e1d929e3bbb1d6c7a483af2b70ca15e4d495823345e23dc3da4bf2d64f8f96 0x9ba40b7ef836bac772fe376ff278df46eba456f41dd0124e12c7678557c0c483 (-0x14dc285771dc47a380d94a20a0e3378364ea91d48e62e226ff736c88d56ebcb8b) 0x25c5e6fec8a78552e8921e673567c1f2e5c9344a3706f57fc042d4b1b4b77ad (-0x31019841cdfae4ff31a0174a5d5d693b275ee23442281ab63f44d23567e45db);
  SAdd true 0x5c761377d0db784227835626793a61257be9190138a5dd5f7d09a1a94a2c8025 0x2e661df7ce52b157c7d62d99a8cae34fad5a6b36dcb28447cd932f5f551ece8a 0xf10a5168ca72b3e81eb1346ee1af2495dd7d17b473ee4fd203652f61b9c1bf13 (-0x3637b84fa612da8b0d7a2555f8e6a6e716c18166a7ec5a4ce7bba9eaa81873f8) 0x2165147433725e4b071e303ace7ed27a1e36857157d636fae0c0442fadddcd8e 0x37cbb80dfd0507045b1138148b5316db9fbd1559153692c0cae56be25ee09cda;
  SDbl 0xecda4ad0ae731303203d77523302397a3092187bf10aef54d271d8450fb2a9fa 0x4c87207ab172d87cb9ee47eff9267ad9fe2838cfe50f702532575d42f91676ad 0xc23a3a0aad52983ff963a060a21d00a4953ded83972e85d50faae3f7bfcfa128 0x1a4cb860d977ec36e18cb61634645d09fdc51fad1494a4863ecf6a5a98bd2e00d 0xdb2334151e0dca15bbaf5c0ec4a3bd21f58b23f451ae948aa0adcea186d00b9d (-0x1be01f3b02cb07782569e0ef88f10db372e813ee37a89eafaf1b769df33f5297);
  SDbl 0x2bb75816e148056be067f41480de21c43115811b69317eb85dfecb644abe1727 0x5ef11b1f27b842b605352fe956d27115c03ce75e6e70ed9272657c1aeb38760f 0x9441751f66e5b85262f618f280ad7f870c57354034992d860e9b1d5e70df365f (-0x24bc36b0db400ae0d0bea26a6ac764964a71ef5e322a89f43934a76a3587778) 0x7771ae6c62b1e9dc623a5d855ace8a22340de0ba414d9689ca3d39ff1695b78 (-0x324fd31e20b97ef55a997d424f3ba1740a46409badf88170283e3acff75728b);
  SAdd true 0x279adffcc1ddc8409f1054bc982c40c37a1858fe3af71c0e55cceb3a28ecb44d 0x5a2215754fd4789bdb332448ea027bd648966094f08d7054590ec73bb731d86b 0xcb592ccdbb9e915fafec95b62a78c38f41a503b20243b2e997e9f9ef873d33ee (-0x6d57df8e76f93c226cdae6394ce8a747e0610198e2e1c3f87e63b3e9e624317) 0x6208df14945b31889cf08fc5ae9492e9fb77592bc3a00209b44a4c6d8c26418 0xbe729b5e2ac96cc22333f5c4e8ea81bae211138d9b3ccf83797db3b817aff9;
  SDbl 0xb7324824d12c75717cd439c675c0ec3060f7410ffcb9afff250a71f23e84d654 0xf0e630a5edbd224e85d6858b4054fa8908ba92c0c82be667f344d9b67d09e269 0x4cbf8375f9ddbd42381dcfec19a345ce07d15ff4522387887facb73dac2631d4 0xc3d56ca079c0cfe782d29332c95fd88eebd3bd9d784de6d356a157c6b55439f8 0x8318ed0568dced400b23985eb7e9a9291e14d9a0bbdaf2a717326c9f815d07af (-0x6be3cc3a52adbd4ba7c7419ab1df427752bb80fc5399d3795b71b73a9e66fee6);
  SDbl 0x52d0701cfd66e890d59694f4e62c6926bf01a00362058caaff5cee6ac8c446ee 0xa306ec369ca901e03f5b09e94ea849e3d45ada7507b2dd8b73323ddea409bc01 0x934a4cabb6497f23a4460e65365739e11f7307f4249c4afd8511f799eaedb3c9 (-0x2766993f4013ea2abd2614a2241f00697e5d4875ae8a36bf35531685fce05e900) 0x1aca31890d5546c2365afe800fe9047da2a7ed9f5fc0959966cb66e30e067b8f 0x1930eb6ddb0c6226dfac2336f8a16b6f0f271ac47149bcf186e5eda726cfc0ed;
  SDbl 0x89fe20951340ddc0970683c8a0ae0fb8c74198eda5e9e67496f2ab3bd036a1f9 0x134d9b2a6e0888ca750866f214315b333a5a62042e8b6ba2d7f959d7c1b9541e 0x851284e1176cf54f81d190ab08dbbcffba390748e95549366708bce8fa218289 (-0x98ab7ffaf50d294f68174d564cb0af57fcd56247e69d1dbba8e6f90a58ec2702) 0x4a61fb2484f538d4532adc1a369822818ba52c9ff6c7f5c418afb3f1ae45a7ef 0x4d78d889184fda505cfdda1e64a471d1538fa8e2d879b7186484f1ccd9a26787;
  SAdd false 0x1e21df3efc24a49d7ad66a698732b4841716593a2fb4f91cb3dba1a82d104bf9 0x32ee7040141e0f58b9cd1f0774c49b906b0a38c275157156845fb89f9b3038ee 0xcd3fe32288e244e7e6501aafc0d8c040486ebea2e0f534f857cfb3ad5ee4b168 0x3b41e04210eb9a406f73c1f0197af61db37a58b7db5a0a0ea0d267c92684575 0x38bf4ce1790579c61d6857259f57b8bfa9ae1bf083736baeecbb371708a29a2 (-0x3b90848e6b24674a85ef10a98b05ce55a718ed7d2ef76dedc3c5c2a704c4dbf);
  SDbl 0x75a7a9b424990c3b9efa0798595a1dc2cca5ae96f1243e2429a91e21ea2f0e74 0xa32f642e6cd29b4a770d493d0cf2c08c90c65bc58e4f0425b3943a736509a05a 0x61d777100b544489b892aceb54f20bd24f3fe778655b76e1d6bdfeca86426df9 0x9e43394dec2f3011271817eed574b4f8a2b591b2babd3429a07dfc6286e2d189 0x3612aeedb90daadfbcc2f2b4f965b77c868cb9a1ea4897b5416cb2b83c012da6 (-0x33973445215db0a3f4ecf9aed99a9e05ee85b23dbe4d98d510ba20280bda1baf);
  SDbl 0xc7a4821db37566c7e7c842d0f5d29724ae0d410ffc614716cce7f2235772528a 0xcc1bb3adc9c742e3cd63707fcf4ce12332ad26324e68c365514cf703c80277ae 0xe514f50ece6f4a31f96cf096d8a6f2925d6a9173cf3b85672f2567cda8f6a89d (-0x9f756c6ac4dcf04defdbfc093a02ac17b57d954bb76d6097bf65ab1b7188358b) 0x9bb12c01c0e1cded9e25d2a8a9695fc1f56f16d4b1683be4a83b0b07289105fe (-0x1fe9fdfbce9767a5a362e0a62082804e32b719f15400c809bdd337655241ee22);
  SAdd false 0x8d4a24e960fa3b3ce9dc9b2d858387b5023faac85cdf25bb78e30c5af8b2fe44 0x31e7eb0ac516f12e5a8bd37cc8163c8d4faf473d1757cfa6b03b8ce844cd1b22 0x239d2af5ef896e199c23f379e74d04d4180c1c6d4d31d437020901f7d1e4ae6d (-0x54a1574c5e2f24cf33f1927067485ee887c59d6292a8301117354402e658a1e2) 0x4dfac222bf0cf01624c6be3d2f7571ba6dcb44ec249b01a92efe57daed010587 0x551b2eb5f992553449717a01536592856d8ea9b84fb6aa5661cce84db583d9da;
  SDbl 0xf652e0508951ab2632d8c36d2e1742d7cc4e102c5335dc57a17e50bcc30cca0b 0x24315233a1ba16004e9e358f9ba00e0eba1e234a0da9252915c94ae611caa15a 0x8e97a689642ce6d5d923e99336848f28bc7e667e98354767a6f7485129831348 0x27594f6d5ad356f0fe2e302136ab4e640f5849d2b140fe6bf9b8475040d9902b 0xed0361f02d1158d44378d75f0a7c83995ad82d3b2c216851afc0481e48e77b25 0xd31e75fd43d8fa5172b0cf56882f2285e0d0ba64211068024bc822fc8d4b61d;
  SDbl 0x83299d5b705060529bb9c64d7a1f1174fd494644c76169e994b4bdebe056a3f4 0x37f98773a5f5ac46de8eefcc07bf9e11468f076a664fdc87adc90a315d57ecbb 0x3bfe26733b75458fd3e624b09f0d58736a8ffb4236eefaa8f728f4a50d0660b 0x82c3d6730f8eef198c7c6fced9d0f129327807fd6ba4e466dad34d07f26489a9 0x43339dcfa029228ea68f6044a9cc3e081bbd6a200e845192987c99c7effc8edf (-0xa22aa792d0ed3928258c97daa44e2dbcf1b2c058a7577ce2e11110e596beb39);
  SAdd true 0x7772d53a059e4b5d25a0bcf834571511a39b743fa213ff8b5659af1bc6c28e75 0x96ae170027f47dc996589b75974dc13440e956b862a3f2d639ab39c57e307aa0 0x94981720f57541a30118e56af6229fafe54d83162843d1b374aa4bc303516175 (-0x26de6df2ad74acb29531c3a8ef0cebc4a8857277955918872e00603fce74ae7) 0x37bbf5bec23bbb4a6f6f65c6c51410380edfcbdc0a81051b2954fe98da3adaa9 (-0x2c306a041b9c44ff56222b21386a2235963c85eb509a496835035805e4a658d7);
  SDbl 0x4c9845e2268f78228e4aef9fefd522c3984a3bc985a321d4f2ffbd5f6c0916f6 0x23a665d6ca9e5a8d50c68f0139f699df09f71b49b7bf71b6a1ab15222a67cecb 0x8e2ec6de3b2d07416d30e1974d9aa61fd8800346e9440748b4f5f8ac958dcb99 (-0xb126588f81ce806b696363892a8d4cb9fe93b6986f6b0b3dfeb1e7bacb2abcdf) 0x16eac4116d716e560cd88b62e3e0d3b8332696571bc700fe76af9666f76d8fa7 0x226ab4904b8dda6af57fa68c49362398b2885c179075504c23c166b2f0c8c060;
  SDbl 0x3cf8e3e725e9cd6b74f9d6f7c471122a767b50ad0205fc72fe0fa34fdd52dd27 0xf699edaafb6a3a3ae7f38fa3b49704250786f3b5fd3e3385be3083f770c97848 0x844cbf4357113f2bfa4215e23197ce06d2ea82193744421a93e92740ddff32b9 0x34d5a0fe82efd9cb306b8e31087de6500815c7b9eaf3ffbe516084050471cc4a 0xe859ccec308680935eadd26aa6a3fa2dce1da93e8dae6d2d4d859820390b9ed (-0x323e2b8dedabccc5f7b35a6a5012e35f1a676d6aac40cc79b4ab20a6513746a3);
  SDbl 0x2d57d8131db2f174f8059e65b80989f47766d188c8dabb0eb9498960f54dd355 0x27620ca16336625ff82f2d4c50738c2a16c0a8ce0e38ddb54d52e45296fdbcd4 0x4161730d2aa0b9f5a08af841236b7dc0b50ae6d85c5d008cb9109cbeae249fe2 (-0x299c6cd3d53314e8b64c87808b76b9b8a9fe1fa7e2fba6bce40f8f62969a3e81d) 0x808001b53d75c29f4012b5ad690641f91aebfadf61a1f86379c6457f6f9732b 0x24b3ed72edc7bcefa726dff51aa1d6ea191349e0deb97bc963fe0692ea19f917;
  SDbl 0x61f476b328844b278da7812ca35f5732f45922159067b1781730c10a0058801f 0x5163fc5bb3dd26a6d1c273a1ad5b0385fbfc22533a21bf4940c303d5cf98b2e5 0xeefa7b5824584cc29590ad5c3f196fbb50147dca151035b93f7e6ba4ef55dffe 0x1fdba7603b0d9943e7fa99e33c4f6c22e7303f1f442038210cc3269ceacf75f1 0x257b2b6666be4f4548307237cf888b4ac7be865690438b50c5afed76a82528cc (-0x1012d92870b76bb76734ccbb8681ddc63a72b5afbe2b39aef43fa77c76e13411);
  SAdd false 0x5320fc4bc1c060d7aeebd4859ecffe57e4f1c2ff99bcaa416279eacffad1150d 0x86526dac4514148f28a7f79cad1074b5bb20d3212ac9adc79d11e831e159c024 0x4c2479753cd78d7b6ba16cc49954fbbad6d693e61fa6d2d469533bb72c5c43e2 (-0x9f198711def7af5e4c9fd27c3905112f8be74eb3f75c92f0aa5f6a9dd1a3319) 0x1afe67d94636d29b2f947ab65c7515afe46b9bfee75d3c3da68c5aaa1f49c527 (-0x113020b5bbcd228b271e59266ee26ab23125cc567cf2cdfaa3f3e105d0fb04ed);
  SDbl 0x405b5ce3117184d4908e3477940ec3e42ef4c717639b7e7630953c1c62c7de4 0x256b288ce3e7807515e14b0efb9032aa5550fe2f20f7e2efddbc44ae70afaae8 0xa0164b7c85a6577261023434b19b3ed315195f2c97091e3d0aa7de634edc2dd (-0xd10aa6b289e4dd0c066e905aeb23d47daae9da782b06e634e1e50c1ab8998f63) 0x102dcf0cc408f61d0369744b70217d4c914dd717893b7aa3b790d1ff1ab820 0x185c66a69352fc393b39377ad5d6a68fb6c35aab57b695034ed8aa5ef20d14f;
  SDbl 0x55ca468da703deb810b82761b234599253cefd61d1993c85af973728fad070dc 0x1185818ab0a6cc1f8bc3515cf18409ca44d50b71bf70e370c49e2e81a152ae26 0x4ba430117c62012ff2f5f9a1d59dcea07f08117e9901586c740b4a492cb7bf84 (-0x9b3b722292f3878bc6f65ef9b0d48616658260f313f6660eb90cb9cfc6d751b) 0x1cbff2ad98a5dc66d34095b61a0dcbeb603044daa7398d17ad3124f93b70c6e6 0x6aaf925578e9940cf82abadd6340f4c95ce60f3683d9eafa8faa841ad876ba9;
  SAdd false 0xb4d5c28cb74809868b001edc38adc6409b9241d96d4e0c38ff8cef2c315f222c 0x6e11110c19f5b08aa5cdb061d997cd3b34b6a319595010d3b089bf51f6c6e82c 0xd6c9b8279011b99c838f02ca98b44951683cd4ab7a3a5220d36ee1be01a04f3c 0x177c2e35e1a1fcca175d34cce3e3ff61ca63079382117ebf98881ebfe7ffca2f 0x7fbd4c13b37d2a7ae94b0bcbe1205b3408a0eade4b8d2e7d3a5abdcd922e5389 (-0x415f675a476bd9746d1b632ff787cd5f9772074d838d0ff05db4bc8c03bf2c38);
  SDbl 0x323fb6a6769b03a4e9ff0cca9ebb8c296dc89ae2d4b7dadca728076c60c4f906 0xa93e54a50a9d4c08d26e99dc1f9c743abe4079e3a32f174bd29cdace319c6c20 0x3819b886110d5415e29b94e58646d474d4d2bb9387ff62eb168e709489936dd (-0x39a64da6fc94e73689272714be13fd9cef9fb40f7158d9a846f6b1ceada71823) 0x9dcf3347870fdcf202e462620561c0ab8c9b22437f83956fd6b960f5bbd9054 (-0xb9d91903614c9d9677bf21d02b1c0f57ffee324c3baded504fd4931209d0e2f);
  SDbl 0x2279a04d938bdbfe68499f83a717e65b3609473b672a33626bd84676d64845af 0x664c98249740b2839057089a5a537392811a5bf4b81967647fc0e2297bcb4e13 0xf5f3d36667f1f0e91c43d7343dfdb4618353049166af420f741f6fe652e2e46 (-0x14eb84e94f76c01197fd5272ea654ed1e14b6379e6b5aaab7ed3a000f935b1829) 0x4a4885d8d8c38f401e8a1615784859f36c73e25267fa2227f91bd8a059c58b2 0x903e93690281921d5161cbee3bb4a771c2e5ff438e7edc355642680b5125940;
  SAdd false 0x888985802568e170f481c764b3dea7e5d6cd5a9c47d59d8545ba1d7cbe4e8204 0x6709cf6f14c1163c7bc576a77e876a301944a4a15de397d8eff9684ff886c491 0x38c9ca09f114e2e8facf7bea63ba38b1e02f72e09a4fa56b21e947e8b106290a (-0x1b7be2e7b953d6332cf1a19b41560a09cfe2cf5ff8c573271d1239d55cec21b7) 0x48d267b89958488650a02a6ead773573e833a82b8c952640184913113b26775b (-0x64eb04d65f48a9c0e4cc15f1157382dd8575471afcde344cc04f10264dd2b8);
  SDbl 0x25d86322d5021925372e04d602411ba9013036bb0e0e4d22461dab332e8f1ff 0xc4a0a45174f5f2537f1ccef33f3fb919812967e8fa58ad8d5ba1a17757e16bad 0x377ab8f319c25f0ee0ba3fb3c73739c5f47394fe2d559be05d32f7e60c8f2909 (-0x7b5e0a94e7b7b740236129aea767902b3afdc69020d676e21c6f7e30a17b878c) 0x598438f885647db9e54a75638f5d0bee46c336fadaef5284de8fe29fcd8ce (-0xdd5e84674f9cd740d96368423c75b6a50150381dde548349e9f1d6066cdd09);
  SDbl 0x7246f7a57755375b4fc5a269a7388906f8e01d8b1ff0d03cdb378e5f5597c2df 0x4e19f289878ee1b9a264ae7a91750331d05b3d35622c0f1301c7ddb1787f2507 0x2641e70e6691a6de1a180d8c9d3c33064bd9834e262a4134b421054dc49c6d21 (-0x1938b12150201256baac164babcf627898a6418ba063809f7a58ec917220ce8f6) 0x3303483bef59275d04a0b190d646ce7b71d0a55039329ab173c8f9be9ad93e20 0x34e8d6a86ae433241b71a6cbdd029c95bdf6605bcf9222bb0111d086f71c3f90;
  SDbl 0x528c62d4588e35bca7c7ead51fe17e390183f5f58d916a15fc4ccc84f3ad76bf 0x3a50a52e030d8c943806cda5fa4572d239e24466b7c22bc147792296b2134331 0xb736776ccd345e05882a263c119a7c99746dbcf2df3fd573da03e260397767ed (-0x2ecf49a38a93d1ec96e5619ed25da5f638b173613de3f28ae3513d4cc3b830ae) 0x1a9e3c4c61c17633aee490295f3f3cc811dc1fec72b53320198b3c0953d6eabe 0x66154811e08816c8864103a170e49a906f8279ae9e4d3936c997ea079dfb264;
  SAdd true 0xfce5ba37f9f37af1aee1296027d385c93cfa4dac9d1aa685c2257deb9f540e22 0x7a881a9763f90cc98b3499458d5a6329dea0052019b9038cada8a22727b81b0e 0xb2bd80390dfed890833abf6caca87ee57a9a73a763631f76334d1ce6837fbeab (-0x7748cd730717335cd4ccca42fa11d2c8a78c110a23f720c302e4603d1c44139) 0xf9d514c5dd86ffdecb86badd3ce52caa3320739469c7242fcb5f5eb38a001682 (-0x3f7037e658078b8273af4e5eae6772857e7bf7523f694f720a441c1287d2180e);
  SDbl 0x24d0df40ce8c3f264f3ad3fff9937c9ce6dbe58a55b2cf4b11723ca69aa32100 0xb6dd53f650affa4c9dd570c15c42a844ff2a62ab00097c9fd77c5b4852c983e4 0xb46cf338f80891d6b9d0dda26075bd483e118cfcc5ea2c97bb566970bcac844b (-0x7c890d5d1c066586cf69c5c276886010f22e3092f1934a7643ed4901f7f637b7) 0x54b6935cb64771f72b815fed49e4bc39951915c4936ff246e5e27ef97f8ba00 (-0x8ad35ed820ced8b34a0ee01d70fab890759a420d5ce7b680b502b31050e270a);
  SDbl 0x61d50f068117f7cd536a19aec2f4ced091085b305434f6fc59fe363b88e7aea8 0xd878095b232fafa05b091c042ab0b314623dca8175697124c161acc4490a9704 0xfe90e078261c2659824a13e9b717485d20ec9b6e46b5f64715034d8a83893bfc (-0xfdf7756a0e42160c5ef341af27e0987644cd86145aba4ecece8810cf45ac2d43) 0x256326b514ebe5ac2711f313106f58cf47ab3fbc2ae49166e94a06a5c444d08c (-0xcd7966d18b061eb6fa76cc5d23cea750906deea90a5ab35dd509f09a835f2b9);
  SAdd false 0x28ae17e069b40fa12b29eeb7f3cbc6dc8be917829d7eb8015b1548e1aabde0b4 0xd600cbc70f5b94175df08bd53a580345a864a7c4de1ae5304a55660dadea970f 0xd083e725cfeee6d3e4b24197df802cb48c05d221aab7c7ee65d4d13f0eccda2 (-0x1a54b59bcb7913164de8aaba6de23dce7e3f7781cea22bd2d18ca8253414b9b9) 0x676ddda9ec8eb39bcec3618fe737e4a54fd184b16514d39457e60ae8b3e244a 0x644ee5de05c0f6f702cb40c5ef66dc9bb90c03aecb155ba3d5758fb81eb15a;
  SDbl 0xf18d81b178c9b7a6ee74464a73f21b4cb790bb4f7dcbea2940f26fa8511c66dd 0x6b5fd2a897eb8090764a0598fd6bc7e2b0df313cee7e13324e925c8f82aac57c 0x404d56f41dd52333252d65301abe64910c22a03c4af8271144a08b70eb367c0b (-0x200181039d20afca1783c5bd0c5b281bd26c969a816b76c45c3cd4efdd87c0914) 0xe3ebbc69288aed294e6871dc3dc9c8039d3a9ccfb6690d77b93b845c5ad318d1 0x649c7b3451f8d8399c5f656cb29c5b632b640629de13009d3da42f9ba976cbc6;
  SDbl 0x69c583683871471ce03c9107d7bf906bfed26f9cc86bae1eceb1f8abc5382e 0xffd1a04258a4ea61cd74ee4b60bbeea9ff0faf66c5a05efea033a6d47290249b 0x98c4a020d9a47fdabeb028085203075353f94be7ce6f55a1fe5d7fb950734336 (-0x86e6973b07ba2cd81916a8782eb2566b7922469c0d49f1543cf0f14f85af27c7) 0x2bb39e2f2bdb3d0e25811f6e758baa778daabe42c0851242d9d680c5874f (-0x3d55351a2fde58b658b597c0aea9fa473a1961f27de1bd6c9220e49475612d);
  SAdd true 0x5ce215558f3c868069b4fb6d80e37b6696242295b1430ab183afd93c9287dca6 0x8ab88aa501bf8dc29848e11e4603c20b2d9d451f9ffb134172702d52e1399735 0x967dd5737a8874a9cfa2cf843ed7d0e15862558046edd7762a25f100aaf930ca (-0x4a65bd8496958e85e424c85466d29ddb1e0ca35797f7341bb055ab025d6f1f1e) 0x21b346ff4d7ed4a1709a9c14bef90916ce7d75a112b6bd379d6a0018b9d474f3 0x2a7c6dabfc3c59497545a84b20ad76279ea0d2573a6948f73e41b29e9eff1bdc;
  SDbl 0xfe30dcb77207ef0ecf6d6bed827a4b015e6471d27d61996abdb8188dac736765 0x31898a77d0edeace72e2167efcbfd530089990c80a0040b83cea9b90a91f1d24 0xc96e1480dca5abcb9f85c6b1bfb3e110b2871e829d138bb28fb2f1951996aea9 0x4958b6bcf62273dc3c082b9378e8b437e4d485a6c5a04c0fc57e920ad75da784 0xfc64ff5085c3501d6bf28829f6a81cf4a0fde316b2b0bfff4fecd9fea511ddb5 0x588da7e183f076c587b1c6da338c199d2b108ea0008124e13b516b1db95ddfbe;
  SDbl 0xe21ac12691c7c4f3a38f4d2b3b0e9a04574fe1e945023415b1aeb217b55fdf7c 0x2d5827a816bf6cd0a922b7d74149df9a0bebd2ecc0ec8ba39c97746f36cb1249 0x99da5ca35f207861f893f1cd9d4b5561d70f243d0af5e13203ea0a11c41fb665 0x1470ea3cf8c772674d25ed575b00b9d56903e95072a9301bc34b72810e469e575 0xc7b33fd4aea8c1c5ae38bd1419c33464e4311a98fd71ef7467595d5b8fe80881 0x3b409694c6082241948a9e70a49c3bb09c5ad1a37c0dd9ad00dcc5269475dfa;
  SAdd false 0x15f1356cc61128908b677a4ecba3304e183c80b404780141c211c8dad7ad628b 0xc714052461255d022a2cb509ab2a2ee4f6a07da9b60577cb22151570480456d2 0x2a4765ea05e36687fb06b1185e7bf35e68a39fafc62dc7d3ffdf7dac57d15f81 0x7703553d46a6558b245ff5a4cfee0509971476984019369c44aad0178ba290 0x1e176097c536b3a65dd7db414d991ccd3917414b6fbfaae7a9719b8e24f2669 (-0xd2d431bf85770c1a30e40e81a47b0486c7d4d0ad6561b1feec583293e2541b7);
  SDbl 0xad1c00fdbfdbefe8bc000e6174323ccb1350ab239c53917a38080d39774a17cb 0x586c98d00876d4534691be2ea3009ec7a5636a0cd99c2189da0c49ae45d4f670 0xb5015a338ee364718a86bb5baa65d059353d51b926d110f6c3e0ca7b1e4d0689 (-0x19742a4ff461282d82154f37eb6e02c8683b52fbb80293fe11f0abe672dc557cd) 0x750edc67a1e11249736464b1896c42a464638e5f2e4734b0f4874698584b891b 0x4ad33ef2d25eee831b3e9b6901c86eca293dbceb5322bf0c6dde2fcc0e902a54;
  SDbl 0x867c9b5312f1dbff7f938d4c9df830f197fe9808415f093b52f74109b72e1f51 0xdc3936e44d9cb1ee7cb7ae69162ab7d827783a6c22e9d58c6111448fdd3adeb8 0x6bdc2e93eb7eee5e7d9d222f42a7e740a40f3d195fbcb6a75af8529aa9f40223 0x628d1a01e9491836fd17f8bd19113209d17dadb4ed95be7720d11cdc58a3024b 0x46a6af421533efc4d8e8f23b39584bd5347700ad53e314ccf2a3892555f413f7 (-0x453d41d31c0f009bddb5f313205c0ef3578a8962332001d9d667b050c46fc08c);
  SDbl 0x485f104d367b3412b044cd2ed62e4dbac857c356e2d55ab2264eba216423be61 0xf6e6b0ab297a09519f742c84ef0e14aba75292af8ceb175cec91e58ecd7fccc5 0x734f24260eafb74a4bee697ac6ee50ec4148fa949621d4499638449e3a4feedf (-0x1fb5b340d476ac8100f5e088b3ff3a635ea2aec5eb9d66a3e7614e5fad43ca5c9) 0x14759c789d73174cfeb07c5139e0c900c088daeca4370cd9f69073f323db6974 (-0x78ab25309a4070ef4762111fda18069714c96fc97a21f489f1149c449293611);
  SAdd true 0x3bf8389b62374e3f4bfb8c7c53e19ceb6ab2abeede96125fdde1dc9da036cd9e 0x1c87115c2c9bd539cf7bcb765f4c787bd8e3ad8cd1e7c2784ca4f493f00fe73c 0x908b345cdf92d6a0651574099ca6c28b6934818d68ae5f45e691d57ef3bee87f (-0x2df202e45ccb0133b6db58d4ff064a2f51da9fd64d36cb976cf7f52f805b497b) 0xe0c5ac566e47d4675707d2732596375591e878611b641f255f0cf1f0d0dbb44 0x3327c6a3327a785174112fa502b9b46dc68930ab90e5f71f72f955e0dd4a77d0;
  SDbl 0x17a65eaa4e6897f27deb5e02c819f927d9163146bb9007f6c64368388589c43 0x3ca64306b92451287a174aa1b416e983e9f2f3008f19f502fa0d38c3ea5fa2a4 0xbc3d1bdfc890ba268296ab5d73d7b3a821473059496394446f5b7c51310c0474 (-0x7de2b010409c103e96d86a1b9e085f1f3cf44f6a841fdfc86572564cae8784d) 0x22f512184254ef52fc4b0f344e976d06f18493fcd1cdfc1c4aca6cd0db793 (-0x2f7ad915cf94cee92e3d253686341abe03dc938ecc911bd3ce5be91663a6d5);
  SDbl 0xd9db47e74084a123fc13150d7e53c827584394998ea4d15c355d86edfef010c3 0x888056e16390c3cbaab41f12d9b2ee23106e38cdece2501a51b18566bb091d28 0xd2622384b79294fb8123c503d7381b37869a34a8d691cd2f4a65243086875932 0x11547015bb3a49aead37c2b849886e19edb824e44471b7ba3bc9274b904c6a275 0xb9657bbadea0ce84a489cae79a7b385290a44fc556ca905d0231877e2d0f6de7 (-0x408cd3b19779ec5f9048b1f897bc47818de5462489c1ccb422a787c8ebec0fce);
  SDbl 0x407b4e2b44c2a47667581cc6c7561823604955f274cad70f89fd9c19dff1ffaf 0x6c4d7249a58c34a514e18318657d16d21f444118cbd99d862b24a758895ee729 0x9f48cfeaa9a1e83c9625205763dfb346f26c6a51e866e5f6cc47e0b63de8927a (-0x705e196871684e14b7f779362448a271d285d23517b20a03e58643f61c7b4b9f) 0x103de279e811acf5ed986c21f56d2d2fd02f20a1ee2e2987afd8f9c1b69507d8 0x71a4e36114954f9fb69bd15347b52d124626c52f91f3a149c07658d4f3d015b;
  SDbl 0xcb841c76646d8d893342ba553dc6c9615ea1fad9aae53774bc82c65bfe7d87fd 0x8464667424a168dbd5ad1f33cd191e8108caf6639c7e4b166d112c68c4942a75 0x955cae82d020509ca48cd0827beb123deac15bb86f5c68c6abd07ddb1601b90e 0x73cd90ac0362cfc9bcac22a7f081cbb47bdb31b908b2e9499e8632529332dc8c 0xa1cac951c252357c027528f639bec1d36f5714b1dc7775a5f5cf19d3b60328be (-0x1326a2215292716cac7eaec7748c9ea58fb98177beab7d4e58bd1b5fcdd91e5c);
  SDbl 0xf2b7fe2ba334653d90f6f83e4f6d2b210ac99a2625f781851d448cbd301a0450 0x4a605d279682915f4c88b086ad6544384f2d9a3267e1b29849985a1f527fc725 0xb97f622228914c40bbc792f00ca2ab2b0bd2d622f44f695b58c518a478cb73ce 0x4dd2d9f007a963268734ebbceaa916768685006154dbeecc0f069b742d43b3a8 0xe62060c8c56d64661e1184d14c8b8aa0388fb3f907abc57b350f108dfb55830f 0x370183471ff839948a249f629f4683ea1d3a7354802fe47b1a143f0280c0e3dc;
  SAdd true 0xc31b9353cc6470670c101c46488951179c3a3013e530f98ed3010fbf4157fb58 0xc82735b30c0dc944002793e27ffd8d0114c6c0d82800cbaf598de4ec2c272052 0x618195f691eb4d6f2dd1533b279a23f6118f9688ec43953b2cf1390fe2e8ed15 (-0x11fe214b3246347c9339c1a9750293e7c9d4c0c35f53a3b6eff30910703908de) 0x94b3056aa68a7e00de0f09b2776402c32f549737fbecaef92c655b65355dadfe (-0x5fdc034dcb568bbb4a5331e45159e5679f03ea7710c345166da77d63030ad8a5);
  SDbl 0x5a2f457210579b6c238940911bc57d0c43b30d6a535aaea39f7bcfb4f5e4491c 0x9149749b510c0011e19a9cbc1ed36049c4e01cc082c40ee947bfe7b30396f008 0x92bf26cbd3252ed60dcd63ebc92e694583a4c02047d746c5f9afef8ec3b4f449 (-0x190c4bdcfe2e2d22bdb229d863820f885ecfc9db539092304e41b8a45d26007cf) 0x1fc5458ee5fb8ea3c986e54fafaf1e07a61c6dcb3a46b07b0e82daa97524359c 0x1354177b15ba1240f28691e803ba651cd403e3335976e15bf62e4123452b7f46;
  SDbl 0xea70657b355bc43552112343f424745ec183b0efae913857b932cfd24a3f9381 0xcfaf18c8b58ee6d5d6698a173d195938906211fc7af133085d28eae4cb6abb7e 0x6bb37c8cdaaa84deab5abe109eb2f29e2b74958e318f53f09dd1a9fde9a2b90 0x15696d03c4b7ccbcdedaf4977f5315c055c498ae216a237d4a73d0b99274f92b 0xd6b1aadf08469142eb1572db8b6e5afe7fc553424e8b2ee325e34b96501d348d (-0x39244d45ac7d20e2429ddeb32f1a45a4a9f3442418a7c50888620d41e01897b1);
  SDbl 0x7be479630d18e5137309b3f04851573dce327e825f04b76866f968bcb1ca87b6 0xf569a1db01d904882d6df856b7ac08e8f84c8f987aa4657dfdc492f5a1829489 0xfbf9f941be2d024ae2af6f1f344f18edf9377bdf4a3058d17e3f6af463346922 (-0x1f2f1fa0fdeab100b2a5a5fe6c62b7e525125929ee134366054dfa844176bdab7) 0x3bf5588ddc8961bb4232b7668b9c5db5f0ae3522edd7ce2484d5858b192e9621 (-0x12424be1b510a680e268bd3a0027ddba775c4e79a1abb6978ae6d597181a507c);
  SDbl 0x7d3de41cdadad6e270b349a7469e8409bdb37d733cc6476335456ee74cefd63e 0x1478f5ee3beeaa6946a5c39e700f883a88d80ac6ec7d445798a6cdbdb9982bf2 0xf2e0f2a10675bf4b14ee86424f67b6a1902a36320e2fab7b73374ac05d0bbb06 (-0x1cb3e1e92d543ada12982d725b634e547ecb806a49f67bfabaae576e3a0abb088) 0x3d457fbaec02eaf4dfb781a7acc8b0072d05ee62927f36465eb2bfde718d9e00 0x6e0be5bbb5d966e8d32c2a46032f9eaaf5d0a9254643e4646830d92729139596;
  SAdd true 0x4b05e552ececfdd61189840add93cc1bc5474cde4f1ba2acf6eb9f9d7e2ba177 0x7d18038cb1ab0612a6f6b179c710d3c1ef6a5595af2d1f36ffb49ebf38c55ffa 0xfeb2afd2d36fc5164fd51b96dfec1101ceb29f27e88b1facb077cd944c4902c0 0x8e0e1984fbe180d3f2f877fd637e53187d0ed42d3614beb8a7c1e42bdcb6597 0x15fc74816f7a093b6956b3e3e0a2af4d1bd36e388aad74e0b2f6d9af5dd91b62 (-0x1ea901d0fa341457e74278f7881cd22668754a6c3f3595b9e73851e21d970a82);
  SDbl 0x4bfe4ad66eee6ea6905d4746485335e01543ffd625b4cdf760542a422326d403 0x25d17d499ce7f265a152f4a6e1dbdf96e36b6321cc1c8ee2690859d521b2ac97 0x5bd7128a0e09001e4c5145e4f1b5bd91631cc0df55e67888c63937aeb1a16cf6 (-0x202aaea3e4989197061790edee1a05c6c81c6cef30c7babd014d339d57059017) 0x168efc7252f37e2afcbbae1ff553e741d12f7585e7cb60ec240fa5eb20c47482 0x19e85ad2752152322622d3ea47720f8be28c8f68c4882befccf6e2961272598d;
  SDbl 0x56479b14536cab29301ffca672aeba4adfabd31213f2733aa9c080d2b579df2f 0xb711399b5389991f4e0eb9652ae8feafd348fcc5482f26a0e41adf62f8f513fa 0x880983a5adb2fb57bce751f56aaeae1ee639ced485bbe57465a4a181f39156cf 0x2d253416f875e474e8a206db693958a843a60c3fe444bd70b8777d8adb5f2cdc 0x1d1430392859182280f58b744dacfc27bbffa35190a9e93dc5e4da5409598287 (-0x30f409edfe4d80caa2643bc26000748a8aa3948c31f2f13d02be129020c2040e);
  SDbl 0x29e706f330aa0d1c15ca07897371ac045cd8c23b19ece56f399c06b3283e9e5 0x85d7ffd165949112f990aabd82da7b40872be3893febb3e8fe008a24f0988145 0xc3b3a10e8c25541116d4962a686279cf613b657504d76e60194ddcd58a86e23c (-0x185f45b443c1dfe8a27749f7a29780c557112d67d572274c73fd0d35b2baaebed) 0x6dbd0b77784691b83e0dc55ecf2ed5f1915035858894f5167782638720260 0x80e963a9e68903b03efffbf87a1eef18a18a99ba1bbc518b885a9055234022;
  SAdd true 0x627de2fc6aa03d6f7cf1d33af8f12e300eb6d94b90ff67b41ebf357589d4b8e0 0x16154c9a60116967047ce075c1d342c653c5e03ac45de0f9bec93ceb41fa52b0 0x6a9ec4340ccfda9ff56c0bfb5da9bf10ceabbd795060d7c4fb4fed92ec809bb5 (-0x1ff63f593a570c48d841bad31aae1c4c4b90267c574a79370202705c576f735c) 0x25e49fb0db4a145b3a2e2182cafca35856c8216f390882b674b0f136ed5c84bc 0x2aff7dc4d164f3bd15a5805943e01a62180364fde329af0d6d665d68aabfa391;
  SDbl 0x1bd268f23169051867fe99540050c736ba8af943f3ee4988b3da55ac6b3dd0bf 0x2bf5b3fc3dac9b4481669062218bf53188d51636853f27ca06199b942b341210 0xfdc396ca27c0cf4041227b64fb52a6469dcafd9d024644a7fb788a1ff5486ea7 0x1175c0771c03c6aedcb785ae465abcbe79a969e0dd27e64a759f3f6f882f32e7 0x3060f1371d0f3b9bc061b7101c488ff287d137dd9bcef328fc40355dfebc8ef (-0x260a5f3ff62375366b6b1bf8f129ee2e6456fa78b37b59f6885808876c32d04);
  SDbl 0x6d6671cfa32295de6fc4e74f46e9e2831bf667363832f1f3788ec563a16f711a 0xcb210121f0aa98c7d17769d125b4e0fc11c4ed3a300a3d8c49c7f138fe7d72a9 0xd76e82ccd4a4355f7baf0b1ac05ab0977cb5e70c08635571e9c0ac11421e8670 0xc23e450d2dd5da5282b9ee17b88edb41000ca13150257258f73db14a601adb11 0x2ec065e9e3bacf867e5b595251b433a3451ed940c02c7303b7124d7f5a61a025 (-0x440521dd44bfb08cc95b40cdf8bb0a221bc0c6621f36deab02577b11d42ab25f);
  SDbl 0x80eaf9d1109d6c57abc967ee58098092edd5a1a550ec514b39caff45e72c529b 0x887469c985bbc42d936c3750c0c2c6ffb7cabf18d36d41487e35ac62c2fae3a1 0x7978f19cabb0d55973b00d6ca18693bf36794a2a959a0f952588d31cff77af34 (-0x10a8e16df99ea00f1b8bc37202026766a0ab5778074ee68bbc65639ec5c67b0f0) 0x40ebd17ef783faaf1274f07cbc1cb5dc5d647dee11b27a4cf3f3388686061f1a 0x21937e7f004cffd20b3be32b79c8f76ad7910b17a4f99a16142ea3bf9a590bcc;
  SDbl 0x7009e8042d90c1e8cd79a4e169795c525b79c7fdb82e4998f26c0f605fe40eb 0xcc6927e1c6e6dbc605345b2956e7071b6da72d5aedbc2c5f26590c8ac1bf325 0x583d99bd6d644dea130e70bfd8f59b5aac38c7f45d2e5e53a2cb418ccf2a4839 (-0xd38e7c61b8da5bd2ae4a8317898353fdf0f7dcb39d6fa88ccd24ead061f4e7b8) 0x3108ab65fb7a1be725bb3873718950527b2c8eb397adb038e3badc214762ae 0x3620d76555b093da859ffe2b4b0c81f0f369ed4f572e6efdf0f15720cd43599;
  SAdd false 0xd4bfe7da62269cb0f91eed73051d25aebd6e807109f5abdac8617e632ca2abf2 0xc70ff2d7424fae7165b71c4a78dce58ecc97b4cc477d3feaf61ee9ac6c00471a 0x1ad1d824f3eb3065b03af73e200b31d8ff22d1fd06dc71bda6bb625ec5bd4e13 0x1f92e9eb948b2bc083de7e26d03470d33f9387bdec6d1f1e934252a0fca60602 0xb0ce67de2d38a86e181372a3668d229a1718093b7f20a2603d9f385909a37e42 (-0x9ad06940708ae2ca0f7152ae772914696fa62c940126a2ba2f5478f14422651a);
  SDbl 0x306698bdf16cc5caabe47239c9f7fe3b5ff33bb9d22abb54c4ca2c6382463450 0x38df84a69c1139152ef5d33f38b1741d76688197e6591d8f2bcf68cf56f67333 0x750b28980d76018989189ffbb1f602be05b8ce4341e10dc9dc5960bc220f2b88 (-0x1c6393555be3bb6d5bad7b2d9d06b8b016749cd67bb599bbe5e99fc4a712e37f7) 0x926a265562deade7d4f43bf598532b169a84af0d0e35ef0e339e5e648866867 0x1ae210cb62b64255610643f6a40ef57d1aceb3937acb8816bf6e311e1685556b;
  SDbl 0x75c395b6ea480e6668792e5fdd3743f8e62b1400c1dc5222725b1508f353096f 0x55b2c5634f83c9d4bbe9a0aa8dbbd8d270674d24528d29acd55f68c5e0680eac 0x43080d39612746109cdfcf14c6edf3f52530d06b1a5c59ef64b6f81cd21630b5 0x45c7636d8f3bbf100b42dbc14d835cf89625c4a73393a1d052c7b4e095294488 0x362c5c46d48992a035aafd75699bb4ef5b7db3a87d925494e010ae9cb601f6f1 (-0xd42925c2841af96fddaa44d33ab34900b5d2691a4e2886e64c9d13b31e5f94c);
  SDbl 0xf110884313a043d38b44818c384426bdca9c77734635d57b6e3e7a9b47231b88 0x7c787f2eb9a08d87f7d432389080a589e5eb638d4848585229fb16b6ef937809 0x577acbf4a6df8f6fc5a2b32c1ffb5dac2e5db855601b72070078159aa34ec423 0x282d35826b820c8afb975dfc52b16d1d0d2a76cc55a1b3954532d6df286ddc5d 0xe30021a07eddabcad4fb835ef90652947f310a3606b28575f054737cb63d9d21 (-0x2482a4e7738afe2f79578f90d4dc17afaa95798feefcf9da3f94e327b4b742c0);
  SDbl 0xb755d92f19b574669eff42dd1de5d7593b899ffe33713e1f5cc1408ca4ce0c1 0x897ca1d5b62be715d79dc2c8674f81bbad2ce9ac9847d3a17f6bbe746d886aee 0x2ae496103c63fdd4d229677df5f0ec7d3ea39fdbfa787864627fab1d884b16b6 (-0xadba180dd0d573b7f2abcdd222065cb29db8e05b5ea9f4626b4177d022edabd6) 0x834bd94bcb953a75e1976a25635921c6c078b30964e3e1ee004e0b80c5097f (-0x952522fcfbc536d59789693f0d1cfa2cf476c2b379c7088491d3acbc36a682);
  SAdd true 0xf9e88667e29929410dd27c4db68e908dd2bd302993ff559175d7a7c4bddea126 0x3893e086403611c5cb43282b3cc4143c72723dfe3dc9de0ac93bbf88caf7fc02 0x67d59d7c8b2f3b38d7f8476b084266bfe7db7db23a84c72d4de1332a76bc6e51 (-0x54a7b03c94999370d30f581abc7c21b5c8bfd467a9ce07a084c4ea17cb8a154c) 0xf3f628aaed9fbbe6b76e5481ddbbfdc92575c6638a0b4c699034f1c86c740a13 0x4efbe170732e2639485bdfbc0e6648cd02876f9b4ddc9aaabb6e5a3c9b2ca1ff;
  SDbl 0x420cf7c4ea956bde1a4c6d3e56772bd115ad273c83a367738ea1c7130d85a71f 0xd53a93ea209f981f89ad572e606029d2d6114358f75342beb636a11cfb28c604 0xc6fbd2e8256d7e22f707f44e408694431fd600e62f4a58d6090245585a8255ce 0x10119345ed3c59aa3fbe1343aaedd23e9b4c8427e5c4940a85467bead0156a6b 0x110ab069c4434e2ec88e70edb0e3505a9be8e50968e1474de35046d457c94847 (-0x286ae9ada737284201d2fcf9b8dd0f1545158644e8030f5aed3b7b5a780777a3);
  SDbl 0x2d2d001cd32edc4a6bb499b72c5c44f124df55a484e5d2779f7ef81428a81e6a 0xf499abdca3d659b3c0b1049e830e68e4fc619df861dc4184416e75078d1fd81e 0x5a9fe5c47ff98dc0079c9f0b6a0c92f79f8ec2878381842092a32e320d351b29 (-0x1ce9519c81df292af5c4185e1a4c8739bd7e16be7c007a05765863573872cc66b) 0x7f8d9f33459951db0d768a446317a6f08fe3ea93ea10d15f5dc9ec874b46042 (-0x5893af06482a8efda37113e7aabdce2e1a66b26424e97c8ac06513a42cc0445);
  SAdd true 0xa49fe2a223fd0126c6b0c0ef282eb0de62d89bb6d5af1e4ca636b9096629f419 0x824552ed116cf6f137fe17e6813fbf2ffe9f58b9c7411bb172bbcac3e58177dc 0x48842990e5903c3e23283f6feb89e9f37e4f3ba7b9b5968adb0f96afc7733805 (-0x7ca58167ee4efb651dc2ee9fc528bb03673c979c3c9d4f58c3edf0da18b88b0a) 0x69dd3e3b7604ca38da0f253a5bf3b504001bc006242ea04ac473c42ea12c1a50 0x49857093e0133030d1bb5d7a08b1028adf223ea7cf11f86d484ba179cbe004bc;
  SDbl 0x4d84df4366b3067b8b71f659deab0c37dfda4d1d49b5973f32abd76c873c2ab7 0x8e40e4fb1ccc1991197cf26aeb5c5707489ed672dd58c6d58c775df337196f7 0xb0dba0f4ae4b1fb701716e6fd513149702a134fca95de3f1f907dd0df0a3ba24 (-0x9af4a933e0b89788afa487c7a4e711390b8a4b043a42b59587d3c8dba9f0ebf9) 0x17793345a3794c7574f770259e7d52b323b8d17078052f623fd11bcdef8bf7de 0x24c141a68b956f36af94f27afad52ba7c3ab8f66ead23b104976f01e5b2b9c76;
  SDbl 0xa247e61d3b90bc7e389e9fbe550ceeec9255bf9fa7eeaea31fc0dd5e55a7d108 0x4e8675ec0793a4daed4be529f518cd3f93f87ef4058c5e3832e9a5b8d0ec8612 0x6b880a66c8c72d3d8e8dbcee4f0307eefe581b6de7e03d2b8dcab6ba38d4d661 0xdf4c2b516f485239e0b2fd7f56c7826152b6634c8a6df6b39fa79929f81abcb0 0x66df136ed951d6a5c6578bdbe76bbad88eb6de9bf182e7a2a5aa60c584b1a3c0 (-0x2c245433b377f873b89a57b7a7f728a35185e60040d7f3b4b9fd9c599bddeba3);
  SAdd true 0x5761f006bfb2a86bf7e5e5a504ebff255dd35de5891504fad87f93b5d6bf0fd4 0x1858481d95123f392c338664224a2233789d452fadf51e2745ab28682a6073d0 0xd76836d5b14fb4dffaea87e9ea91419f24af34d1724916f46a7d1b6c63711031 (-0x979795557c99d3d91827c2bccd94492a862f9ad97bcf1950ff35e4195142ea5) 0x1dd3b69c7a491216064f9a42a4ed94c29cf15b5820b51339ab193cd31f46e719 0x127e6bdd4f3aaa8cd1422325da87253d60996cc734015ebcfe88292baff6e9ea;
  SDbl 0x2975acc2de8093c80e3c04f799e26264b4a7d1d7ca603eaac315bdda85707f2b 0xebea05b3c84db239f36635071d6f40e6cf454e98bfb8976b31cf505694bea754 0x7472475adb6b036befa1e92bbe560363988c5015710afc61a71989d3a7da69ba 0x3ed365a92d36b39936dd0049bfbcc1af5cdeef47b5edb1ef326f7dbd46418c87 0x6b6e76dd0b1e79dbcf6334ae6454f1c1a49e65d45254e98b92b7858b6b3ddbb (-0x224397bfcdd2c2fe526ab266233dd5880b40ce477779784618e1928d3d9362e9);
  SDbl 0x1c4d73211860dfeac0b5a265b67eddb2f091087c00f5b9051e1e6adccd55211 0x714ab836e0fdbc38517c3c071d8f6b9de39d14f7ea405c4f5b1d2801f2b7deca 0x1135266ab1b265b5e25681347074a4c067981d0368e056f08537ba42f6f4d01e (-0x28a9a7de48cf0141bdee36d581ffee06ec89c0f3b0616cb6e88b4a94acc151807) 0x321089db625a40e17fe3f259fe271d356968243fd9b5fef2da528599c4851 0xd8e85896f7246c353685c90aeadfe29b86f5427c96e23557fdc1dcdd4db4ae;
  SAdd false 0xacdec02ad399112a9a33f5381748d041d9270a87fe3200929b22ddc2dd6afde 0x9e6fdbb2967e5f6702e4e3a17d4fa85447a34f81e26ea3c260c290cfe36d2c5a 0xab9ebe9b21804f841f5074b97b9f96fe6e86d831dc48c6990d564f3e96fb51ba (-0x2a3875eb170585524eb787b87b0a1743d7c5e0b613c964f7aa87696860ec525) 0x74bc140bdb99052697917fe18d48fb3f877f7fdab3c160357a7eec7d783b67 (-0x1e7c3bef69bb4404b31642d09d40c47f732b0ac6d17459aed543e6a9e712b48);
  SDbl 0xdaf472520a43fcaf9e32637fc8cd0f44850d6edef3d0fe2a6aa00f3cb8b93e8d 0xcce7a2f260667480c9c72451b2d0296c7d7fa1008f25a5df0cdc02f43ae769fb 0xb39e4e79d932d2effca98d2c1b438045c8007194d6dfdb106377d5770fdbf503 (-0x98afaf2c2313ee22b98eaf07e8aeb63a423116545d9e290e25e5b45248effb) 0xbb453c1e9431c3827d68d037f99557e3fae1a20550e148be08ac7c85daaf2906 (-0x27be5e969d6fb11a1f6a230219226c4165d073d346125e0c27833bb84e8ec996);
  SDbl 0x397646598d616e06695b6e1bc0d947c5e1f9ffd8ec35e7d63950f9af6ca13322 0x3553732fbe69184cd4b2fc88d43dddffd2114c868bd0223feb9c104ed372c0ed 0xbe8b6900fe77246dd08babf8d6bd96ef576438eb57cbfeb0c36c08e0584523f3 (-0x19b6380440b431359e4e4fa05a48652808517ee9dd5486fe63dff9e660f44b284) 0xce5e1f8dbbeb36e0891051ac8055d69ad23c4b664fb3278a41fa1153e47045f 0x2206069807183c7775408b1a5d79e009955f5129c0b9a00479d53a813326db1a;
  SAdd false 0x2d6b4b59fe68055086069f124acfff82d2e85b5ddf1515c2dff0a7366837789c 0xa82bb786728a3be0a8abbc78ab46e1f1f113ff0a257b2668c6d54b6d00b616d5 0xa516fdc4df4af6ecab4b4d0c47f311ec6693643dbe298641568d6e4e163b4259 (-0x742b0eb5ddfe5ce14444b5d3f6808c1acca81809d835c654413718224cdd6c) 0x80ee575bee7fcfc5399cfc6e87f13a23a2dfb9d830b89e8b61c19713b9aad79 (-0x146026359d9daa46f098f20e784e605a030d84c414ee91bf6ad2d1e8b75a8054);
  SDbl 0xd3d31eecdf4aab8bd5f897d904dd1face278bea1756faf51012a98ee5cff0039 0xc36f2cb4fbfbd11b2250b70016881a9c90ff8d0327a3389fc07e68cc778f5c3f 0x87d1f4904ae07a913d6aef192753891cabef8e12cecb0cffbb9ee92a1b32b874 (-0x3a3806eb5cf2308250d1d6ab0ff6e1f228b19f3950abb155420acb4ca101a3fa) 0xaf45b317258f3e78656dfd3077b241ae80ba081354a0828aed449f800f6d7d38 (-0x168f157a28e62df1bb6bd37f065cce72b32e9a4acb4cb65179c52e5c1b9b9099);
  SDbl 0xdb10b16166b26071e0f06362a2577e57e397ae2ed26be726ab1ee27a148ccc1e 0x997087f7a40b131c28aacfc8abbf833b02251a3ae0eaa504c789a253534c1e72 0x5863db6e2829b3fa459fea235cd94071c8ffdbca5024046791af7edcf5d677e0 (-0xd724bc4644a46eef93880e74bb0545cff80f1e05b0ea9c30dc81a6bacfde14b0) 0xbb759094083f6cf493140589a2b5b0b94309afdbdf60ac982d40a1ffaedb036c 0x23ef93f1743c13966216ebcd1c2d2942fb3c6caa6090be753fc119a36bcc964e;
  SDbl 0x3ea670e2952ac0c69797fae305d3ee4125af1e106c26c3aa724d7736703cef05 0xdd090312fe7341f70ddb78302a373daf0b04c28c43b3e5ac577a63c5e8ba1f26 0x93e72fdb7ce738436e5ae7cdbfb2676b53629f0a676ae204a1a75d0dce6be6db (-0xe8a3ce3aebf59f51cd098a079317a44c659321b21dd0fe1e100fd6b035482e77) 0xf550ae467363ec7b945643ab12c5dc85f0b9c71ce94b38e786accab45d005f1 (-0x108ae07f0e086aabc25a37a5652e16f3ac3b65d227a2540dba746b47b3bf91c1);
  SAdd false 0x178a8662456951e5473ad54ce81f543b990541f1f3c7f6a7c2095a378f36ab96 0xd42c096a0fb070a0a1ae87a6b368c0cd43c268a2311cf407c436d20c642f6224 0x49b0465f27c17a29c077f8e7720f447059a7fed672534455f86c6498439a3e51 (-0xfa845d7b2f18d393aab346b86cdcdd4d719e1337b6f570d8b8fc37a5f8c8ed2) 0x22a2f1ad320f7c1ca4f011993f3bf8fca23d0535e14ef65da3e298915ec3a2d 0xd0a633d502106f9b3d54a8de1730bc00664f2a4593570866a6af23c00f1000;
  SDbl 0xcadd41ed69423cbd35208586720351be795a0d8c0ad27cc78fdc880b1805a1bc 0x5ba143a45c863af832117ccd6f18ce2d96743bf748432474f0492792d49bc7ec 0x924bc19a4613f088e12b5147989373b6a14dff654877545d5a591d009c80de4d (-0x19ac156267360c40e5fbe5f78375ca96975be71181aa80b968b7e4ce2ff90a9cb) 0xa0c1eb462fc09b1d59099a4186aa80dde92e642cf9dea60167021710a5748a24 0x5f85aee620d10eb0a245aa19c7b2efa321600338b45d4a7018cad84858a0a37e;
  SDbl 0x12127e2ab91182bb45f28f3ce622e04e0ed06b200a6e15302d25b6a511423ea4 0x2f7f788faecf7e308029528aa8b833deea8a75b1d7a5baf940d67c2720b588a5 0xe462d83568452b0ffde8a2cfdca28827f1fc04fe6172e214783d4a74e8e78875 (-0x4dbc58f2fc648d924f584e6bf9cf4aea87b2bc0be6a17d0bba7c56820ec3d9fb) 0x1469b13ff7d2d3b33e2adeeec217e2df1180f4fbc0f77aaec60fe6ea6093f6d 0x31d9067be2f8ff55f6903d4f485705bfd264ef2936d49040a3f92917b46ab46;
  SDbl 0xd8b877aadbbfc3712616fda202e18f0043bd18ee6354050ff1a4d4d4b0f9d700 0x83bd49d6cd289a51420aaabd8a41f5793ff046e561673a929809d000ccac110 0xe6ecdb4afcd849ad7bb415fb4f71fde3c29875caa50ac6706b08209c8bc5f58d 0x1683fc73e48c6832388d82e206b2eaa2d1087e12ad1d322327f0c80780bf6a908 0xb777cedd47d796aa09c98f70cd178d23ab55f862f2af6d38cef101da5ba4d25a 0x213d5d4d04defbb044aa3b87f76a7116d4b332cbf08c781bcdff2560b7225b02;
  SDbl 0x82b31c8a16faa50965ccaf6bdce44b103b2a5ff774a3fbb25ba73ebb54b5914e 0x97c35bddf937b03e92e2fa74fb5c5b185afb2a8fe53823315ed51c7b304c3d1b 0xf78cf9d8f45095c005e1d7e54c17aaa59cabf2702b8a193eb7bf16b36ecbdd53 0xeb004fa0179bff0b549ae622ab5ff7f85e4c0a3ed92cc551ab3bfb410e5e0711 0x42ba664d6e5b97f16147dc8323c2781c02bbea7739bf7134da669e654f1c4b77 (-0x49473e72e170eb6ed00034fdb4bebae5067e718348ab0c0d17c154c58cf126c6);
  SDbl 0x27b12076d027c8e2134b228bf5c4f9cea94b5cec66c64904b7fe127550a621e8 0x3c62045c5612e077aa748c43f78d3b081ae0dab7cfc2d4f7d2ab62a33a2510e8 0xb11a24cd491e431db9da3d7e440c59621f8ce357f9a1844ddb82ff5ab9054019 (-0xc1249e84f516661c4052bc5ead5e96c38b2dcaf43ea5305ac85093ace45ae9e8) 0x627727221fd53d94ca348207ad3fbea2055e58b44bd61b969edbc889d5fe8de 0xe2b0e38e2c34b1c0e20cba8d88a9710d58780ab042d47219cea2f166e8c7c34;
  SAdd true 0x6816a5d9a1417e6a810af2e4d17b6020eed271b89484f18cb0f734e2f0221d3c 0x95bb69b7ce4d421ce90bbf7ffd495db0fac233b6dbe8fd5408b655ab1514bc24 0x89237f8aba79706f8562ed4d39731ddb90a458cc847712ccb973621b7df147ce (-0x3e8c4c3975c582410f47a71b62a6b25f62a3b464ae5a1b836ad834fc6f4fabd) 0x2a5268c1ea31999b60e9b98152ef072dd49c77f5500f438ea998048b3b3f9bc3 (-0x245438be966b3905153f66dd082e156192106531b3a350b77163a590547f8a09);
  SDbl 0xfd000429ce3829a9cd2f83fc70f77cef9049426e6704d4e67ec178001f2b08b5 0x842bbee4c6b75c9565ca182314234043551200fd6b36d7001551c14ce9c6b3f2 0x1c433fc4916d71ce8fc310fa7ce9d0c81a848a71b27ef9a120b49f72ac4470c1 0x85517c36634c0991340fc50490e3e834cc72f8bb12a1b26c9baa8ba58ce45e1 0xfa09083b9bb55fdab0ae60e86499c9cb9cb01361f95a47ff7ddf494b50d65c41 0x115afc1bbcad3d9c0e882801617640fd368c3ef2eb15a9baeecf0085ad625d35;
  SDbl 0xd52eddbe09c540fd5d7a76b2fd51370fd9adb943b5e0abb766405d6709ad1e60 0x38b8de8bf34470f6c6bd1d89b3eb01959461722fb12c477712369015d168f0f3 0xea88ecbd40921a5ff44c7b22ac99ffcfc9abb2462d2a48289645a11298c6da8b (-0x9da52bc35b4d2b521909e16e8a76470db39d0965a1fbd5297da7f3b11e1eda77) 0xb18705935e26708d6a23342105bcc251d41d128b65d12bc9fb1c403ad39bb4d7 0x3ed464a8a4895e4242070fb9a1d6d416202ba3221d2f9e2bf39c7c3067b549ac;
  SDbl 0x1f3d5428202326f901ca8f4f12269284cf2c1920bd4425345a3feb58e6327ec 0x6b57759d928980f1652e3ba9e05574b08db568eeb9cc662777c019c64403c2a8 0xad590ffb7aee7b0dd4cfe1d75ceb96956b31782b815bade81bbffcb18e5d79b9 (-0x22205c0d30ca8b2586fe054fc1c0864be825646fc49b098fa2e600b53611b650) 0x3cfe912f26218a4f4146771d1f911e25e677e3915b7f223044f883013e2fe (-0x62d54b9205dce6676a79f6f955116f3df1abe9619950eaada084f21d30c5e0);
  SDbl 0x1ad58b498deed8c95d7cb628c3b3279b4ef3529fb6cd0c576b36e41738144fc 0x25a49f050da2523ee9cd3afeb42dfface6383123f82428609fdc85d366ce994e 0x1987989e7a05329a342ee02906687532e0e9f960ec7518edb52b12f5c17d4526 (-0x84c139f7c38a09e96a4cdbc6bb6fef8432eb31822b43f3f8a62250aea74ac17b) 0x2d0126c07d3bb2d4e39e9b713b9be58b021b472d78d07d3e9bc26ee47468e 0x74e4d8432dce5bed51a9f1f58c835f60bbe7bdb93137afcaa6649c2c302247;
  SAdd true 0xa2d97bddf19932b9f48cbe1e4ade30f66903b1eb541e315e27f42be486ab1375 0xb50d6eadd17d1a7e5f4db61713f36277625739430315afb7f860db43c29c752e 0x93125d13075eb22d79e9f1e8cc1db8d9171184bc1d480287624eefe769621832 0x859701d61dc8cef5070c2f158a71a4e11d71d391c152aa5203ebff4a31a622d 0x6797f98887907a081d95448008273c304df24e94bfde588fac742586e0eeefca (-0x5b3a28a4ddd178289696856e62fbdcca2d0dacc5650a3dc5b6d212df7a198548);
  SDbl 0x8e6c93babb54b6abe9202de150d47b4766bc23d7f99bc69774e6b43535870174 0xae68f059b6623804921868c079e9e3fdcf830a79e20975a067810f14cc19dc7f 0xaaf07073f44e766c8867724c9545803544fb1bace0a05ca84350ee1ab1b58c10 (-0xdc7edd263aa66034957450b31c799e42731362ab7d34249f7d1eaed244b91487) 0x4f3ca1f071dca7695380cbe7407b094043824c8abc38f2468cafddc7c0f8aa4b 0x3b20f4d4320d7eecb0dbb15c40fa1ec0861058474e1a4d264ff790e2608c5f6;
  SDbl 0x8d1a74ff8f540c858a4021c4755c9cabb81273bb1a6b04fe5ec510b4f33dbddf 0xa3b51119931b650ab2dea1d29bc9f13d67df811e0a434191c0f270288d016e58 0xe0a35c13b4a81f209de6fd8137021dc9879eb6a54d0ea7a5d95f1a021e8af323 (-0xa80844454078596a3d3974f00900bc5c50ddde40093e203aec4edc3526900ee0) 0x4dc6279dcb0a737e757e26a0adbe7c31fe6121c1555dba9ee5116760c21c1f15 0x5e62d1f362a32a39714d6e894170b1dad48dbfe12eb9af8a2dd10ef8c5ac03a;
  SDbl 0x336721041fe223ed6d3c8583f905c3d3d8a12755ed8ba30b16f9a23e5fe07b1a 0x6b602bc06f2d695cea51bf3e9d58124589cecd37e6d7b0a50d19bc0cc5af97e3 0x4549e33776efe0fbf0a5a24d83c01a2804e7910d8a2dfff549b8ebc051858626 (-0xdfda2772d5215549b76c2c39fc8dbc32a3fb76b3fad674508eadc92c3c5dca5f) 0xa5240b3449a1346177af93815ea297907de655a3d70e118edf9b390eb0075ef 0xb4f9b1cee3d96a72b4f31fafdf8017d1502cb5406f7173023f1a1a4ce567a67;
  SAdd false 0x892f7196ae0e7d9a341ee70b6c736b7843a9da50b442b8735d0192134d0a464 0xfde721a0076eebb5236bd08fbb1a8de7bdfe5864409fb33458f604a23ecc4f40 0x1d120a579ec3f90432463b6291705c23009e127fe4342d45b234f06797d7cc73 (-0x1e55b3de7f71feb3b0308493d6dfd650b1f4d3e47892c61e949332e8ac7cfd7) 0x4983d05e77899a78dc26d763e1f2b32ac6c1e9d4e2d360e41eaf9c0bb814da (-0x4e85615fec492dc3c6bff7be8d0a43715ee0a4e15bf7f1d464e134d82637913);
  SDbl 0xf8f36e211ee31be4a69da841d74e81f23d701cd171c3608cdc31b519570042a7 0x5ae9cb3d80c79646d38380fdb7048c02314c52e52d198bd58a4bbca88a33072b 0x1c151c8e9fb112d924b32d1fe13d31b77c2091ecd18c80fd93d2ef22760d425f (-0x2baedbe225428c7e76524b3f0486273cc5d771dcaa832b7373f20978b575e5a0d) 0xf2188cdb6031b0e17d572a54fe52718c4b22a5286ec1501f366b6e0174711cba 0x9e80684701e914f4aa4661f51006ce21705f81b463ce23f3d710908996519f1f;
  SDbl 0xc51a4316e6f107678548c2eacaf6ec843da033dcac5ae5044d26c8acf232bb87 0xa66cc104a4ee8204da98bc785ca7ff17e2c65d57aed319a4c5c132c0ea0c839a 0x52d79e0636093d2491ece7d3d6a0e5348c7d7e98cfa09b73e32992d011d42464 (-0x359d684b55321e7cc8a75681e91005e14cb1693d71e22aaf484c821ec40ea68a) 0x97c16df3896c4b3d0938cbcdf070f8f507c421742f03c4b259f1ca10f85810bf (-0x3a23863976e22473575b072147a5c1a5e78e109db332b5431a9fc67fd2dae5b4);
  SDbl 0xd246cbd56b72ee2dfd278eaa22e7d5d565cfb0dddf37851d77e3f68886c51d06 0x62ac7e1891eefc1d09c021580743b7d3c9a13aef8ef471dbb4225d81150ff7fe 0x29597cf960a3e3f261653711190be49b17ee97002ebb01e3d77dc867c51cb56d (-0xbc7c1878658362ad5b9f81a8f8b99d404d6af7370d3aa8d445b5160d31d372c7) 0xacb839feec03b5f0e0959c5977285be41607a64389038a77e6d7727af2a2a30e 0x37a6736a1c41e93cb3d3ea4dc3a6868a6509d160d6c75edcab84f64d2628e829;
  SDbl 0x11ccea584f64870bb0264970e12b4f36ba4ad0fede79c9b7be0140ae8c327319 0xb69b2736d987064005ba739fa8f0ee8088e08acc020c18918a8518903c3f1b89 0xba6f09f49920d8d2081b7c67a923ef6e22e18992546f2e2537b5ca56c74c3259 (-0x6c5979617cfff7a2177ba0711f84bcef6dadcfdbe22bf2d2b4e7982e5d2efd41) 0x13cdb260f0c4ce74baf888f6d2992e6f4d398b488810744d5afa5c1e4db9314 (-0x5d6083ee75f999dfba03b40ba2ea0c598885bc9606f8cf31c45030d7ddf2ea7);
  SDbl 0xa794451f017737febd94cde64f42d3565b2d09fbdc6f0de5d634fdf514405290 0xe61f3e0c14f8dc317cd3bd1517c20cfea1372b22676566c116d39fdb26a711d6 0xc559671b89e6c675e45c09b95678147d86cb6141fbdadf15574655fd03601bf8 (-0x92ae19526adae313af60e39dd21a747684b69c1e8030c397401e23d9c14d1a30) 0x6db2c80ee01fbf819914200b605fd671882c90fc6651e15af9750c4bbc84b7e8 (-0x1f1ab016c7943230f8d237994350b2f33f14b0755a5ebe0236ea3c8676b47c5f);
  SAdd false 0xf4b3e6e00eba5e552c1a3fcbdafe9316b30194d31f3e541e61623783b2389f3d 0xe5fbc4e96be624919c328030adc1cde253c1ea847a55d90116b6136cbc8222da 0x5fee7e3029b7cbbaba26326947c2eeb6df2ff28f32b9f5e1d425ffcf8a96f756 (-0xab705b351234c9d4442b62ec2de1949539c5b99b8210adc402254882172e4f06) 0xe9e76e88b386a98ba3336a2853a882a6907f38c5d99b8feb43be006c34b8d4ee 0x21e862ba65242b3d591f58349afdcbb1bbf6f065cef1c4137df65cd39b9d42;
  SDbl 0x8163bf190ca8972710fc8b9d8ffbd6b2886a28d8ac1b2d6789be7888a664785a 0x3adcf2a15f120c1ff70250ba26a458fff4a2da8f29107922b863c46f7719dfd2 0xb962efb87049f8d2f9ee7232bcd54a9cbe6422d8fe237084addc077282063a0d (-0x20adc14d73de019e4f0b7f9593dd5f0e25ca923e21eb67870f5166e18eec2a38f) 0x4165ad74dc2dc3862e9d79bb855c1b11898e7be3272269b8847d3825f939a5e2 0x567d349eb42d78af96487143bb6c8c302f2ea1e04f7ac0a7e75b753d6769e093;
  SDbl 0x60f4dff19eda7f22d5fe26295ce2c89d808b9140698e9a53dc1577dfee4ee2e9 0x3b47b6f2193c25335dd4e0411c51f258ec8ad426e5d0e504b784a6b13c73f19f 0xf3ddd22a17e128fbfcb123b190590b3fff161783d9414a4de768058271540cac 0x63d246d2e06dd9f3ca3a14b80ae65d7f158b4ff460c9886db6d26606ea59f91f 0x24b89231045a18daa2b521c5dcd5f3422755ff950663370613d77969df8b7932 (-0x286fbec8b10bb9e8c765cf562fb5a4122ce084b03e7566aeff4a63e77e8bb2);
  SDbl 0x5ce84f227a1befd7ce8f6e574d32fb0522bed100dfbedf1cd138ca1f1b16d23c 0x9462bdc6f5f42c13982da769b91437276c65a5c99fc61416a36b5cddf13178b8 0xf980dbc6aef28d59fd1c5fad3da49e8aa7a9fcf4935f311df229406959a4fa9e 0x87d3a0a08e94a62267b4ddbe14153744dd999ed5fc84b024740c511108f421a0 0x21b7cbb0706f7eb82bbe847476c5372601218ec43ecbff1c8a093d56f322dde6 (-0x2056927e27c3eeb5951cf00aac6f68df4205178c2f85d228d5febfc620a2ccda);
  SDbl 0xad6bd985ca44cfd9920159375c843a25d10800fc00532f25c606e134c35b5113 0x31b1ffe98ec107424df03e52734dfe07037e4d591a64ce6c219cd9d89268b307 0x4d96497ccd5d5bfba4c92f48fb5a6ebe43120b24e070e0dfd815feb5200bbef4 0x50036e381f1c2262b811aceb639d178f8a88b16b229094216865bdf908addd49 0x757af16ed7871eb51a6c7a84ef265a8cbe80937d9a48f631c0deffc6c59c9d0e 0x42db0409a1e003b0582b21292cb203f2a325c0e33325a4e6e7ac79d2d1520c6f;
  SDbl 0xaa52db57e5d73ea81e2070c668dd567f765acb92a92ab1b137f6f9a5c12a3551 0xfeb4f22050d75bb4ab2d64b2fdc2a2efdae8480ad38c68efe47bb0c12a929a3f 0xc68556319964f7110c423ac3b3fdf96722726b572ed7988729fd9816f109b14b 0x4a4cf3a3abe2122a220c65bd3fb70b2fcae0cd101d3a892e22ad7c5018188028 0x715226226ed2c4aa26642c1cf763f04f4c4b1641ca5c695434286caea3b55cac (-0x88664f72641879a432ccffa479a72e409886657f8461a370895434d1f599cf09);
  SAdd false 0xd8fac33dd4390646ae253c0c9e4875a893530c88a0b931413783bbdf87a061d4 0x9f631cc1adfdb7f25b8f8252cbe7a1ec62123ab6384951ffcd728c4d52a20e54 0xa18c8083825f87c733a79ce96ecf9d0c4e063f46764a11917c2e86dd052a99f (-0xacda7d82585eda359e22ce08ea0aced20846d081545086830d4df6d004fa228c) 0xb7e81f1af7b219503248397359501862865d6f062221ab740c1fcf97aa1ec5ca 0x50ca6aa4e3a9033475578c50f9182c70188fa3a6e91a6bf8f11810ee6944714e;
  SDbl 0x435c0b6724d854ff620d3beab5fa13dac9c732728973e3ff5c8569a38d2b3c67 0x794560b70780b5a346c485a25642a803be162c718bd6a995f6a2785500ff6d5c 0x1f03a5caefb6e4487e45c86f3e61b0b7f003ffc825e4d71c42093d6c0fd706fa (-0x1246490de5288a941c3884d15f33d8c1a7d49bcc3007a8c5617d9d838aa192345) 0x11b94f1041a70dc449385b499dba363aa0093c5ceb0812553c0d7feed7691893 0xa077c9909f58ac0dc88ad004b149f6e147720a1b5c7592e984f6aed4858ccd1;
  SDbl 0x761fe9d723232eafdb266e13642b766a328a42773532ce2b03a944d1ddb841de 0xb4512f0f1511ed15552207df36083294546784936d1d6a8e368430c35b833004 0x1444104d45fab26b2a8c0f4366b12250758716e307e3d90f455b74737ca19868 (-0x8fb8e04d74094d6896bf58ebcceb25dd128c8a4307b91617390808f731dca26b) 0x36816f8d0299b3de841f608efe9bff5381df6b564ed1aab64ecbfe99516f8e38 (-0x1b3ecd7a0bfc8c82d46e5074e0206c6df9c0229cde9e04309166008b9017eaee);
  SAdd true 0xd89bc683926bc5dab6e40e0077a89ce8fc36d8a5d8089e5a19b63f3a47a8b4ed 0xf35fd2582fe4e3e8d2f2008d73ae6aa0409cc69d4357f0ec3a48d5444ce67164 0x542da425adad9f22086a8664b73ad40b0102208fb1a3499d3b91ea556bc529ae (-0x6d9d61473740138a4e23ab318b1a966684cd607d6304d6141b1e97c5da0d6c4f) 0xb7473dc8bba034494b346fdf731c475d21a135ead86503bcc19da6a36ec7f2c6 (-0x355ab8887c18f4a8592ee65872c7d4c735ccafa8e44b08b10ef74c194dbe380a);
  SDbl 0xcc2f1dc5da89164bda0483dbf2251d8ab1190f5c11b1e39041b0c708c2e95b43 0x2cd704cb406219ea868114a04da060be345f0670357a0ca97a73ac165d35e890 0x468c17644fa8bd556fda3a6b50533a5716a8bc7181ed23e8579dc2b3b1dcd88b (-0x22fd56da307aa885f0c8995bb4fdc67d273c22b35bced718658caaa9c35d537e7) 0xa2db201fe942466c1d2ac9bfb11bc92ea2e4c7a0f5e36867de06f5662a8417cf 0x9e598e019a1fb41c0e74d981d3f7b958794b898416bf1c44b0ae8fd270d6d6bd;
  SDbl 0x85cd6e8d29552f143fc4ff41a0cc4fa45a7750df452b22e2473f20d727fe3f2b 0x1a41f4fa067ae86a760e57160e58d122a4c767932eca99da73d0802eb492f4e6 0x97c7108f219fbd4b0d6b1c4984ba5f7bd5b2ab64567a55ee7bd48282ca29b39c 0x322eeedd51f3180d3118290652703f295a927b00309e667b84267d9dbc16ca4b 0x45ef19b930b36c6d645be7b0b77131bca3a5c95c73671f0db4758a60ec1494cd 0x9b65a9bb33c8105b3dc76316d19f95bfa27b20e34335f0c978bda3a6604c899;
  SDbl 0xe589d433d5e112f66faae8847d8d75154398a182305b1db63bf28264981a0634 0x72c9e31f71f51e16b188045cc45051eddd46475375bf4f33f87937690b62d05e 0x717e4a1c34d427a2a711cd7a9449044a111812acbc93a1d577cd0e50fe93cc14 0x108192e0cadab49db381ff5baa6af1dbf084ef7ce92918daffb7a7ff940d17489 0xcdcfdfda59d55b693b26aae71d327acad0dd030c0b10468190c9a52371d23f9a (-0x4f614228b8ce76345a451e67ab788868d6a86e677370c4b25040f2fe2bb51bf0);
  SDbl 0x4bf0b2744e9d11d3be4df63e5493b8e162cfc640e4b4f9ac8977b1f4384194a 0x25ce3c77694a711087123689473425b4f2ffb330aaa50787c7dc29395d71bef9 0x8151e7f892eb98916063470b3bc895cd1b6dbc229240922e0697af992621cac8 (-0x9633f1d4c9a32f371721b272a4e16b34408a8b7e747f1f9f73bfc328273b3c07) 0x1686eadf53104bfc94dd8037974d35b80172f8380e472ce768f2b8a167d651 0x16d61b6982747ebfeab88eb3dc857a4ff8977b0512601934160920feb3fb2aa;
  SAdd true 0xeead4cdbc3e8abea40258f9cd72cd4dc12aeacaee71ea4daa144f98761fcca68 0xde2da33296ef347c16572e9186ffda7a991003282cb7db2a98af469b66462a34 0xa1139c537e3954c7085335d2ce32465df045e10499df8c41e7d68e1f6687eeb8 0xc15e4252ebbae346ba1513a867d606eccdb28e6d1fe953b2633644e8201be28 0xde86b03a76e551554cdb5d5ffe36a6c46628b899215c600f3ac860ac0a3c13b4 (-0xabe58155b607388ed74bf7f5dc844c5542235aa01f3023d5b9c85aa4575a2888);
  SDbl 0x65a1fdfe23690dd9ec810ce4037dfe9e9f13f5776e5861b0c341911269b803c5 0x8563d82031d998fba8ea8cc4de8e0b418dd9b65804c8d28ef61fc7be2e75b77 0xd3e2ff396fe12ba5871836b4088bda3295faebf3a87d49e0310f34c7f3b3fb17 (-0x1c29439e83e4b9b723934e22e138661106bf0c9223221838a5bc5c857731e6783) 0x285938ec25f2f645756a6391eeb79d3e27a0c1efc603629e9ae860a1aa357a46 0x54e54bc01c0e8fcc6ded844afe72d69fee4c85b99547a12c504474e309029b5e;
  SDbl 0x5249a47c3752f7cbb93b082ae2ca6a39dbb3a31cdd880b6e53a0e953ca98c89b 0x73ce5a74df1e0952256ca19e4e107d49f0855dd6038f5b6309cbd46caf1fb41f 0xadc81bf8336fee2ef79789f27642b2dce95145c6c91111d95cf0483d025067e1 0x8766d08ed1591c35cdd2989f9f6b3ddbe0bc25bf5c2d61a8a39dfcfc1cb97616 0x1a73428ee66b59c6ad16a2b91a714b38a8b50e1735d4a86e883e1b1f03abdd34 (-0x228b6393463780ca1fb02e72aeb9761022d49d86878e79722b2346c22adaaf50);
  SDbl 0x554d04075885efdc7e21020fb26a7291a41fe5fe883edbf3e90eaeb2c2d0b866 0xf96336a81a844c49479936472f692a041e6960692da28eb1792f8671b55b87f9 0xe93d7a4b8e205a3d22707812ff19b5704f8c3fea1f80ff750f743b2b4b27ea1e (-0x2959b06467690fbf92b16bb9f030579c06aa9649a1c2f07d097c29e8be4d640c) 0x1c6c3bd869b0a8ad4584d0e18fdea08fdf914958e7401b417c7317cc51082793 (-0x2c829cfd935850810938a7d6ab4d45aee4aed6068afa11de179d1160e14c9525);
  SDbl 0x59069f8e4116faace750b2d0a2b2aa989a3467c9b12971b1bda9268a17a8330a 0x9e892e16847180e94908b50e88920458dd24db69f1b317f157a5ceec2c7adb7b 0xc1b8b481288ee4fd2175233130875edd3bd4e1f7af54a3d10c68aab2238024de (-0x2369da3ad5d57867eca01b6aefe50321265e6aca90fc184a305f331aa4a0a8dc8) 0x1ef59b1ce654a663b0b32703d7e570ce51911fe0e0f4db95b0233558c3e4ef09 0x1f9826b6d78ae4b2e29982514a3a766abba1e1bc9034b232e6186d84ced43810;
  SAdd true 0x7c6ca61082ea277046662974a8422cfed79a4ed12d66187e49889abd90b3dca3 0x92420bc56c7021cc5ddb79db3da5ee6d854073c7a3f7d43b3802483d04bdc334 0xc747e333f8ee8b83bb184ad34e9f8a9b5730555065d97bcccf8c84066ebe916c (-0x3460eac412b0a3563fa8c17f90e98bc18d0f2deff3759f91fc577f89699c1fa2) 0x3c796efcc4f4259b1b3fb3868a0a1b4d4e1648c714b2c9e03cffa16eba6a83ad 0x5f7aa98b2c88a37fdb2b7af0276ecbc6030b7810e2f30e740571dc0da563d15;
  SDbl 0xaedd9f341fa2b4fa358319ad8fd44d7610c0faba22d07a37d6f9a8850421373b 0xab5ad47c08661961cba695e0eea9eb4dc1751e18bc57a3f8b3d3adc0bf6f7f0e 0x65ba9ae6cd11aaa1ee1518c0de1c11c291dd643a13c1427b77333aefd605083f 0x15908f6fb04d173d2407a489761ff41c92c0464ec2a0044f79d14a3082b557e5 0x7772044795739b21290359c02aec98b801dd33fe2caf87752c005ce3a7ca9ddd (-0x1124926cf59687bbc9f7550a452ddd802a02bd0f7cb41b4279a10e76e5d04517);
  SDbl 0xc77f71fb0381372c57c8b75f31cd91366ae9ea77df67dea47d244ab63e82a85 0x34d71608d9d37693cc3e0d4212b3f30e9796e40864845826b1516810c90c1e9 0x42aada91a839f6ad8359e0ba4003e47b61eb2006046ac51ceae9717f40853c52 (-0x14e2e91dfc29e20db5b452105ed27e11ee637b297b345cbbec5ab05a4c0868f2d) 0x9b7762a724b74fdac554150dbb51f7651fd37dcfb196ee54cb98e4954fd6ec 0x82f61181ba366b1659cd478f27cae0f31b5c9ceffc470488e013c46e541ee58;
  SAdd true 0x31d02cdb1c73aadd6097ec12c9e281889a3ab25e1aad0f2ddbf8aed51ffc152a 0x31eac184f895d5c3e5726a8a2672b02028167b87d61020c06d2b3142708e497f 0x71d2371e27e277d19bd749b7cb2ee6f71be15b5386f1bb8c9560f857147f9dc0 0x93c6bd58435e6f7b98dcebbee796e8fb686d069f6f08d231c3accbf2bb525e2 0x9b15a74d67feb24b102fbfe5ff8e70e5462591261cdfd2381fb380ed7fb954b (-0x91204530eaa9ab9133062bff954825f3911a9e611d73a7b66ff7070d59b9952);
  SDbl 0x5c183794fa474ad3688ec1f41d3f18b595b0634f43acc8642bb23aa0be197355 0xf722431b5dd8e4476c601c2e72661b9f81315fc98c8553dd4b0284848b9c149c 0xd14b5f8049322e7b677ec1426c6e66050df3a5317afac36353f8b330e3a533f3 0x34b1806342b3b4dbcccf930005db9e37ec8b4a1b23d9b96b3603334e25ffc580 0x21216a3dad04efa0a113d32a2f9f889caf85951c69adb5227fe86f0f86292d61 (-0x46f29a982b2d8d63773da6646febfa1cb1860474026eaa31606a98257e33b6ac);
  SDbl 0x56975293ce636d3a27721c558594ae1b83ea563c03e2877b7e501ea59e3065b5 0x56f3bc284a8de8b118786fa06ea9e3b28369d6959458c920abf9deab2225bee6 0xc480fb8c266e9d3b23740bedc583ed0b6ccb641347d18a191e859279c4f58241 (-0x23e2354258847eb68be000f55b7fef9c7438db5d6ed9fac827f0e30d41a5ef671) 0x1d4a04edf0f5512a3c9d6146c784ea19efefc9cb1c38a67be0e599b081159625 0x362e5072db1ee2e1d5d42e6ffee3adb460ab8451137636d31be6daf301ff4e86;
  SAdd true 0x285162d60d277c68105b4c71d4a3fafa8a1420033ac344937cc70c7762c26 0x209dbc6c6478cfc21aa6e2d633045e50248550af99686fdcfeeca6d895d0a292 0x80deed6417199af113a741d13434fb9ce2ba198c9013a83b9f8413b1b79c7044 (-0x5b2db0b1dd2fcf4ec8145ea56d7612a4c13043774284998aad2793733d07) 0x65988c29c12c7ac14fa5c90fc745b9bc004d0fc81fec0aa9d1c9dc09b 0x88eb625a98a435c8c966da60e1843f7675fe98efc3bd207cffcbac594e0d;
  SDbl 0xf9dd4314025d337884718341ea838517d1ef315e6be986ffc583427e077551ea 0x8ac5bb7e099403fdaada67cba06ac5b3e1a41adcfec88251ebee5cfc6520c49f 0x6427c3fe34480e182e64d5e80af2d4f58836c5f648e68671c33ee585ae78b5a4 0xef18fd59160f07719dde4f16fa49b7cb1ae41831bfb7c4f8af6c33cc9a470d79 0xf3e02bbac299099339d93dca82483edc2ece4c0e8117edb71a5ac016caa81fdf (-0x679ca770874c272f50f4626f4dd3fc52e9fb5ffb9044d8ac16232880d4f49d36);
  SDbl 0x6ecb140dad03ebc46a73a939a5f24383d57bdb74a219be5ee017b60e69a4ba3f 0x7cd9a59bc356257fdcad44ad252425e749abd454f7ad84b6fe7628995464af57 0xbfb0f94d621c5d5c3d332fc073b117c0a27b84389064f655a52e983031d43546 (-0x8afc416a49bc11319eddd0f7e95b8f021f3695326a008992a78e15ceeb302678) 0x2ff32654bfe50ced190c3514bee2caab3a4788b497011b9d2c9264e7486e9d14 0x6067cb3cabe50b83f5e7937e5ba3f879ba755dd34ebd38be5926803f06d5e32;
  SDbl 0xc48a9a5db1ed2bd998ca859f3b3fcc22751a97fae446bfb4becf09cf499e43c1 0x7d2d160db0c898ce6b855ef52193a9e114fe8e5fd5f5ff5d03d9987f9c6ec8b5 0x98561db7fdcad29b8e9fd77a837289705333c9a680889ab82f6eee3003021e31 0x6fabdb4dbb04e65921e561710dee4036b740586ce326bd1ad58cb3b1bfed3724 0x96e4876ad970629f6cbcb3dd18bab43dc35284b530491dbbaec721187f0d8fe2 (-0x400f4427a40f84babfde8263366d181499e75da27b7def7865afaf60e4f2ab);
  SAdd false 0x6c10e34ee79c0d3ed4587ef86930751a8e68866deeff282c710a0d2cc5e8895e 0x751ebfec372a24f5a8299435c7acf764cc13cfd9ec22796ca42204b3d31fe1c8 0x8d505ddd445f699e449af10d91fa2f6eb3b776e243291c0f2f004e589e17a6a5 (-0x1f68f46b4a36297b341ef22ee089fdd05c6dbe86efa1d568507b97bcf506df6e) 0x2d9e40e7f4bbe6a753e19abeab437f83546d0506b43ef9bd231b67c8b2c560c0 0x3669462b6d4cd135b778c3e908b39acb328576d6505dd01facb0807d4c424d0;
  SDbl 0x1369e42b1503ccad3527a0c3e406fcb72246dd34c0b9917e66142dbe5ef9d431 0x216a9920883a2c78a96bf9f115a546a048947a3358b52c9d788d652ae58b701 0xa658a379fcef213b255b095c15fdf086697ba5049e6a721af4ab3754fc7a7239 (-0x8b50879c5d46941b0ddbe91d7b8f7aed2a30a396b0833c010f325b8a99558e6d) 0x178e3ab5d4b75d9ced9daba0f7d23298c1e49355e7cc581f978415be1654930 0x8b92e8074e21e0d56f2bcfc21830361bbc27c6d2c7db53668109080f3771cc7;
  SDbl 0x53c6e37f3bd0631d0f3b394b0020556e37a5a186c483b4d6d2281c6e7beaee00 0x72b39198eadd5eba3d07ee3f45baecbbe59cb450409ed97e58f1846ce14f6f7e 0x27cfae3fda5fa0dee9054ab0e7b3f72d9b0843aa6461368fd6d4077f70d2566c 0x6cd2dccd5a786ce88613b45452db7c45adb5a7c79cf823e5a4e3006bcbf14e00 0x1b6a92094f2f1bf76e84a9e36f9937aa74550415abfff1e58a1310c648bcdd80 (-0x24da5ca8ef7590af6b298078193ee3fe4bf333758ce0cfd4e87c53eb81ed015b);
  SAdd false 0xc742d39dc444e2aa4b59a9224cae4e99a763ad1c3e893af47b8789f045d6140f 0x2e17d529fadcbd88e5ddadd490bf89af40ee07bab883c724f12238b0e07d5b29 0x229ec5c82f7143c03a39238f1616b538e5d95bb622b808f97d0373dd308a9df (-0x31c36339b22d6cdb69b4c641dde1fad3c8a22d6a932eb170a83a82d43c4f4a54) 0x9b18f671ae82b51f30133f01e84c367f8ca7add4b9e81f2803b13eb15472e68d 0x3566f857aafd080a66e4d3e9c72b4b0fc046ebe4c6fb8e206a8b42e0e5e72b50;
  SDbl 0xca3eb175d45e61f50c01185d53b4b36cb2e8d1b7d95c55fca7dc77e298cc8c56 0x187fda07573ccd7cddb58d9e7eac49d885ca477bfe33209f95af2065f871501e 0xd46d16fd59b4d68b84066feb82a4944b973c3b0b14b94310165b9ae6e1ddfde5 (-0x157a8028e2d0014ef92cd8d02295a59f92472d6d79c30657adf7ebc11b858424) 0x9fc6ff690302f59d7e8d5a3901dea2c71e713f7fd7fd31dbc1504bd9a36dd98c 0x110f35f03d91961663d377725a9bc9ec9ee47c7c0a188d5e1088c536d60cee12;
  SDbl 0x6da2cbbd8cc03a2fd39dcbb91d14c45f59fa1f1c4c3b8c6d09ff571138a710cb 0x79ea87ce201df070c2481bfe1ac75685f35ebbac5259a322ce3fd95f1ea4008c 0xa74789bb655bd39df1e4ed1c533c45cc8100094978dcf6d5f65aa9e200aaccd6 0xaeea6792d316a1ea99b7a6791974ad8be684fb49e7e85cfe7bbdaba47419015b 0x2ef4090616dc076e7318ced648a76822d4b5f8d99e36dda71f1060d555929fcf (-0x29b85f077e29c39db32eb57166dc253e68120801b7d1e3a0832f604b807c6e0b);
  SAdd true 0xdccb7e22332a896c1c67a99b40f6e6ce9f3a153ea1c9b1deead08921c4425e39 0x2c2bb6d9af0ce4ce7dbebf5b3b31e883133704fc8084f8a09dcb2df8030f621c 0x382f4a063f6457bcc829967690f5c1fcc28b27211facd049526661a0284852c9 (-0x3d5d15192c10b41328aabc72015e71e21c9fff9293ea80a64099daf776d66759) 0xbe6e628ccec2532411d6718df0c53aa9dbe417806e2cf0ea545a4eb254edeebe 0x430dc83053c8157c55ec272f74ab9d7db3f1cd694c9b8cf75431c35dd9ceb8af;
  SDbl 0xd950833d3ca68c26d22a93c0126eac5320737a1e71f0db8adf180379d3147915 0xbd5dd592dd5f36d4aae5ee3510bd2c0fe8a32294336f286b5512ed3d5c55753d 0x8bdda28013146f1745319935ecdcf5eac98813e0d1df61446c9f44f7e54e5618 0x488657b31f1a93995ca9b1308e1dd2fb47a5ca810d6619c3c9b5fc4aa71cc233 0xb87997d0d2d9943aa49620f698f942e88f901de9c522ab0f947d94179fe75dbc (-0x7b4126246e73b16a369f259981bf6044492c84804d4c9e80a63fb8aecf0b2c6a);
  SDbl 0x618b819fc867f68b92ed555cfedf75b69dc0e732316416e909c4be6284c65a7b 0x113db394bbf6e991f4036033973f27dab9bb508b55310d6a92af3aae94964b5d 0x84e780a161d3a16e816e5da5b5f2a4fcc88af48a0f9fe2efa865d5bfc3aca9d7 (-0x139a4a9c8eb4d13bfa63dcbdaaac0aa90c6fa8765d71ad95afaf48e30a2572978) 0x252b0441402fd9b01598c9015be644166327448f8a946001af7413fe5f027ebe 0x4195f97ba10fcf511a8b0babb0c479cad0f3cab9fc641003a128c6b29829214f;
  SAdd true 0x85a33314b25f6fe0c19201a8cf5c2c4e311bd034780320c40e615ee5750be569 0x6ae848c57c53c7b1b5fa99eb2286af078ba64c64591b8b566f7357d576f16dfb 0xee489d771621a27b36c5c7992062e9cd09a9264386f3fbea54dff69305621c4d 0x11807fd2e039ae2190745f6dd83fa2ed63382afe262661174a5c4eee183c784f 0x45c2fb1ddda68ba440c4a4b2f78f60f7ad2dbd8b3706f52dc4a56df3c039290e (-0x2ecec903bc4feae62466ebbc61a5e0fbc919f6c5292db5f04dfd1a2c26ceb10e)].
Lemma kdb_pt : pmul kdb_k G = A (kf kdb_x) (kf kdb_y) /\ xc (pmul kdb_k G) = kdb_x /\ yc (pmul kdb_k G) = kdb_y.
Proof.
  apply (replay_point kdb_cert).
  - vm_compute. split; [discriminate|reflexivity].
  - vm_compute. split; [discriminate|reflexivity].
  - discriminate.
  - vm_compute. reflexivity.
  - vm_compute. reflexivity.
  - vm_compute. reflexivity.
Qed.

(** The initiator's random number. *)
Definition kra_k : Z := 0xd4de15474db74d06491c440d305e012400990f3e390c7e87153c12db2ea60bb3.
Definition kra_x : Z := 0x64ced1bdbc99d590049b434d0fd73428cf608a5db8fe5ce07f15026940bae40e.
Definition kra_y : Z := 0x376629c7ab21e7db260922499ddb118f07ce8eaae3e7720afef6a5cc062070c0.
Definition kra_cert : list step := [
  SDbl 0xd6a6796a27dc312621ee1d7807d53f6f50deb90e13e36666ba6451403bb1c3b0 0x56cefd60d7c87c000d58ef57fa73ba4d9c0dfa08c08a7331495c2e1da3f2bd52 0x31b7e7e6cc8189f668535ce0f8eaf1bd6de84c182f6c8e716f780d3a970a23c3 0x11d6cd80f81a9b5e9badabd304c2519d600d3f8b4fc759d131c1e2e5c0ec83c10 0xb3fabf3fdde018ae8b11c6c6c230d119ab7a3586127dbf7325ee158cbb960de0 (-0x1e380dfd5e1b5e2882e2747670d8a7457ae3f364a6717b3578c57493fb0d2b0d);
  SDbl 0x17e021789ef1ed9ec506f9ba33bba229384f476f5c75b6707bb4d0c32e74636b 0xc239507105c683242a81052ff641ed69009a084ad5cc937db21646cd34a0ced5 0xb1bf7ec4080f3c8735f1294ac0db19686bee2e96ab8c71fb7a253666cb66e009 (-0x4f09124c394fa03cef9d066ed39ebf371ee29a6771c9f23670d82169e1bc2c39) 0x23a0a3e463ffc20684142caa30690db7211c7346977c77eb50b4561c8f25ac0 (-0xa04988a7d8bd1088592011163b1877b16a3712bdbe2746cb993e93b5aac0173);
  SAdd false 0x8b44581d4d53e663b699a7a3a71122775d7b986db0934f2403f1a8d03c5bf281 0xa97f7cd4b3c993b4be2daa8cdb41e24ca13f6bd945302244e26918f1d0509ebf 0x530b5dd88c688ef5ccc5cec08a72150f7c400ee5cd045292aaacdd037458f6e6 (-0x4e0aa07754eb005b5632510f6f0b305a24b189decfd7ed3860c8e34e3904339c) 0x4bc349ef0ba1a33603a7d51afbedd900895eccb5bdb6e74d970908f572cfbd5a 0xd737fc4d8c051006415aa0bae857fab178d8da715a33fea69499d62a610cfd9;
  SDbl 0xd0f22a788c3807331c3b6f6b365a1ef8688175180f43a845b3a449a3253f6f70 0x927afb57d93483bbb17c93e71f22a3105ff8856a66016892c8b1a1a3c4b0d30 0x150c6b1ab4d1fc7eac1c0ef6ebf2664581adf1f0855a064dd572103000088f63 (-0xc91d215f4ef9c3c22b352023c68ea4d0f649783bd2ac36f88bc9850f07b685c0) 0xaa8a6a18e15a567faf8d253d944b2de9d7a7554944a8600ce81c1d6f7349f9ae 0x82df0443af0ec254060cc89ca2cd3ca3557b2709495949cbbb64453ecaa3d6b9;
  SDbl 0x3b705677cf931cb9932b48066b31203c7eecff748ebfdc1b7d798a4699cd091a 0xbfc2df6bb17f971ad89058ca059be46e5f7b516c5bdaddad9c9f042d0279270a 0xb145513f59636106cef696b67939bd7b73c9fc6fd150aaaab5fbf87b64af3c26 0x8cac0eeccf6cca596be8360b0d44759cf4bddd701b83dc7f4aafccf1a09a4e1 0xdccf9270d8520a7341c7a1f321c50da8c8404ce42630a0a70c97d10d3186ac6 (-0x2a65e591a04ee1732501758c3ea548772c830cf69ed3b0800142b27ade1eea53);
  SAdd true 0xb5875e9ca7d3d4ce095ea7e3944e9a9713dbba995ac78a00f7d7ac34dadfbf6 0x952072d6ff9c65bdfa804513275f58aa7bea65c6421e189e2b834f1d509b9cd0 0xe6bb9804458bb70f1a473f8d9748f23858d1434ae934ba7503891e105e009b00 (-0x63fa46f9ec6c7fb44e67b69f609b8c2255e877e1dce1d7d8a68ce30bd734e24) 0x80b8b35ef23aaad145411ef86269452b108c3973535c72147a283f07e8e83d 0x1e3b622e3d36d2f7118b495a7da72bef262ada88ad5765fd651f29ac614256a;
  SDbl 0xe716331ee5c58315b6d142d568b6973b5da9dd45e1cf948f9a5607d07311803f 0xa0a1a4fbeb476576bcf26fe238a102c273783ef304251e748e6a9e4fdf895290 0x8dfdd7cd150d25640d09c3f281d4c41cec73068587361b34e54f7f3a4896d9d3 0x9bf2335b5678d62c19da8e283e1ada183efb200e32384765d13e85c6567e30fd 0xd099122f66c855fa7931bd652e22ee05ef8017a12e113fe9c9f0a9bf9e237caf (-0xa6293a5caaace88deaee374e7c612fe9cadc5b2ed609baff0756b5f0048d0ed);
  SDbl 0x38e7ebe3d514d024ed7aaa06d21554cee2515de218192ca1dbd1bf36dbe39e35 0xd62fed8ce52682d620498d04f39cdf59109e9f4b61c6f6bd869252402e6a9f99 0x106309c4f4f41c3be63d189ea323c1dbaeb47ad53e38251358f3f064c341c481 (-0xef3f08b27b0f548f8392374b3d6f559caec493db779dcd4fc1667dd48746f261) 0xca6494f486603e6dd58d333af7299ede11a6f996a2468867be47f734bb9cdc0 (-0xbe7a49c83bd1653e338eeea9eb121d7b5afced72a756d156b8c595d8ffbe0cf);
  SAdd true 0xef6bf30aa753569710fefd8dc5487aa87651d8153a7e41c23aee0921672e4702 0xd909bb3be4c02cd84cd09b8e39701ff16d96e2a601b93c0e828cc5c0f20462a9 0x10d8c2a3b3396bd85bb65608aa16f24f05977fb39adacec75eefa9a3ec3f9511 (-0x98d609250958745e34431b49a50cf7a99c4dee9d7d7cbdf7e692bab41e2f403d) 0xdfeabd53d5fd72c6004529886fd7e97849bac1a4a7dcc6d4863ea5851f515b05 (-0x2aa8ac4380bfdecd92311e3c950c0a0d3bce67894e5b4b6b2bb1089a751b04e);
  SDbl 0x12c9a5dd86d324f38bf634c29bfccf2150efac5b461476ecb36f645615de7bd6 0x3e0417206422ad1bf56d0853313c64ec98999ef103eca18265b433a8dfb5ce3d 0x63a185e898896c4a60cabfa0f854727802876cabef2d641ded5571f713fb7ed3 (-0x2258b79cb9f3f7c12ac17a395313c53fc44c01d2ff0a89b46ec7d98eb291e13bc) 0x160fa2909abb2698cfd9233b0f3e58dcd033efe51b145953f2119b6a4af3cab 0xb6081689c4cc59d9ecb4b68b658f7a3ea99d15e3e180d13bf750c165f931d9c;
  SDbl 0xbc19a1dcaaffcd45d7d1a404b44fe370e765098248a4931d7a96778670a12c45 0x9d586c02e7d849803dd62d9029b2c9b5d833740e0435e67f82116ddf8aa5f946 0x49195c1ebd4390dd310fe9eeb979f658b714a37694615d34053549bc36234aa6 0x65573e69d724f046e3a3371d8c3f9c5ec7556469ae57ecf59e3f37314ca7c9da 0x8a35a84da8ce110e6f8186a35a41375cce0acde2ad37d0a7b72deac0339fcb27 (-0x460b79d91e6c5ebcf3fc149156ba9435d6a81351544c0c423c2ae49a5b17111a);
  SAdd true 0xe4ec0ac476b5bc2a2f6afee444edd9129481711840de4a96ce05ea784e6091c0 0x746e85d2c5b681b8b4ff852a39a579ed3c0aec86657896d5f8eca25389e4ad62 0xace41048241012e72ad734a81d0852563b5af8c711d7552ea79919f1fed354ee (-0x5f4dd9c23c0c52b4077d8a5d1e82a6287b71713cd5a5a6a3be93b5237c1a0bc6) 0xccb54cd29ad7d31cdd1d4d30e62fde2df6ba313decec257d1dddb47da4dc0b6f 0x24960a5bc066912988a580ec0caad1111c9294fa62b3888fffc245c43a819094;
  SDbl 0xa6d10730311cbb09d36901cbf260b267284be79ac107160f7d067b89cffab243 0xd1a3ce1c0f5195011e9d9c3fb769312bbb9fd4406b8fff4e68cb2a33c3e04b8a 0x9a0f5b5397d5bad292757241a81c51dc7b1bce010eafc8144566378fe74e6c30 0x4275103b18f8fca75efd5cd2f92524446323dc4bc8d6fc1b241fdc4c86675ff5 0x6cb3bfffa948df3bd3ecef177c79b8f92b2ee2153650e40466e9df5bd6ac68c5 (-0x3cbca7fdc725859df31bd03335a8e2d9a931c9f7d1404957e7d9467b2dfc0a6a);
  SDbl 0x3c56bcc8db4aa3d8918570e009d6a09628f7b6d5896e2e7792bbccb825df4357 0xbd8be7771bb23f567c1e03b588cd0af4c2306eac631369843503b31c1e972f49 0x63277acf6a3e4fb2a283ab182d10b29952212d82b97f7c3487608a27f8f57c82 (-0x1ba6705b6ad0ee553ef0e6845112c850cfbd1a37229bd1608e8c0380b14303577) 0xe38c5e1972eb8823205ed4a167e82115dccb9da24caaa3d1fa246461d0f1ecc 0x4bc68e77a833a5d96d9552dea7fc680bd7f9f9d9ca11e3712ca71ef90674b9b;
  SDbl 0x3fc51cdc90f0ef71deda9bdc75eb991c4a9fa59ca99434e1c84bc9214f21a1a3 0x597a9d26f351533590b7f897793f933bb6482a8b317e658702b15c856707be2 0x828f6b7c55dce67af5d6966c633f09145f2d280180d17573038b312b5bf8f055 (-0x173a18121fdae2210679bc57d15013517a36ee5491dffbfc579f582b05e2e691c) 0xfe29bfa0df14262c36e3c25f0c764d0a9836ec9005a90aa25bd13cce78a6cab 0x2dd2bedc58c7c8a39b8655a72e0fc3215f6ab55fbd1c8fcca0772079a42f6b42;
  SAdd false 0x67befb1a58c1b600dab668dd852b29ecdb7ae035002a5e952d89a149f3e3f659 0x70f76d6ad3f34498277c54749555828d9d5c3d2432861e395f9fc98b2e8a8755 0x9779bc04abc07e5df78a9cf37a1c6e6ace7b985fe9e8d181df0714c3622e030b 0x124ed0792c244c88e442015281b16dae89f1f6f9f1c0892408d30b0b4718896d 0x2a0b3c890edf8949e9275d3276dddb417d921e649f68f52b8faa236ef3624d0d (-0x2b83a21798e15f5651da5d50c651c0a2b1a0f419bf81afeb080c10e9c9d18fa5);
  SDbl 0x63546c430cc7455df817836eafa855671065eef2b2c11fda454af2aa3224d5e3 0x832d76bbabd61a6e0fe86278213a1d6af6d2714acbd55423fcbe46d2ac2ca667 0xda320a5b43fffad38dafd9eeb3d3b25669421f41af2ed50bcb9b6af2dabfa98f (-0x20003d3875b710618efaea3e7c7efb842a12271aac1ef51da4a6d4e9a4356cda) 0x268a67933c358e57433b6f8e8d14cb55de7ba87545556d366fa2339382b62dc8 (-0x710e708ea0fb6c547769dd2290497522ca7f02e8978a88f8c44f38b95eecc70);
  SDbl 0xa7f460dd05cba9cfd211b78879a3b62b3596889ca5bd2530e5a858f5692559f4 0x444c6a44fe57e6cc5737e0a097340e79a56df960d5d0f0feddfc5f088105922b 0x2b1f4753c8a6791e54af448605edacc66ba5f81b6142395531b2c0578b9d895b 0x54a72f405ca90156d08bf722b0ef98d60600b86c0166aff8377209e1841e91b8 0x6e30bfa995ba069e2f163adef49ed4d094bbb1327b4c2caf24b35668913b4e69 0x2940d56c23ec344fc32605f10735f13742c889c04025a9a02841b43a26690dba;
  SDbl 0xb84ce23a04afa337b3a9a29f1ef24e472ed94d861b161e595c7b3adb08f7b826 0x37970aba5b6fe3cab2c4a602708d09917da4c13a7cdf649cde3aa5ee756e9cd8 0x3de062d9dae7cb265eecd169f734d2b6b2668894384b636c06c43b0c82272fff 0x76ccf85d2b2e29d70c7c2c77facaf7c4f8470d64284f4a3651a8b647797a2a4 0x84ae9c4b05c85ca03cf9272cbfc3643969f5c8fd61ccc9d9be18afc439af1b8a 0x9262dbf0b10e3979301b0411f1f241060904e6147801642cb9336df89f3a708;
  SDbl 0x88b03da7755dfa462f1d611bb43bbb0ab87b133ab40846b2f16bf04cf126ae76 0x666186744a0ef0732af3eb1e0ce03841879930dd348b1933f53e991e78c1d9dd 0x5fc491f4c6944b27dc71c0f5d70c70147f69d8d954a330665e037b5a16943c8d 0x1ddcdc3031da5ba4d2b1fde89e8a196c3ccd7252adfe5eec766c9a7c2e14ffa9 0x48fbbad70aca3172dd0b344f3dfaa0947d12c2b52b7c6d6615d13498f5b27529 (-0x18fbc834ca9a10470b7387dcfdd11f8511c4dd0eb1b0a66ec7d7e6ec87af0d26);
  SAdd false 0xcdb74a4d5caade219ed44c0dd509a9eb6727a820dbae78507c5ed0d3a350de30 0xdd5680ccc7e6f88d02e395a922e6f9cc80ca38e52e94a43153ae4e165abbd2b5 0x652232ec7194afd1841f28e41bb14489b13449b6ee73feeee71707f640bd97b3 (-0x29798d4b7ed787b3380aef96f1d1166dc2a6b4802f3784df13bfead7cb42250e) 0xa54f103bdbe4053af1156c4e0b49163f37c49d698565e4a4067ad52147f2d859 (-0x5f97581ef4bb9ce5d9e9dc9cafb459478896ffa137a3f7a56a2436a738843340);
  SDbl 0x1fda271f56ea3e65b26a04317a38943e539f490ccf7373b37507ebbe0980a074 0x76ead04403bb0739fd57de0936d41bb1eca7941caedd98ec2502d9e957a47f07 0x8dfacc9522a3a3c355e7b0972da68e2dd71907b017a952e8c9e09c86e896d97d (-0x224f0c15a0ade6bbc14bea10164a4b83b4e34303388ecf98faab192dba0dede50) 0x3f68f60425de1c0b207bc93c9d87f82b9b6b6120c26acc0bc2a05fd0c8aefe1 0xcbe51bbe2abcc86f7a9735bd7285a601f5830c034c06c11322aab6a3975c658;
  SDbl 0xa7a9f6071312d4232fd1165f7fad23cc8d1df2a683c899e09e276153882715c6 0x653e76ea2b200965aaeab62db763982ced37e7c7fe83ed90d523c5b31e102a32 0xf3374fd01a42acfb2d26fc0a02944f588b0011e00076721aae474e153b8b4ce 0x1441ced252c7781762db413a0a358335983d32c848460cbabe9fc965a8e2e734 0x6dcf2fd46a7a8850a5797c42fa68c4ec96679fab971948cce493c207c92b131c 0xb932a0cbf1422f2c96b2812d9bfc0e457bcaf03e86f8bf73d0a3405742d788d;
  SDbl 0x11f8f18a9d016ccf22fc1fd79a8236c7510097bc6e7ffea24f1f5272b93a4d29 0x1672f8b785084002ea46c914d7c57c580866f4874ff40abfc385ddc5d296cf14 0xc496936a902b761a898ff5a2d2c6d896852fff4873d5aab259e183a6245968ba (-0x75fca54c9d4085857b3b41ef7a67ca5246959dd29c5ac2a798919e8687a880b3) 0x14302294a93ac09f33eff6acc0cde7c2d167f32419fcb13987f1bdbbee172e7 0x58822dbdf73909e9beddf40c1d34848e708ca8d4d36f3bfe68f781f8e6e7fba;
  SDbl 0xafd0a609ba15337dc3c8a6be8ec42fe7ea29a4e6ea65e6ff2f08cdd1b1e7a612 0x494af93cacb4a86e9e6ea466ea36bb6e27a72469db42ace5af3a30bb26a0fe2c 0x5d709a1f7122989018f4cffc6b50db62676cc1284132597a4ca8e384bdfe12cd 0x1081e6e187e181bac7f894e87c0a3bd963d0620a328d093309712e9b324c41a85 0x78beed1000a6e99bba38ecf770e90ad3d0ad300224c12573414dc9a0c7974310 (-0x22eb18d5941db30708c18423cba1da2f9ea5ff1ea6311f93b9bc24be83bfa4c9);
  SDbl 0xa61aba217a99c0ab0f3c115664d9794eb090c59961de8f3bcc5ca33c3cca1645 0x3d35d1e7563185fadf20681bb74ea58324a0f54ff688cd30bdb166e0d9bae3cb 0x31ce1d291e6c471c1d93440d6a991838b977f19a7c10f7969b49e2f4e5b631c 0x3a4e02537338f34ecc26455bc0b7d44b919d01bff194f01201c5ccdf705ca82b 0x6bc6ac2e2ce7a3cf69bbc8b718bed082549ab96ce54036643d082007a828f18a 0x7d6fa704fb2356f6904752763e257178b6ade8c44915dc01b49c9c5ff8603c4;
  SAdd true 0x5186c53f8bdf8f10cba079d5c568882cbe8dd9ebb4b6b6e9ede2f1bcf71ca787 0x6d580e3fce0b894bd36a15cecbe92b6e4959d5ec1260429f3e06f7749e413fc8 0xc297bbc64e8a459d21f686787567e11db8727d57185915de738e276dd0b8b94a (-0x3534b929bcc24f3372e921a110a1f98a541946b58bff05331d39c5e5e094b60) 0x19f68fc566fb53640410d8bcd79d6bdb8703f2a1dda8b194d8ac191b161f2f29 (-0xf542c19eeb870c16dde058930044ad2dcd3b1081243d46d03e7bb036d63562f);
  SDbl 0xb8d659183d3bdff43a5332de9cd56c10093222f995e2a5d210a6f2686499f4b0 0x1b1572ff7549aa5e349fc1293b944e33ca732c7f8caea70fb8eb2e73c18fba47 0x5ba96a8639540b06826b1411dd320b841118ba59734320671de6cf21a50f6677 0x8ce3abc981149cdb7abc7bae86c9081253317c8a9aff0ed68eed3b4690b44efd 0x8574d38c710322751cc3a3c255a6e5e792b25cf51101dd60e97cea9d19d240d7 0x3b64bfe534df5362aec280679951fce7c058aa1489a71e6d011486f75a646311;
  SDbl 0x8e87fac226d80375c82a6ab95ef5343e16310447400ad6a71f99b48868f56641 0x9e9b3c5a7f88524f5d5400d3293402e7be6a580913e5e5c0bc201b843901c55c 0xcca7cd5941f860960aced56651b538b0c71cdfee28aa3036548fc68ff7b476bc 0x5d78ba43ae59225496ae0670575dd827240233180b2129a24edc0e472b58e2a2 0x4f5b226a20d785313d2bd11678fc2437fb8b9ad930257c1a6eb41d0a0adf5d69 (-0x493a12125de58fd022d0224b8ae6d722db2b069417891fbd466e5dbb7bc3f478);
  SAdd true 0x7ef859c827fe3beccf60ccb4cf3de62f921f8fbce4347069d09a9c718550ee00 0x4dc4cf1eb0b8b72a838f21a71da8d81d6fe2a42235c0d660d7cec592cf2233d6 0xf96e6dfbaa0445a2e4ba035862e854782e61828cb20e7e49c0d19953d65e060a (-0x357c37a6adc6298420e4cccf7d8c01439586b8a32211c29f9092db10ae00001c) 0x3ef9694f59a1f12dd9bec32ee8c8d16b82524d80ecc3850c1459d9be9e2c6df9 0x2817f5d729f291420823b41cd1ac712b65ee1c7a4ea5232ccd0fced7dce7e8c6;
  SDbl 0x31cff85adfd7167b7a367427ad03a7efdd8f408aecfaef6169ca76168379bbb8 0x2597320fb9cb8625f7defd25118e597245855f3efc1b157195d448649fd56ce8 0xe2527c07b37897dd68b1d2530e90f153eaa0ac3b52f02cd01c002df048a0c82d 0x1a3196f48a91864820594d9536f82264cf0079ba06916f5ae8ec6d0034959a49 0x9b146066747cc6aea43c26f464b1a23abaa6d507c2455cf01921fe8f0838054 0x7d15eec577fa337ad0af7912495913167625ad1fcc86783a0379ffb3a01f927;
  SDbl 0xa63faf62feb074496b8a8b6d0c7b60729be68392eeb560a645e62a8aad23d599 0x403171d1259daa046cf9ff82dddcf998c9d4589b082c164f317caad92f9fb69b 0x40f49e08d52005833e4100ef32f7176fcd0dda7bd6d10e9f35b7f15500490c61 0x115646a4200d7d5bc79430a6e22e7803a14448e0991f144fe27b6ac49dd958ef3 0x6bf6a74c992557724837fc13dff36220621f092d6102e04932674af98b3c9afa (-0x1146a386e8e371a32d89e5638449b1dcf6b527620080296a28a998796d653077);
  SAdd true 0xac965101c331be2be4217c66bf705fa169e64a9142e3badfe80bb820caaa2579 0x9e79fe0cedd8d7421d4b26a6a92f26acb39f21abe4ba277fcd2fc7aa27699410 0xed511ee7897bf3e7394e0c709ab0f69d1f2acad16dbd62d94da1b6da728ad1df (-0x90cf56d0db001e0f8da6b76dbce28780dc2f0734ee6ca3bafe6706e94695a8d) 0x745a551dda58087c45e472fa50254f9c2d2e3551b965c31106c87593cc258c41 (-0x3f901a902faa3af709110857e359aa229ec6a4163199ed505f1ae9cfe00e8c73);
  SDbl 0x8d72119d6a8be7a48e5f54732b93c164579fff6bbb2706e2aa60f4ba7a1b3c02 0xcb3bdffc7a26aee73432597cf8d608aa99f59aae52bab8c158bfc355dc942ae2 0xc481962e2380b99e91d95952d64d5f447d7c4523461ef2b506a6445f595520d5 (-0x2011963b390ddbb70df7f8cc08d7762df7c6fb3ddf81a89bef7736c0ad4e4c7f) 0x4e26da3b66ee24f36b0817ea6df47bc41fa4ee56759b9e7db56a57aa8cea62fe (-0x18babadc0b374ad8cc899039ea2760fccff8794e39a7afcf3ab7ab06d24ba7a8);
  SDbl 0x90a677920fdf89771b1e9857fed12a8a59073de28daed50edbbc415520c99911 0x51c8860521a431ea59e309938a8282c38b091394f2980a14a009e8e20c8ca6a6 0x350636538144f8aac257b8c41ad95a331cdc9928a1a045da29ea94f9843748df (-0x105f6b11fe89dbe6a39a086262a04206420f07890c4601c951adf4428478a27c1) 0x51bbb2c3ecdce1681f97f4d6cd68d6d36aa75222dddeb21340c4233dcd7da949 0x449fdc21a6efbf3a297e5ae830b871a43d66e856bb2e1d20d2dcb5f93be8c5b8;
  SAdd true 0x62406cd0ddcee8aff989c8c2c080269cb2a27f3c219fa0f503a84ef32a2b8979 0xfbf4421257cf6c25a1015a567102abbbd96103da601de70bbddc8fb225662e36 0x5917ddf72443357fb1395766a49ce4e2337e1774adcdc4824b593eb45c1cdf63 (-0xbe746c6022f51259ed079495b959196f9fa10c37996ae4ef592522e62806ed8) 0x25b56386a6379ab17dff5ac7df9932f04ad3bdbcf9eab6d0ed11b5e438c68e72 (-0x414f91419da9512673fb94c12cd7e2d761bf9adf4cc9118d09948c32921eb4ae);
  SDbl 0x4bbf62e0ad0487c193626e154a9f2a41314eb159b4195372f9f3e017c3d782ae 0xbc8d7831d8579674f8cc61f88b5d2d15c63af35a77de0c469df18cc19b245bc 0x48e5290bc5499367bc2473c624cb19b92138aebef93f0769d2c8ff252c77b1e5 (-0x2b331755df9a7ae699ecb7832328caab068732aa0730da9e5e058a79f2e4bdc6b) 0x1669b3046d3d50f9213fd1834e84bfd89878602f28554b816808366a8d8573e4 0x47104560251a155a476a4a76dc9e2fa405ed908a600a27956cfa1a690bc89a5c;
  SDbl 0x9d1d1836041b6b785e7c81a5edac5ba5b5279767cca5fef6ffe23d5cda60be95 0xf6efb1e0cbb979e18c2f13e774fc3421e4c4c171dbefa6ba58215a04ab66653d 0x75462b37c61404994e4999ef3666f40e8c558658b81805b52c6defc9b579867f 0x57d905c9aab6fcdc7cb655ebd5b8def3c4e187d7dde838199877b18c6e27a59b 0x606cb3011ffd6f33fcf05539b2590f25a063d6ec963133a60c26a55f9d296dfc (-0x90518d900334d110f4211dede55c27da65f830ce79f2e7a4ef680944f676b387);
  SDbl 0x1efbbfb13fbbd0607d10d9947d5b84236547faa4db5c011c3b163eb502498f3a 0x66223a5014b41b010c5b1ec2c9eefc5a312b640afe8a306bd90429aa9f8941d9 0x1781c109c75c7cfff7582e5aabc374ac746709e4cd1e2fd8554e11c42a565444 (-0x2ae318584b1153ccafc8e5f335c5a408464f6e6b087e56e3279cb12cdb7d141f4) 0x3bff87f03ccef73b0d63be2d17fe402824f07603f1d6e9e51e502500f20332f 0x118679e4d02dfd432a768af02de91e3caedeb925d81ad187e0d3667cc96cfa1b;
  SAdd true 0xf917bf031db20786264003f7f2190b4d51a238c4e21f13583a52f0f2bd5feae 0x8f628d4a9f7f1f59b724550c6cbf3c7d641bd7fcc9148c819449a02bd782fe09 0xdc4ee86c4a92f50b15d57546a56388012225929f7273fded9c1261497f2ef0d9 (-0x31fac10a2eb5fbb8907f4efc0582b36a388b20cc92c53b7fbcf0fac7e572568) 0xf25f33c8e33882c2909415b6e2f2af93a1b1b02b6697a8c042bc8b6b6ef665 (-0x28236444cc18338ffad41c888355c9677cf8f689ac2b2298fcb6f5ede153243);
  SDbl 0xf0c2979303b72b2bcfc855b765d774e0aa9ff3b4f8f5e5523ab6141a9e4d9b1d 0xfae8d96e16fd97e181a4dc25965ae4c6fd952c9c78157dda2dcd551cbed3a970 0xb3aa005b11b216ce630ba356d6e1c0a286bd40d6a4e1bc2cd7cf248dbf4449a1 0xad7520e890b53899e9013af2fbd5ec01d4ec913f8d23b950956f4ff9eada3dc6 0xe26d701e9df5457d8b4ae358102f85873143f23300c66e5ffb40a891f46b8439 (-0x651fa2d14e9ce787f7738c56e0560b8e1d415152a6c2dac3519c4d4d95a6fddb);
  SDbl 0x71550ea68d34320d788322ae3c82f9cf06eb294a9941ee8f599dff9a3d73f0d7 0x2a6dd63f0e87991f6db3721467030fd4c8d0ae59ae8ec4b388ac3fc3d9500bd6 0x4f6e856fecdc2fadd57fb24e9155ed101ec6afdf5e313b953566f012bea11e4f (-0x242af5d9ec137d145707e4d4214b5bf69ae45a3b0f0d0ed8fe7f9f5d333185971) 0x322c3331f644afd83aa767f8eba5ed5315746297f44fd555068660089d398a25 0x5c4b912e8a945b46487ddc323ef078d62f8dc1540573bc85382f247ada6dab9a;
  SDbl 0xc57994d2b54bca090b70decbfb384a4350e1986fb8284199aab28a1e09e7f2be 0x6fe1c60e0ae46efe23e751199cf9378d707c2b582502b9041b3bc5089434ef29 0x1db13cc8a7c131801c50df3e195491562c8a1cfa4c40517a12332c568b1f407f 0x6572dfecd69c43286ee393d1f304d5c2b98b715ce87db63977330daec1dbeb65 0x985458cae90eae6f638d643a02bb786bf9e011f4968ea5f9dfe866cef1c541d1 (-0x359333b70789d631b948ffa6884c30ee45a277be453a907c233befa696957398);
  SAdd false 0xffa1f35f84b11d0dcd4a94c02ce17accb47d00cdc6195c9319e526692539d7a 0xdbe1d9c32504d30ac0d2e4f307684d58225eb3866e928c448076f8d70e299c6e 0xe83f51565af96d611661daad0ba84c2f1e1f45312f7fce8d11a4eecba85e8232 (-0x3d06a42fb71fa9cbeba11dfeb217cdfcd56d7be556ddff87a8955e158bac46c) 0xff44094d4f20418156d9f220a9d1bfff9145537d73a57a774de3422fb0223a (-0x6bd8665a947b12dc583d539e4105bd19f9356ac39bf6333a5195b091845596d);
  SDbl 0x15049a2fdcc1e370a11feb18bba807fd0b5baaa9567ed36d649f877eb79dc10c 0x1e2aa9c830a9948bc44a4ad1e1ae120df8d802cc1443796c7a25a572f579b78f 0x1ad41a75ee87aa4811690de2e68e3eec543723b6b3074564bc68e3c268bee772 (-0x21071d8697ff6e8c9d7652a7f44fbe829a4d8935debdc2032befea052ee08dae7) 0x1b9c1610a4e154cb37531d5fa6972bfc996b56869f8046fa993fc1b8f81d7db 0xf93701010a2a092f2f7a820ccd2a8fb7f2a2d90a611c3df55915403878f9030;
  SDbl 0x9f8dae8fc30ddbe89df7c0bc5e4cb96f4f64e6060dfdf714a69b5064b016b8e3 0xae3d6e98e9790d1854223900fffdf8c90abb94530330f60ca93bcf5515854bce 0x8662a72ec3426fffb870311a8a0677dc8d493e02bb1619c651ac57f399c4bf72 0x16c71664fbb75b8a93507d63a331c9437da99cfaeac5b4d4c8861c438588f174 0x63714d40b9211f9240a2e648453ec4339559f095dd1ad41e183788a693eda1a3 (-0x59cb64d20d91f1ccf3cf70d8ab23d01c5c278fe3b034041774b3ca3933409d3f);
  SAdd true 0x22a1de26767ffdb09e4ae7925b3004f63c6d72f815aee8d9687508151865e078 0x8ed4357ee2b93806f8d148e28d260135f44d0ed5965921b095492033ed478073 0xc031c039199271d0fd8a025a3708e70cb7b1536eec2875445a5b3cb8720c8676 (-0x10b41ba4cbf25dedba232734cb8942dd8be90b7cdde82af2d647b76233fce38a) 0x4af655b69512d08cc5c0d985d1ac57123995f03007aba32a11d9ec0d29708c8 0x43fd6045a30cf52ffb28ce532e9723ec1e0947631ab688aa12a48025a035340;
  SDbl 0x53eb411b207533a9dcaafa855391b096567240ad43f8a367d4542f35c10d9d40 0x349fe231982abef9e4654724daef1d777aca2688dc27456fd49e456289e8ac88 0xa227dccd1b8533a0096bb5904158e341487f2544d017ded3ea4ded3ad9ccb6a7 (-0x710ed206bd5d444d3612fef789ed2e78d0db6c2ccfd8f724aa71e01dac745c08) 0x1b8264684aeac470aaef6f412a0b7358010cda13ad4b97314c3a61768b601d6e 0x1d91dbfb7cccbda0e5ba14a2f48e2ddfb1d90c1c5c2053b6388d7d6d5e3e235d;
  SDbl 0x709dd4d890e96347a19ee59763cc5657aca09f63bdb75b26f8a60c5a3aa38428 0xfcbe4769d0988182366075ba336eb720aebcacf50471f8e8018a1318e74f486c 0xb5499006bd351490cfa6ddae8dc6f2188c8660a3af74ca1175a24102d334c765 0x6e36cc806493f69b93be89fc09f7a526dc5bccdb7485f6ba71abc6e8bf55cc8d 0x318a7b8c72efd7e64e84aeb6bea5803c64a7ee3e87cec1ba2a1b716a4bf75b3c (-0x5808ad4f7af2ce1b6df33e12b64d3cc40172e7bc170bdedb1da56f4be8689654);
  SAdd true 0x69b522b1636827f56c440d3abc5c322a71168fe9b825bd1af95720cf7727954 0x776d19bacf621ab30d1b4e98a28e2bcff436a3d430981ab7b6d787d3b46933f5 0xbf2e8e9d11f7b30178b42607ce76c0108b46c899bcaf7f4469017af25141be44 (-0x536648b3142cb713b998d8db176aff27132a2cd0c0aef97add365aed88a67a1) 0x2ba6169fc2bbb201ddd4c880da65f512e17a1489729fc4fffb97456eb46d98 0x370ca033743e42729680ff5bbe50a3dce45b634005c53f31524b869c34d8f9d;
  SDbl 0x7f2999cc3c47982c98442e752ab622701e7725b854fe45978735f3b098599cce 0xa4445d0ba454e3073e2888579f6766b5163f221667e7d2e883289c4485d52fb3 0x75ac7251a7cbf7a40ba4b74f955e2f406363da599a418f294904cd8525ebf041 0x16ca7ee0863a56078e3d2eadd60c88f7d33fd7b22b8047ef5db00054a39783f8 0x3f2a4d5b82ca684434584ca22d04311c94c8474d3fab8fa4c9fa7318e75fe1d9 (-0x164613cf653091e4472b38f763a1fed65e9bf88989dba3889a2d2c7ee177f697);
  SDbl 0x196e7b19b8f7317d143e31054e031d4ee8d6b2548a166c453ea310770bd4e097 0xeaf6b2012a183f4b3cf9ab1db3c3bbe9764a7780f96d75b483b115427f226590 0xba0d1274d29723203216215266d999b1b5d0bd89333bc2184cc912d21a4daf9a (-0x124d5bcb907f854fdb705ed7f0f0b8977d51a5b27837181baad63eab7ee2b8736) 0x286c3b90df3ba2532df66e069f34e9e0b7d950f9451874ec930a517d1ac2be5 (-0x705eceb4be62ee9a05ed6e73c9bebc425b73f5408bfc71c0bd2e8bb0a163aca);
  SDbl 0xfd450bb4d9b48f04ba444b4506cb17e2289d8b90a9244ce0e446ce50fafe1ec9 0x7ad1b23ac656cc2d815bfce0b159ad94f78d4f97fe82c5c0a8df38632bb4ffe7 0xed25226f481bba52be84c02f17cd8f12c17a2d3543866078d27ed7e8c364a00f (-0x116d58ee462193e9dfcb6b85e3538c8fdb0470cd5eae3b4c46fdae68cb91d04d7) 0xfa918bc3c0e6d44094f55a4ed86e3879429d2c38899e334203e158e67b6a1136 0x6ef2cfe14061b50adce10fc3bc6396dc3481fd9dfc16f142115df4f9a335aff8;
  SAdd false 0x7bbd38483ae021c44966e1a6592ca01b7a228d9724137075fc4febe0839d1bc 0x9603fa4c8a01f4b995272f670b5b50a70c715421992054b9a28c2cd4ef005572 0xef6abb49f18a51abed12b815c18941c76f8cb9c407723c22ae245afae49da659 (-0x22d38266591dce3dafb8cff2bf83cfb558380b2b4fb80ad270b298e24234530) 0x3bcf5ff1cb695d798029ce46e3495452a6a57aaf29068e1a9d9d867c754810 (-0xd2542ba776f504898d453a23314f4ab441d970860993a831242b8407e16c84);
  SDbl 0x56292d8c1d69106a779ec5c649e8b8baecaa4b6f6fdd49c1f8936c167d62634d 0xefb2431df8c8da309982a6c54c1884615707ff39795207cfd8933e3b89e401e5 0x8209512c098dda17a9ee7c1af64715d9776264b8fddd8d2ae02de9d6278824d4 (-0x669140edadbebb0e2080504aeab5ff80e8ed51dd4162db6ca0047720d2143341) 0x1cffb139dfbe42efc8479c039a213fd14e00273e6dab79a1152253e0086c07a0 (-0x1e2ef954db5ab7c2ea0e6546ee634e8bc35358c8a13f677fe890052e26a8dd3c);
  SDbl 0x5f483a49689bdfd83235aa9422a97a36f6c6d2dd76c996158ec11592a5c04f24 0xeaf28983f7bd135c9964b00adb596df79ee1b95510710eda0185f8fd9106fe55 0xfd97b668d0fb8f5d0be21b7bbcefc6e91bc664af81f626a2310cbbba15ca5f08 (-0x2407eb5a935acf9402064cc04ec66bae5279b8787a0b0396aa292a4283d426f18) 0x2376afa375aa8fe7499d47869ee3bd63e82155ac33c910aa66bcd1e96e57c50f 0x1c47ce12821bfc3ad403e184c55d4b3f7e5f9584f3a1bb93c36d7de8e24939c;
  SDbl 0x84fd67c82dffaa7ca95b2430555bbcec60dc23fc73724a87bfd105edec5d464b 0xb7676c7b77f975d72957fd3c7f3cf7dfcf1af9277490b96d685c5948d8524b33 0x8ca2c9cc1587b81e53441260948d439aeba5e174a39e8b6c7aada18045d14f14 (-0x17f665bf2c88c4af7014f682856a66a1bf76a4fd8262704d72dc40b15a461b608) 0x45164ddd004392902c3ee25c6ac2e0a56debc3c238e63e5f97431acf8c952de4 0x1ac6c05974ade9f059377e6b7c33870d6afef782e5f89323a863f9846a55e726;
  SAdd false 0x811fca552622921e1fb47c99522d7b8e87291ff00a0d9adeb9a31ee8c03e9bc3 0xa4ff37c33f678c0429cfdb8375fbe65af67672fa8bb2ffcd6e18b710dbf69c9 0xb2699c4ea7e1cd0668416bc0c306b8fa29026cb834f5c59af0be8722c3e5d5f5 (-0x42e67a6fd240f5eccb2375cc1eeefb92d913b2fac4a67948c1a56e653c9d8771) 0x41210ddcb2199dff58940b5e01d4dd0bd93aa4ff4410f8cbd1ec2bdec824733a 0x574e529eb78a84cf8f77e7f2084ed609b65e77326f7531baa209c8eab5ae434b;
  SDbl 0x4b6460ce35dd75775d82748cd38ef3500da58e9ccf31dfa808663eb98a12ca33 0x4306f3bd4dc76a18d4afd62bb4bcf21bd7d9d391813d0d3b6d55a578b4aff65c 0xdaeb7e779b18b90f187c8847cddf75525ba1b6eef440a90ead49bd066c5a3c15 0x67d6c30d970a1f80e5c15e5a8bddb6244631cc5f2a297829a56e07d5513f9bd2 0x1633f814af791e6d395ca116936aa7461d3786451db3db13d6e38744c54e43c5 (-0x10b3da018bfbb774ad758486c1441abe3482ca243d7bdff75751e9aa9e91eead);
  SDbl 0x9e3b93f959ac96c25174f94836a688c689e311be8abe8a6b6370f105f4bcfbc9 0x5844fae53d75ab77e26bfeed243f47f22593730da800f06cc26e3fed66f0d801 0x193a7db8be2638e3365870d84d684cbd129c079581cbedcf1fa678befa7f28bf 0xd9faaa6d70521bb17128d9b12b18368625f12af1d291ac1b7405f67afe3b4c33 0x61cd9885b6f64806d75e1c63b87bd0b1399ca56860b856bc8bce778ae17500e8 (-0xd2139fda824caa4bcac0610d35c42028daa4d2fcec42b9a84d49de50dcca99f);
  SDbl 0x39bfebda2f249ecf8b51b4e91027583850a3eb9197cd1d570c30a571e70ab2ad 0xd5b9efc59352f1f7c04fbe35eb94a8a207959783b6505cce9cbd7a7b39bd4e38 0xfc115ac7e5f4a19bb25009d5f2b5c085cdc8cd1dbc545da872ed4629192b5230 (-0x4fec9d7b9ba41e98446b54c184b1bfef243ede86c94a95c844ca46dbb90d9e26) 0xd0706e8fee1fac7f33c3c123b8be44c9d35ee9a8d99e41e5670ecb55f65f551 (-0x1c4d185e0c484e3ee086af67f10a924732d12b546dbe068af9a8b6bf0ed163e6);
  SAdd false 0xfbd95148aa861a3156d8dc2fd616287ea0597e6c4bbc51e33c011ee8382d02ed 0xd5572d48095e2f3d0e2eb302cb0728eaa11a3068bae6382e4c48e465f8293715 0xc2c9b7dcaeea4fa3751a0270dcd531bbdf0813153a0fedb5e27813a43e157047 (-0xa050ccf48ba0dedaac36ab8513910c2a68a3de2b8eb33c7cdf657322715c1334) 0xf7c3dde05d26fd1ebeb1ce48e0995240bb698b00afcf17b1d1ee11a8add86aab 0x6128874ea048c5f017be1980af9f2bbdac061539d87f13d4273fccbfd21110;
  SDbl 0x3a9a5c8f4c3d5ac628028bf2f12ad6fa284aacd14bc3235f78fff3709588e5f5 0xaf7c7711f1fc2462b744d508bbf08419ebba6900caf88c169378b483a8506ec6 0x65b6a2be378946da277030639001126f8feeacf2bf1ccbd64b64242b174224c (-0x1bc303e428592f7210cb44bd9ba86db6494ccf8652d6da477c2132342ff9bd6be) 0xd6a4f0479d524f9d6dcc230de3dcbb7bb688b7dcad4c75f4a43840b43c2a077 0x8aa6089b06de139a618d9e9f13f8f87af5ce424e7f49af9c0bbd99334eb33f8;
  SDbl 0x9ac24b9a1c711050d775424648d53de061154b4989dc617e36685d298333aeb3 0xc9e98d4cc1514d5a112e8490ba71c84e41a29176c4c11ff3069a52b41826cffe 0x22628ccf4add068c5534682247052f96d515da1482921092eabbd3b744818a5f (-0x1613293e0be36306ebfaa6e325576796ff910ada301e61fd547dcaa4d964302df) 0x5d8e566c73ad22daec2cb152f3c69ead2c5a9e38fd08de8ce161c92b243ddc61 (-0xff9add827563b6913753b01a2e403e52241bf2940376745f03f7cb71ae8492d);
  SDbl 0x1ae1d182194d4198a7e674b2a6eeb33617cf367e942f577ab0643a718da2d257 0x1bec85ed355c4e8170605306559e09866ba34d20432801999362224c46150a0a 0x19298a737560d0a6067b01d90e77a9e9026f345e1a44dc791b0e5f0006a2132c (-0x1d68910c37bfab803bf0ccfa3f90fb774de29d07f23eca0d57c9ba6fcc41da889) 0x2d2a5c0621c804e8ca0826d209b8c265cb2a681333646108d34e7a3bd73d075 0x12452c87402b07eddefdecc59aed4d3000b42527b9dd22cc21943321aa4f2f9f;
  SAdd false 0xfba4d4bacba77cce721342f596267691e101611a96e2199c2aaeb7a1b38db9c 0x75740a6abdfe97cd02813d185fce62885b59141303205f082dd158c3b79c71f0 0x46e2a279b6217edf6d3372e39137a0eb7610845119744e1a195bb5d8802edced 0x1674a4eb3a7c941060bb55fd5fecd5a801a078558a23f312f78bc9899b74207 0xf75ca34882d1ea3737202ea3bc38104ce5dcb3245ba127bf16fcf57859a9b1 (-0x5801841ddacb6b6a627276944e89d64d9874fa08e7f6955577ac90f7879fdbf);
  SDbl 0x2692542d7941e4934b9dc99e8abfe3d12fbe12514c09200e09159473e74218c7 0x654e96d7885e93ad2fd914dde09de52c542dad457d5dbbd7919e942adfad3bc3 0x7c8227000a550c89091de614b1d676064671853ece9407d5d25b7dfbc040e9a (-0x8c4d8102366e520e8defa9e55edc7a10c013b42d16076d0abf5fa40b24daa579) 0x5cfc4a1a55b834d306afb937899650960b1499058bb6aa1dbaa912063e434f2 0x26ec9d2ee8099b8825583b926242a84bcbe59f540d443bc5be366e46191968c;
  SDbl 0x44405655090990492368d3338fcf358b09941cc21a45ed366b43d14c9922f957 0xd3aa4fd81a50c35bf5118cc563bc2fe67236e6d8c162210f4f6b15e956b55da4 0xa41c68cdbf5b53972a56c2944f8529f65701ed5ba16ee9d20f6651fb9091e3e4 (-0x741f15d71aa9347a3a1ed90399a43be5bb6da41792c49fca381e19cefb8d1d14) 0x12323e0886a115c8f39f1b427e44351f76779f6bf3ab3defd19f51c5ea197999 (-0x1d6c1949fcd4e1a5cbfa2df2739bb4296e4e6abc2bba7701355c31835dd0b10b);
  SAdd true 0xa54fa5aae658e040d69af2111ad4c3e5f9ba18693d2e38b532da19edb543da16 0x58ebf479186670a83db7ec31280829a4851d0e3dd87b0d7876f4ca17cd1348eb 0x4e67071cbf3c836d30143b9b19305e56e5f634c7af1b6b54a34abe691a85dd58 (-0x67e610308f5a943421368db0a29a3fbfcd6e9e5d5a399089a661bdf9db30be46) 0x6abfc456625e3f49ad67ab8555038822e8ef5216027f55ded1af086f59c7a172 0x4f42e1115f8f0c0e71eab8f7003e16f7f01a242453f7b45457323ed798196f56;
  SDbl 0x5d657f82035d368da48cd015607fb5866c207cf969bc84daaaa96fa6071033e6 0x8dbea19a8c30eec46541e0c2f5e27d069a55a880f533b776993d4baeba008a7a 0xaed815a42231236dc45a23cdbd85d385b5434229991a309a5db66f88f3db298d (-0x23742e19c9c2eb71f7d8e181a42750453b4dbb50660fe556a6227700a8c5b2f8) 0x2212e6e2749d897050c6f212df9f572a42860ec520d5aa3c534439b938e1a9ac (-0x13457a52e019f04710fb886a5ed4c015543cf1a706a07fefc77383e8ce7695a1);
  SDbl 0x6948515cc9f044284658ecb48b5a9edfcd34cd5a3cca56d5d837c9de8e5fb083 0x20da2d0819274c3bee0df7a436a7a68de3f868c39ed47fc9a654c5a27f3b331a 0x7c66f232ee2cecf0f97268651f1603ad83bcfae2a39d51c665cc785d607b0cce (-0x5ba299799ff762c7aff55f343d43cd00a0d5199869646bc6d0b6858f755d1fe5) 0x2b4c672c2700efa7567b19d6882f2b3ba04bf44993e831b570333836244de505 0x2cc876acc80992c5f166ccecf5471ea6e25641ffec0d91b864de7c49e8a8803b;
  SAdd true 0x4308b5c3f7686135434da2d4dfdd8f2b9a5be2580b5e74549efd0e8a9457a4dc 0x3603f601b57ed24b8ba12d20ff2dc8452ad5a3f3323604493fffa164deb53118 0x15511ecf088f8aab3efa6349a464b46d9d8d3e7cba9cb58c4a08ae61b38ec717 0x4b0fbd8ff9ef6912fb10a0489c60a8cc53e21385846a8bd1609fbd29e0c9f26 0x118d8f70825c5ab4e87f313ebb922445b3438e0ceea66384125b6ac0b98a3be9 (-0x58aa7ee5fa2f658566f12b2a7582aebec81bbda27725c9ed29fb0d48f172dd3);
  SDbl 0xf7b2066a7cb97edcce9aab643dfc2c1f907e0134c8a1187ce456a01b1ae32b40 0x9c5c7c1b2634e6f0d4b61c8320b63f1c0c13208f08302084f76ccdf2efa5a9da 0x19f50ac7a34eaa2e679d881b581de7886988bd929373026364b0916db45d220e 0x70f2bcaafd7a385250db3ffd93611d29b5cdfda9de43593b17fb2c0c2ff513d 0xefa9042f5895931612a6fac0b3eef7e6f3c57e2c15f324fbc39e02ddf2417c0a (-0x63069580d21fcad8aa17b51f595fc348fef3b13af1c2bd79c1cc51df2fa7505b);
  SDbl 0x22214bb87b399a199b4512e8f82d6a3ba60a51cace7a61e696b03580df52ec47 0x906adcfbdba28d0eab35119ce3ad8a84d5b802b44ad3e922bba50a94a68173bb 0x39125d368368ff3ba51b9e056cb07884478c650a116da1c076e7e5277972e754 (-0x11796b29bddead1d9aa42e4a50e51696478914b9fee98fb850e878edfa84a0adb) 0x48cdc71a13d8b5f477ed9084d38eb91fce0fcecbda0bc16294b66fa9c3dcbbe 0x197a4d0119002652d1c293a7cd1d8c5248abe93fed4eea7f88ce8c32bf272c9;
  SAdd false 0x82318b04e18900eedf37e3eed4fc09512bfec215b76cafd251aafd08493fcd44 0x4b10aaf295cc3f69df01342cdb9ff84ef1a9494f451a3a70f294a92df138ad6e 0x71f957df212db5631b46775e1f16e3c4128fbdd79e2649cdc78664700a89f07f (-0x2fa0836fa7a5e5c5e1a91025457c6ac91720a5b1268c4c7ca0ce03623e63bb25) 0x42365ac7baa2232f4ac5e4e6abd3e8f89e252771c1280616b4994a1456f89be0 0x23453955b82f9f585b99b16ecfd3dbf5c1598af34e1d3e48d3ba824753e9825f;
  SDbl 0xe9bf672fc21183f271f7aa826f000bffa45c8bdc132b66a3ad1a4f58ae5b4bdb 0xf54cd2ba2259f02379da2b4beaadb23b504af52efd9f1014162351238205eb2c 0xbba17ce504457679f6a168f87b57c6ad5f39d7128ca34dcbca9c58072261ba69 0x8e1a002725c5966bc1004f08677a7446c348b62742861e545a57af17dba3ae7f 0xd56df8f0e78ce8560c81e4314c47b4e2d1a6cc3a5b94f75ce67b1742ac4b38af (-0x9b7007b4de58ae5654a67a639b2eca981aa0900846d82a76d301cecdbbdfd98e);
  SDbl 0x5fd859447f31e11f3e02158a88dff3ad374bc11b86e251750ee0eb591eddee40 0x8c7b654bf8cb18677e1160a01a0fc988b56d7517dfb1a06e19d450117967fdf2 0x3c02a8440b2d2186bf130b73bd901777d6fd526ee12eba4653cd5d60cd5e2007 (-0x234a56924fd1d0fd3323e01534f26303ff767a835b22260226ca373e2357d01d3) 0x23e24917bd00a51d51f8ad69d4df5fef76d925ab5bd5363e68a9059c4538c44a 0x273e4cdd385e0eb428fd22fd2cce5f45fedde34fe2507bc4d7ab03965ea69ff0;
  SAdd true 0x84683a1563715f21e44051b519f0146cc6219fb830757b53a1c4e18aec419751 0xe3226d1c8ec1d0ebb05e7c61d25c4bb18883a9016b73c98455919bf6d43328a7 0x791f3ef482cdc58ba81807ec202d672afcea19354b6816d886f165afcbf402ad (-0x2e66bd01e3ea5fe98ff463f07b38ac27fdb9f294461a0ae0aa8c8863c79a6bcc) 0x447ba65591970f66a6d8b0b1ba203c281e2539326b4cb19a6dfbac71f854f3bf (-0x2cd1678bfc0368f4e0743e01f7eeeb892326d604d9b66413d8067d49223f9707);
  SDbl 0xf45770605651ba3aa50c0b857bd46135776bdcee807ecf003d8489959e467416 0xf0dcb26582c986a2a19bb34aef82461232725adce04d4fff4d0a124d5799305 0x98aff8a4be2457b5d8f8fa1c06ea837f4449f4a6c9df5fc4dc3aeb1f8bcc0800 (-0x1755be8d17f682c7c0456703d54d98be85879496765fc357620fc6da7bffd66ec) 0xe936cc162091b26adc66d62e3fc518eea060578b9b127fa4652620c7a533f26f 0xca6c1a7b5739f87a48383fd15086bb657c93e073827cc2b11bada0f475b3c6c1;
  SDbl 0x1d40eb5cb5f05fdf2c3ac7110e83eaa8c5706a06dc69d5ba54a7e2f2912d7bdb 0x656cadd4957a1ef0685d097a0b641994e5f80fa74808ec1ffa3f167de2764dbb 0x1b044e4cfcf975988e2d4e324ef003b5733c272d75915a58fa350a8d595d8e69 0x203d736d2b6172f4c51e69f59a922504df1e37c946d4b79d79b18445d4b48a48 0x357c5c98b4e8b4ca10066ab356f61c87a7b9161dbc903857924f458b07f466c (-0x9dea6ced3f15ae4134ba9ecade429f8e0439a94be30cbe1783643ada8ef3de5);
  SDbl 0xbe2efe44f45a72affc4b29ccda1c34e9a2a684712d9b0601d657c4ebe8c01211 0xd640a5ea255abdb14ae65a490113a055c9ad583b51451603f65f5e2567adeafc 0x38648aef10039ed853113960cfe0cbe98402b79816cf0d89a28ba01aaeae28c (-0x50687e756a0a18e4ccb44029baade65d8aab9ee5acd48a3a17efb4f92ff99a2a) 0x8d49ca0f4554c443ebf1b20a84408a91ea12af459d48b8e6f767a71141d42151 (-0x53d208479c9fc87819e098f0d0c11b54cf54792588c32823348b430f61378bba);
  SDbl 0x4b98ad5ec47d3e4d3e46b0020fa2f4f4391d94e2db879161ca99221c496f159 0xa8ebeac682d411b4a2251dfa9c1e32d461666a0da01b9b4813ba5185de6087bc 0xb8c0838ba0195a631d4ecd8fdfbe093aea7484952cbee0ef2c462f535f873d91 (-0x219cf22f97045d60818f57b377122075a7d34c7b4ac581b18686d54f44910252b) 0x1652d0a3f366c0855a9c4b2905f8f2dc8914119584ba006fcbd64eade7acc3 0xd62dbd5a587a8c85454c92bfe16dbd47775b4a7bd3fb45b4bd57074c9b5edd;
  SDbl 0x254aeed06a5c39ba6bbe9431b324d7186f672c639946d66be110f38fcb16b3f1 0xa560e95a213a0ce59ce793c02f1866ed788313ddcbfb7e0ab5f9833c9575dbf5 0xf95e8d7bb3cf35c2eec0e9d6ca7334f567528f149aaac91f08fed6b3401e4b42 (-0x1188faaa42b0bf9b6b863ed431f20cd0ba16d5c333c707055c497f3f918bf3ad5) 0x56ebef733731468f3c365ba5bc0a67eaa3d742d6c33c83b1f3895a6b050028c 0x8420b131b05a0cea10e286d8e8447164924c648b5c35192bd361825483ad7c;
  SAdd true 0x68268330b3fd66ffdbfb6c5cdd2224b1c42bbf5faf097bf02d175706b4b4f096 0x187bb4eeab9bb2c5c11f92ac4cd888d7c1e24ddf1769674ef513550e1f1eb908 0x30d00edb1577c7fccc562e9f56418d57264d006c0937f8ac975cffa740db422f (-0x2ea0b5f7687a9332a2fbaab9050f734b0beb54300d1f252449a821eee58ec5ae) 0x2a5f5062f24d84c6bdfbef6ab9344c044ec89e46cb5181c331e2f095c2d771e0 0x39524f85c0eaa5d63e732c07c3573770b9ae4c720afe67bc7b1c61ce4688e693;
  SDbl 0x5b707d60530d5853f85e719dd9a8e5225e2275a633e9863a7fec27a313c503a3 0x11da058d5ec6c9744717426067988ba97cc2ec32776d07f09e892647ea4aa467 0x868fddf5be588d084c1e28f1c638604d118653cbbed000e27e23a9733366caf 0x1bd887506ed3c51acbe9d2715c31e326fac0367d0396fba1841d927ce9bc4ee3 0x20a92a908d648862f6a6e74ba55b187c924650b055a5649de4a2aea95d9cdcae 0x25e6353c4aabac6c973abb931c6d56e8629ae78a1cb1db97cab112d81e5a95b;
  SDbl 0xf14ec268d9a8eb65d2ad6c52f304448d6096c20a05cc2191009532b90705acf 0x3147e747c79d04b59941f962465a42622872f6c475ecfbfbe2b02d17a81570aa 0xac1bf4083559977d8e74ed2a41ed6d5ec3d1d210ab94f8ce9169907c775376f2 (-0x2be5d92c0f60bd60fa7ddaf7089f91b6abace9f173dcdf7c56628dfcc2e6ab2) 0xe375624558cd254018997174bb0beb65b8618a819c9f332b1526a507548617 (-0x1da01cd98589946e855a65db10543888cb366406ab8ca7d9d768658855b6432);
  SAdd false 0xdcaa90b5d0615e98b4eac2d352934c36a5a70d8abec387e360309a9e8698f55f 0xdf340405f37c6adb9fd63967360ef842f10430716d8689538a3339a8ce7b386 0x785887ce0e448703aeb7a1e2c519b4fd500db136acda8f7a4921c1780c706d82 0x148389f8e684f455fde3882d9afd31044681969b9caaab4150c0f8877e050aa 0xbe359a5dbfa2c1d3b72076b295879f7cfce3749510e66a30d643fcb3a84a9fb6 0x1e7449ba1ca719114b6a37b2a005859de5a3852428b4e24075b1892382674018;
  SDbl 0x2d8fc1992f6cc92af17b9d2a43ec580e68824fae875dac8adcd6d76ddd2fe803 0x39f1eaefb7a130175a4a2163343f09fc5db08fd75529006ed777eb84f5640bf5 0x33e9344aa4dcee9cce6cb28cbadb62b078bd9ef5f6acc396626bf02d228cc0ae 0x288e75af18f243a3e064c79eb69dbb7b1d371e1a55094723fd70736d624fcd5d 0x81bdac9be536a375556fd1aee2727744a04b5bb17f3cdcbaa1df69fddd402f8 (-0x7d47887845a0abccf8106022466105c7ac5a642b25471cb550a507bd8083083);
  SDbl 0x2cf8c3cc262ee1fb9c3196a3d9858e31e6d5e552fcd4ec3dd3b485347805a533 0x6c63dbddcc116ace3f790ba704e8f6465a91928bc241f0603ac9a2d724179f1e 0x9c2e496a50165fe2d050d18e0d73d5240f3173ff315483289cfb7daa9399dab5 (-0x151bd079d729088162c5a7b1fd56ab9e0658e527ee0d31253a79e76afd5c27ec) 0x7e6750a26513286c8304b042338739289879317182a7815afca14296046eedf (-0x8dc9a5f5fdb2f3dd1a561db682aa24a523b64b830021ac965e7ccde266ca672);
  SDbl 0xd5dca6fa1d11db01f3b53d8ab4bfa7d4bac586d6caeb4395834c7705ede424e2 0xb946b7f32c4d15b083b55c21a5137826f526d896b13fe80a49b6b837c0bfe9fe 0xb78e9886ac43cf6603772f960cadf40de4c08d07d2d71f2ccc65821e5495cb45 0x7b450811fcaa2ae5df227f78008e0fb5af5079020287773682733534a94dc6f5 0xb2a8ec0c51d3eb3deeedb7e4d2bd28e65b3d597268b21dea4ad63975dd0ed0b6 (-0x403b063964a737badea0b53fd102e7162f85b9a659259f6872a5a1511136c046);
  SAdd true 0x76413e92ec3b92e360d7dce260be77b4def36ee5cce2d0de36bd0006c9f772f6 0x49e6aa8035510e7af1acae4c9b8d2044af668ffe1ee3df399f15649104e5a8e4 0x6514a9392df18c54069b3f94973213b7ecb566f2229f9c99303d98b109585b53 (-0x3e2238672a694fdef7a5dc5809a3b5b07e7118e4645bac208dd47fc79525b9cb) 0x36a036507e4e96b9dc2456ec01236e3e71df86650f9a17b4bbfa7d14a29e0345 0x3372a8cfca4b84f2fed95e89f18e8a869ff2b4d1124dca3a9baf55a16f20039c;
  SDbl 0xa755752a56f086b26e4ff6cec99d51c7d3de9c96ffd7f2676c90607e96456a17 0x1a36c67ecd5f7cfb4421af0be3022347f14056a0b9111df4dcbd15cd224cb822 0x863f3d46000d20373c701c26b4efb443056eafef8557aac26e75d33f72d5c0ca 0x442459cbc527f2113fc4bfcb685760a0fad133686f97a110001382dccdbcfc43 0x6d609b64ae8be1536c873e4d1e4639371811163423f02ed804ecc525dbbafbd9 0x1f2ba8f704b3b3689bdd904b199d755095e931c2323901666fe64cbd3c7626af;
  SDbl 0x81eb5e921f847397d04b61224a349323efd7abf902384c12b6238af96acc4c45 0x80284e650f9af2769f38ad9950eaac8c0ab9857bc8cdba9b4b7ee3dfd1bf5f2b 0x6607cf9e6efb9d5ff79024bd29a765f7cedacf1cc4d5837619526d15e4943972 0x803512ecf19aa22acb16095f323273793b641f1f204f8109139271674640d0a5 0x41ef0db648e809eebd651adebfa51bb7f05e4121d4e47f32dde67b0d4da7c4d6 (-0x33bc6fdbdbae3e4e6112f3cc12be5a4b094e20de966b95cd707a0e437fec5457);
  SDbl 0x6630789aa06cea478fa8d78e674caac86ca56936b36fa59b510bff60eb464633 0x4e4fc2c28d91bfdc6bd618936585b5647d0352a0887708e16428b4bd31b7cdc9 0x86dda2ff2255fa2c0d3d5ecb79b5b87b9a3dfc115c52d72da2a5ac7a9399e8d6 (-0x6f0421b6b4d3cb4ba64333007bf768fced303822696cdd54c2747da8c63067c4) 0x28caa948d36ef09d37f4a3aa9f407b3814f35c41e05b726e5ffc2410bc129df6 0x13e5b7b89f227c906e44d5ca0d155befdfd92173400c7e389aad66a1ce1f5fc2;
  SAdd true 0x7f51f02e3cde33219b55796ea657d7b9f260332c5f1099df121a391fb2552a9d 0xd58f92314df47c4a8a2d8e608a9acdfaec5084878257c45882e6bdf8c93c0948 0xc54be74a459b1bb97fb0b18907020070e59c5240c8bcaac60a3169e174ccacb7 (-0xdb2d00f8ef0a6c63141f7c92986e8203d60ad9941f02665e1be682edc460dfc) 0x3f526687fe501c5a3fe5831570acebd6e16f9ca210e8048302b0f0a186e6678f (-0x4343f1fd16d73fefc7e0e79b80cf8e5ba2fc2f3aef8cedcd07cdbd954a931790);
  SDbl 0x594fd36d6b569444ef6f57fda48fab4181230f079455a80f00accfdf9949313f 0x40c7bf3fcaed131666ad1c96939578d7bb733ed3aea68e585bca4437803d06c9 0xaba915fce0099edd3df41a9328b523339add6f81c39a19e24169d78eca01f09a (-0x18ccedbd378165f1501101628111ace0402efaecaa85a5a748017a736d6f6a355) 0x1f2899e65ff09a231e1d2ea8cd496970f8f7139dc85635f46dff809ca54debd8 0x33e7dce08d5096086fb1ffc53a5f7b9e0906d4791f7716238511350fdb5bb110;
  SDbl 0x55c4cb71b5faf26635d2a99e144d4c7e299cf1d9c6d7aad2fb84aa4c3b9f9ff9 0x35d9262d031a11f254a12faa7b96498fd7a3a21e556645c893dbd30809ead1a1 0xb4501486a8ca0dca39db4263c1d573f46221c90302e2faadebfc0adf13556fc6 0x41d8c1ea257b78a63878e4237cc4546d1d1c56334a31228836266da677f6c5dc 0x1cbc4661c7611cbaf8f6544c26bd9b139c710e749c6a02c49787b45a291f9f02 0x3a9a03080dc8c728e33e5612e27d11bb66fb13a7f4700d8091989977c85d478;
  SDbl 0x9eb86450118a5d3353faf9e9d01fa13253eeba61d2909bb777ff7044656efe6d 0xed0949d6e5fe2ed0efe2c3b9072f7b638c8a8206fd476c1b931f7639c6bd7235 0x4a21b17463a07b73a68f16fcf267915d2220e922959be1f0d7a0bc309a29bd22 0xbd9bb3c2ae76fc3a312973818fdf1ce02f59ab6b3abbaef58d6ff9715d3ebf24 0x626820a39276c953f8675371d3f09db3de70c1f4f2eba6355de9cd80360a9b0e (-0x7193a865073e3ce5e6e9c22ee2fe3da4bf57f768906d3655a42dc03e8de79c14);
  SAdd true 0xa905df4dcc42212d1e7234624c1bbe3fd64d13a8bbe83db635db76f281fee605 0xa6825817cca28a4871ee5b1b431ca2a78d44dcaa3ffa88d772fe66d57f1fe7df 0x812b791a2873af48dccde4bc81c6b28cd39f0c642396e6dc9ff9b6e286c804ad (-0x7afb9095a179c93a1f3875e8758a8392505081f0bff5522daff0719532e6055c) 0x6f98c0f7a31aacda399eac9e5dff6acb08d5666fb318f78dd4efc3862e90d2c2 0x2e90b3bf0a7ba04b3feeca5b39c6ce78da32b3de8c1ee5d1df4933759940ca21;
  SDbl 0xbfe9ab180bfa9c7d90acce3c7ec0232c13513b41b2a96127aaa8fdfbd9df8b03 0xbc1b1c6392c26be2140837d6dfc083eb58dbe433851a14c155a80b334bdf4bd9 0xb10f4ec4d606294c48e0221b3faf81fde239ec9185c352920743f19efc00e2 (-0x833d39560cd9aaf54dd0b713e1904a0fc5ad0eed503a1e1c4b9aa1f219175d4e) 0x8fde829755dd688e9ced34771770d0848c6cbb636b26c0a4fd29961db968d98e (-0x1030b0ee546d8688cacf8374c426fb1a432704432b3f4005d3fa7b5187ef1083);
  SDbl 0xb42343ce884a37b63b8d4c763b14f17c1cda1a6e245c1a37fbccbe20456428b4 0xf45d87df6b7e236bfcd2fa72157af4f62e52fc047bfdba5be70a218c6030347c 0xbbae39824ed96d81ccbf07f250f934e29deabeef6600300aae125deec59c5737 (-0x19dae4f669cc07660f6d4fe97410b3d7a7904717183f6769ade0e644bb5a34400) 0x7ec19c368ad900d08395fa235d2ce4e53e8975f6bfa4f9a0a335b5d21cd60d9e (-0x2796738eb37092327967812fc7962351e616ab162a20e264ac80efa1df7e9d4b);
  SDbl 0x594362af86f6fda77e22ef45682cada92cfd617c6b59881b9237cfd40b37e950 0x6475fee76a5e1380944493abd80c766bb095ef0ce614ae7f98a356a49d9a9d3 0x7ce62e86f780cba0ab6375a22db55b7ae0e8d1024156e3b6fc22ac7463196698 (-0x238e555aa71cbccceed72b6b93b1d26bc1f64eef403e5ebc3796866842052cc33) 0x1f1fec5af8e329b11b4e01c1a04d5912294ac7a729a2b09e46d6d1c0153759cb 0x53045f7746287ca0ff8c0b172191dec5525302b9fd9422f22bef39e65c2797ff;
  SAdd true 0x1ef8e0bac39287b66b88a89270a84753247499fda5be359a13d578331ca608a1 0x6ae3fe5c71f98e3e587d0a3f2a94b3211fd69de645327ce869095e586c4649e2 0xd435a90d383374d338b589b136a41ab1b6fe9ccd090aadd33f787214eba9235f 0x561ef9d245862335d2baf6c5f490bdd7288d3872616fedb0cc8ae760c5f4694 0x3bf469ff8b7e8d6df31490232bef9cca5a899ed224074967c90bb938055f33b (-0xc2c2a9cdb73ad1b735c2e86ee45b951860b9ee5fd63388305d093b13832549a);
  SDbl 0xc817938ad1ddc8d08b0252d0b66f0ba0b3973247320d27ba79ddbb647ab95580 0x43afa7d36b75ca9fb53cf770675aed21277394d42320fc10dbfb6d96a5111d9d 0x69d0dae5a5e3d1c3b0d4227321edffefd96d88f3af0f66b947f65f2a85df8426 0xc5d62150aac447bec4b31c7ff29e8030122432e73035a2df19e8393be0d18d89 0x9c64d8b55c49d0a0eebe4ef54f79e3ee4cee020aee8d1fb73085329cce0f7161 0x1ea47fe742160cc25743a66bc89a519ea8b2485b1354befa8de11abd4f629c05;
  SDbl 0x568332fb695995f5aeb3e1945cbb464239b981da915ce4d666c07fbbe22f7b0a 0x8a3d66f7382419bf82cb435eccdc7e74f6e02d0513bc2bf6153779e6deb3848b 0xfa0ca05b47d6a68f95b24b60ec80eed4b4d0faa6a41a6b530436141e9ecff9f1 0x11d489d92e817018947297e2a48beba1da163ab70d7debe519638907206dffe0 0x1d3c697e3f7997fd89e5e40614dfdd4f4774d1a2627cb12cf0e4ca6c18072361 (-0x17d7c6cbe7444ca8266769f3c4bb112dd04d7457b7e80d41d6c3505a91d2229d);
  SDbl 0x6d0c9b9d3fb1d7af86f6679a7606762b85a367217b8b03c40d3c5c4e9cde1d09 0x6b4431d77b978f4f762ddb5b67ad18de36d907dec1ef379e077817db5535ce4c 0x41526f2c64e00a5af0c37303ff5e44e5de08bb277bb602ca0101b59120520ea5 (-0xaeb637b185bd82912ea71fdb47c4d37cf08f08efaff2619846493ba6637428a) 0x2e73bd230c06f33348938cf4ce1e715680c21fd6ac7c00df0f576e13bbb5cd11 0xd31a220f7aaf3c1f6f27be1285f936a16aba4a339cde93dd20807703d6f7d5f;
  SAdd false 0x16891ea8245b5821f499061d76207eccc0b862aa1ea1ba4cb8cd11ae8e9e6b7d 0x3ce5325b9bf7ee00dcc94d182fae38cac9d5ee5b7d923a1416d96f09b2236269 0x2db82806da0af2cfd1227936ce6bdff5edaae1230aea9720936ad4fd8a4cf30f (-0x4f9385242c3219736a3769dce3e4d94c2a933ee2ab81fb50fdad71c241ab255) 0x1fbdab6bbde4e960bf5dab1e15918cc41847bb643d7279b8064f33ab337ea73 0x4150058f97579cb8e37fe0c5385e50429666373ee54a249b0173888d76e72dd;
  SDbl 0x35b5061f3e8cd9830ec66db6efad36445f87b3866e5fdac61b1f60076bfe7ae4 0xd42fec30797326a016d1ccb9d71bf1d6dd6d605f6270c0d09dc0c37267079a92 0x377cb7580c090111d864e982386a8bc0d247ec3920dd608b18869721b1922ae7 (-0x1845cd3f1636eb582ee22ff62be06b8d6f5d7526c1a15e5794c8c0c254df9188) 0xb44748aa37eb4854a871bd32af69d1583cf016fe6b1a9d8fe97315b1be04454 (-0x1fbd73eccc7763277ad99dcb06a79c81f68748e5178513e2c50ab9630a6d5386);
  SDbl 0x5f5f275974036316ec997fadddc7a29e3722c2af830c4378335dbe386243e275 0xdb14db7ead631d3c4d110ed20a3b3b763b2d1868adecb5a2b43637a4f7fd5f76 0x6d29a52de48e96209aee8cbb50c04463a9c005b4abf62dc67320526246563468 (-0x1e64668ca49b62a76e046a36c192369e3d6352ab218dcc72880c688d3cc55215d) 0x2387c292c212c13c37cf3bcb8c6525797ff70d7d78ae46dfe124f3f7e07bcb21 (-0x29184d21f08c7459c2b4014eb9a2e9bfdc987263a7c1212aaa407d500475c7d);
  SDbl 0xf8d96f9c00f95385ecf6a0d58d3ad98f45e17c8a18d8ad73f6e79b58e46022de 0xac62a3ea0561c604a02c5dc070c248d379eb375c22f93d232710f9003ccd997b 0xe80ab715f7ee944b1908ae6281e33a4efcb90dbbad8d3ff20fcb853addc4d57 (-0x15e3bf3e890b46d777e6e12a59eb88ca3d98d41a75b4f5b68065b7e1edcf02537) 0xf1e600ed9aeb615a1561d49ec2e1922336e04b02eca23cebc2cd397491889fe3 0x2d644f450808d2e920c6fa07212506590fb56a396f324faaea3a11797e597c15;
  SDbl 0x7ac6e86d0b6e0cad59b8f535b1c7f17c3203937f7438a32317974da61043ea22 0xd57afcc271fd14353b52723538aa5696d779e0b2c11abd3c5a19d9898bfe7b2 0x5bf8115597e441264e0a95768876fa09ca635753228b81f5074a21c6634bd813 (-0x14e54ea079867462faba144fbd8bc87482afd3e56c4758ac68f583cadce6ad3d4) 0x3ae23014857a958f8e594c057a1cb73e41b0c5b72a770d3fcfb2e8386e6cee24 0x4c46cb35034afa123a19bd7162438638cb61501e109019219ba57259ab39ceb8;
  SAdd true 0x373a74cc91b6f18eceb8754a0b82c9b364022763cbfc4ec24049cb1824bcc785 0xe08c3a11cf21c2dab76e313e6f3ec05d01f04e90ce7dc8c39bfc4566b0159caf 0x8da1fd37b95ba72a8ff11290002809d6f0157a7b8f392e9616aa9d23f8924aaf 0x812f66b9383757cd50a0d8abe8cd7335bef6d0e24d995bfa3a2a4f4a1d179a4 0xbea2b891482d5c03f76eb0bf76571713f9b27d25f7158fd3c062e456d49ee0f (-0x2d9083f90d2e6fea1c782da6995c004827baecba5f1b5d9dd32d17c3671e2acd);
  SDbl 0x850f3971a10b2482f4ee40a5864db4f4c990c384f78a340a741548f0500cee7f 0xe463e993a5edd892692e086ab15558380418c7f6634f4caa5cfb44a6f2090e06 0x99d1ba66d18b880cce2e2c75428f503f90294ec3c13fca77199f2250baa4dd59 (-0x1bba5eda67bf3a7b4eb237b805cfee7ef0a528079398afda9ab37403de6983ec2) 0x4528d2981eb311fcfff2e62bc48dfae6ed834e062ed39fc8e4af1b9db81be463 (-0x1ff48ae79e61740ee7ac64844b738df4a404192c3f6df9ef00afdf5c190bbcf);
  SDbl 0xc19cdbc7978619580ba4dab9e44fe034cf725938f8b3e59a5f6007543a83c9a5 0xbe3a6f6fc979775914984b35e844fa7f62393fe036124ae8d026f38628ebc483 0xb26c8db9db1492702c81555663f73791738a9931dfa7757c9fe7b72e8f1ff985 (-0x17a9ba2630ce5e1b1ebd857040e4e17d3609bdaef0816feeaf7e35ebe599f1e51) 0x926de3801cd5da021d3a1fab8af9e5e0847192446b1f0a862f7a27554b4b5c36 0x1cdca71ed03bcf56784dbfb3152d57b284af8ddf199b60b656e590d55f239a6f;
  SDbl 0x8d3f08b8010d88b0e15f864042f76d5868d7936c832ac6c1e81914ad214ddf2b 0xdb206d1fb600a1e2c773b891731c8842959e5bc86805f3647b4a20e847fb436a 0xffed52176af10796465f68ff6a9e642232a49971605107d21eb6db856cac0159 (-0xe32cee8efaac8ec5501c4119fb9c02eed6e4601feea4c2b6d61e2f423f64f796) 0x4dee7f2049f3f0aec546bfb8211750ef5c0dc23494fd399962be849d8168db37 (-0xff1ca4f58ddb4f09aeec9d5de4bc856f720b2b4a9e03556a17a2fa25a937b55);
  SDbl 0xf583223b05985025797aa1be31093622eb1595324a3c36a55b76c069f65fea37 0x236003bfd8366ebfdde0cd3dbb12505ad4bba80c1b0e24b68014e728178a470c 0x48e3acdb0d6ebe330d1019f65e50ba7d986774f651455e6ed9ab4deb8f79f9e9 (-0x47cf0bfb8c483074f9ef0d8f5969ef899130d30dd8e96a80eb9000db01975095) 0xeb7442b1f1254113bba281769bf7e28e623f631447ceb44d8ad80dc94866360f 0xb03944e146e560ab4ae0b8f38540183f13e89223d1bea189e35885e1524fd710;
  SAdd true 0xcf55b01bdf730458d8b228af2790ffa72133a5ea7ab72273cb8f995b3213b5a2 0xd41f22baaeb21c1e1e2037cc62048dcf3f1c15c2ae3246ef622cee9d4fea9121 0x4fd57ef564b45388043159ece91c999fbca37ec23062e82d513098bca90df03b 0xc778cd111f4b723ead0c7fac90f6e59fba1c09a45e02b02b7228214cba8cf61 0xa7ebaf7c26f0692bc3a7173868e53ed925294855f6c1bbff49b5a1aadbd6d270 (-0x8f25b3194f97881a7b6123b4346602598371f4d6ae361c8ab2b7a0396c995b92);
  SDbl 0x781666741bc67349a7089a66368411608ab8444d3a02bc61d09919c944858fcf 0x639c79ac2ca4954a5c1da1bddd2ce7ce49777a7155e34820ac04683357d44cd8 0x9973e4b0eb64fdeab47996f68b23c7757ca5a5c31d7d77e48b410d1949e768a (-0x1c464a04f359f1e29718dcadfef5650ad6233f1a808eeb36e78d7a7c9ea6b36aa) 0x38550202d7548eff074ff73bb1e7f96ea64d8c21ebe179e568c6ca4b41ca85b9 0x34c717809fc1fdd0244c1917d473db5f61b4135a0ed685e09b4f3c44559968be;
  SDbl 0x1cc7c06635ffcbb293dc8e6564c720f9bda96c0e399c27b565ea5e9d930d30d7 0xbc1e6350295b74c2bfb2f1b3a9ac6db8200c2436d479f764a94229d5ce603e03 0xf08ee003e506214d6786a0841d0949ad293fba3c85699970d807314b7e8394a9 (-0x721f2411b2ca1d1264110fb6dba9930fd49289d301aaeff586b45a330e2ff90f) 0x33c4df30e8dafff934dea132d664e417af833886a80231fafbb07c194e18322 (-0x9f3450f5dba21bb870e22138b952020178be94c37439a36fe1796412fef59b0);
  SDbl 0x1b3871343887b748f4181ec6eff51c491ea5a646fa3c1385c74899d699588401 0x4f1113755e709381d7595a42dc6020a150b9b54e1d599c76311b3751f39ee46b 0xc834c47e6fb7023f85b709ccb3377d59840434184fb63252f5623def75cd0697 (-0x16b8db9e9cfab93552871dc68cff9894cab53fd395bee0162e2f57ed6b4b5153a) 0x2e4f452bfb974eb268ddb39c6220bc1a23e78dc4a527e712b6ebaed599e5870 0xb98728eb5e421454a4f05c8579b8beaa9dccefb8f1599404e3901d8c31ce1a8;
  SDbl 0x705b662a3ae1a6ddfd714eaa36320fb23e4508cbf8770c484d37d41a096d7c5e 0xa3b53debfc32a5472c448cfd4453d805b6e82c1d97d4742e2a326c52618bbe5f 0xcd643d23e1afba5dd2b3069ce1e8d04acda2f91787415392e4483bc9354c4185 0x667a7fccbe0c2bb70fe4a58d421dc8e358c5d9bd5657856857890a344a1f2f44 0x31501a06efa11658ffc5170ca5e45d695c59e5358da030cc4f73064c885254b1 (-0x25260ab681a70dde67ea949b4254ec5fcb1591d07e29734e571f8695dd78804c);
  SDbl 0xe1a8162a55c4037db020f80669006bb5c1bc7c073795469f2c7674720ec66909 0x43a7ff58aa5686c731c320bf44eb27d75e8348bdc3dc9e9232d1cae6552b9267 0x94bfc439e87f64d63f3cf1f0454f811c241b8d7de5450e1b7f247054879955d3 0x30070319455b282a1dac3b16ff82231e6da8d08d96a38705c02f00c6a159c066 0xc6e8e5544b275279c15ef1a4d345c2b481c2b738a9316b5ba22aa243773eacd4 0x54aab501e605c2b2e12b6c935be3a10403c0dfc616816a275182e50449ab53a0;
  SDbl 0x65b03f6c218b095235533e0a343cbee6d28c409a8965e82916426c15112efce3 0x97faebeb2e22e1b83d047b7963ec6b53650d2e291824d30299477e5d914349de 0x8571ffd0ab0df6826b4eda3c025fcd937c0a162d525447a23721ac9feb057587 0x40880881245d75b8a59f83a557ba827ab1d58f68634b41bea105e5278041541e 0x28648b62bf40c6192ea93f08d20aa00d7a1de669261ba4e71da2c8b63a36bd63 (-0x217ec53c9a795a727335fb2d6ad0a1b41b0424ac60d6e5b8f241c0f50d5e6221);
  SAdd true 0x7197a3d240a03edc04d2d5b316d30ff654ecb74c7013cf07b1c86bc3c2cccecd 0x4bc45b30cb17de30c2698fcfc12dc794811fe7930ecbb5b58ae1cb804cc8bfc5 0x42a0182bfe36a7204695d2693c2689b086b367772cd04ee6034f656aa4a6cbd3 (-0x2ce8e504979a1eb07de6d9ca3aa1b618ed1ee656daba1a400014385caf565f7c) 0x326738727a5257f50565fc2e43b8a7f7dd231050063add206e1617d01f91ee41 0x21d13ad71ba041da0491e806530dcc5fe6d6f5a458142fec1943b768207f8d55;
  SDbl 0x6d72b9f64ed83f3f1806e6ce468b794e5ad2c69c3f0ec49c60fd743bc6446b37 0xc9e66ab66d82927b79a10685944f2561f124cf7badcbea31e29d61117d997d52 0xbe46a71f72980235622735edb90d9e82d444807b167793cc0305c6c842beba14 (-0xa4de0288394dca90fa04e046db03f4b5b0e32a52d1bddca9a4959c357bf4de2) 0x2ecae5c614632f2a4e55b10ce9b5dea2408b1655b13cfc57cf69cc95e10bf70b (-0x35ed0766fe6233198ec57f5638aed53d3986741a3a180e56a82f04a7f513d1ce);
  SDbl 0xedbb9cc53de0c05e75483b578fd9e4305dfc1e3f32662f9a4607674238b390c3 0xcaa3e5a415a8b0270affc496829fcae568910435054bd6287736a835120cf3f1 0xc5cfb66ef44ef3bd6f05d9ae2beb226bdafcdc52bfe9ac53fae4b24d065ffb79 (-0x7c4d332ff68535b5cd9d19a7195983d9bc11822e8f2d14408230d6b5dfc66faf) 0xdcc4e9c479806fae9df79664337ab8c4573096d8a6b8383de624ce82fab1fa0c (-0xaff5aad9db4af88e4cf930f3dd5f89697567131e4489eba01eb6a2f7077f56);
  SAdd false 0x9c38d67e81b0385339bb42f9079210a77e9b4900e4ef7d2a2a347efe0512b7ae 0x6db191fdb72d6e2b6ea756ec91cf2d8ff19b2e99b3edcfa3821ece118add5013 0x8eb24667da082e3b4e7bdfb3cf2bf1cdc31ec120370885167f5d7e3cd96b06e4 (-0x5cadbde13e5688dab30de8a4d7b17f11ad5cc2490086c139b1e3b47462e8778e) 0x5f5552091874931db48fb72dca0df078570ded264f50c23035f239fcabf47e87 0x38b84ddc66f86b1944ebd65a78c787160e4076004464799b85f53cf013a9ef79;
  SDbl 0x29efcecfe46f3780f2bf34a9e6910341bc224a40c919dd7086c38c850496ec6b 0x58868085d188b80114ca96d6d2dd7a009f7241d96fdbe3842dec009536f6aa68 0xba25f68bedf712c9cc4736bef835da78113cc287eba1402313117b3067a80493 (-0x5e41a27cbe7b84765d438f081b8d2bdf18ba326b2baf5412e8f8b1bcc5ce7e60) 0x6deb0e26d4a14c992d6290f7c257992faf2c55f78f4fd712babdd2d0cf7d5d5 0x377ba1b5ef3a89db98691f8eaf2b922f82e3726bf8fbdd4c6ed1f8ad0c028fe;
  SDbl 0xf7972b669ba48e740a61b70afd109fd2ac008e703f05af8725322f59dd45d819 0x8ac0dcd5dedbae6318ca079e01325575da91804fe9c62f56ad6cee8b3191a0c4 0x2f42d9241c47e37e02106be17d41372f81e7a9c406265a1f29376d6b20598fae 0x10c3adc957deacac574da42b6bb5ac901dd7ba8a3fdfd25ef13c530d16823ea07 0xef750f052a33d772d0bdd42c65ea90ee5bdae73fed2fe2992655d62a419ac323 (-0x3093f801cff2b906b3189fdb1e3f824c35db134c2a0e6a460da1727e6c32bcc3);
  SAdd true 0xc574bac13046ac4ffc0784be5c97f8ae1f25f93269c8399a258c9d40e3e77b2d 0xe5a5112cd3abd4f6156d1102eed68985714e80734cb6089f515ede6f76719f7e 0x851d9940b3dc89631849d1c421f45464db3b765323c91a3c1742534859219ad3 (-0x43dd2e5da8f6956e13570a9ae5459d89649a3094fc50c576bdf7a15508895495) 0x984cdca7b3eaadd77c5945ea61d6137fc80ae315e69aa00d0936f44286d56f20 (-0x461b0dfd4d1caed007d459a5aa7c5b727f2c1bb49956055e08bfe19703ebb0cd);
  SDbl 0xe20406d49eee8e0f591a6a57a23a3ae30c244e1249e21e07e870d05a5eb31815 0xf75f65179315e853b575333e6bce7c1760cbaf4a67133e8e3370a17be6fc8db5 0x79e79fec71b35cc5eec6ac20b0b6447a01507127fd8378a4c3c0457fc09cb16 (-0x17ef5bedffcc50944045f51f6d3eed594f8c2312ff14c47747984ef7359cfb095) 0xc78b1c2066fbee72bd38b249007c20f9e97f5c714dee7b79f3b74c9cb83ddaf8 (-0xfa6c577b393ebf6f9a1fe8ef0e26da6491af69cd3d863fdf14959daa6a4e794);
  SDbl 0x30f2ddcb272b1d4954f0fb3589e108e6406298855df393cd841b05bfa0e289ca 0xa4af0f258331d3eb24825014b19d8be19c326d892375e797aa67098a604542 0x4a0be953f2f58206330a17177eb9bfa4dc13780bb54a1f5fe4b7642ce151f010 (-0x2ca31c74feb481222f613595a9b92017658067d8608584bad87c85372b94f64d0) 0x95bf9944c4a94eabfb8c3ddbe6c535ef8abff1599d03d2c4d6835e145878d48 0x2f2d1464d2a3c9e58819577ba3229243d540a3ae241737e708455aab51bf0568;
  SAdd true 0x49d692cc392b1ffaaf9b71ee3bea17ee24e99445682cd768e44e1ea67f6f193c 0x63de5058b4dba1df02defcd1a485c748ce16474bc5218b5f7cfb8ada8f8a72d5 0xd94c56969fe2612cc9a2538e311d00ae7b87859545766802f60c03fcbcc65c70 0xe75233cd009065cc240b811a5c078007e8f21837c5cc8ebf8cf6114023de064 0x154c13924f83d40918c1363c0353163fcd46443b49f72c68b802025ce0b266ce (-0x1c9e9a10f00dac4d0a9d1fcb5b00508d7f3a0acf5fe8e1ea270cd8205dd4aa0c);
  SDbl 0x4ad36fcb811594a618654532d93b83801aa266db1ab81538b859df8a0ffe3c20 0xb10956ec8b8fea74b552cb834f7a4c8e58ee111ea479acbc85573caa43fcbf0f 0xb3f78a3e392e78c2f4294571071f02401965aecb6988aecc7148f7d036f88f48 0xa25fa135b5299698a8fb80875869b5e97749031593c2c9da7fd70e92a4793a8 0x15deeb4336c84a7cf6e797a20f14771c5b0332fe28e96eae8535f8584572a0b9 (-0x168e2c103e59c09dbe1f87b3659ccf78bd98ca6fd9c220df71b2c2ceac8df508);
  SDbl 0x40962b18d4d00701a48213b6546548a993d971bd9a74d31838a8aa74168fa61a 0x8f6c76d8e0e0d2c6d40db36045342acec462f480c45e908416fe803c69eb43a5 0x360b7810f0f7e89c9b98cce372a9925ff72d1bbc957467c2728f582343d6c842 (-0x1147ad7d2de4f1d0887906342aa552a9f03b5d6ec4cb00e50e9dad0c24c605200) 0x104b6da3030e2ed2858113556fb56bed0da1ef66c05c186b82c6e8d97d13071f 0x87aef98daf6419177389ea4c095ccd790bcb711d6353d4ad91b50fcf2cc12c6;
  SAdd false 0xca362a3f47b13b81bb5a681f292f35ab0bf65d7b4f8d50d48ef1c07d469a5775 0x3709bccc72795c61c343a5fe321bc5a353461eb5bcc918d5c1c62cc66adad6ae 0x9bd7048b493f3e85bd13616befd058d7a2b51279af9d605eb5c032772a6edce9 (-0x492fff075cb18e07216b3a089d9f7e15d7b93a5af6ceb464f6ff051150a2bb6d) 0x9fb98622568849fab1c3a578f9b745ce99c14add3ee140404a734568b56dd3a1 0x45d09a375f1fed09dd1a977c1381ee9a5e82c3810eb32bb42534e9b63025e748;
  SDbl 0x80f8ca846b4cd8751e5b1b3a52f9a99d66df1f7c90b3398dd2bc7d68f58daf35 0x3857b92ec178b3e421922df547e2ccc91687e5e719bc2223b65ee27b7936756b 0x7b735112ca541e7269c050d9cc0bf4d29638e2db29449b5e9a458f057c90562 0x79865d391bc7f999b5c04d33d8c19e6c9c5dd73e4d8bb4f1391dc466ce86144f 0x40f9bc4dad0bb77a482303eb94f998029ac41aa01b4394da24529f3264a0a1ce (-0xa842c5dd4c27a87367d8c114012634a0e8c44192d8ddfbcec9b42294340d94);
  SDbl 0xd099acd6166e08933d6ebc10664f0370357be1b7afd2f403045692df4605fddb 0xd53a44a02bdd67c492fce882915f95120c4069ecce68b36c33bd674ce58767b2 0x617c7f1f188fac2977946b9bfa12d26510267e1b35240396805e429eaabc514a (-0x18a0839733b96fe71bff454bf133863b53105520958e4aadbbb8e80ca569f984) 0xa9fa151c9b0413bf7c4abd331d5f3e23c07979b93dbc9b315231d5c22dabb92f (-0x7fd63e9d65e051d2d62bd001d2db9a0ad9e60136cf8b6a340ca003902f683b97);
  SDbl 0x10d2a504aaee2a10fc2c8d27e840d18092cb3bd7405f2b138a4bcb94b47f5482 0xf392328e4503361b7414dc7ad6bc26a39dab4935c937f4c970654ab749eed57f 0xa3cdcc59b5be2916944abd912da60925655fa49876fb771c91692004dd38a508 (-0x207fe0c90a7de5fe56fe85e2bbbd5c0ca27f920664bc537abb39c5d70c0d0f7df) 0x11b01f3bc803a5fabafe8265af4897f874979452ebf00da0930e8d5501c12df (-0x1fe768f4ade41217f43dfb2d4fe0121b200b167e931049bad0ba65beecb0394);
  SDbl 0x3eac9d6742ab2c893c08fd5252a0bfac62f95006ab79c4ae1643d13892b1efe4 0xdb61a8b2e9982f0945cc88a7f676a674d7675bcdbe7113aa79a8f18e1447152a 0x96d8659aa24a42a0ecebf93a3785a17ef35983cd9e4c2a5976ba3820ef7915a3 (-0x2670809752ab628d713320615d3dbc5d551c1c19bc43049c4d12fb158dd892740) 0xf5810a1f72c61a4f46447e9db064b2fd86ca63c286235ff8d80d9eefe113d18 0x5ec10df4bd116fcd1130ec36206b7b6b6b8efe43dfae165f6183a15f1f613f7;
  SDbl 0xc7cafcc8a6b3e0160187b7c1a6b5ce353f868dd04378250320ac049efe61c73 0x21f4c5f2c3adcfc58068de794fda03375c030807624c2a670c751f19d1b1ecb0 0x66cc2ecd6c797293a1711cb9e055aa06a351077115a416f422f81a5595dcde99 (-0x225497956789a639d598e5b703b9c4da6c5e114170b0396faddd7a3fef14557c9) 0x9bed35f4755b95ab553e39eda6c500e42787340f94daebfe12d0aa1e72bb5b 0x90b6ab475ed2f62ee96e281c186de5f231d12a9b2117c83fe20f35e084b6d6e;
  SAdd true 0x1dbada5dc1bede2491a5a7c784e66eb199869bf91bcfbade18684fc03c31e90f 0xe116e9c0dec0dde880c92fac0278d2dd70236733c8957165e4b783a59c7a9b22 0x222f035a7ae5fd73ff9a759cbd3b3c673b3f47768a6f4f01920a11cf35d6eee4 0x1f3d2b46efcedb1fc037600beb7ab7ab7d5c643c226a8f79b0f6779bd0b29ae 0x373dddb4bda75d9cba2aa76646f1e66fa3ca2adbd07d9a10f7aa0ce8d8eadb8 (-0x16325fe5858ef775aff7567cd8ab2fd0d7f002d28eeae8ac9ca5d74d8ff237d5);
  SDbl 0x8a24ddcfe57e8e8602939da212b9ed0496035799b8b1fcc96363a998bc236389 0x62e9b3431e0927ff53160c52979abedc22d9a25a3060b6c13ce124a0ebaad987 0x7971192d3a813e0bbba86681e5897fb80819fbffc6b4a2d8163a7e748a732b46 (-0x22cd752c51c3b22023628e7078429324b7618911318243f08600f28f70fe9767f) 0x4a8bc47390a15cc59392c2f40a1acd8c87825871e3087f0366a518268e76d07a 0x44168b0f375f1e405bd51371e911693776530f0d30f3bd888e34e0c37d0b8d37;
  SDbl 0x3712f4902ac396f91946aa2bc8f24dcfd1e6b75a052324091bb7b1ca78973835 0xd18514767fd06b3bba9199796d992d4612d6c3027328ffe4bb30254c99993fb2 0x9ceac6e3a5d9ddea9e026b2d1ab77754f195e05d16247340536f41a2043734d4 (-0x3e66b30477318ea5ef8ac74e96901a2ce8fc2b7958cafc6a3380c14ff4cc1b6c) 0xbd9267d4c2257928affb60582338b564e8ec08e66ab6083080052e56611b7c7 (-0x17cb927959efe78f1dc5a4c408c65fe4f3f9f69343503194a48cdde1dd4410ff);
  SAdd false 0x8ee4d91b2c78addb4d09ccc6a9c55f4dfb0056cd321bade1ea7734999aa6f442 0xd60ce0fd26f75e6c239b0eb49052ef5336abc9751eee2c47ecc6ccab281899bc 0x54358e3bac039fb95a9fd70f255adc54defb41aa89b87b809d2ebb3657833686 (-0x589ca2baa513f8ea38df2f4a309c2af3df10e18af9c1ab92f14bfc55a1dad8df) 0x4fc2ad6de59ed989dda31baeb7383043d11abbdad4f9547d4fbd25dbde586d31 (-0x287603c72a6099833df8b4e8f9bd71aa5a2297f9ae85b5c3eeee23d1f22d612);
  SDbl 0xa2ac271c1cec007f5620c5e5305990e680be8ee1b418a4828c4842ae0afc76b3 0xe36970d89dc580498bf20f6981df00b391815f9637d03ac72ebcdc2aa5b24440 0x89d4037b600e3bda561838d224a8f45df77a78b9b11b1c3ac2d0da935c4573c (-0x1ade790b387c736c6446f946251a62bc1e6a55ea61faa2cc7deb38cb958db0137) 0x675e55448fb976eca2e20f323921b8dc1a30f2cbfec820465ebc1bed1271f68f (-0x87d8f4422ac6f62a9e4453b95180aa5f738f9e26eedf1efce830b71c9bd5ff2);
  SDbl 0x24bb79cb6829664420a679b336edcc70c18a6df30d62f73b676240852ee8f5f6 0x748533002e611d989cfa107affc7f24060655e96254a302f718fa38ec83d7059 0x87bdf1115e482f17b6f58e57c789a006731b29adfc66c65d99cdb1828abab849 (-0x25b93a4ae49983c16508af7ef76753ee55f2d3c45b2ad1721892dc2545f7a4f53) 0x545438c63acfee07319c50312a3666bfbd0374d6e0785c8490e3de4f1713075 0xfe94e2daa03c9a3b27109631b6565b20156846fa8e3fe199433a77d98175c8b;
  SDbl 0x3d6dba191d0ffb3f61d8db73357cfd063c33df89d716e02252ba918fa4ccd29d 0x27a636eea75c2254256ba0ff364c53094f331a471fa54f4b0068f56259185b3c 0x602eb82bf3e32630822b3beaad96b2bd74e585273b8c2b34a22e28ccad09406e (-0x5df61096c128e59788f72209829c6efc36b70ce2a79a55821ceab9e8588dd0ba) 0xebd79b8074257c21960cf7de066256ec0912e66d7458bc2b5e405606a1547a5 0x127214e320ba2ac1a62398850ab88193e992c4c7e861a4d922080a9c3b983bee;
  SDbl 0xb3598ec1dbec35deed41b369940cfad0c650e7fb29dd875b72a21b609db2a07e 0x8427374bc39850023de88a447e2a7527ef228f9fcb39d0452fb452d14555e558 0x54c8f081a13bc83f63ddb803c85e796f5bbd2e381c662b2e3fca299d0d9cf8d3 0x74586f5779218c254c6fbff75c8d8029ae0696896cddb79be00c68e870ae35e5 0x7da65cf829993d52c13e9d5c8e154509867cdf0934be1c558416b597d7b0ddcc (-0x40ce8fb016d8161b9ddd378a894b4edc5024a3f744468444cc2b9e5a55464cf7);
  SAdd false 0xe0635b911b12d4d9631c6b7484341f2305b64dc78ac2eb733a96df829d3ef866 0x3c1224c77401113b5ed971ec7959beba8d0c31bb76ce1c73291666b8fc4f5acb 0x97526ef7d43de953478ebe2084113ac5a2417b1354bd42918f8f96c4af4f225b (-0x4755ce3326aaabbcdcc7b76833e13e6b536168b4d1e1ee8692969f5da9e997ae) 0xc4ae06cea70a675ac6237062bea62a94ddb584171645d64ab150b7511683ec46 0x3f2e6a228721942793ff4344a0ea6ebad4304657d0712f1c346a46ce46f24f00;
  SDbl 0xbd6c8170350c1fdfeff6319305f27d58e9214e88932ae37a2ecc88891f6e74d3 0x7e07ce5eae0031e2e0d6ed346a6d78daa20ae08ebb462fd2cd3b578ba1696a35 0x6cafe7506a8f9723fa8cf765421b1edcaa8784cc2a7bf91b175acfe05036ecb6 0xb5a676d9f1b1bcf74895a93364a95c2967d20f353f06f67570e9c2a830aefce6 0x8c29651db29c550ded99eb88a822f9785ffcb1d3e3ed52a116eafb33e56439e2 (-0x30ce5332160688292b30918b9205d8b7d1fa4e47ffd04b28cd680022a7773491);
  SDbl 0x8b1f33eccd731d2e9a8d3a093a8945a6d3202544ea9c6be581bbf9fca257b0bc 0xf9026780e5c5af8c23381b22d5fc93a4f3395b107a74e89368cac6c0d8d882bb 0x60cd2b820d1238d08173c4e61f9b5d8fdc9ec8359418047e6fafe36d0d199708 (-0x44018a442a5677daa018ca0763ef371eb1b91ea6ca446cabdd1a7f55b13c1e68) 0x4b9ae6311097deaa0c7699e5387f2872b243b19ae853439dbf34b20091e04d15 (-0x42d50e70107b0074e8c48e41ffb5e431602905c15671fb0f16e86d536ab359da);
  SDbl 0xdf368a6cb01c4545c2c5a6ba5b9111c1c403d23a7621e334c47cb5c6022c0fdb 0xe1025c3cd981f4bf9967e82c60f6d8108f6bf4ed26eab12b6f4b22bf4b6ba8f8 0x2f108750288354512bbbbdd64c91ebda0dabe815ec6b8747d927f31d7d6e5e37 (-0x22dd257136f800ca0dd3eeeca86c6f4c036c51d2a5412d1c326d76afc2943f9e8) 0xc2a010c8ce24f9691c98087cb3140d13432549086bfbcd3ee21fc3a81cd94915 0x14ed26ccf290da5ec63631f0eebe9b74d00337bcc84b7d2b0c0ffdb23a233e6e;
  SDbl 0xeec5b4db42ba3a41de5bd3775a6083e14a10abb8de37fe6e3409e612440b7ec1 0x7985b3b379aa83ea8d63d0f8337715f8b0df861130d379bd9d2a9a479c2f9536 0x580fe69053c25e68e4b0e026a2f03f7a8860282b11e25e756fc71436aa7ee87e (-0x1f98404f2694921de29cb7420c0c2aaeec444022c4cf08a025c364a2d195ee231) 0xdeb434f868003d89a8c40ef5489ca2309d460644224f03fddeb824c787ae59a5 0x6085d0ba12750ce52d74bd7bc837133bb7702b5e15c3d1fccdc110611892e573;
  SDbl 0x48a0ae358c9999336241fb01027fc9dba574643ad61c786a678ea14053b12af5 0x79f63418772a18f68ea23e2f672a88074eb951a8d12533ff0837be6d6f6569a6 0x8be2cb1e21eca7e08554f55b6ae9094949f17d1c08d3f8cca08981272ac8779b (-0x7b177fb041c0fef461e676c3615c62c3c3151cbe1e80c7f282bc21e15b0aa303) 0x149ac6d86d2dc35925c157948785b9d7726ebbac19b4c7a3a8c6f2055bc54599 (-0x1feab935573f4e3a37fde6a9c87a6d7689e25c3b643c7c845c95b001e9f0b7);
  SDbl 0x2d90dcd35224a0c8a455139355fb3aabfeec44b9db9fbb1c952f2a458ee112b4 0x67bd2f07f3feb57c2340025e5ba55564fe4a92a27a339fd3616462832068f65e 0x8b6ede4e7be2e5cd57aeaaa3da2a49089ab3d9f9571dd81902c6d207d4e560fb (-0x7c83f23482c2ef1afb2834dc277d75f5a9c010a8f0de6d38b11da445176f370f) 0x81c3f9b7f356cf661c996fd7858480ae5d976f7beed9758dc8643b46d6dfb1a 0x33e55aecec8fafe9a850d5db2effd3bf0c0ea7b22f99340f250e2a673c9b9f6;
  SDbl 0xe129a28bf4eca7407083504eeea34237dfb25a24f0df9576008d8426739a5a24 0x124e9fa3e6d55055a8989e642603339f5d83935d036af4c4b6de3b595256049a 0x9f6ce27bc6f177039b04ad1e78f95b34bfb8a7b4edac664bb3ccade0cb4e611d 0x7728e665c673d58270251fc67be323ba912338518f30f702e1df1efa73ba9cf1 0xc60a3680429c16cc82061bfefd9588a47e1cd1b2ff68ca7c7b0313a2a81a9c46 0x4b2410fadd3d14926732030a1b5ccb8e72762ba09c54a760b6cbde7c80a2da88;
  SDbl 0xe8100abcd21360883b708b277c0cf914e386b6bb3766c6837f70476aac59f85a 0x6f566ccace9b3a8a0d2b38173baa6efb8a4ee8183487c3174c4ec4ac616f8a0d 0x9a73c70601bb6687498673a7982fb1de4afccdd71f09481e765c371054fe926 0x11d1be1b34cc47e06960c40f5794fc87b7ae80ee68ef3d666501137cff1390d85 0xd25d1478672dc18a20556466286bcd3f6b101cee25baf0f208fe9f7f7699139d (-0x5454e64f54e45d7ff67e6003766dd3b8ced412c503cfe884864b44b37e26634f);
  SDbl 0x6ea50b054ea602879b6685d4d8f20423856e29c95922d8d6b38b65d3ffe96b2e 0x73e3fb9e2746af3507502ca6e3eb5c4d1e048b37f27eda184e5e4bc3ecdba5cd 0xfbc7f80a0c1d92d857f2a7da227cfd91086c408b010eb6081221106d0b762d2f (-0x88ec0436b8cb615427acdf5cb4481c5a194d103e3ac6549e266483963da17fb0) 0x2fd23fdff4b9c0ea2ff183ee6ad91531afe79559b8bf822725dc02eec51f3da3 (-0x1f7c2ce0d9689bc573981db36f015bf8d01c13f8cd15cdfdf9bda573073ad2b);
  SAdd true 0x15997f2b84525087e7f2f0562762e224abfd4065eab5dd76785cc09d9db7af58 0x85d1c5abcaef0063455106369da5e3dadd7f0ef7cd086143828d990e47f3a8d8 0x21f4e92a90b6aade95e000eca1e353243469f12ead37e10081bdf480544fc3da (-0x57e9d6942a7ddd9d4dc0705bd2e6dd715ea70fc150e6b3f3e188d648536487f) 0x1d28ae666b86b30592c6a509048483b5654a0cadf89a9425f8a478d5032552c (-0x1834198e588f452c757434074185f5ebfa996220151885d2c0d9f76fa077e2f);
  SDbl 0x5a55e15fc983e9a8bc3de4534214a15bcfd60eda8a8a684f8654ee431e740967 0x752df899409e5a66a72a3515f956575b63318a72134e5e92c28490d9ed74c8be 0x6593822e9af5cc007141a3ebd18b45d445a354a7c7583ea9b8faa560fff6d39a (-0xb9e3ed7c9ec68e1129a3011a1af7278bea5d3bee2ae65045e92f95e8ad404aaf) 0x1fe07f46e996953bc74189e461da2ac216280f34c10f024e122fec3fd3abb2fd 0x5df2b21d2c706bb8188ad0274d3819818cf8bae14da9ef20363c313dd9182fe;
  SDbl 0x48860814df09dcf7a25188156e95a2fdb0856b15ae45956058b899c499d538e8 0x26003c0933e68e2af0c1158e56f63b5a16859b60c89a9ab1fae145a3bd5e421e 0x5ad2a59cea8b28a9d21ae572df05315bf6672e263d27009c324f9013e0f9efa1 (-0x675bd26864498294c967dcbf2b76b5c5d4dec0b9bea7d783be3cb80f1d6aa017) 0x148baab8481c04fb2053ff10cf248d006fe4e9af46d3cab36975647a8991815a 0x166e51792fdbcafaa0ae1967fa2470d16ed5e1691af8bc9d45520620bbf3c23b;
  SDbl 0x2b38940be8988d9148fc1c91fd7233bf6ffeb93b86c15303ebe3e9466a41a1ee 0x3c5cc8ba4d5b8aaf35f949a519321266f2e31760c818b482961580dbee9fb51b 0xaf989e287ffa4627e8247ac8a378d391b321123827328916a495385dfa9673f2 0xdbeb35edf5b7cc270f584adeb9a7dd396652cff02eb01be2b7dce410d6e612d 0x74c0e3d2242d6081478784d2547f541eeea3f32dd7499ebab01d70eb0130013 (-0x3c67ccf156c55f5f681a7827aaff6a928e9298316f95c6f78bf80ed3c089837);
  SAdd true 0x8d182b381d78e5801404fb2e2e480f483356f94d6abb920ac75c7da921e3c2a9 0x74dd61246a634287a4736761db4cf77d4a6cac29d061102c92a2a33de5997ead 0xb9817caabb55dd84e9098eca3808664ff5c9caf4a104f3cadda7efe799872c9d (-0x549ae8178eed7c1868ded264c90781d14aa4f6cf9a17d888016d8553a2b63de) 0x4dc3a1e4400c3b91e37f850b440d449d0081efb8ec01dd2dc34dd9aea9cb14fe (-0x1f24298ad7508ccfb21b7e5d30635b8cb754ea564f861c91c20a5a0987c5aa0f);
  SDbl 0xf7ed2a6f8f74fcf91442869ca3747ffbb793e11fd6e62f666e750a3caa3fd7dc 0x34725ee3f266153cf329afbfd633f0414393dfb5fe3a2376edac82aac0ed1f5 0x762f6ff09b896fb87757aa200ed221a4f995b0abaf1b88e14b7cd4df72d7c4f3 0xc7437765a189983331d91ad80b584e80d1c9a8b92e61ddc2122850031bdfdee0 0xf01b839bd087ae10f5a893ba5d4e2ac76b3e00ed09fe39f5f904d4ea52f68a3f 0x6e012e0aa86055a9618f330a9b8610587e30a018f092fe11fb1e6ffb70dbfb70;
  SDbl 0xab675cc47a35d919fd417905ea2f3c0d8028562b4fae2ad74d0841dcda95c204 0x7e1fa6793da541691d2befe4734a5dc6dacbee418ec1fd3680e1cabfbe3b77d9 0xa58bcce81ceb59d171029a28a2cd0a08e20caec85eb0051377f8180f7231dab0 0x9e229362b3b6a19881d3258e0466dc754f65a10d818ca2b339307ad6d4dd69d0 0x72c33faab5bf55aa31d5141ab8f28829d0ab55729e4d75055dc8762adaa70bb3 (-0x5240377cf8c4be5aa5c8ca28818cd70a65d33835ec52796b7a9f03c646d900cd);
  SDbl 0x2ff3f30a9f5e209d59744b0261ac30ae554abe5158be1c9f606e3a26f0b882cc 0xf3ee122b262174a30f2b9f58e8aa62856058858329ee1cbfc11b66c7839237d9 0x9f0c35067e2a34ef08d2a12b1e1307652b0e0a9d20ca3d8d2a943a126abf8180 (-0x7c64ac625ffc7b858565b80cb1fd821ab1c43dce6a32bddc59437dff482ae6b0) 0x8fb7bb53c67c35e76739ceced2682f5d706ed867b91671667293d7c37f554fb (-0x1611288dcd403e2c4b19f8247f6eac40182fda8fd5cae2600d57bb1cd46da3d0);
  SAdd true 0xe95a2fc0b6f7062b4eda1302f61821d123df8f0520844ba5bfdae17ac5d3784 0x8fef4d76bac00096b1f5113bdbaeed8b007b02efd830c0068cad572485932347 0xc07c0dfb50c189dfa534f6d1e51385f3252791b41871748d5fd0c3372c9f4c81 (-0xb012b898f796104b1251855868c804211dfd1f4ca77e71cc8c4b4c6f31a1d98) 0xd4b54ab33e2bede013b9a8ddabb48510dabd8c0418ca7807f635327a7fd3d7 0x5b261b40c4f7d23b312b83ce2490ab9ec36e11ee94e52d03f3b2c124162d4b9;
  SDbl 0x60c6b0e5a0f1c27b77715ca555b9fa15ee142a346dede35efa9dce74347270ff 0xcc798711e8b579c2759d8da51f388a3c17a27da3b6d73aa7a63738ac298521be 0x2af2e64704cd35db79ef3172b6b173542ad1e089cb3fe0286b7f4106ddfba551 (-0x613fd44f80081310af88fd4c62ebe6f6239bc19a5bd9fdace0a3653ee7fbcfee) 0x24959ee27abc71fdac6d075ea230281beecb357380dbbd835a7c6accc7af4a4b (-0x16e2d2582b74332c56b036b6c1dbc28af9334af5220404162c92c48c4b0685a5);
  SDbl 0x96fdd3ba683b294a3e4b681d9e35c8db18cd0970a224f8ff057e5eebde0ac14e 0x3353fce42672934d8758bad5b8921e5b4c8e9d0ba3a54ea009332c5081094d56 0xf77e0ead98bb754ef2fc7a975ac61c85d0b49be2e0e8b15b190184ed15e915ca (-0x1b74be9e0e4fc5a00e39421491913c9bd4dec4039f795ce86b62d9feb4b554453) 0x590e6fcaf8c298aabcfa9984719f4de10b4c8de5e1675914b28ec8bde004dd0e 0x5a53d7ba2de4c7b99854d2bc51afcfe76742f6592e1d34aaf369c580c6f79b6b;
  SDbl 0x89c764edc3921fbf08f594b0b3830c6d38f31cfa7e14419ceb9b0e53f294b752 0xcb7b6a358fd9a84e51830ef66f1dc6fc777c1704dc67aa8bccf228877ab1aca6 0xb14bbe888214483943896d62e5d5728485406fb61af45a52b064175c6f01969d 0xeb86bde528a89122efaeda7e90fe67a14b809fedc8b52a72ce6879313a31c941 0x4a270554d6ea161a8444d3888379b35a22641f7e1d671633dfb32900faadf10e (-0x51e39c23950598acda28661e226dc805b086b7a4855dfc58e91b87426cc49bf9);
  SDbl 0xb1afda94073648f712afccf6d461df49b27472dc1a1df4ed69d61ffc2fe76a6a 0x195e857a6cb68da1d9ba6cfb1ed0d6ec3c233287c70858af9db60cf0ff4c6385 0xed8c5d6f0318eb731e5b2333f691c33f98554f84ad66f2eaa9caa184dddd83e2 (-0xef1890082b8802d7d010d72c4a6ccd3e9cd182bb66bef27e2febf8e5756e4b1b) 0x7b54a50dbe50040bf32fd6d4e2bc52dc3f5b86dc7abb6636f60c670bd127c8ed 0x7ba053f9d358c5a3e7b7b382e32fdf0561874fad6d6482c0fc49112c38e028d5;
  SDbl 0x90884f09563cba78fcd207f0b8cc1d926747555021c50cfacf165f5d9c9ca3ab 0xa49382896a0f7437bd3f7d901f09b1acbca20e95c8ed7d7f755871fe441292a1 0x3ecf02aac99fdb51e2fdb6b24c5e5fc3dec07fafd7963b4d346ca703e172c7d9 0x104b01606857fba0b5d93519f04f8ec4f54b498b5152d1ddb066a1c59f3a86d5c 0x5199a17ee4f0575dca51e3b1ac0ea7296b8640acd945ca429a497051f9a02572 (-0x4e97ed799ae9def2649b13bb8338d2b28458880f4229d3ded016962a5b3f6891);
  SDbl 0x13dbced1f9abfe12f563b811be0c5ad7e2547932709bd3ce682931151f9900ff 0x1b6394a4e9013de7b429b3567128c65ae08b4d430cd3f87008d837fceb5373d6 0x1749ddd21ae52d9cb7960639cb05a511d022e3f99d91f0b16c3160dbfd628ce0 (-0x133a966aecd80c13ed78785a85de8c69d13a55eebd1060477b544f2bf222c068e) 0x18a5d6eaef1ab749f09b713a383402b08c1d571ccd31279ac78ea7380a99b17 0xaa4597d9a0dafa3ad919a38d968c8e549e1e818828af2eb7541afed7c22a884;
  SDbl 0x3fc08554a13258ffae07a860d23402c2b2644a48051fb31c1be1aa9e56078f6b 0xeb9161da5f2dc5ba34c2dca3c97de738681d69ec292539ca9b2fe04398c98806 0x38d527de8c10f18c1dd93ef2a103517a69f55a45ad97f53fc1d5f5143bf779fd 0x2cee9f708794d13eb8e5912893e6669fbb5b9e44d9843584c4ac6098185e169 0xfe05267fb99f133d1cb3206b02d9723a090999295ba6480a8121794633db8f9 (-0x33d7d446e1bf4669d3e492fa47f400f9aa1096e91b54fea211a91afda3b4b913);
  SDbl 0xc948f16767536da6b5c6a8ad492da342ac7cee0e1a16fd5bed77004ab812312a 0xdb7ae6774c26138fdb9bb337d6d4ebef73b6d4041e3e01fb1b6f527a51c1b4d7 0x6de9524941c63a49b5d30b1d304097627b86a4db0d92b1b07f2314b53de67366 (-0x230ed98f5c9e3be25249f7f8599dad1221653adc2cde06164ea97f40f3c63c09b) 0x9e439fddac529b4a86d52bbc44011ce7d8143c1c34e741f2e9e47ec22ffba9ff 0xca63c5f3426d50661330b48112251852db517fb3c7beaa296ed963eb1db48ad;
  SDbl 0x598ec5c9df575ec53d095c3fb582bffc008b2af0170068dbaa743274270026ed 0x10c7a6bf6980b76d35f668b30f6fb6a67ae359a95d14c773cd021030e540c2c6 0x63a4e1931b93325877b37b2e15bc8ed05e7e454132b4324f4b1b0cf5ada31678 (-0x1e79bb00efe345495acda3af759ced4d109979bed04cb016e533a09c36d2ccd2c) 0x1f54952681636ae5ba8b5a03cb95c5d1d28dd99e6f8577318bcfce814cd8f50b 0x46e95d3054516d318271852acce34aa7a7404da60746bbf174503701bd3aea21;
  SDbl 0xe65add22b516d0562fb6c6025422418613ebe29a3f28159f71e10a834e1b465c 0x78d0f176170599901e50c3ba8c7602d8dd8ee7e5dd27722be231119654f8a193 0x230ad5ad09bb563a4484fad0670994e033281116aa149dbc4933d5ad3889c3d6 0xb0064fc38d1648f42544c34a0880d58cb38428652e44016ef55018d6bec04d29 0xcf47659b6818a95ec04c0b96bf5e3141a87f4c5391ae53586d3f5e0824bbb60f (-0x5d9d4642e20f217ea98d89b76a887cf41f6905113813be1a3db60d2eb7340606);
  SDbl 0x5145a518b573e80ca664b0b1bfa147b0b588c00f6457aeaddf21e7bdca0d765a 0x9dfd0fd45799d0ef88fc42d9da251caa1dd0012f205e71c4e2cf60206aef77a0 0xd0e61636829a47a05ba2a20990efc981eacd20bd0a422dfa5db47368c579a8c9 (-0x94cdba7715e66729eeb2cea1ffbb7853b51c1f824d80391d6c5b85a09cc44b40) 0x19cd256c266b2b092e01809a18bbedcb040b413650b91099150d16edd105a322 (-0xbcd127913b1fe62e07f91c962d6b565b769f684d6bf492e59d5cf3661e254cf);
  SAdd true 0x3885d14a5636e92f1480ec69a8be484d4b75a1135f6e63bb89893217dd5d9d3d 0x1cd627a2a690dee72dacea94b83fec953a27e0a0646b457a8248eaaacde39800 0xa61d99690cd561f97440c1b60f0e98a6b2ac031f70e6b2c4884adc982725503 (-0x17ac614fca904e8e596fe6883df1bb97776a7d6e01d7da2ecf539a300bd3f574) 0xc7ad183b48ae2f235f5377b482900a66ad373ec8b560cb1297fb7a77b39a3de 0x1c840597e15d69eec3a347bc9327bab5436da7917ec5b883417a5e1e36d294ac;
  SDbl 0x99e51c1a8bdc21493b5982cf4a33618178843a027f0bc802ad2feaef744e43c7 0x8d5006fa7fc8281eae6b5b2fb5ae36fbdf95fae51747a558aec57a79582166a0 0xfc93396ac61bf63ad24652139b4535be122a7abf0e95765a6e22c52f52f2444a 0x2bce7f7367f448634b5f4eb4a9aeb83e74826d74e5050c36cf5877392ac4353 0x5c83a8a36244d19954a18f63859ed058f2765c0cfddde62f6763f0e33cb2d1ef (-0x439d7fd98c46075ed78ba2601647fb4be30fa93c77fb8ceb155d6d7612bbe853);
  SDbl 0x6357671deba24f580d86a29ab9550ba522f853cd0e863cced960bb76c9d56243 0x1201963c81c7f69a03d4578e4b581acbd75d250c4945bf156d3b47ba67ea8065 0xb8a978fa858c90e27ee9cd8cbc21bb66746951033585a8c5db3a3cc2d1c4b4fd (-0x25fd6c29f034c9fe9ea21e14f3b623a2e1114974ff7f09fda6d77e63e310babf) 0x268cb7988aab80646a7d0d142f35e7a480da31e420a58b731520febf38f7f01c 0x2fd96eecf2633a354d0db7f95ba4b71f23797116aa27a1bdeab07160601f21d6;
  SAdd true 0xf9f3e115d79905153827f742b0cf27884ff09e36050b2e19ef2cb27561f41651 0x821e9cb2a59f59903bb4b978a332ab3dda4eb4689fa298c6732eaf173ddd61fc 0x94166ebe1ffd1b4cb2fc65a2036d49def241372af8dd09ed8a77e57ae9723301 0x1ffcf8462c159aa927a33ed3a3e6bcb05813b746431df0015d5416797b0e7ca1 0xf40c543286d2b36d83f5927ed78019739a80032fd5ba5dd54a4c50aceaba5187 (-0x6d7709698bf24f4f27771e31f17ec4f21af2be66d89f928eb40b240378a0bd3b);
  SDbl 0xe06c1205ed33ad4c9dd3957aee2c2a9f97933dc856f5023297d682c6c855b547 0xc3274fe9f00fd429f4d1f7e5a9a8ee24c290ee588deca312fb98c238065e06c8 0x5a20a59a2c3f00278cb8dd0bbeaed5ee4befe9210e018f50f3db4de4a24404c1 0x3d3af928ca84ac68bbb7a087cfa5b8b42475db994e79db741041b2e8d7a91b9f 0xc4bd4d2a5a1cb5890b206a249501139c93918726d016b0fc7fcb92a1b095510f (-0x39031110538075c726dcf67051e684508f55a9ad029d66d2387d2f87cc5bd7aa);
  SDbl 0x2a436c43fb66db33bda6e80ebd5cb334bb0867604c89e24cb1f719f2980e2984 0x24ddfb3c4f8a569d3e6f010a3a787e992fd2c068930332c617d943e734950f70 0xb255cbf5dd929ba274194e7a10387e769d13af2300481d638454d0a40b37bb8 (-0x1a08c8db07353f17a17b8a2856ee1dbbf9267b08c6b68a5c6438adcabc39cc44b) 0x6fa31482ed6f7383dd440ff83a9aece7578dd24fafe0b28d11fb0b1f02590f0 0x1a21b806b844897fb0cc4f6a9c54b42648a4660980a9c9babf24529fc0eadf19;
  SAdd false 0xfc608db647214a5453d530905ce8a7595ac8d25ae6a02be638ec884e3069f921 0x91dac39a3f1e7fb8ec8f67319509c74e889cf50145f86aaf356b8173cc503c72 0xb2486b462f4fbd24ee6fbb5eba9c1a4daf10ff298aab212cff18e603636170f1 0xdb456592e6130118f356c0bdb15123ad9a9b6c90baf777a3784c4b3862de470 0xf8ce3b6a6bff6adc1344122bc6e697e28ffcb1fc34c8aabed758417d84ae8a68 (-0x6b71f05cdadc17ed4cba58c16c71214b3289457b125328188704036be8315415);
  SDbl 0x2d62709c0a70cec5548382c4ba7a1f5e950621bd19debccc75f8e17fd8e90581 0xa2a72f6e65bee5fcad72ad879fb3c54e7493acf0a61db11f4ff3662bd662ea3f 0xd8bd40528adc81680f448ba9a275144e434161247138e2b66da1fd6a209935ff (-0xba16139292061485059949998e5da2c26446e9143804becf180174a9acbe5499) 0x80bc1714cb850c06a58edb8c3808a96c80eee62b05423629c3023b0ba131822 (-0x2fa64994169495eeeaf997da567c65843e27baf448ab3289fb4f04ae3a1c3c3);
  SDbl 0xa4413f86b04c50fcb48b1baed2cee3209ef589a9ca96017876d20b82501b86fa 0x904ac174bd3f555127461c849da129329bab7cfa8d0b2ee742143b7d598526d 0x3bf33c70839ec2e44b0c62a0932cfece0c4cc5ba0feb754b5d54efa245ae48cf (-0x1fe7198e688ce0663d8b32e7a1efb40d5a25e6ea2b3c1e150bf22f6a4bd4b78c) 0x6963aa064d6e8a2dce3ea3cefc492d9a570da4a86d85cec4574046d582777ac7 0x629344875b7c1177889404ac4509523ff1de90a77e8d7f7acd920be5f1d14fba;
  SDbl 0x57962d1c57d65cde64ceb41f72847e71baf6fb2e63b0f4648b622f0b0a4b185 0x49f23f04efb51417a1d01b79b9e30ceefa49265808c565a18d90e791c18ced38 0xa6e56c5973855b922c1119fc468658a91fc8c50abebfaac967ee1a1456c6c7cc 0x19c5e059bcf26c63c0c0549f79db4af132d69ea74a7231301e75e62c8f02222 0x1df76ac246d5071af5a58e78b0e5e67be0c32b2d19e47ccee063969f3c62f9 (-0x1636d393e33d4dd1e4b99503bb7079a68457a3e235cff77336dc27ef46428ee);
  SAdd true 0xd0bb3b4c9f469c73ca5c6f2cc796a21062ae5b49b5ebd8981ab430cd9e3e91ce 0xc4fcb0cce4fe0b061f9ca359abab91459bb96ccfe398793f95619acb62a7f85f 0xb147d0b1e4a08d971fb9b558f36377bbae5e1a32ea73b1c43754b0b1bd40c3e7 (-0x12e5f9577b196c72be98f85f4ed861f3a63eec6604f0f0cb0fc9cb4a5015eb3e) 0xaa30c94cdcb0a10b17d38696ce035a3ea55d5a86104c80a369e8b8b51cae589a (-0x64527994348e381f4fdb954d04fc40dcc50b25390f4f27f405ba64f0317263eb);
  SDbl 0x4e717d014ee7c561a80ed754012b4315733f417bd18be4e442fcf76e5e3458c7 0x320f42ebb55362ae09ace8c37de195829b6be2ebdabe93963449e12a1965aa7b 0xc438f1bf8edff47c1f79e52244ee7072c4dfecac06ae9fb0f9378213a39082b9 (-0x15a16c6bfa87997919d7744aacb620132c894e0a67ecaf23b7321c407d078c762) 0x18095a7c7c5086704bd2e5c0b3edca86ac3bf8e0d2867df1e04e4dd68b143088 0x2d057a06f8cf42cf26eeea7ff20cab46f8cd130fc2c4776db98dc72d19305a64;
  SDbl 0x99f65af8c2fd09bf4f9bb2bfb62ac61c77d41d78c7a4707065fba37214df34ee 0x745f2e433e1414027b70987083e06576923de48342183d3b868160b19e6d193d 0x9cae140010342fb27feac6499267c6405d20a11af3f7bb2e9f476439b1862626 0xcea7d4b6d2f8c857f265ff32ee8a6e2be8bad9a869ec8e9f1b541a2c79a48d4c 0x5c9865d0ac15749a5e8c7304ff4124c9800d67ca02222e36827b482b5fa2e0ef (-0x27e19404276505e488359afa8ab547e68804a08736599547e984b42ad882f6c5);
  SDbl 0xa608804eea688ad031d6aa91dd1ea12a7a7e46f9db3abfca297c756197d6d412 0x3d78992b2bee1b11ee9acc7656042bf591ba590788c2b0a44248f2af63551e61 0x78d0b83a8623ddc5d13a62fa8cf053082afc636bcac9c79a4587154419c8b49 0x2c88f9ef42fc9c311342ed6eed78f89e59815a36221ad7cc2eac27c7a3b89c40 0x6baf06af08ec43f9efb9d7c47c873dfcbb0d528cf0bae040512767fa26697f97 0x239b57669f332e246adab4fbb1ab40597651fa81b12d7e315d891c1677ccddf7;
  SDbl 0xd979b78776498710ef6d41c15877e5c8e6d452174520a276c7480f18af3060fa 0xb5e7d105098aa499ed1505d5e2fcbfae4fe68e1655c4e5527b0354a71cea61d4 0x3fa83abfc17908c76341cc6efe3161623a85775cc183231b1d0528c67f317d74 (-0x1f73c9bdfa7d312123546fca2297ae5f5b0092b8d717614e89083b58f5882854) 0xb8bf930360e8fe4adc2114d971c3e2b7c0bded985f68f9b0caa2916b95182a72 (-0x664f8940b45c0520b7869b1a135847887cfb2e307f069c87bb47ef81c792f8f5);
  SAdd true 0x64c69869f6b1cdaa42626be7aff799a4dcf99990a934f6d831a58b72867dc67e 0xd53ccef452d1193260c193b1e7ecec32f6c6ef185d93393ffa10e57c82849c2b 0x4df1c3f17104489bf96c7cd2e3cc4a0c8d4c9222bc4e0a54cb62ed0172b7d50f (-0x339f74dd0771e889ed20cc9fd458909ca5e4e65fe39cbe6b7ef1077caf8bd26e) 0x27abc1230f0e45a9a618f17629154c8d599e62f38d8a452f27c8f9dd79c84cc2 (-0xc5581955adb5d3961d924d9ea86aba35b04d7762c4b2a7668160604bc93acab);
  SDbl 0x643680a33b034e104eb9f972bf1bfc8f648866770204c6f3e81d009b7b0bd4cd 0x3696580ce737110f05814818bf4255233ea33ad4141c51e47bf5a709d52ec08e 0x628d6d91d872dad87d063a017a62502c9f73a9fa797499463e62d62e656cc760 (-0x1d7d4ab1616dbe7c6aa7e4aad56bfee38095fe424d67a30df5c02fc25a5c0c45e) 0x273aa01a32d5bd9361187c6eed8ee322db0936d8feadc7216e2d62bbe1b5ccbb 0x3e1acd481cf77fd5b925661c1bddc570195d622121d3af3b9a431e8c11c6bbb6;
  SDbl 0x1c3290ae4f44b38b74776f71a2dafa39a609753e8dd4106a835b2e4045feb833 0x93a3ba54d2910820e8366a41bc8003d3ba57716a8bdae2f1556c2eee0a8decf6 0x372d0ddf58cb01f8398378f37fb5de34121d0f02a0ee68b3aedede83f80b7e54 (-0xd3571b6452fbe3aa45395a64a02ad6bc81d39225b43ffd5accb36c7fad983f7) 0x31b19a2fa4da79cc22db47dc7d07585e93e72a71f2313818a63c2c42d2e13e9 (-0xa3fd7f3fd3b01f61eb27ec579d68c3a43a9ca0c58b4bd3fc4e7cd1481772194);
  SDbl 0x1eef30bdd3747cecb7365e4999bbf8f4d770dad93698d768fccfa85219aac5a7 0x481ff8111778311c31ed86c815619857426c0ad4b1bf9ce9dad974291d7b7af6 0x95b13dc59767017efa5a9af20477011a40fd9ada9a5486fa8ccb70a4f4e47a02 (-0xf21aa7baa5c4c5e8625e8507517438ce46846a9717c6a4dd58d313e13004a46f) 0x3bceee88d04cbbee1761686c20dd9403b73154c209d97bc823b36837a30e1f1 0x91fff27095ba94b9d4761accb9c93b7f3ae126e316b2758e1942ee1602d9a56;
  SDbl 0xe4678d271dd4b53bde109fde161fbd249cbfec4d059f4a861808f7e84d2974a4 0xb71388da7690486262e829b2c9b83d3a36c2c5789b01ea624b33df3511680c92 0x43a61288aa2375e154b669b5b08091c4e07a29e597d74352c8fd70b9e74d5654 0xce26d124909c4923038947a65c750563866337c90b4aade187b5e52842680a99 0xcbc89d515c399e243fe0f8f0b0efef3286d44bcc099781cc052cef6612b1f96e (-0x62fdce20177c4540981e0d29108af6110213b069102e60cc7ebf6e62704a37ba);
  SAdd false 0xeb820420d27a436f44e7e6ff5a0c6836c4d03d2c1432ca670149b3dee7fb83b3 0x2b02d78186a44c47d211bb5033fc8483ee3c5cb342958f420434da3f9cf84534 0x8cc0acd7edff90541cce27da575f3d2d497c9ccd2a88d22bda02002237ebfa2d (-0x79b794ebc297f7272589b7119cfbbf37233aa7d8b13936846331ffba9b864304) 0xd8a7f59d4c7b3c612fb820fff871aa069571cfd64f6f67e65a1063c152ea1764 0x80da75896c4610fe3ab4caf952bc11e35ead554aa470fc1dcd47baa436e1cfc7;
  SDbl 0xd06258fda78469521427b43913decb6eef34ca878517084fc411aba9c909fd31 0xb040ffae7277170f8f298aaddbf6fa44edcb5093d6e94ca0203b426193516253 0xb26eb87b68533f37a8729d24973912f30732685c0ea60d238530fad4cbc6c74a 0xcf7760f6a7639bf374e2c4b51f6562a847d20ec864d225444147d3a280628073 0xa99ff6651afac16ab05154aa6cf5113ab47a08d7172ede0b1ad286341366095a (-0x6c75b0c1b0b0d8be5bb2903cca93e7b78ee53bfc40daebd7c8b4f69c6660089a);
  SDbl 0x310dd8547d798df12e34630407e50649623f7df941b3600441a9f94d9bce09d6 0x65f7ae65171f5c9336b9befc5488e507187cdb6be5e969f53a96bd498c4022bf 0x6fb3ad0b3f1445e9f04e0eec201ba6083efd5a627838add9d8fa2697714bf6a6 (-0x127aaa0c4aa3d34e0d712c68a575368ff5ad1fa2ecdef71b6717f32c6f0936f00) 0x9664d9010d243de83cd15abda83bda3840cd77df662f560ea99e593ba1a2881 0xe3c0d0e9a7f1ee179586e168745dbc3dcd5b35d7c924a5c849dd232f4536438;
  SAdd true 0xb88bb2ef21e07083b74a5eb134e9c10b497d3e93ecc66b6d08698e01b14aaa33 0x25195cc680072ec4e5c57088b69cda5e0f045986ce7cb8b39331a64745337cde 0x3675a23cf65dcf0fd64208bcad75a66cb911bd12f87321e26cbe23523a70b50d (-0x24e898a37fa6c15d0f2cd994f8c9dd4dd4d6be56bb413b4c5e43ed9e044fad9e) 0x85091d74127bf367fb04c8e44144f3678c092e1fb4eaf0c2bf1e6b92a81c4e3b 0x2ec330b7a95c9b7232279e4f6862b2752566609c129044a6352c750d9a0635e0;
  SDbl 0xbe90e47433c41d57f1f33c863b9f948ef2093e931858eac2deefe0d0cb938517 0x3f30d3c161faea49338b11ee9954dc01aa0177b478eefec01b02ca755ae55966 0x1b0823ae4015b5d4d994ac87211d9faf646684c04982da6d5195600ef68c7ff4 0x40f33c5e58a682076ea01bdc439d5efb7b86d314e1eb2a8d12514939d4c56733 0x8ddb651ed94bee42afd826588c087fd7c25e1128ac88118841f0478f4db16b11 (-0x136c2ec9f21e31a3c5eab5150ec0fd6d7ff6d2f836500e36fff99db3fa5d52c7);
  SDbl 0x872fd553879e275f3e6a98356bfd97fceff397ce77cc5ad336a895cd7ece90c4 0x4b3d1f5a47b61733fd26321c030b73e6e5875d47713c63df7a7a6a495dbafe8b 0x70a831de318a61bceed568dc897cfd0af6a3183bdf26838cc660d274c53dc4a4 (-0x123e84efd314c691a09761b654d7289b366d752ca18d735d6405ba6f5caa2fb7) 0x47637bee66dc3075b593bcfcdef2134f8ecc5e2a5bc81acd3518001dd6389b47 (-0x65cbc29b1d9453c9ddbd60f5aff624182dfdc0047c1e97ec410f6bdd1f87b14);
  SDbl 0xf53cdf0147e07f030b3ceff8157b711b9ac422b3f1af26c36dc76a1b252841ea 0x797da1f61b73f266e6d85a0c8c0ad54c0f8378b853039774a650270d3d53c8ec 0x3f118cd6365f8a241e83026ac6d9e687ee970a4f1a90f346b32102d16fa10ebe 0x9580e5acd749cab7797200a7744491a0d5741948715b2b102480340ac9359a98 0xeaed9152a95e30e4c784afb2920c9a5aef51ab965f890e77ab00a2e1aab11c1e (-0x2c4ebc68577bc35bb468c9fb4fa51884a9efa163827ce4e5eaf55c8ef9ed8ef4);
  SDbl 0x204ab2bc21796722a683a707783adbe5299e998eef1159d72174c045e39cad09 0x147d414165ff9358621dc6d259118051e0f90f98a68d14eb4ddc8afc0322579d 0x1f91f6a8592d4ecf53a6115a1a7f563fd70f3bc84e6ee55ec67209f5e545ebda (-0x9d0ed0db2dc619a3d471e2d9e818a04dc86e99b38d543bafd0b5d70756a308af) 0x412c27addfe9f4129c3fdbcd5042d1a19e3bf069d5688c1f7f2d77b2fdcbf24 0xcbd84b7146221725e2f39cbfb1a34d7afb1e326e043486090d6d3f3c6739bd1;
  SDbl 0xff39d99c86996bfe9942b58c1e2dd30cf051cef703640924b52c4a95648a24e8 0x5d61af8d6da57142e0aa238c937d9b72d69c621ba038ba8d60878881c8f2f0fc 0xa2bd109c61a74e46bdc575790175c0fee9b0d5c53a3a9471ab0a836a558dacf1 0x3a079f9e7a98cf26a9f20f8113f539fe7c89d9a5ecf53c116d7321af64f777b8 0xfe744c9973489df52ad1fa75d4bf5c5dffe2bfae7125241f2edf5108bfc58df6 (-0x48ac02b0c63cd87db583f5b384b14e54d37d3b2639b033e5b67208ec615a0d1d);
  SAdd false 0x626b31420f9925626816bc9edd9f896bc5760f2cdb34a5f6573c914d11c4ea70 0x4309c427d824215b023d6f07242c5b69d81a0490ce1270b8143b38bd48b7feb8 0xcafccd5a1f06f634df9634a4c2ef6d01b237613b7ae13f444692c8992bfaa113 (-0x1061f259f0760509d7a6af54fae67886a92bd906fe66df6f73c92e1c32d4d462) 0x25d63e98f07ae44234a99043205bb8ca5e9db60748a42a671e5960cd92c6737b 0xa20afedf125b88edeb410823abbc32b9813e01b5b5c38f7d7774f29863c2844;
  SDbl 0x6630c3895f72efacf3c4b8cd4de3606f1cf6cf53a49a90009e5940bdca857a56 0xc682cf07632ed5b70f94a0d49a3005d6553c367ff9312792344e15283dc68bb1 0xe8ac332dcd6543f1bfc54ba0db123eaa3abc5802331cd1c0fc584e94674661fd 0x6d64716385fb2c1141153898561a376bde88e101f950492327928a2131dc97f9 0x28cae51b89b8d853a2918953d71000350e44e06b714eb776be7ff8febf64743d (-0x347b45730fdfa5e2be5f591a57e8ae9f19136b85feaf44b0d137c47a734ff74a);
  SDbl 0x6ccada473cb778d053c477ba0b48071be8b77039cebae381020945d0d0792984 0x83d51e23fb44000b172c40e64e36a2fe4365049c9f154ee891fd8e0dc8d6004a 0xf0b216911288fdc678781d38acca8f4565f845c9426ffe7921a3f58bff2ffeeb (-0x10809c98de275f7b5254d9823b5ae916d6b09af46644316cfa8237166991105c8) 0x2e3bc8e97bffcf9f21601d09b981c830382723d113d072c14047fd0f7edf8b9c 0x1c561c88163b629f759542a060945b0fb3339fe15f8250439eaba01c006c00cc;
  SDbl 0x667ae5022b26f01053a27eefe77fe31c48394f40a7b341456af17c51421aff63 0x8ad48497b25c9c580edc00025b598d74612f47ae540b0b2fc03579baea232a5e 0x70b0ca531427957701d4d7f1d6b56986639e42ec775cf81fd8e640f68a6fc2a6 (-0xaf66870395b23c8d912cbdf58fa69c812df36ae623fa938d026c5fb9d8b1399) 0x2906297cf657331f25eb779af6c13f21e6360c54e456de24023b22a890eccaa9 (-0x2cd1ecb76b8752b975309553f226852191c83af08fb1cbb1148ea5a4a970cb3);
  SAdd true 0x2954ad82ca205e224fd3b1061e53d7290555a3cc13c8ba5a929d69d4e6bf3b1 0x16a2d62af7c697f56a4d07052eddceb9417ed713472c666a0acaee7049b219ec 0x7c36ea85a03d981d7d11fa25d55aca8e6e8ad5497d2d079d279306c07e5cca15 (-0xe37aa395592f24dbfa46c3bc3450d6e9d8f795ab31680ee5c758774846ef9f) 0x6ac3b963ed946fcaaa08bffcdc89ca6eee140e83457e7b7cde494ed3238b0 0x12c263fda82995ca6fb9912a8f38eb915c35582497b7172ad2b3ea42c5df7e9;
  SDbl 0x20e931d43ad27955054d61ab7a88526b81f73dd9a33d106d557290ea9da162e8 0x357a46f675adbf36d5156652606c576b49582bcb40d804ae446e71ee164c587d 0x8d62f3ef0294dabdd0c5a7e40dbf7c95c59c5a74348ef13aa8246d7147a9e265 0x19eed9c9f6a1e1eea53f126017a26d096b7a38b97e65a3e7fea03af5f11f7a9d 0x43b20e0d0f5c0ccfb9c4cf1db561513818a025130d55a43180725a08baa1a15 (-0x3f7062feb0008ff08c31d3f7a9f9aafecf2064b7a6d16a0b96a338f7c0c1e1e);
  SDbl 0x127732ae856d0c300dd02b065478f763eb04c77c148c55d78b121a4de45aac0b 0x50224df46b91653257fb9612dc954654047289ee099e296ab9733423fb8fbd4d 0x79723a83d73dd52b819cc9b20ad24bb5ea078f40e010c22b3a0fd121154d84a4 (-0xd1dff158547e00e6d70e03adb77ef7f45fe884ffebc28414f910a4f196aa596) 0x154faa0b460fed10988f03b54f00b5f5ff5b17fb9e512718994bad124cda5ce (-0x1ec39e01aba89735524e5fc916dac77ce40104f50bbe89bc8d62108d0478407);
  SDbl 0xebba07b547da6aacbadd8fa462be17d808550da7a7c24934d2b935d1200f3ffd 0xf20efe6a76595cfab0e0b21b83182d363ca1be865bf555d1b54bf702b7b3f41 0x80329d05e5eb0e7e3e6b57aa4e05c467e12cde133c3cf380c8eb784836198702 0x9467d8c738618496c30c6cc29fd6c5325edc3674d8e093528dd6ab0144497750 0xd90f1156dea1e4dfa18f608a2f289eb66a4de17215a3fc1b512819b652f639d2 0x3bdb7e4a46b8f4edc53f54d974cd6efab2f5d3c83ae88831e21e8ebeb96d85ca;
  SAdd false 0xe03efe113d8d0500758e5af157f4e98f40adcd2c7574cccb48503b137b3dd4a5 0x7f85284572247539694f8c469921fc81cd1bed131cb1049fd557f5d55bf3652b 0x8a7221c145f035010236b974ce96a756802fd371f5d06a637c222bad06295cd3 0x1f380b83da02ac9167199132d9edc9afcd9458dc6d1c3a9eff23efb43b9410ff 0xc46e4c1efca51c7b480b41fc82ddceaefabf0a1d24adcc7ea460e30b257766da (-0x62735923fc6b0d23421380663046b206459408cc2e5c9c0fa6a67b789024e459);
  SDbl 0x4f9c39c1b23d02da9245cb332fd73cb5cb4bcc392f65ebcf49822588f7914d15 0x17b9c8a2ea6cc0901e991b669a41d24565bc42579906e95d0a59ce64cd1587ff 0x51b1cb2437b55e434428e8351b2955b5c5ef632e5d1632a544353d8962a74860 (-0x6874bf40f9113ce6f228c4d9cbe0131466cb1eb6ec0511b06616df96d8cf48f6) 0x18c1cafc15dc8107dde262b70d1f9fb9c84556847d873ce277a20c8895fcae9c 0x204719dc6015ed6bef5bb74b0c46e3c5aa5e00be7bd31852e3db7a923b2b4497;
  SDbl 0x6dfd3232b0ffc6591b2c07c72c63cb40b4f0d7b91cce15f9d1f10bd997757270 0xb20255fa737f22e9001dca5c7f1bf0b69bf6e3c7c290a911f1ac8b70fe658722 0xb54d3ca18efae970adcfd3ed37ec6e9236560ecfd6098da4e0e3dd758e157c2e 0x3f9a45cfcde615576591181a91191f760ba71118cb80b7f5edf3b76543a9fc00 0x2f41972b9c0516cf110d442921537517ab0a5570729ec81978f2c378ab08a620 (-0x42497c22ef9b82071f9da67f2db50eb0afaa4f465adfc843372342fd9ca70622);
  SDbl 0xea8e5f3b1ded498115dca57c030917f93c23d079ad371fd98cc19921da867bdf 0x509436eaeed3df5076bbb50f0f7127fe6a72d85e1c4804e13cbc7153a447a6d1 0x4613490ac8de5758646d9e1d3d532aff685c752ff7776837c9ac838fe7eca108 (-0x271ae357b3b4bf8b2b582a4b86e06b746f374999986e6d815df4c0ac666fea9b) 0xd6e89546b2a080c125396e61b3f1154d75486dfa9b9febd9a091b919ebaea8d4 0x5944d7b82070adc1393f07cb91de70a658c0a3d658b604bc24c7970e36cecba7;
  SAdd true 0x6911f29ef2d266f846bff3f2eefe580ab24681b90a19e86b69e573c0c2d03dc5 0xf881bea9cc3d9fd43583e2d5e8f3f2730e90bcd85393d87ae461d279849d478c 0x2497834bcc6c04d5ad6c4ce4c269671071ecf7874c3bc04bd8ccdeefa09ece75 (-0xc3c361f15bce7c678a312a7eb606be520a43dbdb76add6f70e63371be58ccb6) 0x2b1fba48ad5d787871174be8dc11deeed869072c91e704b491ea9cd35929e98b (-0x44ec329a5f9e0a6819592f5a1045804f7a9af4840baedb0d1ea21e462053519c);
  SDbl 0x721f1d561fbfdc1488ee59230915f08dd21953ecb56184cc03ca819041d3fc46 0xdaac695a960b854daf49f05ec02f09a5d53be7dcba4808b392e5eb0e4ff2a44c 0x16f1a0f928221f07c0b7827920bd359d6022c97c2bb1996544b00996c4940df6 (-0x2b313137e848f95aface9a0a36a9c07e6d151c594bed76ef49a5599409b08624f) 0x32dfb9e9055eea8d6d00e79354ebd2f9cfcc257390cb3c43d589df9bf92f5040 0xd4ca03ddc0e5303d38de1ccebb88f4b622bb71c16dd179dbb534946381738eb;
  SDbl 0x7b5b165bf9d25df15a47ce02205ac305662d0016535e7f79359803f4af9e7ab1 0xbcc73e184aa0a4433630075f344e7b3b5924bb2c9b9f210c562d6c718e7019c4 0x94e8b81743b795514c53a0ebf19043bc2821cf35d558739fd1d5efebf31ffc43 (-0x21a41c22c4635749cf1f4e70745f26e672892a438fcd290778ac4f18aae4d627f) 0x3b70a7e584d859b5f2aeb570bdcecc229303e2656e5bfc208a552d4c830c33fb 0xe67bedbb88f730f25896c8a9ad87218e597780b68cba71480cc6e043e7d7231;
  SDbl 0x43e2b3d48ee443faf0108ac26c4be9a4a7884e5a9798f7931392adcdb5cb7a0d 0x4023c04246a7f21fcc680c9712ce1854f8f4038279224a4ee5af1e64f8eb73f9 0xeb53e518a63e636bd8a56a6bf1da010681cad145d5faadce551bd9e1d49fa844 (-0x152a62e5b3652955e9dc9a935546a1a3f2cf8a9f62db269d380689c5403a9e0a1) 0x120072e3566b29d0e80739eff4cb28c376307583a91b511ac1459024e8fd42d8 0x210d29d208f96e827eb7261241615e8be73e085c4718bc70779b87f1fa077b38;
  SDbl 0xa715061a064f5e3abde4fc8fbbf97517b34d6af1c78c5aa649b1e29a25f67356 0x8ed2de0c7351d482b38d01520e624966767ee4f120c721629d95e47a99883ab9 0x6ea14f0ba8f91211273b1907a9b515b93883f508bf996f6f6b39597a3d2e70bd 0x102f86c84b7c650a4fd4b06219c4c627a2c3f3d53e3ad171a7f9f6b4c57ecd2e0 0x6d0c6fb061b240977bc7df87cccd57552e6647277b02d7d40a405b33d220c1c7 (-0x335ab2aca27f7292875f3e3bf3d30a200d665bd8a5aa344223a47b58cfbee27f);
  SAdd true 0x48281bf4346d8d7399e4ae3bed10bb76b575945790bfed63cb47ad559c1f37ac 0xd1f53249d9854893beb3c4a95b39a4936aeb661edfac8ab5fb6ace67110187be 0xcf28721d009506a40330c502cd24797bf8508d856be574a2062a883bc0774f68 (-0x19f269bbfc1bfb52305d67d86bebf9f4055912d69ccd88f864e26e3723f68385) 0x14569602313203d2834b7476fd2a38a00701d34e28981f6123c3788ab612dbae (-0x12ec2c632a9d15317ec64394303d7844b1a85b7cd4208c066126cf764db36d7f);
  SDbl 0x8c2b169cf4153d60161ab43a3af22af32fcc32b3857679f4e800f32b4f30e504 0x7d76f8ae61268f03abfd5d7fe438b0a949fe4347ebf9c4c7fb71e97db9f5c1a2 0xd27aaf3ef5503407a5caf2f154096a8668895cb3d406ef88a9d59ea3e02d2a9b (-0x121bcdbe3bca0d94aff01077fb1d2b692cadf0496fa2233047c96701ab468b837) 0x4cbf27fc926fbc6e520c2e306037fa28227657f085054ce02c95c844b598a90e 0x2e43402b87a20e29ad92e07e31b8604a05dc8222ceb543b1f1b40950f2fe5593;
  SDbl 0x2d18f30ec6e6785c1ea9c537f4265cb751ac0140e286fcb607b794049c6cde5a 0x19f2ace9b6fd29237d8dfb8b75ea124575ef15357d3a4bde828dfe4f8451a70a 0x8e7a1e588c59347637224ca0276f22ec08aa8c288bbdb8b4dab012aa4242f4b0 (-0x6e500a23b2b1056c6915db0ccebc401ca85f3ff8857a2cfdd16734f3ccd1c973) 0x7f1c7e1b36927dc8bb3f4fbd68d386b58a5a67a9cda835e84b1f130eb2cf2aa 0x1187f435105aeb85a0c808d42486f1a39853fdd56b9000e21dac04bb1f8ef5db;
  SAdd false 0x22566bd921c30010d5a2340e13d07406381131dd71bdc6d3f8702f944d2a5710 0x424e20b0da08e39daae9f17730f0d0043ea76e28e3d7a17da4ba2f67685449fd 0x1e4c5c5fe914ca03c99f2a569239078af01d9055850039d5f6e2338dcb33ac31 0x354452c1546cf5089880926cb4c28a293cc0a38d2685b5b70eae312d6e903df 0x49b11d254e4c73e1c0b6fba07fd6aa9d08d4d81c458e1b18e73695fd11684ce (-0x569c519d13300d9cfbfb1c159fad45e8e9643ef178fffd8c9ba84defa209aef);
  SDbl 0x49f9079b186b4624ddf462243c07d227f8db21b79d2a34568d90c2c8b4be9073 0xe670e021e459fe14fa3091b001416a7731143ad469772c0d847ba5106535ff8b 0x3a7783f636ad9e7cad763916beac66d7539b6eebc40dfb92b253060abe8bd627 (-0x2202a3123a4ef72a406b337558476e9d861786672d35352680d65b0a98a107ee) 0x155ff896553c8092419ae4d499488070fe512baad74198d3e2437b32c1a8ffdc (-0x2f6d9344043fc6ddff7cbe106e8b36271a9ca659e8ed3354e9ae07224f580ede);
  SDbl 0x6529c206b20b31571ab6db0420ed09b6332e400ebac55a18674f4917b8638e2f 0x8f634bedbf23fed5ec3d6d0eade68ab3b905302349e600bc139e0d8a2338d9d0 0xd5a9a8028f31ca56277b83083f169f8d3632106258b62543dfc015b6d64c2c94 (-0x24017ac7ed9c5054b3dd06078ce19c5152d13333b3afe1fe54980ed20552945ea) 0x27f9f9e929a9fc737dc6b983b3bddf591d5feb34384add151bc9ba1e1652ac45 0x22668ea0029b0ece67150911f8ebfd3a9276fd365d980c5dd7c8a2b00d1f5b66;
  SDbl 0x5de28551b8df6254d2c15567c693471720d4889f5262c837c9e2baeb00c7f5d2 0x482da6260e018e19046abec5e3cbfd97ea9e0ce4e46ac1bb0edb51205df24d94 0x66be5cb2738293d158453546b158f644e4d2b359baea9897fd4d1030a152518a (-0x5438dddd64f5c54d46843919dce130d6538bbd6da93af8e23dde02fe036d8fd3) 0x226e5d4d2c7919570a67ebafe1818e6fdf47e2beeaa5adf86afc58788bdc60f0 0x1a1d7fab9a48487ac3b0f88da1eeee35842a06de60bb0f48de26b06c1ce608e6;
  SAdd true 0xe5f7664406279d321a27a05b2791619b1c81f148a6065e00df91a5db432340ef 0xa97752589ef3ae0fb4125c774b6833ac9d83776015f2c7d590d9541c5bf3c783 0x1b3f1423dee42b8f688abdf430e3a3d17272df1855bd0f35df6f1c70f02ae0d5 (-0x133b96a76b49e5b3c2a45d096973967c882bc82ae0e7500ec6806bb7ee08b987) 0xce948c0d01b592b4d1a441046e2ed99d1dfb2edfbe7262c7beb0430401602abd (-0x5764ebfbec5c075f0b962ab9d6a79f1e747945fb1e91199a6a389309b3f93780);
  SDbl 0x5ec04518ff099ecfd2c7f86c9f0b40ea59db987e88b29024a8e5834e156fedd 0xf96c6642ada17ac9398e60e53c09bbcfbd0a65203777696d2657aae2dd26f2dd 0x2eb166d41a4d9a4b9316cf2fcdca07c53ada6edcd15c3b6a3b830dcb994ce8e7 (-0x14f499303717d5c06a6f56374af0bd69b77e668a199198ff200813c36b8be14aa) 0x2311c3263681de210c86dddb58b7385ff567e401e2bd0ba5f4cfc2e0d7371a (-0x1d980ab3db86f22dc14c7cfa57a571a0299154aaeb6f7b2f96ed9a27e1c7d92);
  SDbl 0xdaee2877105aa83cbb57280c2437d3206db01861db3f22db3246ca8ea558b829 0xeb79efc099e29c9a9a42fe44298ce2411b3263cb699685d5e64f56970087c9ab 0x507f856549b6af31b98328054c6b1f598aa1778239b05bd6b48e561b6f8935df (-0x2892f22bfaf9a6dceb52fcf43d2c0b2d2c597d469dd20a8938cdac69bd836f1a6) 0xbb3a7a7ac6dcb60f90c054766d3c2905c1cc097438ed967d9cba2ebcc02ab8d4 0xbed72895cc9d88cd7fd91c4464e9f99517c6884e2d5b912d468a32eea8c95c4;
  SDbl 0x4acdaeab0811b46bdc12324df7380273f3b3b3c765a499cebba7526cac85da2d 0x6b16334299c851c5602a5e833bba2c354c4e8c3a52a4556927104c8a394d9c72 0x4904a911280d241dc334ecaf8754c2c5666c23f137c754f70c8018488aa7ffc6 (-0x25ac0358f9c87a558d95c74c7f5f64c6f06cdb3f1351af1128aa25977940ad3be) 0x15db8e3c2b9da82154c1661be8791fee202b860761408a7fc9ffec9755aa83df 0x2583fbf4133a35df4027cebbc4c10f31acf644e2437954e4d3b5dad59fd7b8a0;
  SDbl 0x46dfdc28337ef731c65d1d0ad4d884eaea239b9d8c773ca3bee2936d6cf34b7d 0x5836b5ce20510e698b855f9395ca8117063d153e9602bb0333b619544d48fe13 0xa1a91dc8f2dc3937b37ecac2f59b176b1a11edc941659926dba1317904cd3ded (-0x5df4722911895881ac667bff474d6436345a122e565300257b805f21b9446313) 0x139f30275b27755b9740996a3c42f8390c8ba0f55e600d114ee4ad0ce253bbee 0x5399d372d6d9d52b00f0fd1da53742ad0233ee2716c0b89d58e85a28ea11450;
  SDbl 0x5fc61fa736c6b4d1d24358279921fe1a7f28af2ed0fb66c816dbcabb1a24bf3f 0x2f9c94081384772baacdef4531a070a061122e4a4de2d287419231641a8fc8c0 0xe6fd762b06928028b627c690e6270a20ccb076239d6f36f6fe18bfc708903f8 0x1dc4c3a2bb0644fa946465b54d2dfd97ae3b3821a53f87ccf861db17d078ff92 0x23d4a4d3390ec6e34a712bae678d469fed498311ddef1bc36d0a15e3908ab365 0xf309ec3dc717be3794783e020afbe69a1dd0b2419ce60f0f6541069dd4d3578;
  SDbl 0xb893eae3c9f5937c5503dec4376b5eaaf2061b60df1cb2fd880a1fbecaa1bdb1 0x3356213fa5c3b599da7c31cae90ae58cef9deb4dd090bb76f6aa426f4ee7b774 0x6c748906ef33ab1560924362fe8188233209ef38789a3ab350c2afdf8bb8f2f0 (-0x5bf25d1c9c4f928602030b0826d500eaf27c15499e14ca8629c795d9f7dfcf3) 0x8514f71f9085230e65fabcd1018b52bd73a9d89cf4d64fcb03908ef00ad67493 (-0x2af8476f6433a35a229871dca02fd5f6d1577d3f47930b243967280c0831aa4);
  SAdd false 0x3f8cb5070ad88557035c48ebc47bccdd027995dfa3de8a093afbf34020fef272 0x5ce006e62c13ac3d5d2d4ddce3c87a75154a1a207cabeec8b96b44302c69b82b 0xbb52983ee44b165c46179333f494adf47409ae5a8b6c235bf5d016136c529ae8 (-0x241b439752c0868f8f926790dc9cec2ab847d9e78bdebed0750f91d521a887) 0xfc68e7006d3f26a7681024d05caa1c452f1fa679f8de33f89e56ca62eca29a2 (-0xa4fc44d40556f339cf4716562092d1493d2281116d972d6c22b36f1e9d122aa);
  SDbl 0xba5b82ff97e81be6a6022b96d21bbd2bbc95a8f716494ffa1530d07bb827a0bd 0xc6e140454f45553d6890de5b67a01b22d574fcf1eed0df9eee9723a17b506adb 0xcd401395960abad51425f09af982877fc54feda75175d6db190cae3c889dd7ef 0xaba496a5b391ae16d1fd3c2453c794915d2dbf1fb4b0b9e8a8d2c6683900cb18 0x87a91b125524f8190b3b9e70cb4b3b15afc88efd3f005f6e38cd1931c5a10fa8 (-0x4d2ac85d46cfaaf26741e0496db1098155fe7f054dc162027e18c394e23fa139);
  SDbl 0x93f1e357a5548326a01513469bd434333a6feebd8c1f33d0d22f0b1a71ff7843 0x38eca6cf18e27933a794689ea417f747545970e58c91c57b7420d1f85e3cbfa2 0xb1bbd0e40fb764dda5795297c6e0e62ca7e8da2186ca493deb4c86715b17b2c0 (-0xe2482b29ccb4996d151e63836cf6da728b5c7dbbaca7a6938133e12e72c2d112) 0x557fafa4d2489497c7a7e18576f613b1faa11fe5e297d404edb7628360e4b3cf 0x52099574296f0a2a2e96822ec8fe98cefd6e3b498330f27785ff13d4588602c4;
  SAdd true 0x6921dde775fbb7da67a119a7115aef3ead3e5a36a462339c4cfa4640075ca37d 0x8bb49ed7edbfd4d704e33b530f0cc938a11393c0281934dfda78bafe88072df6 0x64a0301c0da448645d52c6eb922673a38d6f6c98d5a50a28d7546e0c05a26abc (-0x2873577fa893513b7311a104fb1d56e7daef3a1f952a42711875fc65f2bc431) 0x2b2ccc82fffb27344d60f66acec1396e38adbe1c7ded792edfdf8589594ff756 (-0x21fef84434286cfdfd6274fd80d725f4d3f991533502e359e6e93c2060fe8780);
  SDbl 0x7772ab4b71109a83609481dfd921bc761b615345b387acaf0b99b840ff7e7093 0xf5c0d4ca4c75c1da0c91929dd7839196e6e07b3a02e468ee7915d2d82405b6f8 0xf315ca0bdae1d5a401b3c9409e4736542423a38fa3a8a4aaf631817345aa7c55 (-0x86d1d9bd054e88fb652540dfccd991959f7a17b34e291de45ddab9ad6bdddabf) 0x37bbce9d5ca7d054bd899ad32a3b00279ec2f483cf84bd997c488c9d57df1e7b (-0x317b2d7949e2e383a21589d2fc9c848d0236d2d7ae627e30fa0b280c589d8cc9);
  SDbl 0xa72e529d3c7d93e432d5d4b78a6d32704643d94ea87932906abbd0d7a4804430 0x45d73f58e2cf98c0cdfa96d0fdd3d50edd700fae5b44f3459db46ef84985a6f7 0x9f0edc234d9c2b74ae2b5292f75ba1ddfbf21bcddf75a6a4c228a615b821533f (-0x18641934e25657456c169802041f3cea562985465006f100cefb31e88b59b1723) 0x6d2d782b5d442793f0aa1957e9e48c863190650a36822e3809caf466cf678be7 0x72e1353b26dd99ff8237f110acb7d7aa4788df12ed7740d2b65f6c665d088b64;
  SDbl 0xc317e716af4e8ccb0e3254b3068cf3f9c694460bcbe4fe09293b4e11ef249566 0x3275b0b946d4baf17b1e0ae049c4b6206b1589c1a7d914bccf07f7c38d8ebae6 0xb88bb0775711876dbd56d065a98ed3dc5d07982b5e53faf2e623913a4a2c96e 0xb9451fceedcd369271bebe880c85e0099b2de9633c84f7fad0daaddcc5741abc 0x94ad6c487a6c89457a2ce6766a68a31f37a3497b91b75498942181f950ba2430 0xec51ee6324623bd1b6a42ee7eadb2a9cfb9002b762faccd5f4dde81af9828e7;
  SDbl 0xd800841bc1744d32bfdf6be59fecef0913c8488c3986d57e74f2f5a77cb7a7a1 0xebd4619171747864edd835394aef3250f88df3fde7f3b40e84ae9d44a2c3582d 0x454e921e5269b8d8d163a3a5c9e4484f4e9a9b1875ee7b7806e5cee0b17f7d85 (-0xa5fc5e61c1a7fee0bc88746abc2fb7eea5bb5ee5ea6452758a491585001cc73) 0xb640deefd0e1c3b7c4fff99ab5d9b0fc06f110c331e60e55d3214098afef5ab8 (-0x9c6844dfec9fc3a186aa148025a1948228910fc496ded19df8717bec2f6c7e66);
  SAdd true 0xce556279b5892175c2d81bbb937f8e1b341e9ffc315f60a8b0a727af8e575fd5 0xbb8b432d0c1bf25afc3309729675b1841f3e2814a7c643a609fbdbaf0fcc27e6 0xba213dbe9ebaf48340cab761a46739b0a4770c8cc5c6c674c9526e15163caca9 (-0x95285bc2ac65b6ce20372a08c5a8ce0b1acbf7eeb3af3c4d13503e66d84d7f07) 0xa64d86f7112a2ebae8ec5c24345320b7c3f863929fc7da208e51c72453362da1 0x26eaf14efa3d2fbd289c520f577ed7e9d2e64390edac83c434a6c9a6fb05a61b;
  SDbl 0x4f5c06dec013cdf3304f2acf58645d9b8cf64091310c11f8d738f976839bd5bd 0xd1884978ad89f47ae42ed2da28be9935c33586ca208e97907714a727702e286b 0xbe139916621a5360a3388443eeb908694b53d70f6bf43286e131f558f2973c1b (-0x128c7e9b526a985625b8334443efd9e5016cfb7c5686dcbc352d1b64c253683a1) 0x1899ed52836f677d42294b507f4e0b56b3e7c99dd0853946d540cead9c746aae (-0x6d0fc76b0e0a636906e93b6d62ae47ae53653b8b5d2bb21cde82098e4dc0c0b);
  SDbl 0xcc0527cd9e86c62facfe5ef4410604dab7bc2995405b87411c79424bb6607b48 0xfbe7ab0ecc481058b95576ef445a927371ebf06ba7e7f7d65b565f8cea12fcd8 0xcc16afffb6caa93ebe733cc51a932ae92941586abb91cd9e770017eed8523d02 (-0xd3888db56edb7f26c29fc20a0e7adf1c8f3bff9974700fd9da9e96fcba92eb08) 0xa298378aeb77801efb703c0b75cfbcff917435ce513f033ae168fe04b911096e (-0x21c4dc373aaf24fd8586d893701cf9f628ba203a6b6e30cb8eaf99d8d3ca693b);
  SDbl 0x3b3fea23c33f358716d944a6aefffa7eed9099f2e62e59a2b18f3eb31e1dd02e 0x8b87852ea979747fe3604190ded3583cbf808da537e20be4587291972e499e76 0x740b00737b938b70d40b0fa54f9e8abb94ef30ab49fc3d813829001e6ccde57 (-0x28927f3a50e8bdec598556cdefbf3d997fe84e0ba9d6a40b36bcc8f6b72d749fb) 0xdb685e19d752798c087800a00a2914266cc4474d24b36234da8e81966b8cfe2 0x1a02372ba9a96f66db48111cdbfb61bdc841df8ea2b3975e3ffd63d0372685bd;
  SAdd false 0xcc6202c9ddd1fed83662716c03cb11c710f9a3086e7ea6c43db036402a66cb77 0xb03a5a2a4ddf56b5206c32ba52e032ac9ab4e5dcdef2112ed2d46bde50abc66b 0xbc2f202b33f793ea17fb0021c3516bc12537d81b7eef30ab464ff8c1f9abd07c (-0x46dd3ee41fac86b366479e7eaf1ab98e44b16e031c1c1a8c4ba272eb4a90a99f) 0xa32c59f87f48a38d8f70fa52e52bd8e7c175f481e899c2cc8abf6f74e1b7e857 (-0x1d4c8e9482825b19f3aaa6aaccda62d634ae745722651db160371efd3099774a);
  SDbl 0x8e8bbb46630f8157ba88cc7943f94a00017e726bf2a294c8adc18cdf9c9b9fd9 0xe71fec70b267eeadaa2946bebd41b5f403f6fbe2f97fcb2ea03ffcdcc0182212 0xb485572c379771e7fcd783893517507e9d459902704e7a42cc411b5d9c237336 (-0x9a5f25a4db668d17d0ecbcc5ed91d82374ca0503a5e00071accf189da2366810) 0x4f5f50074cb3fe6e0eae374ac336c3f46f122dfe8543dc2488f2f71ff4da68f7 (-0x1e914df2606b2dd94edbfaa1378107d0221f32eedce95d3ee2d55411684d52bf);
  SDbl 0xcc66cf3521ddb9986bec24a1a30fb8c12645eff1bdec61736f818c88592320dd 0x95f675c6f162424b2def24685bed0d5f6b7b3fd2a9ed5bd5885597fdf2055a5a 0x57af95a7f8bca2ec86323b1c1e45a19a768ac8c6fdef85a44dd39e820481bbe (-0x151ba60a24eda492294565922b3a3cb886cb59b5079ac6aa398d8dae1470c0f73) 0xa3340387173b57cd851ff3e4285e6164b68d28409ab1db55c3cd7d3bc78f9fb5 0x40cda2c62d86888e80565ec161b9070376c7fdb2ec63b7edb423f96b3716251c;
  SDbl 0x439b9e26a123fc329e8cee27ecc343a348ea8d68dc87e9d03d902b569c06b18f 0x94e360cb34b9d0ea60695d94eb835cfb0140fb1d06152eb6ea9139a21bda9e7 0xb73a5ee2f7e1c719b1c9b371bfd215e865a1dce15ebe27322feca753167b9a43 (-0x104a56eecafa31335b68ede22051e5e694e333335c590401087c0e858359d835b) 0x11dad3612eae7fb3ba63e608a6331c3e74640e853e1f97132536c4eeefed50ba 0x252589718a010c03e4c8deb3955305166eebe2737baaadc13e37c1a21706a2c4;
  SDbl 0xbd97f55553dd9a2f7bf77eb1caee91654494fbf37def58c028c52c9d8791b1e9 0x2010e24828e0778beb9d074ac05bc51e25dca6a8e1489ab7446a174c37a1e3ea 0x8b1c93083b513e906e057de788e34aab11dabb7d533f3c62261b105cd5d093f5 0x10e61ef125f4e6f6f583ff592e53e552205a403f094aaf196bacbe57e5754f75a 0x8c69ba73e0044e80d6d4b6293a4c7e3239a507210d12af56db7af227b78731a7 (-0x10db3bcb72a964c79946a34c155a1ce7a7f50d5d567b7ff6e514f163ea2bf20d);
  SAdd true 0xacf58e5088b37d4fc1b2c2bade5cc8421aeb7a68b87bd6d8bd3c1f70716f5e8 0x88ec1cf0ff7b92dec7efa776b49f745352923921c3c72aea82cc115bd0fb5e6e 0xc22147474ff1c2c85af6fe24d151fbf62d84ee93fcd356cee538c86ac7aae840 0xca2bd74f4807f7701518d9f6aaeb6fa8f210f440a9cd35d4cb31907e349363 0x74dae2c661cf2bb440f22140addb3a4f4758ea2614a8df9ed7d4ff5bd3d4df (-0x46d7df8371a76fe4ca4ecdf721592920df17564e29d3170ab8941eca3d5282b);
  SDbl 0x1b551b6041d9c400276e1a7d9b6940ee4351b974a7bb4293365c021b6a1e5302 0x67bd01d366f2690052517c2f92433b6b77c7cd81c50f344b6c31755ae78bf37e 0x2508ee2bb1dfc37d3dcf21211734a92f809d5db842d84dbe44d7f5968414c3db (-0xb23f10e99d59270278340eb4a28911b8f9f739b6f2528d69ff6b259c34aa3b37) 0x2eb101181a82c1b15aeec03ea63af155df2922e27b410c1e8aaed5152206456 0x38b000c9584976a3353b8d013ca9e42e01e3931fd665c2aa7ad95aa7115063b;
  SDbl 0x28c343be8cec986462180a0c461b995c3de7e6bf2de89594afb36d7f35deb688 0xcc2653c4c7d8d0b39a1346dee5e468fd4971f49a053065e57c43fad2e9a604b4 0xca6f99393e22405b406e80fe9e0d9c2c38a40102795738c96b54fce5bd22f110 (-0x72519f6992794dd3102f0ee665a6749e89d46c2d226c0a744c22b689171a26a7) 0x67d9a1bd8bf85c4b4dedb39298223456a3b216877284e94fcb8014352b84370 (-0xffd0b997fe13e7e2c9479bd3e85f1d77b807fa6fb779a41ed93144efddec265);
  SAdd true 0xd159acf0f9480d521234b6a4f518b4de252b841bc9143126cae3ce8ec0669704 0x3efd24b25eb3deebc1a539e898db39d1e66cb06bf95413198b0a50832640d902 0x5047fce616ffbd2d54d4dd65fb9da9dbe646784e10c1fc853e05c8fa7bb99b31 (-0x7d6e72c2ad6e4344314a70a09735e7e292aadd376c3084e706191b33d62ff5bc) 0xab338bcbd69d3772472472dcbc938d1ea0493a67ff7e989c3a1c8ccc92ed9a6d 0x7370121c645f12f67db195c1f40e3e618f6c31d354ffd483348ddc8f9595df79;
  SDbl 0xf3eeeef2af42db42c40b75c395506ea86b9e50a21cf5aaf2f967b59ada47d86b 0xc3b46639951bcdb63dfee69d46d3168474dfe22d68aa0848981d35618aba61bd 0x2653ea03761470ce70b3a0803096b0f02a1d3d2614cc082caf652ee9433a49ad 0x6a7fbd8dab2b6f20cbad316129e56ba9d501b7d08e7e69f345c68a4d46a4c113 0xe86f78a2cb6e69235dd3d7fea9d688c767a36aaa941e80127181b6ebd8ed5708 (-0x7e75d172f1d2a2d8e9583ab34d7a99d821e41696a97146f58a50e6bf8d052cf9);
  SDbl 0xa009a07bad8eedec9fbf72e2414e0183960df0e747dd2e95ad824ddbea7af365 0x45a849f6511575be2e3fccc1051a638eb83260a2a6d1535590a62866c75f9a76 0x9df084b6df486f5ee9f6c99dcbfb7a093074833339bfde0693d4bf33c6a10d3b (-0x190e9321bc4cddce6b1220a64150d1378f2028ea1c8f60269d4bf370860e23fea) 0x640c08f7aa4bbb1f13092c9f69b07134ea0259df0260e29d10c0625a55277817 0x4ecc4f1bce9dd81c70794620afaacfc44f1c107eb1a6f2285036df97ee0c52e5;
  SAdd true 0x89ceea76c08c57946c2ae53de2f23b74caed86a82206c5a834b581250eebde36 0x5ac581028399e9ba0250d9558e12ea2816df0b2d6e1f633598d03a593ce5db8c 0x323987d93fe0fe145b9426243cfeda06a5b5732f38ebae2366a099867965e2a1 (-0xa2b12d36b24d228f7af0ba58ddf2f75902668a3dc07eb168b3af03aa50a67b1) 0x4a2f1e31922084e203136627dcc13dec91234b82552aecbc6b755b0d978c3765 (-0xb5db34e5de13e3e3e28762e1f559c2772f9740c5fe2828df559e43b96044180);
  SDbl 0xc724c1c12f4dd3cdf28ff6e5c7fd8a1b0c72687cd354fdb9147343d96ec75886 0xb2d3b7fe2a4319384d0b1bf5a6ec73f86cd290640e2d74b906eac227680fed64 0x49925f183bc77813493a2ad10dd8c62df99a484ba3aec5c9e97753716b2e7076 (-0x126a87d84a1b97b04ecef0c041c8daaa7a9388192cec1a914d32046b668372df) 0x9aea2a82036f52cb79eaecd5af0201a9018c807fc7ac763869ed145ffaeb3e58 (-0x447fb162c8e132b020821a8d61c7b7a3bd6b24e0c2f72edb4a29d4d05e5c15d9);
  SDbl 0xee40a558ef003d3eb4d72493911364f27ca5aefb1fa107812d90e3ab27b99775 0x5c28fcd7ea8531cac513a66c86d94142232e900f55ca8b9a25d1f49b51b94da6 0x71f3579136dd2413c7d0ecc173df467aea0bf576676df21ea37b849243d1c210 (-0xedcfffd951ea2db336cdab1766bef52ee2ad051ab7c1c52ad70a201e761b12af) 0xddbc43c55163f8c0073ccee980256e9bbee34f8a8fcf6d2c735391ea3b23ecf5 0x50a89ca6cfb48ef86d9c5f4383045ea9ff0aa6f1909ca28b2d59c0f6fee21eb0;
  SAdd true 0xd5fd6a37c04a34cc42a682ea67413e7d40f91759b10c7dfd5b069f7228dcf65b 0xee9c34a6cb9122c7b08fd5ffc9eda1267709768b13cc13f6bd11a95f1240eda8 0x5cf627606dd02c296fd04257b719e973fff8ae7a463b00f2d8dad7fe42dfc570 (-0x22996ec35ed955e0dfd0037aa70c78ab5575a54ecd8c96c2ae1d714481dc702b) 0xb2dfad9c971f73867dcf822acddc74085fa5aba6a836862530a3a4c2cdcbabbc (-0x7a6ad6115cfbb25fce15b64999e5884a79ed34676c406eb12b2f2265e39eabca);
  SDbl 0x75f0053c61b5e6da54edd04575bf55bd886bd1dc189d530da35e752f558f20a6 0x983b3ed02970c123ba61449fcfd99c33ebf295d2a325d149062cc598883c8118 0x3a57b0305f073da32d391f135a33ca8aadca837434ba5b431691e8d2cc81e1f2 (-0x2458d224fde568355cb91a033f0622b49c437b3b1c454a7c01869aef7acce9283) 0x365545d338f829f6b18ce017804c3d4d664c207887320f79c76a03aef32070c4 0x27cb4d05fd9b0513049b527054a544e14f5f951385eb40a3a97fedde8e814202;
  SDbl 0x3dfb696308efd2fb3ac8056b77bac71f2dff771d01675c186bea6fe115d60557 0x4b8de0c8042631acba93fb954c69aef34f49031601ec132c03ea15bab1419376 0x7a201df9cdc9d92f360965e1efdb16a53a4aecac7ebfd4774e44d6f75a529752 (-0xf352d6f4f279c318ce905616e11d7eb5dd6ccff1c63ecaa94b0cfefcbaa76fbf) 0xf01c72114d9fb992c61b4cbe1f93e16579a30c10fc674f39683fc308e2a1215 0x12909cf3fab9e5ac81861e550359bf3ac8bf8f20c8988fcc71014190417d8d36;
  SDbl 0x5bac960c7bbaed74332dc9f24600791192423495574bff60d372b59d5d4a9112 0x4da7fa61bf1cd0fe950f47b280db9eb4bc96957082ab4ad9324a5ac440f5c402 0xcbc6416d5ffe8121f0067707ce59d13202cdb4982add8ec6eb24317560944d3f 0x14922e9dc45834b7310254a3c4f60d90be1365bab176aff9f7abef28d62603a1 0x20d42706f983f0a18da2db453030d4d2f2ab6d117b1c6527597ddf065edb85aa (-0xc0b1de3ebd542b3bc835bef7bb9e55b66aa602e0765bc60492f0ed36766597);
  SDbl 0x7e8e83dac60f683e239e4fa49788e304954cd50f779368c66edb7018ee27551b 0x92c95eaf80d0a13ea7d46d53752edf5e5740c55474228f2d7c7a4853e81494cc 0x9accf15b8808ed68ee2809d3b574bc79e21f89b77ddf7ec888024169d74acb56 0x82ce99bbaa6afe61b1982972d24dc7e50e6cef94db1f520f2e5ae17fbdef0ebf 0x3e90992224251e80a44d70fd3405ff7f939712ce0b8da3d4217840832b7b2bf7 (-0x222ceb7f34e40ec1952f3fc18d043fe4c08c40646130d4fa829fbdbf51c7d01d);
  SAdd false 0x7a233d5b659008a602640025ff1ce1986d3347fb3e9223cf9d6d3e9f3aaa44c2 0x22ee47b98fd72f1e1adea00f2a17c692a6123bee94530a6dbb03bb8b50e8e14f 0x49601e9bded543a5928a476ba71c2dc48a5be7587c9b7f2acbfd55ce05ca9d1 (-0x2dcf73c6522901a36357d37de72a44a6b4b854d6b28978296122016b6b09242d) 0x3a459b552cc557fdc5418a801ae76e6db479444096b75ed5c1635005202a47de 0x355dceb4b18ec41e3c4a71e11b067f10920d9fec0dd02ce09d3c144a09da3c6d;
  SDbl 0x52193c62531a8a68711af1fd5ce28b6beedf601ac81dfc6ffd852c04c3e5af9b 0x4826bb72781d8246d657b1a333108c3a9ef699ea37438e897aebdcf19ede1860 0xc0a33e5d8e3d41a0dd8cf7b9dadab96d48a607f2e24eea01070a6de51c72c89b (-0xb5b79d4494e499ae63594ad5507bca68ce1f2ceae43fbb771f7acdd05d77df6) 0x1a542d2bf103a5be0e0c2582fc7cab8941da1a3a9f1798f17272d7967aec9325 (-0xbefc05c1a35c276fd7f24e18b2775cfbbfd86151ed1f511d7ce46f1f9de9749);
  SDbl 0xa2eb7cc43da99df0576748c83cead47db0da6c6293b4b7fcdcff746015d066da 0x565656873a396cab3f6718bb78bd4aae7453ef30f9bb6edf86ec8c2d1708744e 0x2a0e779180a577ab4691134d39c257726ab357d99e74f43d6a6df4916236c64a 0xb82f948362c15feafd9b7b5cba83f4fd3b6c6147f22e8bf28fb5a9ff053d4001 0x67aee28712d175fe0445981368135dab94476a4497bdb863ab19b8094532336a (-0x9072cc076e68ec02500a791bbd8b7a199c5d6ef8c36f2f9735745cf1543546f);
  SDbl 0x2497d811a996078197f0de916f7549165bd46a9f224fe58dc2f610aa96a2a76a 0xce34544df3a8d3e3c900b013cdf78b6b2cd332c239ed8a99c03f8a2db345f0bc 0xb21b14262e3bddaf0f07c65ec86fe9dacd24514a0b59222f6ab28c3f24377434 (-0x4b5468136bc0cdf37ff4c250ad424493bd221e789c44f90db0cb24b6009469ff) 0x53b0ed598211f5408ad39860bdd19e1c5ac603087bdf031a8ca063759b36174 (-0x112250cc46b2aecd0eb03c2d8246a7fb4006f8ab062a298cac9186257a547df6);
  SDbl 0x279c02f8edcfe3bc3e4f806687867e407518fdbd8520e417831734f0f4adf65a 0x2bb130c210a5ae4def4ef7eca4b2e0c4635f1a1aaab2cb7264fa8246643d0d2 0x9abbef65f4394f7e1db26e8534bf1616751fb81601ac8aab329d00d758cfe702 (-0x1bb2b71da2d93a45ec24b051f7b8ec073b1b19ae333baf7be655f0466896e8663) 0x620e7fb7e00ea8145abd6b39859b715d786e0a75f6580cfea842fed5a1a9aa6 0x1f7b7931b7ac2f1366c7a9e2817b0a07c0745e9fc83073c12196a196c67b46f2;
  SDbl 0xbd0a695da8697f582800a3be8afc34be561bd34bf90e8397e6fced4a631189a8 0xf1fa98c273268cf3e427660b43dd1ddfbe4e7505a706e9929849de2efbef2635 0x1bc363f87cae4287b7b5e0a1e8288bc84bbe8862c73ebdd9267cbc9acc6d1f0a 0xe46fb68874917b0984a820b9ba7e12c3e561bc8be17c2c88a4b7f527a0626e29 0x8b9860013cf344b1b0ced000d5dd95867044b6cde223197d1ccdf7ac46218999 (-0xb0aba0ac19b94974ee243548776ff77e8a6cef2ee1cd438f642a997efd0df5fc);
  SDbl 0xf548cfd5aa8471fc0086300c0ea720d96f5e9b7e3604f3b1b3992b1f979989ad 0x542884484fd5ab99de303d9ecb6e9649bc52cf917924077f8e84e7101dbe048f 0x12c9deb8acd35f52d4315c2ceecc8168e61f87b55ca541ecb42361e24f7721d9 (-0x278f99272c5fe60530a23871d56e24a4ea85b99e92966475dce591b5d1cab529c) 0xeb04728574511b494d61a0d5b8886a3419bd07f7c3db30989b18b10824c7b210 0x9736f0cfd4d63b98e6f77446e12e16631df9d181a93d9a2e9af3de68a378adb5;
  SAdd true 0x81c86336d75044b4a207d7f5e7467035d8cedb1c737a70d4099ebbc7621925ec 0x537ca27b1bdade01b5370742ed487ecbc9ab76daa8ac40a6e2bb45ec5a7e3b3f 0xd3f3b0a64e4d8994c489694fda6b01434abb9691e5b5aec8baf805ef773819b7 (-0x10ed71d44e73b805f8b2f8c68d02a3e3d9c42de967b45da640f48c21093cbcd9) 0x41cb90d8b2ee59c9b8900bc9d3b49abbe951f1e8a183e7dd1533721c8dd2a305 0x5723536cfdadc8b4f66c1ab86e186fd0e7af7eacd8977411b1462646f915d0;
  SDbl 0x10bec117123b4c99d6ff42de9de71050c56e5dcc048e2af19715d25bb0b8e3e2 0x84ce658b0198953765b0254cd65d89d0e83e0890ec02209df81a9eb986be613b 0x527e170edf914f795b6025f806b9d14359813be36d2327c026564953e4e361d6 (-0x35f3d6927851cba54e28be68941f2430969a332617854a103e959a2a9089a49c) 0x11866461342ab70b3f1d50756e37b4ecfc83408b96004ac4b2da1071c004435 (-0x339dc12dd4ce946d95b819c1cdcf3b9698547dc13d886a6b7413c92247487fb);
  SDbl 0x33c40ea293227e89095a0972659aae58292f7e7764a8e8cc7d822fa80bfcb2cf 0x416d999796f90686dc7204e69236c1219d8e6e35db7b3b9709dba54d7681eef7 0x76a5268f0c7b9a13f0cad949fcccd1dec948f2d1835c914e37513d01d51c698e (-0xad53e5aba974833e56a2c27082ca9d2371c33b4dfb10f2a08fcec2fca790854c) 0xa77b3fb3adeee8de87ee49cded1a4280024bb73d74d6afcb3f2804235922e0c 0xd9fe297c75d5751f6d6941e13031af31fb7ad619995a3ebc90ea7a12abc1e68;
  SAdd true 0xd5b2c16d795883fa9568cba985669b4a4f069f67c08e2330b8bca6f9082f8ca1 0x9dc5f0707db9434ccaf558405f84baffc48de702a0313b8106ec922671b45ba9 0x4853d09c06c266c3cd19fc6a1f18cb681423fc8bfa1a2816efc9e7e848c35370 (-0xc3cc867c60e46ddb5690f830f603961a3da63391490a1df8c147f9a419e60be) 0xb262f2b26cb33d30f7b069dd674be73afea03d134de1b9e2ee871e2c1b244226 (-0x4d15fb753ec08f0755b9f86374125a5fb1a0fac7fb8f6f2462ca6676cf4a8f10);
  SDbl 0x76dfad6b42f8318b401da8c0a2213bad75e9c3c244305ac9e3ca19dc6dd9a33e 0xa739481118fb5ea4f675cf423e5a39fb143427e7e002b5e6e619a95aad1ad61c 0x3441d9ce3132080f4f2b4e50d4ae6ebbec315cfcf3d951012a73c53c3d44494c (-0xe0897d8f721d5126451f1221530ed4b87e8c035d005b977df311036425504990) 0x3732f74eaf4896d5def22b4ef754cf259e5d2b7852a0a9bfe305110e9d4f8a6a (-0x4636c4448c132a9d31a04e36852fa4922a09f7e32bccd0694bb008e14b4826a);
  SDbl 0xb52d20d3d3d69f8333f261f9220ce520409004556e4fee6f46609abffc14b27a 0xc5a7514a2519940caba169c776419d6a80105b9a483387e85b0949c205cff460 0x636db2b4c798a47e51794c54f777ca7fbc946e7471f41a7e0ba15c2b508dffbd (-0xfdbbcffc57ad20642318bafe5a72f800db5db844b0a3d1c0c77e3158549b1343) 0x8038d860987473a0bf00b3870f2955c25749d6e1584327fa8de6c15ed087be74 (-0x158929c3f92896ea1df12871b7b1ed81631e4d12e341804b19f4dcfcef82028f);
  SAdd false 0xaf8ad4f0cd35c5b8d0a9bb3faa782b977bd9a353554464388ee4233bfd772d4 0xfb372f5e1f85411e7d5d8fc2b93be410152f4e8d467c53f74c8213ef6072300a 0xd48eef3735466e756e2460ca1eec910a1d6f2d79f3b1e16ed3964105676bfc4c (-0x64b895dbb24dfef52c5c24e69e66dd0f629f60c32019acde990fc253d9123aa) 0x785f1a6bf5ab931a4700962f048167cb204d91292c9e6e3fe560182df519a1 (-0x24ba64eb0967315ece4758b0ad842511d7cacecf5c2d7a61242e3420954e72f);
  SDbl 0x123c51987be6372d1f6c932d3c4ecd04f96e0f57b1f23ce2987567b1a50bd015 0x2e5ad5e038fb229e97ef037364e1788f66f1fd6a0509b59a3cc4b88b9056757a 0x7cd5c382cac088cc042906685a14e69b941fad707dee02a7f809b539fe91ba09 (-0x2c547843714199d754c2aeeb353f762429665da1e6f5bab6a7f6881a52277a34f) 0x14c89afcc34d6970e09f1b2faf5e953e82fa8f0fbd4824f8c680299b44ab3d5 0xe97c33ba09b9391b25c88db244dde8ebb6db5cae32699d5955e9ff8f7f26885;
  SDbl 0x53691f4f3788c30e5c1ac5a04562020fec1078b41ba6a45f86a482706d8bb29 0xa9eb0770506295267bd95f6a321eedd1f74688654f29a98fe1684ef84898a484 0x4e2220cc6d410130079348a7c1f07c99c4a27e3f30d7e5206b90eb7eaf9fde3a (-0x1418bd1c6b090df012e2af144c5a3f856c0a4168edb38cedf34df453a0048279) 0x1b2d55782bffda19ef32ae414d802e31b5dc80112b4fa9ed7ec94f1f40a2e7 (-0x28427d52e6405c95bc587e2c706ca70013810aa90ddaf246dcfddcd8a689123);
  SDbl 0x492f219c5cf4deb26e9c0698762ad71addf759f6468f871408291f140d8febd8 0xc7cbc03f49036f06b040be15c73746ac48d878a4a7372ca5721a5d0bd5115171 0x591ef58a8ebd4184decb0613da377f4ad22b442b299166a0b929a2a761a60934 (-0x125ac3b0b1d2997613717851890f4e4dfce119919d17d270d2626fc89f52551b3) 0x14ebe9d89dc3623cb3f74f8ea08f6c9cc2732eb5a9a0f68c2f67e25f21ac5439 (-0x88a94e1330cbb4e9a4e07e86154f4e3004eac00e419d7ddc6bcd1b400c7a19a);
  SAdd false 0x9bc5f8a2d5bc2d2ffb3e05e9b07dbd546b5599565aa57607575c78adc2fcb273 0x66853b4032ea990f9350e72978817f8b32716f49d059a7d11aa6769ad103d6c6 0x674baca974b7e363273d1d02005f22bdd42f60e5e9211507250f2abd94bb1f46 (-0x5aae87208236d977d2e012de3a5127caedb250ffe1be765e05a6357eeaaaa577) 0x5ec9542e29b40c339bf2a9d815d0f09a4608710b95ab53ba8c1a21dbbe957d55 0x3b30ec45368c6b6010bb8d2ed639a10b16e3ecd522c67deb418b72056eb427a9;
  SDbl 0x7f9406819a453e6362894d880cc7a757af11c31c14b2493d1fb5691b13e11ca2 0xad75029fe4fecec622d89db1efb4521f956439940a2643f56ff1796a0847cf9 0xf8e2e3a7c296af3573c9ed176a81861785a1c0b36dcfc688aa948f3a3298ec6c (-0x1436c799809a0225663edb15b93bba1d179d5207d278ba3b3fd633ec6e3c012f) 0x3f94340c5ca99cdb3104b11bd458ad4fe6e1db6368c42440f6b3e66cde945401 0x2db04a809804d66122d39e663fcb032906aefa9cddbc43a334d882cc04bdcbf8;
  SDbl 0x778a6ba6027b8bcfd8b1b499499799b8e8d471c5608639d147023c9870764cf5 0xa855bda6fcae0aada4025a2f1366a1d879772f19919165f5d7b1d54d2805b7b4 0xf378f3ef22c4aaef84898004c4a0cdcad3e8366a06f8a345b340ae0aa76aa80e 0xe70f7f83adb194bf077bc1e4b21c2a3fe96b3f640d9617caadd4b03500b9d7d8 0x37d1faecca5fb5d54109c5d2f19ec825d1eb3567e3e08b9139e60f8900104f2d (-0x498aed46626f07d2a2b5dcbf8d24e94ea30948cf092909650869508637adb28f);
  SDbl 0x63ffbc4a315dc9681b994aea719bfb0e8489fb3ab1068ae71d71b0feb8923cce 0x11f53de1fff1cfb19afd8e94e2f74a6c37a4b6c6f9ead4c36f563f77e3f915a9 0xa4a9631a45e676f1712c03b0c48fbf351440227b27fa6353b42a159054ebd8c5 (-0x8ddbf320d78e46474c97f459ce0f30b5c50c9ce28eab7f4914ae9f306bd482db) 0x270fcb1a2f89bbba45d7a93dc215aa4b3f6ddc77df79ce1be9ff7658aa9b4f4d 0x3abd8a23206b3ccead5ada161ee82341749842e99950a9624044fb74f1eb87f9;
  SAdd false 0xe6d3b38c479c6229c99315527fc16da4ebc4705581bab75cfc8f052f0a2ec446 0xfe424907688398686943047882a7125424c29234000ac1bbb9b0e894019cebf0 0xcfcc4a9e6fc9c1d48ac68e1d4b898bfab8310e53efc60db0708676af8abc1f0c 0x1d9580df48cda76d469305b855d09b3846bf54b941f88b6808163edec0d73c66 0xd02115b257f99ae2576a193ada0a3a3ab601b0c616f55d98f2eef000813f333c (-0xd510a13ffbdfc3f602674986dcca76191108d56d05d4a75566e93b864ebb14c5);
  SDbl 0x51bfa6b3f9c54d77430b02f9d88cf264a746ddb06a1f8c0b1478f13595ad05f 0xdb12c045b719c03bebb5c6bea3418eeee01fa0822b0679190fa0bde8fe075694 0xe20bf153a9d735f82d22446701a06fce211575818c2a9c5a65cb532260f71a52 (-0x2ed4b67b531de87aede084e6fec0d021db995946d04ba9f74608e7ec604ab07eb) 0x1a1ad6f82b464cda59bbb7a74041ca38e5230cfc464576b8db39ddc6daab33 0xb3c61a5ec20cfbc4b4a6f85bed61d704ab33d203d5edc3483c441a8f7e0c3a;
  SDbl 0x11962dc8485b26c90d311f1e9ff523cef4aadc22b2ec19ee08ff4209635083ba 0x1314c7d7288eb29080ab0c2d0a1d1872ca43ac4b3bfab851d5aa56450a7a758 0x4aa8f12c55ed44076144a0928a29c3afdbc01cc4c1656e3c685028382e99ce13 (-0x2135c7620e7f008119ddfeaaaa86697d255caeffb277b6419e8b1caf70f22da7b) 0x1354a2e49b636479f94e107baa39762f2154ed1c22a130b89f396edd8ae715c 0xef7c9c149ef39fe7aa0c4d31b2d56d9dcfa490fabe0829abfd0f675aa9fe2cd;
  SAdd false 0xf6578e2021873e6626568587c64c880b2bf6937cdc15783f05640c5e3df94cb4 0xc0cdbb0776685beee72e75168c93f827dda265d15fca98e64567709e7482b677 0x8d7e57ea73819ad33a49c15f827677705a11771fab41ae751158e69dda696a06 0x2fb4947a34fd73a5643586b58dc22a654b5774241135803eb726bda92357db40 0xed0c6318963ac22bc0c42b363ac06ba0f695712a627a2376ee366607e3537406 (-0xb861dac3baf8a5ea0c32ff6f1d5d6bf8c64403cbbc4b31d118a9b595a051f21b);
  SDbl 0x1efc8402b4d77a77ce5c409d28ed1b1524c57ef746b88581c70e2f5e9558e2e4 0x599c6c4d9179b52c51cd8957bd8ac67ae53ab40e002e8648283608571e98add0 0xe3a1d27a8e0e78ed43a43b6b1e76f8ff7e6592aa2e10e4571b86f72367970aa2 (-0x1915efa5d0cca6ba246806ee79265a35aa7e697586242f3d211f034220a5b30c0) 0x3c02804cf897b77892e90815a468ce3bf62186a9f2881bac25dfb29d9c6bfae 0xc7d90f9d82ee21142cb09f4667f57ecee00e212bca1cdce63a16e91f58551ec;
  SDbl 0x8e742cdb529435e5c7b6822878ba9d5c906bb3b13b9aca78e6294b2efed94c8a 0xc823e89d1318423fb681b758f90947e7c6fd6e12ea724cf317e802b57eef57df 0xcbd9fa59c004d33c0ad892f6630cb7994c028088842ac2a0ad8a97efa3b55c43 0x9f3bb746ab739b33937445e68c6ea2671b3f497d649ba5eec3e64873fb3cb455 0x4f45167c4d8078e1660a6acc40a03e952875acffce7fa028057bc9770b4a791b (-0x3d814fb6a65a63850f867b89b5569a4f8c20dc3ec17bbb96e347db9042c87905);
  SAdd true 0xb55c95dc28f941cf20311ed7c013e1b295ec900ca457564e75fba84f9ad48df4 0x3e2214c98b99000d7a3432817881a2bfabe29fa32ffb6c4eeaf76dfdc3c98582 0x8b2992f98539af428f49db826469b9a3fbb1b6559515751584c4f9418467d7be (-0x69d259fc29af70562adf20e2f4a38a2c9a8fcc80d1fdff4aaf5f3d413446c0c3) 0x807c0d65e063fca4aa5ba44a3d44c743b566793f04fb7b84289d6e5f7b2ea198 0x61c53436d089afbfd7a6aad2823b0545dafc56539319a312d774f16dcc2f7a5d;
  SDbl 0xa2fc2fff184d02e181093efe89c1ba2a78bde6d0f6f01cc3e7b728bdcb8e5d7e 0xbae85f8179d626bf50959fdda4b432435ee14c366849c6dc317105bb7628b8c7 0xc12cc46ea859ed1063a9d42f0d99f5df2d70d5c7ebf882338e595e430cab9d6e 0x83f5383ad2808ddcd76c91d4a2f83f168628331d77a49575ddc32c58738c9701 0x67c4252dc9bd1d8e8fcbedd234b2f089e2a7b0549949ccb749f35e394fcef9c7 (-0x4f7065defe55ee8e557cbc0851728423a693b602a48f31e0ff9ffee9e72b3dde);
  SDbl 0x1565ccdf90531dbd36ad363e7da4a68e9a57bb51134840bb0318d61c1930de6 0xb23e6bc457ab1f899b66489ab6678fe4da585ec74f093e6840b946dfeeb7dffb 0xeb4ef844f453dea14afbfeda79282d7265c1102197cb70220148aa88676d47d3 (-0x1975ec975e30e04eff5734c9b57d37d6c3ed3e9d6899008062f101cf3b4040d98) 0x1c9dc17fbd471cfb7aafc9d3f77f88ddf3615e5ad6f49d0705e9d182426e5 0xb962faad4dd7bd0c0ea759bd8bbbd95946d56146a3b53a47a0f24c08fc1f9;
  SAdd false 0xada0a88bd455c28829b8f5e5e196c7088985cc0d2c061aa45a586e4c6b2bb49d 0xf6e9e0e262467994a5e144ed2f27708dd4ceb7ae7cb1a0e6465893e42178cab 0xc4f9d736d6fed0c70d8f7aa4cb6f182d40367f16272700948ddb056b252b5c72 (-0x567545243914644b7032368cdf05950ae1224f9c88497fbba237832b52a9e990) 0x75c288a0907fafd097a9f0e902db29dceea938ffc3b5a46028815bfdf9f0b924 0x6e6c9b166ca27d1657c788494aaaa3a8df010bcd99b248be3a3e98eb85414c35;
  SDbl 0xe8ef8245452b7cc7b8f832db35d2e36d1f9f3e9cff9c6edd5d07c755f478c1bf 0x2785f75096555f4a6ef9c219d9737d176a35497c2221b45e4c02dc3ff81b9ee0 0xb8c31bd7456ada9b40ffd4a264dee09fb82c3ac6ee5752bfc2d61988e103eb34 0x163aaf6175ece064d8a5991c64223bbab5e87ab8a2c67093466d42a136d18988c 0xd3f2fc32e0f3628e63fd325745ec00f3b11804d9a900921ab77de99c2e992bb5 (-0x15ebb2f300bfffbce479b972c0430417676d39cfcdfc1fd9611c36b00e352dcf);
  SDbl 0xf31efd7524449f2d7f5f0a1d018b54a8885daaa09c3225c7a11b4c2b6b0091b0 0xbbf94baabdf6a27264e2926366c3fc90c24d2ea1904772e38ff8a8b512a70270 0xb6a695faa3ef1a524cbe7d5eb6c734e5e33421e0bb2d9f17f65b15c7a23b9381 0x14ca0dc10d93261baa3a29c8c984f1b25b9e437601d6e70b63c82d5f563b77c7d 0xe6e3d8edac235e7d291872789ea7d70cd4eb25c7b257caec9773764b8ff56730 (-0x8cfb718feb44d2604d7d2ae8f01ebc77f3b0aacf0ed892137bc3305719877e4b);
  SDbl 0xbd720e0efe17c4da3b9c3a3ace679b9ebd16d75753878d832f15b816d36733c 0xb3381778c979f95b431aac4cc241fed816ba31e518dda56020c53f26b6b7129c 0xc7900ada104e190195881ef14c258810ef8998508f71fa63e0a95f8a79502baa (-0x18d2d2a52a6e15d78621b00f70537a196e0f7fceae4746a922f440911dc6d377b) 0x8c319b933580a6142436fe6c75b03a6d4fe4089909ccb6e45a5c62f2d6216c 0x67a8a0d3a558a616e3ae4d445efe2c8440d93480a5686800a40119ebdb4d7b;
  SAdd false 0x54bceff15bab4712b79491134b3b8c61f9e620bbf4105df9411486a1285e458c 0x606cfde88ccedcc776651fff0074c3fdfff229249b64f60666e77a52fa0afb1f 0x7239ad06dc6f1023fc10b796066e2af06b76afbb7f5d3647fd6385c50699b54a (-0x2a84abb380ad1d6ce20244d1cb91e35cf76485a86c6dc32bfd12f11bc37b62cf) 0x1c0c88e7cb981fd3ff933c621f243f95b58d3f93e71c191f85675c77fe59bdf2 0x1b67bf23e0f2c256f413eefd38c24b93a77d1ee288743f00c833d130c7925798;
  SDbl 0xdc2a97aa1bddd780c88cfd9c1e7db7105eafbbac96397a2e5152b417d3d5cbd7 0x72c4cb7af1a20223554f7bb7cbe6009c88c8ccd9635124a7ff843c16c1cfc425 0x4a741f330d23b192e551eadee6eb92f4226e2a7a686c5b6260d7f882efb48abc 0x57835d27db4253d1f4e0fb8b7405aa88ca7de155e655d3615da37312dd6f8af4 0xbd593bc33ae9c8dc03c29a5731e5401efd0068b67d0d6b31c33c178975d10bd2 (-0xfc681ef92ff854a06d23bf095272b0e6669551d09edcfa3f8f8d6ed040729f0);
  SDbl 0xbbd64004039f356173637c74dd8add272b9506502476ccf51ad4e09c391d08de 0x6d63cf21e6603a42d36f91c19aa2829dbaa9cf57e1830c2de7b46e65179dea6c 0xe9701d568bb6bd45e7f55b0aee184b29dc26b99918c19ddc70d73a7b4bf712c2 (-0x2d19509028cedffc526a740bdb720acc4925568822bfa9ee591805b270085608) 0x89d2b4d57dd55cded30d22069e51e1131db0a4eaad011d97a767a6c4bca2d232 0x3f258c056487e43f0ad58120a0b8e4275f8e45311bb65b764f157bf3aae0710;
  SAdd true 0x5b488cfde3bbbecd0ca3c774ca0434f41ca46aed5c967e07485e43067f61aebb 0x444fc32a7b9fd3b0b05854c4e7503b30bdb8fee581a290070574aaa71b65a77c 0x2bccc2dac9c2ad46bd439168ca14be5040bc24fb82e2cc06f5ab98ac427c4bcc (-0x14e72dc1e14d7180614fff8dcd73a5f394756907b4b2f211da77dcae96c10c9b) 0x208ca8cc3ceae8ee9b9c5a09e4fce1d7fec6b4a0146e6b1583c33b2dfb574a16 0xea5c484131437db803ea6de32c7defbf7085ea2f4b1952ba8d0d9cba6eb593e;
  SDbl 0x87f2a84cd2b762fa3ee83b3adc6fca8f6022736e88d2146c2a4679828ecf8a17 0x19e7dfc89b15ae898b0f7a944c7ee2644db8cf86a42f85921423c95ca2158235 0xb71ab89f404f67ac3390598a9f2ee36e1d1213144f52b911403df39031a850b (-0x82a6b5fa858f7029da5af74e6260e7e327988e968afbb7e6218fa7d9fb4827b) 0x4831d383ee528c3d7a0702ace8ad97eaad90c158f24bacef837c3bdcb932031c 0x1684fafe8d6b6cc5b08eca96c032b607478026cadc8cfdf4f3bb0b45a4e23176;
  SDbl 0x16a16698db7f8fb64ec20bf79d1e21dd98a2fcc2b4872a8e8ef976ed9ac08253 0xff41256531de162705bd0041d27efecbacb70086bc624c6c3415c8e1bdbe608b 0x6cd6da9b24f1ae029917637a78a135f15ae7c94724ad67938476b0199d75a435 (-0x5d75b8eb6e7b75d45cf5ac8ed0f7417057da62c05f90ca5de819040a60dd43a) 0x20023647d1c50b9a028298d36e3d156e0a088643ed0034564c55c5d6710fe0c (-0x1446450ad419b19f968a45d0f264f62b06d797658444d0500a5e32752a4814de);
  SAdd true 0x5c5c673635740d886d4572968e31abdbeb2e309c075f9a02b9576f67512f6d08 0x9c9d45e9c51f5babd92cddc5afe164ecce4b25b0ffb17cf7336bcf8adebf1be8 0xa6933139ccac476c7d71ab878aec7e53b5bb07d4858a82978230bf448ececb4 (-0x49c68a0505f382b6ae34fcf98c8ffe9871708c76836077459713611e5a4de175) 0x21528b8970510b2b33ec3f248370907d952cf3a74afe26339ef625bd886a20fa 0x23967ef9a11a900f4b988ec2eba7ad0f239264fb7eca0b3fcec1f43a114204d1;
  SDbl 0xbfbc3ecf4f227f9e62287e211749ce1ec23ebeb67b3f6cbfbb4e219ea0f29d82 0xdb24f892b1f5582f8d7b8e450feb1a4d4e5b59738e72f7bae206b2a040f23917 0xbb5ac030503b99ef8bacaca2b2775854a1cf884f3619af50a98232eed8c96e38 (-0x10fd7dfa629fabceb42ff637ec3d0d248b8b416941ae26d8513ac87fa1994e813) 0x8f9a702637953775c6bf383ca8f326fc1f19994c507626d2c460366d53bfbae3 (-0x2ed5394aebe97b1dd1391440487025261c57a4bb8fc7ae1fc3377a76b1010036);
  SDbl 0x7917ec458a41ad24a8edeb555c94d8e3f9d47384028544942eeaf1196da5a52 0xfea74c174b0f309d3273d068ea1e3e7bdbba964effc60b9f4dbac3b4e3ef8cab 0xf49548ac4729fd036c728786a554783a673be055a9e27cc4450e8db12782e542 (-0x227b4e70a97fb6cb2d7a308a4bedc9a794c21fd57fe2e7cc4a872f9a765443bb0) 0x39479f964488d6dcf21de6d28ef8596a6dd980db56c2dfefef71fb5a4e3c95 (-0x10cbeaf5085f00953c14433a50fdcb4d03dacd3934e529ac62091f0d724df1e);
  SAdd true 0x3c204bca4bd1849c6263bced6c585c0c0d15ebeed1040fbe2a0f3669a316638d 0xab5ba8d43afccc00a151b2bdaa66e4683b3f1d128d59d2de9cad528b460f2f96 0x3cca18e661468d357bae813266a9bbeb6b9dfeb3e4d7a12c245d7884838f502a (-0x2fe2d5b38d0cace245fbf8665829c89014cf8dea803203463ebb0cae709fa00e) 0xe1f2799eaac7a6ce0b12b8a8a9fad7e787fd70eeb1b42c3caf9b1648c58d55f 0x13903c612ee55b9d5837bcc298db16b69ee15961dc8cd19c7e44921293b1d1db;
  SDbl 0xe86444cc87f60fd583fda5f5d838162eeea22cbd22543a4adf1b940f78b0fa60 0x24cb6857a4d23563834c0ab037af57d142a3bcaaed658e0914dffba5a244b109 0x982d74be60253388dc73676192b4c206f24bda414ebb943f20bee266f1673f89 (-0xe9bcd1665ca18e2ceff444d4e1f18d5e3b2f7098f533bd4ff2ba2e064088e3d7) 0xd2f5e3f95bab648c6a7e5b226769f1e811e3dc10b1aeb2773ed7e468f5836c35 0x7a276ef466749432f3120b7ceabe73226aec8db61a299e2598b20e0e308168d3;
  SDbl 0xfe415e8b5bd936b7f5b2246de119c1e1084b41b942d30dfe1ae3a5d8bf812023 0xc0fe80e346a5516160eeaede01eb59dfd85b9cf0611daeb35983c5b2b57a1eee 0xa33eca004b84a28f5652c9675900ed2891f072543fd1dffe5d1bc9168da0c587 0x11e6a66415a86a6eb4bcf40cf84f6295db44b762582b8fb0be8dbc9bb7970b77a 0xfc85c84eac781881e47506aaa96200db3ea42d35dcb13ba23c9c74d858b4bc37 (-0x9b2295042bf26d0d01b64b8f4ae3a70d44dd7064b7674e15bb9b352ff78854a1);
  SAdd false 0x462e3876c73c1020d94be35c6f2cc99ecd28d971050b14f8548954a716902712 0x7d94c05d2c134f463e03977bfe0156299dab52bd1097a49cc1d7f64d4397f70d 0x232bb7c92063b97251640f4de9dfab54d31073eeec28bb15333ae2b39e967106 (-0x26fd7d60bc2655d6493fab44d3bfe62cf2383a131fc49e534f82b47b82c8ce6a) 0x133d4f395f55efe7af7534081925a6aa4beaf1cfd3ae1604dfbe202a1a280d7e 0x127b1683bf2ae2a45be925c11bc33ec40d0233cbb94a9004adc94be3f1ad21bb;
  SDbl 0x84f638c2b0c7380e9ca89234c78c0019815a1e59ab2e90e2b84470d3563d322a 0x2ec7fa22c6f0e7cd069ae498d6c6a85fda0208a6c0c6b3841a2103be1593311d 0xa0ad6a6d7f86ed4cb94542ff186d1d564955c2f8cae09848226db0906943100f (-0x944711b9410db70ba49a4ce6729da8e9c97568ce989b7cb32e674660291f2a00) 0x450ed75a2e1dc9708c4a96fb715ce3ecc2b56dba2755785cc5ae52c772eab053 0x28ed60757a2565f71b9c1d2c8e72b94ae5c8d31508f9baa318691a57c23827b5;
  SDbl 0x80826ff7693f13e16e0b972ec79ab5e628c01c310ff7f6d9809f0a1c6873b0b9 0x22ecd8f71fb03bc81cf269c62fdcb15b747164f8750381e322d146015d9dd8e6 0xf3c1edb5e7c412e4fa5d3128e655cc1df439af1ee4d45906d5d7a53776ecbdb5 0x87abb8c9118c8144bed04b2c56cadf23d6cc100ca74f686257a9af2ba1b2822a 0x4082b26d920126c0273b29fe9895cef3f641b765d8396cf9c389fd26f88f556f 0x5f39b0c2a6d9afd293b5fee1a0d4e95e796fe3af2277c2388405edd4a883e05;
  SDbl 0x5793b8a0d5546b8f871380c1e3d225e524e7b30d4c41bf8699fab3d1123cda0a 0x62057344445e1c890a321021f1b79933ba7567143182dccac0c218e68b4de05c 0xee481099b34e2bdd3032fa9ec41f817d07c278741f55f190c475b8ab9901f916 0x987bd19b1d7dc95157f2341b24357cde7bc75c8bb7b73c8bf6935813bb33b5c5 0x1df5bcbafcd1b47ec76072d0ea84fa36acf650cbe318d623554a0774f02489c4 (-0x1595c5123a3515d73931026f9dcc8f1bd3d4976c5b634b036a9c8d23352e8299);
  SDbl 0x5e738591c8cf277d91803af9d504bd55e65799a2464dfe600c12bb043f7d9338 0x113b36c3a2731ff0ee65b6627f3f4eb54be91d365c4aaa788d16e5ffd242de4 0x57475a68621942e647caaf4e6ef89cb3aa771d0cb62105d0d4b8aab9a743886a 0x3f3b747c62f94fe45917a6a73d91f71470cf6d285dbb4e341033fdeca383258d 0x22d90a3878fc630281ded24a1dcf3f63c30062fcfa03844f95b62a5e6a66925c 0x23c4839f73357b651374ef075a31ea574d1595ef4aede714ef79b32c89138f40;
  SDbl 0x688ba567519cbd5772f160c6e8d9142d45c3ce9e74b24de962046e2283b83533 0xd80e165ea38ac598876c435736ca7b57d1b20e8a2c3112b561a7b6ef0f95dcf8 0x79ad6befdd22024d3176a63723df577f17bbff7a21d1ac95418ef6752796c5ba 0x4745b6f8c91fb4a13b3a4bf92ce1cfd67979cefc6977656adbd7cd0999499af1 0x2ab1c29126121584a2a4ac97a22d43f3150d36f375ae1f6f2f46932453801097 (-0x57cafd0cb147906d0d803a6794b09981987ab4dba9e897c04c190489e8e0ace0);
  SAdd true 0xf5c1fb109e12c3a275eaab40db0aa67589920cf27cfe5861d9c13e0a7885add9 0x7f203ab310d471e482f53bbc196cb086033a2d6a2db49fbb14e00314083e3740 0xfc19f69fbbfb088b45ffd51321124801261431558b0e545da5f298a6297f470a (-0x9eac7f2a395235e833c90ee60eb7d8b8c71a8fcf1334eae91630037697456691) 0xebecdd8b3fc4b7582001e15e061c46cd581c62aa434ee9d5814bb5cec197870e 0x555f05c52149652a68292eebe7d2a672d5b160603b6a2f07562c271484353bcc;
  SDbl 0x950840df9a9dc92711e90acc6e83d3bd633fddbdeafc2a4ef5da01c4848d59c 0x997453e65e09faec2706819f617b1ed2da6ba8def66f8deb7dadc5e9c9bf28c8 0xd011d7e57a7e2668d89c2cf45d1c30bf9a1148bcb2d4b4384fde84800cd08a24 (-0xab0a933e2e12782daf8716e77a4a5992edf72c1d1ed98ca46e8d4795882f8833) 0x56c29bc8bf28826a6d4d19d625a736e3e77c986e156c7a3cbb0511403ea038 (-0xf53cbf7ba53f6cf764ca5ba402c7d5a8390bcc93a3a93697ae338567e6d7f2);
  SDbl 0x2da54e9395b591cbe717582c50228c7695d86aabc881c39a12478bcb5d2f7c8e 0xeaef0d1b339969ac4aeb702e654905db9b59c67a39048b13defd5b32d8ccf4c7 0x2f0521f53f9c73c95ed7dda572646475549dbee5aab654583e66897a687bf11f (-0xc9c1c6cf897cd8b94dd598a6cdfa851572e2510de8226448d42415f94b96cb33) 0x823885e4d229dfdd82344918c578c0c689d12b22134090c4f17a084478d6793 (-0xe872faa14abb5f4ad59a8a6444317d9fa1afa3d502de8ad08f7c15b6b6bd94b);
  SAdd false 0x96f523bd4621f6fe00962e1f6760ff85073045361ce1d31b5a9b1ae878065490 0x6f4230f69649cde7fd2c50955dd59f870538ad2503b8966ade8d9f018cf4c0ea 0x49df34808c2a0397ecd96edc846f3be3130cd7832e250a0861978a87c6497981 (-0x6c992de3522189fda9f66cbd19031bbf503f528ad2e4a2ab816bc5a1476de1c0) 0x5904309f94798831ea3d647d71f70d507164f70cc2ed79dd7b98cb4e865f5978 0x48edb6b07ebe1e7cd24e8e62d0aad7b9a9c48be8c9f986d368ac79bbc4f5ba50;
  SDbl 0x7dd263b9da1c53c86b68814f09649c7d642e5fc5596e0f2c1094d0bb145def5b 0x185a391700d1e64550d14a6df81aaf033cc615686d0f8d030169517ea2b47dad 0x4ed6f32de9d7f70339eec9f22808455801bcca088c553e7301c877944c906944 (-0x487201b41419e5f289c8938ff783866e52146aa58b5775cc8b324f1bda85be0d) 0x3dd7224b8099e8358de08a82b9f74789f97550bbd19ee961357e30b1bcb4f528 0x2ab6b02c78a396e80d41c00778ba8a168f9f58cf4ba846267d686fb89e130916;
  SDbl 0x9ce9503381e67e8fcdf350ccd5d350aa098c17cafc10037ce204b0a52561873a 0x84dff0c6470a41d200175094e60f62cbc1c22a357c5141e97d17c999e154d447 0xf17f55bce3bf549b66ad87cc06020a993ae19af4bdcb0f09e7f350f0d3f68725 0x59b28d8b86bc0fda13badcf45c884c3e9c0f44720d613ad75914ce5b58f1c9e8 0x602d2e623d60c9c0f500a23c6670c69c9ad1fb54cbd8ba7e8efd0594a15b967d (-0x428463a2def119eda6e515b736ab13a1a6b7de75fe77e522b5bd0ac10f203ab3);
  SDbl 0xfdb530b3b4b0aa3ca49a4b46ae699b9652db300ef5de2e27c27761afb2ede739 0x80b5508d5c58cb3bb47a217ad6e2721aecb46c8ecc76e9bcbd7103c1572b9072 0x7f8fb2ca93a9bce8924dbdfab96577f552080408ad0dfbb85ef3eb2476e22b2e 0x10fc46cd4f4b39f75bdf48c44187686b648e92f9e1f03b3b1e88b999b6baa0e96 0xfb6fa28215f636b71b7da9871a3cb5a123329a14444c42b2f5179265e5734e4f 0x42113467719f17aafa12484a0a641cfd9ce62407dbaa4635dca1d3a654264e6;
  SDbl 0x87e5c450008ab7e11eddc58a8b5b62db2f9b9e5c233b446e9a25348afdccd6c7 0x83dcd342cc484a5e3337df1f63c0549a5c5e4dab37e0e6c6599ffc19f5b55aba 0x1a9c8e4d489e6638a7d6ff1441579037a53f36a1deb266618da5b389f0976a74 (-0x3ab2e99e092ba18459334e75ff89f082337e5b6bea04ece2dfeef666b5bab13b) 0x48242345766203369df51173caad48622adc496c515509f97f4518a44cb32ced (-0x1acaab0d86e8fef95a76aef34f1c3296adfd354ebcb45e3ec371260d2f1fc66);
  SAdd false 0xf030d839de01aae60e0c532b5b2dcf4b02d448bd35e756bd207635c32e5769f 0x29a5b540e61984651e59faa714efaa8c2394c856d9741505f5c2b190e3602a71 0xdbeff89ba7011f2b4ea1e174cd7c27fad926d8506a891872d77343ff02874bfd (-0x4c161bcb36b14cd23b45a54281e0d5b00aa05e8119439428756c7d6d04d8728) 0xe15b9ebf2df3b3860c394aa75d87696b1d05f02a91dc394f4046e880f50331 0x54a4e2aaa29f90236c5bc7f5375613ce0b80b5aae6557192fd1df14d8a7131a;
  SDbl 0xe7f5077839797d95001c4bbfb2687e1987efda13805240abb9aadbf3c8e7e3c6 0x8d63c654625294fb8d892c23bee276911311dfe5629276cd06a48cdcbf0db275 0x31ee259964bc0b1c7f76c23946a2858286e4753f34cfb609cb4a9e14e7365cb1 0x17a3c9adc1fcc9e444696452e38522e4bbb9d83ce085e89c6d0588d6478b99844 0xd22c1e03163b2ccaef4ba8edd55cc549f9fc02bee9a5a3757d979c284bd14a33 (-0x5a5ff93851118ae5fe71523cfe33bb5819eb540eb626c58bb44fe9d072d3983a);
  SDbl 0xe02908914fcb499b3ab015dfecd6d736b2ee8b306346c65eb9a3e8cfbe02d34c 0x306f19e29569712fe026a672be56af667431b275c162e69d6eab6c98316a3603 0x7b9535f998229660ec64270588cffdaacbec768da2099baf338d59c05bd78bb7 (-0x92d46aa85fd594fea46d83d5352d15a1638a590002cacba96014efe07cfc12b0) 0xc447d592cec08cf83aefae063789f04a097a963d9f1516cd9c98dfbce3ef3c5d 0x5164fd2febdd5aab3777a2b04b98bebea8e8cbb4e8a3ca531b1280ebe20f0090;
  SAdd false 0xa3c3883d4d8761a897562a1beaee85c435db98c104efb7210cce2b2dbd2f4698 0xd63e32baa8797d38cb2db42029bce58e75eaa75b8ad8e472c4063b1f04fbeb3e 0x124b3e5b8318371bd83357ffbf807bbf27f19b7d2d12b013e6db7379eeddca8b 0x17e45d8ce0da16138635f3dc49d70e8996392e38a82870698c568694d73a748 0x68c294d74f624880a8b2f2df984ef76e1cd7549d7d7e231bd74734d8fa6b1bc8 (-0x6a1181cfa48dee3f503b11ea600e69a98044560e4f274e35aab885f26a63ecb6);
  SDbl 0xc017b0c9329e668fff6f789d32f884ce977f4d5dfdb34d9e71728db3f874c449 0x6348180de1426fb9492b3ec4d19ffe4e95c57a009b935d93ba5fe6377c022865 0xa59e7185c0739d1c69d951e9deaf33859877d93a216500ecf2ded77b56c1eb54 (-0x1fe6fe375589eb8ec31aa4b6d6db83a7cffb777ca5643395e2d03f24d7b5db23d) 0x90238b5f9a4d81685b19ebc7394f51d736036132343af8effac302cf9d522210 0x56433781dd7f555ae751c408cc1e99c0825a92e469be4ee4161807667ae501fe;
  SDbl 0x760eebfaca33558f95ddda6b2b1ee955afa85610b49220b6bcd5757a221ddac6 0x88682b4ce5f16a86c90bf52f9b673af0b6fcb9f7343a8cb49290ff6e00df8b38 0x1b409f0a54de64878944de116da184654b9dc092224b03396b294c71ec1ae127 0x253eda986dec23517a03b8db7a5e99c4b8627f4136560681b5392a9766101198 0x3671c26a11cd97d196b8485816d15673d243ed7b783544bd56db598d15120ade (-0x111ef2d8fb0a41d8a69eea5efd6789df2bbea8d67f5af245d678f3013bda1653);
  SAdd true 0xf399c6d345b093ead0ebe3134e660d2f3ea65c72b87dc6696f354f629d5da46d 0x93c56732806138b46b9c2c61eb00185264b7999537e9de061d05795ef646d65c 0x9009f77fb56267fb62ed9160eac50f13bbe5eaf28070299489cd418a60027c5c (-0x517da0ff56ab0906e0f60556a7136723c277739ff13148c5a01405fa94d2fe6a) 0xe7cd4bd5410f4fdef13894b49a3226e3498bf32746a998aadde596f397a4fff2 (-0xad0536745e5ac6e9a7714af5b2f0b6bbbd1eee6d21c84236a1ac9d1aab09429);
  SDbl 0x43c53cbd635605e2d07742ccdc510785f1c2659f8cdaf8f612080cf150005a55 0x30d0d0b5983d46eb67929ccee429eadf3db7778130e0859451f4db3c2f3171d8 0xa9d7ae1dd7a2b65ee5ff9f9cd0cb3e71b1a1428b2ea7226f128716020df54a19 (-0xb3a1baf71be7face2afaa7dd4a788743b11ef96befd5335d20f552eec7ad71eb) 0x11f0d5c1bdd411e7ac59fe80d02319ce84fb7df97d20a4ea308d897adbdf3e57 0x1a32411521508448eb71bfbd642bb409fb6684b2e97c0966a2071c558e86fea1;
  SDbl 0xb462383733d04e221390ca1ed64be2f03a2508582877f6ab762d831e232fa59a 0x4ef559b7a16c8508f6d4955e1baa90cab30d2d3aef4d8ea0aeecea7da5d1efe2 0x61d5389d8bc92a1d709540b3f31c9afb28f701a711b8a930193878e5960a3b8f 0xd36cb6cbf61af1672e436ab434ebaf1b2bbe5ec7611a2fa1e3a415273e21d2a9 0x7f1a44bd369310ab645acb95e4fa3018e92d2741325032021b3624b7ae88f2ee (-0x153d40f07465ac5331902961e72a338585c90e0550931b5b79e576630c623654);
  SAdd false 0xc110eb50ff756e2f43db5c4c25facb9135f9248b814e5dbf26aacb81cb8b044a 0x64ced1bdbc99d590049b434d0fd73428cf608a5db8fe5ce07f15026940bae40e 0x376629c7ab21e7db260922499ddb118f07ce8eaae3e7720afef6a5cc062070c0 (-0x15428e48940b5eebde487be5ee26be2e503bb61c91cb20194dc6b2a446192a62) 0x919a83eef5375162400b5977cf316c80f453e44351dffbc4b856bf91156ae353 (-0x107a6529b64a02e91159a75b7dc30f69ddf03717939607f9d4dc848080ca0ef9)].
Lemma kra_pt : pmul kra_k G = A (kf kra_x) (kf kra_y) /\ xc (pmul kra_k G) = kra_x /\ yc (pmul kra_k G) = kra_y.
Proof.
  apply (replay_point kra_cert).
  - vm_compute. split; [discriminate|reflexivity].
  - vm_compute. split; [discriminate|reflexivity].
  - discriminate.
  - vm_compute. reflexivity.
  - vm_compute. reflexivity.
  - vm_compute. reflexivity.
Qed.

(** The responder's random number. *)
Definition krb_k : Z := 0x7e07124814b309489125eaed101113164ebf0f3458c5bd88335c1f9d596243d6.
Definition krb_x : Z := 0xacc27688a6f7b706098bc91ff3ad1bff7dc2802cdb14ccccdb0a90471f9bd707.
Definition krb_y : Z := 0x2fedac0494b2ffc4d6853876c79b8f301c6573ad0aa50f39fc87181e1a1b46fe.
Definition krb_cert : list step := [
  SDbl 0xd6a6796a27dc312621ee1d7807d53f6f50deb90e13e36666ba6451403bb1c3b0 0x56cefd60d7c87c000d58ef57fa73ba4d9c0dfa08c08a7331495c2e1da3f2bd52 0x31b7e7e6cc8189f668535ce0f8eaf1bd6de84c182f6c8e716f780d3a970a23c3 0x11d6cd80f81a9b5e9badabd304c2519d600d3f8b4fc759d131c1e2e5c0ec83c10 0xb3fabf3fdde018ae8b11c6c6c230d119ab7a3586127dbf7325ee158cbb960de0 (-0x1e380dfd5e1b5e2882e2747670d8a7457ae3f364a6717b3578c57493fb0d2b0d);
  SDbl 0x17e021789ef1ed9ec506f9ba33bba229384f476f5c75b6707bb4d0c32e74636b 0xc239507105c683242a81052ff641ed69009a084ad5cc937db21646cd34a0ced5 0xb1bf7ec4080f3c8735f1294ac0db19686bee2e96ab8c71fb7a253666cb66e009 (-0x4f09124c394fa03cef9d066ed39ebf371ee29a6771c9f23670d82169e1bc2c39) 0x23a0a3e463ffc20684142caa30690db7211c7346977c77eb50b4561c8f25ac0 (-0xa04988a7d8bd1088592011163b1877b16a3712bdbe2746cb993e93b5aac0173);
  SDbl 0x65ea2030ab7144438852944b7c35697255cfc01dfe1aba9d4fcfe4fa492035ad 0xb9c3faeb4b1610713db4333d4e860e64d4ea35d60c1c29bb675d822ded0bb916 0xc519b309ecf7269c2491d2de9accf2be0366a8a03024b3e03c286da2cfd31a3e (-0x12c8a8773f350f11e9d9e0d929a9e07f124dd891cb837406e06d0d3b579fc0e82) 0x289293856cdf92909040f1428c3d40b7bc88c227a8296c2ff05baf3a35cc3fd7 0x35e070e389d282d30ab856179080bb1ec1931edfe054b6ec202fc382f19bd34;
  SDbl 0x3cd69ab3144bad2d8d82e82f98a39c834463428456b2208fbde56366d461a775 0x35648233f554ae51bbce44ef5db3e419ea133cd248a93e2555645bbc8704fb68 0x4d7ac60f6d975ef6117bca9ce885dd6154b1870a6a651664411a9a30eca2046 (-0x136b802f76f3329dbe0315700a6e3068a4e0f0660b006431b044a43e779107703) 0xe754c6b00daa5ce53237ee442a150593b0d6763a9f6f57755458e4244e8921b 0x1f75581808aea3797fa74c3c7f3e98844bd03cec16593ad0e32270ede0de07fe;
  SDbl 0xe7898e699636224c4d62603458e31bea0b320c82b10ead86029143510cae635c 0x25d3debd0950d180a6d5c2b5817f2329791734cd03e5565ca32641e56024666c 0x92d99a70679d61efb938c406dd5cb0e10458895120e208b4d39e100303fa10a2 (-0x18a5e2cdd4bc15ac6fa5da2935a056183fe5b9eaf39a961f797fd2b7def60793) 0xd16988ed1abb4ef422a5eff217fc367d4f900df08524ed1d00b9210a968e142c 0xe13e0907dd0b7f3486d951310b7bb8f94f3af29114b0972f08830ee2d293258;
  SDbl 0x3763ac95cf9320c99a99ad110d56564ef1bf8c2d451dbda31a2a214ba88939be 0x97662389f36ce643a47dcf644f700651e988794843797b0c4a69c806e78615c2 0xcd4d9449aea5cac5328b8d67d4ae956f5eb06c4515ff01bd17eef58bf866b33f 0x2ec711777ee4fc0ac90cd17b70bce34f1d8c83303e31ea72efbd1efc3611e435 0xbfbfaf75b656572556356acaf803817ca044688aa3f08d6761f15256d6cb996 (-0x1892a4e9768f79f56ec0b43d2611b9df18cc298cbe94de365d59f3e0840ef44b);
  SAdd false 0x3966d1919f8c564861f7e0c6dbc3301fbf2d8d49e7372f1d4a3bd0d6637ddc54 0x5eee8921f4fcd3427048dcd10cdece635c4a52f82ad10df329dc4c21401d787f 0xb6b3462b6a39a55b73516bbad0f603e4f39e93dc1c8b27ad9ffe119727f734ae (-0x16905dd7cd360f3205c15188f767ca7f8e232e71f123631b16ae8519c4d11d84) 0xcdef29e9185ae38d41fafea9e36d59b6cc47812f7c1a4b5c3c8e6f77b478778 0xca94f427dbe3d1d1edcafd39b351899839d4a2f7376c8fc967beb02982db9f1;
  SDbl 0x1e589d0d65069855d5302daac02dbbc95a048cf9d407e98c25c2801b7f7e45c 0x730cac8955b4a829b028cd637d5f3b3f2b7b74de9915f35c69f15537f160c9db 0xf5d500feda9a71279245177f0510e27bd895fd5a4574f298ff62e2a27178e739 (-0x66e718eb2d9b46264be011a08b06a675a5a67bc164c318de21c790636acfe010) 0x398e37b80d55255db3222bd3d6d197c7f557d7f9d9203c0090c3c745fb9c9 (-0x2627ed9d46fe43405ae840b5161131e04d3fd560b3accf7451b9467a24b709);
  SDbl 0xdede440a31a88114b5d15dc0d5434e760b21d2451b7d2498e22e744beb7ed7e2 0xdb7ba35f9caacbbdf26e36f7c5eb7a267fbdbbe0054a44be916a38f31aa8c326 0x89d816e3efccd171ea8633221750891683c48c8ba5f3ac188de921ce9854cb9c 0x110eb22e97e213e5659b108984abaef12bc1eeb593bba7aac9e4ecfeb5c46e564 0xc2063efc83ea09e5be8b8627d2e690edd6f1c2a63265b7bfff7b75c4d8e4f358 (-0x5aeae609dc6e6c48ccf5a9a0455baf9cb27c46fc39cae2d4772f586b86603bf5);
  SDbl 0x72c2298227763df3fb1a733209c1985a885d9df64552458431544cf31ffd186 0x6b75270d3eb79c85af8258ac9c7bb30497d8f36aee5ad9742b8e4f90132b7374 0x2ea8a972507c5ab3843f8743e908fda9531b5b7d1198fef0cd111bfa7cfd9a9 (-0x22cccf6ec90169ff38d16346d390bc3c83fb93a551e2fe2b8ca055b0ffa192267) 0x3371803b0e95916e3a0603d464bbf88e915527ea89b886fd9ecce9e80ce79c 0x3237da7114f265abbd610e83153f5dda4fe28826d6f88e9dae80599922e9c19;
  SDbl 0x9c0bf93395e4eb18ac6cdedd021ab2de5fd1aef46d352ebe01a657c79503b59e 0xcd4930db56eee0b452f87941cdfa0876a1a09fa2a70ac78837e00c2c80f8046f 0xa26ffeb10308b5f319b2d56ef163fb1848c472d3becc54f2a21419ae50f82a4a (-0x83c34e0856a6bb256ce77ed9a8d090fbeea4db0a8b7d86bf6c7931d1433360ef) 0x5f1e98469ad1dc7543654f0c966eedc8a8bf6ae0b237ae9f42219a30f8c21dd3 (-0x3ba1c951324dcf3ee2a9ac1f797a5315f10d1f9009f5d604cd84787fd6840a23);
  SDbl 0x7729eed6a08a807a19337a1dab39b1184c47f213659c0e4b68d6082798d2b185 0xa54819dbead3c58bb96ce7ca6a6e17cbaba3df8933651b2aafcb2351f6aaf5ac 0x9cec71e8e30cd00f5a98401738ddc0a13797d63721940d951575cf544e163b65 (-0x156a191c523813a03ef75866f197e35cccad7cfe728f035ea77d41e61c8534c84) 0x377802ea204bf92b1df525b50d62cc62278140371f30b9942ea9f4ef4f4dcf71 0x129f0f300a28fc367e27f0c82a1707794f7752fc70ead1a8c1154a2a99dae760;
  SDbl 0x4a7e383c920c5f775a3c128528896fde8c83e70c38393d66b4b0e40c014c0211 0x9addcdb993df18b2196a7504be8f2522591618370691adaa5ff770273040aef5 0x8f144bb5806bcb05ec97835debb46e30d698d18a1f84a612d3f02e4201953d1d (-0xe4cea1608da4e08357224687ffe2f80da2fe44d3ffacee996eda5a0f794174bd) 0x15ad36be8216b057aea15318b31e6695d4e9af48543c6b557d5d8e9dc17a552c 0x307dc9d2093de5c77a303766078c3c6dd6cd886842cd5e65bb123ca98bb585b;
  SAdd true 0x10b0bb0f516befd896d907777b7810fb9b0caf2ded9183841c6d9e38860ec0ba 0xdc0382c7e7e10d33338eed97b4c4e696c7ff7c7f4c466efb785085cb19d77751 0xe55e6bca0e408730caa66c6d71083ec561ff97dfe615011dc062e7c9806be8ea (-0x6c96f4f23f7153a8ef559b16da8ea837f32224509cf8d49acf2bcfca8c28711) 0x1169163a90365a6da9ff40c3be9bab2e736040fdacaebf258b0df7f1ff513e9 (-0x43f54d7d488aec1e072c3ad2f80afc84dc845d69c7a25fb67abf26c93244721);
  SDbl 0xaddafb3923a1ad158af7ceac1e0f1dcc9b5be02f798f571ca93ffcee8a0b642e 0x199280e721de0e4e6a9733b5af13c61effc5e018870da6dd1e2e3309955a81ee 0x6260db326304dda94034976be5fef148be275d032fd826c3a70f9da0aa37c8eb (-0xffb815d0872e7d9401864536648bac488562cada9f3c49e33bfc4ee065db4d38) 0x7611b2dc8413fec656f487afd47661243036391acbf155249f5220946de1784c 0x840cb1513656631a8c1421a9b58bf9424ed4c90c9eeae24601216b33a313ee0b;
  SDbl 0xc8640dae26cca82ff2cd8a32af98a06d3482092cdd465c0d09fc368eacb745e9 0x91265ddd00674415f8551643ee1f07ecfb5913fa13715a864f4b766a4e1f38e8 0xe4842d81584309466e26750a6bdc5943628356f906b6e2b2948ec7174efbe9d3 0x925a69a0f4b6ab287a97704cc2c9f2a0a8d97685cb77fb19e94371470808c203 0x9cdc7c7b6a45b9934847777818af186063de265a3539792c259938db5a9eceb3 (-0x5d9a40c69e5896fdc18c65547dbdf817a842cfff07ccbe72237fbc3811ba61b8);
  SDbl 0xd51cce545bb0d69d8a36e4be7c2e161e0322c25fbc25708380e236816cdda19 0x3266298bcb38dddb513a709aff7da5dabd457a84b11724a544081b7098e2c414 0xe3b51b81e1d07b4e61602aafcf9f59860f54f2de0e2a6fe8048e4dda04f95ee3 (-0xdf1dfe2e0642d5c3243d63759f89fefcac5a54a24fdc3776af47ee5298da1079) 0xb168f296dabd25c4db7c4efab8c1acd9b4f6cb6201ab1744f6f6f1e3489f73 0x4ee094eb7c1c4aaa118c6f080c43ba322709e728f7606942c66c8a55fcd5802;
  SAdd false 0x8c06c704f2fe83da74e6b9a17f63f78764895008c8a12570a722d2fae287d94f 0xf1856cb5099acf84b5828d997dfbfcd40476c04a759e824e18d6b7a8fac0b5c 0x2ba2ed7bc02fb449758738e98ec2f5ef0a64dbed2138718e63070e4e3271996b 0x33b30844c0ee9ecb5c7faa178553d4beeb8fbc5f74fd4db04e863d68026e3f 0x4c9769dba551dfe0f303a49f94275401cc0d9678f3ca6040b1a59e61f6123dd6 0x134f7e86746f01f16c975370eecc72d2959cbe6a1fc925c1924902ce23ebff86;
  SDbl 0xf260f8b9c31cf1dffd0898618ca54d3954c6b05cb1ddd894f04337439b39c2ce 0xcc2b080b391622f8f336ee2177a50d93fd7a407d23ce7fe18fc60b4d3dbd89ee 0xd65e9e3ae2e287e37db016f11715b1e50bbcbe03f097ff0eec528525accba9d9 0x4ff58286bf43dc2385d4f4e1f97f059c2551df2395a9523ba2045352e56406f9 0xe57b7afb9758fad022e7ad1840a4dcfb0c0a8298241088d1aafd6780951cc2e2 (-0xb3034a44e312be986e5fd00e695e934f0d5491dae9b53c391faf515d38423f40);
  SDbl 0x8e337bb3ffc3b2118bda1f95f812266e6aad1957bd27564a7e03527b82be86f0 0xa0e3c41709343c70735f3db237f9f56dd0f907cc1b9745a2eacbb9d08920852a 0x1103303b70c63f16569c3faa1961eab9e1d30067d761ddcd686cb1408f8c6c07 (-0xfa56a3c0ff7a507bbdb8651af5598691f36300d0604229bd4a60c12a9693d717) 0x4efd279684389f70a6aba6a88036e988bed4b6cb60548207ac6a56f2b13b7806 0x180a3bcdbff6fc80ec1c3b580e5ebdffaa679d869e0a37203be1afd1a72d0620;
  SDbl 0x9ab9126b208f9e042fd55f66403fdbda6c92fa2da8c5c42b0275492d8ac041a8 0xeb966cd74dc830558dddf7ec9cd0cb5014d1f640ce4529985251c32f8026b871 0xa8c8cbf0a88e6e06399c75ebeff57c80bca6c5077145937d3d38326d17c703a (-0x11ac810319916b0a7531ff2c5c25660eab154021e49bea38bdd895c77c25b5687) 0x5d832ff4e0d8470cbadd068495e6cb2ce02e0823ae9e94f4cc1c7a94e5910485 (-0x2d2579ff9b6253d187beebfa52e9eea197ccb5af7ececbed64dca9c834a07627);
  SDbl 0x8edb45d43d950569685be167f04b86b0d7f95d942c274baacb9069d4986a26e8 0x419aaa5a763aa629251260964cca41c96faea3434d9262140029d7ee5d9d025e 0x51ba42c33d47d8bff92eb8364486d991c8a2edfb109fcdd77139995e90626932 (-0x27ea28e49888476d4604574cc577ee489503249a236672af1820a178f9f98bb80) 0x4fb7fd485036c568e4e164d5c3863903619c3fabeae1f371115463d59fe0c100 0x5edb3e9ec804cd4c1ff8745270e372b6ec9de35b7a6a5d603d119a80f82d0634;
  SAdd true 0xcdc2ac623bf00340689694a6a6e46f069f1af6e32c395d22c8a1a6de13dfba6d 0x41afbb7f693928548d60f10a427d4d6e4f49210d3357b49099266120941841cb 0xf4c4f8a57e8b26b7774dcd9079062baabfa55d3110871c6973062ad1dfece79f (-0xbeca317b9a31b1667594a5bf8950fa58b31aab8db650066d5b6070858737947) 0xa5615c1fb256bf563d9ffa02a58c9b69c963faa278173cf99e38d459a5592687 (-0x10eebfc44133f70bb4f1eb2557a7c778eda1ae3f68cdbd0a340c417a2e7bc6);
  SDbl 0x8c428d2e54c68fd6abe003245fcf2f382c9c496faf3cd0aa07684fdbd37121e4 0x4f44e61202da052021bed6384572adf538712c052138e20d7448f801bcfb71e5 0x21d9103fa7c2b0637b11ea1565fde77cc6744ef9bdc0dd6c1a72a69e6df8eb73 0xd9a691f5e553d28fa10fa0cced1f9183ec99a2992cd5d6574bae02ccd6d893b0 0x4cd8dbb81351d13257e08705f91224b937de06816006c5c06037564e1d67626b (-0x7711b3acb008f60ff8791925381d2f85ced9e8745e1b7c14d6d4e965515fbc6);
  SDbl 0x13862589d0fd5241b93e61742b4c8e218faa4714bcf6a09ae5df10dfd72ea82d 0x8c6975481447c3ec3aec130bf4b22f0e25a3a72d3e9c49320ca1bd38944f2a23 0x3caff1edeb1d6457c6bd43e99de2d64cdd2f9b06e2e04ca4e0b8e1d417855468 (-0x4479180b10ee645bf27f08afc77a4f1f1b211df4648b5a79093a293280afd1e6) 0x17d2fddc84ab3e03a1d8de04873d12d7c106e7fb7c75265079fa7d9999ef604 (-0x4a9c0bb316faeed45703766284099449c32f670ad4b2cecbba870d182bdad3f);
  SDbl 0x12014bc3726a1977aa2dfec76c8bc6fa85fa777f575b7e7f8d5640dda36f0d71 0x3566178dd532344e4a34bb54b428ee0a3c4bba4656d17dd17623232685c9fdf2 0xef46f02815a06c1fc93dbc902a451b9d6df7d54eaafdf75a9aed4e4a614f50c5 (-0xde812fd886a88604f86235e8021e2d77fe5d080d4605196273eb96c16eda9178) 0x1442ea92b4e1953dddd7a2fc93d74d9130af5fb529d6f67f0ae4d331fb5a657 0x61ead5ae731f5acb001ce6f7e63b277e4be31bbd0c596aba964c63af08ea68c;
  SAdd true 0xc8c3d9c31db039a18e769ffacd9e1edd2582c3b3268109b57b1bb6f768a8cc03 0xae8aba687fbb57e01d6a3ddd9ff89c0e46fe96dcb2c36825cc3474d05847cdb3 0xd85db606b38f1eb60231831f9ece33c8a9adff2b530d72989f1512fff87c1ebb (-0x2101d8471564f9f0ce5cd322bf408563063898af592ab49292c1838c31680a4) 0x9d729a16f4518ba62ea70457d15656dfcf3b023f013eb86ca67856a73ad97863 (-0x5f014d2fa3cc497625dd050a57c12db544d311d426469a21344f6dce2e85553d);
  SDbl 0xc9344d5bf70ef3fbb325f6fe9fcc296c13ef26294c227e17ebd9c4ebaa62cb56 0x29c072630067479cc20dd85a8f2e5e229f87267972b2d371e15c5057d360ae26 0x9f16688dc8d06557d385c090f164432cad89ec9c32f598802cdb44592c4b29a8 (-0x10e7110e6e9305172b5833905d2c1b3a51959549c0ff18540378cded4396b62c) 0x9e232c2a8cd579077c3c98b529f18a315a24ee11ca3d484b53d4dde5fc96c8a8 0x685df3c3e62cfff872232e1e76a25ff4fb25b9979b530e8f622d3f9c8323e005;
  SDbl 0xec299445358184ac01877e815b1c1e03246016086d131db877837871ec6fed76 0x61b2b177d534b2731664c7a1a3bd9bbe336c27713abfc2935a829ba8e170d892 0x20f7ba7ce501b556a4aca30ef077dcef70beef9fefedd7fd36e83e9e409cd36a 0x111175e4d6d0071c937a6e7724a90beeada38b690b1292f72d22c81b944cb9209 0xd9dcb021488eb8ce8ee05067445893e722e8644df076cca4deaa6b6b2f9a827a (-0x339c685aae945c8216f62888e179329b325ea8599672500c3d7661dd2b8a7926);
  SDbl 0x27de59f44218e1eec9d28b46d9957d65356e6029b2297fa070aff6dc8eccfc32 0xc4e71203452d6e1c61019c0ea9a9fbbd28c28ee0d01bea3a6088dcbbea9ce61a 0xbf8bf7ac14bcdf6855d48f43b938bb69beb496d2851ca1e98af644c2e900f4eb (-0x6595f603fdfdd3fb794a3b0bab123705dd6f2d2efb2b3d6d81264183f5872b9f) 0x63580889597778a8ed33593166ce830bf484bc3f3f378f6d4887a334d5c1d7a (-0xf7324fce386c7752eb6bd9a2a2286d60478c2d28e9d1c5d87c3fa637615b31b);
  SAdd true 0xf38c81d116555dfafb427f4b007ae4501049ee4ad8ed7f00b3dd2bb8c4afd53f 0xc0c178395185cddbe4158ad12066ba98eb153e549ca21745ed1b12ef3ff9ce9e 0xbb6b94110c62b467bf9d694e09d4a6cc0f59ec6c46407f27faae9c98b1ceb5f3 (-0x8b06d9af0cf7330a0ca2f4d1ed99769e341377bdec52ab19954c5e73b8f411de) 0xe7b40b92169eeca2dc2f28ac6e5904203874af17837fbc2510b4c956a81f43fe 0x3f1f7a52639434e8852c9126e05dd4f551649ed53804bb01af4b56bec5eb75a;
  SDbl 0x94e49b0cf2bc90ff3a757bc1c41483d98d8b60c4ba0235dad7c822ad8b8c3b91 0x5e285bed1ac6663c3140e8c437f7297f3141acea1b48c4ee31652566ab43b670 0xb093336d69ca45c8922d681c1db96b31c074f1b26e3a26dd3b226bb94cbf12d7 (-0xd96535cb95693df0630d9b6f63684bed4a90ac44ccdf339ce90e719d897422bd) 0x56991f6bdc3c358d3ddfe3a94c213904b6d310fbc34a7c2f439eafca80c32b8b 0x395890712dacd09380acb3af12b079680c85156f8b2cf48bb2625de398af7cbc;
  SDbl 0x30993a734ec55aa9469aeb65f1587d00894a047069ac7ec6b32aa8d196cf3cbc 0x4b3a60d911f917e8682db8a5187aa8566a0935b3580a90bdcd894db31252ff92 0x4707e96baef9b2dcfa5675231452046cd2ff2bffb3b09e3f5f4774a3159c35f7 (-0x24da69bed07bd9c2033d8a0323b471ae7364c73125c94ba84efa339cd34020cb) 0x939d1a231f06f295561f014613fd12091032918570bcdb5c3b42a98d269c262 0x397f3a145d52359c346ba6e56cac3ece80b7cb0e0cd6fbe09a0af97b536f5c6;
  SDbl 0xd8817f5077f97883fd56b396298d3994b95b176b7901fc0a3d8d9c7b7d52f59e 0x9e5acb67559af5e04fa680e6d977e158834196843ff621a074330e503b7e012a 0x790c9302e0b6deb38d06b9da0affde9db109ace1d67db3be39981bcfcd609dd4 0x35d370580626d0c13afc94e443b8cfc0dc286d35a62e3a801d299a444dab2ae5 0xb71ac85a0ff99d78fa3966e8191242a8afaf8411c0a0e2cf6ccef523cf4432ca (-0x464d6695370101a37f8a556794d32a54c7d9003cc4e6defd90399291d141b865);
  SAdd true 0x73274a48092451ae96da56882ab857ddd7a9b13ebc487c2894432edac1407731 0x70a56579a977f51cd391c4db39778230e088f86d9fb3efe82e048deab61c8a14 0xe958877f0030c1fe080fac03e344fb7fd6a5471dd6528666495b03fac8de13fb (-0x3064f237e8694845e0a3cbc8031b66b0e96aeb85ae4db1bdcba2387b56a8c941) 0x33cc52c4a38376c686380b5ba8b3cdc7d64d03f9eb44c4ce2969025c72e868a4 0x148f80afac35aea464bfcfb984f5e9d696649f6d27560635d8462b7a64bbac99;
  SDbl 0xeede3c20297cf396f068f082b4bef7f9e6bc3e3aee066a5ed66b05d54dc59528 0x289379fa82eaa36e1bd5d8c67bdead13b1a5385ad4f38b7a3d0009e84a435a2c 0x669a512ce304b4b87aceb1709e9e114ba943c2e390d7fd343c1de58aa8f7ae64 0x11ec2542522a4f08b8fdba34fb25815848c7d6cfd3e39418ef9502c89c596483d 0xdee1f8b901ed59d91ade587dcb9eb647efe739d23b6a3ab0cf5aecf4c004d814 0x433f3967f27752cc1715da8adc1cd43de754f152c48413f3fc052acc897c3e1f;
  SDbl 0x3a7647212ae7be474754ff4875a1c3096e2db9ce50689cc525e2a33e3598758e 0x8089f8d4ecfcc40dc3a6caef5b4a56a324febf3162491bb1bc1020ec71c79440 0x67fec527a81224c87afa1f2273db4d24971ec71266dede8a7882679715ac5fb2 0x1b917ad4acd5c9e5d82887e4846c825cc0b4bb16ea4d990e17aa33c2f17407bd 0xd59cee0bb21c8d513a583071ebbc3588a9059ca4b2c69657493f47c6bb32dd4 (-0x14167ccccb7e7bbc710033d30994b04baa7837f7ed0d8038029f6520479896d2);
  SDbl 0x800025421a099a02441bd5ca8367c54f31c5312c0b083c33fe55d683a733de14 0xbf8c20961241fe491c9d0a44687159b2850e17a2b636a88bb2081f5c02d81e3b 0x3588eeacc51c09251b1673258c4d157ddb2f75e9a96c4caa9e6465ff3d01bda8 (-0x599fe626f04a09d062ae8720755bd423bb1d6b862fa5bbac504de17dc1c57bd3) 0x400025425f75ebdcd9afc6272de37d36eae76ad91d9544c1bd4cf27c91c8952b (-0x1f811d0c46d9795d6edd73dfa129e841ef4c0f88af721f5d42137426c65e710a);
  SDbl 0xb53d588356ecf3a28be8fc87f4a73108d0db37900602f5c75f5e3c66ed51688 0xa1f140f85c1f0431d0961940e5383d50188617e13e78a5b373afd47ed74445b0 0xe9b385f4ffa749b3fce3edf8d8800cbb17e0f9dad94ca27d8d0527e486d329f4 (-0x1a93a5b5ffdd8ea25bbe8a657348e0fab3efaaa5e73dcfb45b0d63f733e9cbdb8) 0x804fcddd866cda7277402421bf9f8e8b8bc7483458421ddfe0381b7ca8d9e6 0x14f5983e4c7ccbc885aeb4d20625db75da1a3d30c9550f091f041150306ebc4;
  SDbl 0x5b305dda1ede9d92b30f9d5b9331df9e5e0eb13299557fab75cf3f15cc91b840 0x42c60ec9efb0adaf39b05ab4968545d2084b23c25caef94de91999c21ccac7b9 0x5bcb378f5395ac8f75b2c5a2883538d161b6b5e955f2e006e7caf8e92f8448e7 (-0x8cd61552cdb158c67d974d960db24fc1bcadf1b60447af35fec52aa532e2af03) 0x207b6bdc86a177a43e4b99d4b79846145aa78889ac121fb06ce8f7a78e374319 0x21e655d3d2a34e1bde176edb3289673570f60ffe743c65903bdb3e2398876d1b;
  SDbl 0xff7656d86d004f22558c692bf7f9232200345110a96d8c2796785953658f4a18 0x999931a898cbadcf0ccca9c244e2e800deb54f024a14bd5561afe58c81bb65c6 0xcbcf3837104c71bbc41a67de9802e10c27185f1a9fc001f363b041050ecb49d9 0x82f38bbdff945e7ec2a897911fd76d856cd9e89220e23d5eaf53a1d1b04a33c0 0xfeecf7b8550e31dc033ca7a098b2610f806eb1cce700b6a6f8a9fcd5ef0f12f8 (-0x56a47282888c8371a625618833e00be20c9f123fefcf598caf9615f0532eda08);
  SDbl 0xe51da63dceeb56aa39d6093d3a09a8c627a74e7aa79b64f1fcb37dd67c3e162 0xd1266c4226986ff66f1736e8631fa5ffbc4a6568349ea57d837c14220f0cc3f8 0xa9516bde53099cb38cc065ac43bd31c80f27875ad1bff1ae69899c41d3703a3d (-0xfdac6c153aa4765e49169d3fadc329f714fb70f9a010c459033db2bb9edc7cbb) 0xcd0e0eda7734307e1d09df7711ab91ec2c57ced31cf05c9c556ac914ca2600 (-0x31b7c47e2e823d81b4aa303eda0142cc194022ef08d9cf9ebc36b39a2be7ac6);
  SAdd true 0x66a6d990cccde889373e92a975bab56564b0791409a8bae363293e2b856202b 0x933fad9fbc4a6856ca3c2f8862312bcced80ded8054162bc98bc3817c592a736 0x6f662905e0c541e81e30b37faf5409fd76c28f8b5c0b980de1cf9bbb26957317 (-0x3f822bb8b8987b8ebe5a1bdca1f05291154d8224f17bfc8a10c826fec8cdc62) 0x2929621e6d0ddf9176be6bd5de635c637170b7b3c240aff308789f96fd18bc 0x18d248300766df34e455ded4e0faeb136142a6a2771e5130b24bc1e45be98be;
  SDbl 0x2b28284ea0cf0e25935fde8955cb39988ccfb20247730c362ea25f95109a984c 0x7b88704088c416baeaa0dfc77ef609dc1c4f005dc5003a3b1b479cf806e9c08e 0x537c1e107b595fc153ffd10651af9c4a93e1e7e889cbebf9916db6a617290158 (-0xd8874eecc8004a551c814856f2d507ebd24b37d25383f21534c8bab6f0a5277f) 0x74683d71036fdb3331316857e8afeb87f96e797216fcc8b2a7eac4a7c04b86a 0x3ff7fac82d86442c21c6d674903d1286ae62b4b459b7ad1df4a93f319963a8f;
  SDbl 0x6c446b244f15234d6c2056fc7cf458fa152fec2f5a05ad21dc5d1939c8ee342a 0xd127831989442b2ff503fc3dca1e602ae2b249f9a43c6dbbe734990ffb3e4bab 0x8553fd38fc083981b9288cec520fe50044f9596bfbb8b1b0e8e06b085e3a6a7 (-0x6c37d491876716faa19576ce80137b06deec080645b8e4d9d81a8aac0fac4497) 0x2dc9ccafe8a504f5fee4733b48927d8e21dc3ce19535a43d694755256058b5e3 (-0x2435fe0a53c2ab16e555dd4f7e7934f272625c163d67682594d5075d23dca13f);
  SAdd true 0xaad78c562148ce905bed17a047fa41ba805b1883c669d4c724bcb3732f1ef0ce 0x14900be1c66e36fc8563939b4cbd9fc484c22e9e986ba557867a49c6eb00b406 0x156f4fc588ca00946e1c5a0cab915df9f87344b59fae34531b5cc9bab846d2a7 (-0x69b2fd3a3bd4a2de68a2a45ffd0e530033a039f0f8eb66cf34db78acbbe10a8f) 0x7202fbdfdbd1e7e48f8fbb024317a9e02b5659642baaec809d405b2322c08eb4 0x7ddb5fc2edabca099512095f88e5bd8b7796e076eae9cc1f073fd0385e19c288;
  SDbl 0x1d692c8957cbf96b36e19720404bbe5f9eb1cfb9d1d7f28404ec1f2936648285 0xbfa821c4318bc9c3116654f78c12b8e1d91a858dcabfe9da92f0964dac7e9265 0x45566c23b69e3f6516c5ac16b8d019445a7afa4f95edb6d8b03c2b7bb0c12e35 (-0x7a3e27c657958d9351d30f1856c04ed02f49e75f5a745f0e87379e6372d1d) 0x360ff4cb1aebafeca3af1f4bcffcbfec9155beae2595986035096bb2c0ca158 (-0x13a8051fa1fc70b11d5010fc6da9c13ff6aa432da52ef6579ff69a3b3e8b39c9);
  SDbl 0x7b3e70fa215c49a47adda9a3f703039b443bcce0589a6d1f7e1d9d67f9740e58 0x413a5e714b6e8cdab3feceaec5aab3d9df32e1e3a2e8b49141129517a1fd3089 0x270a12da36b8860c4a752aa6da73aa57b92e75174215040fd3fb09d117b88383 (-0x16bb21374e3182f7814ee445de7f8370f401f9a93b4969c9bde4b57cf2a7b7ce8) 0x3b550fcb8267b8d9292cea3e3c68ee5a897b8cd29ebd416c7ef54e5eca6c9713 0x3cdd9339eca018323e209c46659fe140162091ad02315fe62e22efd2c4f60618;
  SAdd true 0x149a9bca4397bef5667465a940d0f288d3b6c346df67deff8e545c8aa9239344 0x3b350616bd71e99979ad9b9d03123b604aca636ed11c80ba57309882c0c0b3ea 0x18d4ac692f622cf3f29a66ed3e8f12566d71934a4effad3dcdea3c332173706e (-0x129ed5e20a595350f698b8cb45948ed41b72d6c6865858880852ed656364d5b) 0x1a885b76a601bc80030dcf2ac4fdbabb9be2fec4a0eb37a9909d07234bb2f2a 0x7c0dc8385ab7b41403f51f54189584147e7ec5126cc46eaf38a5e2a8ce8cb5;
  SDbl 0x2c46ce7d0cbd0c952245a3a97d1ea8c9a4daeb906c49681e32fa98305915773a 0xcb2a18ad1e0e988ddc7979ee1afb257a034b1ead8b28ede200b136b4b8018a66 0xe0cd9ca2057dbfaeab9c19cd15c6e2fe5a0ce59800b43f40ebed2dd9cfbbcadb (-0x207d9bbd29b1c036e39b35650a3394dba2a15094c01b5f34a4aab0e1508e002f) 0x7a86a9096f9dbdc6dd11bc94cf41fb770777b2e8f2b036a2528e3471e77f916 (-0x18e5f0528d682a48c5d58c8e525a7b15d336d8c90796dce233d2da8f3240889f);
  SDbl 0xd0f1652bdd1f4bf176a139c9fd8d4a378b794247afa48186b59a9d01b8ab4491 0x8b34eaa7fe1930eed5f980472dd78ecb382a64b866cef132422fa75404b9aa0c 0x5b5a049a549b0058a86c1877fcc37fccd35b3f1bfc9fac9fe3e1063a950f9c10 (-0x74bd4ad4f64bf6852b4b9915d4b2f0bc17109dd7ec16e41868d3b81be837c22d) 0xaa892807966dfc5bad446d7e2b30ae209d86a0e71a1cce58b2770c7658a964b7 0x3433847b6193398f7acf4f5be2ecc2d1f17bfa707898d8c7d7dfd212355f6bf1;
  SAdd false 0xa50b3d3d281e022da3d59179c89aa27e93ce473e9513d3fd6ba5e42e74ffad55 0xe5325ceab79704f38eb58c6e8e731a0cf6adc373950344bf8e87df37e9cd0ece 0xbb5aaada64f6f5193700d6fcd1030ad5bfb08fb57d32cee0ca117fd8fe85c90a (-0x390438f688156f49d1896588d4adf0ce4d654367c3836005fb5a92f00c4c3bc8) 0x6a677d6f9205d28d08c3627526d7351012d19fc9189163e91665651955212f68 (-0x3a044e100828a68a34c4e36a0646859b152c044139c613f6f4ed0e9dfca50c7c);
  SDbl 0x23cdfc0b833b00471345e5601e2b3dc074ee3d84c572b3dca8171976c37bdbdb 0xc1ed4dd7cea61ca41f25422d0548168ff90093fcb750dcc7c18114ba782e819c 0x9e5147e8d7273c590bf06de8ba0d53e39782c8a9dd260fcc933e829880c633f8 (-0x2333121968d2a6d7b04c153903adf70d9ad30306a0a0bd5b50b4131a1b22389d3) 0x501f8a8cd7af21b617850b427bbe53332a15be704095ba5f0d17269a88631df 0x4eed2163dcf058b3a122973c1bbd9028be94f03916a8b3cf7192527bcd96d3c;
  SDbl 0x75ce4092c8abe0c28de5a03824bcbb6a881bb2e3a118a7df4c4ea00906336ac3 0xc5a982897d23fcab8ee7458877080f2e143a1d960fe90cf50e9e62a04cf182c3 0xd06781ec6ff27c44a4ee836c63c223d1e491de3a87d61578c5207d61f9352c98 (-0x127019ba24343503180098d7ea6c07ca4e6eb004a54b8505c17ca75e164c0c6a3) 0x36362d325e27f5c15eb2df353b9ebbf37bedf26d6ef93b720594d70a63167572 (-0x1b80678cee1fb44fe8c844100fd47dc6165a49ed85c669296d2209c923b98bb);
  SAdd false 0x705f695aa8842b5b99eac6b3c71d06620e27e433f079a71db4946d990088d69a 0xfeae7ce42a8f2c6dede1415f0ccf6b46843f2c0f80217b47c09a250b0bb2bfde 0x88c932e5d2f9d771b48d57a818069e7aa3a197c1f7e6f24d210ee4eea4c6e390 (-0x407adc47c8844edcba0484d5775d3c81f6b64d7b400abd5ee82599a645940ba1) 0x31539fbee16bd61e8d82de0b1d10004dfccde5fb01b53a176432dbfbd46ae2c4 (-0x19076dd7e884970a6f22f7ae732410aff47fe7cdf6e932cbb3051337a2589b9a);
  SDbl 0x21d58b2c18110e7d79b6687f3ab5a6cde986c3e4e9ac7ecf57f2390ff34c5cba 0x8f39d755cdd1aef059b82689f07d236d6a9b7feca2e8a43d9344c5433fcbc759 0xaeb8413b11736050add4437b7792e9000bc0ec4d9302261f12b8ffbb4958385a (-0x2d3f411a39b9af09f37ab893892d8b5326a49170219f9b05a283ddf0f84831fb7) 0x478c00245b61bdb89c01d7e9b170ee67add1cdd19639f35ed594ebd0b2b0ff1 0xebb01fcb08db63976fe228590f070d961c4b639f2dbb14efedf8cf5c082bf48;
  SDbl 0x661b13682ca6283cbd31e62762d0a4549ce9972323d2c5fad3fe9bc45194ab4b 0x6b1edd51b166c2fa0d62632a1bdc60fcb9c1db185d102fc4b32903e513562899 0xfb6dcadf8326965d6b1ea33cb10a87fb1db9881e70b7c5ae4b0b1142a0cad66e (-0x6505399464272175ec70c28943db466b34b7ddb3c18cb7d30cf630763fe4c9ec) 0x28b9965445c00a762216f58047fa767e78f690387899a45d41cc06d79b986f52 0xe669132c1f81c68ddee78856b4b5f23e8d999c2e96c1bed9149cc79cba34c88;
  SAdd true 0x1c4ea04c1ee7462d3923e60b6989477c4bc82ad64c76714e3247d9b7573b7cd1 0x9ced289b4be6af2af3fc2b44c669c21367433701f1926ca0c54e85b4cf00a656 0x5fb3670fc9ffbfdb677d7eeec5ea442ba100e1b110528c1aae94eef1ae91b0bb (-0x63b2beb9eb9279b8baab92ac66ebb5950bd3358f32897a90e43796015255f5c) 0x3214b36bca5f4c2d979d89ea6a1568c4453e0209370430e5b838dac42722115 (-0x581dc46c124731fa758e4865990acd54defe1003292c68912591e2baffc458a);
  SDbl 0xb5884db5f028ef52378c9fd671d2c80889e91f2121e863f6b6c485dbbcc88905 0xdd2c8470b24f3eb81c7a52516f6f92226dc6e979d860d4330f7f4cc35d689c45 0xd9f7a2e41e555ccecb0712d74e514685222dc51e579e205751502ee10a6efff1 (-0x98dc172140a957a2b7fd109324eba9db3bde40f1e78962cbac3979a30cce1ea5) 0x80ba06766f3a082514488e871baa38d1b529b655c073c406c5c3914942438ed8 (-0x2d8f011790061fdfae125bdb600aaee80cad266b32554bd333fc0c6635a29aa9);
  SDbl 0xccc103cce68235268303b74b074d0f68e73c5579e4ebeac59d7b6e57dbf00e0a 0xdf38e87f14bd43d0ce3e3054f030ec8295f5b32d40e5af16400ce60b85c25bfd 0xdd527c108a0af258092465cd61a56511687fe791d13a8bc378d8c409e1d8bced (-0xe09653c218a07937c8c99cfa7ef16175c45f191189c5504a08163256c22ddb0c) 0xa3c42f95ee25b606af5703eebfe36d9a49236e4ed778872c1740c3a6d10e7c23 (-0x1a36b1aafcf5f568a27da74d07814008082ce972f152a47e7794b60733ab5f2);
  SAdd false 0x50aed98467c4ed6046ff9de37432a3855c2e33adf1c02cd578e910634fc7cca7 0xf8258f3418f734ed8330ccb6d704c461fe53ebe21d560a341a9347000e7752fb 0x3cf741b2f0bb3e772bf879f7b437d9fc749e676f1cb99a7f7164aa379acc748a (-0x365a1bc17ec60f4420465ffe8f108631683ff344fc761a9e4e572252deefd154) 0x196dbf5f43179fd525e9f82451abd0dd0b8bbe366cf84404ed025d2be6498ece (-0x7dafa1f65a5be24783e71f184295ae9c715226a74585ea893f6f42abf0946d7);
  SDbl 0xdea19b621998f8f79365453d36456f26e2db53eb062bb176d1b7982b5076052e 0x9898a26b800b8364de4c0ce7f5c6cb8a7b8f96f288845cb14f03f75b6d64c15a 0xb27f40d3e574d76ff2cbe0c04e8ea79c98326b10097183022dce7b8ac008983a (-0x2679091f43887280d63ba76fe1bfcb1fd2b5c63d554e8f763abe55fa0307fff50) 0xc19caf83b5b6225119ead1dac9541157d12dac41dfd56dacb9502e4203d0930c 0x531886f622bb0c3fa2c922f75b28eecd800750e122cea34076ff84eb9c70bcd6;
  SDbl 0x21443f70f260c965c39cc61c732ec1396db18f4d2ad1a73ef098c60e060eb271 0x771313eab0fcb3b2705da914c137d170903f19ce324387cfae773cc8df67f1f8 0xa75d1b9f7fe29f512b63beb15e81a45c6fed308dd2ada2acbfacd2c81bf62396 (-0xe27cd8da79c81ebdeae17e16e246b1b29022b35e2a06908e08c587160c94904b) 0x452aa8ce6892b04be52f20fb6699c0f7496fd180f141116208829ee6d741ecb 0x45b272721800855ece401cd487f739c218e52610d953fd943e238dcc3d90d8e;
  SDbl 0x33716cf5de89b9ce0792704a83b15c7ceba9b4a61e85ba84c1814de6f66b51be 0xbcf3f2c912a333b0ecdccd260b0d3cf4f749aafc93e2fe218375a004ed0745cb 0x7bccf649163170635e4560c03d58ecc82e6e2ad5959c9cab43c89f01f2df193f (-0x62e4d224dd6c42e60df8e17e109e584458314396d48b731c19b65ca14c771deb) 0xa5663ab60701931692dc44e02fa01b8690669deaa6c2082bdb27e1814e960b7 (-0xe0ac266b6a1bdbe76dfb0ba9aafd55851a76e2200a3a114c177549da033c991);
  SDbl 0x52149b501a753527917c69c8102994b0ef9e720cef8298122fcfbf757fbb2673 0x9839947b7fe7c21d58e453eb49d345befee3b81c7eb57070f60af4b7e137953e 0xc227bdb33abd9bca174294a98481741bc0247b6d4daf05954792bd6d54b20aff (-0x153026326c37f62d7278a7cc23e845a6a43241a8502dff348d54b81178d9635b2) 0x1a5135280e0286a02fc01d3221f9511fa9b5e9d8c7176a6550d03cac6f7dc92b 0xbc6a70c97f85689526244c01cbe74cabfaf921571afdfa9d5376c553b10e6e7;
  SDbl 0x357b2d0878b39f0b6d31cd880eee26d0bd7c2e39d51b999c0205595a6d8852b5 0x2614de050f72ac13e7a95bfb18c50b37cb67e7a923c59e1b75c90a2854fc8718 0x857bd701f90b092874c95591f4b559b5dd2c817c57133c19e071d54517091aba (-0xbe6dfcc7c2a20d1c4cd5fcd8d8cc6683d50674e5e5be60f0bd1d9d8b4ccf378d) 0xb2c3be9db3693165574f84904e93170d0eac5f3fff62d485693934dfa633d9b 0x17d8857e83129ce525b4543fb5e9c9b3ac42dd6c7afb067a39e3ec87a941f8db;
  SAdd true 0x41f00f0e07301bcfb7cde316f231a08ceb0ebef335e909cbafbaf06a50a276f0 0x33a3e9cbf90003aa6b4f49316516c9c564ff960d94072d1d083777b3288d0f03 0x8d69aff533c815fd92bf74e408426399c98e2944df1ea35f52576b71519fd0e 0x344896c12076f00bb3080eb3745f7afce0f5c1bc8fa721c320ee905aef557d6 0x10fbc8c16bd256b1795a92def377134873f8feb1d69e72537ba85733f1d3e9e2 (-0x37e08e4af2aa2d1cde31ce9df4acb8fa2784abc79aafc6ac96a611b6b0129e8);
  SDbl 0x2595aaaf0f8b588f9def93b0b46ba5244b641445379b8853159d495695284ec5 0x5bdea065959b29c8f4b419847e881e1464b0fb4af510c908301642c9f0646faa 0xde9cd4ee3a20d82dfe6d3cd800afc03cc4cee9ea11cd8abdff062fdc64dc76b6 (-0x1ca7c9e94279aee56b51f302cf706b96a6159aa45a368d5d7df0a0e64205f174) 0x5849ad6c197f300af807ee9ec26dfc9e85a4cf484c09ae4c5f9f9ca39b1ea17 (-0x5e8016300c8bfb295c134b82d7a9570a5d88655a7bf4ad8f74c73fed0c149b9);
  SDbl 0x356a611ebfed71a80fd85a5ef65c3ef937946626d5dc73414747071f028203bb 0x3245cd1702b9e486437d6f3c286e7636b7e0dc69c39a04832643996dcd826cc2 0xab1f7ddca783758c81faed7a82c56bdce9308d2b03c51386186f0d4ddfba6efd (-0x60223f51fdfc1fc1d7f097baa017368936ad11017e80e3cbfab3f0165271b3b) 0xb25386b58eccb408a55ab10c975003e9a5d684bd27ad90602feb3a0f851617d 0x8adecceb2c884e3c4321d607c9a5d5329fa9192301796652bbd4590d9a60e3b;
  SDbl 0x975ab96bf80fe14388357e2f92504b563b910e6349f73c5933d9748d211a5706 0xdb7f89d21286273e7d004d60218b1afaa515a6b7c07cd69f7ff5c0a27f61d67f 0x59815dcb6f3e397749ed7f57398640447f430a470172541312aa3c9af6265a00 0xacba6b13c609d1b795b0e8ae5932560f4edfda6e06dbaf1a6e27569b0c239f2d 0x597c26e49e5687dcedba1715f6e94fa6972931834d1858378627d9bcc3999bdf (-0x640d07312ca18f152b33a0c171f3fb0764473f2df793a7eaecf323fcf7c18195);
  SAdd true 0x44ffaebe78b876f0a06fc441e7bd9e3c491708f6c2ce18493e83ce037229c29b 0x9379cce2104515930f4c391c0ca4f158a53a6f6bbf23e111d3c5160f24de7d66 0x802a0e9e36454c47de4d0f60ea75107eefa98932ddd6890dc1bfcb319b8f6621 (-0x2d7a27a597fb7947d9e07d8515e0b59492c65a89dfc87955bf656ba3f974cef8) 0x1298d432d976ccb1ce7ee750a92a56b7d3b08c761d9f9938715de076e1f77ed3 0x1369751083b8ee63321794d44f749842d97dbda8228cfc9e5abfeffbd3a8dbfe;
  SDbl 0xee6867f05d391b00eaa684b49fe02d94a90bbd09888154f3515be0d01f106ac9 0xedd3e78d04c9efc6db50ae3b05798400d445c59775d97b917d73df48218a46ad 0xdb6cd54a706097d4134cb8db3b455271d591aa1e855dc7278672243486ef9c4a (-0x102894504fd08a6448c9ccb8abdba0f5a664547e8dd65f768ec55f3e8ae365e9) 0xde064bd868db8526eea7b418456f46622d388dc4f0e172f8cec5c9dc379c2fa8 (-0x54249e152f0622d88a9a6f77275fe4bfc843a8434d626d4f052938702bd88ed6);
  SDbl 0xa831c458892b3b541aa92baa8f416686d6ef74822ea10f7e8cabb6c21285919c 0x2a2f4ade8ebc06f71ffe081f4326217cf23bd76f7d85db61655efb6f46bbba40 0x29a24f47e29bd6eaf2f711cbdcd69dbed00418ade4c645a8ca7f8b082937205 (-0x17681f6378c3db7a6b98386826d25ef78cdd754506acc1d0a69b757500fe11b78) 0x6e815b6163064c75464769fa394d2dafc986e66c5d5c0a553b0d2b64fae6308a 0x808a0f62acc75906af7a6903bb89453d70dc7aec9a01a144e11a5508177abee3;
  SAdd true 0xf09b391e4ce7d2ff67c52f7a2bef793f68b1e48b008764ae0034b4bf9f990025 0x84e3f9bc17b7116fe35185143d35d756a95d085b6576005873ad8f466ece7372 0xaa9065c5d109c152cc23d1d3127eb7a27e271a73240b437a9cf6396f416d376b 0x811417626915425adac5a5a051340e1bbd8d3d83b44187130eb27631a0c8918 0xe2236937e9c5b765a704c07a7524df1cbbb49e420b688c68895d2769c69c9d20 (-0x55406392dd29468fa2e787ca463f01432b28cf17781a168519348742b4689256);
  SDbl 0x7a069e0c9371636567ba15b13574632d5ba80bfe9131e4df1937a30a2baf71a4 0xfdc3aad70f89d68ef7a415340a683ea316b1f19cab9282f5c7c00acd63231b9f 0x9e6bb3bf22e8ccdabe0bf5cac0aec6e0a87568a3f02328a3909e0f7043595e6c (-0x2c593b4c4b26581ea91dbadd461810715dc184ff69f23db0a198d8760e8e9acf) 0x3a2a4ed000dcd17b6eb8f2cc217006f649ba1433b4fb3bc3f6c308209815d173 (-0x399dba4539c2e9bc67a4be158981ea3b0cf6cf5917db9b47b8b48bf210fed055);
  SDbl 0x19b4748be6382afda1ab809d2fe8e82849aed4b84cbb0c4c8317b9b0bfd5178e 0x55672dc5809f38bc1c83e23ed53ae086714298490fd8342cb1f5ffde6bec2861 0x1a997c0d90392fb8f4801a866a2bf2c69dcbdb7c9a84e89aa5723865d0404e4c (-0x2d2d49ee4577ff5242e2441084d270ee7b22cefa9b35c9c2f6e5c28466e756190) 0x294bdf76f568a702492e63f4674fbb2a6f5c9c21dc1fcf36126cbb319bb8cdb 0x10e7b5e4a281026f378df4c476dca2ea05e421b2e790f40e559c063f5eae2e54;
  SDbl 0x475fb1bd8b4a7fa7091316f44e41ca2ac971a56fc6b028b64883289a45f91370 0xe22e08bc22a31d551202ae955433fd864fc3f0f72d01b159d753419cebd2301b 0xe83bdc1cf16e13eccc6bb71c8a6dea06956f43473aa26841450bd022cb716261 (-0x46a404481b07f619e3d06c2ca0e9e58cfc8d1f4cbbce89dc1aae93365e186c40) 0x13e6385c9d3e9369fe8f59cdc74ac7ac6fb662863517dba13dc0a7c89250afdd (-0x273fc643888218c7cde284c2a4ef07c4b618275fd0283370604cf3eab72e1ff3);
  SAdd true 0x248cf7f5c8be73b666e91f93c7940d543811e812ec7ac7da7b6412849dd469f3 0x5ba417a99686da2a417d23da0811b9c82fb3cc7acc91b1d05cb55d333208fd93 0xe82d023ffb8b4293a82f20c78a33602df5085040e2d003b6453bb3cc5e2f533f (-0x190b6840f00e1ef2f6f997baa4e28d42c69683a44d7f32366a01ede503e12d05) 0x537f35d4aad4990845d01a06b20f11818872ed3921b42545a493b8d9cd665cc 0x13357ba6c82a8c04216e377e862ab952e0933127551cdc9c5ece79a5094bf688;
  SDbl 0x52d800537eb6f4d76a2991b18743c8c33bae5ccd75a50c87038b5ab4a76db786 0x2d407f66e3d937ca8bb86106ee5d168d5a8388f327425ab12bcffe3bd4789866 0xb51eecadfb916329d7f99efa96c3af07eafc4f07e4a0281ef48657e2705a1ea 0x33da6bf9c289cd9edf6daeba2f8bd6a97b2ccab48901d3f4046e55b568de6f44 0x1acf167624e23b48b9c362383feac07e76b5fc3a8f5d6fbe70e217bb98ddb968 0xf030add05c5f51da669b3a544ee724a8205bda7374acfcad4ad91cde423d49b;
  SDbl 0xcdb5d42e5fe70e96fa924169b9a702bef4ff33b8e398c76a53feb60317271f4d 0x8b12f34f8f026f51eb6e178138d77db22da5c9fd1d095ee79c16e858097c8e6a 0x2d7e237160d43702ce1b890ed0190f5e3d1abceba7334cdced3e19feecc8a4ad (-0x5cdea0e000cabe1b766d246d6e23a93989d1416571bc509106130edb8da38db) 0xa54cb6f8a455384e5e426285dd449d8204a23c9451a4bfafbb669f674f24020d (-0x4b642a60d6e878cc2a9a3da92df67d5e50f50d5825a9f0a8c0d182daa89a3e35);
  SDbl 0x8dcbb574c447782a45f7eb3ea6ed4f682abede30c77155dac6afa7ed1c49130d 0x13e467079f4bb2b1909c62ffed1978875e6c956ca23dd49c63a5e0f0b600055e 0x6e8a5b1cdc522a86e461a0a66b7d26e76a7ee0e9b9b60dfe402dba714fd70bb7 (-0xb043674a42cfbddbfa4bd5e1d77d4f1ae588bc932c98d812033df15669bf1be9) 0x4e8a07fc368e5e82e1daa009916aa700fa6d707e67cac5ebbac5648812243389 0x420379a763bd8bc9968900e0109c006e0f0e48e881decb1f03a3a7625cb4d6c8;
  SDbl 0xfa3eeed29044dc68e3c90d311fa8747ae6eb37409ac23280bc44c88ad047c553 0xf484c52c4e2955728f794f3c725bf92c1b8f244aec637966d9eb456e643e8f56 0x97e51c0dad9011b93df63f5ab519888c845a5690a555f6340bc7d7026d14082d 0xd37979fffab296e68878dab262e2ca4a3249d04bc8a450429b6c2fac5b5b2cdf 0xf49ef9ecc32f8b356efcbc7724bdb52676a83c26cd93e42089f7e50de41bc129 (-0xdb93d45554e4949035ac7c97f8f6a2f0b5ad2ae84220ed256967df94e0da58b4);
  SAdd true 0x42381f110287ed7824b490f8a7b3f9e34a8472957f228747467a1978f8a21900 0xe94b99e7e501f71574358ba24376f5cf8551309b1f6e82bd14224596e031cf2c 0xca969432f89ab39940009c0da082a2476d5bf97be6a2c403c5b74ba77c590a52 (-0x321dff7668bf4c95c9f2105fc9f1c185e5a1504161cf821f913d555e50c4208d) 0x1120fc5271a54dfa8ab98274faa45cbce8c4c57bd96d8368d913e97ad14bd349 0x2e73305c81fea22b8ec386c9b0391fad521b8e68a75682b4d72feda6014f87f;
  SDbl 0x5d068b47bc1c120abebffe1a18f99c100d533d5a6fc047993f41881337d5cf97 0xafd8557dfd01767a58f2a598f9013fece47a04eaf504c8f90bf706cef63ac205 0x1984dbe57fb478caf49fe3b8ec45bb8ca43abd612237170004bc58139d450fcf (-0x1ea945a47dd2f7548896f21aa2a251f5cf355c3e5848b8008704ed60934ae3a0f) 0x21cdc15d139df22a18194c76ffb057a3434e98086c1abbbcf512bfccbb02d54c 0x14e057cfd7f863c8988eb77d2fb96ce08a9c159f04c8c008455a855b02cfcf20;
  SDbl 0xa3983331e5582e67ea15381e6ed3dac8442122e75be79a90d71421d601920575 0x923688fa60c2cc1e4d8423e784110b8fb60b92a491ea5519538503666c31520b 0x35f46dee8d451e5c22fcfba5fe9ae2abf339ddc7602bdd5ab2ab6485eafefea7 (-0x149beeb18e9941d9fada5beae7c2d7ba510e37775475c0a46dcaa9bcdcdebccee) 0x688b2baec816ba98f349c5b441af2cfcc703ee54727faabdc59f501335150e9c 0x12efa3364fd29d2497a2c1e5ce47123b729e1a52fccf931586378b526c2fff34;
  SDbl 0xb90f32ec5d0c6124be6c3a44ada545f97813b83d16ca41d201510788a2c6bc7c 0x9f0a53a4486c9545a15b980771ed9fc87bb3636f07301e411e801528b3c7f54e 0x89a7d0b32550dab3f309f45c9514d085a1a529f7a91bd995cf573ddcba7f35cb (-0xac851094e16be9ecacc5810ab855bb21728849b682bf552817a6269613dcd460) 0x85c6f8812616f2f02a3525259231fa2a89e0a31d192f81474e1aef6081943d54 (-0x945d06ae721a90726126b970d05ea9cabe2109ce64957f80c14d48561d3831a);
  SAdd true 0xf1ad48ea079b40702d39474ce7b69976df16c4776f76d0720258708939b986e1 0xa04c2104238420bef7cf3800bb9fdae605eef1a5b409156772addc666477b138 0x96f0067154caa3e66e4cdbcfbbf078eb9c25fa166ffea24aa1ea4d4a9e5e70bf (-0x6636daade8bc9a37ac034c4227b1809c1b4ab618315d7e6e3ef4e16a16e3a484) 0xe427b895278cc9f6b09a83cffa2b45824e8fad88805c56f8983cd5c1e149c98c (-0x12fcc2ab02a446406ae1d3c10b0a6d616c14df62a906255079a4d147a37b4cc);
  SDbl 0x4ec2d182985d160f78629c4e09be431545e55aaa9fffb43b764fe54826139480 0xac35982fceb81708811f3306afe709b7155b9273f946c3fd5bc75e2ca9b86c1b 0xb2ad5179a984f31786cd53d8b7c3c5a0df31d15271e6b4fd674eb9ee3d1245af (-0xd03dc0f6742c502bea013fe573c40d0f7d62be7b9839aa7f2934a58b0aec2243) 0x183b4bede27971dbd68654e2fa34702eaf1c5804b30654e721c8bd6411838e8b (-0x3aa32fb4edbe3f1b7eb3a5f680a5dcd0b736f07b91a79c4eb921737874d9c12);
  SDbl 0x16ac00ed5a706e793e12d994921cf68771c176e62afbf7ba3b10e2a562fd3772 0x4cb74bcaf2bdd70f51c6fa43cb71ae2d6fae00e304c926235ea194958448617e 0xda74f44ab03e0255b86c4bc2a0bd86d695c18891193a4ca42303e657631a531d (-0x13be24af9583f4cdf21d951a667154cb2a9f940ddcfa4e8e1a84776dc46b8e154) 0x20203ba0c7fb9dbea362c20db4656c0bb0b9f69f045a690c55ab710ec630af0 0x87503c490c96218fd1748a7136b04ad754793e719cca78cb7150cf04ad723e2;
  SDbl 0xe7578eb87968a8ba203bf2169f0307b891e1d74687ccde6c8722a133b1106448 0x28f23516c98cbcaed164fbfe6184431a0ee7026d85583d3d0913cb67a49679c8 0x3c0a8fe8aac592d5c359c8b3b4a5a23023131abecef47275438be7e36dbc2f5a 0x145dc7738d8de73b633e164d5dc29e1c6db31701a4d91ee8baa9d78abf6a4c5b9 0xd10f21840d1db2c57d00ec032afd3e1d103c672ca94b94028e14c42a6cdee884 0x2053136881ef699c1dc2a25b7f90d13155a543ced7f819cb763ab25d16ea3f47;
  SDbl 0xb5dafb1f1c39d897cc7063c1bdedf1ae231324df106a7019c755b79e586592b9 0x3b2c98df80469e990fffcefd57e498ff5b24157f75e71dc81c3ed80300aa727e 0x62e700b434b8f9e7046bb1eccf8f706ba5dfde08955fda02ded673949cb85451 0x41a7e6090e2a3b958594290a26a68e82f3b4245611f91e2083d3543f13e8eca9 0x812f626b266b4657f7e336ed1ad55e28d290be131aa88a9bade0d749ffc5dc5d (-0xcf2e02765fa48f90597d891dc580894ea2c854d9580dd23ebd3220b5776f4cf);
  SAdd true 0xbf2baee872fe58ebc3e3766ffa1d49f43a44022570872a870d32f86390ad7b08 0xa04951dad5effb4434dbd4494b0021ae4737f84918279217556be02804e5ff2 0x38b28e746845217636d4b200aa5ffad1d0cc764a07bfec3bb3140bec45fc396a (-0x646f74e8b62320bb52247f32373e144c30c008a765951c2e0bd1a3482fc88f9) 0x8ec23673a3f12ff7b2fb969f624a706e2ac8ae68cfc6a605cd7f9366305496f7 0x24b53e1c378448043d70a9b4489158461b4d80c423aee16d6ab61d055a4eb55b;
  SDbl 0x20ec583e54e60ed2639e1bbf159b7b9d9b0956ced223cc6086c6bba41e4f3408 0x7a64e544bc56c5a58473e0ae621e20500c35532cb6c901435c6c7884959872bd 0x4668c5aeb3fb37bf06b67c62477eee01c2fce900f002cbdaaa4d47ecadc24e6a 0xd6840b83824b2e866195031c3dadaee8f34c23c9d8208f5c64c1906b3c5dba9 0x43bf0426acce5adbd63b2fe5309aa172369076a7cd9256bdba4f1968eb1f261 (-0xe73c98b4c79fca52e32f81761b8ce517fc69e65f2e6600aa93ad8a7bf7aa5d4);
  SDbl 0x5eaed915bad45d6939fde7a06ae60ea3ca5da12ea54bc86700c73c3fd5a885b6 0x8065ba96000a07bcb13ce8a7c338c63684a27f1dcfec54820603e3431923ccc8 0x4697c1183e25fbc373490f48f7d32c42168aafe29d5cad87d394042acd92075a (-0x7b77d7da2e54b0316f15d0358258701cca131b1b8b59b99ea698e500e34b0420) 0x2304ded7e9d8a4b46106ef70c491c8f85922ad19f4844b6103f7d747a39e14de (-0x23867fc0d953603742ffe9667c1b59a4463aab459a072b9ae97d40c5b99ef6a);
  SDbl 0xfba0e08bd0975c4a18da4c8e6882ab3b4a52e4508272395a83a22635cd024b84 0x8b5135be679ebcc115ce0debe90f7547d0df5303b55dc0b65b1a9f1e182ac82b 0x20c06956ad7ce59729c015bbd80c1a33cbab95075197c6a91e7b2fe8a3040095 (-0x366b5adae7ac1db21b046e41716d69036a52c890d63dc246ec5a8ed7b8d03c13) 0xf754dd6c961762fe4f48b968ae55574c2736656e04e87a39868744059e1bc5ab (-0xabbbe81a4104b66b3ed0511ca21defe156e4fbf30841e401bd7736ec6645805);
  SAdd true 0xaf78b27b94639491c15597a47244c8c3e7dc5bc107d05fb8b03f3e749b6099ce 0x171484cc28d15f0bd567c7eadb3f3efbc5c21bff5b2ed52a2fe77c4aeb47e6 0xbc768a86389aad5680d62c0a3309dcecec2c13476dfd8cda8f12136dc81b8cb0 (-0x3cb1d0493df36c56fdf5582e445678ae10ae0998215df0ae7c55793da58c317d) 0x78463ced3d71956a34b89a6ac8bd8661464d861bb08fa4fa0ae782c06b7aa314 0x5f6e6107f470a47905f757a54d75ba3d370367497eb1a12ed2298bba6d7d18bf;
  SDbl 0xae3d8512e457eed17d500382242af48845d8584419feb1b8e4dadd3392bd9791 0xa2e634ee63003f543b97c4e6c1c99489b5eed7f8450e2042ca80b9f0cef10eab 0x1caff105fa0fab145890698a7e220e3d34c6c64c3017bdfcc52a910380f0eaf9 0x1008bb27e61bf641bd38b97affcd6149be3a06752c4b8c85eb6ce72267a532889 0x7697afaed52cace3b18b2b0e620466e2b56bcea9947fa3339094fdd8daf13e56 (-0x6ecfe8048c1ece04c66f2f0b4f177ba79d2a72cffc2870d75d07ffd16dfebfc2);
  SDbl 0x5605ef89101df21b0698873d20f51e31261c7ac88e1c028407e988f8bec88b0e 0x57b6120b52e1db4a9d51610438ab9aa7297e0fd585c07a8ac5562f3f34bd56ba 0xbf465b122b4f31b60d5c0e204d3a9a140e1192f11cf29c5c64855347c73f6c48 (-0x123b0f3850f4492cdf3a0c8c780b26b80a7809b4023f32817ea4c1a69022ca694) 0x1ce7fd136f37f26337d408378e0a8fd3c24afaee7c84dedd30610c7e79373f4c 0x1943ea03412de58405eb205b3ad32345a012a4ec6c32fd0abfafcb7632346d13;
  SAdd true 0x261a15ae277dbc19d2028febad260db86ac81ecb0f9dd54d941b1c4251045517 0xb62f5ce854181e160a351226d72ee97b0f2f0c2a7132b192ae3377ce3e6735fb 0xdabcecbe9465763f0d2d917e0c90d053f2903397a1838c39cdc7b236a17cfa34 (-0x57f98783ad0b46318a68a623851eee0912dce5d263dee3febac20a69f0f7fd3) 0x5abc118229b236e58120b4c8bda9f4a8211c71f9397cf60878d46cf5370b96b (-0xe0fa16eaed7b337c3728e72c1d4db70d594128586b0c42cd25d666543dbf5ad);
  SDbl 0x7bffd13a4d55911b434a7d8f42a3df6b385b144cadf6aa29e9d425507a6991f9 0x766ce6e0dd290a0b5cc22673495540898585e83e5cb99bc2968fb990736d30 0x566292002ba14fa8341eefb2054753eabde1faef3232647d4c0e4bac2a3ef566 (-0xb10f6d2e9242e7afc8c8fc45c5bae85d538cfaedd2010f1b6f1e6b925921f4e0) 0x3c0fd2b0bf865c24df90d950e09b4853fa471036f6bb34b3d7df7f0ba7c3d4f5 0x5805730d7a917b84ccbafb4d487712d1b8102df507bab9896012ee206b9fa727;
  SDbl 0x63dc21fd77e7a3cedc10a29df8f5f1ab5e28086f45a8f584585b376dcea2faf 0x8a84cd6350317cfa004457cb1d6b6137e52ca093e43fc9eeff64040da796a7ca 0xf428229db0d0d7f5cc172c6c0464cb3733bd54c857d811a875ef6486d1484050 0x435a87ac36bd084f4b236373ae557f10ab8bd5e5488b2c7d1d37ef7086ec589 0x26f3ff94a1da92481bd7f4246571eacc3acffd80ef8235bd851bfccbafc889 (-0x35da45ffcb268e6b3bf251a937a9ae7eb89ebc2f15250101c3c3c85d2dd7504);
  SAdd false 0x59ed2ad7a5db503d91ff7e22bd1d844318349fdfef6ff317d57ce705bbd68e51 0x4e327c4e5564cc58726fa8a741e3831afa23a5691d6a4fc07f9b8695043e41a1 0x2341f448e676719a8a6b17de07afca642e5d7ab18b8dea4a574f526c03757ef4 (-0x1ed31666a550268e820762db466646a7aacfa185596e7e55ae71b9a9293a62fe) 0x1f96c3826b5dd173c50b36dc4a16d7aa593348875b11dbc932d6eb454a976891 0x1530807dc2521ebfc7076573b2d868beab6d1e798287de259946fcd9c3d4ae4b;
  SDbl 0xc0503b5cba12cddc94209705e57462f9a595c5a251f8bca63f95152092049b16 0x8d233e9b931270678c5d1ebb88d7143cd74711df3600303f95de1c85f240f06f 0xfe52ae1d0330d670f05fad04802ca97a68864797ae0c26422da0c966e95bbe1 (-0x12af611daf27c0e0815c7630b963e8dcb3833136b1a158e1de60046a7f1fd430) 0x90787230cf4cd217470140561fb7b4dff3402b45f306933aa3978735ac19cdcd (-0x2f484b8f1ebafa8db5442574d2e6f7f73965bcffc1a675082340deb142ab0577);
  SDbl 0x843baa5be941c66ae62ee0d9e9712566245c1e776441d980fe8070d562f366f7 0x6df8044b486d2bc995b352892127e0cf6121024b671835540cf57719ed4d789b 0xa4fdd3248f13302d7e4590cf9eed5363f386cc55c0059fde40de8370e9fdcffa (-0xd903ca7318f636e7b21ddee68c55b8e31ef89568c2aaaa63641d6bcac7dce7ce) 0x444d959704952151bc0d6898f444b8168e28c89695b71bcf5450f6de137b9728 0x10198dc5cc955f8fadd739dd1091fa1b6123e1f5d0ce54f054ea9077a9b0764f;
  SDbl 0xadbf9cf81e3813091af94b096b3e69474c6bbf3c58078e8b666095b49271b97e 0x39c4c259820bb9d697301d24b4152c24d2e37fba15a89fc87c0dadff9294ab8b 0x92dfeec619ab93df57fa15cc840ace72d9e90b1ef55db04e29898c2189ddcc45 0x523ea0a4af6a470ab9b6e25f64c79d6bc2f95cd92289d774d59c6ee25d0afb70 0x75ec89936940c04906b51af447e2ee4e898f4565d78def6769d92cea6d8c42bd 0x236db5d08de13a73c3575dab38c98d47180711fe6a39351b2c5519449ca61e5f;
  SDbl 0x4157a63e1edba216148be9029f0473b7db506a26bc752d98cf8d16564aecda47 0x47c4d7ba03d41a530bc5c50844f25716fb583f49288c1e4c64e7a79696425232 0xf8b9427b935ece49eac29756eeaf57544c465fa60edaa1fae1430f22c9964b3 0x23dea8e49f89e59c78bb7eb28293af8cb0c672a89ff4ebc4ab9835f54adc2622 0x10ada06e0686c11d3447204c33fba17ae8e6a8d6a1315945f6385e8d8266a997 (-0x392d08c3be4931cd84f55f167a3b00cdd3663a15feb5eb83b78848c7c8160b7);
  SDbl 0xc8d50d10fbf99d6c40a1e687cfa2e2709853534466bbbea5a3b1ceeff02b37b 0xe6285b9719ccd71bd3b154edaeb57d60f045ca0ae4f3d8c5577cd3b97ba556d8 0x4aa33eecd94b647a8c1ca0d3c3feae179426e4e19503b3adbe0ac039b2f91a1b (-0x3ad61597578b1bf8cc060d44af7c128040904985cbe9a2956c1258a04e80e0b9) 0x9d8d95b9e631a3cad28643970ebc10923e813eb3c06c4c2c4b209c5268be23 (-0x7c418fe77c2fa5c374fc87d6cd7e3e015fe178fba13270e18c28cf04a4e3370);
  SAdd false 0x8213e3145b81272e769f909d1845cc190665e59560ee2ff7f37e65a4a61806cb 0x50135bcd50823cc74aabbe5f83648d7842228787ecb9b2812001324c4016e9a0 0x7df43f6c981f0e659252ecf95c2be3a41fe5be3f451173c28f53e9c4a8857e23 (-0x5b268d963414928f98f8b9fee819601fa7be263c526d356aff3e1e5328d36141) 0x4218342c6d7a1108e739543cf9bf31ad26c54f4c28ce1033a71c3e6664ca9046 0x4c4252944e8d3d37a09a244acc6898c94941ef5376bad7562fcc18ee3dbeacd6;
  SDbl 0xeb6042140001ecbcf7cff3773d629e3321717983de1f4195329d1bd109886c8a 0x4bd7e8e4b355d3ea8a851127c3676c526f11a316be9c597555c87940b21fdc1c 0x87a50e1ea0ddc744f9f3d7275f1608e449f3d243253c24e236e9a45ec902c65b 0x9c78d421f0eedc772650ab444d16ff066ac2ce03a12ec64e6e764b8628946641 0xd869dd83307bb928ab8bcb6dd61b4e2305f8a963cb3b885d3485a82ffda8f4f8 0x3e429de4babd99f5df0c0c7025f3b8bcfd34dae0b3980491864de87de874b56;
  SDbl 0x20a18f0546679ea42effea014cc3a5914dd540199bd20c8b255a31f5d28a853c 0xc3344dc0692dedc6ea75fcd25cd869e1582001a8b66dae5c742952bc75a03f1e 0x58cde693417abbecdd921f12a3127d3fa7025abe13c9a97367561399ea7c16ae (-0x20d430f9c88c11b49fddccbf19f1b27e9f83a1458869dfcd4670c5ba4d6b1f7b) 0x428c9b68a4c2478b733b07bf19498fd40cfc4329cb088d6683ebadb7fd89146 (-0xf36e0660617872054d1fa42dacf6551de4175dacb1f533369732b1cc3e5e47f);
  SAdd false 0x585568933bf2a3affbb9d729ea5ad8f99eb20e25a814c4415211843384614cbd 0x8927ec577238117683ec85fb4ef1262789e4b1a06e326cd6b14e49c317038b1a 0x7580a10201082e4b0e7234df373ccb7846c5ccfae4803b2fc566f4a001fa1694 (-0x31d68eeb9249acf489b62f3e2991c5f6be53ef5b08252afcb800ce8cacd0d114) 0x1e7ad463f42f6970afcd0cd5786972f304c5b0df985e2d98f75bea9c99b57b76 0x14079f4eeb0c958b7560df4aefae3293119b9c699db1822c6cc9cd0a47d0164e;
  SDbl 0x9e50e7cc45c7733b15827e40de3c46213d6f44c96ae4612bbe02cc014ff2b956 0xea38d8c2bd599f0ddf8ce203c1261a21bcf73b3b3f1870df7845de9c9a4b3ac1 0xa81ef6dfe621c1b2dd75b6df7b202057a7e8c15b044967c78136839445d2072b (-0x4b1e37a1e8394a79d94446ee217338771b2dfd43726208c5e4caa05121e55787) 0x61e7f7b239980f8467ebfb695ded7bfe9b322099f8992166bd4c3af0c78ce811 (-0x3c071f180f33b4d49277b79e4a9f781104346e1eee9972092df55a3b3b513127);
  SDbl 0xc09779f56fbae991d88a3369f355dd5f8727a5ee2236cc537594d388edd5abff 0xe68a29af780f8b59baacb4f324177aeda80bb848adafc34352770b142b140888 0xd8dbffa0b6140c8d5bf765f3e6b3916334860f2c772ecea85b4be6cc209aeb60 (-0x185ee83a579e180409847043a90874040501fd6a87fdc3da73f38f7142dd5a92a) 0x90e39091d21fac59de4efb61463eb839d19253963ee33c1f84a85c8f8fc5d609 0x2c53118d3a3b5f3873523c7df49639751b50d267ee9d600130b477c3178d8c4;
  SAdd false 0xe0d513eb66eb0c89efcff6eed9f6446f5b526ea06eda9a972ae2d032a5cd0fb 0xe3a7e45ec45588be109124cb78b40f3efbea444b8fa729c14b13bc6e20e70612 0x9ffb412e2632e9d60b849d6a6b089c273640b85a87558a55ef6a33dc251b14dc (-0x9de26d6046bb9a88e07c28254423c0f2b55b6c6aae25604205f0ee465be2dc6) 0xc5759436e0d6f70822d19be021234fb35722c53adbf78dc70952f04446ad48 0x2886323bdf41b13d9fe448688c68327c7c148220a35d209af045a17b2cb68a;
  SDbl 0xd9522162a0c593418451cd89246c9abcfe80aebb279100c8505f38e153806b5b 0xcee0d76448cf63c0c7e30be8cbf9a04d2f7b8a320921dfadf9b1fcc7ef3c6936 0x65c7cea4ab433454e5381280e2db7b896d66af742b4e92face26bc9f9d35e7da (-0x14fbaec24b3f1ae6706609db0d7d0b3666c408636efa7dfb37c03ce712ace309f) 0xb87c56f35494dc9d2913824b973de4232d666f41e7a820bcf05e69a5a7054301 0x11a36478367f5dd77e0b5442d15f977853600171c66e82ca509c3620091b4682;
  SDbl 0xbc6466db613c4efb5ffad6de5899ac69af4d268b49cc4aa82b60da831f82deb9 0x8af3913f0c2ab9920c708b7861b7ae5999633494fc23d55f6a1cef439d9b2366 0x676597414fd5faefd70655ece71f571d6086ccd992bccb0432a949d82d18d2a5 (-0x15fbe92f9876a478080bfeca3602a08d9959076a167900c865af7876409c72aeb) 0x8aa39e73462bb70dc095533de7c049494c46b6a1a001b43f059ceea5b86a9421 0x31fce37db0cc40f484911a7d1bb1be7c0236d9f3c8f57fa3e052ae454e98e72f;
  SDbl 0x7be265a47c400e3ad20b0c06125f0b39a3548deb94006a743c7f95b2b13a7aa6 0x864ee77be988edd0fc2fa9e118982b79573801d4218f2b684708dd30325b960f 0xb787aab8c99e7a6e7edc986c42d2936425781574e183d2a35a7a50d3f634344d (-0x7e30002cbfecdb33fceb2b100242f8edef18087ba4210d5d1dbfa8d8c67f4c13) 0x3bf355e3ea1f7863896bb45c891de0e539f4dea690f4b06197c505ea13973937 0x23f38c694df31d5451dda6477419a844cdd8e7bd310ae2ba6587a5b2205ea88;
  SDbl 0x953908e4555185bf601b710d032583460fb133693632a0a82ff8e97da56dfaa4 0x477ba5db84d8cd242a7b1ae3c08982e06e4501ca2c42bf84da0737d508a6fbc6 0xac8ea3395f7fd205495b58fbdccc813602ad0c059316c5d272ac453f01e0e6e7 0x2919bee364af43f54148555f19f819e25e259dad68152884cfe7b82734357f8 0x56fb710f1849660a9b639387ff9847c934e775a602d7b1fe67ccb1b6a0516ed4 0x249ef46abf137f1a86f95e3116bfb866e8e54321df58bdcf9797b0f623a1fa70;
  SAdd false 0xa90cdc831b887474f23e5550e42ae22f94db12d948cd9d7dc43dc11a64daab0f 0xf707373bba2976380436834cd577b0198a5726f2b2c8801828ca84db3c2c8869 0x8ea0d49c7f17e6fa25e4639217edf700f4cfdac7126eefbe583ddec25708a6be (-0xdadd3ee4cc7b309e71c98065a6791cff24e944f00ec0c4087ea9d76997a9997) 0x6fa1fbcaf43854cfffcb98a47764ad6e5825273cadab11fe9cf314c1f846ee15 (-0x73ebf4b99fdc108211108ba86426c84544a5e6e6ba7feb09e65afdfffe8453ce);
  SDbl 0x181501a0f287b907145eb5300ffef25bb146a9f4a80bf2d1c5d90ad3b4589bd5 0x119effe43766cfeae348ddb534cd5cc6d999944a1184348013363a74b2f648c4 0x68214a73de216d7bf6c8d25cf756d072c385c7e830daa5eac848618eb2bab18 (-0x2b047364dd5144fa6aa8faa9a0ca7d26729dbca0e6b4f5fdd63f60067f2985afc) 0x243f2077427d6124201285d406637eb28dd67927690720bae67053e2203ba5d 0x1594983276b4a40a63479617749c292f5f6cf6499f14153b798b32125ad0768d;
  SDbl 0xc5195a4206532db9f91e70baf411e39bb750ee69f567b512abe91550cf1d251f 0x34ba6dd0ca652e3bc7e63e158f5614d3616b89c1575ae133f7b2d20bdd987419 0xc1365ce9355f4d62e1f819623f42837518748f07fcf838718fd0a09ee626f2f5 0x661fb90bfab253e5df57371710033ea14b0ed82e53c6410c4040fa850a4225d 0x97c0076cf633c585dd219f30deae46b3f93579d3de66f9963fd2d83bb31d0be0 (-0x1b0795a596d53e79e1d9ed4fbf8f7d706e3d5830ed5d6116d77a2bd7f125d9a8);
  SAdd false 0x33f55903a8b86452ce882d777d1e56e04f0c4e53dcc0ce0c6365bcadd4669120 0xc34510fff9f87332e0c190a722351f64d07ace87287a8c94dadce19d9fe324dc 0xf239ac8c815bb2d695eb044655cd0d568ffef1d846081a35e4181f8333b3c4fc (-0x65d60cadea069cfba0817c86840c4f1e33355a5035520c18bbb4980f978756) 0xa8bac9affb9a0e19dc9a9aed493cdbc0de59c43a190753998a8ca7db902c9bc (-0x1cee3ac0ebde111f6c4930180a4faf6f032ee32b43c078731ed2d2ae64febcaf);
  SDbl 0x8a99fb0f9a8a812b321a3ff523fd68f5f172dd1eb100b4a75a218a03aab05e3d 0xe0dfa9e06dbf5d45414cfe57d515173a6caced6290a55934fde83b2b73013672 0xba15da6a0c5a8971fe00665643975500f22d882541f793280abbe60d5ed03ec (-0xb88d4d86c35d50a58c68e467df48dc58dab25816fcc20e998b1de7b1307118eb) 0x4b0a5f4b2c86061b36fcfc16c953927cc1cf164155d2649aec5d4e4df836a5a1 (-0x100724d6ce679bcec00649099843b026f91f23bb3fe0f444a7c78aafea9ff25a);
  SDbl 0x67fb7473dd03c2480329109e5b9c285df721f52ccb833982500473149bb47229 0xe9191d23e6ae6aa91430ff3dedf685ea644901cdda73d7c26c289e844e3c67de 0x1b723d6688b3a74019d2574525cfe0547557bc2148b4c38f7975d0e5bd640e81 (-0x24725d3ba3a71eebd3ba4028033a786389debd8934234137aee58eed13be0914f) 0x2a3c4eb2f641ef239a447a18230e6aca8d44e34fc5ab762f653a6704d1ae4a31 (-0x3573171ed4a03be5044192041258a96c377a77f83eb2eb5cc9698e2d041eb47);
  SAdd true 0xd77b7d7a92af4851209aad47f3fede0cfb44082a76c0451826537cf192d14543 0x16260f6a5f7c882c7afa86a0ef7018bc9c00ca0b80d4b624a6dd95145f357952 0x77b8abde61133a23980b4930efc964cec911261b885dfa118a2ae24eca954343 (-0x9978dd228a08aee1f81c71f360deb7feb4fdfceb4f4c9b008a23d2d64f114bdc) 0xb560a856690cf62d7b82a78977ab6173bc24e194a0006733399dcae94a9b266e 0xb18fe2b4c8a5ebe26f1c4940877097766066362015adfab51c4794fb82912720;
  SDbl 0x58625e1b2f449a46b8c58149e26c41a2379a6a05f8d8d05698ae98c08c8b6c2d 0x29e81aead549560d4f9f5c1e60df920834cb8696919cc34c265709a0a805a7c6 0x9efdad3e80b89d55110ef1c2179155eb88ffa9be8f797c3439c37ec8ae560d49 0x4ceb46a53a8a2fc076517cd5f529c0e0b24894e1d737cb5f67b1ad49785bad3b 0x1e83c67efe6b1aaf1e17186d355240894018195cb9f326254825b60987dc9a81 (-0x6d24b7fefd418097d2d741354b4975a8e4cdf90a6c2d9e3ebffda173de79510);
  SDbl 0xe73157122ceb7d20210317e62286e18b71df45c3c1e603b0c1d969f348f7538 0x19797b1edf1849a10b1ced3d7aeddc0a1180ca49dc8bd2bffd42e1a78b6ce180 0x482d514c0d7e86635ad522e553d0071e66f2237908e65a66fe615bde2c9e88d3 (-0x2a1cfb16f2477651d78476e6a0ed3bf3c08168a17a2688260457de1da48c287) 0xd0ca14a6106d9e6e5a59115592ed8c0060d4d70038f63c08e52155f13bf4cc 0xed6fcf472ff0c9b52b9f9d03c8f7f2dffdf39e28a53461128316ffcdd138cc;
  SDbl 0x1d78bce8eed4c7347d35432100e8cc4078315293fc798a90552c5bbb50c2e341 0x2ea950d37d8212982ab03b33970fa39a761de1df3fbee3bd2690d12297dc9c90 0x1caccca23fba0033a14a52c270534ff0808f9c27180286a9c01bf667769536fc 0x9037e5871ad274b04c0cdc5bea85ffe432c92a15e9e842da0bc9a8f10f312d7 0x36493be6f47a31559e9908310f25ca530271dc9feb4f2cb34fbfb15d676090f (-0x27069440d1b0b6aeb063f8466f333e365635f6981267aa4766017a45f6e9121);
  SDbl 0x9d672ac524b2ab738ba7c92f14b8768e778400b84201ce06c5348175d69d83bf 0xefc8d71835f6b62564a1f198d37f007e911c21058d089be2ea40099f9b6245ac 0x87d33d7c4bf43ab61ad17325d972417b48fae449c22f71d292f958a9ac635963 0x9bf34891e377a98a9ef417ddc186634f35d0ea2eade2570edb968239bb97ef5 0x60c7b409a193a9f7725a5e5272af5810f1b89df05f01b36a1d1d08209b08764b (-0x76be294b867cb9d0445bdf8781e56ce7cb3a63560e74e36901ad48b9b898efbd);
  SAdd true 0xe9cd2d01627a0827ed5639ccde854ec9cc9fdbafeccb8fd2afda262601598be8 0x8ba9258de753c34774574ab65ff2b29b2a75acf2e96bc38a145df1355674414f 0x3eaecda60a9aa05d09fe0ddaebb468758373da504c2cb6878c7b81e18e8778eb (-0xaca046cf136945d6f538744960fe1e1448d9d032b0426f2cddf5018dda5ac23b) 0xd587205e76ea774906974ac308c78f02aabf2a3952cee45bfcb80513c15d3982 0x5b711792859d3cba1d95da468ff6bb0aef773e8b444fa812c5e9ae3da5835f06;
  SDbl 0xceecfe8a4a2561c4cee5337ebffa22a0cda59b5d1ef0858298d65fc6bed68eaf 0x91a3002746eb5f34a6ae0ba9db1d34e63ccf26c26e21d630181753113e461fc4 0xa5c7b8e548b79124e5e81ed384b807d4130d8b89fc8e4d50b7ecdfef990630b7 (-0x7f3df9b79f6723ba7d30e5ed03af873ee3707e33feb558dc80b857d7277c622a) 0xa742450d82a5d928b645c358b6105dfc00b928c8f707b033e4316d294b1406c1 (-0x4d4962e1673d185d9cff4d04bb4d0d184a7c5314cb36058bc06b83c2ac85e63);
  SDbl 0x896cf3c1166e7db07f074512761fe14922738121c1648d56740e9397c6f99a52 0x2978651b9e34cc07c92e76a07d9af688d1c49c229c824636683148ac6229c707 0x625447a07ed423dc466759aa94c56f439516a24714f07763cceb9294ce3b4f5c (-0x469149c4b122dc635e09beb878818205be4d16c46c30b29f18668d00592e370f) 0x49c5cb4386cb1d3d12d9d5df0a2b11d6932880c8112b94236b12a7fe762b444b 0x37eb2221e08b97a0b78c6bf6f2c1e453819e48864fb1fb86128d8f1d5af66189;
  SDbl 0x5241f4ca2044ee44f686678abb36b935d6f24d9e5ccd517e2cdb62656172afbb 0xf7766219bb7b3b294574d027720fce057ae416cb6be638c1e763b826d1a68625 0x993f81816509422c301f83cc633f6c20d717e7c46cb75f88ec2142983384ccda 0x2b094db5ea9e832f161b6b113b885f10229e075df5751285fce4e8e75dd7ee28 0x1a6e51cfcfd0ca8f53d0de0ab9b7b88a8601b2c0d75a6751edb25764e4cce19a (-0x42306d7f9d997735609a674ed8f5d09f22ac6f4c8cf86e1676183d5fce1ec6e0);
  SDbl 0x51314a10b9a69f18d3fb422a968494c9481f3d24c5f0ed95b1587242ffaff3a9 0x227ed05eccb85d14d9d07f2b14b56a4ff8216f8cde519160e477e373f0c44154 0xd927f32eb1ca0d98f1ee0c508a74a208f3cb330d53b88c3ef3d58d6f2de56e0a (-0x26c6bc536f127fee0223076769e768cc3d3b46e5fda336be5da1ea3d087740fcc) 0x19c03a5c1f10693ecc270b596ed15dcf21b5fceec9bda90ef1f32c43dd19080d 0x438b561cc7e95b9401143799f84ee932b6967d05c53610899d45ad5eead969eb;
  SDbl 0x5253898ac5910cd230637212776b008903a9bae0f7d63210e9b1b805364b86bf 0xc631ddc73c6a437856615480a6f445e262274fda49e2ee8f5aee0668cf9bcd70 0x9e099b458a8e9f4789f4b32e129ea0802a23ba7078c6987c2a87b8de53c346fe 0x7db986896887f03a9dcff2d212a02ad1451de1958e7d8a91a9eee40b6e7a9fc1 0x1a799f5f7aec7a534acaea34b7cbe4fc80a083574d1a5d28659606b9e24dcd97 (-0x34a4c54c904f9fc74d370f05dc3cb844aa8aedfbc7da5370222ddb1b73fb1a14);
  SDbl 0x662c9928cc5c038243ebacf28b783004cc41a598139b69becbb3623b03ead034 0xb892a102ba5376433f117456721b27434c3118f331a3b2c0f173d7ee9973a9fc 0x9fded3ebc0f2a3d13317c98e03b23c738d7bfc03650f5aba91236f9e15cf6273 (-0x14e2cce333082457171e3286b4771bfd8224fc4ba371f4dc81704c8027793e433) 0x28c791d1ad48ef052c45aa68f7161565fa7faf951af177cf70e4c485b846ba4c 0x56fd1bb1a1dfdb3b535ea49ebd4548d6a61e84a4a2860117fcfded2089535e1;
  SDbl 0xf6fbad3fb7e136091be9f67a4ad5179d953b3a1b357d786c652eff52ac62fcb0 0x3e98ff0e46f4692eb567456c5fa15dd1cf68f1fab10d740237c902c5275a6f0a 0x34f1cf5a46dc87c4f21aed5d9b9a2cb160e4ece7b8cec493e341134f7bb72b4e (-0x5abebbb0dc880edba62dabb747e4d9b6aaa9b21aaed637020035d5080b31b5f3) 0xee48a86493df3e4073564a53d09292a7989df20c9dbf91f0548b080f6a16ca02 0x75adcbef35b60ebe7aed1350e93b3147eee4f0f0a59ddf5e734e99572183cf61;
  SDbl 0x79d0104cbbbf4b3e300eb98492e1858b718135bf21c8bd32fd6486328c5959c3 0x1a28973cb89eabfda507f1c9d778bb1be4920ac140f61d2146189a97136a1c25 0xc832470299f27695806ed890d95e71a7b6e6389c0dbcddcde06c388a5ba557d8 0x47740c1e8fd64ca38b5d0dc15902578012a5083804329e8190b9334ac30d055 0x39f65883412bf2f63c55700f9daac01e4b6bc630e4c0a0877d819298910fcfb0 0x1156beb86a762c5341244c8980e1333392656c56bb527e76886181360cdec1b7;
  SAdd true 0x8a868f93b6887a2fa9229ca9a125dff07ab54b7997c3dcf74afc10b706f1be06 0xe3a01076b21fc88db8d7f0f1051a3b654f83889508862d8c13872f262fcba018 0x6a9bd736e19bf0ecf3b1b6003a73abe91659dc224e45a69e962e5db140c0f8f2 0xd5113de7fdbebbace67144097c949d42c275de86187552fc38a770ccbfc48fc 0x4af559862ae9ef49128c389ab0159023f2f250a0e65fce58119b6982da2948e0 (-0x6d044ce11dd4d65530038c2e09ffddb4f2d5e3fd1fb3addeedff33bf6f9f3d84);
  SDbl 0x68cdb18887f40ada0009ede432b3fe017040c091480bf347a4884d3bd2bee5e3 0x6a564ecf0e8295cf697357f19188a5004a081d3a68c7527793de34c0758c502a 0xd101094fef7330573353575f5125e3f98ddf6394882a662c178654f5c2186ba6 (-0x207e5d386cc3dd6bd44e25d67694080d60aa1c8b9a2a255b8749c16fc54486a6f) 0x2ae7c584e925dfff9cd248f4671059a6250816924adf5495f9f64ee85dbfa911 0x31a76ad90dda9a16c18d96d52e47a6e4d4406caa2796d0d822877e6fab919e8e;
  SDbl 0x93467b7e67aed22646d6bed344c645bb1848a6501abd95768a2fb022c4968254 0x7fcc0c8ec3a7faeb6f3b1181d6f0ef6d55b9b6cc07f1fff3c04d9eec3c5944b3 0xac1649d8150950590fd7aadee794e0b7c161bcd820d7a82ed3459be8f7cdbf47 0x6bf783d32bc2dcd3f2e89d5e239673f5faf722c9a54d89e408758b95fd3b97b9 0x54ba053b4480343a5ecf5b0e97a3730aa6fd08f7d3c4ea1bbb0d1a0f8aa87977 (-0xc5884812e980d2af0d0565c06de5bf478c99cbd8b9303cd2461ec4dca66061f);
  SDbl 0xb9f3d2769de0a50c6dff83794a94d8132ec9d8c2065c04a777ac7706e4a68290 0xc6573d1654614c69f338c35069b5105e13e9852d64b7126e6da6dbb02651d279 0xa83a1b657d251f0b70dc1879c7674575d914324cd47c3785cb0cfda2358bdf85 0x3a9bbeb1c45c83c8bedbb9b791272856e83dae11df41d14c8ad1e973f6e17398 0x87124e6931778768f9498200f9ad57da93dde8c850488f714b5915ea89adcadf (-0x333dc63018fae93a59377d6d30d9038230608b74b7b5d3b05a72495cb87415d4);
  SDbl 0x766d2824bf4fafa5ba3f3b6b26749181489dcfe00637b3a26dc561cf2a0ad85e 0x4f51cf955e78b5446fe4d106cf9e9fc063e6a6a40f2363ac70b32796e4bebb98 0xef58d5920019f79bded5e0abe608832b4b766a3699cf46a218169d42b4c8b328 (-0x1315c292d34110b303f37b6eb4ffdc324aa8156adc72631cdd643e1ce19765e1c) 0x36c8cf8d4cbcb064ebd4c6bb9d987be692a5d6b3bb09452502ec2b7ebb2b9e06 0x370f40733722cfbf8e2e094110c9c7c45e607e78eab205e80a33b7dbec3a540f;
  SAdd true 0x8583cb242fcbae753b4b893f229ef1c0201b0184f66a141d6439750b8a06ce34 0xd62b9a7a5cb973b64b3024c4f782ba90d1256f3c9930e5af5aa297f70020eeeb 0x4a100c170f59da8f41cab5f20a5d011f5bc10ac7ecdeafb0aeea2de5edd95e82 (-0xee4053bc857b19c12846259c2b07d5da33daa51ee14a457c07927f640763214) 0x45a234ed67872b924401c09bfe16699da25e78f3f10f8d5f6a0b6e20b7a464ba (-0x465492ddd54bb59b3f8cfc339e422869fa93e0bff3b6f02aaec353bfd62cb77a);
  SDbl 0xa261d9d760998250b9339e8533aa34f6d0f832d2a5e6f2256a575151bea99778 0xd21cb3a4456a03ec246b8add50bef03e85ab0c33fe087c80c1b358760bb8faae 0xb3d8798c56e48fc56db4d35bc656c702b26d98242c1ac578c0d4c4b8ca3a1b52 (-0x1bb91db950f5c2fdf150b8d0243ba42a9e501509e1fc67556f594328d5bbc92b8) 0x66fffd1bcbd851565ca33a6f3c240deb2a8d59971a08d1fd9c3c914495ec1044 0x292fb2d0029721d4945f312a79fea3896f7c0f06e362fdd83b709d05404023c;
  SDbl 0xd0c0eb9f0fe966d78b474b8dd584064a8976871334d7a54348b4f911ecc6ef7a 0x6a993eae021ef5b7097ef749e92fc41df12f8f32f80a643b7e921cc4f4b67a3 0xc061ab63dfd7dd2b6bd1a5ea7ff0593b2e914a3425249d692dcf1585587dacda (-0xe00a788b778b85bf0217ccdce937d869b0f1f00304dd68d4d0c93809e6743b5f) 0xaa3a10456b8a9f8938ea0d8e8fe5791af19180b4d91899f28c794c64260056db 0xa5e6db602a8282a3237b00a0959fb1fd80bca5d81a5a25f727381f672bb66fee;
  SDbl 0xa7650b0372a2af1f17c3f4f5137caae2cbec8bf81357549789cd2427617fee53 0x7a0db94280212ae4570b5f3fb07e77e906b337841ad7ebffeb875ffe0642780 0xa88302bc5e833100d0667c9f24505ce522629245d1ef9cb9e9144e363b18acca 0xfb1221712cfd329ae3f513ef2853b3f35c1fb5c1d43f469b2ecb8cc1b53447fc 0x6d74fc409e36fcff3bf3795576b66e84576e569c8b2d87c7127891c544c287dd (-0xa1b15957b71bf2ac8a1dff73176d4e5a4b73c322fc24936553b4027360fbb5);
  SDbl 0x1fb74813aea7052f66816b932783418ba07b6dd3b7cff3ec5ca95b118a79d12b 0x4b0fd9bdffc3748c8662462a5c73efb52779e60aed3423756bf0eca17c3c9020 0xd4f2d25ebf9cda9cedaba3cb52b3299be61ebb9414ad9ed61051d25a113e7133 0x2912719b5d04d8367659ffbab7f9cd0d6ef692fa915e13cdce9f7ec562e8e021 0x3ede6ace8a92079241dec44cb157fbc4265b6dfa1b59cc10cd1ef717b77a1e7 (-0x85ab81b301e6f815c05dd82fd262345bfd2d35014234d338caeddbf2544af23);
  SAdd true 0x29cb6457a0138f3b41dd8ec311c6be2735be0e7aaab395cea3181457683333fc 0xf3664f6166722eb634c72b97d45be36c4c8d8beed210cd7d123d259d66c985c2 0xf8552043439a2e8792e23901a668c4b13b54a4f5f2a435fb5513aa37f69a95b5 (-0x3f7571b9b615699dae9936b04a18d62ec4ae4b586d12b936f4ffad4b37bd9f7) 0x6d2c7bc62657daffec3050f65364846d9fd542e7701a1f04af1fe05955c2a99 (-0x1b7b9761f418b484846e8e4710a1636f39f0618aacb658e720771bcc412fe7a0);
  SDbl 0xc2da6f335aaa68da03c3b8c8f643c4566b769c5f47c022b23d11f575fc497b9a 0x5f2c5e30ac671e2b52acc721881efcfdc8960ce8424a36b3798cb25488c983f2 0xdaa7efdfd21f574e923513fc85597fedc03d83479a3028f366159fdf5a06a139 (-0x13c395d25ab8fe34f3822e1249b188ebc55abb7838ff1199367d4cb1b3d7c96bb) 0x944fcaebfd7e0efe057035af4250b6e5ab398fe86600ac6895327e5c6cdb36d2 0x70d262819ceb69d1e02d175296df9d6b9988d9cb9e9cb37b58c3b9be7f712fce;
  SDbl 0xfb8a8f8354274866d07bfd94a8c3cac38a364c6a8705ec17669766299fd8831e 0xa0f5679c24d4d9df6dd929a66530528fff8762b46dac855e7c825d533415b3c2 0xdf3dfd91bb80bf4f5de39397698078074749d24e5a0d25acd69c116674c29773 0x1438c21ced27a41c714f1eb07e1267840019d082b3a772594134246b2015292ed 0xf729006b8838be2252a56abfbaabcae298b2920ae70ecb77ba9330637be10422 (-0x40a3b77cbf6923441a5b7f8971ba5c8cd3caba3cbc3f539262ce90ef9a51bcf4);
  SAdd true 0x71bc7f9e9da461efa7df9a038f7b476d8e27f57b561387a401789aa054cf6c87 0x96c051c8db966e7dfcb4eff5105fd94538ebdf660371557593d936d918d076a5 0x31fe49cb76e180eedcdd2e8706301af4ff5c6012731857f520c75c3ae974e8e3 (-0x30f4a49143ac3569795e333f0820726cdd6c94b1a4c12be974a41461b9e18c76) 0x3287f375ea495e0b65a30a7d66c918567b16d734c8c07bf80732fdac37de6ffd 0x488f2b4f7e7affb3cff8fca2eb7c3e2363482fb8d94604e47a43691d8790a0b;
  SDbl 0x80e6a8631c6ee87354daddfea4ead6ec7d90e429215b85ff3cf4180e5bd6928e 0x11040c51020761dfe81e87c8ac3d80e1e4c325ad4b2825822515669420d32022 0xb95ea4a08db4a3d1a2e72bcea7e61c691e435e92b8cfc8fef8871d642411ba02 (-0xd7f9707acb166c87b680c9e8c3d70c01e1e9d2fdd530cc48ad377a513b83b4cc) 0x40e778365e2fb3a3f44ea662342dc919307360a807cebc70f632ecb40525c6a8 0x4356a1d9ee0baabb251e0c87b8d6b6b566cb16005c4c9c03e5483f3e2127f03b;
  SDbl 0x6393690bdd25af5d873d25e33a0bcf652417f4bf8935d7242feff85e7089ff69 0xd8957a1c8058ca9bf18eb110655b29bd5c67c0cc82b275b52e6ca5ba4d330335 0xcf42c6fdd1b969f2cc77825e01884e5ad6eaaf5c034f4931c0437aaff2f56a4b 0x8cd0110d2c1023a6206b592b6c7cfae96dcbaadf52d08ae1ed3eed2fb6fefbe5 0x26bb58212281330088a5afd5377ecf1ab6487cba76bb8d43cedd67e751a4ea68 (-0x4da027dbf101472c7bdb9609f80d471e0ec69855f707bc4660c0ff6d5d49cbe8);
  SAdd false 0xea984cd45d8de7939178aa5998c8ace0b69efb01d5f5398aea066a879857b6b3 0x534ceb98792f9bea2e241f271229c5a2cb29817efdcca5f774c87f97cfce51d3 0x9049ebe972f4f22ec405ce9b030aef2e207c5d152e81289eb30a994957f83cc (-0x97f38026f19e1af0e6a8f4473b3b3536ac495b73a44ec11ca4b328e857559002) 0xd6fac710654012a48124fd0d4d942eca7faac834976b31219db4370f1040c8a6 0x7a239d59e22df74002a2a4775ed2500b099f5fcafb6e15cc2c8c6fc8cca33a91;
  SDbl 0x4a09988302ed6464ee5294aadd489870f93d573e49a792e493c60b2c7faaf29 0x857ba14c3624a7bec03d43091e03b3ec7724f0fe7c9b2325ba425ffa7bc8d22d 0xafa5d817d0e83cf4c17309708b1e390662498dde354ac358a96723db25cfffd7 (-0x50fd72179dc3ceff1e8c02a2562d7283705f7099618ead55fd026b11c04783a0) 0x15698c87e72cd5c93642818d093ca7a340f1f4364bd35c6e695859c9786142 (-0xe83620fd0d0759b84c0c763c1425844791904a8f07f121e30d24372df067f3);
  SDbl 0x127354ee88cbc342257bdfdd7be79eb46a6eec52e3bda6a7bb6fe0fddb06ba5e 0x6fb56153f20a98828e64b240bed535a7f6362872eacfedd2841fb5a1b1fb178b 0x1715e1701da898701a1d2398146b13e602be02e7ffb1b66442c6f65508d960f (-0xb77b7df9ce2d15bf6b21a32bc9d8e1dcb3349a55083364d52e46e424e9feba2c) 0x1546be6f70d62760ddc1478d92c78879e5dac4d565c27b99a4b14c091780161 0x191bfc789d1c282bba9ee78e148976073e9d568fd07a532347f9871ed6d5a6a;
  SDbl 0x1a9ab06a2f13b6477e03fd448eb00b5f36f2c8d9a7d1478a6100e5b262392dcc 0xe98f0e589b594c654e40fc5faa2caf2575ee1945834508356302933380301f0f 0xd7c17d680feae66ad1e97d0265cad418773aeaf6bb1fa320b596579c59513363 (-0x91ef9b3e52e619e83e084cf02f0188d2f90f3c021942ef97c690e9944ee19d80) 0x2c3c94e4da69ad240e085fd8c8fdbce60a155b317555ac3ca1f82f1471cf395 (-0xca9bc7ccc26c51cbb1648bc51a449996866eed5304027b28d8283177d29055e);
  SAdd true 0x733a73673cf347f12d2db5feefec52a8c93d097a42af07fb2dbb6578a5c5e56d 0x5fcc8e12e5a2ca762ebe216ce7b80218edaddd0e6cb815a0c74c9d777b988ac7 0x6c5c3c67ed0880db233e4b1ed3c3ab311c941e8953a8e10f81c35087146c3629 (-0x5246a574b85145f49684af30e43667cd82c4f434fcd50a81d17a9aba626d5a1b) 0x33dd9107736dac4b6836ba190cd61e81fdfbbbeb13b610be2083ab4ac5b6ee34 0x3e01d3ca8c1b689652fd2a58038a5605d9a3305761ec57c7f043b2025e26dee4;
  SDbl 0xf5c37ced0b9c6f902b19466e563a24107091104d73a4a21363834f6d88d2c921 0x3b193e4053e69515878ff7b5606a99a63b5e55e06ccc3aee6808536d35f0431c 0x790cf2a14e95375b57c069a919cd15ba1a63006f740480829b6c3f0b0f4c50b9 0x6481ab3713769d544968fba01a653201f9c1459e5f5524b1f3ee58e3586b1b7e 0xebefc266323f5f0026a0742f78d16f099c8fc9bf42837119b419470084f88269 0x233ba1e34c6ec98ea56061bc78fa212ad82cab09f69bcae0a18c20a1667c06d7;
  SDbl 0xd73a4e3f5bb8413852b64acea3e601b194210a573fbb97985cff37ac530fbf1b 0xf799918c8af359f801b21f4abeb47880d6bba293fb6001e14e2474ca9bb02dd 0x2b32872ffdbb1f6dc6c6dd0bc2d8c3ebea0e6142da78163313f2cd5eb1d3adc9 0xa29cf3dcb98ab0d9c744f19cfb7ab6d7ce6506995060c77425c6f653f40bec27 0xb4f2fcb6ada2b553636150b00800cef5358c8c2c36639dbc48ef50fb9fc83c3c 0x24ad033535cae5a3fd5e46d3372c0a9bf5568c5d1d78b7dffc9c4e180be236dd;
  SAdd false 0xb29812597155a0cbe584f4b7515b52bfc8cab130623b463faa22d74e0a042202 0x1ac7673dac064186157a414ded27b5eb78a7fd9524cce242ffe2f669db7b3102 0xdd1c20efb14878d91c547b968af678e91c383849cafbe9e5af2cc9ad01384613 0x189f2bc3aa66058e4e55f600e2b24023bb0afee04571b32b5417e8f8dd0669c2 0x7c97d3daa9ba3055315ad12b2e0fa737e64180e4e22ce707c98f1b4e7bee20a2 (-0x7e2d0577f68b509688bc8cca7351acb2d181f815bb0d4742cfdbf0a38bec5da);
  SDbl 0x5882eef8afd0961d625c57d41fa55b0c2fbebe72cbb590a25f996e1bd14aa0e0 0xd3cda11c475d67ac0e67e8f41f880706dc7ed2090bf05b791d17fa6805f20130 0xb0f29cf9e4ee2d72b76bb63049ee4788a907cfce9718bf03a4fc9e50f557775c 0x907e2f2619e220f8935e211ec25a830b004025b90129a91a0d8d4312a4daeac9 0x1e9a4742ab1f96cc48974bfa0c423d1e0cbbbd0ae5b8aa369e04878c964f9f34 (-0x3ff8c5c5af50a452b1d1e7d71c06d4361d5302b2efec5eca4d573feae4115a51);
  SDbl 0xc4cc9d2f6805c58253ca04b717f1d416d623b7c9755fe6d8e078f2204e812650 0x95aa5b79f1ff9ab0387579e701ef4122827e7bbd94acb83c53a465ec15d2f2d3 0xa2e3c02daedc30ebffeb0f41edbd5683b006365bf553597c29dce879741fe546 (-0xfda779ed2a613442a5fca84838d0dce9075d6501ff3f5e05d8a121db4c8dae83) 0x9749f43c12a3c23cdb4bb4a87d47ba75f4fa36e7e5136fc1be08923bbf5b1c33 0x2fc4ab9319ea95568b054ac873d6c8c2957983b4d32d469ca2058ec430c41192;
  SAdd false 0xc7f8f0fbb05814367c7789f935999132cfb5d54ce497a012c93593269edbcde5 0x7cc940588a5e80eda3ecfca87b66a52eb70c58a220788c656558f8277e0c65d9 0x5c9673835e6dce90c00388dc9f50bd1bd23ec31c1b23261a7fa518ac03e0cc52 (-0x4d40b5503d5fb10adb7e69d95c1633d4d77d6603ef705d9549438ee303d7792b) 0x9c34f8bbb2dc74e7fe067b55c98166bc17cbb3f70adb0a50553b76c02fc53e9a 0x136f2d94d2a20992d820119aebea88da53c2d1dfa5c17e7bd81985c6cea263f6;
  SDbl 0xcfdd5bdc803e7fb3b03e481147d1283b4291eb4e0aaea6c997430e6b229e8c2f 0xefc63c2a4743ae669f5ad89fc000e28fdae1881e8f18b2a1e8ba00abcbfff40f 0x1b79f094b814bcf582b635504c2e315e2c53c8e05824de1fda86e4bb9b8f72c2 (-0x201f509f6ae2c69dc6e5ad4b8a9adc92da28c3d9d14a0c645b1470c956a5e04c) 0xa8c7b9f6fbd8b97d298f88aa86cd5ad5e0fd1db29ef6f7c294451e42f5514f20 (-0x5d5dfd4751b1e5d244c73b3c98acde1637577bc48f947b37a9a33de5edbf1d02);
  SDbl 0x43b5fbbb778013f801e50439e180a2fe8cc9ac0c168661a8dbe27effbb6d908c 0x1c6e57f81a13a5503bcbaf09d340a2edd33be1afbadfd4ebe842c0305beaea7f 0x1efe1193976ea9dad2b46ec8fcfbf4f79958c1fa7ba305d5bb3f278277dd3104 (-0x2933255255eca94f19e656b96f2ea89622f7d97bda32013114844f178f187f990) 0x11e8c3222115ee4f22d44f0bcee7c082edfd24666d0951c332bdba8f0315060d 0x37e63dafa1cc3d7db66bcfc537c754ef98d91ef9892e99f00011dc4fb03a6906;
  SDbl 0x429a4c2e7cbebb163301e8e040965d6cfd794b68f2a80cb23a269f420dc08f01 0x992384c135297d866525c9c3c6dfe683953f7ebdc2980ceb99395ee8d6f0a31 0xd17f5ab0677b55e49a0e55485891683f28f4a062f190cd1ce84cd04cfd300e25 0x6a764c56ad11241d77e9975cedea4e770f9fab171255cbec0574bf5786c66f8 0x1153ec47c83ffcbaa1ac14b5a6d3299b424fe57f506282595822fc6e59e2c12e 0x4e81e3232476336fad8fa343cc875dddd341b94153afc706f969dce43c5ccdb;
  SAdd true 0x1ea66d1e1bbd0ae5a8380015ac41d244adf5a127eae5b0c038da2703dcb15509 0x7b17b6ff565fed2248ded515e3a4f6e941794a6c8c02cdd2a832ed847a585250 0xfda258f45f09835795bb5e3c647f431cf71826c43344e4fe00a7ec5b545f1bb0 0x4eeb2180a28981e8f9782122fe125fc47650e2307ff88f01b3fcda431275535 0x3ab6dc4c3ba5ca6379530440e4f6e8cb9b3ff3dccdba3741d7ac7c81062d6f7 (-0xd9771cc689491bf684b13455ec8cdb3c47fda4feb0c55a2e1fc8ec663dc0214);
  SDbl 0xf3a036ce11eafb72288ff2a2de2707d0c1be2ef375c0834633454962b5d86701 0xdce663a998ee1f5d2f30f8652bb94dbc29b52189b8fffc6ab3ffd5bbb322556f 0xc3d1524fc821d31eee8b61a70a306dd1c516b0ffa61f2c94b1ed975a294b3fa9 0x131304845dc4d51f17eb4fc05bbe947d88ffb3117157c17873b3627460a60339d 0xe7d98c50ab2fa0d5ac657d51f8cece9bab58c303c3bfb81af242896b42b12c0e (-0x5d146402383e520d75927965fa2dd024873ea20bcd6efda979dc94b475222888);
  SDbl 0x57e2a989fb62df0f96e40bf65c47ddceb6c81a04c591a59a76d73588b9d5f2e5 0x975cce6fa1adc833bf7376a9a93acea03f66fa355ea568cff0782cc9823a889c 0xdecb039c833bd9cc29052fccbe82d289c44f237696d0093735913460b9d45c1a (-0x1b5635904e061e28620130c0d5849857c616bc1a21998414c30b0a9703e38b5fa) 0x1e2bd7ebaef05e61b03624a8f5f8dfb7550a280fab841f80af060713d6f772a1 0x17df5339d67f5876b3acece115ebdf7cabb4bb7e8ff00dc3ead405e01d96ed04;
  SAdd true 0xb211bb92b9d0234d057ecadb9672b8c2ad48be804b1e074a3418ab7ea5896b72 0xa3a7d3649a010712bc3f42f99b776537a41d556a1f4f5a24673d22be02e324e0 0x5e369bd4fb29b10320bc41682279a3ab28e9ac294c0f7b6e8cbc251691ea711b (-0x45f8be3e2296f3340b08ff89c8159c55419ec9cf61c2dbe8e30a6bd40a4e8fa0) 0x7bdcaa12f92e785d50e6cb6dd43cd5c449fab8f8c7bccb355fd51693974da37f (-0x88d036f89cf5d0333ca0de7a93b1bef71f290bf6706ad3166ac11757b773083);
  SDbl 0x14b475b286344d6127d33d7b18c16156203db10508356fc21f58fb37d29f7507 0x67e6f3fc248e83bab445e9fdeb657b74ef5f338534648800fc40daeb374028a9 0xd2bc2c4b87984a743c276cf46b093d259f825483543fa3deb83fbe2022cd267f (-0x12aa013e2367efecf291ff1f6e06631d908ef7afaaa01d7e5297a5f25520f917d) 0x1acb1999fce426854787a45b9f26e3d5f2cad9107dee8bcc6a11e132cd50c38 0x4d5308a14fdf5ce0e6e29343bd157270b7b6c81b7eb86bb9b144b70e1d48f19;
  SDbl 0x5596b50adbc68775f7b36b612493e9939facfc7a1b31940747be3f338f285125 0x7fc8617b47ad30d2e9b960f5ecd991ae8fa531051158664310c158765fa5af64 0x40b074693a139be13a6b056b3286f913022db9221c3e378b66515574d5786ecf 0xe6619ed711027e1ca7cdea7c3417c6a2eefb426982204f711881e711f863ffa 0x1c9d6cf1fb512ac9b3c9418ec3bbde2e6c62d4a6b34287e8de48728e02dd915d (-0x7fbe854ccdd343ca7a178d8c32e233bc36430df98edb88405a8dd258f34c6ab);
  SDbl 0x6389fb507bebb2788772235bf16b104317c17db0ed85f1bdc29ffe17033aa024 0xbdb1e28cff1b7a5ed6a20f6e30cc83b82d9fd8c8f4a75a804f3bdd39b64a8770 0x3edd3e70c255442016d6430e372408de99d59a381220926f008e88ea968ad609 (-0x8d0b12ca34e56dc78aca846a8b14a9d5b7361f850f1ea50c16c7d3484ef84d0b) 0x26b402bf5967dd5b766f584ddc191ef93db6a0170f48410309abea80a918e128 (-0x1812aba76cfa6206da67420c4a94e8ea04fe96fa9049920840067f0c470ed978);
  SDbl 0x95b98fe44f3796256b9746a7ab5fdd99b7f07b887827a6403aff1f9d91733a66 0x888526773ffcc6b5a5003d08fc73eec365573d76b6a5a7476db61c37bf536136 0x71bb32c5766758578ac3ef8d88a4012f12f81b27f9f9c1de995bc0605fdf3062 (-0x15c27bf404ea457b45a849151237496f1fddc2d9febf12f3ec99968f1e07eb02f) 0x5791880164a3973d433bcbb829ffb883242d7ce7c0c16c7fdadbc58a1af20f72 0x1f1994b01c699368e3f0bb0ff27bbc4a385a571d8e08d9fe05278b4f8b39a74f;
  SAdd false 0xc3ce5b5dbd05759eab5d12a596e842c2f765fee2cee8b30add25ee987f4ceef 0x1dba5fc01f3fa7db402eadfd9fcefa0f079359fdeaa923b594909f2231d595a8 0x1a44e1f5ac521f57e0dae0f8a1796b9e69cb382b28de7bc285a331fea5b0260 (-0x4196bb1d1917a4f8cfeeb57562418b6459e218b66e95feb7e5c015451951362) 0x95c405888f32523656c5394f614fbc8ee421154a4f598f61b8b179f397e884 0x51ae8aa6e622363c258aaea359c44d189b8f5f5bd8f85415e2e3a0a12a4e530;
  SDbl 0x1be466929043fdecb3247dbbd6fd5dd0bd8c9afae5cd06d19de63be154fc037b 0x346effbd00ff27f0b51ccb9638fe9dd6c4af684adab71f2ac79c682ef519d593 0x21b708c66851043dc7ed304eca0616031a28bfd7d1951ff36c4502d2164cb2c0 (-0x9ffadabdfb28dd62ec9b9559c35ca4f829481c4ee26bfa5ce11b74eef5b8d83) 0x309f969cba268f5143e04f1434c0b1b923367dc38d162ec28ea7bddc690e3ca (-0x2794ed7230f31dc246ec9b14a2333c654ca6695e43ddd34c2e017ef5979d3f7);
  SDbl 0xf2d0d75465f20d4134852242b3fb514d66790ed2de9c1381a0768aae89782302 0x7c6b1cc1ae3b76f21f65387492e3247a9e70323316e544b5c1544009053ee8ff 0x5dd62eab5ea5ce04f32ffb12aa874ed06ed1cce382d3ce2cc2d53874c8dab9d7 0x1fbd36ac80295526f1a5daebc8daf4b8d310a5c3785af4609d417915ee988c38 0xe64f817b1551aaef8847d461eb4601414243df86ee896d70dbd583d5f4c90821 (-0x44470cd2bb99cb092b62883212e48ab65868c6bcf4bc50f470a470a20846a891);
  SAdd false 0xfef41ab9cccff7b6870800e6673c6f638cf1c93ed58153b73e59623cf34e863d 0x486654ab0ff9197cd56975afe630196fdb25d6829fe7f49ee645fd6ec6c72352 0xc9047f0df267576c0c4f26f3c2acd596067c61bc93ea56aa1cd4f350c0eed23d (-0x49595c0a6f5709ea6398eb01e9a2e8923a244dde3bc1d55a3a0109af6969a920) 0xfde94dcca54eae3ef3f52c4419dad991d8c3219d3c3e742523b6b77b1dc2968f 0x33ce588397c7fe8faab8d3cd0dd4c48f387211563627edc6653948a48410e3db;
  SDbl 0xd82e6b50f571c033b1c293b30936a9cbb1e45f4db8947bb97d60fcd8c7e694a0 0x536c463a7ab2ee0adaeb5edc62ce8c6b69d74e7e5577fb66f81e27607956fbf9 0xdd566940f6ceecb708a94ba677a0e4bb66be6e7341e9af0fce818fda63d4cb61 0x1161352f7c6b67b1b2bbb15ff5dab6be6730be1d5abde77873d3ee11669d93e89 0xb68e5d8412d34d83ca75cc04ef9c455a654ec8cfcfc698ce26dc097de11bde9d (-0x94f03816b8500bf080d84753361dd439b7c2b59698f1ffd58181afba10a6e02);
  SDbl 0xe00821d9dd88f9956946f680afbc143795844e5232c60ea01505bfe33971b010 0xfdb2fe1bca09c9fae4b1d9267bca02ce9ebfdced80f2a64f0b5757ce8484d3a2 0x5e5431ae385ac480aac7210f614ca99c19c95cd34e5689c28cd1c0d23faf4d28 0x131d71e22b80324d7576ff06b3a1c253c2c3793258c9b51e109c1fc7b2009dc70 0xc40e3b8029d5ad5bddadddd358f56f6e27b8efd26f9fd4f6e9b9b74b6ffcca94 (-0x9503499f8079d65036bbb248b571f2ecc2c7741e9b8d82340de38aa752c13ce7);
  SDbl 0xbf1d65c3206ca529607f615fef565420185503bb9bce8a63bf340c648225f58e 0xf38ed24826cad4697f7e3befeef7c7089a904b122d2a77b4321218b1f93436f5 0x722d1efb9816159c20be22643fb3b9da72b887e9bc13b7ab0ffeada9a25c0d94 (-0x2656a8a0ac9247387a65c6ac75289f5048481817e905bb8d06eb2f5c723aad0d7) 0x8eace139efb7e49b3d076f58166226562b562acc54746c7424390e59e3a8c375 0x79226d3e578531246d77d7f587eff12e9d7b8fe31da3e771c28b987f661e1c6;
  SDbl 0xc639c47b908c093afc5853f210e387408c50378822b017f35330250c3f1ae071 0x9d522e5facd9367ec0f2a6a12552e2363448425601ec96e5175871fa2ab1303f 0xe48d87d5ede26ca6e7bd1f220b45fc42414a92fcb4c197867a7880561f9fa624 (-0x206580562868f13c452ad7bf9dd72fe80e4c150c7ad3779342684de191b1a2940) 0x997d68f8d2e9d696d3d7dfd8d9eb413d39e2256164072b9e4c28b17c235fac48 0x42c65c769d2c69ee520bc08dd6e282124321ed925faca4ed3fe9ebad7bca7d62;
  SDbl 0xfaf0c157ad488d15b6d4b64807b9d23a52620e2b6bcaa1ded8d4af77e0ed5920 0xfcc4aa2b74ef704a1e0ce1bc0f03097571814c4d115529b62d476581c5f9b20f 0xc0dd33e3909fc8f0003626e654556fff110a0d63974ecfb1e5adc48b188e1b40 0x9e089a1dd1158e7a496e4ace498e3262c441b8a489999a8ea3edd137bc8a7d80 0xf5fb1c0b4ad708f0ddfb117956a0405a9164f2a89da025645cd575aff714ce8d (-0x5d8f904f6dd8f825a4d136c4bb98f6669b33bd13469dd02ff33569c8fc10b49c);
  SDbl 0x468b56192b0a47fb28e23d9c485e0680feae55614a13fef9c1514bf16f3a8337 0xca1827de9e5193e24299d5770c659670218ff9f2d3974631ba387704f8c72562 0x17713cda06fa09260043836a919659420018f62070da0c334a46361a78ffb787 (-0x282706800e0efbafd42629fd1d50f63c700ed1a55d2e25c0ee5755f4cfcde9ee0) 0x13707eec7343c6d84ff92956c070ad9bab66bf401f6a709038982f511a8d33af 0xdf6c056bf81fecb5dc8b96051035a38bf1911e6ecdb2474c2eb5a84bb83129c;
  SAdd false 0xb8c3ec5c9d93085242b4cc5fbf4e6b390692673647b0c96b9a41539ac3635a5a 0xdbbc2e36753cc11b5f9e73d9b530da3c52eab5ed3415949a5c96628942216b5e 0x9924bcae2ba8313b6344d949e75bfa76de23028c9ea4c50a7061d166e5c73340 (-0x6d37cfc61ef469e6d0174016a34c5c5f9637d65f8b48e3fd7eed2ed8ae1013aa) 0x855a39b7973087b53e695fb2fa9a95c0a391c83307212fea49358c9b50b59de3 (-0xcbb64c99bc41dc673e99b164aaacaac46837ff0a151c7179183bb63166de2a1);
  SDbl 0xe84547f5682c5d8f77303d6ae349be2639d976eb0415b80b9af453892abb135f 0x6a4ff4f646ae3d9869da48d4f26d8ed2fddfe1089e2e1c4947514076859e1efa 0x9577afddd1871a799f15f54cdc0eaf81482de3c729291a9c19b8c58ddde2aae3 (-0x11fed0a4efc093cfb205933d9b85f94fecf3ee4c4d6f32111f635b1d0012865f7) 0xd2bda52d7e1241b520a4ad73b8f96bfed67a209b785200a9b579c4ca8f9fb875 0x66e8c5efbe01b02dbee5c35590eb50e90c4229d7cb6d4c6121f6020ddb391907;
  SDbl 0xa981f089e9db074ccb5c4a2a1cadbdfa64ccc4a3603cf767be13b7ffe430cd2 0x33a960046bda2bc4f311a1677a627ba2d048f99fc2f6f64238cbcbe6ef844d2b 0x1773c974ece9425725303e4e784551157e92ed65d4afefb853f5f6dc85df9307 (-0x7813f36465cce8f40ca250f7c901b675062006f0038b05b43d4fd39121b10003) 0x703cd18ad40090b263a399ceb78f75a535d1652ee650b84751a9778c302edb 0x242fb59e7839cc757768bfdbb6918eff4393c7dccc665a70423b1f9c1916e1c;
  SDbl 0x7e1856f91fb4de4e9eb82732e04974e7af9467c846eb6d61e3948510b3a6ef6f 0x77e5e1244a2d7066776857627d91183b0f5f77f2bbffbc5aee354d3dccc37b91 0x97e962c4eebc47752c173fe164f395e60251cde7170c8421acc70f16bbdfa670 (-0x82c5500bf1a965c68e00ea1f85cbe154eec01d40c9ac0a53d0a4a7422abe26a) 0x3e1bf7ede59448692fb1e6bb84a2f3211ad43040fa91332145bac17b0de7a3c6 (-0x219c4468a6b3ee1ce012d75d5984b8b495e8f1cb6e8774d64fb7440b6b666e4f);
  SDbl 0x5a2ec8bfc111341b7a2ae4c847a08e6f48b08812f42e97e1aa2b526eac01be42 0xbf611928fbf2644b9b421671c20ca9ce45d9dab315897086139ba7a66fd6d65e 0x12629bbe35065b93c8c35bbc466c28b59ef0208d24798205c10278929bc42431 (-0x3d6ef1a2f2c0a50e7f1ef18ef0fb7dceacde4a6f1df861bdda2d9052efa01960) 0x1fc4edb3b5da95d24c5247b60c994f9206ba1d007b973264fae621be4f73c47c (-0x192e61e39f20ba5f77368dfcd1f59011d0b4cd36f8ece86ba6ea2e29292da685);
  SAdd true 0x3bc45bb2c061e30a094e50ca7d0ce7a9cc52469ee7e0665b0711fdddaf6d1ae0 0x8c0318a6f76a80462f9fb8e75182fcaa92e5f1917eb6e06b22283d7574865d6f 0xf115fe1b7c4727c833a9b3bf8495090f89e5e636aaec729af9ff8d7e8cc0a89d (-0x20d3e6c819c853bbad180e947398950b024ec20b0126e32abc3199f5ad407971) 0xdf418e0fd305f00f4f48eb983eb9f3029816b9cb4f8f57ad3a8aaa6f2176494 0xbfe107caeb990a609dfd404fc6ceb7d8528499a206ef336fdb9846d370fb5ae;
  SDbl 0x67be18e6f9e67f616673accb13a63752a3e97f007135ca447fabdfd0464b2a88 0x910d0398b38eca2605b1b9c0c1ac60664569999d1a72dd1f802e57036273be6d 0x23ab6b403209fa92c6a75062551a27b5568377c37b2e0447b4e3dd70d3d6416d (-0x22546afa48600f26c47adf681e35ab965be48a6ecf340423b06e2ce3cd1b2870) 0x2a0a853300691119ab6f9367f6a3f5f0297b879a0399f639c1439399f8bf910b (-0x20abb611e01e5cb7c4de1868371810afda67cb270c418652e040b3068f9e306);
  SDbl 0xaddbf5182c8dc9c04b499e1ade6d548f6b206bd7c9e14caf93ae7a1336ed2c44 0x96ae0ec36fde6233cf0967b787f3f0ba68b97fadeda1c0f92c39f4c2ebd670b7 0xa3500cf5d99f562af6a2ce322a80139cde986f5e36db92c80a06a119dc876dd6 (-0xc61c41aab5b2829227d0e987c4378ffd86c5aa5387e8a8372240893509664ab0) 0x76130640644e2b153f916ac50f4a950090b639106639b4b7a6f8564a032e7b81 (-0x3d2aab41a674ad47e5a5cee66f03e1e5848c6d2f54119de35ff2d7f30443d15);
  SDbl 0xf5412f81afa8d865b4ccbb3a8142ebc02dd5043cbe4228d4d23d4e43af16fda3 0xcd801721724c8a6f36d553aa3e5f6f02e4b648a0db77d795cfacb2eea0f58fc8 0x7b6122e09750c1193cb9d308efbb0315411a585b1ee68e71facdf27079a97840 0x2ed91522e4eedf144295b26a0d445822d6cf5d67d4b5bf822f44017de0670dec 0xeaf5d5884ddb17ab5db87c1b998561f35f8ab235693ab551bc1a144d0b52db6d (-0x3484f782a1b437b1e603f38d77a53c9fa8b9812d893e8c220eeffe454ad48517);
  SDbl 0x31341c96dc0048fb0b4f22f4a658367607603a4db2a8633b64a482b726382d92 0x593f71f8b51331bdc2094b8c79558c06d5002bd41256743ff3499377f0f39464 0x9cbdb5ab5b79d11c931af385732a5b3e16affdeb87e66b8d87c7983f5f67977c (-0x1bf75c50b0e8de3363d21641849c37f33252646c67b3fb2bba46a82f464e08443) 0x974fd8d6a27d2a1c7d5a443c387a8a97cd6ce62f020e1626744d0bde2e20cb0 0x165809ba02af5cfe54f8e80bfd81b4d3bfe67b86a6c084e6f64b73d348df1cb4;
  SAdd false 0x2ec05c19d50d485604e4001fba597a7a9eac89d6b6f544515cfb08bfc8ef47d3 0x99f792b3266256d3ebc9200e2a23fc20716b2cba77affdba4ffa05eae5f8a93d 0x581b981be80c5594a63b2cbba9281a43046478f841c2adee19d2e75c49eabf4a (-0x706f919a3cb1b00a8da4e6c5dee95a172791a65cc06d055aa223ae8aa8aeeb6) 0x889b1a398fc9f4bddaaf4b7da29de1ab14b9c8ce2465fc1cd9ac2312a17fa7f (-0xbd1b742cb9dad146bd69936da16988858552ba19712489ffc463bc0fc1e4b5f);
  SDbl 0x29ec99e1ff17bf98bb99276615c45ef85dea9c36882d92185b44bd72b7961460 0xab7cc1be4f0ce2cf8ab2da9a4ebe2e998cee18f71f513743460dffeca5f8a125 0xac88171abc0b8d4b35c9a9333dbece2d269579ae85ded222e456d630fb5b6210 (-0xf8f1e2ceb23362769c033670a61f64861786e1712e8a0086b0380dc5ac763de8) 0x6dda3f67fc17d8b76661b27e4788029d505f6fad9b1dfa4339a3d254fcacf9f (-0x2de85d83b4ca18968cb89645577529b298fa6689b575f2ea1e73748a16ec7a6);
  SDbl 0x7ed856f5cc3a6417b664eaf267546951ce54e28b918846b56009ff453f48a5ec 0x2e4c70c797db4247b6365ffb804ca244c586fda6b9ab8ead5c03f577fe7239bd 0x3bb8ee682d7c7e56728272c0fd20d12d12caa9f22b83a754bd60b8563a4b8618 (-0xada6254621ec8e3e2a79b4b64f944ad8933a8bba393be3b6eed15e5f5886bf78) 0x3ed9ac6d1035dab515b59d0e6411a9710db68d229f4fc198562d85d162196a77 0x3e0793246aabfe18205335121b56688577392cd62480d4f516cd12bb77d98c48;
  SAdd true 0xe254ff2eeecbc77cc872c23de731e855ebb199cc4e3d19d083eebf4a0d76ebb9 0x8038a0be0308978527f6229de676d0f61a0640340ad63460e4f823b8bfd750b9 0xaf76c6907b03ac2c66060637fb984f5b5ebc5525fbbfc4a9f57e5da0e858a56c 0x3f3a21b7f4278ac4b4332f5bc14ecd9152449748b16f384bc93da20a86b924e 0xc81a2ec81ae5390ffe1934a36b30b01078acfc1783091ffad326be96fffcd38c (-0x486db580d888c362210b0f26599f7de8013ffcc44b76e583ece41c19eb0ce460);
  SDbl 0x3838f370054e0227f3de224f76fb89e255f9cbb497dc10d806ab58af1aa548cb 0x7cebb2cfa694da47fd162dcfa819e57b833009c16898c2a7b0a17c2c48d3a50b 0xa7294deb1258ad75cf5653214d1789dd10f6837005951ce6c471e3a4142e5fdb (-0x7397ff4383aeeb98f455640a9be8e8fc7141edc3402b3d6f09880ef34c44a838) 0xc58f72c772b45559fcd054f5e03efd80c1ca8231b94380da494b093a2217584 0xb99003a8a9f6e202d79ce1b0e00486b636a224a050e43238baa2aa412ef24d;
  SDbl 0x452de11ff9d576df88c18fd1871bb39b35ca3999d474f60b2594dfb4f1087a93 0x3808c35d1b781290e4864d1150ee7d3b326b6c82cd2d41484eb965e51d655eb6 0xda313e385c5db12f974b9d223c55be460b40395367af455e423fca7a0fda1a32 (-0x5c875c2ab146453dd87b7a0dc943bbaf57c0d73a348c550207df5c3cb4b3461a) 0x12b1c3943a95e3dc355cfb34f4bf7f22151669a859a6114bdb9aee75052c3863 0x129d830218678fbd15b087758b9791875783c2ee466a4469f6c14e216e89953e;
  SAdd false 0x456e89f38f8c1d9949be483ae850edd8458854995016c9e05ef438c8fa9187d0 0x6f7442935086d55cde279d1477ccd38597c5f33bf11d1b6ede585602a3f42ddc 0x7d80465d50a2caf71f898b4cc08919a79f0c6eb25a7851b88964f1663724ec43 (-0x16d9fcdc26acbe175954af1803cbe1b16aa7bd1158390ab16a942f5f319efa3) 0x12d4c61835dc41d413844bfb33631188fdf59735023e0461d5dc3c7392f8f859 (-0xf07e75795d0d24abce7e75df557ea201502f3f2c4ed11121b5dc74ea535a0ab);
  SDbl 0x38f3920c8d002cc32794d03cacb801efcf7b7dc518c8bd99162cdb0223dc4f85 0x1d4e0d48775473e1fca4aeea55574c8162cf8cce5049f1cdff2f1315bdff84fd 0x2db5337a6d6ad051bafb92e52d43600c9b263ea48f0882910a1289463616247c (-0x59bb2417c6b6e8a7dac5cf2082b63666259b9b1ae25e05d951d4f521a8919871) 0xcab77a421818b00360bc75e89b2800085dd9a80584c648805a2f7afe29c859c 0x124684cad943fe0896c91fd9a0a97cfd72fd505078645bb6b7a6728cd85e83e4;
  SDbl 0x31c1d7662bae010d2343815c74120e633721ce1cebc1378a0d7763f48d999525 0xa10a32c3cbd9e829f9491da8562c7ae90089a5abd0a1c070a362f1fb2bcb4a50 0x29f7eee5c58b2f580bdf6eb2fe46ebf3631989b7e72d13327b7b397ede129c58 0x7b4416bd0feec81d3dfd5caa76ad3c5d92c6ffde805bd97dc5a1273b83cc240 0x9abc73ba3af06255cdedbc7237ee151ac264db557a8e20832e9a13048ac3cf1 (-0x199ac2dc8daeae9271031f5d0d994dbaa8f838fedc72d6f295837696cdef6b2d);
  SAdd true 0xd905db316733eaeff9615aeca7554c1b0655e406caa57d4cf050ce8414a10b8b 0xe41ce4c1b4ca5dec8ddeab3aff4a844dab5f12fa7933ca7fa3b2f6f2c07de8db 0x2ced037c4ddef1fa1bd0f471734c0dafe14652665939243897dc87aea62f9ea3 (-0x5d7b732b461161805ee763e3707e74df80b0c97a9279d33a375bf5f35da4d755) 0xb7faedbcc48c8a2a4624aa3b9dcccc48a056464ffc8fb91e6b3f0401e23a6a79 (-0x38dc61abdd2829f3f976f0846f86e0eb2b6f141f82e14b39968ed69c8086b68c);
  SDbl 0x64a7af81d8fe0da327d71127e5701109cb97c542bf982b2207517faeabeefab4 0x9f19282197ed859e31c55abc20d7b02a02baf3ce76ee9d020a49d5a3385a0d60 0x488f0ba05ff6beddf0bd95d94c0b9f3532201c23ace18adf390b6c99cefadbec (-0x23e766aa89a1cee879c019e2764ab1251ddc7a77fcbdaf5f6d099307640de6f30) 0x27936ef40cd5cd990d704fa12ea900cc7ae54c4ab3664e018ab33cd52521d086 0x1b22aa6f422ee7f1e85731e2d3a6b3f4dfb413a3dc8945c60f6825de82440a13;
  SDbl 0x9bfb79e2f3588b1d149cac1ea85e09d759e8d4414c6a3ead601005c1d70a6962 0x81ff38eceb7641d5f8e03abb623f4ab368e0130f608639372b78f395769b9f0a 0xdca754fb9b8f30d55219e481e050f245a8186fa6b54a661b9942c3c215242d62 (-0xd035014bb6bdd9edc4657dcf1265941b8569bc93b4d943bfe396c30d9e4f4cb3) 0x5f0a7ca16ec937f3b3edaf27fbfacaec934369a1f4bfe78a395967a8e4463046 0x11bb4a1d8d6b59e57a7b5d9445a019877ef82c152d6751c08946a5b0149b8662;
  SDbl 0x8c7a663f32cdf16d8382a2038fdcdebd138165e8762b13abaaca703e590d9ebd 0x28fe00fe6b296bc9c049e155eb36ef51d90774aa0c2604fcc1f6d76c9ad2685 0x96b4858211c1107f72975b27f80df9d75473674d38717176b7f725758afec09a 0x2c20633ef9e5a7a92fd488142bfc99b7e3acdb8983ca4afd51b23132f3584a75 0x4d161a5b09ba32cb15c79d2f8e5feaad8bdea5317df203e3705497fccb448d10 0x45edd28f50f64b5e869acd4bfac73fc9c2c5a4e53856b765903fe59e69f0ddcb;
  SAdd true 0x1d312210a575c4522471ce1e6808d0c2e9f0c00d737773e597a71f406c6d028b 0x2b73bced9fc1bf496b9db8c71753927111bad2df3786c93dc99599fcedb700be 0x5d457bd281fd19a8e5ae73b4ca3b01f6e1b6e1e451ea4d02542e3b4452829369 0x57f3bded11e8751a96b557da2d520fb9ec7c020f649c6e0ac82da44d4052e30 0x3542b25d7b89dbdfd3bbb337e094b3225d287e24eab319ff0aa34ec784c2491 (-0x4a9a9135511b9dc0d641ce4a97050e6999b476ff60ce13badf370a6872bbd0a);
  SDbl 0x6435f6a6b31745de0df1ae98993d77c5174cff5ee3e92dcba890ed7400109ccf 0xb280e111fa492f0dbe5b9fffd4c9effe274d7c2a67abfc48aa62de6faa581d6 0x770b22f657784c38717193ce61f9637ad6e8db1d0bec81096c4d25460fe4ef13 0x32e559db9a6eb7763de2e5a06b67526097a78536f9f597d56a4f563e92fb4b3b 0x273a341271cf57085464da1a90bff7403e38e2ba369192b8338bff34dc2693f1 0xca45f1724096b6c52f43719386183535abdc2befc6ded843cbc20743f6c84e4;
  SDbl 0xd547a938c3297422043d807ae6c5ce35e1577f74d09cc50681815b6b5aa05bb4 0x413b50f8264b8fc9734f2d0bdec90f5dacb235b257739572c976255f0cf6d12d 0x17994132887b989c9c33c4c4ec703dcc1ab3beacf4fbfc403d007d09038bbd77 0xc4e5c74ff91ad0fbfb2f340f49593c44d0d0cfb3a9386d1fbdb43362777867f1 0xb1b053a873cb8e2a2bf826313cbdb150a830651f909dad5a2806bbc7b0685e49 (-0x2d0d29c0a84385f24a98ac0ffcd1bb124074c584d965717cfcfd8fadf7cf9d4a);
  SAdd false 0x396827f9e7cf93e9317b7bdead5dfff8c5a09331ac1fb6b4e5bdb891bcc3d9e8 0x64b884088c3c49aca7e6fae1ed8da8504954c19d1cd8a49c18407c00ceff6f37 0xd339004963eff8592f45b4d81e1f9cfdd0abd6d6148c994b7a896dd338b58aff (-0x33e4cb3c50593099a974019f59ac02443d38a44f8223a6b08ed023a305d7ba8) 0xcdf8c2dd7646d49dfacacbcefa2b796b2344325c9a09b41983650369e5792eb (-0x7f550c625023e4161dc72b4faaa0d79c51702df4a918c1dde18a0c8e45b047a);
  SDbl 0x6202e49a360f9645582bd53e0ae8e88083cacb1f6b8821e3b26b8cf438b1956f 0x8a725ef72a8d7bc806c6c897110668efb173f5e5896ae5c2608cc08e82c1c4c9 0xd9540af66d3e9248236282ec868db0fa3caddcc46c887c070d1263bfaf7ee4de 0x2ada65ea24fc03841f2f031b25f6ec4fd961e51c52e6909418ad467185ceda4e 0x2586370e95760b8adfe3e05213519941465aed08b5246bf6efbf486796083d16 (-0xe7192f35dab9d87116b204af364a8a1276585a416c5698d7214c81ef0c87bd5);
  SDbl 0x283f3b3505e7c6dffee2b05726c87a31eb2360aab689abd83da7ecaf2995e0c1 0x43f8030a89f66f664458189dabac28a7733f118e60b1838b5a36b24da07e774c 0x6206bb68eb78e985075998a5b24842049cdfdb701d3bdbfb20ae011f4d2f77f0 (-0x9c48e52104b146817d0233aaa7437434a54fdd948fdc1027d46d7826dd42654c) 0x653d21ec9f6a40cf3a36694447e6da8d4294b645ea0c78fad73b9cf6e05af5d 0xb1486c66f8c69d6b09f6944922948b3716e689f6bc32d665d6a32f165629191;
  SAdd false 0xa1da36ed79aa38def3a84be71b46fe0f5b2a3ba9765d9c72e0493c114e006d0f 0x1261666c4b75b1f39422d16aa54b7be585c6f9e90c9fa39bcff3c8f9ebda18a4 0x47f5a455d77f8665dc67e2a5bf58b60cc5433395f1ce1afc5c56b95b00faa5ee (-0xadff1c6fa1513417de18b25bcd7e5635c11ef0667aced6dba379e6a3768a1c6) 0x66543318b19890284ac6f0cebd65babb9c94068c263daeae8204fa5d6d2f3dd6 0x1f59fd64c873b6e930c6348b895b3976ff64f9cb03c78796e1b4aca98c3b0a06;
  SDbl 0x6a1f40fe2e9cbddcf9baaf57721e26d6a4272ae2a9815e0d0b371416848508cc 0xbd1ae564a23ad80d4497083192b30046d7592e1dbd642f115185db2dfcb959b8 0x61496228d4758d37613e069bf30ab3a0a6d7f3d964c086afb2337384e9d60aaa 0x37b377bccdcc0cb5363cd338aaa657bb066e899800a417ad2b8ea8aa21ea27dd 0x2bfde5a378a71083596e187e7d1bd8901f3f864e36970365ccee93dd50282870 (-0x46c5a6615da5b6974e921b9d4fa557e3b3aa4f11a1434244172ca7d889dad378);
  SDbl 0xf69a14e2e3c185eb08a60587df41fbb1b2a928a04aaeb5498a2305a7cdf392fd 0x84350e466030a77fce6224ea1e8e31c2e082f5ad58992931bd60c3c354d31799 0x85655135958bba92b575710853043b2a9ec6e77c138c89edf1f3d889f7c0de5e (-0xe7a407ce64caad78f3dc3eb8bc6940b2f5b6d3d6cb3dcaa4e86bda17b5d29f47) 0xed8c7ce21df2abc41a9618431ce80910a18a07a1223746ed8e06d0dfbb923d00 0x36cf1b9f14cdb711fa51a836ee1c3fb0d34b4a91dc1f19c8aab6d4290ae4e265;
  SDbl 0xc656af529f369330cd8b636969425c46eb354a8e6691e6f0457a0a1679123209 0x4c247fa6e7f3df541d34836dd8e1454c4c4671f9dd425bb7dc67c99788a93b86 0x68ac398488d02c0242b8a50005beed1e5832ae6da4afb1c8ac72f2ffe9cd2f75 0x1decb419daa194d1ee3a53a3a8ae9957ec311ae121a967331b8e3f00d8431b4 0x99aa348eab87a9400d7d3b6f32e359d9bdbd9a22e26b9fe35849cefa9d43e667 0x2b6fca44d5ac20174306227e0222bff08318bce5211d22139bf5a68712c39b28;
  SAdd true 0x4dc2aefd6e187c0df21a2d8770c5ca23ea1e68d91ab11a09abd9857059abf9f4 0x1e6d31a52efc08bd1acf5b07658fd65298f4ade380c10995e7d5181cb10c73e0 0xd63f5a0b0f11e9efff193162dbf22f565acf5fe44de91e4e0df356eb27cb0754 (-0x7b51df6f42815f124b389b4188b76c89baaa8e2467fa927b1407cc9064109c9) 0x179eb1523b91c59ab8b9aa4acc431401514b06f82f502daf3653e269e4fd939d 0xde2e69f88aa044328938e8d1d96c2ad0d35777837bcc3ddc7ea875c00177691;
  SDbl 0x9e67cbdde78f9b18a64bd75798e98c978408893af06f763cd2d60adb601ac131 0x5f5818474e6d08b643edb9267d46a2d9f45dfae9a3731c23e85bba35743331e5 0x177b609b95d5e54f57bf1b1ab0c107b5c69b9ed51f15506c0ef86d4fe47b43ad 0xfe4a9cbae9a75c0ed3e4e9730ebdb7684221c755b6b4bd0690bd690a9a8395d5 0x620449bbfac39054953e59ec848fec413080f37dbb7a316cad2778e8468d2e44 (-0x282b4c8d8d31ba8baa1d6dddab28a56b000ed67390bb980921a9706f378b910a);
  SDbl 0xb93cec5c43806cc8245b2b5232e48742199f8eebc7bdf7e71dced6ebd33fefbe 0xdd93a015e542ab39f783e157952edecb182ed7bd4d3feea3e9edacc3d3c15c23 0x729e095930ef1b5a08d77c9c0f94ae032759fa7a881d6db434f6ec95005503b (-0x488c022e98790e7c6a8b77f21b722fb0637b50f564ca694a82f2fc3a73951644) 0x86091c1d85129b3f261b16d834fd7d5d2ba686d535e2b34d6e56dd2fa81f6ee9 (-0x5b570fa4daa2f5660b604986751c35bfd225de1bcb6d02caa572e74ea74a3014);
  SAdd false 0xa622d5d2bd83d62d78263fff6d24d59ad260dc0853e73e8d92affed6d3b92ac4 0x849c4411909cfb3b9c1c5bf3f21d2d460274818afb62b9e191c23b25eeebfea8 0x61769b373da58ce944d0114bcda6cc51d30774d94f4f5e9757ed5d251835f67d (-0x6ed96f04f1e124d9313a8e406d547e9baf091785085e77801b9afc64644d066c) 0x6bd1320b382adfabef0f5f80fed5ab94f014c1d6a149e5a6cb86fb55078ce982 0x39bc80d44d88b4e1c4cca728c3d9f20964fd3b997db3e7beb06e7e7144a6868c;
  SDbl 0xa940baab5c61ceb1077f5df0a3477ea90c7fac3e67919a1276c9d896f0430888 0x969d5015956ce29da7ff718672362ab7149a153e55684f60e2c12c6b7cdf77e7 0xab66633979e02cf5a9260091fcb37123d69931fef529da9500046b711548cbc4 (-0x4d34ae605bc456a8bd99d98c20c5f67c4acdcbbc10e4ab7b54b0d2f8cce64a13) 0x6fe686d48dab4f944e6f0a9d9d6adcdca9410d5fabe9796ab24461cae33eacf7 (-0xbe73e528402e57aa587a3a797647e1fe4fae557b9c7df03775e42b901e1dc47);
  SDbl 0x480bc43f4091699f7ee1372dc61a0908f5cd3b9d510552b6ba69bee4fa637a4a 0x881f98f6c28b4d4f143063dc2b1bcf462625593e689f4453cf51ea56ad0aa303 0x14a1addf1fd7771391419aafe3fd51b35fac1d5c8ff3f8c645a3081ff35dd983 (-0xa95cd6282efaa2a609e8a9c7aceaa7626d061d5d81fe4b12d931c8166c14e600) 0x14469eee1c78e1566923b5ecc78b3148f609eb1325deeb821c8225dd4f22f56d 0x41406036281dab486d52f6e55e8b9228ace886f6e931f46b7eb643c8b80735f;
  SDbl 0x522ae63f87ea69538bb779cc3682c6a7eb821d340436b1f138dabd874282d6b1 0xd193184948f33723d619a24fc13691104919c6d89467b6634593fd787f7f1eff 0xca882629433821745aad4e2b8b00da60b96c49fba90b1903af322a048ca1ebf2 (-0xcbe645b9cdf83a09faeb0722a3b8c9295e3f7834b93de028162be45c4e5f550e) 0x1a5f82b129607f12a116e934b39a0997b8db025075bdbdfd667c4fe5d5c3fea4 (-0x17934dcb68fa47bd99b7a267486d38dbd7e11689233b31b9ec7ff889afd9d94f);
  SAdd true 0x615cff8f01f15f27447e1d75d68c15bfbb88d8d40e59f86b8d798de4c4eb15e1 0xadcae7b481ee53781b4d741b36ccf610e29e9027b35df90b00bc124c335eca12 0x4a16980ab733a5a66bce3bbb86d6c687ec52a3c160bae9bbd5070e2f60ed22cb (-0x3c65e6ebbdf14be0557a068f040300c702a860fbe3f0265749277dd82981c81a) 0x25079b73326820cd5fc53c6a3679612fd662dc82103445a1dea6b1243135ae17 0xd9bda1247f914644dea99d64206cd2b83bbf83098af1733379f153ef49df970;
  SDbl 0x4f615ab79940ca7db4adb88ca0fbad17209d5957281ad5d4396470aad37bd753 0xf38d831e571f1afe243deb62dd9340b3a7e40fbb26c3c8fbfdf3664389ad4401 0x9c337451e72f95c903f579587f19bf1c16e24177b4fdd43d728ef7a34c6d885d (-0x134014e7e8d786ecc3a186f4f17ff3667eded501e77ccd850895c6978a91e4dd9) 0x189d3b03487af68456017f43930c2960995ff348bd8b0528e4fb8fc47f8c533c (-0x15a1956b1408aeca815b0b15f352a87a34562ef998144510762a5895dbf7135b);
  SDbl 0x2faf6ad8104e13b68e6e94c774f4aea00a19950d7dcdf6763ed6c63b2fd4268d 0x5ef19442a7c9fdf461123987d44f44ab92c26ff9a03797b21c80dc669e57b901 0xd26d6432b8ad4799d96d4f1b8842851410342e5c3ca0de73c142c174523e1a0f (-0x27cf0ea00fef0cd230f3bc8bc31e2b82d6ef76e7e702897c0edf6e3308cec3a72) 0x8e1e16e9edc7b46c7de1d6231e352c688a39ba009006600185031f80c5c175a 0x1bae7578b6fb82d3977d0a34011e1b7e1bbb09f18fbdc7b0b4e45f1f31ec136c;
  SAdd false 0x93acb19ed3c5e87f92173a99084ba229714c26fe40d848f34efffacfe64f2298 0x52820b0bb7cc3c31660589848caee519cbf0835ec60e80df71e7180750d656e 0x53a0b9814b6398509baf736d74f0f404be5fb1b53a42f4ffc068a35c82c725de (-0x197b94f0147381f072b26948f30493182328d451edf1693b582c01fe3bd1d440) 0x552fc87be50ea6d0953cdf11786b6e029fa6107bd8c276a3276c7700c834d8f6 0x33cb3f02a20a0793c9ea75d019317f6cab5794b0c45f3aca74c5b3c9956d1aa5;
  SDbl 0x2e78ef165472745e618b530f19068067bdf532a86e287da8ca8ae76f0369eba8 0xcb49cad8364d08a34a482b498af783cd1fb908aee5cacd826b512b9952bc459c 0xdd3c367000255a24eb39c9514f6efed5875c7700438bae20311367e5217b0161 0x1e0cfed9c758a64ee3f671814d1ece501cf65a7bc3adbb3d9421adf47b10aa69 0x86faf0d1302afcc6b5bbe286881fb826f8812b26cb214f20b3edb9124193238 (-0x23f7a565b4a5bf564c1af31d73be5332274c5ef43f9aef338db051a0dc528091);
  SDbl 0x3dc7f96adaa06f68677317ea0f86ac32b07cd3636ad1090e35d5dc0f54a65cfb 0xffc693c61ace7b3b3ec523b33910e31217595cf824e7d67cde4d0b09fb392838 0xe612ecd5be528596514cbf9a02a590ef10a97b8b8fb7a847378c07ef95677e6f (-0x17982024448225d77b765272f3fcc748a7b50a5896f492ae0fa652698c1d60709) 0xee8e912b23a4d7d8822f9cf146f742a56ed86833799dba515f57bb131685557 (-0xcaabc0434f7f2a4b0b3a7b6ea3f0a406488951e4f70138f71ee6daf1413413c);
  SDbl 0x749bf32fe8417c9dab97b385edf4ecd13d8e1d2f4846fde785e51461c8d1cbb8 0x1a4107f183d1615f2c34e03b8cc18cc807428efc977dcc60941fcff3764d3e35 0xab200bd49a26fd128f120ea4c30cec07761fa5695057bfaf69257d68db1395ce (-0x22d0e26a06327ebf0363f09f856fc324b5920047badb938fd9631df4e8ac324d3) 0x351db36402a047833a65642d4a7ae610d377226c765dabf115304a59a8323a65 0x688c55411e29a4ecad1f8d353c625d404cffce6e1cc39391edbe77326fe78115;
  SAdd false 0xcdcc9bf38d95bd8863415e270291f613acb344a6160a9149ac0c737d05c8bd3b 0x5b5c37ff4fd86c5b077f66e104ef75518ec9af79f0a44712fb136fe5a2b7e182 0xd2820107dec3cfec1bf093c79128a45adbbe9942c04392a9191a6dab01d9be2 0x13b503f480eca1d03dee7b4ac981992772339a2564dc10b7100ccae98d871beb 0xa571554da15da2a98dc9c71e169bd60c1cd635ea99bced39fad842f7c64168e5 (-0x3456cecef2a00e56a3d4e1eddc421d3380a232b9a5666042c2f3180868835291);
  SDbl 0xd05bd93c46d73853a48694032887645079a9456b9b28e6071a38c79acbfaec67 0xdeedd73a4f118b009906de22e96c7666676bdbc4bd04cf3dec33418322036c90 0xdab21b607a204e78dc658784c7df0ff1f84676b31d6097f38ef8d870c318037 (-0x4c656e21e727d1b345a9e61bfc4615f18d183121a79c88d44e5b0b730d1ecdd3) 0xa99561f6c5e4b8cae2b0fcdbebab329ddb56643014ca3d5e6155aa8479f91e23 (-0x6b1585c95eef69f2ba55b0c5cd49321b2e413a61b46c4606211b8470826f0945);
  SDbl 0xfc880fd0c023122296dfb170e66195d14b7469f7297b693b6ea7580cc11e8489 0x8fde278ec7c285bb3c3295a84e5dfd8c1f8b7b1eb367ed1eae71a7a9b58892e0 0x9b7815fe3bb0e0295478f8cd65e6a19cd1521c41349bfae0a945160def40b634 (-0x22b6ca8e3aa927a1091215b6e6c754b02fc68bd0bef6831ae8758a66d27da7fe1) 0xf91c2774c2277929054252110e207861d6eb18d700f4f8053870865e12d5daaf 0x4dfd7624ddaf821af6639178880697820ede81e64befcea51d9b298762d4f73b;
  SDbl 0x5c4fe2534b925fc378104424e64270bf61a435e7adf8a3d3eb8c8a5a0568e3d4 0xc9e50e8717abf1fd36b20e462320b758dd1875ee895472f7e621b8874c796a06 0x6020e88f6af10b25f314e4ebbe00c3a916cb21faca0fb78c2cf7b27ac8163999 (-0x826e7c1d70e0ff3d99584ccfbd75d301eaa5d7dd5ca11df07bbe98bbb1c13223) 0x21498399771a894d9858a4dca69cfc39f5bc50b125bc0375f7a702ea8888e836 (-0x14ec966f918a6ebd0162dabd49d9322e34c8735a196773634f9a9db7950032bb);
  SDbl 0x63f0a4d5e34d9da0fb9ea769d4ac5b63f40ea57e531df06125ec1afbca7621b0 0x3b9d73e522bec2b6b507a3d2f1bc2630989ad8d179c1152dc620d3cef88b97d1 0xb0d621398e6c6e5ee8e69e181944130d422af4676bcd3cff0430cc3deea98dfa (-0x1929e4bed329e2f8ea98124124f3b433c24f13f44b4a19ecd1a5c553a85b5bbf7) 0x270401b30ffef9149b64c5640af49a09ecd6da0b110e7a48f347d210becf92dd 0x378b6f8a9010d21a6344204ed44e78593c2a4609b66956c0507ca9b9a4b86e23;
  SDbl 0x16d5e087eefa52a8550f43d0614fd6fbefd85166d9ade27615448c9667538044 0xdd5937b787985bdcccbfb5304968a35c7ce6cdbd573f12743d70ccefdbd78f0f 0x8e18a099074727fb4769551ad5427c35b851b2175bb4cf3775048448cc714ecf (-0xa19948d424cd51e81317ab0b1841dadf10c4353c5bc7545f3be9cdc1f2ec2f0) 0x2097546c63e526d3cbaa656dc9b474db32b5c28f5ea29f8e9b9786aa892aca1 (-0xe6d41e83d7ceff2d7e1418cdb8bc427fca33e9cbdddc8625bae08a7cdfe76bf);
  SAdd false 0x486b9c5189d0c651b22fc36e1caf13af8db0eb3d9c16fb4fa891c019c80e5254 0x4eaa45d55c2b6f64e808ecb6b23946bb489b049f3cb2186665f1df40683a164b 0xe240040eb12440723d5a524fdf8f187b971561230393aab01ba8ca01deeb5bef (-0x30417aedbb8ee8b42daff52e37c040fad8d88f94715e0a08c1c2f25661ab8fd0) 0x147cb529fd9ed32cac26d46b41d84ef98b4523458965c27f66f47be11bb42e91 0x285d2e46ebac4e75006c7cf8510e5bbe160071c3ae5a3d5bb501f996904a426e;
  SDbl 0xd0f5f8415a743c076fb1dc079a75bd226fc5a19bf97f4d4537bb4ce4179c926c 0xca5fc2ea27f2a76021f473aeb44c76c016ab2528166a7841b6099ce830875727 0xe739c83cc3b0a99992bac4576c0eb6e34435d97c6ac472bb01e44476d0f512be 0x128d63083d550610c1cdfd1f17c20ece0cb13ae6042a245c1ac6ef5739b0cc040 0xaa909fbffb6353b73a6af6ddbdf22b29b0d21afca94eea1c2822e8f6d19c262d (-0x64fa5249656a1656f209c8a19639fbe669be61649054e0d3f0452aab767abc83);
  SDbl 0xaf611cb0b13b8b3945c7ac48941a2fbcfc28f80a2fec2b175d9986fc508cae8 0xc8a91e5581dc102ace8ef329890d4ae01e72fd025a354e128ed236c628668ab6 0xb6770a564db16bec0329790c17e2a32031c25d8398e09bd06ace24fbc531d266 (-0x1cc24c36f118997bb2d13a5161cb42e5c611386413248ebb6eb4e23481b3d3890) 0x7825ea10cb92c241cd67fb7fe1bc4daa8f6da4b0c15363075b72d02a2246c4 0x12c80e723c9f701cda98ea022dc31fa22a28d00a28dd53da30c4d8fe9474bc;
  SAdd false 0x92c9ef299200bb1bc97e3cb7a2d33ccc5882e3bd296d20d4cd6574b532d6fa2d 0x7d3c342332e103708289bd5d7b99332e8f36e76c532807a3d95df808473cbce 0x3d0187726c5eb7df92537da79cddfde2eed8709bc7c5b9a59be07d35f1c7abd7 (-0x55f2845c9c8d5411149330efc908e2b4cb55b5ba193dec5865819ebc53a08204) 0x542af4152d69b40425bec00d6e394e9890e6202d3fb5fea7037121ed146edf62 0x6e91c99c73c6a3a147d3e8caa3d889cc39d29a263e7bb40740f2b89bf0ef5f75;
  SDbl 0xb2c235e19d517e8912d58777c155798f36f1b8fe9cd24f6b79b9f3bd20c5e1fc 0x132ed077a3ef8fb2f88af1dfcf5989f6fbc7ac50d9630ac9b0760811c490ee56 0x16b711098fcbdb9cd36c45e293d938596ff9b49560137d43a7920427a057c46e 0x547ae4cfadcaa1c2d87ce258eac109de99dfece95a8caa5b423daeb851ecd001 0x7cd2a643f0e19bb7ff2555a0d153f9ff6b9328f23b322b6642039f86382395e2 (-0x7edec930e910aafda36e0ed9e61361f64385bd188d618e40ae25529233109db);
  SDbl 0xb63f3377320da6ea248ddaa91c0bbfe94995b763a9d381e448217f48c144aef7 0x9c8eb455aada4bb6653251a909af8184b8a62df7a82d8299ffb0b11d376c984 0xee222456f29f169d8a8293a7f6f09b2f7672cfe1864b941778b7e596641113a3 0x1c0790f229ca7566a3c1a3fb5e5f5b6529fa2e1e11373f6f9036ca291d197a65 0x81bdecc85becae4672202d2cdd20f79adc38200ab07c91148714fc0783cbf3df 0x6b0c2e8db029d37004d0cd2fc6568f8c0565adf3e40bd68e2388f2885609573;
  SDbl 0xe09fb5d56ec58d881ff0df66c9ae3180a39fd4a4d23c8cfee893162298fccb85 0xb23260fd09e9a9565a4c9e34e891c061565bc7b0c5d8094f11a7a0d2919a5698 0x3d87f5054eff77f3114de9694c89f0a514eda1c5f4a4b057c1337a4e76b7546d 0x1a0c5a59a48c2d524271b4d155763cef2d4f882c998dfcf5522a1d34ead26bacf 0xc517e1d9a738b3828d04476fcf9222f3cd1847d0e23c42121551a052f8e3b687 (-0x93c558206308ca01377792b13a261e5df64c356a7ac5cfaa90b640c76c30708c);
  SDbl 0x9d05a7d0d91b389b7b51b4a4a23c5c7555375d955bbce3f72fd876b4ac8dbf29 0x82b4664af8804542adc5f4d62aa124300d975b8a11ce990986d3c5d753d6bf4d 0x3abffad704a1a3b79dd5d732af5fd6205611d3655a0278ce04d52232643bb297 (-0x128a2cfdb08ae68b1d7c811cdbd62565c96898b5b0a5a6e7a6ec9c9679a46422d) 0x604feff686c5f4187a50fd450a92a018798a225fb696027c3f15a2793d2337ec 0x1d214f572475f91ad819ac881b2379659ced59fe3c110d540e4db612506fd701;
  SAdd true 0x528e7ca728c0491619e08e324bb2c254d8d4aacc18b5745a1dd27cd375ccf601 0x80eca842f9e235e1e7bda27a408c7413e86f5f272581a8ac526cde91b36e66d7 0xd89b8629ac56573786276eb63f39b86c36d37ea2aa9b78e828c2dd34479c1f60 (-0x19c746de6bd055833a1c51cfd41661433cf0264acaea4f981a0fe5059e12b371) 0x1a9f9729b6de57ed6c20534f4f3fab00b92c5a87eb56df0382936f565293aeea 0x92f887e23237aef42df94b1ac2f7ecca6986fa75326b9c49829b265a661581;
  SDbl 0xccb92e27f64690e8789402b3fb40c6ebbefc6d3ee41bf8c24fa09be994e4f8f9 0xfc523f9236bf39fb32dc79eb06c58e61f5dfc7f245c3ddcdf2171630e237adf0 0xe29298b38062a987cc2bdf8317e1bb09ae1d86e8ff87c8f11d342bff47e211d4 0x97a8b3998304d4c791038b61a651a9f0b916235d85c751c50607db60eebd10f0 0xa3b7a784124c733254f601895c7ca437143aae56bd6a5fe10ccc8b65f369196d (-0x62ae373d63d13f4235d0f6f4d30cf4d46e47269bc1c2dc9a5ce6c6862b976f7b);
  SDbl 0x1b3207038f400342fee2326c74f001bd9f54458a14104b4c89a1a2d53748fc29 0xc6b1470f368e8e45eade223cd21baaa8499290f87ed75d80cfdfc1343e63f571 0x3dad4e83ffb0c2b2efce5f0554dcbc63f3d23dfb1241f63a0db1c66ca853f6b8 (-0x2b9f29cdcd51bb0ff8e27935a0635a9e33eb665393f49cea603d3bb3d5ed852eb) 0x2e3974180b03ed51475d6fc79d80afb1db34042ae9dba463bf3fc33956292c0 0x5b2751e85fe7304bcec3e225ec1ce7a319baa689c51540dc15834d71cf87835;
  SDbl 0x48940c1409e743069d86c19de334f72221b4103cabf6abba40367d4bbdedd7f9 0xe522935502d9be98af84d66a1bd620100bbce5ab2f2b048938886f0a4653c4db 0x7965d40d0afb27c75f7ae949c4abf77ce15f0f2fb32d34d9b33292bb4d33643 (-0x1abab4baf597829ba623859802880efc91d26e22a5d9d7c2e60546a3786488e50) 0x14939c6951e30801c4f224283113ebd06c7409593fc8a90c200d2dad7fdd7f8c (-0x8a17863740b705cdedb37d9da14caad9bb6029e4f09c0c742254f5d3c440eeb);
  SDbl 0x2bd0a4fb1cc46ec785c806cb9f8153ce169a0fa2cef937a760cd8264d2bcde8e 0xc517af5ad41c7741d740ce757551e7c239525c718f309b5312ed3f9d8d9638ad 0x9a05b2d3ea4e673f1de8fbcf6eca7b5a4dfcce81d47e67a422a3735c921ff80a (-0x264abbf54369e552a430c2a80b8271e49f1f3d9c2b714bfa676a8632986ae2c4c) 0x77fc178e58b31110b1236029335c03a941828472580b79c71819e4980332b9f 0x57bf1caaeef49f0e0eee953ab182e2497c6287225db73925f2ebfdcc07788c9;
  SDbl 0x3d0c368e514769544b2ddb093b7fa74f1a4335ab0581782a359892a189e69d7e 0xcb3a9eb1a7918e2da18036821836fd4dc1cb93c310b2d4ffabd948e7f2152d20 0x73664dccb5f44a2f7d1588620839bdd69d2a1f1c3e189be6b0094003c299642e (-0x17dc2f8d2635401e6bdb00ef928d5d744ed96d6ee530964935fccd18657d3ff20) 0xe8ed2950a42d2e17b74675e199eade1b85f26b291d22c78d6155356d1f5d476 (-0x1769df9b1bb44a2252d7b4e9486bf1fe180964330829ae9704c8d2c2e8dcc2e);
  SAdd true 0x1492182440877627c18f611c0d4f04a3faea9fc3e0e2759908af7154f3b8f89f 0xfacca535c027d01d9588d9c48753762c4e1b8918536d018904e7a3c788607d47 0x1a9dcffccbc7093499529079d194592f298cdea54b617f46144a5141ea9861b7 (-0xc40386e4ca1ee2f0c15cadbced9088e7ead142bd2a0ca87f1bebefeb526bc47) 0x1a72725375cbd59cf789e4bfd5339eca276a2dfc1a0290123d0fe3c7dbdac6d (-0x3d28e467a374b9787770e997d9f361ccb5f2340df68df8ce59b5d406359a9e2);
  SDbl 0xaf16c988f5be33bb31a9b5cbe4a92f12ce43997a1838bcde8c21649adc51823c 0x78704c2c8495ceb980a39c28b9e5ce1e9430bb830c4ab38730d53852381e26d9 0x5b92073b54c7254939a285d82c1290027eb4f0f8026765cb5af4de35f0d27042 (-0x2bcb4836d2e08d1abf702745dcb774a91e1276e3ad5ca1350e428662230ce6cb8) 0x77c02990f9eccc267f37e314e60e80c6a74c686ca8758c9d89c0bde67ca62357 0x5928bb6d8fc771b204ab2ef8fcf78308e24218692058a1d5116c0fc77b2cb431;
  SDbl 0xace0c1bc36df707ee97bbc5618f573fc89dd58cc3e66f3198da9cb01c5f1edd3 0x2fa6c521a4e0b6395384fd2397701836d5d25cdd6af665365f26ef29572ade79 0xd7234283b4c9b3f6accc4fb0add2de270a11ec7e97c3bd3f7525600c21728698 (-0x2e4f662865aca8b084971624d94a4780efda00fbf6acf6b1a2f5efa15cbfd4fc) 0x74bec9a8fa7864f5eddedf816ed5153be37f267da079edf97e1ca57f6530d042 0x31274e271b6121bba8a0b4f17178d6b4bd380f0745d34c48dc6ab5366d5f6fba;
  SAdd false 0xfed079ffa27142053d9184b2f0b491022361a1e5c7fd472a86a2da28946a5e77 0x451fb8da41a47e21876b46f662ccb189d3c158021cffd8f6f69bea593e8b5e91 0x72472e0d43cef9731b372d112b80dd674cce2ecc813686c18a47e0b8f6404d3a 0x31a370200cd421ffeaaf69c4b5314b77d4dfe0b8419337818d89aadc03a0685 0xfda25bdebd86b9c081558dd96cadc14fa4b10aee90d00acac455c46fd39b1680 (-0x155f7e52e3362ee26aed30b937d481e0790201a51f9c0aa7fe04593e0178d106);
  SDbl 0x99b64eba077fb96fcef6cc0245e68b0ade86410342d5fe510098540f197e2692 0xae069b1db726215d94aa5210700f5422580f743054fb05811a99fb58680aa3e7 0xe382805d436f0fffb98825adccb6de00a44f07a8b49af5dfc8608d2763e0e2fd 0x513d7fcf482d1ec280d33d3e2b9452fec234e2c6af658f5463fe983edfd11c38 0x5c4b6beec1faa4f2cd29c02c5b782e0f7aec01a817ba1d6371cf993c6399b5c5 (-0x3efcb1a1fff04fe29294eb7bbfac1aada4914bb5e5e5f4edcb02ddfd90aa80bd);
  SDbl 0xef8698e08cb575ae246246f7f460156ac98449e019bb20a957ba6e4c611b478f 0x4889dc51c00e48fda7d233fc7a9c74531954f85aca26c41a2a2fc499e8b23c6e 0x2f1baaaaaf51e6d651cc06b167fe4094058c4b42d34ab2435911f852b6a66219 0x46d5f6eeca3e5757631faabe4dfb2b1a881df99a83e4c9f0c6f5b032c67002aa 0xe01c98388d3623f8ee1770a8aa5ce5a9198cb7b0c1641624f310ab402e9ce25b 0x5ef4d207bf9fa0e46b09cc20c5470923141758e4db81c6f654f8784bb0afe97f;
  SAdd true 0xf05924628eabba5006d9f22e6476d5d81682af01295652172a278b4257e2f852 0xf9b792fa73d92f1a0c67d4ccc2c41ff661758eb59c1e0b201137883274eab59b 0x5c7bcc99613bdaf11ecb0f8f99bc57e7b705b8e3da9977b3c2086dfae3ca28ed (-0x14706fe88285cf98d28e5ca86b5ae1b30b82e140d17bd90a9c3c0196defab5fb) 0xe1a74343fedc52136ebdd8ca90744ef4bfc9419b0029c3a732e86e0a73426c8c (-0xa6588d51f37b22411dd6ab3700c613fa8fc31a4d1c46a3943264835b815b0c90);
  SDbl 0xe5a00a3ebb4dda1cdc8d2bab7cdd57cc4d4947e56a5de7f60e2b2527d3710f90 0x2aee80dcd6ed446cb2a009077bdc0aeda0b38e086568518bde91bac2333846dd 0xec161f8a9e9703f9f8dd8a117e5567250a45326d6e95cf5f3e93fecadb416ab0 (-0x234dac07d11562b0002ab9f8dbb79753a9502a69e3166c949d27cee23dae22d18) 0xcdf7b661d7e415eb7657120bcf49c8390fdb05f2caba311f3d0adbb0fefb8113 0xb97b2327100f8db8a41f8d3402f132009866b7cb49702ac4cd81e3cbda5226bd;
  SDbl 0x979598dd9c227b1c42482ffe7ae44153dcc5148d24fbaa0ef1a0fd53a945f6b6 0x3fde728271f9bf9e5c88b5e6ac3a0fcf4c3b8589c04706fd2ba570ae202a29dc 0x7e51386df2c3a06494393140e4221dfa5111e0b38e6cd961972b4dda0e1a4126 0x101fca3754e07d3d1db61f3c4d92f9290f684ecfb8e4a9c98425c469c09fade18 0x59c1d1c11532285f9f3ca1353b8fc3c445bccb7e49a79a7c5c59bd534ebc6e32 (-0xc65c3b0f7a057d5d4eb47080795559767284fd91803e59dd7478036acd0e8e0);
  SDbl 0xb96731d8710489a18dc4e4d3077c2e4b4aa08d3a70f3b4c101b80be3687de4be 0x6b51856525a2e6251aae14c93095b643a41f3901078fd2c6ef28809e0eb770bf 0x8e65a7a0e34206eb21a87304f36ffb0bf8576b3005e7ef8a0ffff717982fadda 0x872981268405fab0af2636747b2117b2561b496ace3e75248e9808a816f83ac5 0x86464fa47f7e627964a2241c595121c66752346852c40bf8adc0dd42c11cc773 (-0x1f77ac684f67167783815cde307a7b27c059e0f5aef9574cd2d2ba74a4e24886);
  SAdd false 0x8557a6cc9b7ec93cde22165e3ea153291ac119167e719f2eaa1bf2cc11662607 0xa31030bd3f165cfe68286f4b6a5baf4000c33553de9ac2c901001aea4977e580 0x9fa159874432270a0ced24fc8364f93da518dbd1cab9cd179ea24654b395ddea (-0x1d748886685ee67aa0a5d6761f8260f2983c04b41199843bd9fbb2dcfb45eab3) 0x45743153aac59bca4e7271c41603172ee72c6212644432243428501a4a41b6d5 (-0x1d0925234e1a803d60a48c729f7d978ebd8e2e2f9128b6ad0f348d8a31bc9cf5);
  SDbl 0x36f2941b9644ebb1d6072ff03697b9943790adcabf7b20748ede30a30e47e7dc 0xc025a64218392a7f411aa61fa3711ed88187f3023bd0ff7745d534846f8e98ff 0x619cda4e1e32fd8967a9eab4fc9ca307784d60fcf44fcc024bf080ef750adb62 (-0xf31245bf056d7ed318b70281abe98bf0361c1a88b6533dc4e9b4a1f14fa2f633) 0xbcb3c58090852cd66d02e5b4b3b5dc573f41af63512ed73eef5b6a284779eef (-0x63e15e6ade74a071a7da7ad447be23e913e9fb82a24a5ff801d37eae5ac6c90);
  SDbl 0x284077617d876ea48a3a349e9af1b0027a01b86b36a2d9a2fa83e4c260cb540e 0xbf7ae2efc835de3ed1a9077eca3962024b22b3e6dff8de2e60a723541ffa6384 0xadc969a9b0cbc71e4fa47dd071065658f194fd20b92a1e942f659868d5e961f2 (-0x191f74f17b42b5c584ed2189236e4730b7da094e9653dcbf537850e0fb198e4b8) 0x654358a65f913a96a7cbc1ab795818368c2b26e5cf023de8780169c154a64be 0x1ad98553025f5a4d6255f634d9897a5e640998542482a34c238cccc6c3f49a;
  SAdd false 0x95da3b30f87da4a9fd5e79c971f7e4765d49628070fb87284a4134ca771005c 0x43a96a924553ba5f35406e4697c2e53bc7af5e1ee59a740ae858a06a6c52d1e5 0xbf550fcac9820962b92434a95b929e7a9927c761fd562fa27b6ef37f709fed56 (-0x525e00680b521406e018da6ca9845de9fc9cccd4e4434b75a3e3fc13c3486a7) 0x57b7c2f03610d68292bc1c6a9ee0045b4a66e9b212cc54c5cf8a4e66618920 0x487a78102b7d5bbd4c00bf7d614b9c027e6b83f3996fc9925d8dac1b621fa24;
  SDbl 0x50d2bd5c56006c5b85ffcac07addc301d057a6f42acf999d6650fa4bf63f61c7 0x7196ac2798dc892be0a9b05da31b34e9f7ca69607742eaee31985538730d6a23 0x71dec06a86d4d83c50ab04b0320fbf074af7ceddcaae349af9e061a7c88db4d0 0x4329d2c7337bce98cb6408a9f3d1cecfd6140df5a009a39e5b7b31e2ad90fcd4 0x198463d506d3388a8dec3d5d2b9f90d7adc253b6b003cf2450efbfd79268a53c (-0xe7ff3173f35d1bf8b9e2a6b1605335dfd4d0f9b1ca351a384c6f1c3ccd487a8);
  SDbl 0x44497183e03a2d96cc7ce62cbab4c428d3bb81c0f1531f9e9e18024b736a1908 0xf90dbccc3b885a38415fa8050875ee9b6930eb7699fde8b7edc4f17a01309d36 0xd2178864186a5c279436b5a94b04d487ea24fe91b956ed84f64784aee53da78e (-0x5a7369bd841e146976f56d30f69ee680aefc9ba84df20b30ca394536a1beeaa8) 0x1237196010e192a8c9b43207f3bb5c0eef4e39a77de3eb1b42de52c4fa38e13c (-0x24227d70f537abad7e2ae102feb0f1a5c150dc0c2b4f4db43eb409a5c240300a);
  SDbl 0xaa33dc2ac51b34a431188101a06847f54c9a2426ab2327e1477ccd2fe5d60cd0 0x866db2fe21306cb0442ee7aae681a83682a5e48ca35723273274a6b5914270ae 0xaa8f2bcedb4375339c28c5b7bd679ef0e6094ba4784d3f96da1109a916376311 (-0x1bf86ce23dcebd87547d62e36a10fab28281cee0d5d028cfc80a7bae536ebc097) 0x7128eaeab5551f97c71f96dc699a4f2f5969707d472f6f8a41080f64073f821a 0x4c357ef9ccb332acf8fd0a1bc24df458c1a1cf7d5efbc9e91301e596fe2a7c1f;
  SAdd false 0xf2e088bb8f78d9ad91beccc023c12b4bc839f02d4212defefacaa1ab8e211240 0x4a270c8982b71fa28f40742a84f64020af339bcea3af4c54ab289817be47917a 0xbb49c2a27707c690a477ffcd88e59c3b8ed87eb175608d5fe1f8851a022df643 (-0x4f5f27222303a4772e92bd5a4f37a1fd1182029ccda8f671c7aaba1ed3751bf2) 0xe66d477312f0a8577c7b1c036b41acfe52aedfd875c08bb9b9ebee51cd0966ef 0x392fa75dceda73124fc5110066ffb588493d2a72fd04839b87a4a8971847e454;
  SDbl 0x461333834cc4d15ffad688e7f9e2e85b725a8e3032795d65583c0459e425c08e 0x1c27036917481456c40df711679d5121b323f0bda83281a55fe519dfca90e708 0x30b9d6deaf913b7db4d78c232949864f2a6c0545255034cce2783622823a652c 0x2618a3266e6da2d96fc3969f601ea9863e807c80291082c3cfb17cf771469815 0x132e819c91051d423651a5c7daaab4dc4db6e7ff43d2e4b5380eb2c51d3ebb38 0xc9775c131014d6fbd84ba4f98bf639e1977a9d0e3aadbe29b4ece942ac65033;
  SDbl 0xea74d2b06e61d47e8eb8fcea94a38e5af5150457314d479f5cd55794496e4f4 0x7e1619f62584d8b6a9f7170b0c5aa05e1056ee776655db36a3b227c3e7a1b804 0xebc96732dec44738c4fe5954f97f3ca62a209cdc4838eb7909fffbd3a22953be (-0x3b5a8bc3b21bd776d1acf86af92f1ed5c0a09cbcd76d3f06f8dfbde2698eb23) 0xd6b9c67afdce964b64262478a8b573d51baf5f9ac7e0798fa56248c20ffd84 (-0x59b13b8d1fb899cff6b558ee6d745ada266a1abd2f471e540337441c9cca6e6);
  SDbl 0x533e25d621377181210555bdd543a7c93349bbaa2903d780160b0b50086d562d 0x687498adf9af6b4ae33eb583183b69ef40b2e997dfbceb775efee31a5c7d2099 0xe71ba9cf64f0c7b4ef958aa62f9891c416397f7e6089cc34449725db262dc333 (-0x20f63638cfbf65c6991b6eb6023c81f3c0a10a00fed68f900e27a57f62add89f) 0x1b115b9f4deafec997b0e1ac39f516f2dc29dfb14addada8d880746cdc6c4cb8 0x7089d3a2c396f03626096d80a8a0e513bc0edcce04d8e96b7efcd63377b8722;
  SDbl 0x4c9aa196eee76d8e9bce30369456550333b1e6e0ed88f51e57ab401650334d34 0xaa2569547c03ada2b3f8a0a4f898d3abd1a562e179e700c42468a8e4b911dae1 0x98888d943bf1198c2d9af7738bc6f0bbcc9ae08d57ace7074ede577d95cdca9e 0xa72ca64907ac17d1cc36752305953d90bdf1f9935774059e1cc5201c45bd798 0x16ec2d58845c3650ee66fb07565d2bc93bf22ae02c03d3f7de630fa1180bc983 (-0x13a82bc5f4a454533ed6b83d854b6017a78b561a1626bdd8d4df89ac1d6ef38f);
  SDbl 0x8ec04c5ffe69fb6b3178b63b89defea1ad748e2dde1b7190f68cc4f7c78a484d 0xfe8c0fb3be8a128fde9f41fd3027cead455312a6467aa7f7dc8c72c4274fb6fd 0xdb7318c6346f54e93d24695dae13309e9d847c29095d9ab663098d901834b043 (-0xa9247b2bd71a2cdb51cc8925bc103dc395fd5135d95fe6b15861a473f90ad5cc) 0x4f99e52d749e3a1f3d111311f2235ca0b803f331809d02e4ae1010dddc040596 (-0x2f105673ecc596657f8de0e1d8c4e384ddd5767596c4455357e53946586270b3);
  SAdd true 0x4b8a541c9401c90ef3131d9c8a34d64bde4fbc1892f8ad7e4810d34cd884c70c 0x28b37a012789ce68a9ab7be659361610618d6eff083763a9a852f57313fb1adf 0x6facec30fe474456789274455863d430c6e6e72866cd006873a730d178081906 (-0x3c218601b6934ea9736264d48d10a947350702f85d426020d474aca54a83ab1b) 0x164a58079f75ba1507e8d950de5a7fc0010416664fc4093a2ea561de4f739e13 0x3f1a00df340e286767852524fcbb7118fe4ad54c89e82e6501cc6a4c137225e1;
  SDbl 0x7d153af063582f2479a1ea18273afa8f472d49417262a790bacdb8c4637a9919 0x9530797f9c222f26ecbfbbeb0393ba0c4e22504d0d2ebcde3451e0b6e0b260e8 0x9a0f02a69a881a14cfca4fd4aaa1f873cab0ffa6a11f1e0032e4d96752129e5b 0x59b7a8966ba85812a01b06068c9ee097b0272d543d692e0f42e31d48cd1e1b94 0x3d1dbd51b723f691732a481586ef73be584dd4d95fa3fdcc487760356b45b235 (-0x350207fc1a7be270e834ed7d0f510d6a568309be0ec1514ee69bf07dd3da10be);
  SDbl 0xd3017bdad0735460399adba612baf0e41b7bf62afe7d45f0bfd43802821165e9 0x559943a0a6ce35af1d17df9717b4a3cfa7ea3700c07a0a23603430a92d9ef5b3 0x2125a30cfddc060fd74730b940dc84d900af367f7e60c40645255ff2fd329cd5 (-0x6dddc4695a1275e1aa8e9bfc24adb5c65e04fd51a6dc27387bc0e4cd50198e9) 0xadeb722d952b2f815e1cb1190af75c8692d009eec2c062a169febdc399800972 0x3469ffc22feaad180b15c6302e0d0eaa50f3d75daf8122d614386616a0c7bef3;
  SDbl 0x2996a1c6220594cd6f6183aad28c7029811514312fec95715b60c6fece2e6ed6 0xe32c0dcf019b513691956f136e044d8477efd9b3ff6a1fcf6d8645f34906aba4 0x974b2c922e1f6105dc34c324d85a30495df43ae2c51e5b94f94a4f36c86e12bf (-0x4b1857c62c6dca0ffee769c60129c675f4beac824dd3339e39f3fed88fa4eea4) 0x6c19873781210cb50cfe2c4fefe92c4e8c5ec22b6cc71234bc8ebd1375ffc26 (-0x16ffcfdade33f9697e2c1c5da6ca520d471880fc4ac4e441976f60f42231aaf6);
  SDbl 0xf8f2b2f02195289b5670b8e30c386df12d1c3f619927ad0d05d4d1b17d45093d 0x7cf97595570230759c34ec27b8e787c0570e9469e3c17a8077ddafe0ff14082c 0x76ba24b1265fc5bcaa15946e06dfb18a1f96eca2a146e6354d16cdc1224fcfe1 (-0x13684f43af06a729b8ee033169639ef9ce922fa351ffdce72a849bfbdce6ed9d9) 0xf21720c8fe3a6d6923f03395c4e3a2250fdeb7f03bcae88b74095dca03ea06eb 0x6361e6bb31d8632d71c5ebc0d30446811d6b9dc96a42366a7f4d4fd31cd5b708;
  SDbl 0xb767a06f5b569e2cac8923e901f4d66852bc0b84017e1f2137ae127c13891f8 0xe7048a193134a2491b29c6242e41993483190b35fa19eaa9cd7f75e6995a45a9 0x86dd0d1a7f077e084829454bbad584efd1f50f4efc0d9df128537dce0cee889b (-0xac65f30b9c9ce4c7d1e64bb725d7992db8484c1e058f838a5a9b85704b274f43) 0x83655152362209c5f82ca5a374b14223b4f2ecf8b0f523eb32138077c775c1 (-0x4bf8d894db75d1531536db0afe0c5dc831c897679ed316698dbc3dde38a496c);
  SDbl 0x6d55830cef4f323150244c98b54c8b6ff10af7831ea775ded9dcd5372c5cd0cd 0xa556099a9379125ac224f7e6a38946722851be986d8d780d75946f0080bc530b 0x66475c72f7a3276f9dada2c02b2b8805d77473870789cb3e8d5f8d9afabaa07d (-0x1fe393de5146f0f7816195fd7d1eafa834d3d62999316f88cf0a435b69c110b8e) 0x2eb1ee297c2887112ba6cd42d52862ec744fee0feea26cd01b34774a7dcb1a34 0x1c0d3d464c95852c8a75c9f33cc33e15917431cf33368a272f62fcbea3458092;
  SAdd false 0x1de8a6f771155e7cf1ef64109b4d83ff9e29bfd2888ad2e9da6f5b5ec4ba06e4 0x8ce0b606ee5b706efa06f5a936fdb09f5fa935200b7045d45277339e3061494d 0xbcff57936fedd89232051016b941c9d57a2abe4e2744bbed7cd21e1266882cad (-0xd6295cf6acf7079424eb2a3d179feedac7bb3dbe1fa90bc7cef5402f7b5048e) 0x37e894320802d39d18129db3577ddfabb3ddd236cb7d4ca9efd5efcc0ea960f 0x2db84bf3290b80238203c896713771f91b6e85b40f66456c68a46dd21e7abf2;
  SDbl 0x9eff4914dad096f4d5ff3445e1d19e922ace0d21050bb4a76a4a8534baa190d6 0xbef72c70cdebd020da67010346cb772d444a19a7f250744b94591f1aae31b224 0x8359270bad75097d7e845de5b5cbfcde8f83f1f46dd8c7d49fbbe3179db72ae6 0x2307baefc38b8699a2d2101eb75bdeb4de3b67f6e02ed361b0da1ec507db23c 0x62c01cc8cd426929a2e2e375a7dfc12c79dfaf102dd264790b5f26f897d6d1da (-0x1f1bcfc1e6e1fd46132d12a71069e73d78cc323f319a5374067993156f5914b3);
  SDbl 0xc476249bcfcf0a5160bb1106be8703f556b914f63a03a0af0eebf592a2b9edf9 0xa1379c5ac1cd95e795b2257376247bee643a30a682bf07faa46175a69c8c5444 0xf213af730938b05bc2abf4c382795d66f92a9ba312da51345a16d0842c69d3d3 (-0xe1c1be50bc5e887d31c0007dd61dc6bd43aa802458bcf110049eeff932f1103f) 0x96c51e94f1d9ea86994b64eda905b4b115e174425120fba6c4ebd19f05d6bc5b 0x16d464de6daa6b08f94320bfbe3aa8ba87e2ebe2c2dcd9a6a23c1db7f1804fd9;
  SAdd true 0xd647904a9a6cfada65de8d8e5419d09144a64d91f530f58e32847b521e6e58aa 0x1a5a3d384dd867643f166c66b6618128ac5ce5750daefd3adaf0da53a4082980 0x7bab9f3f82233e222424fb932e03e7007d0bd28f2273966e6f99a9bb96734e33 (-0x5c72f33c3d37d991b75c921c3dcdd3396a0d1a4ab378d33bcfa4333c843c8231) 0xb35bb93ec83f988f4e1233bc6c2ef705a66b8ab8b60d72228dda60434b13a1a7 0x70e2c0f0733b54c7ac77806a183fb1c419345a07f61c931c68ccab23f42d5bde;
  SDbl 0x22631ee59bb26984b2d97b24caf262961b3d047f0b413955011f38af7eff1f9 0x9452c72061f6275c9233d61c36f686143591a89de5fa463074015fce145f85d2 0x733c6490fc2eef65c41afbf01051468df03ccbc99ffa4d93f6457799410635d9 (-0x60fc70d6287bee50e4c163a332478685af8ccd6664528033965d21256956539) 0x49e7a95eb4ae908840c6b6412f6e57d3835cbafa4b031a2a0982d2acb14a1 (-0x10623c26bd7902b202209c0d67c5a0150ce5e994593d5fb2e8800fb57167e32);
  SDbl 0x529da5aa1c11245ad7fa42512332550b737ef6774bb8c1981212e3a368e54b35 0x1ab61250ee03548b2e22bbb892568b80e056aa148a362d99a676a4c30fec0c13 0x21bc27c56f73f8e4c3b222446f9e84a5afab3144b145614446378457a3a3a08f (-0xb76ed56053a28adaf6590d8c7638264081b575c36d51dd56ecd53b30fee9d111) 0x1aa95f35b27f80bddefde0585b65106b253538679de64ca124ac866685c0febe 0x273f15b84d8c091d0eb8546930ad8d36e521c5ec46604923076541fca43bacdd;
  SDbl 0xe58f77e6be72730d23589b460daf6d6d26d30cb9d6b3885964e161bddb28f002 0x8843e9eaf6be7f4bbb2c18440fbc02e2d7780c6f083a918afbe1ec28febd0fef 0x1468c89b1d955130ad4703fb350c089c68f6bec5e81795a92aa2318dd6077c1a 0x3423f752232eb098d67fc7492f629c75311c0a87b9d8a29855b7d2d94682b9fc 0xcdd9fceaca83d7a5feb8e2d8dae9f9088f5bad04c90ead1179583d8bd0f16811 (-0x623d476849402410ee417823f83ac58a43fd3ff52e2765721f03d708e6b49b9f);
  SDbl 0x966e12715f2a7e55333bccb7205f49164ec2d44fd8f4f3ec17b8d4fabf39014c 0x64bda1a0bfd977357c6f9d3b4cc00013ee9245e71ea7ecee79c843a9f6166251 0x487140f708df760bfd19dbc58664397c2f42f25e910a4c0745a973b2534e7c66 (-0xc19c57978c6fceef8b259aeb87e650af77eb659cc2bc2b0a3a946762cf524010) 0x58652cf10eace5189897139fb1ce35b9a3444d3fbc63d50577f996eaf7b6d39f 0x14dff49dcd7d98c5f64bb4134e3e0ba11b420dc9bd4f219bf52b738f66fecf98;
  SAdd false 0xd466e7eea0f14b77392be6567af0450ab278034311b32083d7edff9f04172031 0x7891b434dbc95b2798cf4a105c2e1d0f30b149044a78789c92c11a54103092c9 0xa6aaef5ed8f266d0e5040ac192a911e35843749a1d31855710f34ef74f2c03c2 (-0x29764013f7988a1b42b08f4314f1e59c5f9b863ee410e90ea5f143686ecab59d) 0xb03a99818f1303aa44cd44c4c8d520d96d56ff145d77c7f66e3d4d90e4b92080 (-0x107397d8f6fd893425015612aa1517d12c72f82500e20c57e1987fdfddab38e0);
  SDbl 0x3270d23f9f6f6b2e82bbfee8df369be7528e9dae68311cf937e03f1c7342ad9a 0xe4aa59a3156d3536afe4af26f7393ac004b257e5f87f94fca42a3d8d9e5823a3 0x4ceb415261d9c0849f2fbf291fbb5c975f456ceb3cd1bf91000d9df4045911d6 (-0x68ad16c832d61b680380b5b47057c8a30993a8081b75bb8bcfba24a57b7313f8) 0x9f043d9888fbc98244e37acd39b3097c78c8885d9858a06943fb32f6997c891 (-0x154c73df11df283f248cee0660e3437e6841a811fb68d7d09b86134725967544);
  SDbl 0xb063f34739fa198ec573cd993c3b08b0616b48856239c5c1683cde04dd279153 0x79efa93043120f90494292af37b4d463d0e203bb97fe152536f950ec341929c6 0xc3def78903a9ca25c7e2061db53fc005f44a298f144bffe7f064077e8de71df4 (-0x1fac0191bc196ac71c2668ed500ae100aeb94a8e300e9f294b3261e1b78180f6c) 0x7989958879889bfe8fd51a05270c38e3efb0201bad3071d3a80ff66889005023 0x498a04ee5dffcbd6d20014a9e7fc983584079270de5acfa5d0c8652f9aa40023;
  SAdd false 0x90562a7dcc004b8323516ed0ddcf5327b5cd676e46a9dbae1a55009eccf272e1 0xf087cc445214c84c6e628b0c8778e02d1ca9d1d70a1013b095b2ee98202c748b 0x3cc7603693fdebaf158b78016bb318778ea36ed7848971e6889961ec5952acbd (-0x28202172d5a19b0745c4cb667b8373ffda644f7eaf4b93d94a2b8ae4858e6c76) 0x51610cce6a73f6b5a1ec8c175c3d742c4dda816f50cc435aa1436a9d8aa0e957 (-0x42dd7e869097db8b89c4e71736474efc2d04b4505651139107b2c3f25a4bc42a);
  SDbl 0x29a764fa8050a0ab1671ba22d6359e3f3b85656e2e61b579f442563982554b34 0xcffd46e0a8669d0b7d8e2b5184a52bfb7cdc7e6d7913552dcad58d605db1e94c 0x29baa65d48373056dde26be9dfbd55b6fc7b1e182b0fc0b3e9750292b3358b5b (-0x292355c3a60f035b462a912d662eeda19f6dc8d4b888cd4b8d9337b1a55cc2060) 0x6c70bcd2a88f1d37240d9940a125339588aa454a319b166748e409cc76b4fd2 0x54b768ff32cc01f24d3556e634326ab93479f6f89ff35305f0756c46aed7a4c;
  SDbl 0xe51e97a20de2b5070cfb1d9ab1d591513ca9cfe7cdea8707e4d37932f16376cc 0x849d1ca1e4075cb3341bd0f5047cd26ebab0b3aa50b00f00b4e585147f57c073 0x8a6abe15ff131d5cf1e23cfb1e0ef566842ee9acac657230b235806fab958be7 (-0x1b040d2ce3e34fcca4842df635d53777ebfb5017e98d83989f0d6e7e92115b15b) 0xcd0fbef09db32ae8adcfb61de2bed4a9157d27aa8ba9aacae184f3d409d2e07b 0x437607b4cc56a351505181a361f915e719818c89fb63f703e121855b8b338456;
  SAdd false 0x23253e1f5350d8c1b23c4856fb45213caaa0a4100329668b49f4c6483784a1ad 0xf53f6a5a854b5283c8631b939dfc904a6e34f83696632bf95561b488a8fb4865 0xedb942327cdaee5a428e32391e9a7038112e5b57cae40092a68ec4c9e8e975af (-0xb3c7f3e8ac76559020ee776fd03af092d5fb404484174f2803633ea55e62d4c) 0x4d3346799bc953baa266dc483cd89869f31d4e22967046a2f1cafa6e51c6eb6 (-0xf76936aa0547e8bf8da225388b3a0c1bb7273e0dd8d5d07e6d4987f58b6ede0);
  SDbl 0xaf6ce7d8a5d5d82b9bbdd0f6c3d2b3772a67e95df6488775b0598381bc11b3b1 0x998b830635c9c3503510b648f787832510abb525a0d292644bc93ea7904ae6ce 0xd5eb7d9f74611ad4f0186ac83b0eb1ebc871eeb123d92ff82f57720bbb33b984 (-0x17b09c86e3f44ec6ec1b5728d2f159f737358f82db615dd72f24ed83067108e76) 0x7836134f1bb50fe94fd6d3b405118c22e53ac99672995028739268318e9e7737 0x3ed6fe1569b1eabb4d4754432d4c18ab12be6eb1d468a86806abb477dee620cc;
  SDbl 0x92675b222a19b55b157a9ff6f62cdd7b0006cacf10c370f7000df1e2f59baf4f 0x3a9abdbf72cf017b6cb204f9709aa7054696e02a6f58d10889153ad1a814989e 0x74196274571b78aef3dad301b29dc279ccfe871a0c3c891c4091d9c02df2f835 (-0x1f9ad4d78c9e43fc21cbc529229a6118efe3a80453ea15541b706cf591da8e2f) 0x53ba0dadc1ae8fb7122916672d4ac6f6efddea8cee2bc9c2a00a1669d0f34bd9 0x364ba52e32ae7e7574b40fb6cffeb64f78614440bcc2ec652a011af6d9e1c0e9;
  SAdd false 0x412bff5d7dbed31d285976a29705694003e41ccd781d5db6ef5abe8099eaa7ee 0x52131f780126e91384f0ae0203daed0cdc9c88da43b510426874f54d7b7c2f78 0x27ffd245288b30bfc91795a7e47c6914b5b230f7c7f57e3f2e1f8327c5233e24 (-0x1feb2ba1e1f9da79a469a4328d9ca8359c5ed2d90b1056c7a56e53dec3455f4) 0x10975f3d5295e733cfdc457a4d4c32393167c6aeefe792be5314ebd66d9cdb99 (-0x5f99971c7b770431b66d1a8d566a311f5b21ebdd705c318d8bb1e38c1ef54fb);
  SDbl 0x9d1be748ec373bbb1f784a5b3af6486ba0d78ed2195442cce013742c971f51bd 0xd8c3c459cc3c198b944054ed34b9082dac130ce71d14e983bc2f32d4fee9d8c 0x900b641b0a1775610663ed31e15ee973bffae7dd7a3feaa0023a109d67b2a75d (-0x1dd8449e29991dfd343d038c747a70a3758e5a2157aa0a8a73dbb18ee8ecb06b) 0x606b3cba6c7d7eb5f162db620b2aeff38e2cafc05a5dde6e7c91868e6b07d6f3 0x2a0e3179441d1850e32c7498887e949b29a8f457fb747f09abb408765a917e45;
  SDbl 0x3cf5b8833b8c7dd264a07ab18713c12cdefb3800213cb9e5e950fd72e53a6590 0x1cec372790c3efe51b12f22205ed1c714e35fc13b546daa9f643a1cfcd19beec 0xd79778c77820e175d738b7d010d0d2de8fc18071fbebfd75c24f6be2ff91f220 0x42733b8b74c2134acdbcc57f3c0cc21e0e90088081b44642b30e8a7d529f630d 0xe841a58429ad91baafbf2dc3d0db057a675ba2b7391cf3871c6ece49f6c0904 (-0x3a940bcf11b27a0eb94972c7b4fdcee28f9676d565bbeb678357f56bc8dc083);
  SAdd true 0xf053f9363fa6d174563c2b21e63169262da0e98499413b6bdeac993c5e009118 0xe41852c563fc0178719d9017e3505d3915dc0750745b0bcf6616ba21daa59e97 0x2e8ee37d5ca9ad55af51191fbdd506f3c392c7e565be8883d41c41946f5bce8f 0x14821a071d4782d46457bddd4c982bf7ad4c6595d01589e1747749a369e5e6f8 0xe19d8ed224be31098587218e0b19cbc82c117e60d76cb553553d83ace8cfa00a (-0xbafaaf15c0dab4d4f09f7ced25b9bd23226dd80f0c7f8acae5b095f648456c49);
  SDbl 0xe500589d4e2fd7cc1cd5961db24bcda00cae2593d92ee2934fff5602d0001633 0xd8fa9fdec4b282a056ba6499699e0dec73720c31656a146203e2ea9b71df5de8 0x739910a115076ab7b01514feae83439ee031428b106918951cb8483cdb8364 (-0x20e663e060021073a18c7b7ddff7199de7bc73b3d8751f360b50bbda58f66a9ca) 0xccd99e8a5967bd0767ea10381281722d28e3756be8de1cb4248b9e00453dcced 0x9f194e1608971de8f4e240ad4a36da0d37a2e9c722f98ad5557b52893296516;
  SDbl 0xb1a9ec2f99acd4adf79b6162df75fe18176486b02a2cc30698ee7764f4ead9f6 0xe05f145b9cb71843fbe4acf243d3434ed329a43da1bedfaef1bdceb788b69894 0x26af111394454f959acdfb4ce1ae3a49898eecd6d7ad819dd34ac2b1cf31798d (-0x2271736516fc377f6117cccc3e5b75b23055b307c59c86adb83f793b14788e573) 0x7b4c6963fe8e19ddce7ac4fcef1011f851c9952bb7e11de6fbae20ce4d2a5c00 (-0x5215cad382ba47b20aca384a565948ea3e49a4b6a15b97890329ed3ff2cd5c7);
  SAdd false 0x72e7203a1104ecb8c1dee835cb2bf2d05c551ad69bb540f58ab495da92b39bc4 0xcc307b9701ecce9740a2a4db68dbf50ff333b8b4fa79e2811d9629afebb2877c 0xbbfe246e5ea39af25e27ef5aa8ff45785260f99faec8eb392cf5b3a4a70173d4 (-0x4deb7dae5601b263406336cc6c7c2ca4f02a198f361ff8e4bc6cd1325523e23a) 0x3392a95f17945483cc37d75323b924a89ca6b76a856335cae3c57071e4d6a6c7 0x90ef89dd66365628ea3a80f3e7d8302ff843a2ae353468cccd1de6924f44f01;
  SDbl 0x4c2f1ae43125fd3128f0f29756e0e153a889fe67ad64266e64bd173dbcb0a882 0x2ace75aea5c387b771e6d41394aab97b1d7eeb16cc3b3c634acf971acafdab33 0xa5d9abc92ecd56cfcbf0562545762e3fba3a2dff6777c62ef89228860e08865d (-0x178b3d60589cb51cdb15110e3c178c929af9d370ff02201681226ff3f2093d723) 0x16ac00a27677c04deb5c6542b546f3b88db08233cfd0aa8af07c4f1f90b7d827 0x3006cbb40fee8a89fbfd4e2a436b616be4d48281eb4aa07b512c34775a72351f;
  SDbl 0xe5685e3f09a925fa4dfb1139d8f41097f7e4c9a039ac69e6748779d8d097ad14 0x196329c2e32b305b0bebe28dbc6d9a53352e0e69861e45b951987c863f93a921 0x62cbb7bf95ae710c9542526637b92d48f6fff09c2587b055f6964708101afaa1 0x113c578f3601583886bf81c977fed01aa06a862ab513fddc69cba266d9b3cd3f0 0xcd93e32a4ac6b528ef2b14ddf221e2a11c2559c8e06e2ae43097ddddb2f2f5f7 0xf9c14ea7c65f1826744aae5dfdfe6931e19b70edd644d11df155b56bdd72d96;
  SAdd false 0xcdee3e99e58910e8fc01b99e9c0b6d07d8215a638de2b9203e2c9c6e6236d1ce 0x8d68c2b27e0e7252d0b06da498001145c9fd9f06a8e73ab1c04d4d2890781b28 0xfbae0d5a229a6efc74e7f2565283fa695d89398eaaeb29e117756fed271376a0 0x146ab5e65359b5d586d97cd0add553d729135cab49bc63ec318a8c7450b0af2a 0xa5a76dfb94baa59eb95f8e4ddf8376cf9a0dfd627c268c553ff2add11c7e374c (-0x5d54750b8587ff53fcddcb4fb2e1b47e38de4b802b079dcdd6121b8a746c161d);
  SDbl 0x99299dc001e083bdc2dfa7d3a8d8329db60accfd20e1c6b9d46b190a4e190cfa 0xecdec990a1f4f747f2a53c50b0666ea95fa4d7cfc73a7476df4d409eec08e926 0xfb077cd3dce70c3fca6adbc99230ec3789e542f6ddcffaafe66090529b2d513e 0x42d22bdd205333d670bd6e26e59d8bbb3d52fa1455344002eff2d0c298c1b23d 0x5ba2c553c696cf06feae74deaf08da056d98c631526061be609abd0c2b7cbb52 (-0x391d0ed5119425433364d8dbc32c5b8227617a2ad42fc428bd67c80c86e02616);
  SDbl 0xef9d1d34dccf1e4aa204a849e3fa0a48f56127f4bf22085c5f2a21e02a025b29 0x7de226e4b89e8a21583b46423fc4af516cb8b17a9a4d5213654c1accb4b909a5 0xee721854469398e6ea8906f9078dcf9c7546e7aaaca685d367cef77bc5b2bb8b (-0xbb9675054b5f490b5c775e30c92173db5755d4744350a4795e28bd65251b84f3) 0xe046bcf66abd52824c42991bd555cd2e40e7d57476f3bd5ca5edbc5b8bb0af60 0x67e1f97833a12eef9a3f5b8a85510271c8adfa204260a1a656fa044f37a06620;
  SDbl 0x7e32aa294acb84ca053d8b0f30e5cce65c9c9bb39e5f257852073582446e9331 0x8d7dee148192963101f07b2462bf4d97be3b33781abd94d50ebe3e3754a0cc2d 0x88ced9502d9952a8bd3f85d0a1f8913152e225fdfe3f79b0bef70d3f78a6d349 0x3162cc34f1dbfd913fe4213c2f58330cc045596ff98887a4239d1800f5439fd2 0x3e35e987cd1255bde08c18e73950f8fff333dfc3edf3da2b0d1dbe17e3559016 (-0x7b1c2d66ab732bd21525d2eabae37cea71b3389238e7f284511c3b85b261d24);
  SDbl 0xe6ef50c3ebbf71985cb026eef9d535d168d5185e2431d40ce835cfe831dedb5d 0x5dfd8bcb390304f06137012636c2c68a30757b5a158c2a343bd69f6802e3ba4d 0xda380ab21b21040258b50df827216831b2bfb2fc4bb484074beccea0d3539010 0xc379469b441576c514a34e27b486945e7a1a66cea20157f1591fde6adf6d6ae 0xd052e4d8c33c1db54a0506571fc4de324dfae8e7a8b5e6e4206c0b4be0e112de 0x2ad9c0263db59f44974a9b49b06305a15c5a4b21dad88dc539496a417bc044f9;
  SAdd true 0x850e05cfa3521a0ced6cb69b70f9daa5ebb21b49fab7f54af468e131a272399f 0x104f3b3512f44eb30fb0c86886a1bb16443944fd3179f0cb0d306d2bc768e4ba 0xc5a54cc037056ba561eee9418358e741fab072d03b9cff2a19d11216c4bb49a0 (-0x1676e93b0883065fb5398719b8d25455d2f770605ee2d4af2ab9ee1e52fe9b36) 0x452792cea7b283a5abcbbaf6866840556efce1fec6b5602f7119015a6304e30d 0x285fd129fb7089d9e8543c0ce44941f139424468117fbf4db6edf8132bc07863;
  SDbl 0x8422cd5bc1c6f0250727611f3e7d27caba73c2fc3d1d32297228d935680c3e65 0xdc4593c1ee999c43f13dd541e6aadfc720caf0c0fc7f5dd53e0af46b3d1cf1f5 0xad500def0f2b8c82ca81c62d57305f42518603e4add4ed110878d494a1acd006 0xc8ea34631fe802c2782d01e37fa75be37e573265f1db29606f32c44c9401ed29 0x4433e88215249e3c0112b9525cb15e051dc473c1a7e075b2e3b8cba8d341a790 (-0x6946bffe2d1aa685c36064ef3189c76fc865025612f2e86b373cf4c1f7966413);
  SDbl 0x4da7e5819184f6e195dffae9ccba38df3c09ccccbfc08bf28bd470dcb1cc0e81 0x104ea553467f97d69941537c8578e109509130e803154d75cdeeccb37ddea235 0x7261c936876d573d807629778e8bdcd592783132b1eb94cd1d64400f99407186 (-0x1cf717d081387d5f391ce6cb2fd8fd1dcb5741b4aa0e6a1ef8afba0b5efa4b0a4) 0x178e6e2d45e55616f0c7e777c81acc949f9aafe7ae5ac4cd8f77191c77ae291e 0x3ddf0aa82f46762a93f8553a4c8fe0102673468f023a6f90846a00cc272a91cc;
  SDbl 0x4fe4592a14341759e40808045fa5d4c7063bf13cc30d96c23736e6f260b6ca77 0xdf0b7ffe2805d8e088b9d81985a5685e747d9c8f8c8f6f595b4dafa686b5ebae 0x1ec645f1dc27611e8f39fb1ab7d4cc00e7f603851698f53949b8be99f4475299 0x4446a191360f062b573d50f9ba471bc2ff914f7d8beeaeaa63199bf25e805a54 0x18eebab7036926e0f130a26dde8032222215eecf4b4d234ff90911b3c11f2cc7 (-0x4084afaf5fa014115dcb075c060533f2b17a54a5a6791623408e8e65da659aa2);
  SAdd true 0x4c83924df467223e5d90de93918584acecfdac74364d2e07af02b8227fd947b3 0x175160a0f328cf6748f81ebe932984c312b954f0a0b128630bcab5c3022f2d05 0xbb34f0d8207400cf59bddc3f8383bb3423f274a2c726d11805d41c48238f01a2 (-0x337d90fcc60e18c64652a8782c55c2b669d46c747b254e73f7b55e00dd862d74) 0x16de627d6f60c2e21531085e7ac587751dc0f3ff57327e4a730501d880a6c651 0x3bb1e7b2eba2074c8e9eb995a3b55cc0a48c76aa8ac12ba23bcf0dcb9a7d2510;
  SDbl 0x3116f02d61271f81a69f799cb9b302fb99c99442c0f2be8af6b8488e39f03e92 0x4ff1dba16123bc5ff7429eb2efe39d407b75e58eb5e6ac85e9e8a42e69e91687 0x966143f22c09f5ac730b9f1722852b4f43f080db75920b1a9d158e72cf058e2f 0x416ca4e0633aeeb8a158ee9397b3b415e3040ce887a3f10b6b24c8f3e399f180 0x969c9ff91bc94fd45811ccea14472c42f02cfc2e83be3fb00c9a86a093c654d (-0xadbca762ef5c196bc50fd7a4fc535ce6526ba5fbea1332e6d409f8002f6c80b);
  SDbl 0x17161d36970a0b6ad9562e6706282f11ead5fe764759dc4b92ceca12cb555fab 0x232e303ce3e4f1650ed0018df39d01b332eb49682a3699f2a03feb3209c8f85c 0x2688eca8c61e126b23719358eb8ea4a52a1dd30e326a0ef19fc2cc5fe90f26c4 (-0x2fc608e7670bfa2b9678ab68c50ad34e91bf091d2c6c95827e7dab2760fc633a) 0x214fb28d9f028cc5b4ae02100391319484c308f11487d347c616151004cc931 0x40972527c068f130fe6379951e004fa75bad23a3f4dc79af9cfb2f67a27993a;
  SDbl 0xf3e8e7e77f125ea3463d6ea47457caa56f2302686ade21e6301c376fba026e0c 0xfbbfbe087f4eb1bf440bd9b8b759f4665779287eb6267ff50367f9420621138d 0x87b186a56c7ae866f966d6cd5dbe8bb44900da1e07a9d0259caceae9fd751e07 0x3aed12b4518a242dc8e3c724e1f5f0690f543938470a889d8da9edb2204b10cd 0xe863fc27894ac5c6c19763ce92b68886b3037d331108c582d0bbb14ec234b3b5 (-0xce5731b0c12ad6b5e9050f30a0f3f899c6ddccc41f7672aaacc573d7994966e9);
  SDbl 0x319c2b10b587dc505b93591e9a6b2139c4834ca186d46dbfe9fb9fbc07c6b8b6 0x10f1f7678b9e980694438d5305527a30dbd645ace03a00fe79c5d47669c5e75c 0x2bc2f68dcfc1a30ba828b5ed79bcd70476ec6f0f2606bd2162473814fa85106d (-0x2b21d273941451dd96e43f3d7f13badd5af39ae326ab6f7914453d6759afc0efc) 0x99d27c0f2b705bf0d6cf7e4100ac0ebd8e2d03061f43ab8ba23ef4e4339ed12 0x2d809fe9e9f36129d5a22a2ffeb0d0a0e4557d730911267934085226c27f8b9e;
  SAdd true 0x3e869c8b4c8303495ff4041e0c58718dfdf4c0f77c2aa16c3c3a8b5530ade50e 0xa04ff51b1436843094dd3ef831389c6e2fa65eec5873cf20646cd9750adc2ab9 0x5f2184417542c4c7bb17ac0d677b9cf3cecedc1a5fdf6986fcb578edcdd602d8 0x842d13e1dc4ac26b0e59ee223a8b29ad4e1931ef74c4ea44724858b23896d59 0xf457a9bc9e31a669e52cb7901df8a337f47889d4e7644e7c1bbf82406107a18 (-0x2304264fb38ddf008d0537554d45d94cc1cc69739952dc58a4185d6988520ca5);
  SDbl 0xe60e27efedb58847f50b83798badce71ae2196949e3b716fcda82df4d13d0a4e 0xd4749cf813edb1b6b5821e28221b289e20f6d7338cf16c44adb4926a785184f7 0x470bc834b44b6390a92695314f672eeac9aa5fbf351412c5d41722ce231b2fe3 (-0x8231631304bf1bfbcbb86105d18f598c0a1861d9929abafd19394a027646ee90) 0xcebd708c52589c938bbc1c289b9693ee417a8583b7a28b39072e7b434873aaa5 (-0x2edbd0f45ee6ab3b6ac248c41caa4b0215f2ae51c3935abec9e0a67b0100e261);
  SDbl 0xff93a7128d706793b000c959187d3af454371d953a6592ee2fb6804baa994c06 0x6c7540814c334fead308685c1e3369949938d25d82996340bb7ed44677fdfecb 0x3b4c42c7c6601dae99a297b6449cc14aa2ee05ad348dbd41b64b533de825a69 (-0x183189e31723e29986c34f335389a9fed3c5dd23ab3ecf1bd462a0a2196f213b4) 0xff277c0141450f514699053143863a411b49321fde5ae45e16d778d37ae17895 0x67d3589befb5fc6a6c95f2cd77b991495f533d4ffaf354da6f34bb28cb875544;
  SDbl 0x6a796d1312e55446c5240248a8c0b79e65f07b3438b4ed69d6f784b0bac74b68 0xc974bc1aa0835df711063b58cfda77330e5476fa91d769985b32eee340c4f742 0x8be82c93f0d3b676e2dad8fb3fe2ce6242e4b104aa06049ae089504153a99999 (-0x86c435e51d76a12d03222b111e931266183209c5346bd0970822873b4fa09c68) 0x2c48c7ec426fce03a1cbcf9db9996c05f973755dc876461d8f6f73b6bedada98 (-0x26ade58ec483a055b4021f083f0dc2e1934036b1353adbb0efa16b0557b33ea6);
  SDbl 0x81b8d780cbb11dc047e6a985c57f93f72dbe1a846d63202dc43f0400f2f9f148 0x54ffff4da2b7dee6251f2345e034f7ee291dca03f3c5da5953ce226531644da5 0xfd2acde581df308dae0b41b9c741fa534320256b5876aa3bfe4ac1635ce3c9ad (-0x14dcf879dd5f3b60d76b1c7bae12e183fed7e68c4519dad09a40b73ecce993107) 0x41bbcea68d92b42ced999f5fdfb8afec3c0cf64826731a0f529c3ff8517597e9 0x3b02e913dbd491f94cf64a193f912ed2f47bb3e5727c436e6088185af9fbe21e;
  SDbl 0xe984626e441435e96c5b6268bdffd3fe0aea968e7a18db5c1671790ac4259bcd 0xd34b04de7e6c726ecbeaad19e53e8c8c1c6fcc29f971ccf693381b6ea60842ab 0x15f24a0b5c105268adb11b3c9a899a5b54cab6411f4ea1cc438f5a2d84bb2289 0x17932c303c730940db097b812de8036aab24d879aaa26d5659c80f1dbf05387f6 0xd5023fa3347dda3bc133bb67765814dcf29e611abd3ef642fd58ce1cb8bcfbcc (-0x7333974f47cff8fbdbb7da23243ecf988687a9a08c162f90d7f7f2b66fdd3bfc);
  SAdd false 0xdf957525ea1e7f16ff7a42bf9f06326417f5af5a0c505eb5555f27ffd00b9df1 0xbd095503b068a4fd963a526b3fa4911c2dfe79506de272bb72a3e405ce3177cb 0x75db4046921af99752901ffa19fb2c6cead0449608f9bdfa211b3df4103cdf1 (-0x8c32bd2b8ee570b2630af14e54613cd5bc36c789c13aaa4ab94a213d5d176b86) 0xc345b95a64e50fe1c9d8faa101d68c9bd7c58496cfca9aa08a014fb1135eb25c 0x1370369a58778b0b3e9e2f1803b2da8b731b08d8a40d847b624197ca227e939a;
  SDbl 0x1b1c3c0affcbbb6cbda543cca1594ed680f0600cfd6fdb80deb6c20caf4aaba4 0x868b25ff85b85e8668468e6c5f9d132df0e685a12aa67c135224ae7cafc8cdb2 0xaf81be716f402fb82db689deed29802375805f5700ea39612dd36b70ab07f821 (-0x1a134f3b05e8d6c298f9c7037fb985e4c0734dbcb7633571fb2664e699806c1e0) 0x2def7c785510e41f078859fa171ebd3c872f1bde2fe6797a710a2b666473c38 0x5c5518a85207335882e865a1aaad3a3e3723a4a339107a376a2fa7445261b0e;
  SDbl 0x63b58242e0b33c0f41cb993efd3ee729210e5a4fd6c5ffb560263a419940e51c 0xa328aea7ffc3cb832ce79f007df9aece9c274b55e4b8b53c4e777c98b439af93 0x4de1e5715bac10d7258035fb626edd2b57aea994bbcc9bfbbe5d0d20ad5ff913 (-0x4b6aacdf25e1bf430d49e1ad38d69e95607796f4b1c84c13b2c6e874f7f5a1ef) 0x26d5e371557a3f06ba955ebc98b694ce7f84201083d0265857ed2f0b40c02fe7 (-0xb2535ca4a9694ddf6d6eebffdf8ef8fd114ad7fa88e4515877d050c3ff11530);
  SAdd false 0x97f3aa9f39508c00a320722da59d41a447a09699b60c77951938a0fa8dafb6c2 0x1a47631eba3ba10219ce6e584b1f217005add792aa24da454e9757cfe5cc92ed 0xa0a96b9fdac2e93d275d1e7825f39fcad453fea9b7d27ec92ee06701b9c9ab94 (-0x42b5f61e1968da9b76bc5d1e4016bd67306baa9e55b326e5494cc9d7e592531c) 0x5a315b358bcd0a6f4e46b9dbb9dc340a4ddd25ef33ba58eb877a9f1cb99e4c43 0x513f2ca3bb4bcb7989c9cf48977429a3ec132991c1300aa6a97de1ba62a1eadb;
  SDbl 0xf66433ebd9b233d7e1ce7fcaeca0dd6a061693cb6645c25f1d60904787fa79 0xe87c4f9b8bfb34ccc46b819f944f841a587c0db9ea569981519bde5dd350a6f2 0x38fffc51dafee89b6127b63d89820df510b0c784fe64da99369912a54976e1ca (-0x6e278bec5cc8f9690cb3cd977a739804d6ae43158dc7eea7d979a0911b7b3b0) 0xed24bb02ce511be49be52d1368c27ef3c1254f1f0c97d88f50b4603b3f9b (-0xc67791bf9dd3f3fc7a47245f01d572e5033e0ed57790c92ee64e4ccc221a45);
  SDbl 0x8483abc859ef1d9d34e5600ea0fb223bfbbd84421433cf2cca57c429e05005a3 0xd9b6ca7ce1d69a165ddfda6c4c2dc10cfd35ba3552efc9475582f0b882201945 0x31066862545188efd2d1a324242c9724ce987865a9cacb88d23c6043a437db76 (-0x23e620747d521d157302cb9925674359cd41f1ceecaf88c3a09c69a2dc01934f3) 0x44980ce023a7f314a7df0d20bf51aaf817bab1074e082e04c121245d62c1a160 0x7a571a0757d552170b0901d67d3f2af8013a8a27455b8fe4893e837a2f02719;
  SAdd false 0xfc0ddcf2097bb56649e9d0d7db361051435e17ffe050310ea18b783aa92b05f6 0x4bc4d95e61272f2ab06cade62b9837d60314ceed59b6edae9a3e5ab441bc962b 0xa65091742287e280b9bc05f59dc2ce59a17b63cd291e508a1bb420bbdcc12638 (-0xa45f5e417b8ec1c5b7468d1299749a6bda14f97a0db434a92f3add7914b14503) 0xf82b4bbdaa1cb49206093c70d2910daf4f86f3ab05bead810f1868642a619bd3 0x8bc1d925f0294e08759e5d7f119293115e7a043805cd38bddcc3dd80806b84b2;
  SDbl 0xf2f48d13c6dc4c56f8633da1218003c0b459a79aaa64442144c035cb194d1e89 0xacc27688a6f7b706098bc91ff3ad1bff7dc2802cdb14ccccdb0a90471f9bd707 0x2fedac0494b2ffc4d6853876c79b8f301c6573ad0aa50f39fc87181e1a1b46fe 0xf86747b3a79bcf7e9f0760107b31e7c26ae37badb2a6efb154bec3acbe5b39b8 0xe693445785fda33344a76715683c1df4ceb95adf1f01f9626893f7377f069e0c (-0x5c0c65bf4c10a1f32cf8cb9777ed9e9367c9ada17643ef6d99e7619d24e4150e)].
Lemma krb_pt : pmul krb_k G = A (kf krb_x) (kf krb_y) /\ xc (pmul krb_k G) = krb_x /\ yc (pmul krb_k G) = krb_y.
Proof.
  apply (replay_point krb_cert).
  - vm_compute. split; [discriminate|reflexivity].
  - vm_compute. split; [discriminate|reflexivity].
  - discriminate.
  - vm_compute. reflexivity.
  - vm_compute. reflexivity.
  - vm_compute. reflexivity.
Qed.

(** The shared point's scalar. *)
Definition ku_k : Z := 0x7c8bbcb7bb2f3e33caaa54a4db04efa7f1162535418f6ba79021a1e1dc98be84.
Definition ku_x : Z := 0xc558b44bee5301d9f52b44d939bb59584d75b9034dd6a9fc826872109a65739f.
Definition ku_y : Z := 0x3252b35b191d8ae01cd122c025204334c5eacf68a0cb4854c6a7d367ecad4de7.
Definition ku_cert : list step := [
  SDbl 0xd6a6796a27dc312621ee1d7807d53f6f50deb90e13e36666ba6451403bb1c3b0 0x56cefd60d7c87c000d58ef57fa73ba4d9c0dfa08c08a7331495c2e1da3f2bd52 0x31b7e7e6cc8189f668535ce0f8eaf1bd6de84c182f6c8e716f780d3a970a23c3 0x11d6cd80f81a9b5e9badabd304c2519d600d3f8b4fc759d131c1e2e5c0ec83c10 0xb3fabf3fdde018ae8b11c6c6c230d119ab7a3586127dbf7325ee158cbb960de0 (-0x1e380dfd5e1b5e2882e2747670d8a7457ae3f364a6717b3578c57493fb0d2b0d);
  SDbl 0x17e021789ef1ed9ec506f9ba33bba229384f476f5c75b6707bb4d0c32e74636b 0xc239507105c683242a81052ff641ed69009a084ad5cc937db21646cd34a0ced5 0xb1bf7ec4080f3c8735f1294ac0db19686bee2e96ab8c71fb7a253666cb66e009 (-0x4f09124c394fa03cef9d066ed39ebf371ee29a6771c9f23670d82169e1bc2c39) 0x23a0a3e463ffc20684142caa30690db7211c7346977c77eb50b4561c8f25ac0 (-0xa04988a7d8bd1088592011163b1877b16a3712bdbe2746cb993e93b5aac0173);
  SDbl 0x65ea2030ab7144438852944b7c35697255cfc01dfe1aba9d4fcfe4fa492035ad 0xb9c3faeb4b1610713db4333d4e860e64d4ea35d60c1c29bb675d822ded0bb916 0xc519b309ecf7269c2491d2de9accf2be0366a8a03024b3e03c286da2cfd31a3e (-0x12c8a8773f350f11e9d9e0d929a9e07f124dd891cb837406e06d0d3b579fc0e82) 0x289293856cdf92909040f1428c3d40b7bc88c227a8296c2ff05baf3a35cc3fd7 0x35e070e389d282d30ab856179080bb1ec1931edfe054b6ec202fc382f19bd34;
  SDbl 0x3cd69ab3144bad2d8d82e82f98a39c834463428456b2208fbde56366d461a775 0x35648233f554ae51bbce44ef5db3e419ea133cd248a93e2555645bbc8704fb68 0x4d7ac60f6d975ef6117bca9ce885dd6154b1870a6a651664411a9a30eca2046 (-0x136b802f76f3329dbe0315700a6e3068a4e0f0660b006431b044a43e779107703) 0xe754c6b00daa5ce53237ee442a150593b0d6763a9f6f57755458e4244e8921b 0x1f75581808aea3797fa74c3c7f3e98844bd03cec16593ad0e32270ede0de07fe;
  SDbl 0xe7898e699636224c4d62603458e31bea0b320c82b10ead86029143510cae635c 0x25d3debd0950d180a6d5c2b5817f2329791734cd03e5565ca32641e56024666c 0x92d99a70679d61efb938c406dd5cb0e10458895120e208b4d39e100303fa10a2 (-0x18a5e2cdd4bc15ac6fa5da2935a056183fe5b9eaf39a961f797fd2b7def60793) 0xd16988ed1abb4ef422a5eff217fc367d4f900df08524ed1d00b9210a968e142c 0xe13e0907dd0b7f3486d951310b7bb8f94f3af29114b0972f08830ee2d293258;
  SAdd false 0x2b73a6f8f2589c87d21d298d4b19b03e3d894ef4875c26c336b7b07155733d0d 0x8daae840b2a43ebd6b48259b69e853027d053c0f150fe10ac995c5066bdaaa5 0x80cc0a980495af87c1b8e58150da662df7dc310560bbe83a2458b9e3c73bf657 0x2324b7595cce4a047831f7b84773d7281a8d42ebb0b6f4010b27687ec76951e 0x7600e57195b5aeab812ff5534f83f83ccdfeeb5d0d60581fc5063da6ff1532f 0x4eaf1f0034eda027db04462fbdd56e2f6a0f7c0ab239bd25aacc99238db12de;
  SDbl 0x2316ac414edca8d3a12319022a05fe87bb8c9811ee7bb68f65442c64169db95b 0x82a81778d373eb3a7f09f1f531213b6f6f0b334f51351a23858ddab4a1817e91 0x45690fae01c59d443f2e4e9a57914a68632446bf2a988560bed0e457d7a8801d 0x22636a299950e5bbc9839c40e94d5ed522ed30c482682be027d6672346c3cb2e 0x4cf351bef80ebd4792587c5ebb4c9f990d23910af15c528b378ff34eb2a2d82 (-0x10b1def5a24ed6b6606ce7d6e9e14b99f2294587403af00e2a76cf2cb99da8a8);
  SDbl 0xe9f0badc32b955b894fbcc358fdcc621f5da5f6e6aa0f5032448a19d731c5f3f 0x86ba065985aab176f763d3b20ef393efb0c3c5252443ec987f564fc0813b5d4d 0x42acc8ecf1858fd0bb18497c0b5e8699572ab615149aaddc1089bea456d640dc (-0x4931a9c4a751dd1289f444ef6da2e04c163e0f20c7701584118e8b01bc3d69e6) 0xd5c816848f61472bd1d3726b4753a9dc73c76d722503b1f42aa5732c310688ee (-0x3b82633005a11893c71279218bd4d19b307a49850680dc103225a62f88baac3);
  SDbl 0xa53671e381fb87104d3535b2902034eeb06509ed839969c144959a4d17e6ca0d 0xa9005fada5801d6270aff594054aca7d7c52f40e61c17c1550cf16807d23b56d 0x33a947c235f4d7532f38ade83ab14eacccccb11f991fb387c2c62f1740a8a26d (-0x7ea6ba40165fbf9a7f829d5427ce7673238fd885ee9f0cc40df3e0d3caf0aae0) 0x6a9f3a63eed2ef8bc08779890a73e230345a4ed40858a91326313dd17ac5eb5e (-0x161ea1a9a9985ef4e2b0a57f1b890369f8eccfd0a32803a9181689753b6b6317);
  SAdd true 0xc1395541fd729de05b3779a5294f7c7440db1197cc640cd3738c3b8bc036aa36 0x6df29966734e414684b4e9eaead9b63c4f964fabfa8b3b58a5625e617031d563 0xaed43f08f72a90801e20c4ade063847d9963e5fa15f8d52111dd7ce026d0c29a (-0x593d7b7dd18dc5992d60aadd609f24922d7a96ad686cc980de6550f97814d2c9) 0x91d77f6525c611cc892f3dcb5772c880678e39ad6dba4ae43a57f4c9e0ae3c33 0x2c929c37cb10698302efdaf4feaa81dfdee6b200c1d665ea8fbf20574b917eeb;
  SDbl 0xbae48f722377acb4f24d9897fec40582bdda3e392a541c5422e472b33eeb1cb6 0x5af75fc9784dc91071981ed26b6d9ff078eab6e7bb4c59c6c04288225d6b39e 0x9f608e92d54200c36f558cf2e93727d94f34816efeda34300e821a60dbc345f 0x719b23ffe538214548a49e6de6610959e70af0ec46a53379f82be4374b2949e0 0x8870ec8237aab7281884fc22c20b78a7c805d4362e43f9e7c8c5eceb24de0d00 0x4c1dddf2bd35c2c967fd900a1b99b2a1241db650ed430e28a3b53b10aa3a68eb;
  SDbl 0xad2add8671fd70d4029e92e6d38ca1424ed72c19ff5a1bec0cc0ca757abbb1af 0x500cfd0fd4507912c1311a8f18d9de27fa6e5345cd353a4eb7a8bc7c0e15ff19 0x8a75d8b3bc3277b65bede0df077ae4b213fc8445b23096d488bd27db367685c3 0xd18e56837c8b5ad3b9d483f25f06189d83c4afb3237fb33b963d3a34c0608a7 0x7522f6959b024fa848ff61385d648d34658ef9367af6e3c7026108927cc5f0b4 (-0x324da7fa27387187951adc641cb904745b0a2aa81dbf23e64f9267a9747fa1c9);
  SDbl 0xb23c17c70cc286e41ba1267f962e725ad9fe65bd683be619099c120a8c376a9e 0x60d3b9b9626579eaf77b30bcbb53aa9ef60e3a322280f728b030f3ae0b18c3a 0xa645af3f5567bfea030724c8c3d2680a7d6f4ad3364e57b2b3d8a6d32a89c685 0x75b485d8b09c1e875ca3e000ed1209d121a01829aec2504990bb21df9a09d89c 0x7c179f2c71597d00ae000e242b8066502fc7f8a0b5edd4ebe1a5533f309250e8 0x33853353e1de1b48652f63785d82ed056973db1d660f11b189e0098c238810a6;
  SAdd true 0x4e1f21e1a4066bb0694f33294c0eca53eb5cc9f818cd1b6a64c9681962629f3 0x901b63e2dd33966f06459a4f1da3ef623ba0391ededcfcde0e67c19588d69a61 0x27c1c054b946970273637661e4d5743a74cf8f91452ee2af0d969262a61172b 0xda5550a0686f84fe8a1f50c7443f14036267399ef56fffe256a0309b78d744 0x17d6fc6ed0ec92c7c9f758862138b6764380fef68ac8c99acd4c9a5dd0deb9 (-0x2a211a42447fdd042a76537198a84ee658685ce6a1840c4fba277992cda744b);
  SDbl 0xdfcd82e7070ebcf554c0e56c40cc3f1c0919a9799d297a04474478fe4cb1aaab 0xc5f86770a798a814be8a69cc4fb636efe89ded921eadad9c282230661feaeaa2 0x36b648b390c18c3af9906625ae15de95b74a62cebdd1201e55e29da669e7ddba (-0xef0443c8a1537a0e5c88b232404fe7f3be7807622eb0084edfe9a6168c218532) 0xc3a7af0a2ae41d80ea29e624707e8f9c6591bfe15ff1379ae890bf9a375a912b (-0x2f16c39f62a83b97d349471657352b8e255a6e3599ba10166d08da2e3ae945b0);
  SDbl 0x726a39a10bb964f3d3bd42f14a114c7176328b2c45cfab7028b1ed125ce596a 0x3fce5dc892529a3cd88c7a19a84b9176ccebb00b4a11ab60bd9dd15eb592fc30 0x4fce83579dc2472fb42721eb5435c101280dcd26741e37278fc0251a2a75a07 (-0x1c83a44b047fa243b27106352fe97c5d36c46249340c43fbafdabfbf07de9467f) 0x3322c76767eab7607919a3a56f29b97baa06f66bc023672f4e0eea4b95f190 0x3bf663e8d7c3dc3a19bdfe41e3a802d0332d3ed9844c89da90e63a31884da8d;
  SAdd false 0x2bb7b20da95fa3716ff15a4fa3c37c389452cca80634601041b0eebf090d5e0b 0xe9fce4899520ccf672545bd96b66a385adbe89c3fcadf14ef30cee5b5500d753 0xdd8cb274a54a6bfc055b85e2edba85b1f9770c25a220d59d294de17f71767408 (-0x239fb7d40a3e770209b463bd6db54297422f083eb5b1b2c467d0f85b3cbeb25) 0x77739a0a9bc8188149563a56fe681de0f91a6cff8c2db7bdfc44b89c83633d1 (-0x1d0fee424b28e8ceb3a33236ccd4a984b9d0bfeca0024dce4b1b1c645febed70);
  SDbl 0x104931fbb4e402ec9fc0c17a77f98aee81b0ac11cc4396d472fa62000c2bf06c 0x4fe8c91c7f9fccec36638eb6034dc9a9c58ea453c64bd12aaf353703d81adf94 0x61de48506735ea7451403f2cd65215d951e0190650dfcdf92a5e8393c919fa0b (-0x2656aae7207f5fd9b307d893b88e1e97e14f9ad3b7acca9fa6d83a8f216db5808) 0x1093b2d02f5384fc1ee2cc86cfe3f2f10b84dd04431e04f2db83da5bc09e0aa 0x9cd4f880516a557256a478bf83356640dd8b4fe7c9179778bdf26d56033d97f;
  SDbl 0x5816a49bbbf253d590acdc7b7fd09a7d422a4b5dfea59cddf34fbd386c04223b 0x3ab0db0051bacecd8c67ae7a7584802af47bd89b61ffdf409acae73764d3b2be 0x78728ea258f98e719825271d7ef6a9365475ade0e092ba05a947c0661ce4d3c0 (-0x77a5d9e9c6a14a79ce98f7498b24a8ec37c1de8c2277ef240f32966e8c2a465) 0x1e4f932be4226200bd252922d2a6036af8d05633f68d588e4cddc07c369db84d 0x74d1a4cea7aec8c49e150f27dcdf7120ffc72659774ec62c50317b4e54b0c79;
  SDbl 0x9ac2ee8654ae7c1f85ffe1c27146d47bb4f77b154285bed8fa51e5412c7d820 0xd0e5a9953d0b1c16a0939a2d975af077e6e4fe6d3746ae752eff2896ea5b82a6 0xfbe424835d2804471b2dffe28814a17fe2704de7bb0dd38e941171ab65b37f68 (-0x1f43c423331ca0e6a8d8463a404f6e5a0779b6ca0091f33855722cc7dd06a0f7) 0x5d8f1b685d476d239bbde71d6d5951fab347320a731cc4e026eb9f7bcce422 (-0x5ace243e66990ed01b822b3b6ad1046ff737606bf36b8fc48dc480247a9efd8);
  SDbl 0xeaf6968817da6ab8da07e72a6008b168e8d2cc785934f89108bc7291b6b81cd7 0x968dda7952d90da4701f8bacb7fc2a8dfc48e9c0502f9bc168dad11b9d2484c2 0xbbf3f8ac81271feb9b848ae502384f17f37e153d774d56a340fa1a77d1893250 (-0x30ffaf60bbb0e01f92117488b7e8bdecf45e1558c94eaaeb50c598e246cbb5c7) 0xd7a7b8b749549fe3a289171d71532cbe6ba1690d85c990b68266ad50458bcd7d 0x358c75ff35e1500f9353764dfe6a694fc871f314c35782c71ccaa8f8c668873c;
  SAdd false 0xd412095655bced5e048e6515b066cb6f4f83737b89621d7fdde7a21c477ecbf3 0x88dfdb54ef1e5a7916f9079c8f58d57cd2c4b6296a95c19e1911089bf43d200b 0x813cf0231d62f4ee1ebfc6269d086d044714a6e932f7156a4170fb6377f27bf6 (-0x52a9a0791880ed0d50ca963528c36c8016b78a5af1ae9a77b0811d39ab75eeb0) 0xafade0bcfe2a079717459b943a78932ed0007c4c92f9108022e8622a94fed0eb 0xb550e05d97b896ef88d586445e33610199d7694ad708488ea0b68e825e7f791;
  SDbl 0x205de7b37a04ba7e71ef8052805c55f22c5fc5dff792b0df7e032876f4177ee3 0x8acc99ea140268717424d195c92e509937ddb7a52fd36ef4db3a46ffa18cf649 0x1240c3d3922947780cee3a79ff2ba3ce54bab67b4b31449583a5ccc0189e9eba (-0xbaddca1e921174ae3a2f39e51b022c67ba3f60eece641803cae47a22dc7fbcdc) 0x4179c5f0cb4d6768e64fed6d957803f007a73ef658e7ecb59fda2eac658f916 (-0x3e4c91da75e7a99128d417f01613abe3a31b29832dfd41c47cbb391e9f6856);
  SDbl 0x1f226553f32f5b151c60e9192fad14f386d44e28ba378076835d3135115ac291 0xad106becada41f43fa6617b4c9bf15ce8511e1ef68884f1a16078baa9ef7e1f1 0xc7c5613bd97edd6c67e8ec09317d9ace63e7062be59b4f9d92090529f40ca1bb (-0xdd53154e9e0cfd274f576533e1ae64a68b940ad2cfde29020874de103eb09444) 0x3c959296b16c337af286d2b3832723138d300d8dc1bad0319e4d99b3e3db862 (-0x42ad1003782a20f8f9bf31987e3c0ef0f2e8302dc61900a0ccc922c621ff563);
  SDbl 0xe4172b2ec9d9c822accd8309936394059443bdd40437ba0def0d3a088d4b7ca 0x270115a06a99a162551ac7f605eae3c10e4949d201375e8f882c2baf1a839c17 0x6935f82135cc012dcaa1d7161715bc5264ac695430672ae14d358010fd357b77 (-0x148bddce2fb80cde4b19a37b0342ab7f38a5c748e9d3561f882020ea3f97a067c) 0xcb394704ec763900f9269f6611e2a8c9ae27d810b79503c77bd67ccdf0f495 0x7771cada37f5906f78b50aa710f7fcfca39fb8a8cf91314dd42316fa70c292e;
  SDbl 0xbce13101773abff0d3ab63498d32993d10816af2168455edc31b99c111356ece 0x83c809b2dbdde1fa2bf0645be0bc076e5b35856049adb235a96b628b34133ab0 0x79cc4df926d510e396ebd4b392b82ab42b320d1581f593b72ed68b9c2189a1d 0x896c5fcf2f8ba0c14562ea530fa4c69c0cac0fe7338710f420ed5384faaf26ac 0x8b5b8611e06ef4e7a01e1ed6dff60fd913b8a39e57b7dec2b424476efbd8c51a (-0x4473b7dcf08ba6214f8eb6c672f419845f53d83a6160a2aefbf5887ffa4d8d4e);
  SAdd false 0x7a684d4ec281d38277e00032350eabaf87e051207b159ec83b4f94c51ad1c85c 0x1d487338a1208fc4b8f8bebcea6f037de8d46ee46fe70428499bb593fce46be2 0x730051689ed4a7e2a46bc6ff3bf689e0e2c83ad73135cbbfbb770ddd0c6faa5 (-0x26bc9b727a89ec35d43da06020bfe7029e84b2f695e6fa86c4fdcb9d140c6302) 0x3a87942e3341d47f9ba720b6018f2eed78e048d8788c9e2f7a415774f13c3a49 0x3102907f7babee820b8100c1fd1a864118212a5b2f8e2cbb9d4c82e56a4e52ba;
  SDbl 0xeb3c5d54587a58fc3f925cdd2a90458a01d84fd5a6b7a5d1d07f7aa853210473 0xd7e6e318187165674c605d719d7608ff1bcd5e68f87b946f3b21e4e3b2a30dd3 0x1b98793cae510aeb92af23630ebaf2c64f2fe261010b72e4d5079fbc6b8c96c3 0x3291143de7927fe1cd14e9cc7ed3714b6e5970627e260868474811070efc24b 0xd827e19594285e617aa2e4db7908f5d29a28dd168c0f3501d5ad6ff6f4b219ee (-0xab7b71de1183276c5f5541d359a76c21cdf956d86fc5eb99613313842170eb55);
  SDbl 0x71c240f6ec8997a810b47f4540ff436cce18ecdf21446ab569722fada482f09d 0x5c799077e6125f30a37274787ec5a2c8a7df1d23c09d2c76206428ec2254473d 0xc9ad05b35abada8b4d79c73f3de58147b8ac04524d5c6ce5c7d32b498bc6ed93 (-0x209ba68ef34a2ee5da3cad8f26538d59755c5bc2988658c6dcc89667264d73776) 0x328d10c0b6196d9d2e6390751bc90458ab0761aa81468fbda9c9113f1dffa29a 0x36d8e9a3ec3b98b854c9646b3491364ebd2f147cf2a4fc26599ef051acab1a58;
  SAdd true 0xf8f6c453d290be9434bde374814225e41677b95b614b590daeb0a7dd5b4e736f 0x18042efcbc2e328bbc3123dd72e63d1e4e000c07b03bf3e0de806f0045b6d2e9 0x5d008d53966e69b0c513f79a9eb3e5764f563da96d03b7d416e33d31338f996f (-0x288f6f072b5712a9051d8d016809cb6179e56bd1674ee8bca23ca90e30a9b9c9) 0xf21f0a4141c09f8e87a63490788ddf763c8a6967cf122c6db2ffdfb425a6a4cc 0x4293b3bb8882e634141e401fe5a345781f66ace54a17b868469a6e440e375a96;
  SDbl 0x9ad9c3d7a302ead14bee0cc441be90a1434a3dd94dde0234f6cb2bd6292a0dab 0xe8230a09b3ccc5e1a820a7ce6c721caf6daaa3ca9d834ec58374890df8738559 0x78076d56846c56cbd66f32521049adbe143490fd18e6e8b0a124822f390ef036 0x69c088a16bb2eaf5aef98e10d35731ff546b3e53951559424e88e1f7235507e6 0x5daab8dd672ece4cf5c9eb83f440b24c485d609726e1980df5be9be1410a5af2 (-0x7de39924c821c0506f362bce3d391f3cae1cc3a94be137610132a23c63e6958b);
  SDbl 0x75c39d81f20aaa60ff09c4fdddb5ddef936177eda988fa1497f2c9777975a6ae 0x5738fed407e0fc80300055f48e7937a505b3aaf698a312009469d43e0eb79b72 0x3e4c5d13b95ae199f079abbd1c95a718a89e6b91fdbb737c11f9d942ee9e8ddb (-0x209105c056a74762752ecb9b81fd29a7515c709a1f6dc3934240a208902edc698) 0x362c63725249844573bfd45bc1c71abff704c88f813112ae519c46f3bc0c87e0 0x42a9b28f6bf142de1999e6752d8627f012ede02e425dd334d1bae6c05ab5b90f;
  SAdd false 0xb68747616c334243b82c71f7cabf5f6f73818a2077dd8dcb1d38e7462f435eb5 0x92257cf599804dd1175db81abcf7982734199dc4f122cce551e6a35f3f3a6249 0x15ac44e688becb602bb80d927b5fb5fffda7374d8c81dac2c4a7c7d331258dff (-0x19fdf4d823e107965f2f83d95ae23c03cd21c9af5cb91a4a833bc4d111225d95) 0x8224a0fb64a4d05b2d4552ee8952f374c764b392f59baeca6ffe7da955770689 (-0x2a0344d08ebcff532abbbe1461de38f6bdd09070870d506cef43a81d0b7d5c23);
  SDbl 0x72599e16f4c5822dd9acd687c5e98872d76698b6abaa5d90eb6b83acdab09204 0x85db336ab341dc76c53db4ba267bd36f88ecc41b41cb23007972311d4923f83d 0xc7392c73432e80f044fd3bb94b93eaad12d7b980c1ceb1bcd5c7c24b52bffe27 (-0xe6efbe27a1fb2ff2b1c4ad46b3b5b615b78cd6f5c8c2b905e45f5f2e13536188) 0x3313f02bf2aa61a41515bbfdf1fae3c62a34cd65bd1c64d56861f803ded02cbf 0x57d622a64d591e7415349f685b705b783043c6252ef7d5ef03478f6c2d10bf6;
  SDbl 0x233bd225e30cafd55e972f8d1a7a217d0ee393e8af8170d39dd300be70aac85e 0x66934c6b03afee43cedf6e4d05a3d02af1febefdd7eba0e951b6ed260ada2143 0x4225d3e9fb5d3dd64b75ae277e8f90ecc3c4da99dc27dcc498760c40b09113f8 (-0x9b21bfc378396ea326b73ed557dd1ff795342f0725a6633e2ccc26889bbad90c) 0x4d96970eae7b77a8aa30b7dc72848d55ed8b8cd9344aa3a3e900297a3770f39 0x44e23d4d2dcfdb18bbd615e6967e46b4b96b46aebe193f080167877523cd253;
  SDbl 0x60dcb7a461f9d0f6a1849c1ee4276bc2a1e52b3f9a144130df7a3e983bd8417f 0xab39b258185a536c2e69961b77a8f42ee81d52c2a6e55e019f1abdc9027cde6d 0x5dcc66098f45d91be0c416c070d6940acdcefc5113e50b2f7d73029a08c1f86f (-0x493eb217ec715ca3b36a882a2e311f3f7d1fce128cc7fa7c5c0495512b4ab978) 0x24a64807946677c08bc323d1a5d37082efcbeb3212ff1268b4f7e865f71f63f2 (-0x19f99677a1330efe0da6153ffa375cb25c3607a7552e00da66911f93d17971c3);
  SAdd false 0xa3e3e110a2f9e25e268ea7d39fdfad38c9b480d6f0ceae743438482a9a3e1b4a 0x57daab7d51ce3ce91eb25a481c4d031fdd5b15a34b6596d9d06f70bacfe2e5ba 0x8b3b44ad46e4f847d57ad080d7a63cdf2f26c9abe49beec6838fa87e2cb6f801 (-0x4d1dbb51ac7a8f80efc9fa139e2672155f56052d6428a86c07f165afb8a4dd14) 0x68ebfb7481d5786fe0ce8519e0a7c87715947baad17e811af7db17dec2eb878a 0x355fb7ec85d3322421866236608fcd253b0791ebf3f9f1a4a01fdf636e622bb2;
  SDbl 0x3af23702e919001cf166958c69de584d5d3ffea1768798281ddf6f230655f39 0x46e1e2ddadd1d3d085f17f47beda606413e467263ba1055803d5d8f020e8e71e 0xd0dd38be8b9471661b9d876688fb92610445f07e2739774e269b1b24d2ad6764 (-0x56712cd73c54425cd8921237d5e9ef5977513fa12c6de81b9f237ff422aa4d09) 0xd92a6196c84ed9bf74ec425e3b03dbf95d698f448dfe86e7afac81a4957e1 0x3e86c477a789513b7f07aaf5ee0e3fd42900a8c453cac82d3540bc90b2caa9;
  SDbl 0x21d39e985e9a17a4463765d8084cae96541126aa5a8b381320084b53b37d90df 0x5d449bf1229ed19e537066b6609a5f3334c85873b0d9dda39dcd5ec40b272eb8 0x26ebd2a77d5d9695f58104857f322a578317737e181fd72bad91e46175378bae (-0x3ae960f0fcf11c00e64f9289527b9208c8fe927d1692e664e0b842d48fd29af) 0x4783dd21e485964204ec0d48f73e680cc0bbb7764df6f5263619fdba7375ab3 (-0x2f53b18512a8bd29e3ead77610281ff8d2ef73c0e03f9bf9eaff7b5ff620dc8);
  SDbl 0x97f8903397d7d45d2ea22eaffebd5eef53d130cc55a7c2ba2b7e48e1e7543a8a 0x143987274fac0bfe2a1861e85869cc9c8f5b411bd1c5bcf6230760e21e17542c 0x78a59194238f3ee1146f5c64f253217d70de92bd1369c42bcb8ca8f442e29247 (-0x37bafbcebef4831141495258538abac94f494576314a821e2351cb49fb9982db) 0x5a372b74ec880f5ef70d80c065652d00c602ccea59ec42e18ec47a7ab072df38 0x2b5c75244e87cbec14138ab9c21aa8faaa045cc396c76df85e84f5624c1a967d;
  SDbl 0xec341b53d444019382475f0be27f8a9da68748e16544c3bf49b060c6a815b14f 0xc56c167ac1a7b40ba53134db8a80ced208ebb07b3748928a4f0ed4a5ca6520fc 0x526617d26842d7c1c4081a4bdc847d8e2e56294abb38a20133d7e121c3dde29f 0xd9d7434c3dcd3fe16ddd4e98f9af071aecae904d8b76cc0d5cab5c63dcfc40db 0xd9f01cfe864685c0ced5e1cc03bf1804613ab1e4b9957c5c059795a7c4cf72f3 (-0xa37ead5108f509a591d1377b7e88e669014c8780d7b376f4cb29d8bbb59186ea);
  SDbl 0xe87ff98206a2d0b5d9ba54315200ef8e1e460084174439e2218e1ea3b966e0ab 0xedc28075750d6feeb4c9003cd8ffd4d941ba57d0a9519118afe7d8013896af7 0x9d2148af8c3074c4b64d4a6fdc28c1d5b900d938976288a5d4e62a3dd9fbfab4 (-0x133132b9d9bd3f748de4a0bef32404dd571d14c8be8014d209abb8c2a2a6f183d) 0xd3283436016016fe27f99a0a05146b87a7a78aeab86868b919781efab4e3fab6 0xa5cdb36f422f01672b61a462acc5f6545a0cb6cabd88dfbc0267b7eb16d4e7fc;
  SAdd false 0x406eabb199d55770b6d7827be78896ec178beb9667042ec255f0b993186cb4f3 0xa87f5609b33fc492897781dd12782005b8c590134d67e02f9af94ec871c1b510 0x7c58584eceffedc470fc39d11c1676e06e5fd0aab0d6a662e6779c75b646322a 0x909a78819bce01066831f84b22d2fc4bb405510b7e973a0458bb63b1801843b 0x103785b0dce923797576385ba4051e583df97ebed61e7d2cc4fe7ca8fba8f625 (-0x26ab36a9188b6581091287422c947bb48d17c842b06d31331ebb0b4ed1a9e967);
  SDbl 0xe1c7b6bd40e7e471ee95a616ecff742cf4d03a5ab89000c6b2057503ded15252 0x5c43755995ea0b025cd496a82e25c76be26a6f7968c71d79e61c32fb41f170eb 0x69bc8eddcf69b72b0f86ae5bfbdfab5cd5b287079dc0a92cde874898765a5b46 (-0x7160d2b0c9576cdc6037c65807b4473438d60bfa1e76b203544cda88972027eb) 0xc720ab070fe4d74f1e16e5a9bc36c4a8cd025b3d1b256b668cc438b2691838c7 0x433c1971a3315c483b8ce8a24763e40890f08eac2efaa91093faea756de1df96;
  SDbl 0x6be3c0a0f931294d615f21ab8c8f4f55cda30b202826c98e178a341b2cb3c11e 0xc7db4b698b2ac6215cbd0a744c2b69bcfbf59d5c497279243810f867a70bb05 0x3bbf4c8873b59789ac4c6f9ba839062e58e3915c5a0cf8aa69805ed6b6ba1111 (-0xaa1e76a8558149e42b754be34479ba090cfa65ae10cb879c0d0011247e38940) 0x2d782da5ec330e5e08cba1caeda65408d0023478f753db09fb34408f0cb15d57 0x219e9fe48bb49a696b418c7b94550943cdfa1719ef217ac77faaefd30b0ab563;
  SDbl 0x40ed01da8a90b5ae5fc3d963cac2661ffa340fbced12e58fc43be2d858121259 0xd5c73c7ae9d8b1003640c1125fe4eb6716b3d9d8adacf0bdf282b8c066a33250 0xe064bfd92d6a7ba876e4e5cd939d360d78c0b2ebf234c90bf0377edde068b5bb 0x1c7a33544376fa4c78156f8fa137115651d9d4a2dac9c8a1043977cf84d6a876 0x10775c59c467b6c6c4081380b1caa4f2084f61f9156c951c174e4fb995b00569 (-0x330cbc79172e2ab770847fddd21f4260815d80352c4b1d631f5c68b693a87a21);
  SDbl 0xcd4096aae4e1dc58bcc4a019845fdc0a1dd3350dcc6b0834316fdbabaf7fb59d 0xcae9cc313f00dfcc363c54c796d58f565220416ed16d99dbab53f7c01822372a 0x61d541f662a692325cd84691f1bf772ed2ee0b378b607f5ffd7e1c19f8a3535c (-0xafbcdb582414df7513af07fac2495631cb61d75621e9a48248d72142b7a94a61) 0xa490819a054163bbc6c66948f42f5aa6785f5f4a7488d7628a8c51808ccb3981 0x8b610ac197e22284fef4f76ce00b5f9aaa1825f457dc5e65047a438f08624c9;
  SAdd false 0x20fdab2ec33a52b16a3e76213da55e83822a753cee123fcf12efbfdf3649a15e 0xe7bcf28af9a9247f9922d94bf9ef48e7af970262f0a0d8f48725244de15b0dbc 0x83f90a6d5d3584c798d713a82086dea9b8b94dd9acaf4aee319b518a6d7ec0d8 (-0x139b662bf8689a523ab1f83bb313f37ddfd296b259554a4a0503cfba53e4a0a3) 0x440662781f45d75f7809d693fd6197c491ff15013fb12089fbad69217765b29 (-0x3b6f4be7043b0cb57c8991247201139e434b8b83867089ea94ad518fc6b5030);
  SDbl 0x55027e963e71df49f5972fc4cf96aa1bda8adb6a4dbe5dfc61e3eacf8f9fcb1b 0x520615ec2e280639cfe709435831c3dcb6041912a01c22a06e4326f7f2f237ff 0x2e6773ecf73ee345c65f34a84dee12609a66b8cba72b2fa20286d5b60edbb53c (-0x21dada83116ffb36999b1c6de9332ddd9cca2267fbc8e01c89ade243145b55763) 0x1c3aa8161aa37dca095b8d1acf7c893e6c6804e9fbcaefd9205fb5439efa7e9e 0x31b72cb682c6f1b6180638007a4bee6429645e0a209e57d64a2312cee26c0c25;
  SDbl 0x69331430e40da9b9fef05be5d5edc27045fafef6101a820b68a275aa7e80712e 0x6014ee3c953e71aef6cb7f7c692f5fc2c15eb5892fe7221ca8594db5367e96f3 0x2d709c0acb1c3bc47272f8d3b57a3533861a4df1d88ed563d9faebd2a63eea2 (-0x28b450eeb56fb3699171d5859f6138cf83ec422200361546570268fd85e16990) 0x2b3af0c15360b065f96a7c30448043dfbf31db3a2c7e98643e1a8eb2745962ad (-0x5c6e4c9f04870301598b8c8be50921ca4d963e7d54dcfc5c9df8bc61b9d984a);
  SAdd false 0x6ea16f153ceb90e00bb994431c55f1142c9b43fa71dc6fa5b59a996f42e668b2 0x106f1af81dc27a07907f24cae20bd8e8836cb21fa0d5343f4c9bf2c167a4b759 0x4a553e438a9b41d47309cbcaf7ad68b0742f96c9dbeeaf0df567761c77da779a (-0x13950ea8fed8212bc05e3ad612e123ebfa79754037bc72d3b3da68cda9583cab) 0x2fcf214359139ea771bd2d16c856876d7bcbda8415bf3c843db85a47bec6a74f 0x226b7aa0edfb103e2134145229e4d586af1fde802c4be6099e4bda20b38e5d28;
  SDbl 0xa039aad4febecc4d4e2257a7d8448ec9063d4a77eef93b78afe9edc0177e29ac 0x772c533d57277bc4aea13e19bd7ade9aad613ca8871b998982d5d1472638c83d 0x7e5cf968d5e7f01b2b6486e9f9a6ad2c014ed5233e2a7fdea35539c56f21a533 0x59e1d0392bdc07112f071830923cce4f07d5572d259f21d656506cf4b2910be0 0x64482288278fa66c147f96b53db71dbb5cba3a1e7784d7e34066d3200169ab5f (-0x404d67dc2de33222a01094df0edf6022fe08edd4df1d2a23eb9789578a9c0603);
  SDbl 0xa0d10a791f9695393b64b8cb8049a47923c79c1091a1cbaf26d2a113c557dc4c 0xec1e9430a8aa01063c2c174f455ccc11f57dd246c4b8394a4aeeaa67b005226b 0x3ae6efcdf7c71b666f9ec156643845ab3c2e8b11cd8e2f2ceb1029b8249be9d8 (-0x7ac214626164d7e5e8f66fedc5b09e6fb6662f038dd19854698e54b9ca5a2b0) 0x6505f7c9e6b575f7bc4db0e0ef0777d4874f470b80b3f77eeda7aa798b3bfc55 (-0x4976e7282e865a2b3bb7b90b02d94511e29edcd3d7c828fe4eeb7b2bda76234d);
  SAdd true 0xecda35d1feee62b5c5004f4c2a53cdb71867d2d7d46ec67e921b56d58e87ef74 0x372ec6253974351a0c17618bc973ab367e11026cb5f2473631ff4eb18ae6081d 0x8e786a86b26d720f827f1d2ff65eb5523166dd63349c1af6c5062f7a5181857a (-0xab7cdd9261c2be014437ab64112958b141ec13c164451ebe83fbc4698c1b2ee8) 0xdb230d3bbe21610bf2e7d2019cf805bc5a2da4903dfbed3a495ec1c751e5d2bf 0xa7674c32b947988137819816896667bb9df114ab3ddb2ff0ef6bd31d7754b1fa;
  SDbl 0xa0ea6df289ab5997ac68762cbbfc3c79d4ab1844ed5b4c6b7178d52743744993 0xb69934362a98076c9fd35521779df290422c5d6058aaa72a376d449d3e794fb0 0x2f9f37649ec61043a439358cdb2d39fdfd18fc9bd284ec08ab9a1c4a150b056 0x8f6c0e9cc40435e128ee781fb53f6d20a765892aaac52f805cdd79433daa9bbc 0x6525e01cbfd82c5e9ceb5336a252be5ce9bda386493a5ff7b9f8c5e09fe83581 (-0x501732cc8a488144aeba8c965abe3da3cc1f4626c96b1ecfc249a1570896c5c7);
  SDbl 0xcaaed8f9730bc155cd433a67a4459be82b1abf4074fd6b605a001b3a76381c7d 0xc19430a0f4f1232242bbffa24e7d91259de6cd3beaf9c6d24a0c056da5500286 0x44d0c8548da603c58831f3d110d033612ba1022dedb138d95e8a1152c2ffd990 (-0x1820410bdb0addddf9f009cb8dc711b3c98b6975e3dc2301eda6950429574b8ff) 0xa07865d5f5053c210468cf37fdad0136cb975589c1b96ff236df81746c670cdd (-0x8b18b1254fa429234f4b1fb8fe83ccd41a3fca5c0f9761e37a2d005267abb9c);
  SAdd false 0x5bcd347db60d6284cf99b1e597cbea9adbc9354858c794c1fd759d2cfd9dd3f 0x1ab3711eaf3b21a12486a147c33ff8f947bffbdd0eda8b624fb07679c49c96bb 0xf9910ce9c3bf2c1bf5ac36d83ef7f16990129c2740e7dc16064181981996e2a1 (-0x33363cd37a2a8dd3d1ef7baa212feac22986de04f22d0394a92a2442c150530) 0x20eb87ce9c71ecf98b4ce06ad9df8812b2cb1bf612858f033deadfe7353887 0x3bd7a8447f41a81a8f443fdf3b947e8c1a4eee68f7c0e1a8e4b5026284df63c;
  SDbl 0xa68ca9e19624793e0052c6e5249f92c535be35e07509b36b86e6a50cc6713dd2 0x69d5fa0cdbca1b9b6ed13228db7e797d2815ab77cdb24be570ce11496b4332ab 0x49bb0bd5cfef3ef53b690df64ed32436c3e90b36b915ea37b5373786d34d061f 0x13c5f8c5b033484a51621560bc6654fa1cf23c20c4135201194a5357c2c487ba4 0x6c5ab99b3a89ddc1ab0550ed387d3ea171a56f6a7c941056f4b520d47a2a9fdd (-0x337be0310eca0bcae9505468343b3042c7dfe29424ee830a2fdc626e3657fc60);
  SDbl 0x4666183d5cf77e4bb49432fa1c3b5e749ff5daf17a084e92d23682c4023e4d82 0xf217dd51567afddf701fb73fe5f4c1e4d2afcdeaed5ac760cb5d78a2b3097d9f 0x669cc7b0da75122296c2b7fab03d5ad38b5241c720ca3da8b0595731a20d50a6 (-0x5ab6946d618144ef7bd6459d7c557c54541783b76aa333d829bb5c5cde5122d4) 0x135bfdf8f564fc66d7dd225b74fae0926ab7a41120495a07fbfddbc5df206cf1 (-0x25785b4c42ca96ee700b4f62b9285b7258651effbf9ed5c223fee1ee64503553);
  SDbl 0x626bc8f77b707c160c697e1e9fb6ab80e4e1fbc1bb51e0c38acb7c34afbcc6c2 0xb15ef41e3572a990a42d1ca3ca2a33445c63ed8a36349cecd2a773baaec738d2 0x7da1638f92abe4cdb4939e21972d7c2db2eff79872572d9740662147a805ab42 (-0x25fecf0ea8fad01b6f49685d84d71601636c6b56dcc0c6078c1fdbf6056470958) 0x25d6b33f3cfda2670963f5c0b14425d479e787c4150c186b4bd6133e5199890c 0x18e2095e2bb44293aed6e0bacaf3d59578dd9899901d818d725f9a0425184a8e;
  SDbl 0x1190096816628af81169794000812f1c49008a20ebd26b58399513ef2b8efee7 0x5c7cdf0be357286a2cc80203417187187c9ea7f963fe620daefde3c359715df8 0x771986a11792534921ac0b1a7ecbde2fdd1d3681953dff972b48195d79995b8d (-0x15f70845aa8fb74f1591d1fabc5bcda71ec8e8112a8eddc0de990237e12006453) 0x134724a699f3380d2ce3cdc9f74d33c2898fb69a7981c612727346556ec9b2b 0x5d2c5b08d971780d816daef9857feae1a1ed6b2bbcdc06ea507aae3ef164019;
  SAdd false 0xe461acafa901bde34453c5c45a2e1d7f07a34e339eccf4285176722cc9b32902 0x63b485d1463ffe0b225db08d8e908011317a579124adb1932cf38eae8f3696d4 0x592785f8b22d44eb89e9a36cd0990f68a508daebcb17f1112c9f1cf15d985e19 (-0x2537f6765612dc9533f5b563e9c2f4a97ed973aef57c17583827325fdeeda0cc) 0xcbbe20de0263d20f91711f1245fe569ae3f6e4c0e67707dab66d03839896c58f (-0x670517c5b2d9306280cf620786a65bd42402753908fd124417f97e2a95498a2);
  SDbl 0xc87f0544927b8974017addced86759b4a5ddddf2e10429d9989490be302599a6 0xbfbd6e003ec86409c3505f7e8d3c940f42256303d594163a788c294fc93ae7e6 0xd550c490b4c9a24704234eee677d27bad8a312e70beb65479af1f3524c7caf71 0x1726ddd1f6d63263e94f922039d4a353b4bf23c8704df27d879ab7a861997441 0x9d06b741fc0cd4b09846f941248a058555b6664f35533a7a3cca5520e1743dea (-0x48149fb4fd1c90800386d33b4a3506946ffba56fdb53548c5fabd2550b109eca);
  SDbl 0x4027b0a70884475a48a11932c3279f69689417e42a11a752d0dcc11cc97f1cec 0x418821aa95867696f65b5d9950b1af58645b18a98a9b948e47ce254157a421bd 0xd0c33072de81a344bbda2141eaa0e7e40ddd284a83ff0e80e1cb55f9e26554b0 (-0x143ea1ba78585169217e88ec172a90d0bcde79fd6282b117e51fc056a9987886f) 0x1013de7ae120b327c1ed254e6355437c6d06b6315b597d44a74371b89cad77f9 0x1fa0e44b2870b9fd19985d77fbf832ecbd96db14c9fde2abb7a7a6b07adfda55;
  SAdd true 0x2b769d3fc1ef828ec6a92205d96116a9364b00c8c2a9fe733e251491b1b1a2c2 0xed3838295b7e2d7d41d99f564501e8f15052c72a3bae4bca436aa46ee195dc1d 0x8a6286ad7996fa41e2157a0a7282e870f33c63654b6dd984828b70e32fcaf7a1 (-0x281ab8f07cdb3d6e6402f3187905f1047df86cf3544b934055e23ff0f30a5a4) 0x7610fc8c9e59231e931ec6cc94e218bb6281bead2ec92ad707f4122b0c8579d (-0x1d2620678707a6d3e6ecf48123aa19bfbdd93df270dcc754475f74f7304fb6ef);
  SDbl 0xdc0885a66732462d191ffcd0ec28dc13d4da692c679ddbfbc042f186e701e4ca 0x6352263a1bf140a196c37b2fa7340b2a978d4da58ee8333324188ac13714d53f 0xadee4e3b2190199ed8f876737694964972c2bcb177256f0bb1386b11a6f2bdb0 (-0x1a590dee05fea8dae798dadf9c2e19a516a081ce794526fe852149bfc9f9c003c) 0xbd1ea5ff5ea9d5258061be9bfc95ef5ec2f22db4af9b6e8f7b91913ed8341e15 0x76864e98cab4f9a85c3671cb046c7746fb061461f121589493583f2a09f29225;
  SDbl 0xed6efa6e46fee2710eb3fb7cfa65e30c3bc034fb6745fd2fb3209d1ef26bcab2 0x8f3ee56dbee4f30918b4a0f3cbca2c2f7a57dbed821750c7d1b8cf4002f389dd 0x8111003138199318924ea0670a4ae01ba0ca70087ae186b311379a18f6e1ba42 0xcf081e287269c516cbac9cc20073eb9463f9dadbbc0867540392ac24b26427c0 0xdc36abcd376b30480eccde15b4605712d13e0c66f660f4eb93f8166ed7d3d097 (-0x28bd37b53d69e5eff4bbd9428fcd825b1cda21c54b330e4f09be80770cc34632);
  SDbl 0x245cc22b73be2f9ecc76fe56ead3cf2c517282dcba94ee317b6aefec0e57a822 0xb18449b9de1bfaa8986bb253a8333abd1546bb6eae36c5ce441175118d102c0 0xc01fb3eea1f5a85b061138102b7eb076d5e3b88d43bf61109f0fb491c5f6f034 (-0xcbcbab3eda0bc1748b631e36656fdeb88d65b929540523824a49b72241e33f30) 0x52a38386038c91b9a424f7b4881f1d0e7fe0df8f0a53244812f86b9b12f71f6 0x12c550bb1f0968e9ab51969078accb4aa8e9aa20e1c1ddfd0db2006d7abcb09c;
  SDbl 0x47fcf9ecf5936de6ac68f341eb69e5e0cf4876752c40fbfcecfa0b459c37e66d 0xea26b7752b71bdceb352d706669ca63116714db5cbfff6a38ac904fb5a829976 0xaea34ff01bcc2dc3275a859cbb0c04a816e3679c8674e130111bf24fd229579b 0x6a9c02c36feeeec93ce691eae38bce1a78239c02aac1ab561eee9d3f9658b3b5 0x143e4c9e82f85ee353eee665c51afab24141e93a4ccac2f0eb2371d1e1e6948d (-0x3eb96dd728247b4935c6c18e2d9576860647710108bfc57c2cbd6a8e98c108b3);
  SDbl 0x879883897bb42dbf67b32ef394c2b0c7d8e95a19324c3aa2c91d1c99adc3a714 0xa36bc6227ef66dbabe02cf32a2357c9384d1f45f54cc614e35bca3c2d49bf1e3 0xe67e00f159470a4dd8b622a1222a8ad348dddbcdbec79193de5039fb8ec58b31 (-0x1c980140470b45674961fd8dc007156371b3f6b21fc3fc033fd488f922b61230f) 0x47d23597bf23223dfb3ec04f4e37259178fc3c3810d53f8f126a92788c1e0b3f 0x2576b899ad3836954cf3f7670130bc695d03d16954cdf6a64ea89bbc779fe650;
  SAdd false 0xec0eed0a4731538ad507fbbbb0f39c9425ca284280757ca4befe578e7ca3e39 0xe925f98aaeaaf170871fa77ba80d88460978a3ef08377e94a0bd1d97129733a0 0x222f416fb34b765f26e8da2ce2333ca266d7f8951cb26c55e4c6814ae9d42aa8 (-0x67e09b8a0ec3968737a7df2e20fa740238c743fd0e1c4b8411dc93d88e7d896) 0xd9ab85ea958a4992a9d649b5c5eb4976f3dcf1b5001989c09b1b61fb6bf199 (-0x404bb8234a3a4750f9cb17b55445a169201f173f297e95c18de3b497666e112);
  SDbl 0x4027ce9afdc19af8fbe068b9eaa7a32c29eb2b07249dc78128dd80da6bdef14f 0x7556832b5a9ffdc7760921d6a6f696f3ea04b7a8ebc6f7e6663471535ecdf48b 0xbbea5e18f0d9669518dcdb65fb621ce5f34f30a9cf8ba4c4aacf0231cefd9af6 (-0x26be02f58c61c6bb500ef6f5c0bf8d71be7b5177ae5162dbb1a681c4ee12737b3) 0x1013ed7e28ebda31bc983495f83093243ba5e4cd8d4b664b7ed292161182856a 0x1d05dfaa0967f2b8af26eff3ea2aeae7d5ce7520c1e9d421b05660934e1e8923;
  SDbl 0xcdc04a1f898a59d0f109127cac4ca2ac9f9a690f58cd8144bcd165ff91b6bf1a 0xfc630f871541c3e1a0df9894e2f0d17dcab53b70eb327df24253184ec0adaa86 0x370ef9b5da19220009ec69c9f89ab532f26807c76e22c99ed5052d2d248f4bc7 0x8cb713ad5f6c1bef7b459223aaf937861fa3642a66197f4daf3c5709721f3c70 0xa55d87266c69a9ec5d2fa9fdf9c9ecfabc506b31ee247bb7067c3a39c2a9c4f8 (-0x6c8a7ce969703831a4b159a4d4cc26749924b7ab3626149b86c4b5efa78258c5);
  SDbl 0x67d5f7380261270357e0754789ab10bfb5e2c7260adce06f94ee26e13a7e3437 0x859b8400312ddb3e21fc7e857fd7b4f08ecfba7d1e8e2d15c17acb3361dd8176 0x29f2d9985a31285ad85800c18cd8ad79b4ef42aa91aa333497b116188dcfd2c1 (-0x2bdcf7084c2112bb6ade45ee5384ab86db163dd2fa1b88194bad8f5aff028ad19) 0x2a1ddfc48df923acae0f2c13a03f63eba84fb0701fb5c16b41277142866e72b1 0x302d8fdf118da56762b6f328955a60e16f6ac03b1609531cffb3d850356f0c18;
  SAdd true 0x8f1ce4e60b80b494c556b9c3bc74b18ef2893e2adc940180498195cf10592f44 0x38c7c85a099cb5be9eb47466a8ac2fb5fc8ce525402d7616c82cf4ad64b81a41 0x4734c7cb124eb2c42263c6892d1a5c561e3c2cba2953532177917251543e9f69 (-0x2e4f5b02cec89143cb2d27c7ad96930482eda1b1c9900269d9b6c5b913e362a5) 0x50014afc2fd82c17d24c05a8117e679a693d9486e927e2224e2f287793e0066e 0x2af2f1ac1e07a522c075cb7f0125c74e66480a73ccfa61ff02c64e0994bf4d16;
  SDbl 0x5db142512eeca4caabe8ddce49e4451a46a8b829ca014b0c2cb7c3e4dc800767 0xa123ce5f48e1b3ad92dc2a5af6ffacaa07a7b3586f61229a5ab3ef841a5bb742 0xda4ca2da22f38411376bd42936d7756a484b8f300b30154ce5d2531afe268f4a 0xe56ea58ca043a49a92af905abe8057eb4412c1cabbca8fab698fc968047c902 0x224a44ebe3d30dd3c44ea5dc4e845a229c4b7661c6466d58608b72a674952053 (-0x2631b0d9099ac2dd49912eb6fc11fb6ba8858b7371985fe53ff76a99c2fb9ee6);
  SDbl 0x2d1e29aa16a281ae2fe2a7ff35945edc25b301fc8176298fd4c4cd7ea7df8a57 0x10b2afd993154bca3b6eee445ff5cfdff842aefe52dd80e7e368464fe5727160 0xd094cbca8099b3c3bd73c6ece7211448757b4e1a85f01cbaacdf6f74e50c3946 (-0xe357c97d31a76c5b753429be11ff8b10225f46bb17251118809d4ee2e34ae543) 0x7f39e339e8dfa235f953e72fd736733585391af0a45ee4bf9e7380449d5f653 0x1974e72143dc3ba0f3c476fca506158e4ee065676722f6c34af87a45da6234c2;
  SAdd false 0x7ee1e3d323d05405f6b2ef5afb43900d7eee36e94eb32e87b7f1497f9f185188 0x88a6c2970ea2e8ab69298ff32c5de75150e4935d57559ced0eec2610f3c29cad 0xf6fe4b8cf017669e8e71aaacd89715ddcd386230856b062fa49f4697d68c6bc 0x10e2eb4f46760d02d66729259f6a3e52121802856af94118321fe1ec582c7061 0x3ee323965a094a276eccca26023c9c8b5819d563fba81e25561f0563b90a2a94 (-0x3b73f97e525eb72573f96885825e9df27bc3d5c57578d13bda63156ec308a216);
  SDbl 0x2759fbd8a1c75224f3deb6f09e8665f860a65ea255444041813aed15e8fc8cfb 0x87f73c13c2f469f777122acb9d86f3c1ae736a61dea407c68a59487f671150d4 0x37fd13d7cfd50288b6df03176b88c964b630b9ca47f01341996b40eeadf9cb89 (-0xd615e04841c4733e6a780789f822fe8e5767063e7a2f0bd555f03853baad6df0) 0x60c8a5d1bba4689bd651837ce1dc98eaea67a3987b78a7725f2fcc682cb0c15 0x1afb3071b306664eadd78d9bac251e891cdaf77455bfd70dd615a1f2768882;
  SDbl 0x67648b245e9c25862173e73f57805d419d68afb4afb4263f95fb6c6613944cb7 0x7db7e69869a1c05f367525262b9ad22ef871c29a06037c44d7632576a2aa0083 0xf579d837c89e47f42a7a816bc880793933c7fc6a5e32eeae98ba10c1c934ee42 (-0xab6a6fda41025287b40607c291f8729946cae611a447df66be7b6b136f5ac731) 0x29c20f746dee238bfd44cb07266c3437b3bb4b68f18b9dc5bad4d3557c37775a 0x42381b3e15e288ebc5b4081ca65f9918c97cc6bb24a2ac28eaf4926f3a843e4;
  SAdd true 0x8f2e3f47a7a7683faa45164d1654894d4f967338d929549f57f3ad02a4dc9ddb 0x15c67eb3233209bba32adf3f25c32f525ad3704c6df47127bfbbf671d7368517 0xe064d8e0cc1d45d4dd5a451d35da2b5ada5f791a9701199a304520dca2338183 (-0x29eb66bfa06fdff11b414cbde1cda1b81423477cd9a72762b1edeb117eb227ce) 0x5014b30d2ac6524093d7b29967748d8829b45028ae034b5455bf83a5636ea108 0x3a22a01b78455fb4f32221e28e5e008e7b2303b0c42ece4f0ddc42974c1c9e61;
  SDbl 0xd77e439a592a36d4495a82e4e39f5b82c0a1e02eab5f13c93913ec19fdd288b2 0xbb7a932188f3fc75d970f4f757038405882ecb9c0845ed92bf139ffeacf88af5 0xe71f0d2e9a1f90515d23ccdec6c7576b220ef3397372a1ffd43804db1d5c929c 0x174383dff08c49e6c626fb8c933ec95df2c15ca7c86f5f33aeb66172974876e04 0xb56553d494f429369faddd0f352423dc0a8fcb9a50ea58fdf54edac9fa5ff95f (-0x8b7bf78d5aac0d0b4f82a3f4b087e7be6dc586d382e82f92feded129564de785);
  SDbl 0xa6f725457e7c2cedc5e1adeb5376b2da206100f42294a061637583db869d669f 0xbc3323da21be4c54c093acad560cd590b21d30001118b03718f129207fbfd8c6 0xc0fe17791bdca677db4b503afd0b5d401c586c76f22035983153bdb814910958 (-0x6e6a629ac57c37d6b10f30b93ccb6d7ba9f42949139b547d4ed30eeb26d34260) 0x6ce572ef7e75ba3fe055ad2031a0e5cd34f45f404314ad8a20a4f2de5d87d7ef (-0x78600634abdb9b939a14406a850dd622a76ecaf09a5bf3664f7bae5c1ac93d);
  SDbl 0x203dc9d1b242152ad17c58ed9e7e970944fc6cf6fb3851e65bd89910c97010f1 0x8445c7f4f583fb469711ddd47643608ddaefca6aaa1c3da46448313f59330178 0x69771e4496f349966685e496115ca9af8abf23280083994131ca6a7698982d06 (-0x16e74c55fd9bdca9b0bf3883f69ead14f90a6ce033b97195af4b7beb04e366c47) 0x40f815e3da9efd759b49eb2ea6520f8e3ac7adb686bb01fe8b727b712b3b023 0x70b2b22bf0e6eb396f39daeb0c8ba6be6ca484dd1adf5478d7e354624fda5f0;
  SDbl 0x5f12c6da973a1a5068163cead2d3cd0e82ee61088217c15501ebb9e7146eff78 0x5f3636c5acd70f6133e5acec4fda474f582bd98f0ee7284d9a2675ed9b759e08 0x92b1a13c437fe19f043a295746320c745cfb385e2da86fa9424f5fbd262a77e8 (-0x7eb23a9f00fa0137a6b0569fa743d55d5fbf3125876047d99b996b14c80db0e3) 0x234ef0f6f0c0313e1a4e1fc369d5ca2212ae0bd00d0a38b81d38d5d103cb58b8 0xdc37ec27e7f92e7d7646bd1694197264f3cba79a64418e3703092adadcf786e;
  SAdd false 0xe6111ca7df372288282410578b4bed2877cb4523114e80b6eeb49c12bfa60239 0xd12c310b8ac48413cdb6ca2d93c6c7289c08226655222ba2d1f0994df38f10ad 0x699d983924b059845e0804fd000167ac4b9010ff7b44d812e96643e235af8121 (-0x27f0f93dbf3d10b5bfd93e9bfba1c1d4fabf5e4ccd0f890574c8406c84c1b710) 0xcec2c0a3455a9eeb8faeb1885d549f7eb82617bb03f26109ebc269c8d26032cb (-0x666a9cf26ca568a44a7b6960a035a270b09ab94c1783ba5f4c2302996198363a);
  SDbl 0xe40a328cc383f7b8863934564366002079547070e718ba5a095b8d33d3c724c2 0xf18bd50b0bd75e4efac4dddce5d1968ed5809602408e482a461897d91ed80584 0x70262e476b4c3666e82489632b6ff7d72679a11b5c10d50b3283d710572c00e9 (-0x144926df71b6fa2deaa729b4ad0be3800405f5c03345530f0439fe1c5b08abf4c) 0xcb222a73845fcbc9884d83270125845101fa3a555a7730f0b5058fa70f1303da (-0x1cd678308ed56e6a3637bb78d0cdd43c9905bcdddc228359454f7427db4bb708);
  SDbl 0x33a0e95b98c981436294e1da1364a5d6970efbe99e60886bc9fab2f46ce28696 0x2a36f5d798a81602cb6d853b535a5bf472fda22de9a390fd0c5bba69e2b4eb8b 0xe4f8ec9d8d8828d7b8c5e97d53ea1d60075a96b24d0bc6187913a2f91b37717f (-0x27e7d87e1f5f7778d82ca0cccb255686b0ba0aff11df0678aa8aeb0f1af4db8df) 0xa69821f1080a46645c1a7f4d5321d430c09ba137136a40b6e4bda2ba8cb96af 0x283333367996121ad9795e72dc78374a27b2ee30cf280631f9c5b81bdc67e482;
  SDbl 0xe8e81fe7cc07e543908d945a9e18905761e72cbb0bdc2cbaba07154134c2ab4e 0x9321c0d52808905ee44c4e67495c530ee1c0bea5d1a63bc45aed580d1bce4b9e 0xc452351eb77df0e9f84ed92a742c1becdf75bec28f07a7dc7001e32da7b6c881 0x18bc02bb8c5f5b84b5596baccf9ed7f4fccd0cf90f66fd2f188cb12803caca504 0xd3e58c4ecdcf9f7490a8ef88e2492e20f578707b1d78f07ff78b59a51c5ed6f0 (-0x5f73e9d18d3d7d70499354d3bac9b233f60ceabbf7ac9d3f421e0a6839c3cf36);
  SAdd true 0xcf29df70202f00577552cab264a3a9fa417ea8c9ae35193043e3230532c8a82f 0x536eb47c91e03eb593110951156f4552065922df42bd132ef3225c312e7d9c19 0x7bfe94f3a56276be8f524aabce0db433e784cbe83435fafdad05e256f473d34d (-0x4dfb051a415d7d058aa28491947aa57e17284ec43e64f385bbf720e2cbb14e68) 0xa7a4be31509f98faec2384f03b0e7aa08f2d6f22544e3b30fe298ef7e9aaa3dd 0x338c3241ad3f7dcd94e5e12410c630a7f301a297d6be12c304ce6e7cfd431a63;
  SDbl 0xb96e83b0f2da2aa37e1d122e75587cccf6f7c96ea5fcee62479bbdb5da39b71a 0xb4c22dfce08eb46c1e5d5096474cb38e4dacd5ec6dec1ee90204b297ad886e8f 0x76fca23edd32a099d3b735b61edebe657eaf140df4d23d88f5fe51e3071fe6b4 0x620e16e95b8acc8b626379f376b0ab6f277f2609041a0d0263386a69e6e06dac 0x8650ea0bb51f8202bfe50dae6dfc23c202900df01fb2eaa03acdc35ab5f9781d (-0x467f56bd31614364aa540d110ff1f4553d8cb6f4853d209f91c0547d089a8c03);
  SDbl 0x8b96a74d6b97454acee10ec778ad6f527aa9b1e09a56bbce33258136045153f1 0x420650b2e602e7402c09e273155711dd39294a09d6fa2d7fca1ceb44e54b178e 0x259e64e1f2b0cf6a90b4a03ad07b9a2b95f37fb91b00d9a617e7c37336fdb1ec (-0xfd22881d09869e22963d06969478bc38884d4c3d8a57577fc770bce8ee837b48) 0x4c1cf256db0366a48df552a7eb5fd1769242cecff327e68cbb8160527e53cbcb 0x3e8f863653075f9492453380b6bb726ad07be5bf24081adefed46d814dd85daf;
  SAdd true 0xbe8433398d7a4ce7e17f2d568221c6c485901743c2dd68c0c5d582dabe0c8c9d 0x729e6ed5a7289396fd2631f8d21b1ae6939d82f6134bb879b58db8277cba74c7 0x10cb4beed339fbdf3932b44a37969bb1d8674936ad9ee686dd3e7725d2260d5d (-0xb5a978561e6dbb2a0a8cb6cf32adcb80b1e8bea5a9b6945ac0c46e558411941) 0x8dc8804ed963ebe56487d498781e57ed502401323e82e9f5587d583b0d5de8d3 (-0x2429fe86b42a2dc430ced381b9d15ad0dc93a9140a0d303340031eac83e8e8c2);
  SDbl 0xbd430cdaa3c9d6faf70bc9f79832a271636b934b00416b65d6e74c4a5540a078 0xae993dd6742417352a7befa78b7358378627900327a0f9e1f47fd34f5c0724d5 0xad623c2f5c75b3ad96275d3c5226cb92144e790061f8e42b7937b51b2c4f7cbb (-0x811f7c1239248f9cc31057c6b57e2afaee47b7d484b2576bf3bfdb1cf98def20) 0x8bec128b1cdb0fb67db41996884536aa8b9907967fa1332a6203435e04e5d623 (-0x2c57e07aec8b82dcfec2d56757ecc42bf6177bc52493dc2feee6d7d1be0f2f58);
  SDbl 0xd57ebc83ae1449a209f3931cd51c3333eec56888391ddaf1d2f736516a4e4cb4 0xfa89a08e204232c3bdbde2f62b64e8573838206977ee0688efb0c593991899ba 0x9576857bd0eec4d58f6578d9b25d76276a44d65f8e87ce08bcdf790197659b19 (-0x440cdf2b0c4d2e314a26ea5112e5a860cf30f5718568d04aa044822ffcf2a350) 0xb20c2471ee2aee5b7984fd160fe914d819309919b9ca788c0b4b02d26c7b84d4 (-0x3f549a5f40152c39cafac9e80fe93e3c4065ebe44ac76bf4ed5d1799ad8abb28);
  SAdd true 0x79470486dc5d3900859455e579dd7290d05ce3e577b8511f543375639d25d85f 0xdc75f6c873a3037fd785a20ea92c9738a1abe8955b0497345dd4fc97518b9638 0x2608aa9dfe45eeb51c60f2f5e682b1c7f930cada8f005f09a1c0cc6a92900ed8 (-0x5ea381b83b34769fced5f24a0407186588544d5be054e88936b0ba39121dec4c) 0x397435fb38a70f81ae476da01766b1b22e3d5a0b63a6ae9aad82673d559a3178 0xe3fa33ab97f8e9fc2dbf695df59b1a38f87bb77f5f7340b8f1b3ba065e1acb3;
  SDbl 0x84f5d648eecea4233fd6361cf26e80a150553047daa1445d0a811020e72bee38 0x58ce0cecd4b067d72382bc1efe2e214651f91ea20ee2cfd45dec045859879349 0xf2d7a8f242c76c45298b699f4c3dddeb5f469fb822fc8e479a98ac0e989ecbe0 (-0x2120ee7587ff7aa0643792d6deea7b43534a6f44654e25172f0e23e9f0c4f19c3) 0x450e710f564aa5e28903e0401e0eea03ae0f3953a9e933038ba3201408229379 0x4461027c310cf683b7c7254f7f6af584a543e655ec083a5f151b0aed086f0470;
  SDbl 0x8fc73e9d5e9804a6e558f3fe986b509c86540f040355797fa0642580b4b46625 0xff5bdde74ae421f365f10e7f5fc81fe9f7ba5ef901d8a629091b3998506664cf 0x5aa929938b20bf40ac1a67baf4494ceff5d1b955762d778b6ea5c96b74da2bda 0xb45c04a02958151ef81dd508a577df547d1d71e988a858cce4075757edd351b0 0x50c033068867b31f03c42d7d43daf1481eaad6cd943edb945e903c852eac0a08 (-0x5d8ad8b673646c13c5d10001938ed7950777834aedfd38dfc31ffaecf29f5be8);
  SAdd true 0x11b8de503b49dcb352484850d790b0dc8401def56f35e7c8be6bd8489ef77780 0x87809c802685bd8393b57875a97b8aa817c5e5f978422b4b8864c826d8ac190a 0xc2e6811cfc851ff1b9c0877cce142f353894aef1219211b1187ad305062de935 (-0xe29c881049ed0c87e832956544c044553517200d3003556b6243005305c7f3a) 0x13a1306fd7e5c7d46de51d306c5c34b23c2dcb3315cfedab648a88e8b96b2a0 0x84c1d0496d6843a3998802efc8fb8ee9ed2691d68d0103a23221e2253969f8f;
  SDbl 0x8c0260362eb3a76d501efc165965e06b145115a7cfe9a181c2a98a1864669b1c 0x3a087216671c7eebd82b90dfef494e6ab3de250a7544db837501383f5ab9e1ec 0xdc460b61be7561dd6f9ad4b8b700edd7cb2a88618c02ed43019547197d9f4a60 (-0x1faf5b30180d7891207776e162073a07ae36b5dc6e1e48fab00208c9904546f) 0x4c92994134a881addbe15256214e3cff303b107423386fb1b0fb30ff33c728f0 0x2a5e6f3fc9420bb23916c01a70cae24c16d4bb3b4f11e75e706310b167fc024d;
  SDbl 0x397996471654ffee2c1c3444dd722f1309b917292574b5ab26f3fc1a08598c68 0xa30fd3b23d47af203d7f0bd4d8faf506e0629964967cf9cb761a478a4a81dab9 0x9b7bb9263d65c09693e8a8c194a322e5d1c30b0dc543a4f57ea5d0a5a2d801c7 0x3b70f1f87e607b044e6b33b980f7a1a7094afefeb22ad39e5b51f4eab9e4a6ad 0xce75eab1c43b6e61c11c2d9986bc86996acdaf4b1140f6df3c9bacf92a3b451 (-0x179486e06a53428b0e999bd562274d1fa97559e194905cf9e4de099032f68491);
  SAdd true 0x499cd1696c759a7e8857f7035cc6ce4ae4d67c519baf4d07bbf13a3949640528 0x7702f88d36844adbf94dbfb3ee7afae77028ce114342fac329016e29a3503ab8 0x6935e3906539fd2adc4b2727bce96600e9030590a4ae68050f1fb59e45e1c619 (-0x204a3759d4a7f3355b072e06ef7c3916046cce9a191d4cf5e2e2765101c06957) 0x152acf7e18cf5f70b9767c5281e461ea4f5870b20c554c4ad53b5d6849c3f3f8 0xcaaa65bc90142a2ed715a3e8aed719876c65afecc0ffa2db7f85baa0774c2b8;
  SDbl 0x9112eb90de926788c2e0bb889024044cb70c3cef61393b964cb47c03a1618178 0x6dceb93ccdb317249c2d29decd4315822a474c41e43e31c52920e734822d5f2f 0x3d4282cd9539070d89ec80bc9b3474139c9a597bcb43e02d0c86a3877b28a2d2 (-0x2ebcb056ed071767ed5bd0891541b5ee676dbc78f055f05f6f9cfb176cd93cb3) 0x52367040677ae0bbd3c4abb62f3cd361359783a374c670a986f2b0bb7a63ac5f 0x53746012fc022e175886927c776426f8a6a85be3db436106b9a27aa502a77b3;
  SDbl 0x652350417ba7fd4f237592be49bace8dee1af6f530cef61a20e8567251b85c0b 0x30671d1847282b5e7ecacb07e096bd1869496591eb49c0a3ac3ee8935ff39b9 0x94e5a6766062e736b616054875e25b284a9f96b20ec5b5da469af819c5d99e3b (-0x5ce5b036b96622b6231a624f54a357870809dc539790a6e5a18b7d39baa72e2c) 0x27f4e232de983e0b9991a9fbe12b6fb826752a5b2dc401d838f63022d3720f9e 0x2a2fbf092881332efce5e047a49a0764f4a73bebcaf430739d79af5322c03cfb;
  SAdd true 0x11bb1bf6e927756813e773e0dec5161414293b55196ca7bc743fac6a530a8420 0x3c2c12f2377907f587e06b1fdffbff5fd895b41786004221f13607f0edc04402 0x31bf230fa4c18d74e1d27f2ab614dc578ca8c055dc6d1a9772d795d0f8b1e467 0x34e872f3a69a43ee475355e040800241302b5bcf28a9daf5963913a06b9b8a5 0x13a6278a9f84309419c8695ecc5f892efc4129080ec96e69463ff68005aee82 (-0x3f5446df8eecfeffda4a9cbbe77d0fb0d41206adf6c91e29fc1b844ae2b903e);
  SDbl 0x8b846c6a279b6b73707a4c9de9344bd16bc9398bca8cfda57f22e53d48e3bb33 0x60a0021c1e9cd512a9725fdbf5fbf90065783c5597872d1a867767cd5d605909 0x652ca5d5511b65005284a5938713b83323aeecb42e32111d3ee9a51697bab713 0xbcaf5e98c19a60ea5389682bff09e5edbcd81633282df604192529361f9b4ff 0x4c09123b8e6e6ea1af1e578cfa4b7adf34350bf5d5d8e536d7261f7f038b54e4 (-0x13ddce132c83ecb2a5c331371356fad05c610ebcfccf0d5cc174601ca61e1721);
  SDbl 0x699d9a82fbcb98419fd41e54ee96fb7bf7b7f340bfe3809e91266afe6d6a2e7c 0x6badd70d37f91e135b662a199dcaaab1eaaa496412ae647d18e8fefe8cdcff1d 0x4c17848d2c0b144a58bac9a99497bb074d0d59b14bf2c5517f08f290e89d5328 (-0x19edfdd9a43d830e76a863b261436a2d3eb48f9b4a7eefc13a36c68b91426778) 0x2b92a9c6800a5e5abb42ded6a51fc823dc5ef9bc8c91cf19a51148e9287ce51f (-0x48f7a7e79d1680c37e895f6bd04fa16b0af5ce748b003cda8de89d1d127ec15);
  SDbl 0xcf4aa86ca7601b61753985485de50ae9e6cd6e35c02975bb6242d5b5a729e694 0x8490d081434703c7e66226008f0c32582d92a0e91f75899825b8cea18c5ec475 0xd54e75d463ec53f157aea9364752666f0f0d7e50b79087395e10a18353f7340b (-0xca5ed5fe46ae9ffbd05eb188c890ced564867cb59d53d6d5b0606e8e9ebaa68) 0xa7d9d2262c26cbc96687227996a3edb28edaee65d0649c439b20c5a5e3027d1f (-0x1426c9b08890d7d377574c72f778b745f7f8ad4316ba4d623fca9d64720051ed);
  SAdd true 0xc3daaadae75d2707b1bff6add620c558a2f81ab61efb312ff81e3ad2a229e1cb 0xf195c19148d75ae369f23b6f13e4b3bc3f68a2faea7bea8a263f4f185cbe1c11 0x1816068cf853432cbff2d9eb4ef56fa6c2d3c2bbd945aef9f58702de97fad1c2 (-0x3e945c93d6329302f2345541dd837fe3eeb924e40b9455adc301aeef9a522671) 0x95d6db11812845a446a361e42dcbebd82ac17642359e79ba13feed98163cde54 (-0x5367e297501a9e2218e750ae9209b7ae7d5b04ebb8d363bd5b9d25954c77657f);
  SDbl 0x76e8c3c78bce33bbef1ab610f317506247002287a3c859d2ae7ebc51ee240068 0x2e35e12d1978f73651f9d7d02006a926255855f023cb4a8a08e485d2d1d896f8 0xbb0414dec5d2d4d848c279bcc757d987ebf855ee946b6e6c436fc2ff3e9e7dc5 (-0x29591cf60f87d3f0e261a37c8022803cc4cd51b8d22ff73afcddc4691856b4240) 0x373b681f9b8480156a50cf0cd8980407d707b03bee16fddd1e1b2c620e14a4da 0x5abfd5bc358670a6894b1e5af0446b7fe547b95ca238d4e456809eb073d73d5f;
  SDbl 0x1ef02a1370d93f57cecf41324171df6df8ba42bcae8e7ef15cb870ed2a027c97 0xa7f750e443cc6a5cc331c4f220c435d75e4f208bb8ceca33ec0bf4720328394e 0xc0f6d890058139c6273c3eef003a0d4f23f604678d18a0561c39d1c66966be11 0x142da13b82e6292efde4dd49d49a29c532521db89b0627d49bf0ad9a1eb37a57 0x3bd2b2b7d8e0fdc11716e6c12a9498c95dc6600e87a5f8e60415f99ebdac62d (-0xeb6e4733cbfa5afb982da6dafc8f203c09012525614317f7b9ab2924eb45b70);
  SAdd true 0xb4c03b691f3a2e94c8e7c177ae3c76f58487ba5a91e980a3c1169958253b5408 0x7a11c54fd1172569f83a61300f6917846608978c8543818a31bc450ac8beda71 0x1409d4c5ed86a57f7c47c853d51022c7e2321e06c6ccab534cfbf32ae95a8f96 (-0x52bf9b96a239e045a096fb1ef3444b38790ec4bccec84bfa8a1bdaf0deb55d39) 0x7f9ee3e57f012c3c0bb65f175a17981ab2c33f8da51d47f4851cf57bd7ee4846 0x2067dcf3f05009f7b5afa2b9976892dd0003bfbce5425992470608961e66d2bf;
  SDbl 0xb237c9d248dc67e32fbb9af8f4feda205693baf5671047e3cb82622597088b2a 0xa01ebabe81d408a3efa00eb24ba7d56a9007faeaa3bbca3581bc8a7169461f5 0xb4a282ac7b26a8024eb4fbc22de945cace64a63781b548cbca6a18afdb2c1350 (-0x92b86c2f2b9c81e40f3ac9c45550a1db9ca050332e6e0c9b5f01ec9c38a20f98) 0x7c11a0d140db53238c54a323c4a1acc9a794fd0799a05ca53cccdc241dcb73f3 0x4e03711486ff6a988976d8e9f8e82fe1e2993fff1675dc940918017192438a8e;
  SDbl 0x8c19f3b61e9d2bf936c9ede1b7bb3fcf2338d55d70b76cfe90353daf2f057be 0xb55082ff3c959eb6157d7fd71979101fa4b27357ae366ae269c3c7005d109dd5 0xe3236a73efbc5699fa94d3b28f2357532c3dab43afe22d1e1b547cc0d906c97e 0xb2ef2a22b0d2f97341b9191e7a069a6bd797f1912072cb4f922260fcdbdb2a8 0x4cac6530ffbd87aa16f5f2740ecb9501f18839f1dca17baec16d2eafe6b0bb (-0x5dc058842f157c8d332ab47e6b4b4cb9b43ec00df2be5562efa2b86e13f92f2);
  SAdd true 0x8ec846a30202cd8712c1c029ea52c672e0fb7f9a5dc0f4fd4a27ae307258f6ed 0xaf59c86620579b2659aa0f05e9027e3f891a464235db0c79457cf5bb0ed844a0 0x9c79ebee8ff8d342f18d0e53dff8fd92c5552ce759aedaf693d7372ba3d2f6bc (-0x48cfb151045a54c0f468ffd4f877f6961f621f805900c5edb4ff001134ef62e8) 0x4fa2cb0b980e9853abe67bc03c93001a2b65a780f5208025dc4ae28eda18ffd3 0x35385e7fbc6a7b6cf19d2d58f5f687d0c77af572d8d98995f95a290a8be3c29;
  SDbl 0xcd905dff591a8e95eb34ab5d98f90e6f24cdd3f21b69e059dd040f8bbec591b9 0x3fa8ee3938e860100e29e713473a5dd21fcfd53419223478c38f6d415a20f485 0xb15c41c241778593475c055117d4c5702b0d6466065437191e5bac4609da001c (-0x6d07de7bed22c8260eb91b3ffd2f8374334f0f0aca39ea10fa45cdde6e9167bb) 0xa51087f57b8cd3a1ec6c3ecaf78fac48df17882f0e26e07376f78f0942246614 0x59af9b33af9190e8fd6c01f02cf13849330928e34d8b69477cd021f4920dc855;
  SDbl 0xc5ca99e3e82b8ebb176cf1d95a8f854d02d4d8849d2df734dd93caecbd3b5fb6 0x8f9559fc8c0ca135628173ecabfd76c31b7bde19ec8e472240c2cc19b1f4d3ff 0xd36fc90ea9a1bf6f65b4ff82092eb3f193347a131b226dcedac5053784672559 0xe292f9dc9b6c18237709fff5b42960c9a39ba22bd8f8d4558c8617f579747778 0x98d171309451160366097611b79b651a0e1fa9d7c71c76c97c793df4688a27a5 (-0x3dc02f860861d61537c3f8e9cff9b7fde85038b4480186f994bda5d2ce11b3cf);
  SDbl 0x55fb4552e1852e314a5f06409f2d836c097d877a7968fd5659fa2477858ebcf9 0xeebe30ec96faa5c4658766cae70f66efe24e0ba13ab6a8885b4646992f390099 0x2bd697d0ad5aa90d7f1038d89635c8df02acc028f30456c071c777741d74b26e (-0x639149c345de2ab6110c3f760def2743ad4b4044026c6deba0b0ab24b54a5722) 0x1ce0d2aa29ef46e684ddc18a3bd10535fd2782cb9a00245b0ef0875da967fe66 (-0x1ff5f62d61c9a7314ae0df78d3bc4ed05991991ec85a19d3437572c2b6a7ae6f);
  SAdd true 0x14c3d105e9ce51e1edf1b8d8dd834121e342cedd1197bf66acd81c9f735ba72 0xc92b02865d5bcfa0c11a4fa332669622ffe45a658c3c12f1e3d2c66177da630b 0x405d4f73bc2ef14e4a9db587c22d6ee640106ee80308542ffc784902b49d7765 (-0xf3f46c0bc8474a668f49e6a268a497199204e866c4fb023c5131a45ed3ea4a) 0x1af2e7107e44372ec8dd74189bcd5045da067320f50fd66e0ee712361fda7 0x30c3d6a5e7d24db2d13fd21c7c9fbe2b1c2edd211d008266cea953cb10d497;
  SDbl 0x6a8c2a1750837ed58fefb9d5d5437933de793d2d3e0276f950d005b1aecfb266 0xe70c1fa1f0f0c97e5c46eb1895bef2d6e946d1e264c2a9643b08ca5a9833cfb1 0x76ed360d914a565ee64f7174a525cee5ed080879fe4f770824fd2827be0ccc06 (-0x1a4a9f28f16364880ad2bd6f2391bbddd43d9694faf446c7dab3aa3cc1bb11114) 0x2c585f998b70fcffd6ca41833ab3016bdc7965ad57a804d60d62ab0ce2a29523 (-0xc6f92130a05ccca618087efb5954f30272bbca4695284b2c2007426cdef0671);
  SDbl 0x3388147ee6d7d713e2c4a9e0b9a0c884aede1e533b6068316e274952b900a9d2 0x9cf35a6ca273a320092a53d1daf8375c9d4b4c5889e81c605fd1bc41e99821e2 0x9aeb64c614e3488ad8854255d597d72c9f0d896949a1b45f933e00ccdbc8ea5c (-0x241b3b26026b4dc866b4fcc5a85b6f536d38b2ca8a9ca5bcfa22e3021934d7cb8) 0xa5f808062d2d8809a8984994af9d591fba776226fd9656334eeccfd2558d100 0xeea52611c48e81cc4ee900ab5b3ad476090aff979113c32f79e198801637b94;
  SAdd true 0x7b5f0bac9ab0656e88a39259e1d09e786c84767b32d6994aa17f9d78de4277a0 0xe5f91b2d495165b2655e0e5de34afdecf865fd620c2c89d820c647d80489f058 0x1d40f9ec866121a031d61297b0454495b25f04f67478aeb56452947782f87593 (-0x332bd8ecb724a47d292a2a4d18d9eb9c54d486ce98d422737bc86a7092d53bdc) 0x3b747881c2bd1290a54c2a73e9f1b248c3cd348b2c3f12825b308ae7bb086301 (-0x2330e013b620e84e166ba95bc3f33bf76f95a7b7c72f51cd0b239db2d4b8bc51);
  SDbl 0xde4e7a9fd7a03f6105bc7922fff621a0bdae05f82dba3961388935d6298c13e5 0xd9824ed64f4bc2c5885594cf66d016a586639fd07091ef64971d6892f50a3441 0x53e2441834fc49dd7e1bdf0bb19ef3a5832c78752fe24faeaff3f785941e588 (-0x238f835fbf006b65f52b32afa6d948dc38c45d0d31f7b34138afaa56d413ed041) 0xc10c34bcef2a45a21f526955a8c3bfbdcdbf70bec4861ea3e063b861e01a4a18 0xad2d75e1fcdd87ddcb6efe846c06ba65722199d782b986262690dcdf86d6588;
  SDbl 0xc5c5230934c297bb16fad82f4594d85ae098081351f40e37613b7e04030b6a94 0xe7b9a8978737d23844d5b437fada35251d69b3a54aca0052e8c62a80ac5ea071 0x2fe4796817f850442d06f8b41322ed311c65bd1f52341e6b2e91b84d36e2bd04 (-0x22250cd14980d10b01157f86cbe9e16b0577892486fbfefb436b478ab12ba9bc0) 0x98c8ffbbb4f33581224e194923b95f8cf05aaf5a366a05d0797ab204c95c2363 (-0xafb8a9be0d9da319a0b47b01346d00cbbb33e39553b967b28944e3e4830f1b4);
  SDbl 0x3485398d16fb74bb64d86fca6caee4adcabd9bc53c929b5dd4fc3d75a2fc7aa 0x968f2085699b010435f69c1de77797a5411acd48351ba4482ea258f6548d364e 0x300067b2de26c9f83d14abe6f906b8f1596ae02d747bc94dd458bb07b4e31cc (-0x27407541214b1b615f385681cb8505ed11c9548cf45786c62efe58c0b6fdaebb0) 0xac664b635a68f67ee5f7e1a1d16124e9160cf22e9a40fdb0eb11d3924ba4c 0x10a6e0fba41679ecc91caf93415fe309d53fe125832fb6f406008b3cd323e92;
  SAdd true 0x29619ef443bf7c3712a960d27458bee787613877a368aaeed3f1c33a201bff3f 0xe9a2780f79fbc224063b4955e88d6946f3f836dbef1c1c275d0de6d077db0fad 0x3d7cb1ff2106550cf51dfa03e46c2b5d010fbae4c8a85ce46a425d50d1693133 (-0x102179fbdad62c0515cdcdbb9104722fd2185774b66d066478789535612227f3) 0x6b06a241c3183bb762e775e4f8b4fea380e8d50070b7ad856dbdfe469ec2941 (-0xd6dc6ee89d053dfd28b7f2c29a017777c1e24852b985ed4b3a2d43daa957da0);
  SDbl 0xeaa1f02d81b11d945bf0fdec9814da772c723c5539c054233967a9f8bb0ebc7a 0x6935f83eab1f9e3654dfa0df3d4f7e84b4e8496c4a660bcf0e0bd98d48f2e1a7 0xea7308b000cb963033eb4967ebfc6046deef6d727eda853006b3ab09a1de3929 (-0x20ef5b15d21a06a3eb27de52ab30b7ccf385da320f2db5c664169b758013e9be4) 0xd70c718402b6b7a160d579dae882bbc2bc3f77652626d3305fe6de9ad48d96dd 0x75b4698e41117abe2afceb6cce2ad829eb65ce1abb247823e995a9c2b0811380;
  SDbl 0xc493fb8ab25402bc8a4683b64d27e4ae3916fd224f63b8190c49751af2832312 0x81f2f9a439e9720c38434134d46007092e602043c3829db50c3bd0fc672faee8 0x9eccb3563faa944a927695fb7c0d3f674f65a3c22621210a3958b783d77af9a1 0xe6573f19963b6d7986fcde9b2c34273dfaef964466134b00cb060c887911b10c 0x96f2eeb7d075a43924e204aee4bd7cf624ecf355be8b422b71a1bef407db84f2 (-0x12ff01e8591f62fc5f4fd7925a7838d2a56ec6c8e07990a139c985c19c0d7ba4);
  SAdd true 0xe340ed3217c89b956235d03f687fbf0b98a59b002d0875aa567a56447f0d52c4 0xdd4dcd76b35a8d752253294b8ff46f22eebcecb3ff9084b25ac29ea684a070b1 0xa8ed48c29f9aa90881a29935efba1474c4c5199a63d6e41a75c6d66c76b85497 (-0x464a21dbfe5b5bd94c20009440c789d11ec13162a13523833febf6a7e0fcf5bd) 0xc9bc351f14bba72e883d38c16b7c214a45f8eb2e7e9a644993cad43c24726e50 (-0x5118b52dddba55cee07a2bd45ab1de0f950d0969572fd6649ab510227b30f1e4);
  SDbl 0x962c8f753d6cb5ccf6cd9b18d57ec9d8981c1457da16e69c080cf201ae8a7fc 0xea69c48d1f19faf9178f9a7d7f0195b0d4e130b3392b4a02cd1fc4122c9ec5b9 0xeb6dc5838763dac671db98ed949c1fcdb9a5123cca6434536a72c609671f4b30 (-0x2318b372c3304faa27881546f71560603b4d51fbb58933a58255a308772617c28) 0x58183fdf5cc4f29ab3a8e0e9fd420ebdb2fe6200f6098d89fd64cf1ee4e70b (-0x7b0aaee42a0086b6d6a951a72a729e0735066982a6c264c58026d9fb147459);
  SDbl 0x8cd7e38eebdd52b214f66051a324cc750e650e4a134b7e4c7c9eadd63733852 0x339b5bfa85f4881a771679c8919e6fb8a3056b2d8acb424f08f5ed737cd450c 0x7afa0402c76c257158d95a925407a7557b93d3dd9ec36418a9868fb8980d939d (-0x273bfc2c18fa7bf8bf73897b5cb660c0436cd2a82d4523166c03740ebaada6bb0) 0x4d7cd6f4a3cddd3d555a30536db9312e4e03370d2fca931f836ffc7efad63a 0x7f313ef5f977725c2f59426cfe6f47d113fa17d49935236361bcd190b34cf63;
  SDbl 0x696f32686cc50086cfa3141bf681e16cabd79d6bef1016a18d90e3a26555f82 0x76276edd434d48f8fd514b3192aa26d797eb64f42318c88bc4cd06af8bfbad32 0x7d324f0bcc1a606e7ca187d69f67cd0f146d94e0e64f39947353d6cedf138fdd 0x63588f9b72d6f50dc108a950a4b8f940979c2cd7bcf32921faddef14bebf839 0x2b6c67a695214a0122d9069b7a580a1db34ab36d4d2668a0a8d0a2d3a07946 (-0x2f556ca1e746ef92f0d0752a17baca1a3b414af960e46bbeece92e65809df3a);
  SAdd false 0xfbc5448e738385bc0194f403afc3c1165f422b142aa07495aefbb5c07eea0401 0x918cdc7c890e3d126876158876e7e97ac0505266a77c61c678572692087c595a 0x4afbf57e8b5ea0ce18b30abda923c932012994c9b00e7a0d72d306bc5e0f5d9d (-0x4245bff7f3734bf4d0f0877bcb6253f477222ce919129d1679d169fcaeee9c13) 0xf79c6c72e3ba19bf9b424aa0542ba9647f2899927c8957d0f0edd56e79e07352 (-0x1af18edecfa42c04fa90ce0df2db970243b3a22e283690684a10f047371bc65e);
  SDbl 0x44689510e15af9fea8a76c543c9f830deb29d54c4e25258f055fbde1ea6f586b 0x559fbd45fab31b54080f1bc890c6dbeb7a0a0c51a539a79047b64cffdfae6899 0x83a43daac4cbb0af6872386414c98c6957c8b47d4c3666eb18245ae9305820d3 (-0xd02f7f5fdc26c0935012544c37897f4e83d32b4c9cf8be4ecca73ca4783b1655) 0x1247b9ea7e83d015bfc88598dd1c617909b6478d54f86089140371fc89535e94 0x1003778432baea15966b5314f860c93b4dee3cec7d8b283cf8e82d8ae7e285c5;
  SDbl 0xfd0c13f3cbbceb31ba442dd713263dff5ced3d07f1201d5da224efcbb0e95aee 0x1fd4ceb0b72d22357181b75f4758141523a8b7b81120877a7692eff7862da34d 0x7e351393651477c2b32a2c7b796ab8a5af76d402538d8f6cd404998656afd781 0xae54a7b7b7c4a08ef7b827ff071c9561a4397a607faca70b80c767ccff229dfc 0xfa20e002bb3d7b0387c6be7bd28d1e3ad604ae715e2109cd76ef3ec560023f3b 0x352c177e320bd24e7214a1be67871c028637deac98edb44f9c73221939c7d3ac;
  SDbl 0xbc48aca0836dc4df2eb25daaac01e05bf7de26cb8d63f0557ae1762b57573cb9 0xc23fa511242edd85109bc8bedb77ceb504ba18691510c6922a7c803fc3fc6b37 0x7020e88025142b5225dd3afe4110689f43916eb52bc8107a5e562a410892cbe 0xadc5ebf06b9a574c99ac1c6a1d2ba9d42d593fd7f859d53abe117ce868df7f06 0x8a7ad22dda360e547191d0838246916643f5d14164aa6db9255b0508be327420 (-0x7774910130d194a5a6a543abf017f95a9ba4859a03d2c929446219a000f7aba7);
  SAdd false 0x126978745719c2c95c51c409cab15db5b6ff25374862477dd8ac9345006b04f1 0xfcafc7d865d7a37abb7c9cbdc7cb4d7f2155ec28948c4baa9ef89ac059977672 0x9aaf8498a593f108d0dd11bfe59381a0e13ed22f8ba8cef839dafec644fc4327 (-0xa51c24e40e0cccf07fa2233726a91a9d282128aaa0486822f223fac3b725def) 0x153006465af5971b370661ab225dd321006d5e7036b0f19c599c3e22f51eb8f (-0x433f5ef698ae860ccd5b29b7754ec9fb8cc513d5e023ad4c561397db5af1190);
  SDbl 0x61f1cabd7831fa57ff59539113d147457fa2bffde7b44b72223b978e5211e352 0x976c65972576350b17a429696c29b213e121eee483c31404ebdda17646042bbd 0xf5a29013ccdb2dcdf3107af7952398607a79635952d678b730234f9b823dafe8 (-0x275e2687bc66eae5182a2bd9e997295027ad16f05b51f2ca5e3e9a43cd8044eb3) 0x2579200313dadbbcae58bc9c422e77a8a9fe0b84e5bff41e59b0751e7674925d 0x26be2cdc7d6315622c2a875f59e922a00965014efdb12d20d9a2172ff6c88615;
  SDbl 0x18916c05ac40afb891d5827c279e631a3a9c91c850d541883e3e86fc1d4de18f 0xdf6068e6bb1c4d3e260aa47988879fbfea43f8d738273580c1ac069955c1744d 0x7ad41a1afaed09e6eb6c984317469d5ab1bdb61c52d04899f4878772b3435952 (-0xdd8d9cc46e5a8b80e2aa7be51281b6b179710fe81e35fce0696cd1b80d8d3898) 0x25b96dc9ea9a28d0bc8739c55289070a55fd68115f7638ed752c73205071de6 (-0x6e7bfe1e696d9885e63a30c3171c20fe78bc036b2fd34b99ca3de9f7facde56);
  SAdd false 0xe67afc4ff2040a3af0706910d9c8bbfd89d936f4016ab27716a59a95306f4cc2 0xe095ecc5780df018105b2574f5c76dc8029cc875cab455baee64c6687efefbda 0x7cd86648083734142da59aed9d5aa0913516c394a2360505c1abc44d612e9467 (-0x9b66d61a738bf3dad244460d77740a6d21eb659a98592640727f6c4110ddde67) 0xcf813875eb40a420cae5c934ab58c5fec9efda586d342ec98444638aa0cd21ea (-0x116a92c05755be89133c528cf0abccc4ab36b232b2f49230a0fb6db308c7d6d);
  SDbl 0x8e9379544e8338680325c24c2c3d7ba243f2f1758abfc76b1a366323a9a99c61 0x3f00043f53a5ac96a7f9b5ba1a807176e242644ba4d50060b26b5aeeafa52ef2 0x5a008e115f18db670a783b57f4ab1eb575760b09c729eaca16632179fe01e4c (-0x1c4043a22b9bef14a1d497e171e9927db9c468dbeee563b9ab2a599a45b105d25) 0x4f67ef8e66d47ad03b498c97cb17fad94aafe61354bc4d22de83be61c40ac9e5 0x59fe3ca458dd2d576bad4579f5fc1d742d402c9f108c199572511c9d4a02aecb;
  SDbl 0xdd32358fc7c15281ee72f2cd6affcbdc7deb2250e10fd3948c2f910a8b1ffae 0x843804be4ba028bf72a208cae1f41ecb4d0548908f20fe1bfcefe27688f307c0 0x4a4b11629540fc1792b6a8c02abfc2d41bb0e7566e44717b56ed66127aa76708 (-0x2de77e0284cf5cea4e8f5d3024449324ca1c3395c604ea17f67ded963c6d0107) 0xbf1fba53f56263c357d81a085aff993b6a4b0e14394be835440b3bfa454b60 (-0x3bceebd96913f62264f56247673f6948ddc3cdfa10650b5fa35b811912beca8);
  SDbl 0x148eb3d64be6ad476a0b946cf6404f84339da9f8a04745525a6e3db591ec31de 0x9eeb0b1813dd6f6c42b67d53b747e3d7ba0085490d162512a4d6c9b14f159444 0x4b68998df4f727dd6fc1914f98a23f105cbae3d962077d092e4d160a8577f786 (-0xc0eee513a85e9c21cecdb20b8ca40c89d0d10f1612446fbed60d97d2b25391e3) 0x1a69ba57d943c2873dc3b4749e2ec9bfc5dfe225c73e7f570fed448e9f4e740 (-0x224de8e129951e772aee0166775773f49571c7aabafa64c1f3db83a435582fa);
  SDbl 0xcf34a41bb45062209d094fecafbdd9af4d81b249f1b45bd9b5d98aac9da408b1 0xcba04da9b168082b18445096c2feaa62264085a9846bc96b67f2bab90311fff5 0x2bff9c728a9011ada9a1175f5902e267d020089f496c1f4fbc1c482c9ef83705 (-0xade2c0fda8a57757008b0affbf9a46a858fea4d669a6d550c00dfa30abf8911f) 0xa7b62c3889c4ed97aaa967f14c382acd1aa65af92ee95ce09cb1307f64299e1c (-0x242fc24e5d679ed6602893c875347d3d8bc371c4dbc55a33bfbcdd28fc47d414);
  SDbl 0xb8e54d4e649cd0870e674f3ff99baae0b5ab4d64653cf869f9ecb1dab772dc56 0x8eaa70c2e371dab87ca926e539307ceeea4a9c238190ac5f1953e7f515fec9dd 0xfebef7a110652104ee21296650237c980cb86d7a9c3c43e930420bd80d198e0c (-0x1a6589be144e092bb7ffd7a784e843a4d15a31f582e2df6e63c881d5a5e6d8df4) 0x858a6c849bc4195b9ea3940a9c3eb3cbba981a66ad2fe49d96e5c4632de6dce3 0x2c07511d48d69b08ce8b61387dd496e0169a35958dc0dc35bb482fcd4670f901;
  SDbl 0xa3360c1968c6cafbc72fa09d268e01a9a7e22deb2421762db080ad0f6da8c902 0x8fefb3e687b9f39dd91db78fb3d6bec5f76841a18ab1a5f7c7962f369ffec0a6 0xeb8a6d11869a618c3a0471d50e98b769bc8e8f2ead31ff8e2984284eabb5f0bc 0x564e2c45e7b1aada50047b86a0f08a2ce0f5dfc0717ef0d65431bf455df54a28 0x680dded1dec59d846561ab48d563fdc1eae8211df0ff140e0fd09270a788305c (-0xcf5e6b3b5c478340ff90194e624ec3fc45059aa2209f41f0b8f127b184c2a6);
  SAdd true 0xb0fd80dad382213714e3f4297092c044019c1e730c2c7fede8cc867d09b2175c 0x157b5764fc7e12a500b8e83b5f51bdccc5fd93a571a68f4ef42e110fe3dc228f 0x1b1a27b8e1fccdafc9a42e9762a6ba3d5cba9e937ee1c5e91bb49e316586065e (-0x4069d65a380b725beee17c3091035a3017fa5c5ee6b006c33f3cc7cbdd89b2f8) 0x7a5d8c354e9217a5bbc23d89658a0a5a72a1982d21c6065749c1646ec115aeec 0x54a9423baaecba3baf8fa751188242dda9ce421da66bd5a4cf9132d19d9915d6;
  SDbl 0xb8f94dd859520093e4ee467b77d0e47efe3b091752cbd8281aa973be83578e80 0x9c3ea5f248b9f2976a1d26707a0f9c2650a759f3728227f26d444d352f1085f5 0xa5b68b178ede93483c4b3f2549e83e32fc9f0e4eed2820da4e987ea4de4a45c8 0x21c1fb2bb84f7a148ded360df064e2427b26ab582eb15117776876da505c3da0 0x85a752b00c96d19bf344be676819fcc00555a1b79ee55f4f4d3f2f8bcc768b13 (-0x615f9d67fa09a4ed80dfca2f4f5b42cbea7546251e750bc5db312b6e19316cda);
  SDbl 0x1d3c7d6cb16c5443b29757ae0ac369320078a88c135933d0cf13b796cfa20789 0xb413b805083a471020e30b4b398831c0cab21ace6f432cc1b27e2cb4b9065349 0x847e159854495596c5def120f9d754c9abbfe8202956e7dab090dfe8de703fb2 (-0xf83b9147b3f55510fa227a761726496713cf802004339a0f1213f6becc462aa8) 0x356c2b5abefcbfe7ac9fcb04ff1b585cc2d12d3226f6ffa3fa2a5d5ff8a97e2 (-0x2b8c4a9870a5ef4410ed8200b06be71e6951bcc4260bcd61b751fa0daf54c92);
  SAdd true 0x6861099a3a23d41eaf1915d34be189db0d0d0659e0184b84125f6b30418e9dee 0xf4c29d5cbcab9245449b9da4f3c40b9986506237dbbfda8325693500b0f702ae 0x9a9232b394fdd081f262ca20f10b8defd233288356d0a6e4fc2e10b279a6cde9 (-0x34b91fccbce15380d3e92eec33dde03f1b5be5296d38f510595aa491fed7b836) 0x2a8efc95c1085d15f3c70e3030c301188e5c10399d16ad3bbc53be582bd4017a (-0x1a5f91ddbfdfb0eb2dda0f236fa72b586eb2ccb6e85485582da603bb9b8ef17f);
  SDbl 0x76221434c32a18c2b53bd36c6649536584d03a4a38e28923bc7ec9622ceab2ed 0x5e070f17be7d89e5c034f247ee47f6a3b32c9a26ecc952fab9403abf3ae911f1 0x2f96267839001cc74a10657d1d350b22fa6da77779b165b66d3e0929f3dbc79c (-0x22f62c1cb9626a6707146a0218f531ea8460ff17bc9a0af00187e85ad77c3baa1) 0x36836f2a3a0a5e8abe974d66916697923ba342240fa2db13d23bf89f8e84a7e4 0x458e8462b0016ef32cd662a9c66186b4e2b884d7738682f05cfa0bb3e8754c8c;
  SDbl 0x89a76b3d75c7b092ec471a3392198f736428d3ee6337c3977f74c34c0a9e3753 0x88b7f9a17d8b97643c048faa5027963efef11b9cb03bc1c87259bbdd80cb57a9 0xeb44d887b0316aa0c58a9cbadb21248fb5bd483df0e684a5a08e4deb1c0c0a83 (-0x346e9ae4c54f00bc2970628983aac651fd55011f9a6b7e97cb0d15ac8afcc888) 0x4a049e45293073010eb9ec82c45a2bcc6b1fd73f22fbdf6c10f827f92434b6a2 (-0x16f498ceffe25e094a94ac3c68596a987000c8a00b142dbe9b1f781673310b39);
  SDbl 0x2043f18a60486f9f48fd34b0f5711082bc5a5e78e4bf8f06021a84ccfb3fd7fc 0x5d847e005638f315bf5d8974b60a56026be22d11bce19c4fc0576c9022897ac 0xc632baba56b1c27f35d531906f0bc46d26c36332061f933aeadb316a0c0c44f1 (-0x9fbde036aedda8f0918c0bf71d7dee92e061a0f95cb33c2f5208e86813b7d338) 0x4110e6aee776451828f8d6533c0c1f5b4e9112f9cfdece0d676936fd77e06ee 0x107eb23f194c04cb07b6447b50af0f87d18f451028d45270e3db1ae78262d768;
  SDbl 0xc344997f673f99de9f5f7d933f258052d3424bcaa23cb6999ce6aed9884e574c 0x9418535b7563a592b619abb54a024306fdf91577fdc3faeae0ffbd86a2c28cea 0x1162022094f459823470ea269816ccf96c5bad65c472666c22a7ff1a9254dad3 0x12df50481cf26275bf7105e77035ea24a9d6f5bbf99568ac02a2fe63fbdd45595 0x94f1943a93f4db3f19b00248a3426d6bb3eacafd9a8dee02806c078696fefdb2 (-0x6c80e70d919c4c2dc0f2fb5bae56a7605d35a926170bf88dba279edbb8adffd4);
  SAdd false 0x25244315ea50a24e4808bc4af8382d00edafb82a6e0faf8956ab4fc1bfcafcaa 0xac70c819f88c8c65c2a2c71cf1fbf3ab5b5e993d65bd8afbd56476421949977c 0x48a4ec24944d1de2b7b7b8d20472c2af3d79224a5794e92b692fa038e3470fcf (-0xe1ee024596cc72414b02738574253a4ed880ff3cbb0c7700088fb6746c25036) 0x56380874add30a60e5b163206b36e04d8f950ac906e6e2b5cf00f048db17849 (-0x3883bb1335f8c8cabbb82b4a0b30342806410c1aeca90e43e7addffa11b586a);
  SDbl 0xfef6c2d28c223c9916e795524f048d2c39408b01c7cdfef327002d5cbb285d6 0xfbb7de7b3499a0f2f07ef93137b00c2c0eed67d04be7ac2ba6add35bb7cc43ed 0x12906ca82f190b2f849aef60fd24fe081eec5e4fb754639a24658f590839f9c8 (-0x1536c06b720bf470fc5d9ecd53da0aa7d62d949f34a4e1fdca261a5943404f7e7) 0xfdee9875cceba41025501e2e9e9e3cfcdbcca467b56a583af8150422cf6401 (-0x4ef4f2d95ca5278693b1a9d89b8b13d3fda29f7b2a591bce9b47c0b2e1a1af3);
  SDbl 0xb52dd01a6d79df735a1bc4e1aac8211421d8df4f91b17e140629d1c7e0e3bb0d 0xb2949cd19a323c6a1342f20464fb7dc6c8ac3ce5fe1d1455500dd91e95098725 0x20d00b851ba4921c4009106051dcc605f286b49a47b43e91adc3061da56bca94 (-0x2cc3f58688caa76f47b7c060c28ad49e80b79766638761c64b9a7a4290443d218) 0x8039d078b17d97ead424623dcd5d1d9a8b228fcbaaabc800d83825b402e81056 0x33c30413daf38f78e64cdf2a5436031605d14a2151d2e6424015f8a344841634;
  SDbl 0x4b0bfe45b17daaa019c5204c6eb8bb3ad481b031d623c3f12e108de6693541e 0xb9c12c529d76992620e94af691d0397ffe23773526d939cba837a6102d628eba 0x53d691de62ec8a36efa574b8624e9398bf5c17d7c1e5c9da0415d8f002e557e1 (-0x174853170000bb187fa06983eb90c3e80b991254c7a10bf4715bfe0628a5678a8) 0x1600078cc28b4981c2c9b271d84b5075eea0ca3fdc26c4edb5d873b95de980 (-0x21a641522f892f6459b92e840abd76d9f1b9c754bf547c472da74a8e341615);
  SDbl 0x1bed1d7ab8e07409f3facbb1d7a1caad484c4a246b6dd8ab54d740b036d792ec 0x52abd53555ace603f1a5952304c8ef1e727ec080969bc5c438292f3a29b14ac4 0xcea3e80f64af43b038af2f602a7c2b9353763cfc97c6f703ff5ed085624ef8a2 (-0x1820fba1d5041d050285c93422ec9355a5a02b14f3872a59817261f6289140d6f) 0x30bdfd77eaa90a0084b7c51a4fdd0321b29b56eeed3e580a290cf56d7bc5ea8 0xb3ebad09d6803891123836489455ab52a2d0633c54c5310dd5e56b8ed6d5dbb;
  SDbl 0x52dc455ddf0b75788c747906cc2c9b30850ba72398b8d09302e6c1a813cb581f 0xad8356c337f6f3ea1723f27d40106d49f648d31b1fa672aa1bccadcd4640ce27 0x7f95328b609c663b1bf09625583b953c100510e65d5a3299d94fc31f1b151abb 0x35ad0296bdc6409e74c413ce41da6e57af0291d4181f646537fde9f74b9e1af1 0x1ad1d9f789d84992a8ff9bc3304f1adc142caf8098e6df912120d4f820240fee (-0x1d6731504b2c7abd8de63f9dece467c787c22cd010169404580e5e342f8ffba6);
  SAdd false 0x89a0056409c5357111c4e98c2ad10efe7e7b7f742e3fd8768a458f38ada50250 0xa1724f56b6c4b8eeae11ab12ce227454eae3f06db6eb889335d9bb3831a43fdb 0xcc3fc4a0eeceb73796359f9c363e4dc163468c34e25a8542681d3c67214d86b0 (-0x41fcc1f82d2edf9867548e76671f312b55c17ab66bf21f3304ae53b4ec605d5c) 0x49fca9cc199b02fb427d9bcc08ea07204ed486704dbb2f2b7d51dc12900c29c9 0x67ca7dec7b3329f04c3f06eab15c5a26e9679802dce8fff1e605d157f5d91ab;
  SDbl 0xb1d293fa30be4cccd6cdc8aee173e2f1d90157b746c1e6f7f8dc9155e3800a27 0x1e2eb08b1a181150178a23808e7e19bcb9ffc46c2b8e5662a0c621a23289a5ec 0x9e4bb060f21d51e80dc81e7dbc22aa80e1f570ee46d90183ecdd7654e7ae7b87 (-0x15b2bddbf86b37d0acba659fddd386adc9aa374cb05e8493ca3b8e5de0943998) 0x7b84ddd78eed44be992f66e471e69d7b5539f931a0c74fb320be5a21446b13b1 0x5b2dba2382bddecef16e7f2835842488abd36935054c157d7860d1c43d6b38ce;
  SDbl 0x9b96d572f46fd5d408142ca5a6efaf1a2d42264886a4986add7a63559384b948 0x966e0e2a7159232f334f9bdb2e66fbef319f2850acdc0559292cb31b31d9bd32 0xfe185ca78ad7f66da4f6ad265651fcb7b2da4b806d7c8157173a456f44a23aba 0xb5bd4293582dc12460f8560396387712b9e0d29e6dffb161f6c5aa7aa87f9abd 0x5e8fff58673e5db67452ea2b72bc301350e75ec1338e982d8fa68af74e93e4ca (-0x491537135634eeb9ac03c668857e69e1951e9b2266f9f1b8befc7acbf23f280f);
  SAdd true 0x548ca01b3cad9907803dad8b87090e1469aa7aaef17becef2119921be8420089 0x9699993e1c7e7f7857f62945a02a48f454e1679552405f747e65f7b85b04e9f 0xc6df35f620870e08f374bb971da09cc47fca5fe509a01a4e9edf2b51d22c31d6 (-0x20ea52748977893368f4c86f4fca73f4a3d5ff69ff1f06b6dcc41c12463688d7) 0x1bec96517daaef5ca4512a0bdf3605a26b52b74768007dad5c6b453d54323747 0x2e92ece321c828fb916e040d5397c5bb3c55be2626d997ae5b7d41e93abc3fe5;
  SDbl 0x1ada1edc89d9355954430c56eebe4c998779c4b75302c08e97d8ed0209ff92ff 0x780e49ac03151301eb1a86298ccdbbd8fb78ea43d443f21293568824dfd30400 0x50f3420357141899048dfac017932c5817754e5b7c588048ec8d664874e559f7 0x28ae71fdccfbfdc412651fc67084e2b6a35909e31ab1776767fe3a16c91873ec 0x2d1081d62245b2e8374508ed2e1e286d5480f0ffeab0d21e444dda3d0c9c73d (-0xb9aff7711475d1552379b982bda7f4e3e7768d50b6909c7ccc61f98104b7694);
  SDbl 0x2254e2f2ce97099cb28dbd7badbc7311dc3b9aeef7c1812d1f9678ce96cabbf2 0xc821e4276822684624e5b9bcbb9b517f25c75a26aafc663c5724044e7680d9c8 0x6f446d7e5a735bfc1e58825748b12a5af490a86373964023dc4bda80e7b61f2 (-0x9331e4e58378a23545bfba8f58255198b200960b57b53693b52187f0b8a8f0ff) 0x49aa86e3c03f52813850c99a3f0e00bbdbb9b5c4693a1238aed86537a437104 (-0xabd27f0602e125fd472a21e9b7d642dc2d05930c09ddd561559945031521507);
  SAdd true 0xd8fe756640b65dd75bc62117e7952b3e09b2c713d7eac63bdac6bcfde28b1644 0xa850f4043f243fae41ea4ff84ce9436109fa17ccaf8665eb1d3bbbf20edbf1e1 0x62003ad79524299c3fbda9548f0fc67ee3cebe39e2ccd4a32f98fcf93c1213c7 (-0x7e9b1c87561e256e5c8eb3f20f7e032671522c1b12dee8e542bf9dfbd91d870e) 0xb7ee630a71e12b46678ef29de46c2c6f85cf8c71fcd7b178cc72448078e17e60 0x1af7ea833b7baeeb55e1a43314e458f35f56e1f827e096c19cd5e29ebe65025d;
  SDbl 0x1c28077d563d1511141157911a8be1c35e1094a2de259bc836b289836a50b9d8 0x8f34e5eff042a2e6ab7497de455b25628d9f10a4763bd82c3b8e6f89eb2b231c 0xca98362594112ab71972198e68e77a56d302f608bba20eedda52a267556433 (-0x136705af0ab571216cd8de61477806ec4943f27be68f324148e62704da0f8c690) 0x318c7e5c5592facc2eddac0ef29388988f82eff232c013683f791027af9209e 0x2c2fea87e1ad79ca885518265aa23c0a2fd18cff70887ab4295fd45913ca4c2;
  SDbl 0x9e841f793073ce9c4bc3cc94f200cdac3b0b4bba8b98878a86efffbc5dcb5696 0xb3cd5753df175f31a284ea0d1de54fe55597db989c81f25dc139e4c87782dfa7 0xa99277419812d9e2e04d0fafbe1c3d221e138acbdd359f9a9e91e991137541db (-0xef59867023b3e54104408c36903e18ef25e351e7faed942f672263c9c59bae97) 0x62275b0a72ced89b5431770516bce51ff2acf1d76d994d3388bf6520e2ac05fb (-0x16a8f916044d406bb46f2171873a5768c8358470aec85e1a9922f9dbcf3d2e80);
  SDbl 0x65e3b72d61d3a6dbee52915a2f965025ce8507d8362f566f382ab589a49830fa 0xbdb614169b983f13d0606f4688aff48a92048e18d5633b488a16d2520ea09bc0 0x42b8867e755baa568fdc8f4f05df64ddbad5e08fa825031c25ec6834e6640f5b (-0xf3df27f8fa3dc6440f86776bf03f336ebba65f78068c3acb4d2c855b44c5a2ec) 0x288d7918554be203ebbada9dd5f5487215c25c89cf37d203d08953147b67a6ea (-0x3f1a2ef599f6554299f399ecee9e51d9015b1611468fe073fb5ccfe2d004e60);
  SDbl 0xd272a2dddae874345e3023215feb5453b2fd4d149ef947d650adbd9614feb34a 0xbe5553c804e20929862000022228c13a42fff4593c5a1e02207eb9fb6f0f483f 0x6a367a5e32e0b2006a88fa23286c4e633d23d4158b24d89db74ffa1f344d49ae (-0x13810939aa260b35023b960e9e27fd4d334cd75e9f07c150403892ff9a39ff29f) 0xad00468a1d5a25896a20a4a704df40c36e02515b896f33ecf1ba367bb7e7ee5b (-0x82e98f3632c1d0af6a33a38a35fe5baa7af2a4bb3a853974230f9590b1fd41);
  SDbl 0x8beabe00e1b24293dfaa090c58cf6268f4b6b15ba327205d21a2d2155f2050e3 0x51329e8aebe2547a6242d8892af70dbf4f6e1620665ac275479ac76e22fa30f8 0xaf878c515f875dc4c495b0ecd7631242b22bb7b772bf912b530752e8a3079516 (-0x1346e5c468c8810065fd20ff53b6922851c5cb0b1ffff017a7cd02146154cec14) 0x4c78c19528323ec8d5381c9dc3c6818a121a896d1901c61ddff18a0a34ca182d 0x3ba5eb2234cc7454f1ebf870beed3b531cfdeb97bdf68f474ec494dd877b0acf;
  SDbl 0x26c2094af8ab48c568e1c4d46246ec0d2d2befdeed926c360eb20a81d08a749d 0xc81eca253f912c70e109f4615f30e7e23d780c9f61bdd1d28e4a8c693cc15487 0x4503c36537607b192f35a08bd3ce68af8abb4eaa36d689eb7b3a4e8147a33f99 (-0x181ce32b9a5afcf1329f9cfcae932cc319b6126d4aaebab4f2db67c2a8e6fc3f) 0x5de2dd45da8467a03ae8630acbc6fa62f04a78751212f4520a508aa74530e2e (-0x120131c326b1f3ab7e52bb6b7374d57da26940da99292462ae38959caf01909e);
  SDbl 0x3ac0ccf75ba20dabbdf231086a6751d5143abcdbeb87ab64320abc724100e120 0x8688cdc6f4c53a3287afb347f8049a20883e34c79e2d480f80cc6fde05375ff2 0x20669344c055e0a14aba385787e56f19fb27646a0501e50898523c1e846ba66a (-0x1b5a2b5f9fda91e750d405b554f26344c884189b570ad8f4e4f2e91b50a363ab0) 0xd7bee143a25f866c72156581299441d4ef1b7bbd02fa13b46f095dd78c0c500 0xf0d602d970325b9ebc0fe24747ed9dc0844cb5578e0ffb580ba3ff4c5d95e63;
  SAdd false 0xc293472a94982a15b9fa1f00d807517e5a446b0040b608a65397167c2684c72a 0x24b1a3baec5349dcf2a1accf3b9f7baf3e9a3626d6fdf38a29236b0b9e2a69a5 0xacc3fe948dc29bac43dc475b4be934621127e3914efb6aff14c3edf8d7d3664c (-0x3faad0db0f0ff1e2a7fc36041f491468e9fc1073a9838dbc634cd70df42094fd) 0x93e38c97ebc978a2ae224c44738b5006642b516e4e372be0c31647c4606beb7a 0x4a5d579d806d51a1df87184b1ffe338199408ed7ce11c505eaf5d6ecf2f4c914;
  SDbl 0x8e6a1ad1ab68962503eb446a00ebcdf2055c3bf94db272fe704799a0d6c0b1 0x370f5d0b96274a3be27f756dda61e9a951d4ea7bc35315c33244bc56ba50a460 0xd88223b31a495e44fe1032855784e90b214a71ea8b96e66eaa5c9bd0a281d0ca (-0xf071b4c4b951748e4ad75091fd1c5ffa9bbaf5d999ceb949541af280d9f2810) 0x4f39e1bb21d31d731adcecb95515683ccfe8b9ad42cbe909ebd7fdaf7d49 (-0xa37998613741b3ece8d04e21a843a5366fd859a06e048648988be6added9f);
  SDbl 0xd76f2f248893ecbb7abb1f4bba7c970d2fb989b162a2418a104b80c942c562ab 0x7811fb175b89a7443b5301e1c2059a77c340beecf3fc9a2535fcc5c8466d476f 0x2e3f435195068c82ebb7e8e0f0917af1d8a18790069e09fcdd138066f975a14b 0x148dfd7db9dfc774c43cd1c246c37f19f655edf48d54b4de775b55c7bf475d621 0xb54bf179fd1148c13330f263b0d883a8f7f9a5b9241714491c49eede8dd931f6 (-0x36b56ed762a6f819942e6de97909be45f202463bd9ddf6a6f51b62727df0e4e6);
  SDbl 0x58c1ba6b16dd9b5501da7802f92c105d7596e08e78081b98758cc18b81413368 0xeb152050c4d1ac545bdc32641ce67e59bbc4dad14ec5f8e962c71401fee61611 0x68ab9b82e3b79731b453dcdbf8f6e9e03dac0ec4626e69fa02de1b144f444c7b (-0x88e118f5f2082efd78ad62d49ba0409d3ea91782a50608e2e7e3a357368ea890) 0x1ec5c2c45bb661b9282b95ed5651067b17120f5511899f2b976d3638969e0aaf (-0x27e01deb59fb592535213ac8eaa55a151aa1af2f9e80a4f065b4128f9be5da6a);
  SDbl 0x71d5e11b2626016cd21cd8897415d2ea5082a5127978b8c2eda94e92bf52a4e2 0x9434b76aca145e357550a5826fb49429f0076a49bed63777748bc2e5697f5173 0x20ef1db9c0dfd006ea19808cbc868549aa159fce481b7cf7e0cb8284f4a277b5 (-0x22a88fc4bcaf9a78fba186808370bfd4285a7fd2d0eb01114469e1371d207d9cc) 0x329e836a876a47dad832476046d0fbb03ae8b83ff26f27b5edfbb46a20512611 0x26a1a369647839665f50635bfee2bbca8501eeb8d6573f82ade3e4eeac9bf8b4;
  SAdd true 0xd091b1ae1ca50f5250a14504f250543d82769f0f1c2a3f7006976a6a3e8b2e4d 0xee2d17edf3abdc8c923aef1b9f524a3998066ae74188195605e984074887740f 0xad79f06e74677e1c46471af52bc93a403548caff9a8c1fcd25f00e63a67d7058 (-0x4f627b99323ed8349f64b6e7f73baba4539939649c608d17eb6eb2dee9113f59) 0xa9ed13a65b07f98eac128d9244c43628d4503f4d47c2f42f9417ba9949557720 (-0x494d028b71001defd3cb3a2c25277e980023cf50880b34478c3e436f4681a707);
  SDbl 0x36248275b28fa1c757c78eaf05fd5c3a35b4d181b356e43925fe1d52ea78317b 0x5be264d14baff6c861c70cdd85d96bac350b65c169fbfe5dd8d77e5af35d2cc3 0xa735b58a0c4a02ec6d9c4dde476f122a45d7522d12f4ce4a6ad10f99a18330e6 (-0x24f66b4c8527ba5d84740d990248bd41263a4c1f93bde5e8bb7926b860ebcd9f0) 0xb736c3ea65dfc5ad39b3f990dafead3bba6f74e3a9eeb41dfa102ba3b8bc3c8 0x1ef09ed68b89ced7ccd55cfee395c5f6a691e45d76c22f4b7c5b648e616ad3ba;
  SDbl 0x1f4ce19ec941d235cfe1b83b5488cad7c2a743e7656a49c911cf39686bee3833 0xd86d1cbab72c9b5701e535839f00143a2cd09c63ff89e5bd0ece8476b0cdaea8 0x168a8e2e1cca18bf83b8dac6da14d1f91c613ee674e830cb191e19d1dce97edf (-0x3a0cc31209f1369760e5e9693afb33e22b50a004d72fa5fcc5b7398fb0cd460c) 0x3d3b5bb35b1a5fbccf83d7bdb839bf4219382695b6e610a23ee21156a5dae05 (-0xf3a333717b4cd910b5f97cdc524b12428390828c11c68b22cc0a6b1add9579c);
  SDbl 0x6901cfb1a98f1da23a8535e071aae3bf70b9f2c579b97af0139d908fae5f7244 0xb2704bacf0f67c1bbbb18ea0df787c8b58b90223d6786ce05fa8109fec6197de 0x31b5524f96af70729a078abb705211cf3c7a1e0b66bf3322f241b92ea75a608b (-0x2126af2ad750b85dc7e13327a84c74b94d834824aa4d4a124ad87724a0de197bb) 0x2b127c63300e0151d97556a90bb94b063b4f85cf62297b2097e90eaadc84531e 0xf94f68d50eebfff2387141e9c4aee3bf1f12604b9981e41f24ab40c7471ddc2;
  SAdd true 0x8c6799f7b5df95e8ddcaa87f5bf0edbbdc1629b8acf94173675a4c33611ee430 0x7b15052deeec4fdaaa4ab4e605ed806c88215a74ff4a331103c51fcf3d8ecd10 0xaa23f668174799e58c997900e16a5cf68585a6f197db7dac372380c1b0767f63 (-0x460584f832099a7b54fba89bbe8f4b1ec59dd68f7fc64707d26ab0d52b375f9b) 0x4d017a547ddc674b89ae1664744ed748eec9897724c8e81694639e31b69750b5 0x1e5c51920e1a82652dd9bdc841b9221f0d4284b61de72fd6ef0c4c860187614e;
  SDbl 0x3072cf54f55bbaef170240f109a4d43da9ac09518726347ba3290a9038662018 0x9d6eb12e3400979253dff4fe6b121f97a246c014f3fa0de94565d11a0320e271 0x9c016e6e55edc335b4d304dfa083eadd6d3a6e328c90f3ab736cb064c00ecccd (-0x71218616d52a74351bded2018f65ec16e40402a7bfce3d1ab1497a3242ecbf93) 0x92b413d34c2ae05a1fe0d2aab4dd7f87bb7bebbc8e6a40ffb6d3ef067187a51 (-0x680380093ff90fea6353504b6610221426fedc85aa900b312a859b30a7692b8);
  SDbl 0x3771f22216b76d9b67abfc42c9b68cd9348e8d938f49f8adc78beef2a8ccfb4c 0xdb08d4f868b86cd4907ca7ecb0c9dd5b47b26748afdb19d28f6faa7fe027126f 0xadf84c873e91edc7fb4a3a30bd7241b8f021c926a754ccca16210bb8027e6d25 (-0xdedf61bbf60ca194971243e68602f1fefb43f96087964bb9019f50f265787618) 0xc0228c258e17f46b895e30d69c329b31818d5d22428f4845799330eae9ab8c1 (-0xd5788fe34b19648568d98aa161d5f980f29269b1ca07abb8bc52767a0267ca6);
  SAdd false 0x98c5ab30462ee7f98e609161ade1661aa5434501e8c7dde569c1d399d67debee 0x44eb65bd3ebbcf950533f609dfd8d31014e1e79a9fb8f5d166000278ed35a21d 0x186eec916c56f36163efbc222d81e7539932e1ce373472c51c10288001b7a793 (-0x646a6400cc289a12a936a7f3c3e1db673cc6af13c0971556ba3b18aa56b89396) 0x5b2b53ea99489271072c70f3d62d067529f74313d953c65bc4c8d7a3d8ce580f 0x599563140b039db5739d0a07945c94fab10ad0586a5aed1cd0f871f4219a627c;
  SDbl 0xd7425160b80a3732d31bec3869fd67ba9f7defeba22fe1e589d8b8eaf029ea34 0x87e743c828538ddf966dd299a1a83bbd27f2e2341dc262d54ed3ee9db8e1dd07 0xe163eb4b19c29bb816ec1e1c16155222128441bee316e07d7249280b277b978c (-0xe92b96a99316c56d406cbb6627cea8c0741c03ce3d173059daead25140aa9e0) 0xb50075df39dedcdc1192dd800c7588538b8b4e1466bd37e20c7a6e81386206b1 (-0x3852e1b5a12df785d9f0c1fdd54781ddd141e1613f7134f53ab4f61b3a7ce559);
  SDbl 0x4a341812c7e4871e560b29646d651b60ff42b9187d5d701acb18b49d686d6a69 0xe4bfd1726914b49b07b22291a8be2087c207326018a897b74ba73aa579cc74e 0xecd7bfa95671aa89a7d58e0a2e83352cf2a6789c72f41505631ecfd1f9e43e7a (-0x55c7b0370553a41a69cc878f7a2ceacb5fdacbc0a4f5a9078e80272e8ab0fe48) 0x15822884baf70254ba963143eb155d615f90d8df1e9c5d337a410ee2afbb624b 0x233fa1692435f7282e643a14042d8ffae3704d114bcd248da3eae21139465325;
  SAdd false 0x8b044a2cdd2126358f08a4de3cccfb4d99b51e3af0b62ced670ae8fb0da3ef22 0x75fd189785a3b4ed2e51fa47a2694801f4986f49302fa2730f47a840b7350d8c 0x85db757d74e0457b931e1462990219ae19fc2b527bca1d5f23acc7ed8bb7985d 0x13ce249a82836544aeb6b03efe515fffab0ece07064f8e78d59c84491b8dcfd3 0x4b7da89f6a8488dab202bd86b1bc22ed89895c3e20de91d00915c5846971c91d (-0x384ee6beb7e489fc26c7e8190d93ec6b8f5138f339112d1a956060b8bf1cf2ed);
  SDbl 0x2ab10abb03fce15d54217579003dc81180bdeaa2150a7c6fac2801a63e9c0b0 0x9354506ce1d187ab4006c334be47f8f8665535c2b7c2debbc26627544ec761fe 0x5fb1938b7d90da7a393a5995f93d6f2c94ec328c4812a5b2af3729b67248c538 (-0xa059a5a914c484c1e4619101d4e4343eb8d15ba3155108806b51400c7a387233) 0x71e91f53b7c34861341f55664d33dbf21d72f1bb11635e30bb39d4bc90416 (-0x4e499b177e1f9be4c69c75d7d86ad53b7746d4152d61730ae9e0cb1c4e140b);
  SDbl 0x21943cebf20f54a841eb6e9754b17a9ab791ebbdcbd04d47bfbfe7e5b2957b9c 0x859a743472e51a2791305b8009ab7cdd5314c63b9a30282d5d39aa9dcba4a853 0xd81225bf08da6729eb4fc46cddc6242b38cc42632f90a316e0a997ef241cfdc2 (-0xe543357e77a263f27c5ca05612d7ad70081ea03ad60cd06caa3ce043d630c437) 0x4678d8b581ed606185f0989819a6269ff8b357c878fc277e627150059ec253f 0x1cce81aceee6950973a5ec350f302f3a5ac04c7970b571e4c423626078075c6;
  SDbl 0x18b975682e109895512b02eaea5c3ac541c629247e515a65d56e77fd347f8351 0xef1ddc58c1f33ab0f244203bf4f0938ba490f391a4fddb6d4720de7907204011 0x3a3f98315dea29c2a941e7d9cabc8f4ba8c3e491286f1a94bb713a7998b4780c (-0xa771164d5e5f17a3d84e2fe4559b22dbefebf075875cd15ec946b19beb7a000c) 0x2634c5e7171617799b72f9a37938eea5084e0e868a67b9b03154abe28af9116 (-0xa30c21db2ce9112430a8901790c5139a78608559f9feca04a0aafe0532b4d14);
  SDbl 0x184429198a33819020057f8683402fbeead20e1dcc0bec2553b440559ebd5eef 0x7dfe03de668114a34b55ddc5952f22fb6584fa1d22bf95a55a4d34489dc13441 0xc4e3c4f4eb5f47c2e80d7a6d5e2f235a2addfc0150d447f06d059986a55677e (-0x292ff5db8a4d455d80897f3d3a4fd04771ea20d73a042bb0076fdf6e6b3ff7308) 0x24cd9daa8611e534b1e339c8aa136114fb9b9769cd192cdf2d0194057e75142 0xab91aea66a5c2b0d1fbed78b149a6a0586f12327ec4d45feb9e89a8a467785a;
  SAdd true 0x938bdfefd66a087bb3c9d77af92512030436a5423124353131e4b59b030e971f 0xcd471324ee666a0235628da8cac4134bf56c07b088647d5bc456bc899c4b5878 0x7fefd2bbf68395defc1e0b856de6d4dbb9ef1d687345d795b56aea6517718b05 (-0x2b5b06247d56a89c565f468432cfb33425e5eb8289ce85fc5442f43ba15b5118) 0x5509ef9ab79e44bcc6c61bb1300820b8e8cf47db874b42bd2d600871d2bf6bbf (-0x2db245cbe4f25c36456a39d3b49f952e779e2a88f88da42f057a8bb8902039d4);
  SDbl 0xafce45dcb0ff01df88b1f79c9e8783e4aff80b73aa14f7be0de786550e4ba6fe 0xc402635da8be2e1df0e2329e4ace33486c92b079ddea16acf340413845917a25 0x24ff308e39e80b364e6bbd017ef2e3a447722c3a130088dbfaffbc947b169145 (-0x13e18ab47910c2929aedabfc4fd9575dd1ff7f7dd615cdb265a0360c227e0312f) 0x78bba9b8b4f5de597d4685c716b97a1b00561b1b636e30b69fae91007065c711 0x65d6bf63225b3a3173a703c42394f8ccdfba0c6e87a0d022a97b7dd53a2b3f0;
  SDbl 0xdf7e43e2d86226411cf7bb887a7753f0fb914bcaa87e95a0ed69728f67a28199 0x45a9a4beb99017cc105e357df9e97021609106d6ce0a69d9704254d461fd9c2a 0x392942ff9fccf38a0dac7b4763a95794abf3d7c3e71294393a3c7e877ac53bb4 (-0x181a1e31e2379b6761e053fafcad56389d9cf7bd018dc6ae558aad3f8a2215272) 0xc31d388cdd65be161a2d40fa7be5df0ccbecfeb7465b911110539ee587e10303 0x6e4d9f3be1e7aff4c914b5d1f45a36e85922f44455a03ea8cc2f56a3f9caa6f6;
  SDbl 0x40cc0286726559809dc30dfe8eea81b220bf57cec53696b1220ea99e57b96633 0x49cc125ce9e9c8c11f47085281c7790f2ebe2977d1d9fcd8fbf69ef432f0ee3a 0x4fb908e1a0a137039dec6b36f125f7938659645276116711ebc88e9d95eabcb7 (-0x1beeed4a0ee66b57c6c2733973eb0df4bc80a30de302ce03391816331d7b950f) 0x1066a3d74fe60283ce611953e33da354752f8170a1afe93af30e41ed6e697865 (-0x10be6e157ea6f9d5e112602ccc7b18f3715053187fa62349a4d9aa99e944e65);
  SAdd true 0x7613b9185546edcd80277e5c781b83f650d53ba6ff80d6dc8fbe45c9c7809ae2 0x59803f6d7539a8495094ed06344d87f7b0366d6b0372afd716794d8abbb5be0d 0xf04bd6e84cbe0b5d8aa0c8d392fcccc948262fa47a0ac5d909043191d7fb8657 (-0xa9f2e617f7eb9af977d5de053bb68abc0be76a1e98fe2222da60689b5ee6691) 0x36763027a484697900919f257d709b92921afcd83088e926e967f5bd863e718a (-0x73e427fb25fc58111e03d1d1f10a767272f0e430d6f5de12d14250580d556ac);
  SDbl 0x1ea784edca7085b00e5c12e9e907e0ed675c610861e9daf30d9cec93af26e33d 0x1ed1f11b4aeec62ccb567585ce2b48a3f3533edffbbd2f47d37fa202ff268d84 0xa6e79c2a295ce583ff4057d49abdb69ebc4ce59af4f3aa186bf16fc017ee5e41 (-0x2453022f7b370f54b905bf5659d4754fe6aef09a261a85c5cc7dbeb5f584697e) 0x3abb0c67262448e9fbd7056c00bd5288e093763071a07a18aa29c74d0c0cd15 0x706d35b21bd6547c1026f0a3e2a926eac00e9eac66577840cdf5bad2e6bd8f3;
  SDbl 0xd7106db952d5a70a1f58b7c7db1d160321b3d451e890c32f0b3b0326a923c313 0x24ca66249f88f5c280041342b280f5714582bd614a0e2cf068463919214216cc 0x7366d7feb426a23604f39159c4daab4e7b40d57422d4b60719ba4a2dabd32538 0x10d4cd24c602c77e84dd3ea529a598f774d7a432278f1d69897cd4d7d93810087 0xb4ac995be401295689c3b5c3ef6ef87b78b4b0111d2a3fe40592e4ed1db73e6b (-0x5040c6147f6f1da7464c53e81737f6a6d2da597f8929f2ec7ac235e6dc9742f);
  SAdd true 0xe5a5f12f48e6ed3f7d3dbd4b84314d764edc7e2744f46787bd5ba941677e6906 0xca85c797418d82a8390dfbea820309fb152e27792ab28355d2be560ac9c79a75 0x59af5e69a5825651b4a03f6e217031cc49b4547436b923997586e57644ae1d72 0xc89f1ea6138bf4363a7f56cdfee4b0d7e470265d9a5d4b41f420a0b8a12a486 0xce024d10309d7b303ec4be5078176e2129d65dd28a01b76b87689cb2bd5839e4 (-0x94ac0c15f1d28cf9a5da388cb750f16fffbdaa0936355a8bb46c5bfa8d2f5660);
  SDbl 0x968582782e4f392b920726d93252edcf31a1d2636e59563748f2d28c49689078 0xb491f5894437d19a79adf7e0e998006e680265991f7a0a6b67087bd7c6f0faaf 0x558573627078b9cb5d5bb2ec9f5aedf99862eb37c6c3c67ea540a2ca33496ccd (-0x1772f20665563e3ff6a124762aaf3347dedf02491bf39c18d3de5572389b6ee78) 0x5880ba860223f74a61407e776e341ade560f7abea539449b7d3577933778f759 0xce84ff07f8b4f4b29fb9bfaa0d00ca7f608fe9d0305f85ecca867b60b0d456f;
  SDbl 0x196d769645ec6ab37766a08b83111e9281015f7cfb0d9ed728bbc1d1b57d375c 0x8c592596a21a2465f252fcc2d905ea6639619c2d4fc68c37990a6227cdaa1299 0x7429bba72d293d8c7efbc750fc524a7866374cadc8756a9a8adfaf308af44fbd (-0x16d1b8a1bce9fb6eb5809bd523301dc3908bf122d5739d08f7639e5f776e97e78) 0x2868ff78f1528cd6fbea9c99424f31bfe61759f02a14dc1221bf01827bb5ee7 0x3febf210c42cfc26a07e0890f530fdcd936e7dcad9ac57dab305e820c279aa2;
  SAdd true 0x4799154f17e5e8b22e80d9fd7902bcf278171e7b7a19860fa9ddaf2f8bfef298 0x77cae76a60f2bb4d088c70d49c477d442229754525703c003d9d17351bef12c8 0x5434f2ff275eb607122ffd7a75f5c9914efda76de7c2f9caa867126815ee42e6 (-0x190dbe4edd04978e76d71a4707e9c5735031adfa41eabce1c2d70b11a698266d) 0x1406455c6d986f9ae2ad766e0ab78acd4fce6a8ee2a6c97a79ba01bec161dfe8 0x5bfbdf7792eab2e571cfdd3b4db82fcf63991d80bd28ee62f9a1ead07a91c8b;
  SDbl 0x631d9384072962af0d1d01354783f2696e9e5e1c3542a28dc243316c5a2391b7 0x9a179ce8f9cdf26d21fe448c21140b1ab2dc25de38c09c28e976d0d51b51b932 0xd4983164c1db6faabf00f06345497a6a4aeab684d6882a92c36344b2977e98b3 (-0x66f662e917edea3a94626b8323858c91a883e7f596c85cba68f231c87cddfc17) 0x265fe38304d46987aed7e8b4545ae042847e0538a70042aef75ef7717c350df1 (-0xd47a0a44e76a35001c12efbfc3b8219dbdab3816859eb22478f4028de4e24a1);
  SDbl 0xb8f4efe31a9d922b9f389b96d24d3b936326cd64265137bd5b677b429d6bbeb8 0x9484eb229c88b34898655846c1463bd5161f49c5c6d1fdb2126d599049869eb1 0xbb2f9d28533df26f262c74854009efd46b2279337be8575eebb3b37b527d3004 0x1cf056aade435e2f0dd87e228343dc021a4064e8453a7af17200ca0ce690b3f9 0x85a10331259816d8eac409bfdaca10d75fb501bd383e9c4387aa7f13d4446cd5 0x406c4d0edc1985f827353172220e4e561a525a6eab803e7da571b9b3169fdff;
  SAdd false 0x71ab1a2249f365ab74d168ac66f2e62b98c8bc13df170fb7e3fd34d035cfe7f8 0xfdd8c56949a23b2c3c7358d43f4d22a6b251e8709080bc9a84a350b3ce65b3e0 0x86b70eb29ee837a000be6e4a2bbb82b1f27701c7b02e4909edfa27b971bd9120 (-0x2b67304c4f60f1e218aa5904cc63bd7fd38b5e5eb9415c5a39a8809f19565ff5) 0x32787f6e643b25f6bf14a0cc4dab5b7483baf66236d5072fc4d57de7a5f74718 (-0x2ec4691cce1d86c89c6ae331788275ac210546443d66702dbdcd4b885b8a5054);
  SDbl 0x39afe2ea4fcc4ab035dc84e19fd2ae6aac27aaa104019e617facf2340cdbbf3e 0xd208a493416a1560584470efdb350f1f7255bf1053b0595ca8378c4b706a3bb6 0xd7ef057b4ab4cb16038e6d25611d2c9e7b4252565cf5f5ff2da3e381eb6e2f9f (-0x2b66be79ec33364e36021157279cca4f153ffe91582ccf51c8bdfa7117bb6ff83) 0xcffcbe46a0469cfad21a2d584658b18439ab94f8208ac1a82b1edf47a441072 0x9df716bfae6b7e1d4aad7b890efae21effcebe3f125da4007664f8c37af5093;
  SDbl 0x98d23687d35ee30360f1cdbfcf8548c6c0a250dde81baeb80473a00e54f64bdd 0x512af4ee786c37573891ea6c25399e021961f9ff0916f6b63f6ee775d7f63195 0x90fe826dc93a0213e5f718610fbbeea68f15607fcf1d670b4cb6000e312a498b (-0x10328144082285809cb358e3c5125ecf86f2c2cf5231e2976358623c0a7c9325d) 0x5b3a4d5f28af57dc41b7f0beea436264f4941eb058a5a94f3958e521cd936c38 0x4ced71975bcbeb6a0b2001bcb3168a9f22ce2323711d767fd41242def1be0fad;
  SAdd true 0xc97fdba801d0744a4b3d57c56400d8b932e841421afc10d06e47ad4605992816 0xfa0b9ee0308dd3e05af78be3149f2d5f55ba678b8c1ca99360f4b55562ed35cc 0x290b2133fa898bedd078a96e4df375dd5a1da3140fd7025a37625d23c4256a53 (-0x17ed7c613c5796a3ff61d21cb7d6cd42eace347467a1fb7758fb58a286bbef37) 0x9e9a06ca1e9e0b97330e0f2bb6c3b09f9d075da7c914528fdd7ae31aa19cfa44 (-0x84ecbdcaa36d2d6f6421c17f7146a98826625cedd93274bc8f46d120e8ee5768);
  SDbl 0xea46d0767ca3fb4b13ac7fd397c115ba6b5e57bc461c8ce19471be309c18764c 0x7b7390dcb383fa3f0364a05cd1c541039feec7907723123f2e2e03b39ed0e8c7 0x8e546f00ad084ae7be04e867fd9ef17fcabc949a5c8c479f72424b8b7402898e (-0x291910ae0090a2eb72c8711f0d13808d8f911a6298a3fe315130fba6986b9559b) 0xd66588b01cce3b24660944d2454163e52a80b7e9b1683a4d690c6f5b5fc12dcf 0x73da01799c353c2b0e8a60ddabcd91c921778a14cb12c6cd1c6e93bdafc8c865;
  SDbl 0xd3349496067d05d55292b60bea2e9a72a81b765f32fdae11665033b946dd5f57 0xd58a4da5531b91eb588d6df427b47fc41830c5d7ded4a46c9d95bd9f3a87e17c 0xb40360f09a91b7e305406cc1be5a227c708fa2d296ad71623168979ce431fb3 0x3840e26239fb466d4ac1e84aa00c3b8ef126ad589345160b445c42964e1efd8c 0xae3fb7bcb0224190de553c0d8ff3d91c3555929029ddd42d5c037fb724720379 (-0x4a533e81ef5cbcb5546e8cc67123c05abd5e72c375040ec852194e5cb9ffa63c);
  SAdd true 0x832cf79f8e0942d12dab5ddf1fea57f9c71ab8daaf735bc7ab81a70aa691f08b 0x2e73529d24d726819cd6fd163c8e3002592bcaf7d78437cb14e1adbe18f1fce5 0xaa8e10d272f727b0519986b625d73621fca305448687f0c4855e078d9c9c8462 (-0x5367b804e1c536544d5e39845bee07140bdcef01b948e03653bc889f195678cc) 0x43370d539cf2a26c46d6a3d4230675d3f4f9c33facffc97c2e1df4e3e34b67af 0x559e1c07fae2ac241d7c8b60a033d8919f38d62ed4143b7d80713b4744a7f618;
  SDbl 0x603b159efb5286529fa008a01f17eba8798464873a7b994164a801c7254a2493 0x8f9d7e3adef907792b76aa5dce227f4e987ebca84300c9fa1e5825bfff5c3147 0x7eda0cc4fb5cbe54b9e9079482e7a1195ce345b2b822be629973e09509a7799d 0x66f055fdbbea21b15b84f43354b4096573fe649788af110d55aca074755555fc 0x242c5dda59c59298f6357702aab754bda65554613fed6879dc2efaa6890a7ea8 (-0x24863d4824ab5e52888392afe1d0308521bc2aad992a303aa359dbebcd0e25bb);
  SDbl 0x934e19efdddf93f048e2a04e1c9a7175d6a6b48c46098a8e4a85ffeeac85ebe4 0xa13a04eb74a78904df85791c60d5e3fedbe40897071a346ad8dd5cf5567464f4 0x6f3b0ba29e41398237500e26bdc739a29665ea9c4867cb73489804388cf7ad0f (-0x5fb82a7f98273c705c83244f6a0e6d3e2f725eddc9ed06bdcd53169b4d2c1898) 0x54c2c99d9e5d7bd76b251b9f1a0294504c1cba44977ea222216e997c00e86472 (-0xa2240d1436f8fa6eb19d453a45ed554cbcd83c7d7a52aad418c189c8b820440);
  SAdd true 0xb9a1d1085e38b53f22c95e7e00c98cc644bb269e82f9ec7e9ab96d8fecded568 0x724ab19547f9f2d1a2428065949f4c9529064d330a449b88a4323b2b00d7ca4 0x7be628ad467a24ab2637696aa0f950759951ae1fdaf76ca2382dc6ad572c4da5 (-0x50189dad8b658846c65756309277c98685a03ddc54119444deb3b3f625a8b927) 0x869b466735fe69cf0dd9521327d6b276b02d527c56a6805206523092a7881c1f 0x6fbad3273dd337cdb9ca8a18e2632aa6f9f3e3960f5a9b596111134775ab0a34;
  SDbl 0x6021f635949935fd5a4d20a01f398f9be8dc111302a92b77d3390da6ad06965f 0x55e2e88aab32c3d88bb9d87aab8d9b14aa5a58defd0254e5cb558e05a9705c01 0xcfa9c1d78edfba53ba9de0ebbae4adb5e5b4f04ddd55293b469f97f176867f4b 0x5c746a5724ffb0f65ddf4cd07aa6d434e43fb5d7532023310fb226a6ec6adeb7 0x24197d29ba27b9f4faa7a0e19ea017c6d09b43d9aed0cd25cacb44cf3ec3de08 (-0x1d91c94bd3d3e1be80372bef6321fafe940758463888f8aae26d55e5a28dd18d);
  SDbl 0xabb67c99d73030c1be424eededa2a1ff8a610a5e777363a6a680dc1925a759f5 0x2c334757d14835e8e73ba6d75f52f093adcff17dc4f5d57ee230714417c3bfc8 0x573b6989f0bff3315fc5a50530053f18610d35f5cec724714e12cda2144446e 0xc02371d9e80c7c051688c9b464498d93938f715f92e1f9411b54baf9b8065c72 0x732d4c8b600b0b1d236a19b4a06c0b647d52a6068a6c9fabc505160e1b623351 0x1bf607d3ccc2f3960b1b27828b5c2287d585ab02d5bf9f1cf50cbc27051a702c;
  SDbl 0x5244f711f62bf75dcc94085ecb7a7493701218144d781848867bb1cdf7e3bd88 0xe150c9fce45175f680d04e0497b719866b9238a9c3086e18750c48c40c6d56d6 0x4b1ff7e6c56e4031f8cccb2849045bf333a87a7ca2a9a05c160f6b2005e1d47a (-0x1363ef6a50a6d894525f003901e935efc3a27c6f7c96fce144a88f00c592fc23) 0x1a7040dbcc22dcfac2ecc32c1128b51ab498cba1d355a4f9d9e04d262072be26 (-0x3a343e7bfc52ac4af31285f131d2e48bf32baa002cd04e08e1ad3d1536d251a8);
  SDbl 0xd97e742c076c8ba6bb911b2ed35c4ed30337108fc44b2b5af1b49fc57270655a 0x521f3923e8226fbb574d67d03a899afac9e75b4bd3ec40045e82bc77022635a6 0x3d433fb643ffd2e3c9a26744a1a1f9af67fdd3e7a6906d5ea30ce92384da8228 (-0x1d346ebbdf5b4d181a79a6128d966a25b210304a0e9f0b18c26e21a2d8820391f) 0xb8c79f69ed6ce150fb9fbd3259acbf88d83463ad3776f3485c0139de1c20bfae 0x79a7bf28c8860422dde0126645eea1c322ed1297fd79d1143c051649f8a2bbc2;
  SDbl 0x3a11f22681c13aac64306be71c40662ba0ee5b48b92004bf201c63880773addb 0x83c6e6ddc4fab2b350743ce6a5e188b4ca74670db6e64e2af97a3306cbcfc214 0x81b97aef047faefbdee0e1823d2658b7712b932fbf64a56b5de7d92821812d7d (-0x333cfd8b402e24a08e41aa49cb1aa1c478df3127fc531110eb2881a810224987) 0xd2c22fb8e21c057907ca73f2ab6ff5cfbd4467ae4e9f2a08b00097d2d487407 (-0xb437876aaec97b0921b7bcf6699197ba562c84c1493dcc431b546fa2a48d841);
  SAdd true 0x21f109c974fd560e9ddb6e8cdde838247fb25fbe271b89b7fc15f7c255dc63ad 0xf1a9bddb0b2fd1e8c5fcfacbef32b72fa70e0f3a27eeedebdbff59393918aab4 0xbc1622275707a35a214bb4092c314df9ef1d5638b94287dbd9334fb376603ff9 (-0xabd8f7f241eae51bc7e9873fde504c549cbdb031ce46522d2a40d8d297b38d4) 0x480077962576567e9e3e9cc258dcb1b4cf39dfd2050abadcd46d1a8de0d9ea6 (-0xe91b4768beee15c85b9241bdef41d4049acbaf9d933a413e6b2bda852637e6a);
  SDbl 0x685c8de827456934ec1c7df04fa81c6e04586b638775fc5e48eae2e6b3ea41ef 0xf649c9ff1e04bd21da29cc5a2ea4addf66fd8f1411bcf8c2da4d663f9cfe32cf 0x352cf654dba1710d69a1a9ad07e93cad7346d40025ff38efc6ddf613489942f7 (-0x213091bdbf5d0486f57968cf148e053cbb18f76183ee2c719effe0c653ead3941) 0x2a8b54c317f981eb5f93919c7d18cf35202f7dd498855944359634ad3b484b16 (-0x1e2b1035ef0770acc825d5e3057f1b5b2a8306491a35064610305a96c7f90db);
  SDbl 0x877e01d18a3b57891ca343c5e9e7864df662668a252bd78d5005c502a63f1e39 0x384b5a64c3f6456bfc1a1d04d0f9a97cd5e679579a7d665c074c915163d0fcf5 0x9bec64c2b26578d762ef684c3c36cee7b28c8c5b086a200eaecfbb463a7d70d2 (-0x28e8beba28e53f33e3d83e9c723ec5d29dd811088c5ceab4dbe0f89181af72bde) 0x47b623f111c81b454f2c85b215cedd757ee9b0f7d31543bac437402ace2df9e2 0x648eb16f39c48fd0c9204dec9bcd2de2e9357d9970e86cb317c9ccdbdf102a3f;
  SAdd false 0xd16af38574e9719757b14322d0546c6dd9f4fe1701babf850d4c819185ace923 0xe6b4af045c98dc05f669dc77cbf41d7e1b6c9bec0db04fe4d4ad017357662901 0x7db6f4e9d6ba4fc758a166ad455c525b8ee685e72d62f9c70fc1195c55459ae3 (-0x485419f49890f4b5b2aef970713e04c2ecd7c1fe651ba11b78799cab4bee529) 0xab4fce4f26606ca0327e3697667da9a01d81069d21c73fef5be9599f752adff4 (-0x8eacdb9ccc1206496f40b242fe275837618dec386e1b08689a94c91e89b102a7);
  SDbl 0xa99af1f2f7e9fee4d8ad147547a68814cf9a48f799b74edc5e023de576a6ad3f 0x44bd476826cf1ce0ebce6b4e88b55da6ca7f5291f50d357c2c1ce0b9deb296e5 0xca6326a42ee0e3a4c161b16040a2145f9a64d735199bf48b4bb493475b3dc4b1 (-0x1c927c0ec8c4ec802230174a8f908755dae454c5621209a5b0facfb4209e513ba) 0x705df13b38ae86ac427de44ad46cca08b8aa34955f2cf655f0bad6af568cb366 0x6b4e5b4e800ca691fd4c56e0ccb5c33958c7c37681880603954edf97fc6d7eb0;
  SDbl 0x67a19b02a8f3027f368cc5180de8d5f719a1741d60fabc7fa1742fdf144de48d 0x1ae46219745056a38818cba4c4a34c454aeac29d970e7728c6c7fda2d5a99433 0x5d8d5373ab5034b5b0800f5c1fb6459ba46b33242f721a40babddc3ac9fd1d93 0x6c7c0141e13aea5daf02ae05ec9d2583ca636bc08e00b12a5555a86d8f4f878e 0x29f370c0a51bb7097f558ab2c8c728f4073d81dc105646a5a9fd880742314c54 0x10f0af01b36672f5064ab65754f07a372018528d9387d9c2d0ce64cc6d53de3a;
  SDbl 0xf788db4a6e5bd5a21c7670e70006c2d44664f25c52224e83a3698f0b6d2896f 0xc2d722fb55201a8910e1461fa20b51c070960d0addf6d052e09143313e101331 0xf20fd3ca0381f3e39273866356ef4d250aa0f0ed9b1fce8a4b177636d48c50b6 0x2d51cd35852142c3f298072a5b68b13a119d32a0e4081cc53c0ca5c01100afe 0xef5960544b3c469b3694fd44ebb3bf410b86677e136860d6c7b5c7517f3d76 (-0xa26500ee89e07040bf18f55f28b5d1ab786f1b396a36b1ab78fee7382b39395);
  SAdd true 0x3ad4183881f96d9c8dac7c984f600ae5de859e33d5e00ee7c3e491ad93f2952a 0x5fd3ecd26d25a5d58f9c94b50b5277ae24093a4954e4123d38ed0f9139125ba1 0xa9897772b1575c6cee20f10eaf016392317ab7e2aeb5167414370b58471129c5 (-0x211b8b6157146e80240d2b2cf611f08c8aff29831cfa53cfd9333ef775d2b0b2) 0xd84cab1c84bba5227732b020ac35806b76285cf844aeeb8c3b0ec5b141cf8b5 0x16c0c24c5d3c61a71c6618693f9d6752e009152933e9272a5b81e1d768068cdb;
  SDbl 0xd7e8dd65a7bd2d0176ff888e0765aab9a9854aa9da9a84688711a59df3cbf49e 0x40095b0c97fded6bd2454d6b38c891371516743cc738b34c61725d4e6ef59bdd 0xac64b8f4c26ce98bf69e4df34f2a503161567d83ebe948def87470517692fb89 0xb25c696c941b3c188361e44857f086012c1665b71513a343c386c8eb73127a94 0xb618f7b37d916c27eefcb9ce7d927d00128008b7b0776e32d8a5f1c310c8c19b 0x1ad00b7fdbb582aca3b92b9be09b6c4cf8dcb1faeeeaf23ec8fb4fc67cb2fa56;
  SDbl 0xa61c91260e350af3efd23f480e952fff2dd9a453b249cd79ff1652015934b5de 0x1d44a112eb4e7155c580e27f97bcb50b598e8868477742bf66e108bff50fac21 0x11594dc68af8413da7fa45f45450d3302792fc66ab706dc7007e3c0de09e84cc 0xafab0fca721ea65eb61405ed70a3abd947d6ce3c10bef5008d5a8621ef721abc 0x6bc90f6dd8d516fce827a553c8a2fd4638c2f57ad793344c0d9c6e5213973757 0x168f71d2ec501bbccb0aa082f1bf8d6a9eccd7be9fcd5b9939f8c1d9011baf4d;
  SDbl 0x6330ee143f37c471e733cd0e59e1879b4458cb472f4e64b34224e310731b39a7 0x22760fe06ce3af69d48c83010b23cb964fc3ad4c92d9c8b545fa14ef760352d6 0xcb8d6d37e22d0f72fc1c2d7420cf327cc8c492779802bf9db5c86758a65325 0x367d73cc65a0d54d5eb0cb38de7c6ac965d991847928f5c975b069f6bd2fa98 0x266ee17df4555f7d59751e09d9356ec0989cc71c6f73803de15d4ede1fece027 (-0x2031bf29fd021566e266b65b1b888b083187038345da6296d4d7cf183941afc);
  SDbl 0x5b9c0dbb5e36200401d119734dcf579b153f7ec6e34dfed7ca5465ff9366adc1 0xe01d363e52489e2f6fbb5806ce2ba6914ae9c4139c310cc801ba701f9ef76526 0xc5988b3db84887caa7352550c65935d4273969d82772d5d3f2aea9902805179b (-0xd590948f695646b622ef6363527cdc5147ab7b858add401f9cad36c3b2fff21) 0x20c850e412da2e523606063f8ef67b010f9545192ad0f848f27f14c5f9439f51 (-0x43de06ab5177f55a2fb0f76956acd33fc26f5a9c190d0380b0aafd997312b6f0);
  SDbl 0x45567f76630886ffc94d1874c3e71c87b22d0b7f927ad3e0977c616b9f6efd7a 0x526a1d291cb8b16915fa8fad575f98f4731e3e36facba292b66f29e85a72c360 0x3bda2c5ea9755ab978271b68a8dccca18a7ed9b9f7e80ec4c01db8c984599847 (-0x1e18fa47823ec34a72921fc2020ae5e8ede668a333ece041e7478485b4ad5d8d3) 0x12c7bdefc72b8d7245a832a843ebc95faeccd38d3bf81b8e798aa32f3c8f2f88 0x2661267aabc1000413b55d0eea9dd8d7203583b7ce99f560e296d8127434e986;
  SAdd false 0xd23e5b858161a274d23b810fa77c470d114634116cccbd0d8e7da0c098de2fca 0xa7a760b873dfd1e470e5b2ec5570769c45d06c9cbf497e41ea5edd31cbb0d6bd 0x83cc6b718710ac269341b84f505d5603516199e65d8907b4403308d442c8a438 (-0x19fd6a6cd2b472e4ee57d6091787321391630731a544f0045440fbc6b83d6d2e) 0xacaa5d582a5166c59e264124cf97d9cb227b2299fcf93bb7ea97840c8e2c4380 (-0x460104bb7322a7a7303569ba2c55ea58adabca5d26c3b6eb28a2959075ae691f);
  SDbl 0x4bd3a28e5015a3515ef73584587f92373ebdee194397a7ea3acd6be5b576c61 0xed47fc00022adf9d2e9542dece69ce5ade1b28cbfcad8c31bfc1373101813077 0xbd5d1b6960fe7fdd77f37d8510ab4a120dd108e98fdb92de28d64bd99eb97eff (-0x144822dcc4b6a416a602edafaf11f23e838c1e8a50dcf46d0bd89d63e32aa1bd8) 0x1675b034d732ce0a10bbe5451da034ddaee02cf18766aa8c98a0b0cb12e130 (-0x149f9d145e6b5ed0b76cb16ab86cc3ee62d7288fe42195d1e42792b387b654f);
  SDbl 0xf5564d5687503f6a715e346eff2ed122865058e50f733687d0f739dce4d3dc93 0x8dff9df22066bd305a4a9a7e8ccbef544796578df06d463cc632ca8f1b4ca838 0xe8e7906f891a5dc9cd248b3e34f64603a948a6ccb6645b1294f5cfbb4f6c3b63 (-0x128d733125165fb8517b6189ef828a09b562d74c4c62c1e7f8a392f9e3e579aea) 0xeb1e4d20979dfb1267b6d67ae35dac8d617234fd0ff7d0905124960dedf00cbd 0x5b50611c3601bb54e7ae2552ef1cc1de873ad96c7371b6e124ecf50030f85a35;
  SDbl 0xdf60d9258ece1c7ed83bd387b8129508d476b9080dbb9fbdff92d5753f5988f5 0xe5c5817854449ec33aa9f15d1e9088ce44db3e23601a4058f8257b7bc43212bf 0x7e7842131fe72b15bfc3d75c7d89724ab799b77e5054ec754e487c85ac0bc25e 0xaa28ecc1f3cea5e17b38cf1c2b9c909e767544608cc75564de788d1d5643c93f 0xc2e9def3c610c0ca2577bcfdc30bc2f74849c728a7f173b041aafdeee12c28b6 (-0x4c9695db24856421e982a379b394a9e3431ac9914fbb85c7552f77db3e72570c);
  SAdd false 0xbbca44326261c5f7d2e30fcb8310e39183d0700cf604af15935f96a5f3b8d3cd 0xdc529a9e3ce2b4d061dcc52cb24f0919104423b6471d1dbd6c137ad0306f1b9f 0xe4a78d4737b73c842b33d1f9e5932980e0e57e140f4d5c8be759f3a3b7b9c598 (-0x834f08af5b5bad01d4ca6b27be3cffabf954f4c53a89ae85e77e53eb91f2cb67) 0x89c11f71d72a0724d5868c4d719d5b2f34155977679a69b688ef920ad40210fc 0x6ee65cfdf7dfbfcf7a0ab186a4807d5a8ec75a2f7aaf7b64dc02fa55ff64356;
  SDbl 0xe11547fd5a8ef6aa50995344dfe7c325b66489faca6a4f19ab285a6db889f712 0x54eeef22f39b0906f459010a68eb6a65fa2c85c8afd7529fef63b8c88dac4587 0x64c22ef5977f91177e359f40fe73f50a4aeb220f7bc1b38256fe6b8694768732 (-0xa6c5b2c8ee0cc609b92530d78387cd2490df273682d64fed6bd6290089845320) 0xc5e66a5102e5165447f2ae79b15c96b7bd626175c1c9a020d9af0390aed2bf81 0x7709daf785832c0542820748a669c3c2bab09cc8d0dd2dff4abba0390b14171a;
  SDbl 0xc6ccfb743a9ba67d8d8a07b4248aec4d6eccedeaa4a45c6813db1c4c020440d7 0x9304f5afdbe9a19b0edc3c5381a8d790e95b3e2f29400a21f9514aa5df4cd147 0xb1677af16ed904526ca487912d52e80e47a922fa10851b9d97d12cdbdb4e0183 0x47f4b83def333ba672979c08a7dff505ad99f15e1a9b023bdcae2892fe9e1194 0x9a61b91a1d4506680f4419b7db8a7957455bbcf21d6fd48cdd852379878127c4 (-0x3036bf9a2cca850f41ce21897b35f9a1dbb4bb4c16ef9f06bbe88dbc3076190b);
  SAdd false 0xfe3ee133c642e474de272c6c1bed08154d11da2bd0b9fff9924032b0980add9b 0x209423b74bb8e1679f9962f1b7c380145f2355782c4d43fa587dbf65032841b 0xaffd136c715b5b0750d9bebf44e83a4d659cdb20ae3921e0bb7dd717d5c77a2 (-0x5f976b325d098bd3f6b6ffc2f4c0e64ad06d2be8415667b85d26fff8eb7570a4) 0xfc80d655951da90e5457001f1f98251d15d96a237cdff7a3cee5436742dace50 0x8ffd588e0fb4ab070a60b3c5646598de2c2dc897aa3f82408c0a9c5edb66c381;
  SDbl 0x6c2ce7c254397ec904f99857c4172bead604fd127a1981b34ddf29a85048be3 0x7052c7168ae42e1cf0fe7b262fe4a8618944599b2a8cfd298adde304e8f16ec3 0xe5bc2070820f10065d703c64d941a45e479027b5df7819c0e903d448c93457 0x884b2a13321744c95d68bbd611f7dc3cfb72f73d3c149b12a4ebc56f317b3c 0x2db5eb6ca163a9ad5858afc75ec36f9192367b128fbc0830f06866ffce2bb0 (-0x2e9a5c87807c92a0704d480ce4a1efcf07b561ad518418960f863e42c87090f);
  SDbl 0x63cfc6060b79ee8a2c37c88ebb4b26d91a1f14d3d9d2f8f145e411ec81f9630d 0xf139f8ad7489ab019ef3e222a155ab2ebf2656e323c1087146b2152c3cf441c3 0xf6787f071bcc0553070f8abf53da89165c9b8c61c9708a539a7a7f2c18f1e590 (-0x9326767d72366546d0e0a4254a4c2be5893e9a560a1385e705fbb2c900f2213e) 0x26ea5bcaaabe935e739dda26c8d6dae7d5772378b8b22d89e65238791f3a10a0 (-0x324206d4833129b4d736ed345c5d7b85ebf14cc9351b2c80e33d147107872f19);
  SDbl 0xbc83fa228bb92538f4773d8a43afa039f3e262651976f0e63a18a72e94102d6c 0x8972ea13849bbc93d1be84d71af9fe4c4dc03b1ecdbd705acc7ea617bc74fee7 0xfa367a25eb3fb29e3039123a1f21461911d8644323428d4da7a93fe4fc7cda82 (-0x13eeb7e7cbc5749b39d1adc53b10e553ff6d4b07dfbdcf559a08bfaaacaf881e8) 0x8ad21b6d3bcc87240149907c8f4782fe152251ab7b40dac63eece015a0ce5cdd 0x4c6baefc36ba98741254c5676d9571454879295d0479f23fa63d25b1233ddf42;
  SAdd false 0xca39a3d1e368ee1ddafe4abb239188d44a29b7debda7857ad5c905a4f816f84f 0x258627f4438ee5977d0c050112ac0002d3f9e6ae2618de8adde1d6a755e331f1 0xd434d3033a0cbf3539065f6362a3393c26c70493416f6d9b5913b7508f64a1c9 (-0x4478ff88327aa08876994264da6ded1fab1a703f59ddd8682fda6623a5a52b43) 0x9fbf038236ecd3b01863b9c76257ff3182d294532a776d74061f03e797377d3e 0x4eef50d5dde135867669d352b506fa0e482fab2cb946a54794cfe57ab930ec61;
  SDbl 0x77d0fe503f5164eaa0683aa69e36402e77031af642d8b88242d1b3c2016f8419 0xc0f380813e846d4b19101ec3bc3dc02531c5f81d0eaef24d2c5ff8048b542d54 0x4c75aafadd1390d906dc4626dea5427264ff5488465431b545f4792e175aa918 0xb6236e1317a1bd849fc0a3ca151faa96dac2ea556a408d51823fe8e5489f8d5e 0x3813f70d11fbddf0572b405621bf056e5958489ef310a389339069d33342c6c5 (-0x48beb768fa6ba1b2a38a6048572cdc5e461d27a99d21d08b979b26da7cac1c74);
  SDbl 0x8f11e33cf5781a572ca4b009a383bbcf9a982e7d16036e74430783be308435c4 0x9ef7fe7766d9c127f3852f94f38e3a50bfc471c13f872aca44165d14c0811fba 0x228102abcf51510a9a090deaf83b988321d1ef6f3d241dbd7660f4e4c733239d (-0x15ed454bc8a7394adf4c15a47070b8c1259d205e86847e5da13e03a31b022f213) 0x4ff4fd1e61feee563fd4e5acf3104b9667a9206ba86e93c3b7a60dbcd9bebc52 0x12fddd8150f45f60c184b291e896b4a8393bf9a83590920e976b1bd1ffbe80cd;
  SAdd true 0x57a6d523633767fbd3a330cce6181cdcb8157dbdc8617090a5002faad45b500 0xaab863bf124d9de586b9d121fce6545a47a5bb85713aa77362b5f6864ff1c641 0xd240ecca89717ac9c1c2ece5effb8b69fcde044d67d77995b9e7b67d3a15b740 (-0x250bf3a57200b018264bcc412416206a0c4f4166b2b98cf971d99231e9c63fd) 0x1e02d19746cb0e1dc5ddd4605ff2b212522dba3142e0ffffe5cb8731c65ac2 (-0x4060af5bfe404d599271dfdb247013b5e3d41fe9747af9992f92773b96b223);
  SDbl 0x85110238562b98d75d6a100bf5cf1dcf5cd4a3eb909e68a56f113fe301461cd4 0x81277c817fd062136ac064c1435d9d69473df58813ebe17fc4810b1a9ca35b9e 0x46e1d4cd5ae5333c1fa2d71f84aab69921abd2381b190e5adcdc9bd3aca1aca7 (-0x7af8d58cf120e05119bf78aef6799e80aab6a9833c26dbb73ad150aeb14dac80) 0x452aad701a3459c8ac568457285aac6ac5e55a59ab092373193be0c1cd57d890 0x159b0b1eb54ba7f7645c20720a44a93f8beacc930524a149f171941f0a8b40eb;
  SDbl 0x730b3f9920af2ad4d04beca0ddf34fa57f17c2bfc96ba85772e8646e599b51fa 0x36542443f08eedf0e450a9d812bda157602d30f44a3957acce08c36db6afa9f2 0x16a25dd8b5f20cf9c7732deedaf7bd01383bf863cbf6ad0ff8aca15beafc30f9 (-0x83c554e4d426b046dfb3e288192189683b7b2913a6a709b2adf58a079747c3a3) 0x33b31ba24e0604d97c16556f7cbc4fa65f79ade6d9ae57b0a107b98ebcfa390a 0x21a03a4f58344a5c76255b5ce32fbb56381841f4fbe1c5c9f7c70e5b8d46efa8;
  SAdd true 0x55948dd46274ab638d24efaf273368295822406be9e35e1de7fe5c4ac5096f5a 0x297d9427d9621a5204b8dac72b6665182d9e3ceb44b32c4fcffa80e35c82d10c 0xf4c06acf33167048c1f29ad61ae062fb5bb47f3c20f048cddfc474b520a7f527 (-0x130b31f27b93cd59ce0c01a1b78714e4e86077acba3bfcc42484e539f50ea3b) 0x1c9bfc637222f1c174ddba6159a57285ed3220002a4d287863a0f418bdbbc421 0x44ab1017c38c632d3e761aa606c37fd2b91a7983b8ebde89d34ab5b47be2b44;
  SDbl 0xe521efc3b8c4a5faa49e5a9336a4e26a0ca16cc33607cb21d3efc4075149ec7c 0x8b3501c39fcd53c1862abf6cf58ddb55d5e5344b25a0f7f517626d9b4b9d7596 0x2389b521d3da498f19e239efb77d41efedcda0dffb42648068386302783a03f0 0x1a1f4bdfd09c6d5e47ec4e27fbfbaab38e15293f26fd25288f4e0006903ba63e5 0xcd15bb74a6aa37bc0aa617781ac6c9a1b2886ce565d513b001d6c39ad3763b9e (-0x57760936c59c59e2f1902545c519dc3d088ad4ee1ec80ef855ce2a55712d1c11);
  SDbl 0x18d39d9945b27c3677335d7c4da47929848860e025197d6b17df0dc1204a99b1 0x1f0887e9916b6d10d05788a4e4d95bad574bb5a921a0345058c5b61e39b34a6e 0x6ca26495fdc8c0b07d69127400d9450e5b1006788b31592b5a7b93e28e37eeb2 (-0xdc333df4f83c0e8b178d1e8ba06614de252c12ac3a83e7e05fdae55be3b2f637) 0x2685c79eb28133e31f72e276bc27ab2c0b58ec5153120eeaf021e495a552939 0xa7d96acf55395645b4695f44594cf677ce10bbecedaa0ce0cb75579362f33fa;
  SDbl 0x45dacac2ee023e8628b5e75979c39c376c83b9edba2d1c946ca05db0329b8d54 0x5e483062505e6456a448e1378d3cf7a52eacd64de15c56146015f4b735a4e23a 0x5ea430ff84ce6464bf175a8d1dd31963edad5ad5bf982fe75cc4acf424b09487 0x300007480933a4b71f2ab130d907e3217f53b2f67b5b71e135b9546af1369cf9 0x130fac4b1bf271db0dbc7e3a8f9f48647a47d5f05860c960e40ee3ba674dd386 (-0x114236b67786fd0168ffb246962611ac15bd371b6f8490edfe5dbf05d0b251d7);
  SDbl 0x85dcb3f50991a8ba025ed57b40a85668f5d49b16f2b0366f4b4e7876720612bf 0x2d4ab84fa050aeb69cb50af2857525aa310c3bb0141cbe5123656c5919fcd2c6 0x35169db62aaf1c42680fca0f2bb256a962f120a89f716d677e3cf222425a6d0c (-0x5317d7dde8f0b78977c350ea31b8f44045211c1fd7511439f03d61ad4053e09) 0x45ff1142ad9972daf6e0b3c2c20bbde9eb1e085c024f752e8b3794dc86f32cb9 0x199deba51e821ad90545f8cac54dd86dbd60bfeea238242ad72246a3eed95207;
  SAdd false 0xf50c9e879e8e56d9c5afc4482a671cd4d52603facaa035a96be1ce061bd4d607 0x63fa04e973493ad9c632403d9817fd864b84e30ae5f9f8728a7dda19c0ce9bca 0x4f94bb7b0e94e460eb0150ff9f8933833c11671738ad7d9cb8e1951630776953 0x53dfd67bd5d2ef10404c21cb8b3a371ca0df432ccb80d014707bf7115fd5e4c 0xea91280fbef027350745896e4bf04816091fb46df5dcca93337ba98f65902f26 (-0x345876642c0d268ce20dffe682b5a215e9623314264082cf45253909bc185285);
  SDbl 0xc765fd0c7b3725ead54fba36783ab8dbf3c314d1f0b428156ec646f46249d5d 0xfab1d212d2bd47a1e5100a906fda25209cb940b6eb11ad9afb84c821675b14b9 0x545d51ac47f75fb45ac2f5266d411df95b396b4cecb59e88902d9e51b16f87d7 (-0x6d6271ac533c0ebddac18ebd960755bc218854857d588ba649e595146997a225) 0x9b4fb80ba8da5aa975346107a223a7c8d9d1646b611ee2ef1f52636a151884 (-0x7564ebfa8ed5135c1ad8adc33b26f6adba5d5f00a608edcfa5a02391b4a8d03);
  SDbl 0x7a11722d61f42496fac7f8e2354c5931ffa7f052ee7679da4ecb7627941c3412 0xc8a3f8dd276b025f2023e48769445a6a283f31d11522ec7691defb32b878f934 0x7f5f9d242058ee9f0f9a6224b17704d27c51e3d986b2fc0a07374a4b072b9f6d (-0x2900aebf74681c3a75be9479557e57572b77f753ed1b69d4c6cd65836c04c292c) 0x3a34a203d884ca99a17ef35ebd622ae5eb95ff0d1a85cf48861376a948a7d162 0x17de02c22263a89c22bc1696e836d16c9ebe77c574c550f1df4dac67989233ea;
  SDbl 0x1ee742c2077f2d5096093c3c587ed455b21aefb707f02ff46e9885fd03c642e4 0xde699e288c5866b1fca8ee45c40c9472b16805c75aa2754060c287ce87dbc5d4 0xa985001b09f75e6e239ba72ed20892b9e97ca7429280f7a52d5350b14512d857 (-0x1b9014fd28441679c3821d910d995a1cca124042900139e26c73332e07481967b) 0x3bb048f090ef99ea3fe57900ce0fbe148952797e7b8b3d1ae51206f16a35d2c (-0x2a0d4647484a3f009a2aa824bb43e2d061cf0df3766a484c2a815d7634209bc);
  SAdd true 0x4804c3f2f51ef3e0e70776a8a8518e51282d508e025e7e3cb96b2fd896191a7a 0xc076879fb0e1cd96f47958bab5d84b81f2d8b9bf39302740b1e95fc6dcf9d108 0x5ab8241e259a7ef74e9cc549571c6775fb757c7b4de432293242b9e952e5ef96 (-0x304995747806b95e38155e9ffcfbab379b689459a9de5ecd757b7cb6c10bf585) 0x1442ae4f73b7c87715752b265d88c016da3210087b6e311633f345c17191097f 0x86ced0f76ec8619ee936d0cab1eb87d3fe7926641776f3e2f4c19f7c58166b5;
  SDbl 0xd5d59bbb752190283de34dadf3ba8d14e5f4389add08305a25b4b50bb23e21b 0xb6a47390c803bfb0b6b7ce7c7b6d43bc9a6e5601ffa9b8df5271cb937b5388b 0x7356c66c68775076f0508fe30b3a99466e3ad50d47055b277c77c2caa6ab7e0c (-0x1a89d29e5cfffb762081b97e4a9e800130cc85a2fbd97ee4d355293eff9cf30e7) 0xb29d27632834743afb58b7a4a4a7e1ac4e7bcbb5d8c1f9e811480be4932bc2 0x973a42ea912dbcb7278230ea0c533eca44a81cfc08642bb17e96488d49ffe73;
  SDbl 0x10ed00d86fc7b876b18f97ef28c5f5e1e1bb6a0ee075ae158bcad15bbf855af9 0xee4b5af36b71f6d4ae3e4f2c32f814d7e0480b0f6710cceca22a6ca01843f465 0x338ab05c8d2f9cba699d642a6954e5cb0874f0f42e44145d5ed14a2248ec6daf 0xdb97d822443afa1a2a3bbe8927d7a50ad78f082584d662fe06aca38826daf10 0x11e7b859fd7215cd3a3ee4ce74bf86d66eb1296ac84fba11ee323d552a05f4a (-0xf001c5ac9725b119765781a9f78ea17597d31b0e23d768efbcc27c33946b93b);
  SDbl 0xd9391182d73917555215366d7ba0c9701a42e7f4d003dde4810f8e8fe43c1a72 0x24289f398f9f640380675f492625759083ba97af17e2093bdb21a4e083ca7ff6 0x8e67adefb300bbe61e121ff979344af7a7b7d958b97f4340c10c2793286fea24 (-0x241f88016caa04f3e1500303fc25fb8064b92447d27afb0cea9f86ab7c8552c54) 0xb851cc6956a710d93fd38e0bfcefa2d03606c4afea817e3bae235d8d3c270dfc 0xab8480b0a146dcd29f9967e506f1369d95a25bef8011ba1918997525d76f3865;
  SDbl 0x42d1d96bf09f4381fd55ef253fc7aea008ad20e193a6cae26412ebbe8fee3588 0x564c3cec67ce0599722882db6b793d7de0b7637cf8ad05dfdcbfa959fd77f74e 0x1e555e85ddd5d0e1d970a05b0f674b924ff9a85fb644f8a6990d841d82fc26e1 0x3b04932eafb3cb44e5dfd479de826f474f0cd339ea8cb95505a120b6fbbe52e9 0x1170e020746a0e6cbd09d3da8a491af5355eef021fa591c67f17cfc580fb5efa (-0xd1648513c84e43b174efb5754ef6bde1a543cf70fca3219bfa36d56aae7503b);
  SDbl 0xc8e1c1700ec6c8a8a1b6b2587f6b522eea29c8096ae1b4bde890529554621c90 0x839b82c87ba85bd28b4a52b241ac93ed7c5d4cf3407371d926fc751f70c3dd08 0x6b1dc54262361f0f5077df108a4ed7243deb2240f663a6ee893f4d57a8a8509a (-0x27ab0b50c0d72eb19fc7485b15d30975dbfddf96f17e7fad1e5a6889e02e21d7) 0x9da185554ddc3f9e2c4e291e5f8d5f9d1f296cb28a54084d8e29bfdb0a43faa4 (-0x238de37d1274e9a59953740bde7afc09c68b0fef2a381bc67669a32cb355f7e5);
  SDbl 0xd07c4a3b5fa4923568b466df7cf57c1b5ccb90d8e5a64c0cebaa4aee816f3c60 0xb11f34ee6cc11ea7c0021ef8ba36e883000c4a3ba3fad2282dbcca0e075e33d7 0x7dd3da5a1df35f5282f50c961fd74132ea6b6e142066b4223bb931b7d94c4b4a (-0x1c812f70af39cd95d0831b5ece8151c0c3f92bbe98817620832174c2127c32c3) 0xa9ca34f92440ab0df04114729e16ad40cc3d46842d2ef523d108a69ebf68c9e7 (-0x251119bbe33027f005934c185afcc0bb577549278bfe58c8469e1f0fe511527c);
  SDbl 0x26e19abd6580da33c4f86f0f2fa1ce5e3db537ff284f57666165a8737ded5932 0xe94bc4093b6afebd8a319601a5a4e905d2e11c846b11171f1e44332aa1c4d94a 0x7659b0684140ad04e380c5c8e5e4196e1142302ab5fd2a1ed6db04834ce0aff9 (-0x1496bd5aa520b9e04cc0bdb0fa7bccc83e014580e42dad9aaf4f51b21fe00c138) 0x5e7c0c19e7ed8469b003c65d97577d1d1189d5b11da1a894e085f3196d97334 (-0x8881e5c27069aa8894e37889560b09a293886d026cef04e06807607afcab947);
  SAdd true 0x5c2e99c849107480567f50f10b63e8a5bfd1130b5b6a2012d444dfd8bff50866 0x940aa0a83ccf47bf568883190ec96ae17d06116484a84d3d5b21e0c2890d9790 0x732f5d3cb6dea649980d8f6560124927953a7f415ed8b148b1b123693c11db7f (-0x41b9c5c72f54a0fbb7e8abdc9b9c1e5e7e956e8ab97276027e80a01a762b9b27) 0x21318703b610a0b1bc2d0c0b5f0f8636e935f18a92e5f8dc2280ec45169c5cfd 0x1eb2eda1f6fe4d474d5378dc3ef0abc290772a17070425d633f3355148de8b5c;
  SDbl 0x8fed502f769011889f28165e214e26add44c4805ef372d2342dfd28486bc1883 0xd2ae3de82459ce7e7c479765a9d2ec203dd6cc2934c4cf7ee521e17eaf48c4c 0x6638b83932b8fdbacd3ef783f8c1a159dbc99b938bd9ae684f650230fbc7db91 (-0x7f506696211304230bff8a7a786f33aaf4dc6b75e7ad7961a629d25f8ee4e0fd) 0x50eafb92e85f28d0cbe996e88bbb0bf830becc43931ba405934238a7d64ee863 0x4bd401d5ae525527770139ee1e4c67c3aea5b1eb547ba4142c14bc1f1a0a9344;
  SDbl 0xf120d847a404d3fffa148712766165e17c5106ee5d6c15a4a1be0eb05098382d 0x65417b162f6b1329da891a6a0005f1d9d4487cf373cd761fdfa697e882bee1c5 0x66176476a372c5a5568b3f0b46634303cf09b888ec1d43ed0a5a88c8ebc9f5cf 0xbe88dec6f0728f9148c4ed4cc4d527e9e5a99e6cc1aa20ed056721ecb8c702b3 0xe31edb6e8e91eca00ceed5c937bbf7dd2238bcfe29241c002ead2c9976e44274 (-0x52f8919a5a3987529429c4fa328439caca14c17380d356d647e2ae1e9752b05b);
  SDbl 0x69011128a253f65e9bde3fd09050039a98fec36e6c0425bdc227096ef997f6ee 0xacc69cbaf076f44761866a289c3bc3ff920be285bfa0d3b5be7f6c8628a02d84 0x2ecd332adac390885be52d4d01efd9ab9328e729a825b13303581b23dbc7b67e (-0x246629563edbb1a889f7ef2fbb7f5ba5dbaa225830044899a7213aff45893c1c) 0x2b11e014a3b270d8742fe68bafd89fdf92afe3fe8cc0a81d67fab33ef72babca (-0x1d55e71d038b6e567c2b7791d21016c95e6378c7df0c9c862e81f67a0d875e21);
  SDbl 0x5224bda869a6f5e6cd2da4f1eea2dbb4b33d1bafcae94567d63333f9c420ce6b 0xab88c1b19539f11cd6fe011399bc825407f38dffdbe392f45fbd89b031f4baa5 0xa433057d7ef56fd2718ee863092a610c6b6c460c5b6d7544cf3ef678a5f81c1d (-0x13fc99240e2d57ce3888a71cc88be35559a275803abf51cf75bbbf2432ade5127) 0x1a5b8ec5e1ea560e4419350d7e4f7ccfc9cee4ca54bfb13889c7f44e6a04b4f4 0x65fdc748c13203762b8ab53fb0d9fc7d2cf9dbeeea83baa658d46859c75d66;
  SAdd true 0x74de71fc6052f02a670a9e221392b67d225a2c4fe41420d5c9b927b20e453a22 0x512ccac6807fb68628ab7ffdb9a55a0c6a50f24ebe153af31134a7656334715e 0xd6fd655d1d175a9b5a1a8bb16260848bb266f0c54f64ca58575b5e02205442f3 (-0x3721c8a73976b37aa81203dd7bd000de0dea233b73f680efa63ca32a99ba9801) 0x355a5896d11d57ecc7963f16b2b010eb66c302948658bff288619e42acee3446 0x29402fde7b05224a99dffefabfbc6ccadc89613b8a1d31eedf8351801e058da2;
  SDbl 0x736d58c8e447519e4b60ab6846ae8179d4bef214a241cd2e40c8508fe7d7f651 0xfa484ba0b969d8d844f7a525605814ff7ca88d2db39cf6b938105abeeadf7d8d 0x7896246bd8d13e4a751c226ebab923afdc2193daea88e8581c34216dc9622468 0x74a73182389df02823c7ec4cc4ccc880ef2f2bb0d59ed700a9b07a7b7904f9c3 0x340b6c796b009f1fa6a121d9dfe92cd320355b5a50a549c62cba6655da3a9aa8 (-0x4c3f963e594e48b42771602d6e3ff85c1991d3cd42226f2b37e5f1f726fc93c6);
  SDbl 0x9751c79500ba6a01818930dc49163639940cabfed5a0e4094ed8c60a661b0ebe 0x83acf2f1ee0e850e19ea2688159bdf12593c68a4bc4aa606fa95a1e7f63a6eba 0x735a3f67724d6015be6f50adb974b53bb09a832468e3e3baa11e89d1fe514b91 (-0x24f85ae63de11bdaa4c542becfaa0b3eb686896628253319472bf870affee6b68) 0x597193920830f0728dc305c9a1204e805b8e23e74fee4deac471b5f2470c14d0 0x461b84ee3a0d970bcb0b68d5651dc675643efcb815360b633e0a62c68c21e55f;
  SAdd false 0xb7c0386a8fb1d785c3815a56aa17305ba0a14bddc507886cef39fc926402043d 0xb1d4310df4bf9f7b2ed02dbd336551ac9263278df6c9b7bde3aea02cf4e566bc 0x73ffcbe425ee1a81fa16cf0fa28ef06edcbfb2c6a84764c1ddbad60ee923396f (-0x3a12c931b200d91548a45faeecac70a6ccb103917e9e64da54a603021508e14b) 0x83e460fd899af91b2dfc54ec42a2291a8966b47e9e39847854be06b6656653b4 (-0x2120b5008aac28788572a4a55a9a1b15a2b774224a1a77ce021ec65905ea5a86);
  SDbl 0x893c45cc3c0800926b7e5b92d0f1c7009ca13b32e5c773ee0acccbee04618b46 0x476d3b8c3be84b92f6db4ec058f57f77bc633cf9d5d5a7e5d1aa20a0b78fe25f 0x5279ceed432b50fe5c61fa82b76868aca2d5026e32459d9b5c2adb3b8ee9b94a (-0xf636ebc1f78d44b90fbe3b72419ddf7b69c6c1896a799328a95e9e1ebd08e487) 0x499190e5ac96008eb369399ede274f2379128042947ce3565124354d9a8998b3 0x390a2686d287c41606e130ab566350f15b5f3acba5e3e24d64be4ab5a88f424b;
  SDbl 0xf6de81f625e3e3f39e9e3ed06fab97bd1371b91c981b1079c0c2d8f679226a97 0x8ad12c14bc8362629250bdeca3eeebf36693503620ac89e5d879a71eb03ad39b 0x17c16b064ed67be3fc04913dc89d4294144732983225164112255e5e0175edef 0x634827c5fb6f5675049bf8132ad2a4e7beb4a76c34ed74df75ad63b63017c074 0xee10632ba7c6135fba7697600ee3d3aaf4ea8aead25b5878539cb0c8e4dd3348 (-0x40fc9c042b2885caf1a2dd64146e5d3c3d0de19db6ea40de390d06c094f13663);
  SAdd true 0xa3184f86ba8d654750726ce369c6ff757a842576c73a764a932e45b9d610fb6c 0x514df91188c46e302e8dac30f65e070f20d3d97f2af34a1295fece78c93e1a1f 0x27df6732d5e6e41b0795258dfacd1757bf501d2e0c6d45def098616241891970 (-0x381850b153afe297f015b6f85ea33e6ebe70cbeaea6d821b6baab18b4f721fdf) 0x67e7f794fb6f6f1be1ba0acd1595e0668e8250b82a373f363deebb8fb8586cf1 0x24a3ffa5b83736c1eab7803a732954d05afb1a691d91fa2eb82186d3c6c4330f;
  SDbl 0x11ec4c0cc15ad6cb205c9b2eacea81d3a1c4c854bcd87ae34b0dc2177194ca4c 0xa09cb109be2f842042014f9c0b16252ce397925e07d3068c708e1d8e675f6b4b 0xb3b382529a13fe4361608cefbb9fcc0d44c0ec4970a459d09a57e1df6a487b92 (-0x47e206cb418f0ce0fe4be178a33f1c74bb5023c81f98b1510045236d8800eb40) 0x1413c36010b5fa9a3f22d5ffba104699053d7c872d3bef26b177fc65a1f98f9 (-0x58d6e586c1f95ed6b08e86f445c3fc66492ed69e9170996c3137081becd99ee);
  SDbl 0x155bd7e1c720d71f873d4a642a54498bb6175ca88b98d7bcea19eb7b8ad38f52 0x14b25be8b1e7389577a2250e5320f707aa79f6e5f57f1d12358fcfd5ee6331e7 0x419b6bd00ae9dd1b851287b460c649866f7a98a7905e528255c8af5f68312ba7 (-0x110505389a26b77648d5a9fdd6b542d9bbc38423f0904132f2b389b8cb142eda0) 0x1c8325e3d042a9b25938ba0a5558ccf24525ff79980542114f300ccc3b95239 0xbac6b4537b665915518f74b9a6f3e9afd547d59db7022b0d05b92b3f8346931;
  SDbl 0x7afd249e6ef4c5c463dc643e814ae35280df1b05e289432269503a6218afc8 0x6fda11297763632044421e60775523b3d1366456f5e3cbdde53e5115cbff553e 0x3c759554dc20c971f5cdda5a7f8a02feda909c063d22a959740b8c3e96c203e8 (-0x4c605fe2f9fb8051b6cc763dacfcddc97ef3a0a68129d5f541430f89ea5cba0) 0x3b164138a33bcec8b671de720a6db945b7ad9e2d0e8cf7aa612b1a92accc (-0x2bcb0fa92a6c998ac6c2ddffa07fb2b8626e41ef9dff530d8f641e84c0bb79);
  SDbl 0xe06eb84d0f181111a9b4ca0acce82c040e4991bb8cb1fffb1752669283a87a0 0x8db1969edfc801b48ac22009b6859c452e0e55d020eabe829346f148a25bba1a 0x955620bff21ef393b207a26092277d572eeaf09416b11a7f68bc06cb58686b6a (-0x8bfc5cd33bbbadfee029dfd45a0e481604295b38816704bc50edde999210e0f7) 0xc4c1f26a8613e5dcc8259ba48f8b6c93a25ad995fc8de5beea7a707e004096 (-0x1a297cde117659386e2f9c9847384c0f41c0ae3b5f743dfbcec7738240e832e);
  SAdd true 0xd2e3bf26b867711d3c95fa9a400450ce1877ec948cdfbf7fe58cc26a45e420cc 0xf8d22d80740590b0959224f3d66ad81e25f8b2384b8d1a83eb6e26ae39e2f7ce 0xe1a78da54f6eaf0eb6e7f445f521b9015871b837ca1f698ce98cbc963ab6949d (-0x4ae73aa50cce5e3c2146f2c47c0b4e49c21aa9b2fe714c35811e67d0b16cdca6) 0xadba7038c1a9fa44f13d8ce076e3e62bea16e11da938a462633a3f97a7f7841f (-0x584009a8b2746483a195d8348ff09c847153ff684bb366bc9a47a01c4d155489);
  SDbl 0x944425d15fc30a0531575aa7baee2a1a7df98020f66d71792fe3737806ddef61 0xadf3197ff10013d8f3b701baaf5784b7a5bd1203430372caae83149a61ecca27 0x233808cf4d8cc01fd200abea7f53541316425be24fbbf571dcc6ccdc68e12748 (-0x1d025ceb29000feaf3988de51796db406592852b3eff2f8fbdb5d1c08c02647b1) 0x55deddde896971fdbe66dbfdc768756d3a75038a394f79348c08a9671c627702 0x2b5ce5e141441a247f385df0f8c3f28540d53edd6420ef463333896fa786869e;
  SDbl 0x32c62a51e36c7304ec175f095090f2cf043c532bf62bbb52c4cef485115d7faf 0x4739dd4a4034dec9d9754814fb2a9a4d12e9843a3bb5b2bf90c854a3bdd8f06 0x4dccf6a8b9015d5de4a044b533e7ffba20771c0740f92248309c3dea7d9a14c0 (-0x1549efc2ed432d62ef21018d3dabe8ba90e77de74cd05ab4e404b1f9c32806ea0) 0xa1201ed8493236ea6d161365931e513490f1035c31dc81598b4dd8dbce209b3 0x219e1ac65f59195d09cecb63fd5189c1c7fef13d874fae15aac64d80a7bf7179;
  SDbl 0xb74873a1bef4870aefdff164d08ae12593fc6d1f569a6990eada90d384757d3b 0x9633095f606a5a41aa2c594a01f95c801a427241d2f3d3a86f6471b1416baf7c 0xd275843a1df5d0bb439ab3c051886980dc0b6cf16fc48e80f0056378885e2b28 0x6f2b9ec761a072cafc3135856ed776753fc8c39c2b195086bf18eff3b8020be9 0x8338a9d30170643209df0e92cf6f556bdfb33309ea2a5ebe71e94df32bf621ef (-0x6859158be774fa6096899f91a2b4ecbc3d5f6fbb2a81e67379d6a1349e7ea6e6);
  SDbl 0x4b420bd117151af34c5a883663b29a67fd67f86d3a523a1b860e4aec0b2ba274 0x24e3aea702b451c2517e44f6c44aca5dc666d2dc4e2a1d956b049f89080b1bb2 0x6555fb1e2ae4d9390cbbb95dc555b59caba1fcdc688c73d07f9ff3c0555ddad0 (-0x8ca217f9f1e89379c78b9019c673fa55a10764b7273d1d69e7ab51474d8d7013) 0x161fc3f6b201ab65a90dcc4b5d840e4c99a8a87d66542f97424225a598d3761a 0x214f7b447d326dd211dd35c5032725fc032616d1902570a229373ce53f853a70;
  SAdd false 0x732278494181b0fec4f9d6a5a674592f226d1b21313c7db2ac18c1b17c5deaa8 0x38903ea0c4e26770c0721eccb3b8c948d6e28373c309d636804190ac9573fe33 0xd5a27c85a436beaa53b3392add885ff121db3c6103635aa546f53e5b693ef431 0x63df130322996032bfaa0a820a4e455728bbb3f3d9e1a35063cf74be2778cc7 0x33c7fcb6309caa8e1bea5b4fbe57800b39b3c93163c900f8cb058ba7bba4006c (-0x8d92ad6defa920e43c939a70c11aaae47c2ef57aa4c74ea0239064bd0a7a257);
  SDbl 0x3615ae82d25add243c47b2056ac3f2dc0d9d748008d0694cc87a17ad7008d0ef 0xecfefe15356e1fbd7958a68f1061974589676ad2157fa4c035813485b8d8330c 0xbfc5b480f3b911844c2dc87db37b6e3a333b245110ee055d33333fd3aedb5a02 0x34c6766dae646d91aa6865fa36fcd6e54b58c5edb393bf5f7a401170414626fa 0xb6d277554981876bbb7492297dd3a0eed8d54a4de50f7176fbb49ba0a4af051 (-0x261ea477e50a9a4849273f5c6396636fd63265361f515f51d926f571dba00b36);
  SDbl 0x29f63228955237a9d6dc0d0cb4ce19cc7cc1f0077e7024946dc0ffbec3971c0d 0x17d66e9af4f8114a7a38eeea549330c94720be5b711231df38c68236b53b2e97 0x6fedc6ad6ae1dd2b84849503028970931b5a5177cc5b61635d64626bf27b4162 (-0x253573870efc4e9f94761d7d01a02a6d778a914fbc59cbf88f45a934cad0a3a87) 0x6e0c8d57687f96ff64bf0bb9f82b2dace099898cc6678028aa9d4083e82bc06 0x22f07db84d6eb404fa3f2225807e19a1af84dc504f3f9fa5b48659fe85dd9573;
  SDbl 0x5cbc3c50b8293b056aece9c25154c9227e6c4ebf9b4d439bafd1c34ea4737a90 0x7fd819667d0cfbb2defb7a99493a3dd1153de205b4bc1937ad1db7925454a28c 0x33f55b3fb87dae2dc1023845745c5c0a01973f65b37e98b8b057c2de6e5f20a6 0x4a6ece4ff01e7464a50e1ce800e7778a022f86530a4f319bd55abd038536e0f0 0x2197d5c2cab9e4845173f17cf201d5787da0ec2accc0d48092d0831fe6bd6eba (-0x25ad131be76b8d36380331ea0041ead826dba1668e5892ff449972fbf482a228);
  SDbl 0x88fd0a55d727378ee6b281286278a191ccf60a6c2c166641047a228e50d01a36 0xa81dc0e7df588996e36494a0d22559d80a09eeed5805b9aa6265f2d85413730a 0x5d69e46c439a7c0a9b8aae88ecc979e8b64a8ece8e933916f2a444b86e166482 (-0x87ecf6c023306740914b02e09e5de62dccce96c841f108dce22ee061d743085b) 0x494dd518ebfd953c36c42f898ef0c06144c078680d1da5ac09d33c88a24db4be (-0x158ccf7396276e5429a671b67ea3780e97e0c4999f5a59a839628d9709bdb444);
  SAdd true 0x81006eecc731c43a104bc6bde692b8a3345581195e47ad8e2485ea9e0a946b77 0xa4fbdd74c6e402298bba9472c63f000c285e7a62cf901bccd30f187bd2c94e09 0x8d3f008d18d408ffec4a4a044b281372b96fe9a2cfe976d97888b6d91ee25c97 (-0x3b221549a67ad7d08e0544a7404af76e1bcc96fe603000cd14d78b04475a41bd) 0x41016fcb11d1edbc39a065d5c07ae64e2d4685e751524e84210f2f879f748489 0x19414f8764fe384d6295807f11f53d6a517b94a1fc07360b2e66b9a077622a2;
  SDbl 0x77d70bc33a001845bb2f0767b8a8124a1ef5761c0bc9186ecf4c1ce8e77d375b 0x24f6b523375ad9079f653454244b67584b890f53216a2e1c168b09b89062f4c8 0x31c427e2595629a784be9f6c09e428a3b3bf66e5ff3b7a2ed0ac24b8600e5f31 (-0xbabd234caccfa04cdbbfe9cbf760c06f9a511c1acfd10c8ba1aa228ef46a406a) 0x3819a1947a7b802b7f00a55d2c4bb800d0797df7a4dd619cec3dc69ae11f5681 0x3bedeff4dbd0acd63bb482131b96a67cc6cc16fd5681a8e11405e379aba50aad;
  SDbl 0x3138ec5d71abb9c08240e0a2259e5ef94d9f9d2734534f153736bb6bd1e600ed 0xf3803b311cac10de58033d48691d726f6304655815b0ea12e87e75d68d265a58 0xa7e35be8ac47db368dc1ab08bf4a3970c0de7bb19996d60e8a78cc91b5c9860c 0x32046e4845a54ea6a1613ab144ed3def1d38546b0f99c14299f03cb10e15403 0x976d7241218bb116fe780a5ab7fd776a28ae34d2db42e6ab3e029010a0f687f (-0x27b63f704ee4b73d2cca5e721fd866a6a179e82df4043bb8eaf7b64b19e31473);
  SDbl 0x6962f441b50475c26a77c7bc96f614c54c9f5ab98c6834d54debb02bba51db98 0xd1c265edf68e5ff58adc705c38f905cc53a6c1b48da35d69345dfe1f23e0a415 0xdefba39f8247fce0b79e9263571387389b417217b66b9e6f8cbba562aa730537 (-0x22c9bc5faccc0613bde0ee6bc909629edbd94f51677ce64c57469613b4839bb83) 0x2b62529dfd3be48f8e29606462c1bc85d4fafb89341e7d18bf3f1776ab9fee85 0xde3e755d48da0e935542a2ec6c7455264455c09f1c21f1f2779d342e2ba027b;
  SDbl 0x80d757d2dd9341c1e90be1c628032d5c79bc7fc44abdadbe98e51cc633d29c52 0xd79be4f62bf5b07a32cc1cbf31151ac804e4f5e705611bc76f117695264ebf79 0xf36f086e78e6074d1e035b2a4bc9fe2fb015457dde0ed3d6f95d4d825f7aef29 (-0x1232a32de0062e36c65bf289a113a9c2e01e148f01eeec8154825f393f485a214) 0x40d80cf7c0bc7c5c798f12dda950c08acdcc1ffd6462310986a01c6dec13fd5f (-0x2f1ab2f89304c27170c3e3b6da346594739fb7401c70ca12f1c80b3b2145598);
  SAdd false 0x8840ea6b10a7b37eb744858866115478979461d7ca0cfda02e42641bea6cb7c7 0x4ea787fcf5ebff36caebcc631627063c2424fdb18e0cc604023e13132fe2aa9d 0x8b183d834180d171e02de354d7107d7ca9ec7c158195768d7944dd2a4262a951 (-0x57bc21db09d657ac676ef451893d989d61eae9fb055eebcb6d4bcf62bf6f916c) 0x4885098816677351f9e4fab7a60586d906629a55afe4dcce62e0a51429a7c22c 0x48e48be48feed94a0352e5d57a98d4c3213e4d5afa8e3beed9d705a0ec201d76;
  SDbl 0x6fb77673ec1e1948eeb159ca2312b3ad0acc344d4e022360c420bc53d63c3e93 0xebaf9e3d6855179f63503b7f884f97ad33fd406bfdb727030b107d51a3672c98 0xeabe003e9b1392787570306b77fcea487944612c6abf3630557255a969efe344 0x30e6d535b8098fa2e11d2d65dd8903f80533d1c6cf9664b56201a3672d70fdd2 0x30c09c33480d5b526971de786ca581799fbde83b40a57f36388b615adaf8f969 (-0x44870b16f3ee0475231fd4217a87ece67862b96cfa8faa8ce0bc5b3e9e48064a);
  SDbl 0xb47bec2e3a2d3932b247501d9256a1c483cf9da3ff43cb26ad6d313c52f0daf4 0x143f735ce50a1c746aeeaa18166d5a37d389e2a9c45aab999805832b28f41baf 0x8cc40c37580064b4c37493f63fc0481ff6b74d5395b8afbe4281b531e827f91 (-0x13ff53aed483e4f95d221974fb730630e7fc9b0c66618a1b4124d14f4c19b3ae3) 0x7f3e801e4f5f439ee7b969a328a7c79cb8a34633cd5eae7f42c7448edafdfc4f 0x97e327cd5cb71b6002b83ab358485825dfe5619c9409a793016a092359efdac1;
  SDbl 0x80a789607abc099e142664611238874a8bec67123c137a2a82d0b55b350b7a6a 0x77956d24506659fe6fabcd36438801cdef11a78bb9e0c21d916a626397f32508 0x473ae1adf0ac5db4e22fec4e3fa9def5a898ec5bb325f35dcc7dca74137f32f2 0x409d76fb901d6c6ec148a217181a9fd955ac764262370e1cd5a8b97c3a54ccc 0x40a7f70540fc89b16b8b639274638e0336bf29b57e0f1a8f30f4bc2a46362882 (-0x31ebff484b3a7a5de66ea9bf454dd83b202de2856640d1232238f66d7a1d04a3);
  SAdd false 0x7e605e613128f96649f0d547b951bd2fb3143712f6ee1d7664c60e8282c269f1 0xce643d5262ab4da703c2175a990c34972ced3f276efe029a2e2ea7837960f42b 0xeb8e57996f84ad5027737d34839204d9f8fbc970deda0ea975045268df56018f (-0x21f8a5a4adbd6b918852280ed0e919b02a445eebd73bec3d4f3045a382408d62) 0x3e63012ed677ba6af59d14d67634466f60a8cd4bb696d52fb453536ec384f919 (-0x2ada7805ce9888b394f3b5e9f34dc4aa2c4a0fe0047f9b93ba930a7d0c4f708c);
  SDbl 0xf73e0415a77d7752f98c4efa13dc6a962890909b12107b3ce4fc37c5dd7c19b5 0x12a08f779c3d33635ab45159be0ecf508d18cf2b7ccea6858971e3ecec04fdbc 0xb868b4dab83602328b33fa8f3f31b2f9eb34a0f1196836ab0dc5542d86c2000f (-0x2c31a05105e73d148c7b2e4f980fec43c5a7b67f67aea36241995962f70e248e) 0xeec8bae8b28aa701702d61f3975a1cffc88d357dc3ed04c3edcc5bd672da0c19 0xb5574921d664eda9e720b57b60ec1e50106c20e381895441ea4a50a2483dee23;
  SDbl 0x1eea12130251e823f28db709029531d2cad66dd08403ec7bcaea20bad3b8fa53 0x17a55a7d7c62b528ed89c9e9f9367101309f830f7359669ee9e4611d0b5620c0 0x6cdb58cd06afde5723be0f3bf66b3bda2c48b5b819cc477600384ee539a6dcae 0x2878d936c02741e15ed6502cb9532752db6a80aa8ba712acc0f67225829e1073 0x3bbb241844dd0232fb15763209658ba06b1091e0b2acebbca91360d4549e54f (-0x9b2686f9eb8dde5aa3ea139598d9cd42b89f20abda815b2b4074a86536e0f7);
  SDbl 0x1bd7ebf7fb851e942b4fbb360db278eba7d81be5cd56a9eb3a322cfa2df8ebd1 0x65e4c84208ad0e5392e89c6dfd557bc2bba136fd9dbbcf5cfa18bff746b3a5e 0x654b9437cd57f5049b2e3611cdaf534b5fe1d8c5adabb9d25f44203fb5ae994c 0x112082a71cd64ca380c83950874ce7d734beb9ce595eb790d597730656d5e7e1 0x30741e4861f07eedc45f1f8040f82923e1c3a56e4400d586e486d1452ee1b3d 0x1e111130159020bb94f8022307395017cd2469cc6546802f8f6f6b0af2369f8;
  SAdd true 0x4aa34b2bb1803faad3fdcd41baec39c09235c592ba46f6a32b3355e62c96058f 0xa80fb9f1a3f1407da39cf74b6568549c532ea694d040e0e43341839e4c254489 0x4fb64c6cbd0062e8a11d331bea495b2b48998aaaff6cacd8a3e96de73ca11f68 0xcf1ea745d15e4c9fec589a82ef6299b56789b721c95a486c19cd8a12011a9ad 0x15c2cf9e28179f343fa662f582c0eebce59157284b3bfd3a6e3c785f482a0dcd (-0x2f246d1517d3d80a47cb9d6932f9709fa0b5e9f7787987b8fc643b84915fc247);
  SDbl 0xc6f90b32ab63d63b459406f88b9aa32fdc6bcb91c6e9d17bc51eda0e22ae3971 0x3de0ec8c36f52e031d2298ba07380b744c88e130c84f47e794a837cd808c6e2a 0xaeac98d732f2189d31a617b7f4c408ab2214c2e60f1491feab33ef9f08e49af8 (-0xcf14d93c2054a61b9de13116397278c68c9901c112b28afd1bdae632e9c0d5e0) 0x9aa62f99c4d36bf62de90ef8afdaa3280de278509bd46f5f1119c4d9f257735b 0x52877f0793879c26521b96a35a228ba75edd5fb84fca48e265921b7b0cc1f371;
  SDbl 0x1699fe072617f37c207667cb708cd8ff9c93b1dd06324655265964aabaec53dc 0x25466da2c8e7a3b955eed282d877a9341e918ca8c6746f7cd5214f0a00a446bc 0x81259945133d719e2142eb3f4c9e3ef9a53d4b3d0150c656f4adc7abc67b53a2 (-0xe0713d105bec6099e2ceb6213381c8b62640e8ebedba103be277dc5969ecd97) 0x1fed44add28aa8fdf4091aa25bc8db06854d0aea931c816f39a3a6e98a4be00 0x22c13a7e4f25353f577734be84fcc4a11997e6dbe75843602828f1a59ad6212;
  SAdd true 0xca75b90df41192082376451569a2e5ae3f37ff6e531f1eb82f091951e1828744 0x11e3e0643e912e92bfd5f3d976c05502a1ee1995ee1c4350b5a09f5fba521fb3 0xc6b8150087bb0b13827bd525f0491b25f629227fd4bc3d3178113532c5fbc399 0xaabd360e05d59b3dc49cb087418380814eff458ba88a2d575dcaf5f29349512 0xa01dfe2d51cffc35bcc122ff72e02d51abbc597febd18d0087a89e97bdba1126 0xf54ad813ca0c0d48a12e98993cb10a1f677dbfab0400308098863aed07cf9d7;
  SDbl 0x2ac34259a21684605f1342da06eab9f1caff2f0054ed3b5c9aec6db6a4ebb4c0 0xfbdabac08d2d0ef97eccceb992486dd408714031e8787e09afe33b45e0d91715 0x5f75bc887b25c96debc525392cd64a6b3c9207bbcaa2e66fb647a4813ab06a5e 0x3ea35e676820ddddf3c9875267af4c47e662e7b0a567f8ae12ea4ad3242ff7f8 0x724a6b396134f6696a0b63b00416a3e313ae89cb1a4ae5a37d52069fd5ec67b (-0x2714f37f2f8ae7c806e974ad11121c8d8c3a97841aeab4b4df7ff88c55336089);
  SDbl 0x7394a88150640f1db9e1cbc2ff966ca89f455d3467c1f1c0a15ea1e2b87a88ef 0xeb44ab5da1888104470358be5a176e3c7f96cf20019b29ef4c7efc11ff475470 0x388af994d28a8f6cf6a66ca4cd8c5d09aeb222a0abfc24d88cf4d1758a084c0a (-0x291214a1b83a9196a779abcf524a7e0e844e342614b08f37ad537cb3edcf6245c) 0x342ee5b7a6d7b9d348247474288740f978e5631d8994e5ee213aaf2363eeb379 0x77d0a9537743d60d09587e33fe4e27016e7df0889c930a8c28a06aa639a565d;
  SAdd false 0x4cdec788114d83c7f8b2ac1a5fe2b54cf40f8238bc458840116277ef2019ff78 0xfeb3b540b92fe7da0bab4a7720db827276f3d5dca65923afce57231cd16c5420 0xf867f1e7ba60679c001a6051c183d8405eec740246696b3ffd2fa931fd54227c (-0x37668df60956fa2c567f4c0f91211b4fc84caafba6d027af73108bd0315f0e73) 0x171508578cdde43fbdc39c690301fd6bf83fc6964952bb8ce43d50261f9fd517 (-0x5d5e05fa8c720290c8994a83306742b5d238b25909982632a8cc610246b66fa);
  SDbl 0xb7bde4a148a05203e7779d39cafe51415950eb64b936fd1ba1c58631247de2fa 0x9efc45003119040eb68b810fdca331f99d9c8ad85acc0f7618ced22904a6a02 0x598b129d3f9c7eeebd7187155669c8ef2a1c5c859c581966bf4819f2275521f6 (-0x193a62c75296a61456b8b8af519f1560b8b079bc1421783deb3bb27a5de5f3e33) 0x83e109ba7c0b2aaf2b14a3d4f87fca179e8a8e0a0b97bcd86e74f1ea71c0b61e 0xafada07e5ad513bdd47d6826cd1cbda984ee72ddad57c7d62fde090710362726;
  SDbl 0x4a6fc335dcaaff3607e692016c552fca4ad32b950d9fcf323c9f038e2400277b 0xbecc117fac6bbd1e1943b7be5b875a9793b90ec1c75e774056e0be8cb88a356a 0x8af3c1d8e7d28fdc42813e626a2d3efeeb2727142b406a689217ae185c3439bc 0x32ea60d37fe7313e051329110128fc430701282461896e3fa79ce320330161a5 0x15a4cda616c81efc42049a9d098be40f18c7f97b299089017107df433b085455 (-0x3496a3bf4f828c9c46a2219044db1940aeee43f90ebbe4af546d6987cdd31156);
  SDbl 0x50aa7f96a409dfce6d7bcf130c536692e784dc2ffca885505e452584966adace 0xb360c52618612744a7b39893a38c615b78507a09d92ed8f7d2096ad4f82e5980 0x2d1e71d3c53106deac5b24b5c158859b842a6c26807e6a9bfb46e48a7103b26c (-0x15309368b25d917544bf70e78496a522b4136be5d6b63555de9caeb0371c9eae7) 0x196b014bf399d9b0a6ee6136b4ee0ddafe375f6c15a11ad8eaec527b13a74690 0x39922cda8691b41db8ee5284b18c11faa77610ae51ba3014dcb0b6b9f23b1dc;
  SAdd true 0x3237a76d05a417ce8198627153bd06525439788f9ee1e03bbaf3b3793f19c7c5 0x527e5d707af875266ec33a97b17e3997329b7a19fb36d67a759c814c31011c95 0x1278bf61f138490cf42aab05a15efd0b885a82bb2c551213f4a653ecd3586e43 (-0x193a722273e7556fdaf940fb75570dc816710d13fee01c6a9a7ad0815817f06f) 0x9d9c97ffe65bb18c8ac76131a24b87aaaa48e0c9f72eae271b82884c61e0d43 0x13014842c7f4b4a1c04fda6b9e93ac2bcc4d5e9b11b540d458297de60c3e92d8;
  SDbl 0x4cc0e50726319b82de3317d062d061e91bb00e8df1bb96f82441885deb18280b 0xe84b5eee75fbd10dd0635645dc62e6c3954fd8d175b4a83f8ea9f83ce88fcbfd 0x8e3550f70a952fb8c347aed232e9eda4dd596e834806609c9e425c267e05f039 (-0x44ac0ee67ed783e0c43cca5aaa8fbe0c7c3276da4596b0b6090cd1d8a78d9d9a) 0x17031954ad4fa29b822cabda455ab35708b809fd062056ccba4ed70b903e94ae (-0x2ce9bc3743352f76706eaeba235b60d9536cc79cd95840eb7a6f6db99657d80c);
  SDbl 0xaf6c3b4585dae77bdf677e19dbc657aa7c166a54c8b6a53151916c7367d639e0 0xf3b1209dc972d61dc23d5e463ae07bc70a00150351c170ffc7a848e5fa059bc7 0xa789ac94adf2c1cf6a2b758da16f060d95846187608f855c03e2be8cde569394 (-0x1b574f33cbe168ba31d41ca91feafd36365ee69a28fead182a3b388a467161da8) 0x783526cb95987e8e963d8dbe3edcdc980a11bfe0b73ac48f5fd12448bb8fafc1 (-0x7cf60f823db2cb7756db60381110e3fb4ff0a2111b2ae1845041da6286db173);
  SAdd false 0xb3c1e997d66286e7a0ac49826e2614836ae008d27f064da62b41e07a67ec276e 0x2e44804f9e213fecb1d5a1cefb0018e23262129645b87d0987d7e303a8b48535 0x4da731cf796c085476cd6db3d33039f44f9e7f34e055d80c45874e272b2ce92a (-0x87777651ea76370d0311e809d679f407c7eff95bfc93e8b303e115ed7310c235) 0x7e38bf8ce01d8712296460d5603437e568d119996df802324ab87b079923e27f 0x8aa07f210427b0d08f68f2878bd7bcff020563fe36757eb72d87b2a831a38c02;
  SDbl 0x4b05f18deffa065181a5150d40fabbf320ca9ab3c98dacb5957b776db16b6550 0xd270a5ea627e1699ac4268a8e269cd51e7931a09f401edb89982ad54e968cdb3 0x903314e6f4141fa9f15a19ee4148920a51686269a19c537a45ef0e33ecb1d449 0x146d80ef68e9e80099ea84b438811ab3e42e94802409c98457f215d60e5f78a8 0x15fc7bac9410e7ab8f7bea524efae2f2ac167ed3298518b3c5b81e15c1d99f1d (-0x301cbec9d946beddc9b4a8d4a1b1ad20f59a4c7be8c021214aa63a9a2486e52d);
  SDbl 0xc0d175219d4be53f3ef46f14cacd368e6c854975c93625bc73acb36db74281 0x94ef5161819a459f8fae4af4ec6685813c1b5d13286c3c564864c3a50dc30fb1 0xf79080b3e71795803724a06a10decee2574aab0e87c20cdf86a594ec318ed884 (-0x2061dccbdb59e2842c957f4dbfa94972fdb855ec6669578d0955d4b0b10e3141a) 0x913adb1373a7470ff11dd055dd6353b462f26adb030f64da3416e0dfe616 0x2e53522109d6ca16efef59c8133eef02517dce99df82fc8593c21a075169cb;
  SDbl 0xdfbf21628d677532c54bdd0579afd5510a1efaa237199311ee3e48bcf3099c6e 0x78def91c06d9748dd1ff0f4bbd832973d7e690bb6e0cb3e10bf6f9073c72d202 0x6537a27623f5267245e36d20e1e23ffb995e2b0160f7ab660306e42da3a3883f 0xaccea8f69fcf1f8758e1602ffa5e3da1b944742269176b9b591908d227e9b7b0 0xc38e8add4b5257d1de56dcbb456b2f3c27c345421d0c58620aa19f6c24a6b220 0x188730bf636ed4307e64cb7d9bbd4c9ef3f7b9a399bf7a48d32332d9b6fa3b91;
  SDbl 0xd1384ba35b47a836e9d85e04b0b3d0385eb6eff61ba1a3652dbb7857dd9a20c7 0x78e83586bd0a92c1474699f03802a6c90d7511cbf7bd56a5d44aa2388be1704a 0x5d0561fe4e3f88196549ca811fed121330a81e6e261163bb24c973ca7092ec1 (-0x5c407d2157385558fe65e1fe2572be07f784e08cb363261f956da8609ebb9e9) 0xaafcf7e293d9079f300f0864527e121ccb4da2ed8c7dc464362e43a1fb28b99d (-0x78c5b10b58723d5d31853e756779e28d7b2c8217f42faa3e003abc33d3f08);
  SDbl 0x33de6ac4c9ef4f9ad9b09bfcc03573146d22d237f2167fb25087043810e51df4 0xaf276a51ab4dd5a6503a653766ad81a386e06912f1a7ffda279277d4bb988d85 0x88104af54e2982620bb6b593382c7f008756f781e03ea82994a0c03b3fbb4d7 (-0xa8f471ef3ed32b18e053f5b3dbb1b7b91c451514b4164d3cccd065a7756459bf) 0xa825fc7cccd830d93c33b9d500ccb1969bc746cd46c5a322a8590b8b9523d89 (-0xafdb8f41f7a85f5f80b8a1cbc3f3c7b0e0f954212e83ae1326ca0f1965c912c);
  SAdd false 0x804f19a81932199fc0da655c3f9211ed049c525b89933f1bc1ab1cfe064bb721 0xf8a5693555c90fb5eeec646a061dbbad65fd5b0b863a2983d9fb1d1d4d6bcf9 0xef68e6373ad0cdf8cb55bf8a127a87511ad64e3b6ee5945373934b78f5709beb (-0x3e57cd0265715adfc146bc1075c106bb64ea79fd3a81f2661e84b95a2a0ca2fa) 0x404f321931d31bf1a084303f6e192048df07b90805b33baa60002eb967658d04 0x4fffdb57b86d2203bb2955c4ffae1459ef1b52919663fe7a44235d94fd585ab6;
  SDbl 0x8481b0b2f63c45c414df20ba8ce1e6d1fda542b7069524038f48e62752f7cbcf 0x554c3038d4de2c64456998b7469322e626d6a48a371d1867b9b563786ae6dfbc 0xb72b5b85ff89b78c3ca7a79bb3e91b20b2df270410610da3cfcfb1c7cc11db94 0xf5023cecbbecaabfd3ae739140fbaea3b792e1662933e127af644d65bc832686 0x4495ffec60d6e04b1e90888fee2f6453c01fa9266af396d7a9e90b9e8ce0684d (-0x241b4b0e2fc32fd21281733042c942439f3c7073b4f9ec6b5fded1a41bbbcbd4);
  SDbl 0xd9fb48cc0d3b16c124f94f89b7d4b841ecc02e4c660caab100ca6e4c9ff07d55 0x6839c90bbeda7bbb5c963dcd7a9a6580a6c5b291fc9e54c94b7080f0d65c23bd 0xe99faaa5f7876123b5769503737b881331af755186b7a79e8cc7ef68d352ef62 0xe2ac0c44b19cf3207e76089927984903ee2461463ae02c64c767f126ea40dde5 0xb99bf8127cdf809adff4a0e6988c185e94ede722f6d9bf22ee4b33ced96dc4fc (-0x101dfae1988bcd99427002fe918e657e4aaea66de989f006846e97e3108723b5);
  SAdd true 0x385be115ff54b4beb1fd3aadaf75eab5808bae64082e50350cffd41d58f2dbc5 0xa8f18119c44a74c598ae651b785dabd9a1d0573c51be6b07c09cef56aebd9d59 0x5e9ba2f7a70d818c2d6ef0abe2a1944d04d98eacc279dd5602a3ec7140211f34 (-0xbc4cd8208bfe39f0144d0b323202b5927dbae9407d33adfa5414a6ed7cee974) 0xc68537377a895762d60a16d39a7e64ade8980c860c5a548b105c5b30b479044 (-0xe3f6a7894ceadfdf3709286f174d25cc949014fe889ec5736260b0c7108e85e);
  SDbl 0x1ead1ba12b393bcdf83b47c2f87a2b041d8ffe08e440545c7a9679e8e5a424b2 0xe548a60fb50d6209da0ae2b7e905c7a76ec1b5527c1b0086310fdda7ab931429 0x6630f16bdef06ba5ec8b23dca30858fc65da6807bbc8a8d31de38b4134d44e73 (-0x137cd2adb659940d93e6b1adc0cc0ec3f3051a396cfe29be373f12da16b152980) 0x3ad0788249e417cb71498bf039d7e3cb3db92366a68dd71d77fe2cf8bbbc317 (-0x73b03bc0189df0a7df351937c043985ab16d4ab62f889ada38287e78ca8b5b9);
  SDbl 0x473ec49d91ebe4cd775ae6803e554e0ca90c997b9a0851f1efd0e891b6038ef5 0x97fad681a30b97250125204261660e2351e77920f805eb500ad67051a0ed9301 0x11fada7c1618dbfe8b13dce7e094426861dd441dd3b44640a582302df5b2ca00 (-0x22f2fe68c7679f6c2940c86a425b4a01dd5cdd7ca489b64da94be916f3412706e) 0x13d3e0734e19100d9eb1a1469cc2f82544ad43ca6a57e66084491ac5f28104da 0x158388c7e89bc27b46728e476ce6a9a507b42b4397604fb992ec2cc439064d2b;
  SDbl 0x233d3e998d2b7b457c78a1011f39953e9a89b39ae6e7a0731c44292bfb94f56c 0xc3d0becae275e8f5a31c92971918d247004d404a0bbb9e29470c4b1b3ea9b55c 0x95a44854b90fc7206461079675cecc9a1c31d42f748a6449ef44f11e3d936904 (-0x109ba6a69aee0baa9c41cf13a665e4af551a894b3d6d12338e85bf94ec8b1fe00) 0x4d9cdc4e5efb4adc09df0b72fae19c837ecfd5f4b9b90992974b188085cf5ce (-0x608bb727c6e351430735612a7de25241829c4932330c3659ba09ef41ede3798);
  SDbl 0x2a6427ac94836d7aaae1b007d050842cc9bb8eeaf1a84477bb7cd205c925083d 0x326fda83f781d04d375fd2fac78e35b30342cca243c15dfc314d68eabee60f8a 0x730c87c95aa1a234668e892f282c88c46a6476ed87c20d6f24cb95bc0e9add98 (-0x18fc8082a7717e6d95fe92681f168d3402284120c191e58d9193454aaa61ea0bb) 0x7050433acba346566c0796ef00e167c0ba3bc627ee9b1466b4c6c7410539bb9 0x1812c5d4aa896d64b44b8ad8014771d1966e1e26dc34106c749f87bae4073392;
  SDbl 0x378c40bc108e0b3b2894e0b43e5614cdc23823955becefa1665bb4ccf744e247 0x78f1434d99cdf2dc23de54cac33f864015b8427ab2d80bc8101faa6142a37a7a 0xb8188ae09cf563d93adc8a39a801b30c6bf5999755a26f0508ca1640a2aa72a5 0x141dcb8c198aa18a9f8727d0b12a75b8c9c7dc4e2f099830e7d5e60fbcd518d9 0xc0d90a7b93b4746c4afc60fe2d2dd75fc46b0ce4c9033321d6e03e0c0b629dd (-0xf4c6e1cd53a1d3f3d3d8e4ff447b26a4846ffc68b615288de46d419950a2733);
  SAdd true 0x8cc9ef59e7c749126493225542da2e25fe637f38ba7b7a809b85f2d479bed3b1 0x1a3e988ea92c2c9485a421f8ba45dec70a64c73aeac13769e3e3881452f4d623 0x64c659c4c3b5edea8e639a89bd983241b46e8b7f4784475dc4d35d772c6047f (-0x2697bc2bd13eb782a96b187178018af973b13c3ab9ae77f54743a2d056b90842) 0x4d6d7d145de66a4a4fa3ae7a0403c10f5cc57dd959e273ef7344447a8d1b8503 0x34146832beda5eac0dfbed7bde3653ae80c3712536651a084aad660254ab21fd;
  SDbl 0xcce12e4e3eb5a549b609ed8dc51f8b42447860fd8981c2146acb3b8fd580c880 0x36d1dad9f4d9c9813a878d87a21b180e683d0218874dacb698a9cbab9134b837 0xb6b920234e2007226fe3b31d53fc6d8890559a2951237a5cbadf779cbdf29357 0x20283a1574542ad43183f72090dc90c5aa1fea141977885ffb2e643f378ab58 0xa3f7a7dfc5d3990d58f91c6436e3ec00c90d2e59391e0e85d1164e661a16247d (-0x16de7b6c8d2203399a055b44c3bbea0947a436728d0bd3ba71d3321318b6be2a);
  SDbl 0xeff6888148951d92eadd89bf6629abace6b0e8cc393578f4cfbee935619ecd60 0xc558b44bee5301d9f52b44d939bb59584d75b9034dd6a9fc826872109a65739f 0x3252b35b191d8ae01cd122c025204334c5eacf68a0cb4854c6a7d367ecad4de7 0x13355fb99109403465f6d439793ef8ba1b392d8d203d0c582424fdc2a37697c30 0xe0ee404ce7b5ca82bae2f29501a9e98df4bee9aa1d6e95c7f6688582d58c000d (-0x859926967ee81dc0463ba89b0303e2523c76cab039d854d7c00bcf1dcad78fc2)].
Lemma ku_pt : pmul ku_k G = A (kf ku_x) (kf ku_y) /\ xc (pmul ku_k G) = ku_x /\ yc (pmul ku_k G) = ku_y.
Proof.
  apply (replay_point ku_cert).
  - vm_compute. split; [discriminate|reflexivity].
  - vm_compute. split; [discriminate|reflexivity].
  - discriminate.
  - vm_compute. reflexivity.
  - vm_compute. reflexivity.
  - vm_compute. reflexivity.
Qed.

