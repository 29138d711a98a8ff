(** Certified multiples of the base point for the signature and encryption samples of GB/T 32918.5. Each certificate is a chain of doublings and additions as in Sm2Order.v. *)
From Coq Require Import ZArith Znumtheory List Lia Bool.
From Verif Require Import GoBase FpField Primes Sm2Primes WeiGroup GoElliptic Sm2Group Sm2Spec Sm2Order PropsCurve KexCert.
Import ListNotations.
Open Scope Z_scope.

(** The private key of the samples. *)
Definition sd_k : Z := 0x3945208f7b2144b13f36e38ac6d39f95889393692860b51a42fb81ef4df7c5b8.
Definition sd_x : Z := 0x9f9df311e5421a150dd7d161e4bc5c672179fad1833fc076bb08ff356f35020.
Definition sd_y : Z := 0xccea490ce26775a52dc6ea718cc1aa600aed05fbf35e084a6632f6072da9ad13.
Definition sd_cert : list step := [
  SDbl 0xd6a6796a27dc312621ee1d7807d53f6f50deb90e13e36666ba6451403bb1c3b0 0x56cefd60d7c87c000d58ef57fa73ba4d9c0dfa08c08a7331495c2e1da3f2bd52 0x31b7e7e6cc8189f668535ce0f8eaf1bd6de84c182f6c8e716f780d3a970a23c3 0x11d6cd80f81a9b5e9badabd304c2519d600d3f8b4fc759d131c1e2e5c0ec83c10 0xb3fabf3fdde018ae8b11c6c6c230d119ab7a3586127dbf7325ee158cbb960de0 (-0x1e380dfd5e1b5e2882e2747670d8a7457ae3f364a6717b3578c57493fb0d2b0d);
  SDbl 0x17e021789ef1ed9ec506f9ba33bba229384f476f5c75b6707bb4d0c32e74636b 0xc239507105c683242a81052ff641ed69009a084ad5cc937db21646cd34a0ced5 0xb1bf7ec4080f3c8735f1294ac0db19686bee2e96ab8c71fb7a253666cb66e009 (-0x4f09124c394fa03cef9d066ed39ebf371ee29a6771c9f23670d82169e1bc2c39) 0x23a0a3e463ffc20684142caa30690db7211c7346977c77eb50b4561c8f25ac0 (-0xa04988a7d8bd1088592011163b1877b16a3712bdbe2746cb993e93b5aac0173);
  SDbl 0x65ea2030ab7144438852944b7c35697255cfc01dfe1aba9d4fcfe4fa492035ad 0xb9c3faeb4b1610713db4333d4e860e64d4ea35d60c1c29bb675d822ded0bb916 0xc519b309ecf7269c2491d2de9accf2be0366a8a03024b3e03c286da2cfd31a3e (-0x12c8a8773f350f11e9d9e0d929a9e07f124dd891cb837406e06d0d3b579fc0e82) 0x289293856cdf92909040f1428c3d40b7bc88c227a8296c2ff05baf3a35cc3fd7 0x35e070e389d282d30ab856179080bb1ec1931edfe054b6ec202fc382f19bd34;
  SAdd false 0xe488653a0e2529f906e754830044cfd0aac62e672bb97ed6652a37f6e20ae56e 0xddf092555409c19dfdbe86a75c139906a80198337744ee78cd27e384d9fcaf15 0x847d18ffb38e87065cd6b6e9c12d2922037937707d6a49a2223b949657e52bc1 (-0x78834d5cd7d3fa189d61baf6d683f83a044911c5f6492718e48b7ee79fad05ed) 0xcc033cfbeaeb538fd48c52290757d9953990c0a8153f6207aeaa3a47081ee1ae (-0x204afcd8cc6f9c50f6c53c345c3bd708921e8345da7e0876e5c541dac2baeb6f);
  SDbl 0x327762453e5284409c53012324b62de68ef3c239408040582c257d7077b3cbb8 0x83b4a4de96a4d70f4aaf81826982d748ef22ea28be9d44de0a44248a36bb0a07 0xe481c0d9ee8a98d4eeb6d6c6d7e74f8e3e707c8a438529492e663cd4373a2f24 (-0x20cff4c678e41015970b243c87662fefb7cf7c9aae0c02c9f190451e42177d448) 0x9f2da0f98641ce19e6eb3aa827e8f426675c826efd6b8f1f72754e8554713f1 0x11c9c8dffdff976d11b9146dbb82523c5c17bd39176541eadc0617103f449ed5;
  SDbl 0xde2a729d65033de3560a62a915e2084eb3cdae96ab9780b52584a41f9fbc3f81 0x91cb72dc55f8434694ed53ed581d191d36f0dfe49113c16e6cb2f058c747d33f 0x1957ad4cfffd491ef7efb07682931f88f4c600e8b5dfe8113ea6aace93921f31 0xc155b10e59b1abaf4a904aa128ab2333e4cfa149c3c8762f9cc9f9818f246a48 0xc0cda5d38af4f8f613bb27d461f44e4423d9b61581f0f9fe75932edfa185284c (-0xc3a1caeb50c58f95d59a2579d6b89e17e5d86204d20e34832a8b98e2b9d8473);
  SDbl 0x3b314b3268f45aad567a0f2e5c30a292d92e94da0aa8c8df4b92db46470502f 0xb21e68780bd8ee9a72976afd2d0f4836dca3ec1ca731d89c866723c1db16de4b 0x85405981156ecd7dcef0026bcefa2aac01b03b987a6324f8aeece0bcd44dbd4b (-0xf85ccaa28871c24955f60bb6b7356d66cdf92e3371727329c8a7e58eae3d577e) 0xdafc227297324ea1d46f1ee68e61acb439cde88928e410255cc706f691c28 (-0x77957fa989b147677725d85fcd214e92e3a686e89217bbc25fc2a3bc695c50);
  SAdd true 0x8de1200ae9eeb44a81ea295fc0181f4adddd7a4a83d7e9328d83fc0b284ba377 0x7ccbc3bf87cc4d5426804860af6a7e95721dd5dacce5bc3d123308b4a9c5711a 0xc6ebde08aded9af4145518b80573d4c03acfb676b987c2135995334c3e242616 (-0x4694696979df1b32718f994cc94959cc240c3b705206b11794a70d364921b44f) 0x4ea1c345ab84a66b73160eabb1a222221688bea9bf9aa3ce41806457580e02db 0x1d8d69091effdcfc06d7998331bb4c49fc4742a8c7d8864db76f017aa7b6ee9a;
  SDbl 0x5fc918cbbc088e0efe16dbf00e03bf226d034de64aca92ce9ea9e74279a18c9a 0xf435d414df4f5076d9da783ff9fa2b9d73d0d75407a752cb314b8155d6b6ad5b 0xaf1c58598e7cb56efca6360f0e1c5a33d136dc23e40ab6c11dff839d5c16d42b (-0x21a683bee7f972ec67179bee44085d475ef391b502119e5e8fabec0038ddfe8f) 0x23d6de5f4bb952a2da29f61ed9faa86beefffdb5ec9094ba1d890a7b6f54c2eb (-0x2cae29e7a5825362abcf6dcf9f9bd0c6393f1b95d84fb20e3da61a99d1d23aa5);
  SDbl 0x64d6b8dbf7b7708e549e05b6d32d3964783cf67e18bd1fe60477bc68f61bf83f 0x72b0541de7a5879cf44c069e7f97795e218656367a1d707060770245efcbc022 0x9ec9aab004d3ff134cc1abe176a5d93292e2c32dc055d4f808358548d77ac787 (-0x230f0117eb593918fa5cde8a6d8fc65d3bb7148e5dcc729b28cd03f8baf096222) 0x27b87485967edc3e6bea74b3816631a37c590b2c6b49bbe5088c059a3b34fb57 0x3304c91ce2b8bb9ffa7e5842650e0655e75ea4997e555010b91a0664feef02ab;
  SAdd true 0x3794e35c981d73dec82bf586e7d4dc8d61a2cf737e6693253e5455468805150d 0x501f9f82e0fca15268ff2e62e4518e705d8f935675f05c320ee5fd1c3b8aec79 0x8e42d0e66230fe938c1d99be490e3597c735950dc7e2f996842603f19c33c874 (-0xde0cda8028f20e21f04060a38d376321de903604f963beefee220f0e1d48c48) 0xc115049826b31632110e3d0d44f980bd314bfc8a6453030b927b957ba65feb9 0x7813128903f982b7755c836a1b704e97b12ba78257f3e500f89e76710b9f366;
  SDbl 0x7e7f68fc739d6c4028838dee6dfbf1f71645fd7950b8f580ee4d89f98e9313f3 0x61cd557404798af2ba3042d75f3d8614712eec2f5368ca530fbfeed64d2d524e 0x992edc0be2ef5510e72c8147b8d3f7b5994c5a2b50073a4567d82913813e54a0 0x415c09cfb7427b2091877cd353639f332c17b83c74f4b45143c6613399622f58 0x3e81aac215d96e665f7b2fee257f8e00446673e590c358dc447f85b745a33297 (-0x8bc4bf9fbb9597616e6359b37a1ab6b9c9de9ac86411bd25e0b522378896abd);
  SDbl 0xc0229bbd05c4e3182556b26867335d1ff2717a0ecfb5aa7d4719c954ffa09dda 0x9f553eac90624678dcbb7f889261532184216dbcceba1a86c49aa5a05146870b 0x86186af0f6a7325d7e3a9b208c1a932fbebf8f3bd245a2d18ab2b2f16f23ec16 0x75d7f68a06c96fac8e34769330d27ad91e78745dd7ccc44cddf66493c7b1cec9 0x9033ee49d5cf3bc850130995e48bbe432b4d5c1095d873bb2afd38feedcc0e03 (-0x2e2e4066498ec79afb2f9b048a7cc32cf38e5a637261eba8bca13922e3aeed58);
  SDbl 0xe734e3a314e749cf103a812662872113117302a1123568418d81e6972b8c6250 0x11b61ab5023039b30c373550c09ab34f650edad9af6837b8d95ca0872feb361b 0xaa2f1b9eb94e7b5582366706f9e273a12515686a88958bdf3a9ce5aa9ad4d8b1 (-0x37498752dd7bf14e2ccf4ab9e6b38a1a8ee3b1be6f8476105f0848a14d829658) 0xd0d07dbe653501ddddbf57aaaa31f25d502191e0b5c1e80b8645bb654536eb31 0x7fe7dbb68448b35b40372bad0b0316e4d799fb95989145f7d11d6fe4153399c7;
  SDbl 0xd0f5f2c8e801f9820128ce5d0510edc0dabab8d1e22dab48f2efc39db3e55fea 0xd08387bb0a49c963a6f7065546f3f1c19ef6481268a2ec999f5ca45b5cdfa2eb 0x830f45e05eede4fc35b952a9768eed77c7f143397ffdd8e9b19156ec0d659aa2 0x112267a97f80799c22ae8668cadf9dcc5cbc6c03479ef1856458a81a2a86ab2f4 0xaa9096d1be60545ba42c156048a9b9ad6ffc85c90e1c28d33d4932bfc4228d3d (-0x9bbe3822c7914148dfb50d89166b59068eb034e26c8a1938572e3c7ec5e8e68d);
  SAdd true 0x7258901ebd6e493233d01f70a512411fdb9a31f1ad90a054850713166e301ad5 0x703065d378aa7f7ab331fe697b8639a0d5547b22b22e5c898dbd2f98e7e49b3 0x66e4f7aa89a4659936fc0d5a96185d4eaf8bc77e0c226bb3fb175b9341b876b0 (-0x46758f4affc9a6d9ffb583ceee77b6c5c4205724555adfa89dc43a6d43469e0e) 0x3312fefefa0e0ccf0714b18a5c4408df0d8d5d99a84615d29c3f2228fffa6c2c 0x5a00ef3915091bafe124a610d9f742c26c82d8e4f2c6328866ad33c1ea8f25ba;
  SDbl 0xb3936017a39a99b8c7508dba9c3822c335112d315bbb6a584abf5026fa29af4b 0x9ac82579488dd203fe9bbfdc0a6a453ce8e69bc68e6cadf48e0aae771f1d8902 0xdefb4094dcfa0540d94f5e6d2896925fa405355d5b0856aee98027527863ee4b 0x8fc72b6576613da3a75396e834fc85e442a78c6d6e42ac95667a998727888e58 0x7df76d390bf940a0be893f25508359eff4e78838df7890908b73f8fe220c7c6f (-0x67a7e669757af3a6fdf8839247f1e89f4ea166f9c483590d2aee9665c14e0de0);
  SDbl 0x6497d05ac6afc4f5cb668dfa7004f989b332384f4c0bc4ae5ddd235c2de5f629 0x87180fb1717951843407efec904661708687f0a6bd110b540928d2d9b33f194f 0xbf7f553df9b5f9f64f7505fc84a019af73fa7153877760afa685a5db1678c60 (-0x69837ae0fc6221a7d6001317f599830cda752a001b582c2c2a0a9ce8ded30bfd) 0x2786f4ce876a4d16d622a3b2bc217bed088d391dfee5aea071a16533356d58c2 0x7bc7564fd82110e256d8ca943179faa7761855715a32d18d12edae1c1b69500;
  SAdd true 0xc6ced7e0e72f58aad5247e3c43145ee2dffa4aa346411175c7a2b7e52ffeb971 0xc104f709285d8d79081358f1cae9662fb2d98ecc61975f76558f30e56648dd5 0x9b36a000d3b3611c8386379d0a6bffde286d99fe2d8f1d256b8804d8d8de7389 (-0x417c9fa1f47e2647fa8b88a2f921267e12eef1c9725a0244f626b5dd863cb3b8) 0x9a649d10a40174528335861129f3238264782129744f676f6b0133bb3c5f980a 0x5f8b66aed8889174a212856e94cc4d56191c80428adc37df1a3b65c4d5f7450f;
  SDbl 0xb7f711d0cc1d2b82c1e9fe521f3f22bdc16e0869a66450e47cae55ade355c41f 0x9bcb55a0eaac5887980f2c88c6b7338b1729ba61ca2f87b895b9c961c9e51e7f 0xb06f21d14f508fbfa9e4164dfb871268490516c36f6228cd8e76d3a3859a58e7 0xdd5f184f81c801ea9b4653cb91284f6cf7d96937bb2bfd0966f7e9e1d531367a 0x843329ec6a2c23d383a771dd26e23b3b452eb28dff616d2ebe3ed10da9d8be68 (-0x674968e094e9a1fad885242be4b54b0ca533f09b801df8c97398c0216fc186fa);
  SDbl 0x607f7a0c075b583dc15c78e1df953d507fffd1bd353585c4535888bde8bb6b09 0x2c2dec16e40bd7aca0a10023a4d54902074d288cc4d32b5c63c2f0244768b2ee 0x822f515c4f503ef4999b8a42953293158260401a13f973d4c3f60d7f8b726366 (-0x976c81badf8820d6f311c801d30cae0ebee11359989cdc0e229ad551fa1d513e) 0x245fdb037c0321671b2f9751f1c303d7f218ecfec00d883688fcac67ff4c699b 0x2a129be18ae9f0c4b498b9d68dd680e3a57c00ebb86a082189eb04047ecc5934;
  SDbl 0x7355075f37051dfef3645ec70c4ed1b852258cd7d567bf54c006afe0e03cb689 0x486285b083eecf4a430aa8003bf5edeef2fa986f50b36d11b334909d0ab10892 0x8873c3e42ed3f84b826f47d62e4b2ca078b6e8c180858ebcc30e4e58b6f18a92 0x5e6d89d69a03e76d52ced26f2050ede41836ac64233b018f0382b42aa9bc149d 0x33f580dda4d4fba2c81230f66b0acbd2965408d6fd4c183d3c15654fc723591d (-0xcb4ff46fd521b959c5f5ef7b7f0cdf9e660690ed851463e923bcd4e3c93a544);
  SAdd true 0x82e5871dc812e22a203893913b6b0359d3b48ef6dd3acf307b3e11a4bf5c5e1f 0xab2ff625fbb8ad8bd365d09925f7c5a455c2fa04cfba1223d6888c42e55d7d13 0xe9ca010046523078abfe59153fb0c5b7e7267d3cbf683ca547d323fd1bbedeae (-0xb0d890bd01d314cfab47953a08927b32dfd9eaa1fa9a9ead7f01f8000512a5d) 0x42edeb0584b976fbc7fdc060aab2af2860a0eb43ff7f9182982fb6eb187832ab (-0x3284e90747390c89b684060e1f2078a0e15fd098488e1df0ed55b9bf424a1d21);
  SDbl 0x93a8e160ed9de6943cb207e408b15617714c4742de10b8ec92591df172b08ff2 0xdf2444cb6653a0ecc72a4333d8d33b123e1c86c9f4065be506b9f618a4c428eb 0xb717d9de78442d55064dd8c9d15d272cf39177f703d09e95a07a2cbf69757610 (-0x49b8e18bb00f0aa1591b5f8546736050cf4f87f6ded54c416edaa6cc8826b6c0) 0x552b623e3bb21eadbe417d998cd01967be3dffcf066061a071197b00a9cee24d (-0x1df78f3a1bb297d39cab26d0ff2a4afa8e7a62067acb53773d77afd5dd3f9112);
  SDbl 0x2e5715cfe721f44b8b65f7ea42a5ff78b8c9b4a9926bb26458f8f304ded74902 0xc3d4bc72d146756076b14ef0210f242f226df536ddfb5a8ec67f9dcff802eae5 0xdbca1995a67db77cf8f0d3c80a48b0aede154e2d8f5ed4ff0c1750c2b8daee0e (-0x205377b4607c047e8bab7690d9f13316b8e9ca27f8ececc89fd4f194f5ee42118) 0x8636976949e7b18f1bba1eb06a8000d1a65819bf6ab570c92c55e46135d18b7 0x4f194daf9fb815af663d8473291dff60c656cf2a60af51e1762bf8163143212;
  SDbl 0xbec583d853b6edc4383382e0e8fcaed1f9f9976216ed21c1675d61f05a28439f 0x9feb2aa157d689e6d52651f5f8a58447b6107740612b0ff989bf6eb1abc61c61 0x189ecdef7b9e35df2abee281e3c67bf45e040b3c4050b731dd9d864679f58563 (-0x79d6323566863a5b0917d3b6a42edf9bae4d07d4ff7c2eaa702fb241db9cb6dc) 0x8e29c819d945450da4186822a73b51149530fc262830391c54bb0c509c3f556a 0x1ac30f75a78630ec35f3176e701b9a01e753f4e5fd1f397a3943bb69425fa375;
  SDbl 0xcb39680077a6b8ea09252ac0317580f993eb3a0cece288ed06820cea58a4300d 0x39c8f05fc6c42a72c9d6adba51f4023ddcad6abc344426321506580c51f5255 0x7b04a3e9802f008d07844750db5ba952e436b06f577b4cd18b5480ed43b105b9 (-0x1049affa186da0d63c9b574f6ed7156ea4b132f0e39f17275f55fa814ee3895ce) 0xa15417d0d98c2a8a0a6fc2cffec7f8eafc4321109bc5bcdb3c40e8c992feaa6e 0x7c1562658b6f76e793b571ca7603f10338ea92d609612df30ef30d33319c0880;
  SDbl 0x8a254567251f0984c9a717ecfa9f94af14fa1ac0b3adc26fa3723c964ca5e407 0x1af2c5b21f1e112071cb497eb86f28dc98083eee64ef6389679ef98685124585 0xf5a80a6ad5759833beaafa29329bb323f53b6857620fca80a277f9916bd0096b 0x849db178fcbac35b064dba9a6ab3f81481cdd71a1b5e2cd7346266b358d7d88a 0x4a8c3440a133290e2a7ad3389b580fe2a9cfc57ccbebafeffdc659702b2e71fe (-0xc97df4261fb6b141d9bf7dc3c71f1c64c92cce3fa74bec588cdc47bb2538a8c);
  SDbl 0x9bfac1d919e68adb50543e9a6ab5a71a5686aad801ecd40924153d8399d64be0 0x2a00087f261141214e7aaa6561fd413780b5b77aa49d5989128db364917ab490 0x9bea225c38fa3d91efb29f5ac45790666aef8eb06804418181d9a3c5753bb845 0x122d819b33f07beae6d2c080bd98842f5640f71b18953b98311fcfc15ec45b808 0x5f099c5c73366ff3c3aa45f6dec799e1f410400acbbe88ff811f651ceaa23b9a (-0x92bc5cb2bb9d8fae279a53ffd39838500c4378d326c5b186181777044d8dbb0);
  SAdd true 0x64861a845d634b0b9b70636bc27a29060870c760e33e40cbc93b5cb6da575d18 0xbc3788c0443dd0471db0eb55207dc5d7ad1f49d0529072450f4559efc430b734 0x4aaa30f684bd7fc7ec8fc366495b110ec84815e3d8783f208ab1845f85e58480 0x371688eceaed1265aa3d25d230d56dc9811c7730370c82d88a185d624cf3833 0x27790af755bf88f3930b1adc87cc3c3153f4db318cedddec00c2cc6040cd6e4b (-0x396a464c08451818f566a3fef2424311630179d01cbd6f4d921a9eaf971cefdb);
  SDbl 0x583578f3da543f594110fedee45229c187f5ce171e7b1009c5a26441cad00908 0x3306415633f856e83d4e743d39e9d6bc08f5c5ff9439ed107051e6f8243ac67 0x7cd6358b8ccd73169028deb290348c2b5ebd459f4fc7b76e1b976e0d3d826e17 (-0x16bb0a4052daf355b859949038ab7da6de16b7b56867f5dca18cf79c54dd72053) 0x1e64ce53129ca5b9dbd4ce0bbb5d58581907a9a03d9a16cd421004efbd538a8f 0x3fc11a812d3df9e6b5a34e7e59b7c94f23cf670341bbc2d8a9d326edd60e672f;
  SDbl 0xd8d1ff8a356587c79abdbb3257d8f8dc58a12b0d81d0a11c3b47bbfad0847be7 0x7ca0a613a00345999042a683567de83ad1c88d7722c6565080375268e69e26ff 0x22d4dc828855421e8f4d10fe4a11f71edc8a214956337391b5f4284af65c14e8 0xd357c6deba13904d62c5c2d3d701773e88e594a3426d48ccaf380197ab28ecce 0xb7a30b7d307e31639aa2430a1826be9bd53ccf8dccca83cfe082883488f5b55c (-0x66da558d2c435471ae2ff30f283d8e58097f7e4af620f1a724fcadb40f35d5d9);
  SDbl 0x182c290eb0202bb68855249e4fb35553693d03d9071876a46eb322168b795e37 0xfcd84dad5776392feea8a5c789aa5e5aa81feff54f8557eeda2e0c395cb8b599 0xebba05c8f06dfc37e08dfca7618f6b08fc767e9514c5d1a5dffb67bbd156c2e6 (-0xaf7023695103d90e4c9e7b88f747f8c0a8e9d09ed73b47a29c4da5de181d45b0) 0x2484f50e6f097d431f0ebbe96e6a3d14962a3997fc3d62453d2ddbd3d4a93c6 (-0xc1b55d788d2cd4c572722e416cc5e265d95611aaf93bd3aeb45059b1371f91c);
  SAdd true 0x546cc284851f5829f0a750bc3d33037ee921e3b8ba9eb6f495e9e1ea16459a2f 0x96e8cffdf39e879e40c273370030b8aace9900b2c1a1d262297a258e9200d826 0xa9cf84aa7aa220ab1de08e127aa4a01e6b524fa9cdad8c965e6f10779fa578b1 (-0x42a44a296db998dc1e5c867f0f7cb10ddaf9727bd49c6b994c9c77e071a497b8) 0x1bd78ddbc6d19086bf4e7c1e35c7271004434c680c0d051f033ff1f893d36de5 0x219de3baf61c687df9e7fa16621d7ef78effb6bfc7fb392458ce72310c04657a;
  SDbl 0x3b4a6fc2597b0a88b321411ca85150b14382acab9de2733c09a968d2a4652a70 0x7cd19ad19e3245f60219060b190a66b63e9dda862c1dd63f702a7df493df097b 0xa3c6701e076c47ac4e1b1ab45ffd3a07236cd6c7ae1e7f44fc16bf35b7380d5d (-0xbc388f0367288658cc7f65006056a3405267faa2e1c748f24e0a4089d48d3df7) 0xdbb6528701ff449fa9e228355faae5539212fe5c1f4c1d8893862f7b477c8c7 0x60aef5a7b4eb41fb58cd876a59404f9476649dcb93ab27bca0a4c9a86b40d3e;
  SDbl 0x138b1e5a525ad510f7595b30c0aaeac39b600a3800989a8239ed05102b5b129d 0x7b3c138e0d5afe186c476222bc28a09f6d2d6fe6b6c18e00a808d8343117ac30 0xd7798599fc138a535864476b6f73fb1a0dced968f98f7bdf1f0dce6bde5de62a (-0x9d91b7d4001ffe462df677b78ba10f640fd9dd5b4159ef0d5baa329706d3d4ca) 0x17df21b6366278a94d620bd144caa9a7a979acd242e42472637a5d65ddd4add 0x1ef56a8a7c8294de9805876f4064a27d307b5d41d67beaa2287a793a197688;
  SDbl 0x13e76f2436043ef70db73f4c5052ab8e59d05ef9c64c346f258001a1ceda40c 0x8ddbe30452c89c95acea32c4154b00c158684471fd47845ad5358342ecd6071e 0x637233b1b986a8fdc6e165ac4cbef23a880d2d2be7900f77244b6af7349b2dd (-0xafe04087f1ba11ecea84b46dc6cf48cfbb50d18dd3597815244b82f23425c8f3) 0x18c2bb9252ab4b25e4066cef351f2145ed946de937088c97d08bf87adfeee (-0x172b2afe9adf4f0618f6d6deb4729157880aa5beeb26c86aae2895b8d5abd1);
  SDbl 0xaf5784184dc19351d6ad1156443d241d15debb0ad42041b7520779f0e5c02ad0 0x72aeba5494c30222a1d846edc5b6b6a3e3aa3b58173ac8985ad7fbdeda595356 0x12c8caff1d385b80e5f28f644bd9682945b52aeca18ebb1e1f0fd2c2485e4074 (-0xe3503cc4f8acd847456fffbb01b4898f0561126e2116fc4baee0714590e33497) 0x7818c484bf1557ff100be90e359efc9eb692a698ebba2cb12ee8bf8c54dc7892 0x129d292ee6b4220be39ecc9dc36269f5a08fd64c7046ed087d2e9f4182d710d1;
  SDbl 0x81393b4b0946fdd81c95103325400b7f6697ee1600e2bfa7069772559ac9bcea 0xa32df6333366b0f2d0bdc67ce0f3decef5f96f67db6c54a51f321bbcb1f64851 0x7ea8a746c85c7949f1cebc1b2c46fd0eb11ef92b6c1bda2cd838d0b4a2678b91 (-0x87297ceceacb5ca4dcd82cdbc75abc2d5823dbeeeaccaec018618146f2599167) 0x413aba8d55ba144355b5744e8cbca324bf0926cb161e404f2d06e1d2abcc6919 (-0x187af4bb24d187080d6e9f65c52b96fde07f38e1a00e48ba07ca7e7864c6f28d);
  SAdd false 0xd00db2685360dfe0c0abf1753b8481e35a7a8f6376371da0399d56f9abaecda 0xa574b74bf60b3880c0549c9aef8250752ff57357b9b4cd41fe6ec744e0379934 0x9f27066e9dcff2629f4cda1c87cba9147e6df4ffe29a99099637c6f07401c5 (-0x5b5b8e35c7ad282380fab08498a3ca2de44cdda28664a52f8196780a1bc20ae) 0xa91642a5cb8164c0529ec6f56a02b005178274260cc609bca5920b758faca8 (-0x1d99c120e00a316ce309310ffd1641da687b4f52caa81d2256835e80064d5c);
  SDbl 0xc7f20020594c2855bc10685e6741f7e895c23b00f14c43f0581b094cf8998c7f 0xa89e4bfb2c4469d565c6f036768b351086931ade251c2cc96ecf9a6901f9bf59 0x8b9b9220d74f3dd7e333425a4f4876d4f171b3153ed8a66ad12d61b3cda236b0 (-0x13fd660eaf1387fc16df793cd7a2e5b6c76be1b14f7ca2fe029eb4806b26da1c9) 0x9c2a20f724275fbf22d09129d3f46ab31a8596a423af2853206cf33b757fcac0 (-0x2784fe3298d02bbfb8de93ca1e61a5caf7353fb42fd3feca98e0329b19f9f30);
  SDbl 0x74aad1c6b0948c130f8cc959cd8476e9723dcbf91e0a7a717553c23daa677b2c 0x9f6b1f02b2103870289e503e99356738c8f8a6edc307b2c238b29bbbdc078cbd 0x809727f8c8ac21a5d09589c4711cbad324689e2804da8793b9033847854a7db8 (-0xcdf124fadd707cef81cd80af2957efa617d54fd6b8bd1efc0a803ffedd7825b0) 0x352b40178cfa6adb08af0bfc3cd08e3b83f3149b3f3e808c825cd42b174fbbdf 0x43153e664364a6db176fb63095e99e9ec31f989286c3108925641c37a370d98;
  SDbl 0x8ad575dedfdb7d9b00041cfb40f9ee2a10a6a3d135346b5ab8da10bc6e4a1bb 0x65e82dda63be6995b8089b5ea0e31efc9c74eb9715ec19319ec8898cd4456fe5 0xab78b128087af1eb58331715f07238dcf91b109c93137b81a29932d6f5bae42 (-0x1211b21794fd4348d51348aacff67063f9bcc1beac4cdf1107a1ab66975955038) 0x4b4ad511efc97663b4f99456c99b038ff516f3f80bfa6dd0962e94cd0fcac6 0x1f308a6d6a00ba0dc0aa32602bd3f6de8c95e37a61405bc096bcec075574232;
  SDbl 0x2e12073b29418f30a43d690cf69fd604e6815877d79038ad3272e3caf7c38354 0x9af2c2ab2cf3828c3e6ac169ea1fe92fe89efac43b0d986eaf02541d9c68021e 0x91d8cc21a458be776b2f4a802f96beddc9fed83cccb93a0c5d758f09b504aa19 (-0x75d79bdfa7a1fdfb1805f93caaab83c29e67d07a0b5f18fcdbe9fffd5dfebec8) 0x84a7bde4fa422798e3406eba81bbb560a5a999e0c0ebbe37a8651e9d79bce58 (-0x98ba2fb906f9c02a736cfe175200b44ee1d10ece9a89230d30e96791f0981f1);
  SDbl 0x372dbc65a8188c7bde183273b1378eb6ff2e79344e883ef3f249ab7fa4eb2fe0 0xff22ce1a330103a8005f9067a37fc199a9299dd7c4c0f6cae7be5fab365ca544 0xbebb28ef18387dca851e1ac2caae0b2b6c4c21015174551e7af9815e32d0a184 (-0xda7ba4a816d84328344ccef91b77b4a463cd8d17a1eb1c56892f15dbf7576737) 0xbe4af1f8081cb603d91483db1664e46e03c8469c6aaef4c3a761a3e80f8a580 (-0x159838a2038c5dfaa8e026ae7bb46ed1c425e25994fcd3b2701d767d5c45f923);
  SAdd false 0xdb8e9eb13dd34600591e09ca1aae7b8769a1ca4c6393500f4188775e032d64df 0x4740fd9914ad892429485fd14d31cc3a8d8f9f6423fa8bb63baec745114b9d3c 0x9a72387964e226eabf628410742c5538a2dbd70e384f97b7e9272a80e19ccdc7 (-0xaf466036a6809247caa54571b3e958a8102e4307b6a141f51e89042059068142) 0xbc4d52f86b14a626036e806d9b190cab9a0e9355a4512257a0afee4ba2cfbd06 0x9db49e9d687e44cd41a1c4687ea477fc9b7e2c160626081f9b62a263a20c5053;
  SDbl 0xf3220952258f081877f0d4713247953e3aca531560d7541c4120728eea5ef4a9 0x9386765232de79afc93f58c3dc716094661fcc729b01f314f9993f61cbec12d 0x9fb3bcabedfaa40211bf30946a396d9114c6a94f6d843c8ff1bc0d6763f016c3 0xe9de914d72696e12beb8791b6668fe7b44201875ddba3cdb1505da56b9c0e96f 0xe6e9a239546006961248a63a49491aeb21665bef73d7c53960e77886b5676414 0x3aea65f9b12e75dacde09d9b529ff952892c280eef30cfa61875cc820f4f52a3;
  SDbl 0x5f9fb8151222a0fc4c7f30efb6d6faa697b2015fb5b75b509c6735226d03e092 0x3816e61b89b48bc9d490c71ad2af7c695474d8d3158744dbb43ac8e23fe27cd2 0x58322c6697330205d2d5f9f5949ffcc47b2c9d714b5d87ee192dfc8259dd1afb 0x764fa1e19064607c18508f99f935277f28e4e13c153eead7e8d3dd02bd716f4c 0x23b7ee45f5b87492f247db91abf9b3be16e7665c5b73cf50ef8188bb1cf42be8 (-0x1181ceea3b7cee0dad7030eff70cd16ca0d352829eb522173d2173707fb26a28);
  SAdd false 0xf1a56a917e5abdedc96429321243b722825904d8cc2b7b071e385b0ee9f2e856 0xdd962f5ece611c13bb9119ac8dcc45b92575d0743b096a71dcc8e4bb5333c35f 0xce318e240e5c999746fa3b3ae2aabb76a31fd8b9912cec173aace09431fa9320 (-0x505d6dd870cacfd4260647b7046e5047c01a07d038e0138e57d8f55ac005fea) 0xe418dd895fe9676f700f1d6210eb748a891744e69eb736a41733545624eeb814 (-0x9c37c3e7eb572417667eea130d805b9155faa5a1a038e2fc7603d7ba48a0d687);
  SDbl 0x2387a37699617e997dbd6608cadf6e7372a3abd750512cf4274311317cf22062 0x77b40f26a38e43475bca09ec1250423a086746e3251940beb1ea79e7cafd3cee 0x4d773a7d49d68a34ac33cdd73187833cddead71d00907be6a452696d88d658d6 (-0x20629e53dcd049628f3d27c1f42978ae25e8406eedd06a8833dff0ca6fc450cc0) 0x4ee5e9042550a45a9974c017018bf9adb952ef3a35c00366237657a44041e28 0xe23e5b4e766de03526b94b84f0332c454405883af2a1bc31e9e8ab5f25154b4;
  SDbl 0x2635d6fb65e3ab7242dea892463c9c57e10725e872d303507852094c55a30185 0x1607bf2afd410f311d86f75c52e8825d4f755baa1f168ba2dd5a8a9fde1909d2 0x408337767c758cd2a43b596e874a204df6e290c6864a590e806bda1fddadc89c (-0x90cab35b5d9bd7d1c48d4f660f0344bb8241f92ff4abb8b9b16e195dd928b293) 0x5b4072560951389e16187642577d7617cb423adc94e0df32c7196aa32b33495 0xe941e91ee0ba3cc818e28d0842064f298ca89af9d2940fd1110e8ad98ee77e6;
  SDbl 0xae87cc3aef2dc00715b4922ea5003d54b9ef41e1e8adb59e25823c8e8d3f6852 0x3065e4444e6573236b7e3d0051dbf8f9886f3c175c5a746b1109599631fb65f7 0x7deef8180b673ef80593e334c2ffccf9a532cd31ee5d6ed2265a500ba0875486 0x5246d17282ed4980f47301b242a610244df3781d3144886ac4a246e99f120cd9 0x76fce1a99d354fb5f06c6d6771c6c651fd387af34b4aa7ab6b495b3f174ebf57 (-0x11f9f9e5ef01af61358128b00fa7696f75c442e6727ec99b73635ede9fbf5704);
  SAdd true 0xa58efd38602c263d3b717bd8a7765c4df2bf80895d8e65b1e7d384bec425424e 0x12f437d272162a0533696b2c7a583612ec846e81c3f2450e3d0ea7d1ec4f31ed 0xb63242488a26e754fb8cffce800749cd6f0a1eb32e189f9ca5d38dc103d9c086 0x1886b0e9ccc7441bff50c8383170469647bd799cd06d2e3d4aada09d01e78ba 0x6b11a248fc0db70fd1a2d92de5a365721ffb2fc47eea6ae384e65835a5debce7 0x130ab652f08bf8aac6c432889b21c5a277e45662e956e3c3325f68e1d70ca600;
  SDbl 0xb9f40b6ace7b759a9a66ad478835b894693201d6be04a1df857fffe6186ac300 0x7e6b6c64103c9f58a655070fdcfb3d9111e69fa9c8d5ee81cb62b54ec6e0e25f 0xe1d23314cb79b1beb086c4e73e580fc7f07926cc5a0a4452810c6ce33f97a7bd 0x1047a416067857da936d875dc2cadda81cf21b56563c3ca41733991822bc39c38 0x8712a126a99d06c68c5f5b0df89897375ae3e80cf8f3a8d738db6fdc8ef64639 (-0x4e0f9766996fe4e0aec3c736a8467606834f6b6c8873082f4875ad9503f3c1bd);
  SDbl 0x5a33871298201d3d0658aae6a2ba9768ca639cfe96639a79a75f9c41966bc2d3 0x41c49d30e0f893b2f5847d1eca35bdda26792c7264e463047171b9ec4dd1738f 0x906ca747ecf8fd1facb74dab03bd50dfe03baa711c22a99698062c09ca469d42 (-0x1c270f5b7f8c869bcf23974254a14a2d4ea68bee68522729c4958f7abaf357ce) 0x1fc845584b6c147e77f39402ed1ca7f95521623167b8baab151097b826ecbe64 0x155eda13ba38670e268088a56e7ac1727a8584bc383e27dfa0393fd45f3c4f8f;
  SDbl 0x3edde40e734155d9b9481f073d3c7762963b4b972c708f9240847de50e562590 0xca23de761fce35b5215d7bc955d1f5b0c9f8a404c9a31cebda27ad2c030a1961 0xb61e16f42cba9aa39739ab3a713aeaf74087544d0ea1c96a200875b8bb748c88 0x143eb175e4491389dc25c44c5fd4d28ff2f2748f5f947d3a2aee6d68e3b95f60 0xf703aca9b609d4b7afe6c7f9c20eb4dae0bd6bea050e1a238efc44b9c6a0f7f (-0x217d4586c839172d289cc96b1078c180d2f126d0280270731d347c4329e43616);
  SDbl 0xed747e932d0c9f07d5ac1a035bbfb1be020589351b390652385405fa0a0fc5cf 0xd774757865c3e94f5fbe06b8537130878f036de2f6bf2bec817a96679edbbe3d 0xe857b68b2a58a2fbda1381d8dbc8d4eb3baed881736f424cc0407970f1baaa7 (-0x8cfc6a6f9f10bbd38ba4affbdfa4a78acd5f96545921f9d68f705c80d26c4fb0) 0xdc40e76051a04e3a23526438c824ec2885d59906fbab734591044606b1d5b39e (-0xc59aae6e6177cd71eba31396be39783f746942c3057e28880b67003a22a2eed);
  SDbl 0x27bcf5f65e3b99bfb5797477ceb8f5651244467de89c63defd316227622fd943 0x60be89b961589217dee58ebf9eeec74bf2afb7662f72d30d5e31dba02bce9df4 0xcdee32dd49d15cc766d7f586c2b05d0173b33724d73e22b99cf2ddfc319c08dd (-0x21b7c5b5433aede8fa0ccbed9da4cfc743e40e6a89c934026af9700c853e6a1d2) 0x62b1e6b450d2c44d16ef8b8a4b5a914520573b3a403a49c14ecdebc9e8972e5 0x126d5691a581b84138efacbd98e11c16fbc3f03ab45eb5f7019ceff624835f69;
  SAdd true 0x814775326bad05b7c46f389d36d25e9cde4a0d2ef662f2c000c6a582f12643f7 0x6ba1d6348e5cabc8dd6c54d58a98132d859750bdd4fd35b734fe366abf75146e 0x3c8ed09a198fb65a5c33ed4ab70f8f481dc24a1eaa0ed1c54e89deaccb6e5c38 (-0x1737bcfa6941d68a6c6573066e7ce39768a694b0eaba055fd2fd81f3c05796d2) 0x4149180f496c52260d6dabf4a3c912c1a1bee0eb8776fff7c0d3d908d130eed8 (-0x57f93905445b917bb8c1b247ffe0a223a2f5a82dfa571894342390b8c3b5d35);
  SDbl 0x174e07836026664894e97a9d55c48b1dafde4450c8fa1472943a45d2fe4bf68a 0x66973b0c763f2c984c94c3855cf71dcc996c3347bc7cd67550ac090f1a4058c6 0xbb5e78b81b8709a54c8d40f3e95cbe30031675dde9543d85b14fc1e2f1967ba1 (-0x7cbb7a0ce836344110e2dc11b0500f51ffaa85a5cb92af08988a1f6d1e7eee97) 0x21f1d2231ad0d9735ab38cc54b621cb85db3fc298f4a3c34ffec3b85ee0ff3e 0x757d51c167b6aebd849bf56865a405070477932bbdb29f5c4d2bf4580c3f49;
  SDbl 0x8850abdad6857c4d3e95195751f66354bde725f0f5d9595f37c5a737619c3b58 0xbcc93904a9bb098d312781114ea5618145021ab6df03aa81f77ba53d3794e38f 0x74c14f553be9a7627a15aca8d5906c4a2fd5e019b6f7faca4491d95cf4320815 0x4c33e1b1fb0fb71995ed8cd9fafc29b4e7a1641da6681f0769fed2940ab0f6b9 0x4895d004a8a7cd2cce97abdebb49b8d711a7e0c5004359af879da33a5b13e6db (-0x2de5b8687a41685fda64bdef4bfd84d9e2d471ef93fa5be4c52b3bd9cdaf7432);
  SAdd true 0xad296aef43506a038344b2ad08ecd660eb3918dc0a2b747f3717be9a55fc1a34 0x6eb745b290ae393bb3e15a402fda5705e38ea4cc4e1284a7efe307a7d448e156 0x791aeda43117ebd53c1c5f7f625f5916ee1a3f6a653991d8de10487a51d647d4 (-0x5d5b6635cfbe97c5147b0a896a58e350641df28c7754a18462cf9512242146d5) 0x7521013b436a43a351993526ae21fe749c8d771679a77f52844ada341e1b9f1c 0x34cec2eb0debcf63350dab6eaa3dd85b3aa6072066abc935c71c539045421255;
  SDbl 0x3cac2ca2902b6f768c21f3cb5e5b9ac079608cde279232b3833f0d722668a4e 0x8d78c2eb3a65cc586b7957417ec027b55760434073eb401b44afab227dfece97 0xcbece65333561cc7c5abad19678b30654a4521b75d17306f563ac1f09ee10bc9 (-0x8c0f90f21c2166f03a47ba5ee41144c8fc99ad0edb5975c03877de348ccb7a87) 0xe6128b8442f881f53a676ff47eff28bfa7f56f8683a0dd933c59eedb0617f (-0x74a08b63a6c1fe2cb8014084ec846ec2a44a329f0ab304a5a70d231e0f5895);
  SDbl 0x192efcbf3b0a04ef8478b0a3f8924bf2128d435761418b06fe35f15fa93476e5 0xece97a02e92e5bc03cd7a806547ec01e7509ed3e8be1543895c03d074a1006a 0x5ed742acb2dd6036f35351ec75c486b88d930e455cbddac24aafa8e72b00f61 (-0xc26b9e41fb48717dba9c55426170b9448a966d5cd014f5ebf37b60afb0124a6a) 0x27a35fd2a446da2988024622bb2c8ed72f16e03e8219d819f47a264925eb4bf 0xc75dddc48e3eff994397c4820d1ac559f5ebaf2455259f116df8beedd7aeee9;
  SDbl 0x7d2dd1e58256d7b039370a8321bea317496ea95cdb95e4a30f15acd234bd9cd9 0xe4183cbf1672978a0c26e6cef03ebd064adddb72cff411dc1adb08cecb33f7d1 0x466fabd5fc66a5b02dbfebde253cdcc89a2f16a18c0691384fe9a2b8a2308a86 0x33a44bb4f2537894171af04c5f952281f33c4ec695da2c7c14b8f05a18a3937 0x3d35c72dd546f4ebff02c1c095ef86cfb9b1c5e6009abdcaa742904293f2c8b4 (-0x684b2272dd38ced499e26b52970c8285b08c5a3106af3b2e5f1e3f2066bdebca);
  SDbl 0xded0b0e4b5829d2ee38e8bb3e8f075178a72d6d5ecf879895f1e8514c6f92bb5 0xaa26abee4803ce0782e00e2d723ec979d09c9a27ab65a39e785603350038aa1 0x76566782f7e4e530c690407255cf2fdf8efb32ce1bb680292bbba1d1a607980a (-0x1e71506ab99361d1bc5203d3f4cd53b37564a22b1493ee09f42018b6bfe57fb9c) 0xc1ee9ced5a9f5fb182f6caf2373bcf8c91e47c5b2d0d9f3cefd02966dcdb2c4a 0xbd45721ad03c9cfa8030246df517dffd11e348dcde7e33f3281e329db8f3dfa0;
  SAdd true 0x90c6946d54ffb13038a2cee62165fdb17cb0f6a8ff3f8925b13f529c6dda5610 0x3316dcba135f5b91fca1cc1cd2d768206da989c1867e87f0d56253e862057d0d 0xf0363e0dfeb63585092b83490806e17293f367dd30c248973bfee3279e0d1123 0x16b267b2a109200836df18a40ae26ad9e8cdab376762881e1717ee69359ef236 0x51e0010540adbcdab9d1f1ac431e02f45c3225b7c8191672c2032ea49526bb75 (-0x16e0e1a2226cffe7c3256a13eb87a57f18939a39a9b00f40f250eff88863e813);
  SDbl 0x6ad4535175df90d9553d46a508dfc56a0a10ff505e636679a1d12a8c131de7dd 0xe9a6e25c5173a7dbe84f0c39d8599b5df81f7b470654b9069bd1e7c18d4a1acf 0x7dc07565f58a2d267a241d960255f4a0a4100702b34878b0e8fd9b8aa1a063c9 0xa9e507a09dbc428aad1c67f2f07cd5a4e5aef8e43865390a260a30d8af5c578a 0x2c948519bc3acfb064737020123ae6260d2e830304c7e6bafb84fdf129428020 (-0x4c2f0d04edb38134fe656c966880ec2b548d44b65f39f00f47add03536c24c9a);
  SDbl 0x1a50327a3969e85f6a0b1f9fa864978695a2e16fbd207334431c3fb28df3c13c 0x9dfc6489ab8224274b6fb988c858e2125c2de18d32a666d07e54b0b5274445b4 0xb5780c799f9dfe1b419e404ffa377a3610b155dd8d43abc53780e4d0d75557d3 (-0x265e9bccc3b0c9bae70872023649c6570ae5af5f92a767af8cc7d074fd9c9be18) 0x2b463606cb5c18d2e796095b9d69528a2df2dd9f88c62e05a0dd5d3c014f542 0x7c704fa2b40c640246ed4dc7e9eec684628d273e2721f06fc3b60da024d6e48;
  SAdd true 0x872b2491106ad589d9fd2aa64cab934a7fef4ce6a47614fd41620181a1dbe47a 0xf7049b7d4fe722fabc30848a6323fcb9c875406e34db83745be76bb0f44d2798 0xfcf5c1fe3f4882b296fa8955f8f15e4f6dcec507ca4f2266b1d01fce812cfc0b (-0x389c72d7c671e30931b466a55061fae17139b1a15c1cd56d9b63b5def42fc241) 0x475e87d694a3d7c35afe4889fc08ef6f94a49a0d4bdfc9a82c72d8b9263857ef (-0x2f02561380b743a3e1d175238e4699455e837d98e576b9fcc73ae8376606f57a);
  SDbl 0xb5550deb973720383551d12cc3e5c03601cce59fb48408f61aa12c2c5012d93a 0xd9b9a58a150cf4f0484b1bf8fe52967d074f576452396ccc152066f67d417012 0x664a9941e44225f44d0b027fc4a7c660e1507782f77ef9b22f99ccbd6bbe4624 (-0x164b2115da0452d86cc7d3704cd912db3c60edf64b7c97ea88e0931035689dc3f) 0x807161f1e379864755ff90e2e94ca4ec6c90d7d16013e753afc8d940e1605e1e 0x14bfbb607ab92e805ef81440a0c099339e222e232fbccc0c0a2c302f3e4717d3;
  SDbl 0x3537c91e45c791b560b708e38f25f8157353978312674d95f31a8dd153dda7d1 0xee88d9191aaf2bd288aa3dd2ba56e485280d67e9d5b29f2acf2cecfc37bf8f07 0x8d2b33a3d6ceed152f2a1c92916d0121d6495a006ff07672344c328dbbfc3875 (-0x200fd4b93d529c54a1129c2bb21351895398e5020e0581c4d93daee5993be3aff) 0xb10256e9cf750ac238cd181e68378164a549f1b121864d9e6b802ea7f66168a (-0x4536e89d9a7a1be3cf35f9ecbb616ca01f014cd295571169223bf70289b6862);
  SAdd false 0xd68095281fd144156fdcc90d00139fe4444c903469eadfc6b2655d7ddc20c0dd 0xef2034b5357f6eb670a1e264a0daff87a9dfced383a3dadc4956e8ea20018fbb 0xe51c3ed447cfbb5de2dc2d89825a0069ff98fc9a2d5934154399628ce652563 (-0x9d544b5ec91a14a9ec3e7100d3c907cd8817da3d2f56eba69c8a099f6a287fd6) 0xb3bb39f547f4a460c30435c2f1609345993e8978d7fc90f08616e1f0ea8154c0 (-0x7ed29a7d014e77cd0aa1cb7090f45e4bbcda7e3814b130c173cff7ad9d06c4);
  SDbl 0x8bc49cd173e28fc97c2433cb3ffe3dbc5d2aeafdf31b1b899ddf7f8cdfb98c54 0x24985c3760a97f5ae7919c3adf1108ad747b429cd25477d897a6c773d1ed4acf 0xbda911c437c2f4acff8afe3daaadd254e9eb6250defc4d19bd007bbab57812a2 (-0x28e74a9e683a4798ed0380a41babe9801b06a7820564792cb51c28eb905e17930) 0x4c4f194c40f084f7c5e7989fd4e6628df024ece289ea437d184afc719b9c6eb5 0x6e934e9efdfd1bbd0281c890830fc7d5393044271b46dd77adc58a9f6cf98a95;
  SDbl 0x4ef18cd7ff01697c5d453e31135838bc87da52c021ec17f3c48f55b12a7a8554 0x14a83197c2cc6e312a97ca8c40b601a2d6858eee0110eb077e48e3e017288007 0xa5c12bb90f48d9a6e601b5bc2043a55f8ca4f4d68214b6576c1b288f8236dfa9 0x65475200bf778e19d5575585299c1eaf01d8bcbff88904c7f082209200d66bd0 0x185815be33e807d676a8db2b9d6d1acdda6b3a993226257af8bbde3cd182b215 0x4ea36d9912a968a5393571ebb13c0a27109bb50d2fe560f7ee950733e7280ab;
  SAdd false 0x9ed7d47645821d7b85af024d0452c6bd309fce335dcddb54c479a850db737068 0x1df8f3615cef47e8dbe7ced8acb21baa2b25d0885f0fd4fb9d2b17bb5c5e59ce 0xac833a186e5e1f505776177b670f6bbb5eef80089145fa124bf850db8972766e 0x12aef7cdc4b9528957614c8ff484dbe2ddc8009e7ea81f309a971901009fc1b6 0x628f2038ef5896ee957e530b2840c66ed494408d62c8cb2fa2b0c9c48808245c (-0x5c7b22861756eaee61124b763ac5432d2cb74e88ac37890a2d4b88b35ca2111);
  SDbl 0x48d7145ad3f6ff7b2e328ed2384437e355ad5b1b26e78320891284f031a4ce99 0x79fbe4df69e0187a3f4e5d532ed72e46c1d6cf1e1800fa0872884230118b62a0 0xa612c7b1c16c274d37e38c8e5cfc139c8c8693de1c23695af39eed5b10962261 0x57a4a4d30c8c152cd10b0992503076f94d5641236f13036662771cf60e000dcd 0x14b9b0265e22fa151a1efca0ae97e527d18cf9774ef1f1aec9a8c996dd857ecb (-0x1a2e21b53ec4ada2d224e4c93e7357077b1bc0a840fb631da6963bd5086c25af);
  SDbl 0xb67ef58aaa98a46266e79bf7016a9bdbd4a0d266700a69154b9756ea9d3bccc9 0x3933e143eb4c008ff4885ef31f45061338c1d81c1277f5d2dca610b628c32064 0x8250ea55a7d1754bcb51189aa29300c10b9df178f7a2ad8a2f8fb26e8ea28693 0x3e672a6005cd58f5eebae353ba4411828da36e0943996b6ab0d034d659fa17ab 0x8218c4184cac71ba90bfb7dfdf37a94a68ecfb1b23f35f8b671cc27bb962efd3 0x2e2e532503251dbfbfa397b6f735f51681f863dcf68777ac579c77f43560d7d8;
  SDbl 0x677f1ef1b7b84cad83f2dcf094632b6b1921332cf55962962de06b7c1baec76e 0x1938ad28ef7d911495cb063499fb1940534031d8ea40f72d4141f52945154650 0x8dc52a1d40fbf9e16031328bd10b2505983cafe7a9e08ec4b63833d45ef39b7 0x430619df6d2d979d11df29f549b16f64481cf8d9e8e43d58648db09fa29b44d9 0x29d78a06633fabe0b668108f4299d894816558a65cdd6a765f089aa0adb753d4 0xcedf373642bbd019200fdad64fa7738672606d07ede6fae06e2c64b85c07fb2;
  SDbl 0x7ba2b823457ac7b09b5fa0ca40fb923e9fd238b3479d7d69cd6bed02a8feb61d 0x5770769a2b5e8f7454f7e0506302763a3fae2ac05e9749911e26636dfcad371d 0x7854c362d32aeee3507a4a68d2114e7405c0c49b1803431561506f4bb64b302f 0x11a9fe49e19ace5a8e93d13343793624a80b04af6abe4a6f7e3033e7fe84387 0x3bb5c45fb1906864b3ded61aa56d36f646d9868bb42ce51041b076d893be8474 (-0x1e0c59d7aac6265f599dfbf987404a130aac2575ffb61d967e902bc6bef790e1);
  SAdd true 0x44b7833293245c4b4a9a5dc885729bad798cb60e73d99f42562e20af3776e9d7 0xb19345aaa6efc98e70e8d87ea4d304335d79aeb5eaafe91f8902d7b9598c9bca 0x9e67c393efa1e7f82671302d7f339ec30b52a94b0c5a517d84b47b336b0ba7f7 (-0x9d7ead4b1f6573fbf8eb42553da5e4790b2cf598df64e6ef832b0d45649c355) 0x1272013fc6287cd8beab0a4908a708a19895c06996b6b5300031bd07bfb9351d (-0x1831dc141c5d6f11a1b2e47b397db0e46d8752730e0e43d34aea92d1f9ac258f);
  SDbl 0x3334c1f5e829256ad6744de2c4498b5a813af55981f17e7c96edae5f5e7ee401 0x6c47f555c6030fac5580392b7696f02cff0a1c120c75b7c31401647c2a60c06c 0xc4bb778246d20c2ebb9d54b31f69f603b6702ff5a25fbf616f76bfdac0097155 (-0x132284f11351e3fe3d6d4f4beb6ce8a4ca626360678d07b38344252b4ad3095c5) 0xa3e102763997a0b642a409be0efd90506f7e888f1ea6aea0d2d10dae56c2fff 0xddc48cd9f6464b6bebfb025334ce977bd51bcb7ec7cb0c48ab1abc9704585ee;
  SDbl 0x140553cbc1bc639bb8a50062d3bc855a6837b1b7ca022c6bdfa75d02a7040571 0x7a7bd3d794224f596869c2ebd98f7460f7fdf48cd47e157d19907539858e6fd9 0x19cac01a080e91d59fc7c332836b18fe0b91f4e001a1945c24d332a87b25d846 (-0x6aa0e6e5c93235a058713a3b4e18a2786eb60c5afda230781b59bf1d6284d65d) 0x190d534393997ed6e2321f3f6e55aa5a7dbfddaaada9f43552acf4440aa54d0 (-0x11c590b9cc4e5c1eb786717ad217fdd0a084fbba5362663b09ac51ec8852648);
  SAdd true 0xdcc8bb12e8073a23ac3f9ec93dd098bd2a6dd473734ce0d4b6ba4380b25da259 0xa5762995920e36ec2b6c55348b075e79d9d1c7b490a1c2b4396827de4e529977 0x9da6748576ccc8e8d32e0d217083718d42d08513eea3914da4054184efbb9f24 (-0x3dd99fdd18c584f7d23b1fcd94f549de069bca9235409210d3e8d5de46903a64) 0xbe699eee137536863d8117164877727251b9f842769f0ada721b9b9de78ebb26 (-0x2510d4aa70e5d41fe2c4404dc4c625cd200980bff0e7cb36e2e3ac49ac3014a8);
  SDbl 0x2bfb26bf55184276caa42cea93bbef6de91861c5e2c9445a755f98f7b83410fd 0xfc95f1f8b24dbbdf75338d87bbe67cef38991fb8875cc407c34fe39b72e12171 0x5bf7f67471309296406d77aac584d2071c0d5291fb6f92fb6050dcfe9b59ddb4 (-0x10aa9592a260057742dbce1efd947aa37daeebf088bc4479ea4f2798022aaad38) 0x78e55694f32b592d66eca744076c58734d050393fb041438b2a181f779dba56 (-0xef7d00203fe217f0b53399f3aad40e091e3ce8c6b3ee67c833004611cc68116);
  SDbl 0x9d790c14053f825c6321b1284201b23365ca1a182a048048eb7045aae1fa9a1d 0x445961370eccff172f5ea365f5ce608b371a55693586db1272747eae41749389 0x696d3930e8313108d1bb7ae15c1552b0afad51f6e3abc84f472ea32022744c64 (-0x27a81874299b6926e3bfdf3ed7725e320a7dd211b3048d89c7344bd1369a7cf28) 0x60ddb20d5acc700aadfa0bc334980bf18fecabcc44b33fd9e2517d28cfcbef22 0x71544218dd6bc4106047427a155ca351ddb27a1afd89fee05a05f0b95a9486d0;
  SDbl 0xbf8b2c34dc617135c9f7bee20ff4647a53343e5dece457f180e3c026d816293f 0x159abfd91553078c6108b80c05dfea598073a20e9eeb55f0e7e5ff656f29aca6 0x8520de555cae3f9576879123e419bb9a6a7af7d15fc26c09b154b16b7f353e5d 0x6704cbce9af67b0f2fef82b4224dbb03288f8362cea0598a2a740748baa63cb8 0x8f50f7a07933e70b713503dcb4b9abf000b6931fd7647d1c8c3cd68884999637 0x22f9a3f948d4a46ec30a105723bc85c9ef49ddd9054e5d100bcc8d0082be5de4;
  SDbl 0x120c91a08821579054c44970def754cff401f734947bf0dd6298bf423717ff99 0xf3c4d154fcd8d753b55fd9db95531a48a5fba352da8e52c77b343c0b1e87bebb 0x9e31de0cebe9805e075680a25720ddbae3d252b1be614a1d08e7213a4cd3a127 0xd4d6ec01d8610634ef06bd6aaedb1b7c9ef76e89c47f9bd16a5683ad63aa1bf 0x145c5188e4e7769470469f564bb965d389756c56728138e5daecfde522aee96 (-0xfa9dd94bc1584bd9cd0623e3b56f32d64b4da0d6e571d4a15d298e58dd866ef);
  SDbl 0xc7f5b9c944280c82e0de248e4a9190898d678b6c067565ee17c8072235b27113 0xc2bcfacad0839c1c821d2ec3bbabf159c0310e96ea8468ebc28b2094a6127d60 0xfb999f58ffd8f85800fb5aa7eb8f4fefe87fc42c6eb71b1932b2103ae232dc1b (-0x1c13c7de37c3ab2c7c84a4d6e10171ed6cbe748fb8c6c155728735f9ad9ee0402) 0x9c2ff2b4a6372d8e0d710f04dc5df865d79dfc3d04b729ef906b266b94c4336d 0x264c27db173de396bb198c9629d0566f65acbf82985aec85d228a95934337881;
  SDbl 0x4a40995edcca5f741b24764cd2bf9e002bd2592a161c12daec93045c57f1a615 0xd0be7a7d1a7eb2b89ba2725562543db7671ea9a8c3159b30c706314cf3ebf87c 0x9ae9682a88c509a4903bd85001cdd3d7bde263c64f223659d8e6a3dd144264ab (-0x12a751c700d93f2c8e855e25a7bbbfb72797327cead65a1ab6931aefcb9ec7471) 0x158968f7f87f54679b6150c705490dee5577ad4d7b1ec4fcf6e84861dac7b583 (-0x40ff7ad8ff7d8cf73e3ad2ccec55f120e01dfca48a85eb5885889ab37837dee);
  SAdd false 0x7734017f03d7c508945ec8b22c71bc855598c9f572bb388e14d74a75b410378c 0x77a3fb73557b76266a93e9d50c3f6d0d8012e3ddf26221ceeb32048018764875 0x74d304a679bb41818577a44e778a33bf1092d6e98d1d39912a7dea9b6a985d80 (-0x498f35a3c9f611311028cfbe693b0b27164e7824e74408cccc71230619a46b50) 0x378163f4e8afc9d76dca83154ea4783b9bd3312bcdacec9680d3f63a62214128 0x297d6af4d20869b5031e0c3207a2819bee9d1157708fba36ab131af7453cfd57;
  SDbl 0xeec051879fdb8cf07ece413b3aa91904a65a2326ad90dd99a378dad9d44c9d6d 0xa034f8a8607601c76ef7592da0b4f7d81f29c3993159cd179129aca0eed49c94 0x5b26516611fcba4d76b40363c7d846e5005f46f5abb2b451fdcc883048e15de2 0x322a4d27d7a6d3f4501a62fa0c4e7571df51b5820d82ab91a066f24b44ab7168 0xdeaa2813714d4678f26448665db40eb23141b36f10adb047ed4e332cbe3a4d15 (-0x25d54510bbba95dd2b9056ada17dcb852a237f8f7ad49a5efac15dcf8791706b);
  SDbl 0x5c242324bf7af0f5f80a2d565364f0199d7ce4781f6f7e08504f6b3c7a26072b 0x93d98a638825099d635bc7686999472f0a5564ca21a7e052d88bda2d4c77189a 0xda12fcdaf5138ef27eb737b6a419fa416f717bdf72bcd63fa465548fb18b5a59 (-0xeb297f0b4fa7564461053752a8fd2137e01d6d6c3bca0024e667ec636741c53f) 0x2129fe5c71f347c3091810cff5f0239cc3e9318ab634e002683ba0cc0d28f089 0x4729a2e8a0b307b8a7f03409f0d3eb300a6daac3a3d561df82942846affb73d;
  SAdd true 0xf19d42d70dcfa17069a16e6ada9848c70bbf9b80c177d1d7653dfd9a98731eda 0x51b55288d0efddf257d608a848ee2ec57c02c19cd5230bf26fcc74ea37d5370e 0x3e3a5ae39d013003e48de0e7c5ce7a7a3c37a8b431771fe870f3dfad70df0963 (-0x5ba04674820795ef553b6bcc634c8f59523cba30cd087c432d649f9f43062e0b) 0xe4097874d944eeddc6c650d8f3d3875bbe21640ac599b8e1b189a9f11c04f2cb 0x3e6cba104c6aeb88c47f0f165f5e0131c369eb0bc76f5150c377afd7263dea84;
  SDbl 0xaf3753bfc1bd1a80ca91628bafdb8c92fe59d9197899c93f162dd29109d90621 0x7c8228fbfa3bc7f985fef0aadc4f2b183a571b3f85a11ef51ac3b79f94880a4f 0xc3b33e3c3b225c5082866e67bd0adfaf97ff1634b9a0a867274123698d54d80c 0x6f1f21428b8a5f4705e5f984f2003a25ab1c97f274302b2a24e0b8f99a1fec3 0x77ecb075ba9861367cdded98b08203cbb1489b1ef43e3f17f07a91a84e1ae82a (-0x1d4b469b62036c8a79d8d138703eecf88efec22cc14b363cbb5b4c8882b25d30);
  SDbl 0x469a14791de36107f952e14c86c291cb6f78f1785dfc2714f0429056aa331d3 0xf316e5b5f11dce5845b2a91d3ca3c53305bf9cbfeb8db13a47693dca678f9191 0xe9c107fbb7dc1899123092365f097d3c444df329d20abdb34065dba5e9a36a4f (-0xaeebf416219c9b2951c83c70f6153db353f120832822c0d4be83507d9ec9eea8) 0x13789feef32c1488d8b5a5e56d6f1a552a32af214c8f0517979780583b3246 (-0x20b40a903af843abc8a55851f19f573ef2a8df170e6a50325c08729b5e9a03f);
  SDbl 0x8a95c09d2f63b6f922868a7cdf91f6d8a8cb40a254eec337e3e10bc6c09a1705 0x2f6762a3752eb5ebe4d3f11741a74483b0f79e21280925b5f5f0ade5e8baedfd 0xee662795449fca78eb2b9d27cee43f5df18025bf1d57d3c53f5ea5b35f32ac4a (-0x1b767d75d844b4a55c93a876caacbda5eb91186f9b718a2f4cff6d94d023d9cb6) 0x4b05cb438a029e33dcc7c1845e13d688e988b396bedaae7f72bba07783c42b06 0x69ef150b73aacb75b71b1a947dcf5773bcd87c7935eb1beae856836c4cf498b5;
  SAdd false 0xc1ad801b02a06be9f7875b0581d2f4fe02b49a2338370da480d2dc7e78a9c71b 0xcc94533bdb128a3d8dbcf27f7a81db8154a3810c602ff0de423218dc17f7df90 0xe2bd336d391d810ec06e2e0b5554000b8f5de58a050a045ddde61effb3fe7aa9 0x28b9dad16a4973657c3ff0c66feaa67f230f8983c537ed2a9d4d98ad71925c7 0x928710bfb11985c24c53cb09eae8fde9e884fdfdb6b233d432fb0a75677e457b (-0x76e96769005d70aeb39013561d60e79527d99401f83ad7d7b0d699cb2f8d198c);
  SDbl 0x41887e0bbd6bda641dc4bff278d71556061eb28d0787b9126105a808ba0521e2 0x8c8a38c36573aadc575c64b31a0909b83d2db7e5f8ae5600959eb65f0a1d80cc 0x7476af54c308ce10716017a02a17284a4009a8781f564f867be19507f0d32cdc (-0x17660535d892675572695ae46fac90e86c2ded2756dc8b68f3c01c798a6359167) 0x10c698c831802f471165799c7e325481cb649e72ec2368099f38b4a07abd3468 0x1064b59e9f196633de70fbba6d972290f7c4a6f17225d90c5c9f1e9a01feba7d;
  SDbl 0x6132dfd9f3067611204c96e368c9c9ba0932b725758682c5081d794004c5958e 0x60454644d639aaa3b3737a0f1cf3f4c64a7b9f95e8f76ffa1c72ca89ab1d6586 0x7aa499153a29825eb0416caeaf5506fec1d1d8e3d1b0e508f1cb5f7fe7e69a6a (-0x8f062f3da4f517a3267e94bb1a646a853aa82c92040b3475db984cf3ca07f463) 0x24e797bf83f2dab1c678c6918001535130205d3292e281275b426f1bcb6dcc5a 0x10ceec0f21803bba1fe2bdc87852cfb8c7d93f94cd95b66dc285f0e001ece872;
  SDbl 0x5ff898ecb5e1f57a7bbc781cde75681f81a04c14d3d9bb0731fcc4c03306c105 0x70faa78cb2642d7767312d340c336e587601a5d986a9f265968ca2541912ec3c 0xb719f3c69ad4aa52c1f78856d2426d44c599efdd2bb144e00dd0da5b6c6725e5 (-0x10a7bb4b3204df16b28dba7cdda00933542de0bd46ca458fed2c06b6b6f0d5bb) 0x23fa72e878f27fc12b6f7763e2430a1f744a004a862839a3f7bd56d1d3892d2f (-0x64388cb136beeb67883e6713373bea38ce363decebcf704db1c143301136823);
  SAdd false 0x9526b422af527d902339a17e0975d44e1eee1bf4f44910e22931b85ab65bdc55 0xc2257ec3929651e44bdb7ee0674273222cf5a0e3e7f90da8beb6a70a7788b657 0x53e68c32a620a0f7235cce6339ea1b651700da60234f01cf0a75c1ae03c1af75 (-0x243ed1eebf6d1d016839d996e4940bb246f0c96c2c344e312bb702d00f7be0ad) 0x56e6138ab008f170ca626a9b974df4c5776b4a289ac586f66cdbb4e485d7e321 (-0x2f4a34bc308646f5133cd37baa5b87519e6d0f8f59d0e12440e6532fef72dbaf);
  SDbl 0xb17ee7125e536dd300fbe50cd3a4f8cbd191ff2460592f9fb74c7141dd92fb56 0xfdd2c5e237fde8105c1319677d114aafe6612fe1e72e1c55f2107b475facaba7 0xf1ffc21f1492f2add13954dd3cb879ad0a20ff56c32c9f1614f44c23e3d28f99 (-0x1455e909606f2b455be518e1e4632f2cd851f3845f7e13644aa52079516b5dbec) 0x7b10ba70282719fa01e801f54ca4d0729b4daac2d25bdd1c3a21215a2de45771 (-0x29606352fe2b2570bfdbf1148b74daab6565b40909b040891a03e584e331e812);
  SDbl 0x9198327f6c6fafebe94ca873b9be5721c9fe86030d93207216dc24080e9efdba 0xaccbcc6a93f73f74426567b85429c8e8a4fe016cdd0144a8106783b3987ed25d 0xcdf89f7829adf1491c559cd84cea850cab60b92347865c5ea4e0107720c38893 (-0x1dfbb60ea7d3bca71987ef00552b3dfeeda5d3092d773dd85d127f02612277f84) 0x52cdc3b0aceb136338d0159adad3feafed65a1c11c1148f542b68823d2c6fe87 0x2e151f6cc287b43809d8cbdca83916b1302cefd24fe35e0822b4cce5d5dc1668;
  SDbl 0xeb772e1b7748b9634d972cc3904b13b50d8337c885c3fb875f33448ae38711fb 0x3bb4facbe4b35c7e4205ef6014da4a0358dde53c96b0e67bf5e23ffe83935dc0 0xe059b73ed4c30f07fe83e4f562077ae362e738fdb87d024dd678d637a0cc9f84 0x1cfec55565af0c0c7608e3ec9aff419b3e50628ffb646d597fb7d9319c9ecb16 0xd89406232b6a51ec59bb7c7ed4ae0ee5900546e96c9f020fc949bba29a93b661 0x68049866bf6fbd48d4c1ed0caeafa6f98125e98b309ac75e0af81c8be62b6528;
  SAdd false 0xbf03ad90ddd1d279edcb54d908f7f8fe2b98a4c7845f5c5b705c44f6dbb51667 0xd44f2a3444abf36c89e7a2487cb8d51c322cb9ec55c0223b5db7fe10cd008b51 0xecea86d962ce3dc96c5f5d78485568b91e815052382bcd57335de279d2473f90 (-0x6ab6a0b93aa5d9f6759db233166343632d746f22dbd7293c2fbc04da26c6df6) 0x8e867d0c4097e5d1030267210d9b0778e846a512a1912f405a6f69379a448067 (-0x71dd3aa46caf34ffeb834bc5c3b2e1dea47be12162e8ce7d69f59e215d8f5595);
  SDbl 0x716ad81202cdce5aad8169ff8c5dc435df2f904b2dd808c081366310f28dc5a1 0xdde329183236952a2e82141f77be3b35bf36bb68fc0ba4900b6fc0209fb86f7b 0xa430b60ae94cfa4452adc97995c6e3ede579b0e7ffa8d25486b557c836178e7d (-0x13e4cd5f57e2fa729204daa39cdda3bfabb31fa0c195eacda19bdf3c4589e6440) 0x323f7f57be01e7f25f77bcea185adcdc98f06b5860b86cae469029fa89ce56dc (-0x43e52dfb60bf7587072db1c27cf43249b432d14504271873186270a90446189);
  SDbl 0x197d3bab3981cbb6113de6db190ce1bc3e31f69a45901d484b18e3d4b91784ca 0x1b9cba0ea1650d4af8f6f5c6a949c4d07689b61973dde8e40270e7db004ba013 0x905c45a653017857475764e1dfdc9cba73e413b310d3794a18f65fefc0411ef9 (-0x22043d3e92be6b26a0cc4805435ba6884f533f1f18dd16499691376a03a8015fc) 0x289b2eac6e3947cfa45a1bacb8134aa54020629b6dadecf0d2b3d772a8f8fa5 0x1357ea84666fa5abab3362d2e7ab83db09283b4a283a2735f4d53bcb45336566;
  SDbl 0x3a2032844688c543fae1bd44b979f20522185d41b1c40ad9207195e429cbc728 0x7e33e83a4c133f66c05f39527f9c06599ea42d0dd079d15be39e4d3b2d37eda6 0xe5780e5c8081bf244c35b4a28de9523a6f03ab14ddace8476032e8794dc5794c 0x389ed2031c6de97dd7a142917762f8d580cb4eb10d8ed5f568df41ff5a467868 0xd329af0a832266b046839abbdcb96acde9903b5dfbb9d2e678de5b0e96ff78c (-0x1662a6d038a5ccb3cb7d2d2d57a585861b5fd8a4f71b29c719fcffea2e2f03c3);
  SAdd true 0xd7ebb1539eea7acba2c209618706e74725acc47bcd1e0308b6bab50867ff3693 0x349a687fb552782e7299b575729117388b16f514bece12b724be87d6afeed56b 0x7eb31ee36c5bcdb6f63be205faa18bfe2c58abdb7d1bc11589d00d82a5e05698 (-0x3f9fdd1cfd704291bfd55c44032fec95759dd73e33cdd92078f69e82dfb5169f) 0xb61dbcda356616aa5f24501d57de88a2912d9a824bdb10699abc771301f6df6f 0x3e13ad295ebc899c4ef63c835995e74f0b47a9e89eba124be917bd73b7cb7403;
  SDbl 0xd4e2316138043c788ece0e6c8db2e68921f41d6e9449c29af89cc4fb219ddd2 0x429eb962e9358b72989519c0a53a57cd13f2e2c55623a0c18ec4aa829c7b6012 0x3bb873b03b1bdc2f16059add920fb33d8b1fc5bc170aacabca3941e77a7d37cd (-0x1341bdbca508589eb1d61126539bdf0097c12573005ef4c3dfa19e5056a2d138) 0xb10769a4eefbb1a47efaf1e78b8944924cb513c0d479f2b018277ee120caa4 (-0xba7f57fc1632002e66e82a54529cfb8ffe075b1d0fa4c91f8124add857899d);
  SDbl 0x96ee4d5db359715abe78cd81a9a14168267a0b2e793529361307b1b69f451a20 0x5bb238b0cafafd34001097bd6403b674d6f08b80832f158dff4fbd09beec097b 0xca54ed1b277f395efc9d394fcc05926a88bfa4ba660ffda7a3bdd4e8610a70e0 0x1268a8a14ade3529ad74c88c7c0b3a8f05d8194786fd22f5a746556d66e6ec89 0x58fc207e18c3ebd2cf86cb8cd87317fc1b27c9659baa550387a0c3741ff8459f (-0xec8c44c166b6b9bc8727798d6a4dbe5ccdea1ae10e94d35a5db939084e18033);
  SDbl 0x210203d4daff3f0ef18c2d2aef1583c61983fe2d6f7a9210a5b99e5b0dac446 0x4c4efeb886384590324fc8f15d54046989c3442e67585c2903511b8657de88b1 0x48cd6b1fc251068b61e0d917fe1e0c696188b8cade183384156fbb4e900dd886 (-0x5f45bfd9e4d969b5df6b743774fac4d77fa12a6451457c650331145b1ea71738) 0x4418500f4196d5d382dd7807a673e7780fece3779ab63a0003b8ab8035883 0x1fbe97a6bcd4e11ac122caec62e0128032ab2e5e57d2e9104ad2a5e0c86a2a;
  SAdd false 0x747c0e7fc424b21d0a6aada6c3b02fb46b004d01422f5781d562b11493dd9042 0x92a90e13ca8575b798f8cabfd459b4611cedb9298b9c387224d202c4b4d47c9e 0x3ded78448f2572d3fd2c925685b27d028d8baf4cd5598be45a338875aacda6f4 (-0xb9f0cf0fdf2230cba65d54199b7c5517ee3508ea987f6995a02928b896906d3) 0x3500a9420b5a27711f19081b86df7c9295470fe50c3a2d3a8173621610c12912 (-0x2002e690f4969b27dffcb1296f3ebd7bcd17f19bf02fd092183ea2f4c9ed4d6c);
  SDbl 0x37024757f96f08e9448d7fcde41cac200b8a1cbf8de2b0eff28ad7155579371d 0xb31f31fe6ca7b8e01dfdc99a821be0ad4eeb233a47c35528743e895d5f8777d5 0xeba7f39c319c83293e167e70c61a52d3572788ce8bd71b40b417b0dc2f920f73 (-0xe172a72fbfca3f8acf0b45c496376f4ba23949f856193aaeab6460b473f056bf) 0xbd1faad0a4180d47cce02068b0f151201b1f49d4e45cb73c19f162661e8f7c8 (-0x6f9abafa36191608852b672169f63d80e65d9b124168d549758d2315b62035e);
  SDbl 0xfad4e5dc8e0246fec1cc74b0606d92bf92d5871120eb21a4c6e749b3e6614170 0x4010d61463e5913b0a0b6d3bfe47b6d7b56e428aadfe5aa071a42f9221e7d898 0xd26a9a31c5194c627600a7a96e548f0fa2e2d8decf66ae3a0397c0ed2d60f6d8 0x55ce1204955bd7630b9267f80cd3552948d76f5571425c92f706560eed6d3b08 0xf5c482013ed07c84dcf91e6b4c451a54bb314c3b7386b8268f5af924f95cb742 0x70bbb4f6137ae46c47257f5420da1268e20dc54dc4c82cce4aec0f05bb91de9b;
  SDbl 0x66a9b5cefda5445ef710559c0284e8b64e8e573d14d065516582cf2fe79df310 0xa474c9fb398735429dac4126de43bed45670dae717a8a4e80aba546edfb0281a 0x7aa8d54c417cb6c888c3d1a2aaf7ea827c8a8bdcbb71d161c2d5cb8bdd3183ee 0x78aaaa0dc371dfde36197d59d9b1177f62c87b5ebf6df755bd74640b0705a3bd 0x292bad62a7b49e1b7df03bec7849363cc28ee59f1fe70295252125983b18784a (-0x28426075fc1bdf989a41ea9e81ef9c4c8edfc7614a7413a85e7dc320e4b6271a);
  SAdd true 0xdc53a4b67a6ee117e90773f13e918c85c00fb80c928c846d2c85c4e3ca6666b3 0x2ee780778be2510ecc998ae5851ee39aea60cc0c909b240c7cfa55e53e17d484 0x1d9d1d7a507e5d345e89394e2874f83b43b0c2ff51a21553b1a52710873895f (-0x61d87d253c17f298348dddaea70376d3b306ea0cbffc390c7280c18d87bc1e45) 0xbd9fde6e985c242606fe9d63bcafb33e90bc63a58151fe525c2ef362d53d503c 0x652bd39eb1d9b226cb628aaf0bee966f4c5f460ba81c17a93deec2b68d10d76b;
  SDbl 0x50d488e078a20c4bf5c3e808311519b787c05f54a2ce61de5a16139c6aeb3c23 0x16b83bd2b8fc4699e73313d917134750b8644c3571b31a18e684b6ef20a7435b 0x1504f1ab257f71d249bcf45bca0793f57840a16da86e6cd6df588a98db865df9 (-0x189cd4a741de4c6fe625a745cf034b1e62d438481990a7b592000297e7fd6bcd) 0x198585ff61e1df12bac9e8b92b8911486b77552799eab0ef882f401d2a747f9a 0x7a2d986b3427aceba099848fab839ae4279e617b9ea1420f41a501140ed72bd;
  SDbl 0xf6a77fc76696942be34b3b9d38b6e0aa138b6fabcaa276a45fb759efcc930963 0xbe5fa4f10f29b998ab373f17f50715487c5afb7f308cd953079395d4f09c403f 0x258afd122a94992d1291ad0e6fdcfdc7bdf13288306a583e78647b43083832b2 0x22747549341041cc64d65c3ad6daa09c4e1664f6ccdf402e2269657116da1672 0xeda6572c1cbf077fd510689ebb9da1b29dbfa79c4138354c1485fb6fa1e0aaac (-0xa18890e7fe9a89679164b4a0833717415304761200955c63855fb2e62cb39f29);
  SAdd false 0x657138aaf3993c808f2315f5effe1c0168cad79b6cd8e1d3187117b8b4fde2ee 0x2bbf288acf04fc469572b37346736e447161c350dbfa33669e1751238647d764 0x9835788b7e88048083e81b1e5714522ca7dc2d6c3293f2822ea90559c92284a7 (-0x3751e1a9f6b0db40efcb227067a5378f2a3388a425dce4485087f171420b09c3) 0x283288ca1fdfbc8a7418a6caca7e022395291fbdab4c06f3d5362f78a69b7726 0x3a1a2a607fda0ddebcdcffd2b305a5e85b8531b34cf688cf6c058a3fd5e0e5bf;
  SDbl 0x15a9765e2cbea0371190064a6ebafd36a4bf6bae2a528aba266f40552c64a707 0x48f8fe83bf118e28304fdc52a171fc7149d7a59382f748644eb1b20a99995bef 0x36f17be3a04b75eba20837d7aa8cb8dfe8de719cfb1e948114d4c46daeb12e54 0x354f60ce095be58bf96f17b5fca73b850e7e9a64a78031a3b785e2e88a63a0b 0x1d53d98f43e8b762557de4d79667137f6d4867d189b4223c8c128ae53b6e886 (-0x279173f18799b8edf26b3823363a7d040f3e3b3baad3c89bc048186292f0038);
  SDbl 0xc0b08570f267fbd3b88c81feee2dc648865e84a187bc14b32ba6ee064a0686f4 0xb130c2d0f15014abf11b059bdfcce4021f8fdc21e2e6a60abb4b462dad74c10a 0xab209e18abcf5295e435f6919d2b8e3ea22d7adcd12239defc26c65bfdbf2207 0x144efb1e9c7f6157676d4f35d1a038c4e882346565ea559c2cb0644edde51b40 0x910941e1bd81184ea1a0b5dc2472829962d293945bfb9a5aab9ae0a336132058 (-0x4e71afe41d442929b2cc77520479dd21d9b23b92c4a6743ce4e38c6262e52fe9);
  SAdd false 0x92577b9cd92197bc7778061d53706c916b097f14d172f981594b8dbc6c2ff942 0x22e11da0e5bcc539a935a8e6e56cbd17253e3ef7f1488574dbd3cdbf673a74a3 0xfc1456c817b40b2a2d9ca69b1d710babb47b7a5f39d7c01347a6bc77314da75f (-0x4844d78caf2d620ff11d93ab6757c1069fd3aa641f372344794e7e422a1b3e62) 0x53a7e6e47b9de58c36e6003ebd38bb68b1c2db676985fb052b0c09391f0e3570 0x515a0dfe50e2eed817023fcf42831f321fb72f06e52c92d8f0ebe082e4cbe7d8;
  SDbl 0x4434faf3e394da2506b898b0e41187cd90caf603355d70a3f3e3a45f615c4980 0x6fb10b09741e43a836efbabe44e2dd8f51fab1537f9cd3d72985bcd1dce86d98 0xbf148d00bb6c25eabc31e36a916377b9d9f0bcc01df693bdb332ffcf4ac61c95 0x78116f1a8e680134a854bbc528de0492b24b5e2d7da63dae1f3ce6d2c99cd258 0x122c30488c28f97d67bd8a6f540d17fe81966b2104152723e27bba58c24316de (-0x147720984f057072da11fffc4463bcc76e8a285242de4414167dea2ac3e5e48c);
  SDbl 0xd963f8db4247524bb7afb5c29424345a8f6d8dedb59e7bccf57ae49cca0c2218 0x8c9f6ea80c8e36ab57a5e162aa4f712526dfc5da59b2eda465d7bc5e8972cb86 0xa9739d531e9ee054a24862d97a2e9f7c72f39a442c956b181b12ea81acc7179c 0xb2550e68bd333520cd57f9e8553d7c7ac576f8b3b00e799771cc98bbc08b6ecd 0xb89aa2eeda765bd18510ab9a7aa9af8cf6c00e300758fec9cf07c2612c794476 (-0x18915ec1c60b987cb0f6f5c128ec87d999876cda08915109c1f6f7f247d8617f);
  SAdd false 0x824c5b5684607bfd4e10e6023729f233aa3ce1cdfbe607138aae0b9340d99797 0xa8c5e1e0cb65aec619f6740e6b2b9f259323426a74fa9d4dfd168866ba2cacbe 0xa59933651a8fd97e6c1fea94a5a4f3772bbfcb4f819903b88b83d3e9da42ae94 (-0x2dbbe2bf617b0570c282a7c1daae3124f7998d8874c4d974cce98ee418523494) 0x4251a38a7cb8da1b2bd565a8e6963ac87d5049e6ddb68ae4b9abf4269f2a71fa (-0xe53ebf842844f4b00d7260fee6dd73394a889b33d704ac8de6c92fc2f0259c8);
  SDbl 0xc2969dc2cac678c3e533d88198291e35dbd1d18fa6bb92bcf3a6ab589f7730c6 0x4e7b04d1cbf407df6ed4bf9d15ee6977dca1229c3a17e97b890276f96e6866ef 0x9864b58921b79df27eb97eacd514439879222d3b14dff75c23397d9a84233315 (-0x520de6be52708ed3f468366f28e8ea0da6da978d89b3a3c97d5b8d88fc95f5e7) 0x93e89fb910bb9046e33bddaa2d90335744fb0b4b951ff7ac1df835928d62e747 0x44a1db07c6d2730da5cc2014e5a678158c5af6380949573840c2f506f348138f;
  SDbl 0x204a0075f4f96b1b0556087ae9afa89a4831e4f6fb924a2564bcfa285b38c89a 0x4e9eba2e25aa7980b4c6ef901fb42f4cdb1661a5224f83e4813b63ad77a4004b 0x647d347732c8cf417849ae3c20f9f90bf15d909c0e4962b1b031bd2abc921606 (-0x21bc4e00e43dce5738719f535977ef44acb66629090eaf6f9e9100bfb2a04be4) 0x4129581c582c6d448dfac8fd48a6b7452433231295af33617036e4a77e3d185 (-0x480fe08614cca670759097a0bae69f776870b42c72eb7661bb6c96180958d);
  SDbl 0x35eb2049e7b10674a3ac08c4075d5c420dadfcfcd043c36346c6208f4a0d1bd1 0xecd0aefe04f78a4a013075a9c0ce4044aa41f39c82f58566b8d8225029ba8768 0x2e65986c12cea2d2bbbcce508caec39bbc32ff76de9340769b9b9a70ae3108e7 (-0x1e1ae4aa83c6412db1b96fb2d63bd4919871fc93afa606782f5cbfb81d80f7e4) 0xb5b3352f10c6e434d39f33d574e9b024ddf38a60a2390b250fe016c6ec2c75d (-0x2151a37ecf63d75649cda1a27245d1f0ad9be00cf8bfb646557b3562921f8366);
  SAdd true 0xe5a5643b38740070f19578834b9d838f4dff93b0bc8fe56d97e8cae31fee9824 0x58b4b34b4d18e4990fa969e51fa4b846fc7779f618fac9fb73318e6678979c1c 0xfae839676e8ad285a205b51aced3816f01ff10a8b84f6bd1724097c2a8a20216 (-0xa6e4ef50aaead1c02bc991e901071970e824cf660451f5bf3fed3be5b9bee1a3) 0xce01502d1c95f04d70a62a23a046162870c420323ce3a80236edaf2fe043d33b 0x84dcb82dcef572e7b84f2fe1a983b9fa089951b8543ead94da661ed0bd8cd44d;
  SDbl 0x16a2025c6f0e5d366aaaf460c6073c78ec0d7aff27260d40ca11e752aea05d9f 0x2e6ba015692b8f00c345c6ed27c14f9272e4e585070cd0177fd782245051eadd 0xad345f11e2124d41dfdd04e3faf324803cf06f21e3ec4ea4a569292084c13f8 (-0x2fd8b40a1dd84a97085700a8c94a7a8b982583f2f0f3d73948f62a6859942a27) 0x2003eeee218d83e7142890738dc10eb050dda32510b11fd4c4d4f5bf4843a54 0x3bd0a48a42f0db29cdf6731005dfd7a441990d12920304bfc0b5b66c2e11ced;
  SDbl 0x41a711eff23aea0e962e6ac4667163a36e9a5835221211a4ed052a4d3ce6bbdd 0x370474c2c6cf47e81e05845c1702a55bef87880df20c431f3df2ef70e1a18d6b 0xbad6b8a51eb4ad5327b7de7ac37a824d19f23f943b83251daeb05d4bd62423ef (-0x13b325a6bef2fce75c10392b871c9a72b215b33f727f7a4f99f2f007d42e81d8) 0x10d644245227f6ef1bbde0f731650817d8c768285305945e4e1174c1cf4cc65c (-0x2346a4cf90396a7e2b4a679201c0242c697b3a4d7ad0ec953365e88307eb983);
  SDbl 0x67f26f842ab8ecb9b4542c3d1e29deb177924faba98ee09eefe8b04aed416e9e 0x53c6a98705ed60d5d146e078fb1897c3bb92f304ac6ea6aff96d206583489abf 0x6748970de0ec78be4d0dabd2a539206765489a6296715ce4f4fef0b0ac24c94b 0x7441ea92e4c23a1d245fda9b69aed78f0ec05536dd05c19cc55953c9a5436124 0x2a34fb538b0a70b8fc5d789ad86092db106a1f6255345eabf52394655e838c11 (-0xbad5f57f0671537c1351be00a6beb61232db6f3a6d55d292a851088ca8ec0ee);
  SAdd false 0x5c43f73a7e0b368902b80d50a435009cf39782407586b605ccfc5b8429400bbd 0xa6044d972de0ad0d7b8409f670c605836c8542ffff60f1d3e27a46bf8929fbe1 0x2cb062dfa9305ac8685f98eb7eab02411355a98d89a4a77ad5a6fb8a82f67ee7 (-0xbe579b9f3dc1ab893da7b665651ea6496f5d78aa9e69789d304fa80b49509d4) 0x2140ebbd8338e1658744bacf74a9ebcd5a4f6b2dcd373286e01f9ffdd6b541de (-0x1da3fc841ffa93b4e4365e64dff51c8acfb02d97b15be8f0b957289f0fd38bb4);
  SDbl 0x6f55ec5a9de6d9799dd3f5b4f512dd960f130660864f19cb63d5d1fc9e994acb 0x5374075f9b16eac71f300cbc89c173ca6d586cbbb33b4f87fe66b6843250d4b 0xe1b3d4e7003f32c7471f6d925d3a823ceac98f6484e76c8049df4ba27e4e45f1 (-0x11c1dc8b460a3f77e4eb8739135a6ccb6ee7ba964ed4d4ce0655840cca0b9db1a) 0x306b9fcd93bddee67e0c982705a91582c62c4a135ca36d93e0e0af2244f90814 0x45eee13cfaf5aca2077639b8fe4927893bac0f30e30f4849ca0ee8dfe2be37e6;
  SDbl 0x90682669f8ef4b47071f2f9ff1d2cb78e5b3661186fc72d948699cf27aa90677 0x745f64e48cde2fd98e27c0b98d13dee53696e501ce4a0fb206f640f1986ce961 0xdb5e27d91e2c92780128d6321e0953b190a6c1aef6b7bbfeefc306af3578ae5b 0xfe505809fdeaf9c286c8ab0747d9b9288126ef9d32df87f4adca7b232addc9da 0x51755596c5606e7907cea54c06173cda58a34b721f69a316a6ee4d03296f38a6 (-0x3eb3cd7b375ee9facf4cde4d280397e1cd7b9192062cbf8b57a132b93223397a);
  SAdd false 0xacdacf826850958fee6fd0c97b1dd850c8725567133aa981140546197a730ccc 0xbad6137d48b4b8aa44cb3b9d272e6d8287ab60d4541aeae673c5eb35e1a283ac 0x24a5c8c30a3c91196c3113ef8ac8c9cf0809ce2c0ef252278bde359d9376ba49 (-0x2c4c05b134250fe8df5cda2343bc99eb5f7f42099c0f1c34ab66997676307c44) 0x74b6c1ddc330db3652f16ede67cdd61b46de47aaa3a034277c1485f1bd701f44 (-0x2f93f77d58009ebb3d999eb1aa03d6d742dc7d6889e5e88e5d73dfeb4f6d1f98);
  SDbl 0x9f9f6e8c37c78f6809d0b4567a8af1fec21b32614f14e2b70375e244cf88813d 0xa9abb30bd08002be8801479cc90605ec0ead4874750f6d414ee60b446bc63aec 0xb97aac5d9fd35ca279b78488f46204b30753d8f20573ba1e4db373cae5250b9e (-0x16b5fc10d12563e28478a47213203b4747db251a8742188d718acc66025a5e61d) 0x63876e9d12bb6960ffd2780d7f032e5aa90b642a4ba10cd9b9bd7b7df6fcb9bb 0xab402a207316457d0a2ac93e528ca326253fd3b13a95d83c35011a17c75b027;
  SDbl 0x5f934f97035834af7378ea08a79818fd24e3c8773bfaa0da9d1364e1b11d64a5 0x2e067c49c2e1e2bfb677d234839dea0749f98ca3a283ea179c9f286f6ba2a594 0x6ec5ee301568322518249c19f3562d77c90f09e7b4c388af4fac2e9d0939476 (-0xc6ddee87a5a8f18061507212d24a02b42aadcf37221c4d92f2d81a6000c10cff) 0x23aea9d6b8568562d4267fd13fbb4074b50884adb83d73822117c462243bc913 0x2e2975a18e9badd8b787848a4a5a72de4b4a59683fb55536a0048ebbf57afe5c;
  SAdd true 0x5f7021ba35200ad71337b0f2129613a749678bc3b8b6ec6aeb45ba39b8cfa295 0x899c1b6f078b276857c612dacd1a8e382d981604dc9d4f992748b8b46120b9ea 0xd179a064c6eb9bfe48a551eab44587a0bcfd65028541efd3ad672b2c04502e2c 0x1c4a858cca0091908dce26f7bdfaf241c04f961c29bf1fc461e800a73757d7b 0x23946a25de62375e7b37d969058e67402e9565b1cdec11bd78ce1a347bd8e98c (-0x2224a3957e285d9336405dbaaf61615b85f6e692c2baf104726553b73e51fb50);
  SDbl 0xd56272b7c1c679b07d4a539339fa706a3471bb7248643aaee747cef42b33f45b 0x6b7b1c0acf7918b5fce88b6f4d1e11b54aa302812761c0fc67769fdb6b195225 0x8257db49ebc7ab36af887a802a6986ebf3054a511c92361d604f49467fd1d38a 0x7f4c241932558de41072c1e49681c7bd003517aa8451dbb1bb0ed18de9ff6a61 0xb1dcf8c28269c7b2bed76af3a0815afc68f121dfc1508de2f1f7512a55db2da0 0x191d0aa09240f5c32b83c8b9c18d37424059b5f78bb78db13a9a25283d595aaf;
  SDbl 0x44dd4e93aeae234d12648778ffe69591cc1de33d34b2f22528fe17d76609a38d 0x8898e227458d5c3dc98658de663dc6b25527806d27ac21e96a8d84683ea145fb 0x886a62300e593176f181fe3766df813fe8a2d51441170f1076e30ddedd8cfdbc (-0x414065bb6ea47c94ecb4d5fa7901c72aea05a678ccc7b48b94eec21e9d7795fc) 0x1286510f4a6cc01d5ff499d0b776115702c52b8c353eefed556f0897d06d0e9c (-0x7d514437c17deebaa9f9e6270120f5c75eb6e297a94921b80067ef1b9f89fdc);
  SAdd true 0x7e3a660253b2cfdefb9b3eeec9313db5a209507e16b4d296d4467f5a516ce1fe 0xfc7e4583f5a817991ef5658cec09f3d4ec3e76870b475d157badde5004023e92 0xf3f2c7533cb786b8102e01f3013ee9a16f45d766bc50f7c860a0d52b42705097 (-0x2a5205dce293fb58d5af9348912314f9c726cb9dbab904f0bc687a753c5cc784) 0x3e3d89bcea55561a82da8a120bb45cfff24b79f86a4fe408adfea857441f8150 (-0x3925570ece186d09cd69b61965ccf16b316246b9727303e1f36ef2df289b54db);
  SDbl 0xd58c26c87ef0986d1570d53db4e0a53e62094d24f25b5b5c2af9d00cf195415f 0x98196f4b63bcca512563f24d5a036a23e9ec21d0aa6afbad9e1d4862cd1b3433 0xe76daebf5f172fd14f03f8d2c2433e42ddb40e6dd2eee10cbadf9110ccf77165 (-0x1541d6a4982d3607a8c2c688c50c71c01f67141b8f3a196e7405abacda9555c49) 0xb2228544c689dcc707a758017a238037286dc54517ff88a02a782800cdd85016 0x53bedc9824732e2d8b26ac8f3474e5c7baee9542c8a07a2ca15e66938dbdc9bb;
  SDbl 0xecbbd727ba1281b2bfabbbdb9b30d01675a580bbc2783362197d906f682a944a 0xbd5eb29ecb0e3f247d527b85af2c177acc1397c85aa017653cd32e1e3da0c57d 0x783ddba08c2aeb97eb927637904b0482411132d152aed5eeb63bb5d83d326c35 0x9ceb355f748c03d7fa28a1c2b726a2b984e567f271eae43ce86a24ff52e5f014 0xdaeade8622da95667e1fe4def052dc89567c08b1636f0260cea74726b9a9887f (-0x227732fc27d21554bbb579a10c05f769165c470ee92125b898439bd551175b02);
  SDbl 0x939f59699e4af7e60b40bf1841cac90577aafad41065f31a2d8f40bf750a2ca 0x5a8121e25f870126cca99e0b84b2e7597d0c97c68282a694e9b44ac5927b884c 0x2eeaf762574c39109d0e9aaf391cc130fb3f61d716bade269cf1abe31eb201e7 (-0x19b9418a307ff4eaaa1e95b2d586e2b3e593b0b3bb0ab21d9e106de7137d8fa8c) 0x552063dfd157b9554dc3fdb500605fdb898b3eb6b92dd2204ee61e1bf8cbe2 0x3902c441211bc7a02c05fff2971f722ebbaa484f2d912161bd522ae59792372;
  SAdd false 0x2ec600ab6f2ec91b3ab8d2debed85390d313277c9362281f0a4c6eca7386bebb 0x82e9ee9b778e833e61afeedaed89e2df689c75a88b38010b22422426a521b42c 0xb3fb2eed19bab3cb929c5f8369abf5a135aeb458fe6cffbfd3a8fbf92925f550 (-0x74298a6e1ef5e576095fb2ecd3a2f0ac6ab87534d052b80b6cbb7aed16dfa61) 0x88bc162adb100d545b487d676745877587815a18695ec935198ab112f0b94a6 (-0x76215f2b069981c382f4c67c5df03bd52cf9c4d214c253fafc83af32cf5bc29);
  SDbl 0xcb4c95fa02f14f2cf275719cd72c4dfe2fddbca05653a5e15f15fc7cc4139a8c 0x2a8af2f3e0e4e1bf74a84ff414b279d750b55869c4ec9abc2ade6d5c1c702cd8 0x24686d200caf3238481c8231b0d41368d7bdafc2ca8acf402c276e1d67616894 0x5504c823d77f9be39a40fa2913f45d226f6fd8ae2bbf045f90d23c7667e9272d 0xa1728cc4866bfb337723d1d6cc0d6d1326ffa8175e80bc9a0afb57e2b89ed8a0 0x462dc18676a55602f68fcaf5df8f3fa2e34baad1cba86553da8a4f9fa8ccd3f4;
  SDbl 0xc1004c446c8546725c016b91f97e5599dbb43d3f0b690b7fe46df943dbf093dd 0xb328ea69ef3d0c0a0ad3447db6fd91bc84060466d52e6faaa3fbb578de5306eb 0x7bedbc77b6451f84beeb9ed773697a3f14d01be86327b0cc5e95e4afff8dc0bd 0x21afe0d35a1064a613cc032bfce2ba0b2f92c614b074066e4ec9aa1be4c85b35 0x918172ffd3db19f139374a57cfdf22bd246e388b7f7edf988affc171656bd3d2 (-0x66ff4043d12643d39fd4adac47c8c9b7553ae89decc96153b72d85d64231ab48);
  SAdd true 0x4ce37327009cb5507f263f64a153dd6e0e799d6882794a8197c12ed345bf3cf 0x87f2d366fbd7343c4b167df4e1aee908d9299d63f4ca57a911a85b5c2fc68dfb 0x98e8267f4b5536b8515fd70b080a6d2b4f64bd9fb0d1521094ba5cef9f7b68c3 (-0x268fd48481cd7b36c8392834fa1743eafe0fe2c7e87bfb29c31bb4f147f7901) 0x1717d674aa6c0883fd522cacbeb3b034584f6bb953fdf79d365104ec09684c 0xcfa733b3688caf555ca0afbc3628afdba11973b834e7062aedc00f67578f70;
  SDbl 0x83cf656725c18e5992d958780371cb76cde82c962c670ee597f71917a87b9d77 0x816ae5dd1571e0fd9d28f5fa35901410b1676f2035ddbb8afda98311368922b1 0xfa60cc78f83a9cb3b64cfb8618e26da518dd34de2be5afe7dff788756ba47fef (-0x3b20abea3c8dfc9e1dc96b10d4c51e927382f6d8752f8aa5f7bf71e5f3953702) 0x43dde9ccf97b9ddafc464954633ff26c37af64b2ed522de9097e360ab4e11156 0x35cd90ce9228e66aa7471ff7cfb7fd87c8d1b45deae50d2309a731f6838a74c;
  SDbl 0x5679b17ad4ac4ef18118d8741ee65b665ac3dfd11bd40b896d2e4f17612486b5 0xd2ddba809a5d0f70f0c7c5533513c13974b114678f37fce6158fe52afc064c49 0xe22d3506d3dc4ae1c797506a294bbb638314ce307128b30d23ebbf8ebf040f43 (-0x1b1fa4d756417d7f5e5296babe7ee7b8b2a6fe267d66e752b0cba0130f52a0d6) 0x1d35fd17e541e20a725da662a69331587542a6e53c3eda0661464d7c154e95b2 (-0x1b834b2d04dc6f20c58f0451fe60f9212f367e2c1f6c34176007075f3eb37856);
  SDbl 0xb95bd9c249678f2aa6fa129c333bf9da0f22ec4559637468d820b6607a17722b 0xa9706dd24a57e47e4f4e3cddbbc9bd168c6d96aa3ab24d2001c5a7f5caa65c7b 0x9ac49cda17c6eeb874ec81d0ee7cc1c29213cd0724811cd9c78fe7690fb61e9d (-0xc189ee84d3db2d53fe6a0bc412c0a0b1f1fe0a0ffc43f0cc04604ab83c888612) 0x8635e1afdda8b22032085c130d5024ebd35d0d0edb57c555f0005315100ea1d4 0x1dfed9816e7dd250927d38f7b792f98f3e7c0c5f200f6fb02dbc25e513512a46;
  SDbl 0x4a600224f380023fa1ab8054e51481a3698985bd4b909cd5762646c1b79284b0 0x91440bb99841b26a8b09817adb36824be8a683a3df4ed9d642de76c08cb1626e 0x93418f7ca6efd858df3359d7c914fae0fdc112b2aa2ccc6de2c877af7f066829 (-0xf683266544d84a49b2134ac0c01dd38ee54dd256c47835ae80577e6e444a1698) 0x159ba53f0e1cdfb0eaf32b3571de90770b89e6d31d5834ce330aa7bce4782264 0x705e533c9c34c6257c4843265ab5b9f1a009a0bb293a76f48619048bef7e9d6;
  SDbl 0x2a2e961d95658160bf2d05db59f893003b02d146957478734f5ab46ed13d226b 0xf404b888d6c6645b41043f33c4249ef27db7b8d087003ec6e7b82911a516ee3f 0x7fdd35e625574aed06ad79ff87955262acd89c557223dd458806c288a88c09d3 (-0xc6c35ac4df275610fa8a88e3b41252a9846f53c835e7601b3a763219c2b2c07d) 0x6f351bc06a0ff2867ec7a10859aa85661e262541414f042bc4429d29cdb1a62 (-0x104594e16c7ae487ef1d2ecee36b7213784ce5e9c401344c89dbb97f379d5ba9);
  SDbl 0x2bd9810fb342fe028614337922660184b9b8e7fe3bb23e9842c9f5a91aba52 0x4dd4ff6c2b4373041b3d20a3d438e3b9b9a3511901a6c4594c36c9055ac0e23e 0x22f74b3236d25e484f233724a1943917cac024501754863030144c06d79ccf2c (-0x2b99f31fe1470d4feae6a70cc97f898d514771a94a4edc000786b4f24f9314cac) 0x782ca275b6a06aed81b2e645c1a452ec03be7abd85493ed696a00ab7c78 0x1c7736541405bd9914eb0699be6f55edbd09b341e42ed0a686bbfe4ac646ad;
  SAdd false 0x184bb6ab3c869134533665a7cdc0dc4ce0f9a4668838fba95a6dee8f11d244e6 0xc9fc1ee348feb221bc1f4eeb4bb1ee97fe43229379a36f3de24066bcb7b72ccf 0xba875ce43372eeb913ade404d61eb494ca1de0ba1d36bcdcae4c6df300ad44a3 (-0x29188b58588e30aa968bd0fb1cbbbf7ce1c92f054ab4e3c29f882a5e68acae3) 0x24e48a4a854e750cd2399453365a5de67ef67740f8c6e6459b33a7b9de18530 (-0xbc863004a52c8c07679b81e2314fa6ddc2582f55f170ca098dccc9b6aae69eb);
  SDbl 0xa766c2493f13cb76e679c158feef633b969e337329e83fb44d5b7f52bfff8a86 0xde37df70e6ed6a731ae30c48b638b903ae38a06a5182e202ea434a79482cded9 0x24d1ba8773e4beaafd7c37b238863fda8087cbc226823a999853618c83ec5280 (-0xea27483a76bb2ce8df46598e7b49c8479d2f6b169258e1371a6433aa5cc02884) 0x6d773abb63946a85b03bec9a350a79f41f05dd78766c0c217c5b165181b27a53 (-0xd3b19c639a040189b70bfbe7ab5e27f6c7038186c0d8c707be9a3a79ddbd3a1);
  SDbl 0xa7d0544ab191eff33bea68556be938993760e19662046c6a8dbbdd9f4ab5c022 0x234a3bd919c17aa97c6bdcb95849b6f6deb15d62431610c667fb364f5bdfc8d 0xac22399b0ae20f46e08bf1590a4d71f0636d16fe98020fafb9fb47665840821e (-0x212694cc3e08277a347f8c5d4f000f8ee0832671d7c7d15dc56e12f07e9c6ae30) 0x6e017782f6cf860b233e3004a42047d6bf28235c2478495d640d55fe9dd0b5bb 0x903927044fb8484196b2d7ff3bfd75ba4e63af0a28dbec655a14db68c7fdc686;
  SAdd true 0xb42ddd36ccfdb59aab19538c21db6d3c9ef136299116b8583030a7b23232b920 0xbb258ea2b0553874380e22017bfd3d2bac5fade65c0d5446ab6e1d06510afe00 0x6e1805461dddbdd4f4e23c84f6af8f7dd73d6da784812e6894feec1f507a753b 0x222dfa9e715f9460914ea826683e772ba72756429f540f91327e2ed852f47d42 0x7ed0874d138109899737cb76e4421666442a11c3f45dd48f115f0b1723b62b54 (-0x822a875277bbb53e17c17692d2a60362ce563b5319118be5167d170b8922bf47);
  SDbl 0x386426c35e371aa1241d753d781a002570071cb730372c44e0fb65f6b1b81953 0xf1d5036e378143f5e4145170dc7f46422da3cc8daa060e5de818f5c963423aa3 0x737bf69d3e8ccbc583ae1569bec46b781b13f89895ba8b621fae1fa13e80a221 (-0x169ef05441b39de8cf3701297d7ff75974f349591b266ec968c1c83efb9118a45) 0xc6bf823d42443e8285c49d73324a10a53a18cceb21c5f450906eee8d586e5ba (-0xc0bc65df83a9574660d7350fc390c8350b83b7b8754b3b9e524c3f6dc0854cb);
  SDbl 0x827c7196ed8a6d57241bcb459be3d8759be4c4151981a298feebf6f1db4a0b3e 0x8d24de14785503e168c61076bc8e79829058da9abfcc6b0082bafe4ac5aadee7 0x95a806545fc66e6cce2882400f0acd40036d0413cf882803131333a4e44e7917 (-0x2379e1814ae56cfc45e27f65dee4cabf649fcbaf4d095fbd7ddbcfe0672e292a4) 0x42829fdbc85febb1a49fca5d85e996dfc30ba5c53fa86914bc3cd27af7d8f129 0x335264f6faff7b72761429a1ac42b11a8ffc7798b6e74f0135bae4a01eddcfb0;
  SAdd false 0x39c119f2941f21914b0869cf1662df051be99b12dd44620231f54844b9d738e2 0x611c5376d463fbf7ca575bdf01f6c7ba8fdcc916e559ff3346e906d9f2243969 0xdd98d065d47256aed3bae5a41db5789686ff03432303c22ba8f14cf14337294d (-0x14639657f652afe115123edced6edbe838848ce1a22b263f693f9b25e617b978) 0xd078f36356209e3fafcc5a4621fba1de39568f774579b6a852c2d76aedbe593 0x9ef1dc4335f1a37b5e07876cf1774b935fb5c91dd49a7ef18040790eba1f928;
  SDbl 0x9eab7751c02c2817f21e34d4971b6088a3389c25c770fc4a5ca5715bd8b268ca 0x21f55d93cedf6ff614925a49b11f9737579fe4dc1164b1a244d4858e362adbac 0x1b55d6cf0b896aab6bbb7ab056409d8c036753f1733a2aca90a844c50aef135 0xa42e0acf191fb5f4627825a656e5ede4a163d996101b4a26359eec85df8809ac 0x62581a21ea62716142b714f34729d939dce9f4e39a3532cd477c327b56a68f1a 0x27245837ca3947903f609540e1ca9052eda1efb2446e95aa512e2d744da35b60;
  SDbl 0x5e17b2429c73e14c2ee592889ebf2fa44819f9002ee82494884be6f0e36c0948 0xfc00b737911713f361e0062b90ba535e54e558b0bef19732b0a9e7f4647ded9c 0x43f6f2c83a96c83b898108e39afe125e29bdd6dab230b86b03635be289d67a83 (-0xc42065137bdda5162b422c3e40b05d487b7d2a9762affcf70c8075d0f463523) 0x2295691a91935247305fe2ac5187492ad3866e331053b96ff4db66034bbd80b4 (-0x502459c41fadd1db8c33f44fe56e30278040168a988d84f98f9b367fd13c18c8);
  SAdd false 0x14f32afafae8de8ada1ac66a4b18d81a8c77472c38608aa0848a9fd8a825ded3 0xd655b01c8e5ffc7b6357e78837b064332c6f6ae9dcf3c049f0ee5d55319a921f 0x722a4d7da4453388be7dd6c9cff72f77ac38bd82f8c5b51d79fd3c3f7f412b71 (-0x1077d67aae953db39cc408862ae4eaf452662f445dce6f2fc463e99af9b81d95) 0x1b6e5b1d89aeef1740d0a04d2169ed798033b06a422835e0652b2b3ae745299 0x3152438db09ad59c20d9e44d4cbb8fa6f0e53831086737d6625e56bad4bd7ed;
  SDbl 0xa387222b18b34dfd4ca7e3feadad9c72f2482bae34208bc540577cbd76e42f68 0x4c6d8ef6f1f68014e75525abc2b015bb3ca17829f0d56bce9210d8283d7fe0e0 0xfc5680e92df3b9535f74e2815eab244c2a866775433c5c218627b97454f0ebf6 (-0x1887fb796a06bfa5171b03ad19a0eef0fc88ab0a03617d286b53859bee414aa90) 0x68755cd857ed391618077628df1efe74e76eeaa24fbdb2fe692bac2a46adaade 0x581798ecd1372947ee188094713ff542fba764a05f43b08d542d85a3dcb384cf;
  SDbl 0xa67ae5818e984c5b18e863689345d894797f428812cf24dcfac16742bb855fd7 0x84f513c2b8bb483b73516c04f100c656c6c4e3209a1327acff9aec761d3f9b4e 0x7d457ead471671216fb8483eab6e869b8c1ddc77d4f6cb81a5cdbe726b207786 0x103bec2c36b200f16ab8b237b651f20f630817a88a4bd9eafa647b2caddf160c9 0x6c439ca3fe6e138067146f997462435e938e8a8b044ce1aa284e1069c4f8167d (-0x24c3035f665457693203de6b00bdb42f37f788e1e154cd3c5c45f683fa943822);
  SAdd false 0x747d80f9325e90a0118eb1f29016903992573634c1f986c32869429f3d8f9e97 0x1e5955cc0f69d635fd886a643d1cd6690233b7f90afbcc581c36fd41b2a8f5c9 0x8d5ce68df440843a1c8a337a5ba04173d029e4bdb301fb8000d80775349cc615 (-0x25663912319677a3846a9f415f3a3d2bb0d4d0626567d37b441be85bcbbe5c86) 0x3501fa693efd02c521b5f5c0a2d0f2946df53c9747f5ba7eb05391887e4448cd 0x2eb0dfd17581e015b5a531149d622f2cd8359bd77e032bef0799cd01a06e8628;
  SDbl 0x4d3b65752a523fbca8a16b825c7ebe0ba28809ac9c42ffc4be6a39be14006b0b 0xa90d51469958ad56a61d5b54820553570ac7e4ed1891adff099ef0c29a539964 0xa4f98d237b48431375ea81dc7853fb2685e9414af0d58bccb9d2ce7afb611dc4 0x4a804db6dfafc4f7f5bddfbb07051335940459eee53b1d0567f1fff63c5073a2 0x174cc8d07ef96e15f9d87a024203e19c9de6b27435bd650d671710381ae3527d (-0x29d8511777fa50b54e8cf225ae71e133a20f73bfb2e486c2d5bc8ddf6d4b4b7e);
  SDbl 0x6d31e29aa77b5abeff88c1d9457e2f6bb7bda70bd9affb40224e4d6232b3753e 0x68bf326b493ccc139bc8dca3127d9c4a059fd465c0f5fbd4abf89c266588e429 0x4a8d3277a07c6cca8f112f48c5caa82b0618063e91794e9e99df2ef134b8f89b (-0xc22af43a469e6b4f97ed08d208b6180346e843643281233b6a5e969d501585c3) 0x2e9384b068fc1a5385e8f68f2c28b1d9ab396e752ccab8150576d69a37ca5bed 0x1b6dcb0334d21e5f01559d25278a050fb418eee08bc2115ab91f7abe83ed3b15;
  SDbl 0xfdeb866164767d44f15c723d63d82a2b13944183885e523ea7eb3002d058f196 0x9a3c3e32dd7eeca2e770e9ed89aad41ed8ad9d7e9dd0ff10ab50d5381aa387b 0x8f9e3152197afbaadf246021d5d2292af3bd7c20bc1d71cdbf452b8ca4a2d309 0x13508bf563eba055e1524c739442621bd96b8bee0057e4864f2306b5db54000c 0xfbdb604d79c61fab0fc5dcd368e666d49979307873688b34dfb597cd91a03ce9 0x5e559c57e2ec4ce5e2c6cb7481a41eb9bc2fbc987ebde8bd2dceeb03517465b0;
  SDbl 0x1f6b75df774ef8ce0863db9e32bfaef36399a07bae6c93cd49d1ffa6d86fe45c 0x5f856c56f4ffc635a600881d3f057f51cc41a9ec69110aceda8110906a615824 0x13623a98f384dd298bd011111d6d5929317f155c35b93b1821d38e29d5ec9d94 0x222a1cd58c4784b363bdc41a110e0c5397e5bad47015dd12e9cd5a4082b86ad0 0x3db33a7e1d4160d06b39700ed1d70b5a0a2a82120c4888748aab9a45a39c80a (-0xa8a604291a17b662e9f52658c9818f56f3fcfc1e3fbac9d99af946f7927aaa7);
  SAdd true 0x5640b89858ff3cbf5f21fe4a22b4691c8f939fd8c2098213e217797166cd0ffa 0x593d6d96a8e26aa7524c0f93a3980c788fcae0844fd793e34d6de7f2f5f1e1a7 0xf199a31de89fc47594dbf1f0a4fdb8bc7114e7ea46112f9fee42c078f670acb7 (-0xf1410572853784738a4cfed47c9ab8829d68443d67d1a4afd68eaa091813122) 0x1d0f8c634a22e36af318ff8362754276455db9ca9bcde36d8ef2c25ac43c6e6e 0x21dc61bc7cb25dd3432f53a38f8447f9f75adb328eaa6b0d6156267df794139;
  SDbl 0xd86d7bdf3d4e63f55914d66d7bf64cea6d972001b38a72c668865f8713a40b7d 0x44843f689aa6c07f58d32411313cbb2e45041de9208fa363e66e56f63b8c0b81 0x47cd441b296bdb5de5a8647350af63bb7563d6f03cd38d45ba3d5efe715b2c36 0x13b2e9b171ce9bcb83d3dba114567253378f0fae5bcd47e792335d0400ea68c1a 0xb6f8efdc2677b4e07d0717270ccaf57960e418e10f3e24a971618032e0c3d3c6 0x11851bd6a2995649658ea35a7ea242c738327349927fcc0320ae77e20186a65f;
  SDbl 0x290d7ade2aaa7ffa1f1dec9927a39b0b554efe05399895c5bb70b84ca6384d76 0xae97bc32f6750534776c70044b318a42b8cd3768d56e2ef14a3579ab3c68073a 0x736d91f3a8608740f4438250766ea9c031a90da97703a88308af9c4b8a7d7d37 (-0x1ffc426d4e50ab1fbffa45eae0c67818c4a624108ef1dfb746387288957038c8) 0x6955210e5c8c5d88bf443ae69fe49ff71649dc61f74d5a2df1d78b0b06febd8 (-0x1102b4e32809e70af106b966b6a0a76b72ae432eb507cc6ec1860bc06d92aa4d);
  SDbl 0x10287a9048a92c533e2e9f21d62a5081348f08037c8eb2a759a3cd068f99e7e4 0xf3f2785723c7ea4f4bed2bbb5021ebabf92394f0907609d48206ea514eb45a2b 0x2eea9fd81de30cae0ed760b8c2580eb149589f3260fee4704ece433afcc9c15 (-0x156a5a64d3a1077a68698fa2981afb8add36c5d05c43fd7d5ec1e2f851741a08f) 0x10515b891dec6b3e4d8d6ce9edf5fcbbd55653a7da48e6cb8f289600eef258f (-0x460a324013f522f00c3490d7a51872b7d7ab24429f029400313d07d69db9110);
  SDbl 0x69d30ba550ce54fe5341930a884b6b859df1861a2377025cee4c796734fb8e1b 0xcdd2258b65eb4832c196dcad31da831af27d35ec4db2374c4b6108011da4feb9 0xd3940f3de70564a6ee125a03ec8a068bd1486c7d55b41c4500fc2132ae04e63f (-0x2b6f60537c029d2aacc371e729ae9978bf7f8125c31fe50296b0693d14acf6ec6) 0x2bbecd89fb12e315b564f2378b48ccc4256623ca82598c7b41add3fecb39bc36 0xfc2b055e0fc9eb1d456ba32001c673c4891216a9d07148fef0bc63adbb3a14e;
  SAdd true 0x1595a8b50a2cfe1277e37f41ef348cd8ed4087a1a2b44cb9a5556728cd35c35f 0xa703439cd6067045e5c240bb8dac6a93c4da39ee94037701fed86cbf1dab83bb 0x43eb44bbf75a7f337b5b54441a1e063ccd9bb7c50ea491c0b4f50fcc5cd4db06 (-0xd12bfcfd55be0f1524a80ffa8628ee89601615c7cff2bc4a14d15b0cbc26ed1) 0x1d1e52b87693c9cc2132d8998aa6063c74b6163e1ca9dad7ffb1468ce2d19fa 0x345a8854b02616d87e9c8c4779c082713a71eaef4403c97568a1db227ffa303;
  SDbl 0x10fac3fdd55e581d9dc85a9dea21be43a7beb4283934d2e2a27e436fc56d03a0 0x48f730de76d00ae1122be2ad44176c9215994edc4312397b91fd6cde26c0ca50 0xf60e5971526f30a93bc3a74910c59507bb994d7eae5dfc6ec8edc63d3f45e12f (-0x13ddd4eac392dc3fe0f78ab9e30912cb9026d87a72cf5d0f6e87e4bcbed7f2bb8) 0x1204e231d9d842813bc251c0220fb70744e21c965ceecbba17e6b9c0bcaadc6 0x63ce0f6acb17f7cd54552df7b48e088bd4038ad1939e4955c401d853fab9855;
  SDbl 0x36bf3d4dcb15ce9796f7d1c611fdfd70d31ba1ece1b9c0379447f58e134bf83b 0x5dcab64e79d7ff27886965dec481f6bcc561a3bd43de3d36b52936c4c5d0af8e 0xd4334a0f8792bcd25945db4eeb1f5b4b7c63812fb34bd365807c892ec2d194e9 0x2ad9be786608b95a3282ea4dee007069dbc40d97a80f839e7b9d4caa0d9c2f53 0xbb53cb96625a4d7d0b793c545ee457dbcee85789725a2781d8d63a8ee0de695 (-0x4742cf2ee9a71cb29ba65edfd292545b12249fffeaf5e5d0e2078462c00a49e);
  SDbl 0x946356089475da90cfe2a484dccf957f129c7e490fd5a2bb75720c0fddd8ae0f 0xeb391670c13cab1346d8d17aaae5bb0ca47c78d61232fd4a11163d87a608f53d 0xa058209cac0f34d4ab07fd1c6ecee5ab45d3e6ffdf553f44421afd3737e72e0 0x8ee94102cc2ad5113dcd7a2a11e0df0e477ffffb87aaf9980d7728d7933e28fb 0x56030205e937dded31e6252448038692a3f91cecb8a6ff68b01709631c01ef78 (-0x51fab0cb2245f0f1b52d202147a30922bc8a0a8d2ba373800469e048885ef0f6);
  SAdd true 0xc8a0afc942340757084791f68e988176d8726b758b791fa3779d1b09a93d866b 0x31603b8dc3193877690d38a0058adaa292461533c5f593f21a1320b58020a0f0 0x1da7a89e5a516a673ca7699a84dd5de453d9175708748c0e3d2674737da1db2a (-0x908eb8dff07fd02f84c67f1b709231a86a4e55d0c503a84a7bf7e7a7301f0cee) 0x9d3b778748f44ac49b89daa50452d411f025c2c5b2598e97f2b553fdbde3da3b 0x91a612280f054f9c53369e0f6b32b1543b2a61431cf13af3b4839ae1918bc3db;
  SDbl 0xe173b95b9ff9fe4f6d561b9250bde67b7d170463b444adb339de11aaad857eab 0x7e4a441d7756b47ada9a3a13ee045de6b26c77987616056b125e09301432c860 0xf0d1697e72bcb4ba0c6f4a46a9fed0b4606bd75f0162e0bf2085d969f843c38d 0x17a9950e8612e1febff4cb0ba880ff98ddb3fc46645ae92edfa773483bea80e1 0xc68ca023e44959c86f190821f281d1f8e0f1c3a49cddad6dca33a6af1a194407 (-0x43bc76591125d3a7f441941cd55dc12d7926d51362d54d91a05240eb8560e979);
  SDbl 0x441c1c5b6024871a66012588d1a5f87c3689408e51c717848027b4919888f874 0xd58a4393137aa820da51fad1c464139d0e0778afd8cb48ec8f6e4812a5536b41 0x1098a8e58168d3a83700f9280ca67d4d243a4216ebc1d017ebaebff18c783a84 (-0x3ac36e959f35abd422fd3fc4d14d20d25cda70d8343842aa5afcced7d717fbcb) 0x121ef226d4537f8fe3eba95fa17ab5989627aa0433cfc8153d62d6b821580771 (-0x173694856a0253e65d972ab4f01decf653def6174a92e08b26b17be5fb283bfb);
  SAdd true 0xd9dd4efc6da7e47461dd0dc60ca39bc448f1da83c817fa9e5750db5b0b2194da 0x974d922ae425be030db9e3dc87e8a2cbe4efd95b841227bbec2d3f94de6e2183 0xa9b385f1cb81ad40c46cbe11f83f9a1c8696644b4853f61f75b6f3a786ecf81f (-0x8a86326f7d4ad4f4f454da9aed15b2620b6a6712688382a8853bf33a4717de00) 0xb968ef3a2383b02243168090231aee17a21f806c29ca81c359ad1702444d37e7 0x34f73ffa887c2061cdf82736951753c69a732b3e571a5babcc62833d7a048ed7;
  SDbl 0x667643873304b2c896f748ed689a43e145b12afad1ccfe13e1a7421270bc7de9 0x54ea1f963a5e777b0fb9385cfa98fec2259b6aa47f46138c407c765684b2704d 0xd3347c5e9008b263efd7127f1b3516a771e66b8a9f2e9f8caa4c87b13272016d (-0x846df40cb37793b893a150dae680f6fc962f2f6a2577eab665584552844cd356) 0x29027472381d475a3009ef55428348ad67dfc4ef2a5ebcfb03c5a3c735695542 0x1a924b013d674f89317f13b9c69e65065b6b7cfbef805e42b5b07a9ea45b5166;
  SDbl 0xeda9a510f7b163924e1fcded2a9757faa441e19c906337c8cf1d12661d54f2d4 0x3cbe54d1e5ec54f3ac57136b4d02ad18831ab8857f0dc2d80bacd1682aa88f77 0x6a9ea8367eec28503334a03662c57cbdcf9cb2f8fbef477142e7d3d79c9dc0ff 0x133a7a9691c441359ce4a5331483c5fa873a675b38dce74aedf9fa8e893f9f4f0 0xdca38c0da217e70a8e18c45f7f5093085e3c2cc57342cc645b6a11f0ea97f081 0x16708f36880a2f8ae0cc7e6f1c603288868182375748d8d0b4f12a0ee41f4534;
  SDbl 0x99047b5de548e37812f57621575e9c4443ff3bd6c7371969f9eb6f4bff56b062 0x55f3e83f2a6ae21927b133633bc18e58ac75503fe3f0db6d6d57f0dbd2938d9f 0x303c0caa990f44f24fb669f7b789082e2feba12325e8d6405a274607304d3e6b 0x543810fc2f31fcf007ee19fa64252822b4df49ff0571c4dbf50d75ee7a4818b4 0x5b765b8aadea027bbf3a24868023cdce9089df35ec45e97f44576d81f085c709 (-0xf117618a79653617c64cddb944567fdea877f9880bd7e6947ee0e9622f43546);
  SAdd false 0x9e4973e19a645c27d08e3f8bfda99029cd562dedc945ccbd02a0ab6f16320037 0xb9b60aedbcb6e37bc6a20aebcef7af0fac5ff5589e3b23c2514d90a4e57df52a 0xb7f3e6b1328fb0c9a38ee03ce3a2ee80f76e3ea629d8df9cd8c795afbfae68cd (-0x15c13e3c9efc7f2e3c7ea012768c86cef076dd962e814f7ae547647eaf10d8a4) 0x61dec01e279126a2c80857c841528217d3ae95186a9fdf3e01ad7b8a61e1ebbf (-0x3dae70ebff1fdd35d446684f5747d4ab61a1ecdeec89c35bc2b93b22d48219eb);
  SDbl 0x3060c60671ce1eb6768a05d2d7bb31e2f7dd0b5830fe91733b1f600a78641c98 0xd308090bf7180a0eb253366b8d5349c86118e3b5da5e1a8ea323079cd6c8666e 0xebdfbe13e8f76f63daf6d2ff06ec3f1a86fa63d466131d75dca2496af1dc7d14 (-0x14ea34db8bab153dd94adce05aa2673f75425c87769a5d409a41187f468c90ac7) 0x9246ed791d50d2766e503d86b6353a53ec9392e54a20fdf930beb11c7d2b682 (-0x4c8f1fb08c9f7b10a139e7703152d3925db2d7f05cf1d6bee414c75c74e69bf);
  SDbl 0xb36da67c39ee84080b27742f72e170be1006f81c8a7930c764514c9bfc1ad15d 0x67efe38ee82a8b64f45f343e821973ba5fb3fad280ab63f15421b98715b669bc 0x975225ecbc0883592eada6a19d7c7e42e7d4e7444fefc58651b500c3b198b7b4 (-0xbf3dca5cd3a5008b095d17efb5d67dfefe22ca0191f84849c53cfd4e2fea02bf) 0x7dc285c968d4bef296add64d32a79fbf33ad547211dbfc0348803b24792a3acf 0x4b0fc12452fc941caf96726ab1396dd307b562a37c073d3358a0014eee8b161e;
  SDbl 0xd0932cdb99214700eb9ec33f5d387d4fe01caa65038d9b2fee97cac4debed7e3 0x472849dacfe9116f5f2b3c0ee734f196d2236d56f2732c76117e415360d0ef7b 0xf94a15f72eed0ba83569b7b37f276967496bce8601e8ae594f354d063cd23c47 0x77fabd49863adf494d4b60c31fd28e2aa789c6337bc40ee5bbac1a89b85d24f5 0xa9ef7d820ed3a61de3b4d37d46478b76e2d8edf5b8719730f53b5816ad3aafaa 0x1ab5053e1d9b24d99c56596b5dd8aed5e8c540e96684ce1e164424eab304f558;
  SAdd true 0x23ba52d5d0fd4db9bb1f49d9f4349c3c60a502df1aae4539578c935abd50e343 0xb954f5df27531339f54612b8416ea5bc6d4174c44d1246bf047a7b55183ad2e8 0xe90e2be4becd968fc4cb6b4e72dcb8e796925436b1559276626002850ad698de (-0x2d87540f154e4e6b6b3e5ac139f2970945b1e50446eaf2a2e6566957cde928b) 0x4fc7a42f5a31a10669c7d9b46423713d81d31887c4b205cde2bbbf5eab853a1 (-0xfef34eb4e83fe5fcacbd382c5cb9cd166d1a43b1f4f57edf697f30e47e6fe54);
  SDbl 0xf555bff097dc8e9345e96a96121e252ae99c33ef9f5e4eb0cf0a71ac41483182 0xcfba81f36876efe7e82ee35a0279eb92cdb04ceb8eeeea99e729e81cd99437de 0xb69aeae9b4c5b2647ae1360ce1e93897f825392207b2bfe598050523c564cde0 0x2c2d8a39f39561fc041045a43da731adad0f226ef46befc211f843735b4c1945 0xeb1d3e1c7377243139755be1bb801aaa0bd5313e0e01a5c45099d6972356d7aa (-0x1576af91ca8743a0e6fafe291534a1222d1c899470bb0faacb30ffd608dc3e56);
  SDbl 0x9efe00957766f9f46157219c912bde1fc471c31289ab429fc355ece5b6d79f64 0x829eaef9f3ad4c1af30419734afd49c0305c3a580af7a13e259bfcfa085a6a23 0x3776c43171132706737418fc1a609e8290c81c4cb3337b8d91fc39e2b152eeae (-0x116dbdbe3691acb757e7b05c9c9ffff006ba895f55e27fa5df8970aacba19a977) 0x62be84be0abae8e3e9637b8e83fcb65f08cbc757313323c8954cf80c6e4d7acf 0x2fe3adfe7ea2bfca2d648481887fd6c5c692efbaf1e27178fc1589641b4f3a82;
  SAdd true 0xe6ca894bb48daa6ff7f8a08aba6d6c4ec87a878d4eced71266549646db5bf650 0x5c95aa1687884e9992157382e03742193a75a5fdb2157c531a13ff95ea197fa2 0xd232eff314270b845a2a456d2edf50f9dede1f24da5826f7eaaac9d278f2aafe (-0x47fd09911f016a6ff3e02fe79c03183f3d6bc8ad7cabcda2bf299afba641e94e) 0xd0108ef1cd9a2a66e2a57a5391988a6586334c1504685270d5a355e33be2858c 0x224a31e863fc4a155cf60c9adf628dfec69246105ce49654d4b5a0639dc95b5c;
  SDbl 0xf52e05b91768768340fa417538ce4cf39cb259bf6f8b3280625d81fdd55b3f17 0x5022f4aff9f0fb64bccdec5eaf03a1c8c2e2d0cd44111ef6e2260b16a9ad958c 0x2a3b99fdc160246408eba756af9c6b4f925963ffd4a5201de0e12e152eea6e98 0x12e2d55bdbd994d998dc7f6f2a975b75b2b0421c19d1e9433b2c42ce1977aa9e5 0xead11f3b40443c59fd8ef1bda9da711a48e93a5a758f980d45d7314a4dfa40bf 0xbec047f076ec2dafbe0c2a2cc018d2057694c8cf62a2c97ea9091bfcbbda79c;
  SDbl 0xff2c7d71b85ef9740a87590e35215c2edba92ac44994ea91ecbacc869b385646 0xd983f68b15a34a4ce7ff16610b41831b1742acc9125fff051b941bbeb71da7b3 0x9c23fce9ae85774c6ad73c8461059ddf7c457d4b260b3d71bbd02af62dc7759d 0x8efd18c8abdcbbeb24516a14c61aafc1d18f1c539a408c7876544eb4eba328d 0xfe59a9a4e8367fd0dd4ff64e33ec6a5762403f557f9e0636cb910bc56ac5b7a7 (-0x88ef80d77fd95f2567c8ab70c3367623bc4dd73ec1a1c94cd5414491bb080b21);
  SDbl 0x37fd4a6bec53e6e0c4cb3beed42addd43f77d837c756d4f2a617566386551c1d 0x80de4c8452cfbd606a01e973e7fb7298be755c9306e554873eba04a8b96e6f33 0x46e88eeb9689eaf7bf6677d2cf1750f3315ca83d376c3b05e1fda64399b2eead (-0x1e62683654214b5801fb01a214ec34132a12d3296f4328471c76ef41c73f1e81a) 0xc3ed0969abe8dc1715a9a0e77ed87a7a37b16a8aac1fe5a7177cbfe1d516350 0x13634d05d22716ea83c181cbd53be527bb070f8bdf7bc23d863dffbc1df2fdca;
  SAdd false 0x95bee5146a5f13fd678a6b8af8e6444b2011d506851c991ae32388ff21a7ccd4 0xb8be70aa0ecba050573bac38d4ca149f77450df342bd485294795c1d7c1d1294 0x324b6b825880487b19ff9c45dcbd88c35364dbc6d1aa05835cc4da91a227412f (-0x2daf26102e577ab7d015bbbd64c50296d687ddef2a59c3c01dc4c1244ac76dde) 0x5797c502f2b5df587e340cb369a20f025b56c90a68583180f03da72be05d66fe (-0x20af1f64e02a6309f0a065bf08a028bb89a094f3678642231ed13ebb4c0e37d0);
  SDbl 0xf3e6812587e43bf2025bd9f4ab03c5ff0aecce05fc3f002693bf12843c9ae6d7 0x6952d1b458b77de8a96ed9eeb6a05978bf72573bad2752632a81c1dfff692208 0x6cb1504500632b325f17addeb43a3b2f79c1a23e2cf9946e2ba9e79628b8ca1 (-0x130212e837632b41dab985146c252248d561a72a641aa1224f257d9bf96f88045) 0xe85f68ba78f1b91834ce12f3a8eaa20beee51ab9736068bf9e153673a4d03e9f 0x4baaaaa53811b6ee0965838d4947e9cf06e11cad70cc4604c99ca08e1b3e003c;
  SDbl 0xb2aab6c623ca5ebbcba6e042601d5bc6bae00269e4505d4d3bce246e4353ce1a 0x12ad4ec776aa422e604b0ed8b41ed8058403edabbf9f4d00c4924da49b854405 0x4b0e54b41a2eb522f2c713291b57c7295b08fce430d567bf1f1417bec04f0440 (-0x7883a7ce25d9cf93a310f2b80af82f80ddae68bd2df97442edc0bafb73cf4bf7) 0x7cb1d803481d20c5617a3034d1676a2740a5d191cf669146ec0c69bbb38dad71 0x3c78dcce9e28f89c1524955bdec5c1d4db1c78514bd41a866f034688dd169a93;
  SAdd false 0x37e6208bc7ff2aa45ad3b3cb0469ab84e1ebddfac58cfe2fe2b1eb59cf5917e1 0x205665f435c65933f1a2d7434e79799abbb868e115c7144b4cc9f82d5e39e9d8 0xd15ee242a4f1c95f30ddab8cf6fe2d06318876f1bad78c6d312533cb98d6b8f9 0x701de92cd50a186e1c4ecfba090a444852b3ea83dc31e7b6daf6db10191c29d 0xc34b0da9b72f2006fcd3579cb12f5361253536c475291e6d3d9a749b25f6ee3 (-0x2fb9ba20a9f93b8941557d7a0a0a6075e799c071fcca8daa5a26e8607d38f54);
  SDbl 0x637bb79d048d523e1f1edc694d59c23e1cc85112ba7186db6f9f4c9098e0f1bb 0x50f11c6e99210281650dbe1d96169990947627fdb2e4608a4a127a9475077cb4 0x7ec87d3a39c0a218b920341d5f744e219fb04b57f295cbb6eab15e29a31dc97c 0x96789c92e9041375cfd91d5a1504cd5b40db5f1974398235638c7b8cd1a9a4f7 0x26a8ebcd8cc276074186a56e6f56658f476ec2b24c51bb7b8b798bd935f9b1cb (-0x12e351c37c4dc38e4a90e25189b3f0b42169b35cd7c20c0dd7d1317274201ad7);
  SDbl 0x4aa8b914013a6d6138076f9914e3caa408d58c8bbf6c491c7234cd1abda3631d 0xc0eaaf2a26784f7e9a23683ee45d3d1ee3e6cd43657b9a51ad82a223bcaaf451 0x2deb5bf077deb8106d57a8d72dca76d3bef9be41f22af09eeef88d9110b5bcd4 (-0x2d3b7b768c75d6cfde8d536b305162b5f358dc170688a1f1905f939e6b8f26b) 0x15c5fa33168b49757dc23c18786f69355dc4a2c7e9de3a556b785ac8776c7c70 (-0x20a7f126bdaa76735a3a390cccbf93f9b548e2c37f8ac15927f004ffe56f35e7);
  SAdd true 0xbd3aea6265eb8e2f26a9fb22cfd8a2fb7dc5afed8832ab6ad711c6cce2680475 0x622e5655145a84035259ee107ddd4cfc66d8282a542bdef60c026f9eaad108bd 0xa4bbfcd237021356800b0301224e4f2152c88fbb179debeaa535467d72f72da1 (-0x6912c57d8e1dcd8eed510fd93a46d7092776631202c54c32d40b04f2093d5a22) 0x8be00ba4e18c1277bedb5a06d8d2c7478b147a386c03bf21886d6eb167a4945c 0x4606dafe47b133a818ec8993c82014e7f9e50a8ce9552ad30d4ad4859745efd1;
  SDbl 0xfa6df91c7832286e9c87e6419928cbdb7bdb9c9baa535d3c5aa070a3b388d916 0x9bd8679d5684d81b9e0d17637136e0c9b2830e64d853f8689a10c8bb7782e8a6 0xe4f7570add010c9742e7aefdf4499414f05251916029f3d715225aeb237bf111 0xd1562b062f986d62a31c09e3c8e346136b10514b726a01d54ef156d66bcc48ec 0xf4faf9caa463b075325d7e55855ae12f775333167fca5ac802754d38a9aeac3c (-0x3868da66f9468d3ba6224d505e141e5f2ad27d88470a89f1699ead312caf2248);
  SDbl 0x73e9f3a12ef8d278994bc12deca1319733d94d89ab236dc0ef40ef2a125396ef 0x6b85fa4e5b1e703741daa1fbced3cc08d41728760eaefb78f630e3b62d5f222f 0x2604036938777c6c69c163d90da981ad1773a440922ebc2f6778cace17ac397a (-0x4d4696f8d535d218bf63ded289e5bca8f892ab2209fa85c69985eb3be4e226d5) 0x347c06b067f279605e5ba107b65dac82a0d93315c9d02d645842d03c486e005a 0x15e1301cb8297f83a35eb7607ec9ab535ae20082f0177377678e064456e32772;
  SDbl 0x320f7523d25a9c1ddb4f9bf3f338d182389da11ec97f9cd5f3992852f6ed2029 0x49e58b705092bef2200bb468febbb6b4d8b6ba3cae2d9b50e0617eec8367deeb 0x663f0664faf733a4ed8da5b688a63dc8b5ce2d3153952f2a098e331619260f68 (-0x789da77b488385da971fa9426585be6883c1695570f1307903eea2d6cb155b34) 0x9ca0ab0f7c1d994f13f68a85f2af2c89021a88162fa98354d9f46a18231dcb8 0x6935d70eae16947e5e781a761cf013be895045d45528cfc1ad6840471dc02fe;
  SAdd true 0x30780accfbe834bb9c03653dca4efd349840c524ff0fd0fbac5ff9bb9896de4d 0x22bc8690a213f1d01d031299186cefb5c049381c750b907beb72565f13eba0a5 0x64eaa9d187736395f4bd3bfa0e01cfce1d1f0b56fe38885530b975033ddafdc9 (-0x46101de53361e1020481ad50a3500f6f3508d494b54c784045dda788889f9f4) 0x92d3c570845219f68bc87fdeab02ed4f6a396c7f6fa0ae0043a0b72175a512e 0x76a0dcb3664fbc68294ca32901ab8bf07dfc18d9887eaa2ffcf23f9039d9e23;
  SDbl 0xd33eace47caf41959154253bbde86dce89e8a48935092c0f30e997f406a6c0c1 0xf0b46bbd9b759e4727e15f7a262a8a3acb80b56b7721c61ef3392a675ca2ff8e 0x57dfcfcdc1e1886872ea6ad48af7011ad4c46e5662d51dfb11c5d7c0d013c3f8 0x9868622cb50681c485655a445f4f0eac40d123d7189f3a092af80ed227a9d5f6 0xae50605987497ed3ae54a62dc24fe1ac044438c44601bb87255c7b95ed0c2f57 (-0xa9f5bf089f790dadf710321d2fdeada673f734b9cda2b98088ae4a3e978df096);
  SDbl 0xf59890f623684b7b805c3a8f81b271739496ad14dd9e09659d642fb19aa1eab8 0x86616746d4d1452d2ef46751fce8333cbcc9eadb5b630ac89a1e20fdb17b6361 0xcf4ebd2ae6e7ea4f4faf532eb7a615cdf55c2765caf1d7c5ecf8b1e7d6668b5e (-0x1fe5d3a783b194130a6bc51c1e70d65083a4a9a995b7fff1e3f68cbf2a01e7c37) 0xeb9d606481c2e135ee5d87b5c9dc32373576016b4d10d5afcb531e8df81c7e3d 0x6600d0c5a59fd02f673d8df56bc87310505afe8f0ff0c01489a7794a22f3ecfe;
  SDbl 0x83a376324a6b93ef4b88552e031c508658a41b815189119b3f7339447b1a9ca0 0x78b821627725838d460f6022271fb5942f879407e2bdb039d7edf66b1b94c59a 0xd1e822366e490eec3c300bb7d665de80829417696a0828cb3017a8d8f7108af3 0x194fbc41bce49bafba1a5199cc6ccf7399905570f1183581bbaae12ba3dbac0 0x43b0b3577677f839148870d92b47b7cb054de1577487c04419552e208e38285c 0x70657da189c75ebde1f85b3e643c91c0f4541fc3800f960a0532cb3f1f935f1;
  SAdd true 0xd99ab27c68c7c9436dcd2cec1bd14c13be538f717c3a9be0021c093aa845c2a2 0xb6d26ef8b217bed04db3631170f8517129fde478838fe6152ee49d8a0405125e 0x729d5226f9fca106cef386c5398ffe8bdc0651c036e85e379e25530d8c6706 (-0x3b75a1e1df71dcc5cc3b772f775e2f8367f0077985746a44c21689a1c9f48ecd) 0xb8f7a012dcb9a1d0d24f4048250bc425acb982d587542558c6d5a19f33985e3b (-0x34c9d2e3b13bcd627dbc3248a3a0f9211dd80d3e2df22e6bc81c63127951f1ff);
  SDbl 0x3863fe0fa5a5c7264f2d359271a7514d25bb05c6bedf9566fa7dc652da6e1254 0xeb3b5dd93fb5738083715e81dd486ae977b66e44c53b6902aa019a7e25733afc 0xc3d7e21454f91b32f4a14b0e021fd3be4c2ef22119334b6f66de8e75d2b1bad9 (-0x1877d29f002bdb49c0de9cc68804fe500bb82d056b4d7c19e4c28725168d06467) 0xc6be63561219937f733174c2a29ff21dbc251ed3fc7b668248581375bfd7428 (-0xb8b6cd8dc6f0e652955642a45edd19cf01e34299b24189452ffbf3a68dd6e49);
  SDbl 0xc944874eefcda717f9f800bb66df6b1a2aa36a650fd225906b11b34ed6e6ceab 0x19d723c0875f07841189a9147fc3ba5343b670a1814eeb753c2010e120f2aef7 0x87a4d50375fd7cb2ff0352ff410eb845646697d76efbf7624a00c886154ed050 (-0x15480497a93e333e9789807a60cce6d62f2cbf07359da7b5eb573b587601361b9) 0x9e3caed2bc415db90fb45a136ce7a29542aeb2c1c5dc7997bd5d820b85bd7eb6 0xa49fbee9e73e15912143463dc950ea8e6c7117691a581838453f686a7af8fdd2;
  SAdd true 0xd7c665a2c422f5d7a621fc77d1709941909ad7efa73ae26f18f54daef3b823a2 0xdd1fdb3613b89ec36ee494191d052170097466deaa6793113062d31e225c374 0xfb94fa85f088eeacf426bd74f2970a1b31de09099fce92f0f159826eb49ce1ad 0x1502d0df11af179f2d4bb0c08b6656070b364ad497ba49946909b2d68b9082b0 0xb5ded8797b72cdbe6695bb9fb5b58f64e220955c3ac5fb6a30a5874b6c8f34ae 0xa21a3b62fcfcb5e2b5a76f7221da30e58d3e801445500efb1c81f9868e3c017;
  SDbl 0xacbf61d08fab140c42543df1b8b8f86dc2a8c1f018a9ed05d9da70951df0f6e5 0xc9fd43e066434f4ca14f2e5599750fb2446677cbbea33f20987423b3e7358036 0x4b584152d4e1866ff1855ac42ddbde8ec6794fcdad596e2688b82e1dd23aea85 0x1514b59269c1eff238491e8a538484e179b34fadec44127ae691e8561b5818a2b 0x7491ba83d035b5859f74535ffa4100b0c481a8d386d056d250743cc5ee041e45 (-0x7ef9bf55cc4bb81248f3acb0f67940d7be879285feb1db99a746983ae2d1ee44);
  SDbl 0x92357a9fda4977032b9f0c4d8669fe2fbd23d3362d5f7ee3f6246d4b26a7d62b 0x111d1f52a9bd1756827db73de5327aeb1f073f3038cdd53fbf105a246d90e29a 0xf55739383f2289525097f3b059cff5b7f77f5bd1fbfb162faa895c63b1634f1b (-0x1880ee8369eed096fe94b3942ce046eb74ab21f2d46f3f2088508d3af35b10285) 0x53810b0aa969f914754d82423f70f0bee89db927de51a342775244bc58b5f7cd 0x699673cf12b93460ae5cf8acf7d6e5280d92ba8ea6ec867eb0145d3c8073586c;
  SDbl 0x3db8304c211f33810cad4412cab0e44a8a23e2053875f9dfb7f2393755a3c7cc 0x88721eca3cee1279d27a057ae2fc4fce5be8701588146499ac9c0cbf0e8cf06f 0x982cd20a9a828a027585b657e818c7feb675f2919f5b412d9b6b0fbf1a000a08 0x72ddf6cedd3a74572413925cc0bab0ca9956249b1ddb14922c6a0b90c7d8c0e1 0xee14b89cd3669feb8e33df6d1c8c9d35695743a5d574b5fed0de3ea67f7eb13 (-0x1cc51c7aa55c56dae284915a2db98b0397d2bda8dfdb8e6ebb6576a975620e21);
  SDbl 0x56056465c2e7b00ccd543b7d4c0de46a0026b8fcb7fa5f9627a5abbd4d20f959 0xeefcee691f21b497a076cd2a6f52c5c88560ab8f07613eb0501af477ef1a7fe4 0xa1826846895369e02fb58936d7f9b1438122712fd232582ce236a51c7fb10eb8 (-0x73e7d488122e6a3ad9e01a6d437bf6cb697226f645759068b36408bd7be19930) 0x1ce79f918f348f9f6a680fe856b705585224457ab25bfbe9178f204d39161fd1 (-0x2274caac8c7c874c733e2c94d7c82d1132a8af002b3fd7a10877333b84ef3a93);
  SAdd true 0x831d03ef2f6220d1a3d08692c1a38936472541e39a949a777b4fe0d9edf36767 0xf46bb36db426a1793ac5d8b97f00c71479326d44b86ad40d9350fa4fdcb2a0ab 0x96c9ca8f330c9468b5dae87b98478922522f11fbaa16d9026e16f75d6b5d2b42 (-0x60661e23626e7ad2e7f09752d2d2017feaf0f9f114f8ce8cd0a132268290fa6d) 0x4326b550f1e559b8bdcf3fa24e9c455e46b3ed1c018cbf3c506e12d0d1cb89e5 (-0x2c84c730c491b8510d427dd0954924148b7e804d57da56438a4e29eefa784f5);
  SDbl 0x217b427a631290264eba5f9ea9f1034608b94c6c2142e4a7470630fde0e53acc 0xfdba916b26ff977a6e7d569a38b6854993d6cd865eed274ea5c88c53a59cfe07 0x7394539daa3db2910d276046816c7f8d88dc33300e2f199d583926beca7742f (-0x294a7379a9b0892b77b7041957d9fdff4d3cfbeaf30cef72cc59bff6508444288) 0x461027c84ca551510428ac534ed4487f4bdf23523480496a225d59420892ccd (-0x137a5ed1e371ae883f3743b50cd4371d2ca00c6479a8e0fcb90f06b70c6233f);
  SDbl 0x97a5b2fcaf76835be01808accfc3060f201ac0450c1b07e6d253ca308149817f 0xca61efd8e227670d2d4e44b2ca4657af3188b5700479f069afa1d2572169313c 0xf1d6965eaef66c76954c01bd785c77adbc0a7f1494783a7cbbdfc5fe1f81fe77 (-0x2e9dff89bcea05d91a47fb3c31db2dc844d7d43f4f03bd398cba122fc623cf812) 0x59d4e466a7b13f8d16be17bbb675f9c18bb3247b37d389c4e9a0c5c152b3f049 0x1e6a8353d71482bbd40b18e770e6dc46ed22bd1ad5b564cf13b5747eab618ef1;
  SAdd false 0xce13765a3849a66636bc8e8aadc0f7afcc2c14406868db34dabd67914a7a8b2b 0xcd6e93b34df4a110c3b1b413fb4765a97b24ccabc5704dc340f8936fba6fd277 0x9fa578b539951aea9423ff0124b1c44cd9764c41e7cd30ab88d3835442034b7b (-0x7a0c119d49b878168bd1814010db52432b611dcdd3884ac49bd3e89205d2c071) 0xa5e353f4a095825f5968a0150c0378baf6a3faf986b7037c97fd577c4281bf41 (-0x2746732d50d79057007294b0a3175b0b516fb0d6d20693076be05466cb49825);
  SDbl 0xcae6602a91cc041807251880588f2cb4a04df19986b372472cb549dfc95b2136 0x53459e0bbe19a2b840a223a93f896c75052b364a7b084e695a1df845d5cf6d51 0x66289b5c8dffa565d13b7234ce3350e8c13ea4e6cecd0a5e0a0d5e10a9533dbd (-0xf17e612e24c8c074fe83ba416cbef123d6a936c106c3915120534e1c2d9f33f4) 0xa0d05f14bf84448f3303c259ae654e0e713d7b4297450e18f19e3c79ddfc1adb 0x60d24086f949fd24d2a1159c069093eb1dcc4753b1cf14f7b5ef998d39f54d34;
  SDbl 0x439242b72c1114bc65631d535cbdd256f74c5a8efff9606506caa8e97f7ea724 0x9abf8f375f33c214dda2e49caa4e6c6b1eec08772584b7d4de112d3682404527 0xb05ccc1535df2f97ba086f45977fae102e4eda9382dc7b7061b8876c190d2804 (-0x1b54a95be59c3be0219d593e16dad66c02c4a79dea190f757815d3e840fdb848) 0x11d5e27c1d380c9b37e03ce6e1e1ce3fe5a06e8c37a724f38e12b5bb814f22b9 (-0x12ddc04a9d8fd77547845d505f84e2f9c84de776beab53709747ebc9fba0a627);
  SDbl 0x6a011088df2cc0503a5b040952be1bd258c0e99f786f5c0b019631c4e1140d09 0x1d5e192a49494810f155e8ab3c4c6ddf05da2eedb7b1c09b8f2bc5af87cf547 0xfe6e53dcfe420a8cdcb216cb0ae4e1a7731de499367aae9016118d0a9cc6f26b (-0x8692c66e180c6ccbd4d4e002b478f2d6932aa108951986f9392dae339b131478) 0x2be4e1b2a6d9146211f243d7a576dd9c69acb11fe263a90502f36e8420eb9544 0x3f5164b07e88dca77c0a927994343e044ed41210c6b2cb224fae82c9d567eb8f;
  SDbl 0x9253c369f3ffce236e8d9531a6a9c46f5d09dcac4bbf6cb0130518fee9d66c36 0x87cee200b97fadc977cfdf6e46e7b81b643cf19d1aa07de5641d1a7a5d785168 0xefe0eac611eca0fd9cb236c75be0bcc7490091e189cddf218a746486da39f09b 0x122d23c4567316d625ebcfe6f06f151c3acdf6f11c2810275f2ad6f7235fe5fec 0x53a3a64d79d23adf53561d4aa983ec2f2a3f4ad25a313c2d8885b374ea6ca092 (-0x4c93d83e5658f64951fd8834522273e1cf9cc196b96306a42200437e2485c204);
  SDbl 0xd05f3b9fa0332503e604f74a22026c57d6ed53ae059b0a72d43153c1e066f617 0xbad62ac33470c29205bf0ce1f2462cde7a09b3b89e8fea725d3bb20b312e2fcf 0xb581d1203139cca1b6cce6340d9dfbbb6c0da2c5a694eb1de672dcc16583ccbb 0xae5c6985cf54ba9dce49f30b6902342694d83656bddab3b6f4863de265d1cee3 0xa99ae4515c49ddcd21ce66afcaace9f22265e2a864fad0f7f5219640a53a9c8e (-0x2988e6b4acd2297c221ff549b362d20ef4d7f233c885d99e39d1678c3a2a4d69);
  SAdd true 0xf89fbe118323f105e10dd5debfb50a20852fad6c95ac0c65c0fe239d312aebdc 0x4eb06cce2ba26ea65e682aa72a7d7f824b4733e5e187906ef958c69a31f01c48 0x9b38db2fa164e81412c1b2eeaffd41b5dd540d8ca6918349dbbbfb85ac4bd294 (-0x8425d8958bfe16543318f927c96a4f295a4847f131d499716e616e5aa84cc93b) 0xf175e3f0866a6d6d577b558cd1c50cbda97742343f2d980baac9d4da20ed1bce 0x69080bc22da45e32aebf219db74d20e6fdcc37ea860c611ab5f79826b163ea4b;
  SDbl 0xbe0f45f1e5f723ccd13f8128ed9014822d1702da2b8ccefab124ebdb2c56d2ce 0xd42adcb5d9ad159a95298cd91b730435df4bf32e918758478807b990416e2a69 0xb574c9df92089d27b6de23cf06db92fc98d940ff5fef0349bb71d4427c8d7049 0x9deaf72cba30b08d98ef3ca45f26c04a0e621cbcb48d5a15476da99fc36dc68d 0x8d1aacbce3eac3611fb7719bc0ef70c25301a6a67d7e550a09887067854fc535 (-0x6318d5b3052c1d26845636e56a07ef3cdf095b3ceffae7ba65f795808d0a4c95);
  SDbl 0x7b4b9fc2af939cf95ce7042aea7969eb46837b95dda0e7b196d3f319b6ef6a9a 0xa608faf700a7da25161ab85fb824194c77ead11c609b4462f17ad5d5d4ef20f5 0xa55bf8536557aaf570c6c92c50daa37d78b42768a1c0d4b6fd20336c64595137 (-0x160bb9f4a402ca1f909cf0f3664dff5bcfcacf6d9d39dd67fca00d3ef0dadaea4) 0x3b61c1dc4fdfe559da6523c9e1d0382517113716b7f43dab0dd1cf6727db9123 0x1637e82e0bed5ec24d7ea01fa82a267d81dc1740654048ccbc5b34f6b74509b8;
  SAdd false 0x4f1982d2cf16c42eab8fbef24dbcb039823f1f18b40bf8d296ec9be15171abe0 0x5b2c477ce3350627ac5c2256a823ccfe408487e071ef9ce53de3025840027662 0xabfa74ff4b436a3d50a7abc2d08e265cd7329cb829b246f51b2d124a4e7be06f (-0x239d9045d94d03ea6ce2d1403e2499746b59ee403443d3d2f584f395dfebdf98) 0x1870c149044808bbab6758c1c047cb91b8d3390fab7ffbd851dd9cba5919081e 0x1721913205e33b6a2ea889adf8af2ea3cf7972eaa5c3d18ee1d4cab77fecc006;
  SDbl 0xe503e0eb19aa60d048227dd5aac5bb8e2a90eb3fc103736a63403f4bb589c47b 0xcb661b4e1ce2fe1e8bae578faf3ad1750c951fd269ff2244f3493a127bd48b63 0x491022e2312d5182e6cb6749269b2323cfa8318c00369bc663c0f68fb1570d85 0xd249c3f028b49ae58db95ec3b53fdefab75f02778c97d79c75a7c932e951d5df 0xccdff07473e9a079a4a5fb570e0a189960a7125607dc5caa61657ab72b66e50e (-0x64656dc1b21e93aab10e9b0d04997b74fb133d5dcbe11e85ba5da84c779f3691);
  SDbl 0xcfb43a330b13ca06f4bf1655b33a5c844b5ba71fe3edd4c3efb7dadbbb6fccc0 0xa2aa8da61459f44c3a8841d1afc34a48855d11dcb0414b02570446ff3b854051 0x405eaba5db568493a074874f38fe0a2f81302456a6fb005dc08eae31f25a70b9 (-0x16e424fc517008c97ea8a43b9d2a4e23cd0f733e45bd7855a0ffc49fbe9e046a8) 0xa884f5011971b4bed4ef4225250d23e7ac72de9bc8ffb8295fdae4b080ebc717 0x210c54ad3751a388c34ab1f22c7e13225cf3e9625ad5623b87f2a4748598d8be;
  SAdd false 0x3678f32bdc2df0dfd71924a556fc8da1610393158e56f8e061c7031bf250e60a 0x83ce6965917e1343e9304a8a1a83f921fa054103bd01e038d8bff49adf6453d2 0xbc748b56b430e9e9a14e00140c3fe26de92288b15b47a0df7c340f487e780813 (-0x17cf5b2ef1b0d7b87adb1ad86e213abd9ff232f3a9ccfddffa2b6f61ab5e71f6) 0xb973fbb6c9557ee994476c1fe060ed02ed837febbcda34e81c0b28bd1401086 0x6910426e056c89ffc6918e7997ce44488f8ff2b653698883da6028a4d5f21d6;
  SDbl 0xe8e603dbdea5d865fe9a1a29a2c60922d32931dfe846f5b354e4dd4cdf10ee4b 0x2c673577d3b8c846d24b770ab772d3e1e87a7624a314cfa9e8598cdb3f4f2218 0x517b21dcd38693084d42edb84b207b1a2c647401e104b5be2bdfa72f3e4bd55d 0x8b4f30c34ae764e52ab6c6cb207ea73386b59364d44abb3eb8fd0808f4cd79a7 0xd3e1b5aa469143f28fc4c17fd1dba9415d248f8ccc95c23a7c67fb43ace83fc3 0x4f840f19b200ae599f0c3c075046d0a0765b26664561361479525da400b35ff2;
  SDbl 0xfe0c9975f6359bd742cd5eff7633910c612ed79e7a2ab85d97b0fbc9812b6b9d 0x635d2fe04f628a009cdcb86fa6e554cad0514036fca9bc5c4d65f262fa702c46 0x481c60940d72df3bcdc833a1bc95f093e5e5f1263ad663d54fdc982c3ceab979 0x8a9d707669b5d2edd396831e389875db28dc893f00021bc83efe8e586971b4ab 0xfc1d0125cfbcae12a28d4d2e9eb7a226bb9c93fb130db73cb3d767bdeb13d22d (-0x368ac2edf412c1c4bd22c04b3fc98b546bf52f466fb33b04769594640e8af8f4);
  SAdd true 0x33bc87498be87873e48eebef764e509112dfc353564cdc81711168e578dad87 0x662dff6c3cfe05cf48e6a791d45471c0fb1537373b441ed7881d7d788a3e69c 0xa824d0a21855f0242658a1b34444e88debca2609443082431f54a542ca757dd9 (-0x9d22b8492361f4553f62ea0734e3265f4545fed207f7ce08628e61bae731e0) 0xa74a8be53b76cddb11543d91d35aa501f9854f96d9f825062bfa5580aca78 0x12ca56e0ff70588ff9c88f16c0a992e5ca851c33e5115086ee7a883d4f198ac;
  SDbl 0xed0beaa3856d58985106a1271caf042337c96609494f8209943915f17c0bbd70 0x29b229f98ea6f96d0d2354f16c4ff3eeae0094e6ef3f78556d852838a3f0ce9f 0x232a5c92667ccd2b5075afd22676cc79e0ae82f8985fe6a8135c7a18235e6b28 0x136e977a1f754130b80625f89a845862d8ee4b0e2c2704e788ff6d20003e7854d 0xdb7f1101a1a856d05985a69ebf99d8fd89c6edb6c8e0a2becb5e6af9616a0ad7 (-0x20b20c49ec23d959e4b8760767fbe764e124354a1cc26b4d4504ee7eed1b5eaf);
  SDbl 0x6661dc36b5fb19d0d634c1a01c133839ea543e9c7adbd5bbe54d3247c16833b5 0xf0f1c3916896d09141586b4bca184dafa780a2ed1bd7cb45ff2d95010b84af82 0x114dfd3eeeedcb1564c3794248c0c9747b63c7aefc9acffd5a87c2b4842378ee 0x7c0fc0dae7e6de95a4fcccbcc8f42198b3b6e631d2ee37615b56ee49df75db0 0x28f220e460da3639377971918540023057105e8ebd37cd6f5f383aab5be4aec7 (-0x4faf81b1401af1a7fc787a1fd4326ce115af9cda17f58ff471a3a74c27eae26b);
  SAdd true 0xcbafee7b5dea3b894f612dbae689f548290d23f7358c78b4f66cbde45e4b4d14 0x87508ebe33ffa91b3486d4df6e08ab9a6c42bbdaca21b78684591e232ca096af 0x5207561d27d4989aabae1681c828e09335529e1b7c2c6227b5fd5843c5f810d8 (-0x975071f31825e0d30981340aa9bd9342289d71013ffc6fd2dc69f2d3b611b2b2) 0xa2107d2033d5fbdc45b12c5cd5caeb5aeb13a9dee019d5573354c24c7a84b168 0x540b6c7db1712e96e4f99fae3deffbfbe8809d9c3e3df20920d524bb8501224a;
  SDbl 0x63c98d07ca6347d23f6e0e4c4e2164c6ebbfb57537422bc10fc6f9214b441322 0xf050ed5d3bfa788ac77ade8f6b24d7c3a897fa3a61e6c70a56b61de9e2febe1c 0x8d47152030ff0c1884dca858fcc7e96ddfc205298cb11afa481a5a5771af0312 (-0x969f5932210171b0c7f0dcb6aefd310f5a4b19c02cf453b32f2f1d9258cfe680) 0x26e581c2f15bb064651ec57cfe0129a6ce12895b0d8d9b7edfea521c24c1daf6 (-0x28edcfba5a0442e124eb16dfb6fe2845ad3ae39aae464a6a0a9274db2af6989c);
  SDbl 0x9b7c10feacb828e88831c37f8db6d9ea53c99b897afaf939cfa96d7f4b57207d 0xf153d83cb16c51694d85eff549f6b9c2e7e56f06f00d9baa93b08a2c82c7d43e 0x44802d7c393506faa72e4f2b16e399b8ab47eb2ecb830aa4c56331feb4542297 (-0x1f92a80baa0c41bfd74982fd360fae8f40fb90a53622c619626c6c20fb1b0c667) 0x5e6f78b53b6e9f98a8b50c7248e1c84e54f755f766a9567b2dc9ed49f1afd36d (-0x9d41b04137c4420012e5d1cb88a42f52a7e89133668e21919e9778367acbbd);
  SDbl 0xe93db749e6fc832fe4ea3dea8629cfa525d4c55586551776c98ef96cde04b23e 0xf6aae3f58bf29f78bec3c941b2ce2d2ad5efdcb9f7f99d79e9f1d428be50092a 0x2e294ebae5470d1da28005f9d50add807bd41a190ca0c20c911f9cdf8aab4f2a (-0x22daa8fd22ec42cdb0b6242d57c32e55acd8851a810f8f800195acf9b7082801b) 0xd4816686376bdf3c7aed5af6efdfa417b3059c729ff426fcc14bc2f82dd56aa2 (-0x4dd833bd2d2c728f5b8486c549cc628a49eed00b3e12ad43cd2f9112587a517);
  SAdd true 0x8ea04e87816cc3fe02bdaea9ce7eb2f8b13be912890835b6df93c1687fb96c3b 0x6f9f5b58b51d81b078419963d5ecdc34e54fa592d60d9735e51c3132f2fe33eb 0xbeaae91a4a5721849c825df34de70e89241ea33c18ec647599961d9442c9e994 (-0x6d245dcf9b3cccf1f7b026eea16d6afdf8c2c860155584e9fdb91524847967b9) 0x4f763b80e483877bb6a5ada8d99c79ca5daf81a0753356318f13e544bf92dc43 0x4b3cf669ab6876640b85a84c58f827ef7f3d51c3f7dfd71c9a0bd282101b7f39;
  SDbl 0xbcadd458c6d490bf1d0132a91b809dc8b14208b2a4c390c4b92a219549f56ff2 0xdcfe80e0a3daa00f47efaf362876c35dc20a1e25316c9c24d9d6d4c484a84721 0xcf1ca0dcb7a8ae96c350f66be47ad24d4b6f7077e7c8ed69319782dc274cf8eb 0x870b3870effa3a0bc12adcebd39e75a595303ddd38640836ae85f2ed3afe7958 0x8b0fc5eb9f37dde9506c5fc5c558d0d0db63de42074c39beb0b89e4ef07cee33 (-0x509c239539873bc870fc1c1b8e701ecb900e3866f8f7a8b1014a961e5c208a75);
  SDbl 0xd49177ffacb307d845891b21d5e73abd0da1fcdf76ff5dd98f4ec4494522df4c 0x7ce9a855c9940c38e75bbc085d8baee950c4307fee64ed2df883faba153a1f9b 0xfe985ceb348459bb168c1aa1228304e56e1b360d3ad1bafa9fd50c871db03b8b (-0xe460748d12f62ab2d3bb369928b3c23f13644e507e12a4386bac5c57d68f3ec8) 0xb08141694e6b1b1e570ab69db22286d0c89fb795e1ac305fcb6619cc13952f4d 0x4fc7dc2b996d615b8a34237ae2eb516db81a3efe13425135f9f962bade0fbeae;
  SAdd false 0x38f23c2e27b34b8136b175f47f3ae9d9280bd2a96fdead0c56f326f12396d5e9 0x3ea06c6191f6449ce4005294cbdb8c31123018a0ead6ff17bddba489a36acf38 0x905b5b3b8d14279793c4db76858c32f6535f2575ccc94d3039b3e957b80b8416 (-0x107e3f1bb1f27ca8fbf223ba810114e878e14edfc99747a4b91f80c2ca3f4d38) 0xcaadf8a13720a7bb1a6e8408e43bed29d75d18668cd7410b4f160bdd627d589 0xddaf4fc8bc0d66e5c1cbfccddb2c20187cce036eb0ffe4dcc97ce6c1f273686;
  SDbl 0xfea5041c2a8083b36ec45b266a6a5cb8b31772d352fd4549977d8c3ad1985c28 0x9305fb835133f39e420fb0a468f38cfa1f53efb05faaae1bffff15d02bc525a7 0xb736330c380bc1ae07e03b2e36d41b51ec7b954dbb247e239a359f40e9c87c7f 0xf139185c97110dee145a75f2fcaf0cf6ef473f9ed18ab87b920ef22225a9bddd 0xfd4bde872e0291f65a65d6654a6b8a9ebb326b10b421bd0f0336bb9c91edfdd7 (-0x53f32ad3efcdd795328356c0b470d6aafd9ee4a5eb100f7f49b56c07a8169a13);
  SDbl 0x6036efb742b8499f6dcb318562a2205fe55f70014ac49342b8a081e41b5e8b08 0x8bc50ac5d8ad06ad5ab27ae57d93e51bc1d76172e35a7fc62d9be91664cf6dc8 0xbd0776005909afcfc2141944ff34e2440936e30336100d3ed565be7f5ac07e31 (-0x739854b20a9327f4fad6585189f974ed6d76e3d3aa4317b98e72f419534e9920) 0x24293f9397fb4e4ec7ea80bc341879ceef27ca998e9b37d4d8274a38a6f808d6 0x2b9e8c4a9f4dfe0058a4969e33976c3fc213faa9855131dc726feb0992326b8;
  SAdd true 0x914de6afbc42bb51083c9fa68cb033c05738e56fcb6e94d4845e9cfb3a78e2f3 0xc220c55f2fc8bd2831a5de3668444213c63afe630f5bd089f2e1119db811a02c 0x434712cddd1d7e6c6242c99e40c6e63c894f68e4d398b6d02913b3361ae0a5c7 (-0x328449c28ac28ad322e29d3caaf75c8db98d5e707a58228e38ea0514a7e94f9e) 0x52795707fb546e494babd7b655ee644408b73639c5c4512b44630fcfa72b9012 (-0x1eda7f43d3a4407fa9cf7794e62f42d99d7d56ad3975e6f301793fd7cb2cbf1c);
  SDbl 0x9869fd5bd35c2f5105006155eed2dcd5de9b304fb5380427ff18bb8549623ac0 0x84d73c3fd751dd1ce2c32e18f0df7fb47ac775f4e4fa6fa120fdba60b71aa94c 0x2b2a7d74481866ba6ab5b71cdcf3222ecae7c7c5727cf8212da61944465a73b1 (-0x16984f237647422f8e8043e9f6350bafb156f6d6886ff1cea26ae125cc845bfd3) 0x5abe08bf35cd834263c4efd62fbf5e65cd776694c62511c8abd126e99ec259a4 0x247d093ba7204d5c33188268b3cec245d6d5ccc2d2722fc0742fdf3152533178;
  SDbl 0x6889d25c913cd43cd9dc4af74cc6d66e0cf5b17a5c6aa110db5b08580433abd0 0x4eae78e18710e1e77bc4e50bac9d9efcf43c3dba0f3faf680a1a4f787d6ee33d 0xd0fd5decdcc59c6f4b8e1126823fc84a4c9b555e87de7bc074b48af8db7fc549 (-0xab8b00ef438ca906502168631ab1cbbf5d0073f1b0ec3dd7c2c01cd257e029f3) 0x2ab0451e34a1246b5117a72798c38162e984d8c589cf1e4727e0fd6d8374acd5 0x161db7aff9d4995b17aac55edf0b725470a5a444909609f5c66eef8fd80047ca;
  SDbl 0xf63f99ea3583bcc4d2e3cc8984bf62ccb74e253acdd0020cfc562e1a4ae439b8 0xcc8aea9f0b08f90cc1e44abcd86ec0b608ea342b2497d0de67f76f8385a791fa 0x4eeb00eaffcc6ec2f76bab325c96fd0c3db20be1bae2a41942321c0beecc6582 0x149826ed00f5568486d3047ad73f8ad059bc6e9a14f34b3773cacbb70e0d59aa8 0xecde4b9c29879b7aaf5d608bb50ea999acbf3192b023b20c2389783f43c1e434 (-0x79111a38794e9dc6fbc1754b81a5b3b43263ae202306a5d4172e72086bba285d);
  SAdd true 0x92336ce49b44ddc151de0b358d0cd444eb812c8a2ea4d2ccc2b29d2f3c24b301 0xa498dc62fce1af88833f9bd3cc6e027ce1215f00eed309aded0c13ab5845523f 0xb58376c7aa4516fdbc72b90346522140c9afe805a21d29f48bfc18dad9f6544f (-0x57d1f260e0983bd7a135cc93cd599eaefda4d5ade5c03e94dec22491b6a0aeaf) 0x537eb289a600cc118e5b43ceef7af84ee91a7ddf76cab1022dcf9b2ec3c6f2ff 0x16d01254f6a99d0f7acfa36ec9fa0acb68863ab6873cc53b90dbe63d1e84b916;
  SDbl 0xadf381ce2e961b1ad8e9a2850f3312e593cacf5fcd3d24124293780235452c36 0xc0701596207ddc6b254de162c620c6c58c4ce139055010af34970ba81cb21610 0x3d2af21c2955ef92eb65537d242e2bb0062f61fd4a554847f4f0f76d5b3fdaf0 (-0x46cfa2bfe21fbdda6682df4f5afd4a0176527eb35ecabc628d41b5be885576d4) 0x76330510d067c7acd7ea50713124af2b9ee57d3fc94bf16ab70e2b27947e1f2a (-0x12eaed10cd9a10123d5ffd0078213d9536692eabe993fa6281b139269ddb96ab);
  SDbl 0xa272244fc17d3c6e5b2d50fe5e55d1fef3597a538dc003ff1ba7d0d2d8be2346 0x2482a8260b3cc6119a4d6d98f63ab781c6a84b3242f3ffb67cbf1103dff8f406 0x8cc8ef750679878376ea26f69c86dd2e0b815fc23c4b63512e24f509320df3ad (-0x164580e582fa41e18671ecd4fff350e7f26692046fa93bdc1e03a4b9cc8951843) 0x6714a8d9b4260423685cfb24f6906d9161ad54bd0a68ef42d3d420bd9898e902 0x62f1c51a03d13c0d24d6a67263e6a9cbe7c6bed9775b452c3f959cecef9b21e1;
  SDbl 0x8eb2a445080a82f5c2c70fa20b223575e2ed24e5f2484f18e6234fe5d53cc4c3 0xa90aa1ebce7faae200292ddd94bf5a358e460c107de33c1185f11cca485ec093 0xff90f68b96a1669185958b52a042ac632e3635ee0aacd028470f46e5143019a9 0x8d545fd3067bf5bf449d54e30914060c1430e6308f83a0a65babc5eebf382edb 0x4f8aaae5bdde07b74d6bdc88b4d1854f93e1d848f80250e59c56b21ab7ad7c16 (-0x49dfe82280837bdfe529a9000ce390bb7417828e39845543eed53bd4018f2f43);
  SDbl 0x61f26857c6ab5a9e4aacb82abadaa8dce20032c125eb5e8c37f2118e8f007683 0x324382fcba5f10eb0ec941d7b23a552f6bf92b4653fb867776a1df10090128e6 0x518529b5d51bb7f35ef8804aca2a87d7b94960b494a9ee50ccf7987523fd48fe (-0x8b4d4572c42c3ef30f32a6665343bac09fbd49f033eaae3ba129e513c86f91be) 0x2579989c1a827ec33ea44801f31dc43f1868fd4bb26b002824b5b4ea08e1a303 0x2d71eb5da07d72ecd8b21cadbf817eba830c036df5777b09c51a8927045f0720;
  SAdd true 0x79f66c1009f31fcc62ec332182a02cd434a97e12ea99d8a1a1d422751ca242bd 0xd97c6ce933ad17563290d5e9631fb8af1d03e9a2286208e96961275aabf1737c 0xd427aa49be091d8136e63d5d7d48eeb47aea2123725ae7aa26b357e4af706ee8 0x3d89bf6cb42a92c444cdb1585c6135398b2ffa33007519cc3a264cb9b3a085 0x3a1adf5b3ff35c11f3e02e7f4f58da41faa97b7ef328f549c51631c007a511a0 (-0x4faaddd85afb81d46b75d438df9f8373513c8cedfd0603bb1f7a0bc453048b5c);
  SDbl 0x2323e63736bb149c040884c32672f8550c146cef028867c069fed228b0ae2951 0x2895c0351dacc6e005eaa3c59a90446d6f31d43c8cf8fe7ed77fe20d52af77b3 0x4e22910a1eadbba21a3f4b253a38aa7a0cfcbf197a1abe7f3bf2af1b37af4924 (-0x1f00e2e5d89c0888b1a3a4a099c64921d5c4216694781b0f215f8ef27e95a92a3) 0x4d2d5fbdfea3706e4cc4d5a882e31cd54dfd86e8cc6fc07cf60742719cb530a 0x1848583bba743ae7de1b744ba9b121e8082a8137752881f9890d74dfc54ddc73;
  SDbl 0x2568595f19a789a9f0171cca8c92ece6ea2f3862080101d3d5e224c985250a67 0xe568285d0c4b55b8e69668539db694635933a86a21c3a2ce07e48c5f16f0c30c 0x202eabed21ff522a56d834714ff9a9fc5724b9a626896499cdb34a7fbd985a6c 0x3884593288a5cdc0c1d94f850a7b86c7dc8a11a4eebd284565701f192ea0a80 0x577545e3f59dd73c3761a260e7a13a283c6a26e553924382eb18090b41d7d01 (-0x1b9760737c83e34153acf943bdd4e14ce601ecc9788aad419efc575e66a491a1);
  SAdd false 0x1eaf581e3b47c60c32a49c6d092ebe96219a803eb85c828f41a259389a69a77f 0x15fd97789fe96f3db64877d681bd19be8946b47cc2a1bbe80457c69e4b93252e 0x5a14cf5e6463f4c868962f462c60ad7bf3da0c6c8706da5713483cced4860b83 (-0x1569838fa32e6582b8b9c1de8527ebe4eba2a75cd6d299723d47803724f373d2) 0x3ad90c0b13c3b9f9c7d046d2528fd33a269b5ef40433e0da107b9d6f60b6c00 0x18dc8e390a09549785081c34dc652945712b05095ddb1b68e5e2371250a342cd;
  SDbl 0x1fec02f5d0fa8777c8f1bbc7a44b15a177f29c28065297de5bc6c82f7641a1e4 0x95c619f52a739c51fb349f36299174a7ea324891829fd01a86fda9d2c0e68ade 0x71c32e5c2b92edcf72b8bd4c9508addd0244ad0cfb9ba98d6d26e8afaff1239e 0x10cc6080fc7283e225d9a4f3d51cec95c171d28d9a503c98ea34eaea3ee9b571 0x3fb024d01d9c0535d9c0539d94a80db0984f945a2e00272db4ef3458be4422a (-0xfef161fb3bf5aaf86dffe0b3a28637e467a314b4c0893aa09a71ba3989e901f);
  SDbl 0x7e419cdc5f72b60c2827c4443554c421a6563cc821936e658f66bc4077c79b09 0xea6c452978eb9660f51e38ab6aa0f9d2a4d6352eee311cfb8b7ef8854f0e65a7 0xf5a6d1fceff314da6d9f5cb1b31fdd5cda4fb3ad6167605e671327aaa4748646 (-0x96aa28613c08b5c295550788fe7c344c10135991007be45af6ce02022d058b93) 0x3e44a73a343f5cb69c90f27491567f8e0450368901b90ebbb8c061e60cf99512 (-0x29bf7b5301570ddb37d34b486dc5c82ac4ef8b8e9ffcf6f549fab95e097cf20b);
  SDbl 0x6369da4187d6c914c99c2c573f2c4fd568bd0e5befeb8b495613dceb8f696d6b 0xf40c6310fd68f4020113b6defdf90c6568409d8759e7dc0bad345385f0d665a8 0x68fe8799248faf6668850463ab89a4472e390e1d0816142745198dceda1a4f85 (-0x1c5342890bd4a066a6659a7b875a48dc6f23b083c641aefeb2c752996034841b4) 0x269b0a939980446ab21a3107a2b0d32b3e87de2289568cd1d25a86761468e63d (-0x3bce671a028fadb4a5f4d6ddd952b48a79ec6901fbc9b369efa0c6d2b6fbcca);
  SDbl 0x4c6b5ca21b2f70adf8b3e681400dae1c06ca849bee00f00ce557dafcb43a6db4 0xc02102cd3e9a34deff5f685d47af09dba512fdd7ca4d5266db8791c44240011d 0xc4a8946364ca8f9c7bca7f48a310478364d5982686cdba01d4b3475c357412ad (-0x27b47a713c2a1648adb3ac419735c27a2cdbf31a5de1a1522ba38ae08d5411a4b) 0x16cfec06e7fbbac6e8ff2385ac5f647a27b5e85eccc4e319c8d776d51f5a05dd 0xf7fa6bedf847d90475b4cf5473f43a5447abf437401d430994b7e0dc1828176;
  SDbl 0x2b70271da5735631f64d06fe367032162987855bcc2267f5b2c1f076d956cfad 0x4ae28f77f3841698f5f7b008e24d4a3d0307576b1d82957b3c0b10e48622dfbf 0x6b06d7a6fcf50b8e990c17b3f6815c1d58f82c067e5c90163e26a9d25bdd5d6a (-0x16dd7a7ee0df4e5d360e540d29dd495bd24ed6b137291df20e628fd4143cd4bfa) 0x75ede463cde6dfe7ca6732e3c5cffcff81c1abdc980add56250176d8feda710 0x13e4da9bf43d8d567bca30db40e7ed7f2ca6296813a8e1cc25508c7b0012e191;
  SDbl 0xe99a1b5c8e6c404d8b471e6d05f995f7386445c7629a683239e488638d7c6059 0xf28ccd716dd65bb6f5f4e56105796a00151ba42eead6b0c3fc036b7792c4e60f 0xfc33b95f67cc250834d2dbfaf35fed5bcb6d2d44e45d8ff738e642274b93aff6 0x819c0551d98c19b7b64fd2afa2cac5f9b665983010a8e21eabd9491d4a347dcc 0xd529e2943eb2f1604620d08cc9cc78536f4bd3e64f7a5a1450ce39db1a8fc69c (-0x98fee0bd84664101e94ef91e14e8804e0ddb27ed2eaae16267322545131cc0d0);
  SAdd false 0xf36b0339551a840668981ca0d604d8f96c9f30f8e0487006fcc6c06e26ea65c1 0x161533df2cd0a93981dacf7cced3a4804bb49b02997505d42a13a6a24d2e1174 0xba9fd67716523f896fa49ae5b230c98081790e836cdd6d23b8279876a348a0a2 (-0xb65b20beddbe6329bf4c650d7eecc9a556bf358f0f497c660fd2fed3b27ed14f) 0xe77454db70fc347f9a19f9ba5a1b7843383ecae3106e998828e9f8f399f990c9 0xd1a1af8a9c33b9832fb651578d9b6fcb42779577f420456d7536b7589e96e0bd;
  SDbl 0xa416dca725b50015ffdd660c60fbf6f6496396fae0da2e69ed7e182d20b86361 0xd5489b99c9340e85913c6201c2f1f47801ed94376d47043eb06f9951ff8d4323 0x71f063015e545b4b476b4730024fad81a32e52264ff7aa81b0d3b2001f7bfe82 0xe9872bf50c3d4a2ca1e3212402937b51680ec3a032bb814967decb18da7acee9 0x692d4cc13c6765eabfdcc92ffb92843770b9c6ba7e9fce047f7728d557e53b4a (-0x7a8e01abf49dc5a390c20dddd0574523eaa6a3e8d4803fecfc399097412ae08d);
  SDbl 0xe9f8523dcf06ff9ccb2ed285e8a8eb64d7451a759dfd8327a2503661e007ca8d 0xfe275742ae7e2eb873a00204965d2e340d11e06abaee072b05c02217383cda67 0x132416642f9e77c11777b5c6b44f54aa5755980b7d6f072bd4e94f2b937bfba7 (-0x144d1176559dfe633e3eb8d10b90d39ce7d6d6a0b8b3089f5da7f8ef786db7edc) 0xd5d5f694cadd78fc4104f35f44524f77f51eaf39e839488e8716b72dc35e8f04 (-0x255a5db3dfe4fd469eaaf297414865241f9a6d9f1f115eb4d04d318ce41a0d63);
  SDbl 0x4927c19ff3f24795c66e6ef29725c0c3fc93f9250f058d8c6209ec587388357 0xc733de8b927fd2853eee22ad36ce3065f395836c7f145bdc136fd870d99f4bb7 0x567699a0cbd1f811162b9bf68277802b842c87af1016684fe28aeabc9e6e41d4 (-0x2f4473d3382910e90886a3a5156493d7da2818e5e3262314a86034baadd0f3532) 0x14e7b299df36c503595ed06043d93a2b98a7b275c82bb78ea9edb9cea6d8f4 0xfb3f6138e2be50ef3f07a7a81322f0243cd001727c38f26ce1d9cd63daafab;
  SAdd false 0xd605fae6c1f9fa69d79441b1e3b8e7af53744fb44d6b5c1d12d3be1dd11cf45e 0x98e35314ae23ae97da8e7232ed70ce080110abc2602e887f6ac1cb71ee3a8c00 0xfb1e4d8641a984a03f1a7bdf3658fe1452559befce4fbd710045a79a33c1aaf9 (-0x7c186a169a08a469edf46f4082367545e786d185915d89d146a1165246208655) 0xb2edff9e422704e85bf4dd71f23c30b49640227acc75eef2de7cb9d82152f9fa 0x26b8698caa973fff0d09a9c005565bec8905f389ba56881531ed4b1bfd731b9b;
  SDbl 0x8613f02d38169d43c0628ba99ac3a2c128bb23b11b6d177988510c9a3df66c14 0xcc4a311da8a5be923bb2f28125dfccea38bf02cab14259b9ced469be9fe3d7ac 0x3ad5eda87bf3069f114cbc5065b409563e918e8c80f1dd9125a85505ea3503a4 (-0xae15eb5757264533b63ca9130f95ef281753a71b825065039b395eb8960ceeb) 0x4638e0fd24fbb222958da45053aee17d454385c68a71da694a14bbdd10480e1c (-0x1aebd914cd370283bfc766119f4ab3022e037e0f76417705a8fda53fe19ad7f3);
  SDbl 0x964c751ab6f3817b1bbef5b38da3837784a9674c34f799f6cedd9a12efa9ed23 0xdce1010ae048a8586f596a953b811ec5347b1b10ac5a62da1e911c85652ddcb 0x6414e455d3e63c80edd09d2d696c48dbabdf14b8a1bb7ec68af838aa111f0acf (-0x1a3fd23fe5df86d78c1c606f99453eaf9a703e6069fb4874d45fc191faf95942b) 0x583db01164111a66ca3d53cf62dc91f19d10180650d16ff07791b6c7483aba5a 0x6fd59f5a7662353d3da905264031d4d30ab39a333b8d29c883ffaf18b0a397b0;
  SDbl 0x9811b75c8b8d7b39878cd2a52ba91cdf8034771ab3169ab2b025109637f5356f 0x1ee8f3867372941418456ce1a492d00abebd37c68db9f48deab32a8cd3cfbafb 0x1e20e00f40bfae07f2eb26878137b65ac75ad9a0412898285a83d6e1fdff795d 0x74aaeecc45b2c888d63eafa0a6b65524c9b1f44d10d5955eaf8babe059014766 0x5a550af81dad070fac38050dfe42c1fec346771d8851417ed62b88347cd85070 (-0xa29261779ca94135c4f494968c0d08b89d9531adb8a1c117bd3ff21af02a404);
  SDbl 0x32266c95bd3d259f3fc0bbd599b41e79134a6d5d7bc61d5116c19f0878bac916 0x7cbb5008c45fd00d4d49404b31ef6a7898f2c112521e24dea5ab5fa1e29213b0 0x9923daf4e1939834d6765b477f41849bdabd19e7ea9b643b99b929ed9780145e 0x9b9bae0b1073d3260b2851f9f75bdc4fb5d8a8dd995cfda8e35b6ea5d2304c 0x9d3082ef241c849bf3f8033df18c099fc49e2c7f9bc235db5802a8e1845fbc2 (-0x12612b16e1590d37a942d54e5a132e50befa149782a1db210ee8e35942a4b5b7);
  SDbl 0xafeb911e221317747114cb737d1858dad0a709291c0ea984f189ae5381689d99 0xce45b9ff0691eaec1ea734d3264c11d16ac9d386545b5ea55f13e5aa2c5f6e06 0x1b0046d7a7becc5c47533742770ba1df20d58d41ecdc48f599b9fff44c3a6ce5 0x1c26df0a052652e652e4eecd84daddd22e924c23db08b0ac922a311a2a5726a1 0x78e3e92b6b0fb86f4f063dd034e6252eaffbd1adbc5696b5892bde23522e8ff5 (-0x3808a6b7d36f08400a833b90ced7437d265a196f096c6e89735272130733c357);
  SDbl 0x920c2ea3e45fcacf2366e6c66dbf1c482ee954d9f903fbbc9dff3dc7d38e6b82 0x48146c91adadb2b00bf8b6421cdf861146f8d7e0e7d21a33fc497c0b8961cd41 0xca9df1bcd0dfe6f4d29c59d35d57bc2c2e2673530eb968742ca57362f6a8b83b (-0x1d3cdfc5333d11a1ea5e13edce7117446c7aa0bfe30e75ca003fe1217d7328e2b) 0x5351e5c7ababe115fe120b8f234a9ec5f35aa2fc0fc3c373a3fa1ad024c2bb49 0x4c8e80eb0f64e5d92a8bb4598059d49b0a12522f9ee40f3d93692453ef9f2a16;
  SAdd true 0xb6462ad52ea4c1a1dc4d70fd3978c6771885b619dd2238eb55f1045a682069a6 0x45dc0c9fac8f2850cbf6c07d585b84ca49a88f593717277f920cd51a5c0a2138 0x31788b9124af0d4da4c56dea423bad54a92caff1cad323a112c6af7e72f2ac8 (-0xf2c88bb26c6ffd096ac6562106080a97e7fc50f33869383cc4d012aa30d5e7f) 0x81c7d82313da4263d3cfcca682f79d790784a69c73aafc0f74b2c405a39ecb9c 0x194afff6399cc4bbd32902b96a6fbf98ac57618a6e2cd7a6077ca5b584ea42d;
  SDbl 0x6f3c5d4ee7f0d5d46dabf881e36a26cb96c280985f35b2b759fe3ac548975229 0x382950419c206632a6cf67286c66c6a8b745864653cb514fbdbd557eae99e3d7 0xe3b1eaf1bf54e9994b228054001726e4487219b2184f95f35f4870350d3505ed (-0x36813601f2daec98743091f11bed67c64cef48f1a236783db7112612a6655f53) 0x305567267c77665013691a05f9b0bb80c6073b8a8ee5c111f7c680f04ff1dbb6 0x5f3ba8f1c6c564b797d1c63c5b51f397c3a42a89d02f6c466b97993bd8a4a2c;
  SDbl 0xf609423f3dbca757b5b69c0db3e717300a0c96c1ff0f849696fdd4d012d575ba 0xefa13c0aee5b7dface1e39c26bb4f2dc4d7f20e7c6a1d8b249ab8c1c28ad599b 0xc41a685eaf55e22f65b8242b0866dbc9302952faf8039fee7290e5d0f69dd7e7 0x190b41a8e6681a5a06ca293103f3cfaa7b0526441aa1a1799a79ab0405875bd4c 0xec75cba830b35ffd3e20246227fe4268cef16148f8d7a34df444224e40399625 (-0xb053df45acf8412088b06c976f0cb61e03900c0099b04d2a9877130ba122fdc4);
  SDbl 0x1a5bab014c1792df544f5a74fc0298a2db8a0b095e8cb6746c477c10a631cf48 0xf31ad162ac5b06e7a208de819fc21bb4d39889cb19ba691f05d6fdcfda1a825b 0x4e0c5ab9ae0c987ce3a5c63bb2d8c8d27119dcc40a69921ba4f36e0542a9e880 (-0x278898d06bc0fa6d45ae5a74fcf536a711708ffdbeb8fa1f2419fcbca35cd9868) 0x2b6bf8f4b525dd0403bee5b50825fc090a9470250d939f96c51ca85ca0fb151 (-0x5b97b53b1bb0f539ca9db9d45192962613f516fb763e244f121ad74f518999);
  SDbl 0xb00285478c54819239f701a1e46550c9c8a3986900e40932a1d333946cca7c9e 0x7018ca203a893816dd7087477b979418ee8089fbf388b455d10b0caabacfbf20 0x481f9a40cdcefe147252e132b087bb4b8baefd2dc557b86be436295b06ef8339 (-0x249413ebeabdf27db4165aaba0d42bcdb59d44649dbd3c1218c41c99ea26158f8) 0x79037749347946933ce429a1e51d0f3dd0d94282e8ce8f3f0e42844c39035252 0x5a12af36c1fdb48b0af15c57b05a42f5b91857e9939314ce393fecd7d256594f;
  SDbl 0x800946382764a5227d10bb0fb01464eab66d770143f985f74682443a06f71a67 0xaf126c778fc8a7ad5fa583514f83041eed525e34df8fa07e42e5d01dbb723dd8 0x4f65bca20934373965ddef785c7e65f3302cfad6d79728d15ea885454ae1d239 (-0x4b1c45bde2eb4d312f5d0be669fc02c1fe503a51ee02c5cc2961fc5eb20edfe1) 0x4009468e6aa372a0d087e63b74e75fab6687346b9ca8a0cd5230b7066796a6a7 (-0x1f7f193891e0fe86d75173254fb77350263197ce375e91df785ffe995866fe86);
  SAdd false 0xab5f9fdd5282037b54325c7215407e2a833312565b952bc08519367692cd56b2 0xb6753523a4bd5884e96c1b04863457879a164fdfe8ed32af3b4e193523c49f5e 0xdf618404881f81a30e54c262bbf69394802084a6b5b8012b522ebb70d9a38671 (-0x53365c9615d85696ead58843968a4bc53859cf1c69b77fcdeddfa0635bad3f08) 0x72b8e34a290a7c44907302ee0e8a2a79772be8474558013dc2bc4f2d14133e39 (-0x4f1be502c18795a93861ba817a6bd3ef0d38cbf5da2e77a1239529d2121d42a);
  SDbl 0xb5a562ab3ad3689891df770a410d4124241f646f055f371005e6e6baf8a4aaf 0xdc1a95fa3066241794d40cb3e6ec21b1d867d676697b3c5a93756c644b6e5a6e 0x47a054733a5e64bea42fea78ca12e0c0d90f5b282c44426fe1ed7eeb0aa2f37c (-0x172508f6114b7e1e26d08e42562005ef85fde4250a339ec23ea3c1c2129ad6ef5) 0x80e3485ef8d39a5d0bcca83daf042cb3cdd9a9710dcd0e23666fb4b681f589 (-0x1ab63f91b2ecfab28ec99df162d678dd793ad37fa34ddb7e53bcee228000623);
  SDbl 0xb79a068fb1ea7427bfe4fbc7d80d5966e327700d77e06450a27ec6b33d3f3829 0x42bded34450b8073fe1fb2e407e083ec329a8e092bfd951f8572c7ad075b6e44 0x640faf2a017f3729adbdee29ec7a3bac2c390b29b0b3d279469371e2050c8368 (-0x1d0fbb44e01df9b3f513498cfecf6203d56e6bbcee0b2462ff712c41ac253a7ef) 0x83ad920dd917df31aa49cb66eff4f785c57e1601455b0b3800127abf63b82c8f 0x6dfd8251b19750dd9361a389c43553e65a8d01b47a9c26f9152a9842e4a8742a;
  SDbl 0xc6f8b3d101b93bd6636271f3f052aaf6a0cd89080a26bf400c532e3ef5925c6e 0x3c0e0bb017f4da045a1077d22bfdecbf79de9487eaf8b26ccc06dc2c0817b29f 0xa67071fd590ae4c4dd7f84e0093d21bd039f0e3a1b09f61c71c888dcf402abc3 0x67573c44e93f7e623caf8c38bf5d4e1f33732a92790efe8bd09393bd9bafd8cd 0x9aa5a7c4cc917a4537d2ccd080ec6e598bb633891af52c401feaa5a5fbf74fe3 0x5328781286fc92802a2addfb6289ca22fe45702708a345feedeee69056b4245;
  SDbl 0x204baf5e91defd2cc1b21243a681009cf99698dc570ff32e5b9575b614d6f77f 0x44d4263c2e7d30407009e9d418ed2e18924d910e23064321f04c6cfe00cc5138 0x548b171c8b6eeadda870a1abc3932c23d69afd5295e3e2dd37d8938cdf7261e6 (-0x453c54a488ec1993f92ecc6cef40c14be28d73e72243e54bd07c9e5482393a) 0x4130237e216a889bbc02629d42f056f83f2de99e175fb0e02efdb9381616575 (-0x11b5b5df4da5c6fe361f1a7dd1d1ea54ac672e95a41df32b33bc34efe04a570);
  SAdd false 0x52012e9878683164c448877db6bd3f0d2e7a4af28e5208dbd2f8e726704a8cb1 0xbbba9ff1911c44de90fcd73eaac36cf3593d4a231f0fa4597fb3075ddbfcaeb8 0x8e54a30c79e448097c000957ec4ae5f1b80aeae141b848ce3cfd7eab9fbe1558 (-0x5c909ce2c07cda5cab7f56ac49c720627fcb2ef4c31d61965ae9720d60d1c66) 0x1a44c1db2d139864c3b84eac26024041bdc394a4bfc54b2dd51f36888c6f6256 (-0x26165f86f405ffcb35c2a28dfdace320bc438bd1d0b05d7cf7a5dfbf7a3ce342);
  SDbl 0x9de42c3d3b6e666698b2b379c6e369374a4e53876e11b04ba6498f556e3ea4cf 0x2d3ebc249ba16bed87d2e416f1745bccc583f90ef5ad493a0fc9a0bd141324f5 0xcb8b23b958f5f3fbaaeabbac7315b62f0e10ff8bbb833909e30749a27f128cef (-0xed6d01372e167e4fec42a6c5a4f55db169cf1eab634225af246c0afc12e35793) 0x6161a9a250fe0af5e2a55d9a97e1793b96e18c6d80b958843bef170ca9aea304 0x57e0f9ab4cb873e28754b3ecdc03154886ee07a187bddc999c9b5dbab57f519a;
  SDbl 0x7cf60fbba7fc406b9a2b9e2f9f08bc4e4c036e5c00a744d534080563fe16ae80 0x8fb18f7ecce2aff8f5160a2555836b4ac6eb9c2b987fdf1e51d73ca86baa6bee 0xae0093778465dccd51fc65b6cef75690b0356d84ef884a614a09d052b0488d17 0xaeb8ba7bfb8cc5df4501d6658d165c0c01e830eb344cd0390407edf395e5a468 0x3cff4bc0455a0a32b9ce65247ed99721377053e223b05f2024dd82da1ede75d8 (-0x300e3ec3dd71c5e3900b768120e5e300030e5ddfa163d61f055a0c200b5e2b7a);
  SAdd true 0x71aab464bcc2c7e06ed18031bdf6140ea6600a12721de83d6b20243087a523e2 0xa7bb9a1a8abc433dc4ae7f0b060a285cf32c87a122d7dc4dbc565984f350a132 0x7bf8f6409a6b32579e0758e42f87d30d32f56b1749030d29e909a8b163c7cc71 (-0x2942863e685a8b8ea44937ad61f4e9ba9acfa04d45cf6cbf4af679f3162d1709) 0x3278251536049d50ba5b2bad450b290e7a20e7539c15575b03234096efebee63 (-0xaac764a5a00e345f4c0efa2ea315561ddd07e33cacd26a89eef44c941185470);
  SDbl 0xb2cdf2abe346d1483efed2098b40c999c47b3b8144d9550ce12f254431035b4b 0xe86aac50fd3c5fba12eafa2fd11f88261e85374f413b84e29299b07e2eb9b75c 0x59feac804b36256e81aa7e6d5634aaf68a692ff563107e7a8d3efcd2d7d89136 (-0x9c85376697aa5d34d865a949990d84cd049164b2160464abdc6d8cec5cd056ed) 0x7ce30b261244f2b505a30b41da6a347c71957e949f40c432a42decb21b0a91c7 (-0x2d2dc42c8bfa4d13d1dcce63890636ab90472287f4f197aa26f382b7b537360b);
  SDbl 0x1e83b863e42a60158d57d1ca1442917ea1ebf76db972eaf98b2d1cf1f4ca7735 0x73ea4cafe6346cd4842aa5c8a6ea9df4089d029073de4888b65e2cdde7a11b2c 0x985cd93051520cc5d9e3b819a4e64798bf733439d7b197bd8caeaefbe7ad35f2 (-0x26390419d496985ec8562931441e86964b79387fa7db7e39deb8898aa0cfe592f) 0x3a322fda82853d839985ee7e98e6ee101ed13a5d31d03424b94f0b2e5ee38eb 0xde2fccf983b162684bd62176713321c41965a40d0425a901380131a98f32138;
  SAdd true 0xac911963733dffd7a7f388985b5175fd5733f9bd3fc1836b276d14b4f25edb12 0xb7efb8983bb7dc0c5fa498cc89dbca5ccdf42078662125807fc86b005b443c61 0x43f119bb5a337c1bb229131d6f1ce69953274ac6af3a7e1dc9d2d6ce89f12aad (-0x2bea334579aee895adc158b67b96035371609e2a9890e98ab08ba2791b112b38) 0x74534c5bdc5bbb85ea23ff6c85d47cf7d41128f5fba7daa4111682c3d181ff10 (-0x2dda32515a28446e9062b23b4a27bd34bb1eaf23ef077e64f70b7a4e940af2a7);
  SDbl 0x1b7b8405fb57f19c22281af87fdcad319b2feb92ec456b301a7f5d24b169b4ea 0x647162f1cde062dff1a2f59680c0341edf50628a8f8e8845699061b36b45d4e1 0x4c02feba51736646f5ea61432a632d83e0a39b6917676c93c2fd1d8414b13e88 (-0x17de363fcf3a8d83d061ba73cc8d57cc6a35972fb2162e5f5827379b8457e7604) 0x2f3497167cd8840fc68d5cc4aaec5a28828fe022678997b32d4fa12a60067bf 0x8f69bcad51e25b320c4c60f209811d11f41ea5d7f068a2150aff8586bd1ce35;
  SDbl 0xfd6860749d47ee6db7ee8fe5b565fbea1446c28299af12dfea7a76f28e1be0c9 0xd34e44f61593d5ad8e1c51e5dd8c6445a367014ab351bef13614523b08bfed9 0xea0677fd851474546205d2c3f85d465ee3ca3626886857c7718a35b20f671ad2 0x204190a2a223961cf7246e1702a8e25025acdd660d496bdbdcd8e172dc7c17b0 0xfad77935fccf1c017025c24cb1fa3d283860baf40e68aac1841cd01e5b514aca 0x565a5a98ba16e890b9b43ee3997d409d885fdd71b2af224f17ac5917ea104d12;
  SDbl 0xeb2b99a9b97e247fc91b7354b6c5509f8a8753f9103451e32aec6c8a9773967d 0x48cb0757697af7d6573919a6b63a9548a095adcf19e3f73d12471c858d06e427 0xebd95d117a8265be352de9fc3b094d7d5c15e34b42e6f06355f4da576f45baed 0x1abec5912a545bc55c670a681ea9ff7012ca7648df15bbcd6908db04fa541b2bc 0xd809138b6dd74b2d8291be26c256c2d4c25c5ef51569f6ed95606050eb5a28d0 (-0x36bcf824b4c714dcd24389d6bf48bdb4828bfe952fd28a6cb92c617bd2eb7f2b);
  SAdd false 0x85a4a8909f4cc3caf20837465342458891925aa85e5bb2f5b3f0009de445e65f 0x55e076cec12df44f5b0d690e28ba85ad86ef7e841332e408440db1ef1119ee1c 0xc037d0d914b0d0f62da489f2a3d0945f3f8c8ef946e4bf918f1391ac38e7f0d (-0xb7f76e544aadd4bf6ec207fb424ec0c9e0c963c6baeab60948504a83f6016ee) 0x45c4810ef39481a3098e39ceeedaf6821e16ad3d176e247f3245ee089ae86fc9 (-0x6d48d41e531fa5f3629e900750012e3b888258e385e5f07cabd047bcc1ff61b);
  SDbl 0x375ee78668271e77b329bcbc4709f8346b2cb4390c53d8cbbdf88dcb8b790a51 0x6a2af1999aae9d7748510227f03e3591e0a6c607f4e40bb50bc10ae921f2f4d5 0xfd515b46abebac9597cc2290db7d5d863fe04233cde31fa246df9c83bb0c787f (-0x513a131a0572b99d4edc26440135097e6fbb9e8f6592db7f96ea57e8d593310d) 0xbf9eaaaa4d30d044006482430c8df71ab35f52357b65d82299c2de28d2a636c (-0x46386148ba4b3c082bc8e4ebfc5cfc2c4eb98fb8257ed479c9a37ac1205adeb);
  SDbl 0xd06a874d76bdd555c8051b6081f25a761f738fedc8afd1bc86f5600ce2908c62 0x2014540c7cd70ed7782f00a643be411178e793291a22c1d0a02aad69059c81b3 0x310e94825bcc8369c9e09c2ba0899cf0e16f06122e1ecf0a4589183adc9a5bdf 0x1186041a286f3f4432ad704acf331a3c5cb7b5a8cc5deba27cdada4258059026c 0xa9ad4832de4ae2bfcaa32f76c680c8a3be27aae7b8cd14edfcbe9090064715d9 0x3c513488793edee907ff1e0f68ce7d5b5e6ffeba62558605b5de7257b078295a;
  SDbl 0x5766bdd03ea4d3957e0ee54698350d44f0bdca2e357418a3d6f28e5df256d0ce 0x88ee8cce619ae454cceacda47641c0aa45e93e9e39cb7b4de035689ecac4f23 0x7eee39546e92a2c4ab75533e2776bcbd946077a253a4232cc2d1ec3b8d404b87 0x1570056d486dd142066a81efc9a769ef848f33414c4e814a054c981cc20f6e94 0x1dd6fe3f771a174ce97f7aac9f6c22aa3752f8dcb0b7f539a8c033798b2decc5 0x807c80c01eebe2941f470ea6a28dbedb7cc732612ca726b4a2a29e0131cf786;
  SDbl 0x66d7b8a3d08afe3ceeeb8f37d4a0f84f2ded354f501edd1958e0784138532da2 0xa02a81077e5d01ae24e516cc46e17d5080a855c92a4bfd03950ceee477286bcb 0xf65e71ab7f9f89cb24e46011f8eb8eb1b4205c1c098ac1a5286c378bcd718279 0x652005f12d733f37d65048b88309c09ba23832dce7e166e5e4ce89b97d04cf7c 0x29509cea5bd38d94fcea150502677b52c93d414ab27e87fb742a10b6d152af8d (-0x3ce7bfad47c53a539409db7980da07bd180b47fea131b4af334f756b274287b0);
  SDbl 0x6fd5e0977ddfc64efb6ad12c90bda852d5b991c1e5c9afec221a1615f64f9c7e 0x682961eb9787c0041144a72a1e4791a96a319c9564d4d40fc0ce016cfd8648f5 0x9cfcd94cce7595b0971d1d593ac8f8b7383698664bec2a066b2c81ff46f901c3 (-0x555de9037908d9b4fe2d1d750b978c07688a7a1f4717003666340617e0f3ee34) 0x30db2b73112425b8e5839b495e00485f4c0ccde80f725e58a45d7105ce695287 0x1877468e3330117333df3e6cc6576730a74b79f60ed823fdce23748e0558f6e8;
  SDbl 0x806e6ff8f090172305b15e12a279d38011ad2482d24a47743c51f986258f3245 0xaade0f37ecf3e29c6572f8c37fbaad68a6527cb4d8b28c83023d8a871b7cbee7 0xbb224be5bcaad72b5ea8b3856edcfc05e5b6ec4146f9be7aa81e3d4e53856e00 0x1e5f592c761b269ed5fd9e21508d299226bd3e7ca3aea52b2bbe43ea490f104a 0x406e9f9d9be7454470fd370a76df5ff9ef313d371caf8ac874f9fe83f1944a38 (-0x21771d75f7d4cc5609e86a4b98680dc2ecabbfb3bef9ba72b3a6b86a52dc8203);
  SAdd false 0x8152429f84c71ce04d4f0b1d44a9543766068070a79e20949d470aac75987d4d 0x5b0adb7679ab3f60cc85d84dc72729da41c103495224a49613435a9ae3de31ee 0x1f99c3d6d67ceaa637fd54093c8ff37759874347f1a013e373f6ee1bfcb4853d (-0x3cab6149a6412d17975ac41b72172d261ba54f4ca50fdbe609dab96867077301) 0x41540193c4ac6019315f0711d0f019f8556d0e6f381806c16f6e09d5c7e31c73 0x28531381684d9cc4130a853cb3ed7a3c8c99f9aa3914640b49aa7c57a9dbf758;
  SDbl 0x3d1a45fa711f99171f612d8ea836c7f21d9b46ed6be6789afaab0f006c1492e1 0xf974fa9cde8d637b57fffc0f5b0b2a8f2be005a2c2d710c4f88184ecdbc4d93a 0xa699ae18a985fd0412ca0995f9a9658c6633ca53b05322eb5842d8f192a2b733 (-0x520c659dc40ef3917d95073be2df4dd93e6b1e81a881bdbfb0d3c4d44344dd71) 0xe95880bb27e8767fc5f97fbbeb9c90d999b51a4b7eae78bdb9a7e8d8413d355 (-0x25cf8b8109c7d717f40849c587b7d1f594ae4fc7edf84c99e57226ece19661c4);
  SDbl 0x3d9ed87b8ed7598c55d450dcb9835a39e0dc35b07a0d2964abe752bf0af9d1d1 0xf59558efe40c218869540eb78156e0c5a66fc8692ebe091f3b3543aea59d71f2 0xf1bad349b1dd2000f48aa41eca53d8ba1f7cde1717ece45f266647b892d1fa74 (-0x2890a527f6fbc004b96df5a2dafda4d63814503ab3310cc4e40c08aedba9c43dd) 0xed515bae07cc4e8445e5fb53ff8b8f06ed3845525410666e360db7c349e37c5 0xeeb0d2906808a32cfe1153f2ead876c2bd5b31ea374d287e10bd957eef97df;
  SDbl 0x1dbb9185219461975e3e9ee56d4924d9fa4a9fcc4fc9c65f7c06007743639af3 0xef5417f8c39e52655dc9dca609d11deb697094e925c191beb09213a421772351 0xe6b07639c781b92f2257f06e08fc6a861773a8b3885fa5cdf429ac3acdb7dc14 (-0x28a9f0c758db324f4c3116e26ca6158cc4bced1a0cce2111993acd4570d0a6def) 0x37408661846ca8ef5e7213ff36d88f03ac3e5bd9621a5d8c341433b04f6c48c 0xb9f994aa6fdd7fd32cc3a40187747c5a5715c963487d8bc087583d599d59b5;
  SDbl 0x7ecb7dc66ec93e82f4845359baf6e8e5fa57aeb3b3a7103b1e31f6b4da32c2fb 0xbdbfea6052e64862bef0a9b0915fb6007bb4b3e8322e6fa991f5ec182d09f0b8 0x1aacd96b3fa55f4035fa2471de09b26d8b1dbc4d9f5806e2dd525dd0352f03d9 (-0x1bab5ee3e16dc168a11778fad9fd0d7983941b911b40cee763f4ca8dfe3602058) 0x3eccf1904a5a20426d0651722a7fd28596ee6ca09fbda8775aed0044356ad541 0x188e574d103da625e2800c910c0ab32446a34d7ff0ae8526283ee0996f9c51ea;
  SDbl 0x5447ee96511728bd77327344c1fa2fb86150c5c8730df4c560fbd53971ce7936 0x9466e187cd148171ac92e2c20f3535825e908653194097e6e2878c71421e1e79 0xc698c29fb5c35f42f2bbb29e4d5cc95814e104f3a19a5572f06c8fc000b4ab30 (-0x1945e638f478c09110b8f53d190ab3dd7c6491494b297897542edab4426d834cf) 0x1bbf48c8f6b34d6816983892e1700766109c936aa99938936051a10ca3e5e885 0xd9cd5219b102c3f22fb0588b79c07ddc4d2d6f96dccb7e4b3087eb934138ebf;
  SAdd false 0xdc946dd03cb839805fe123cc4325d7b29f3dc96b1b8e5885d3ba801543909fb0 0xa0506c2436083e9c57c5c7350f387b817b271e1c39cbe9d0ce9c66f0dce315b4 0x3824b0849237c4d70a8493eb780a10f9bb0a362eab04d0d529fe1f5848b8be9e (-0x541fffca49745350138375d1f2a271629ca3d074132812f45957c0f3af446371) 0xbe0f72cdce4d47bc8a42bb5d6a954e72a614222f187955f42f7f00c128b18ff4 (-0xa439b3eb77a45830ef6ae47bd748ed2665927b1c57db899e69d74b6776af8a2);
  SDbl 0xb6bf90e7972e83e504cd627fd47d231d781e6cb6b790a6617170a2583f17a8ba 0x9e9bd16d239c4a5b88588a89ecd1de978d2b1ba398cb86cd9bdd5cde4f8b7b3b 0x2479180413151f9cb45bc1564f43681fba8c815488d8ee928d6879d568800397 (-0xdd05b00933c0c44d8b3b9baabefb7fe2639f02f44b6f43cab772c6a98ddb49eb) 0x8274f163590407ec4f30cf349b7595692684b41f31375f0d00fa1ba4bcb0ff7f 0x137acb4b8e7970b1c0d1f313c90c74ac834d45676308e3ffdbc2d76da541e4b;
  SDbl 0xbfe52ce8a056e6b1f77587ce46192b32eddce59b3890f0c77403772636e5aa07 0xf71cb1887db1e1c5a10aa291c99be80ced8efbb41b213f556ec9c2f38137f693 0x4f27d0657b816730618a363a923bbb0c3244b2e3362ec7a4382b2100ca3e266d (-0xf02020c7f343b1e8e0b7df8543eefed31fd98cbae27e42d3e515f4af75bf7f7a) 0x8fd7c62d0f2918643a0b3ece2e2cb55b90a8b15fe3be7eb07653ced78adba0d8 (-0x42576203b5c376af5b2e2421a80cd4a7a2ef18431c7f6807d1c37f3a01ea0694);
  SDbl 0xc5753f91c7d19dee9e9bf656b1f2f952dc7ddd0ce16041f7b86f3f6e239be95d 0x996357108f4f9579e81a2a8860a898e641954fa0dceadbfa72bbfee8258e0236 0xc1da19f861addb8d5b6426ebda7416ca0a045fa2bfb8264673c20a0e378b2cad (-0x2517d5cf7fffc18f4bb8b7505b352a376e788b2e649b75de32876eebe551dcbfa) 0x984da98a20dfff92e040ecd024ef4306589b4d949a4aed2ee5dd321f4ea58393 0x484a8f9ae7f3bc4e616b577c1e13e136a16f3c36c9a01f235098fd3b5a53e851;
  SAdd true 0xf91c720a474c73fd8238c09f2a078815b25c78a6eb295c1d329e958263d893b4 0x35bc119ff09f246e1124d123f4d00c63d459eca6bd52c04df294969c15a6a441 0xaa99aca6bf9b2fab3f8d6dde46127ffaad87eaac910d5df9e64a92de995c8e7 (-0x63dbb957d3f99268ce4d10ddc06bcc713ecb799354efa8a415d1ccebd95b0d01) 0xf26859021627d3485a110d5c85f03e2ec8bba6324a04d26389a416c6a188e4ae 0x60f8c53b00d9c29e5419e5be2936b6d865625835d8a2633756d67ca811c73650;
  SDbl 0x373510be0e0480702aa68260e92e1c637d4005c3dd8e420076ce8b9cb2cf2332 0xe7fdbe0f691d35072323147908e98bd5550590ccd098e7ae609c7a7dcd22aad0 0x34ecd600d7e38ffdbf590f0b343d43ef03f0928524dc5bec8988f8f7943c616f (-0x1d3cf0405c06c32e1b5575d58d8d5a74f4558db09d8e8abeff7107060df59abc) 0xbe7d831a5b7e41865fe4304ae622c919b1a807f2d3399f22fbdc23a80bd3d8e (-0x26710f4d3dafc31e99d2ab82601c8c28578eb303ff2e5f3bb912c1b1fb6e00bc);
  SDbl 0xc82008e62c1191ff7d28b0159576e6c1c20d44f11263c3969d925d2f4107f4b3 0xc8f2e1129ce9df79b103841fb69723a1fa519430d6acd36ecb2f6993b7a4a19f 0xa5ee6b4b05a8f6315145a21d4b933a55aa4a2ff2a255d126da74fb759ba96d87 (-0x223f46c406f0bad22c4d96a03993d48efef9aabf6faac2ed5caea822d44931e3d) 0x9c7211ea7b27bc227edef3bc3823e0d621d29a0473f623ee29016c53203a4216 0x18445f157768713ffd179526db30b5a6c289f7d0cc2ae89b0853f07d56abadb3;
  SAdd false 0x77f35669129afbee22278226ca6aa52591d5ac4e75ea455208e7d2069f7b598a 0x9e413daee87fec67b5e24589afb94093abd6eb407798bb4e9cd11f47c1e5f676 0x67e4ee19912eef1df67fde28943d9bd49b61a2ebe21a525d67df0bcec0013fae (-0x465e3a34e499fcd4ac6fccfb9b053837b94fe58c734ab5eed7e4816509fc19b8) 0x383421a310244db51fbab14264a46b65945bc149bbc944a86645bf4416e9ce78 0x140127fab75c816792fbe4abcbca08e0ae56cfbd7393a0ceb6ac6e01e5ae281b;
  SDbl 0xd0efaa0fd6cc452b6b16e7272beb11f75eb37232dd2b28be587e0404cba18ed9 0xe4f31708617372552b1653ff523795bded2e3300b28cb1e7a8db19823cba51ad 0xe46604c9621bcff9e16dc111a9166bd2d814f129dcf9dff70cb79db2e5ae3129 (-0x7be73fe64edde00aa84e2060e7819f81209c7cccecdf89ea74c2ca94987601d3) 0xaa8654b9621e60cb433d7922645bfa38a67ef869977b6d5f09647ac89ddecaa8 (-0x39b2af995092b2d801212f8a116bb8ed7f1adc8c397e8f930629de0c771fbb8a);
  SDbl 0x4591ce49b9ada17b2b52598b05de14173395508156dc823f260267c198b1b2a 0xb9c1f135ae999f46f53e431c605da538780cf9621344ab4c1b352ad07d75ccee 0x259ecbd04e03440a123cdf370518a4c3619bbec1801503feba210ce9f5f9f58f (-0x25e8384f17fb3750fcd4ba30d2662e28055f71d2537b6ee0ae9fee4d9dbb3fabc) 0x12e7ec3f26be980b5534cab89ddfb052d46bfdd9645395980c1e40406c8d64 0xbbcd8d63f1000e469ea76d83c1b96e7720ee8ebb4aa5b1ecbd909885b53a62;
  SDbl 0x6bc923b643f7a9c663e3275ee2da69998c41179ecde6a15ff30edcaf32c2686 0xe5eaa8c7fe20a9671fd8a9fb0643a16a1fd393e49b22a58d9e9395c39a8814d0 0x1fbbc0635a488d9eb52b80b4810d7f81a42818bea83e1bc78f97af1dc8f39894 (-0x19262c6e5655a05fe175a5ba68042df8a8c77bc2a1cf181eec27c4a7974f2fdeb) 0x2d61c1e3a364dd12830ad28cb122bf515f1b470047c64006c02b2ced97a088 (-0x1297b6db5d7a7c9f45d1a40845a93c54b2131f81a10a1f05340e6b271fd4591);
  SAdd false 0xfdf0caa9e2498a80c95cf081459dda2fa96e9d70630c505059a61390977efc2e 0x69c4d911ba85f4e6789892feed0dddc827c300b1349b8f20f5c6b739a79b48d0 0x31baf2625715c7729885f1bc15b64fa092f1b77708cfd062aa3457e3fab9f8a4 (-0xb1b50a1a896ca085b52cd27bb499b2b10b35f22ff74f3000b24d4f17987feb97) 0xfbe5d311642402903f514daee9796cfcd5bc66e48e3d91c45c1afe4afbbd3a23 0x7b2624028f6e656b9a12ed7869e4b61c0c0dbf73e190e880d36642369c50e938;
  SDbl 0xc220960cbba9d2e9947ef1e2c8a5a0bf060acbefd8bfc21975edd0f6ecea70c6 0x7123884ca5e55607780d6da04d20f94723bc8ef8765bbd126c7cf5776aa9242b 0xe3e777e071fd88482737a7687f0a09e044221bcc4074a78904133c1467aaec89 (-0x37ad33e37f430a6181161275d84455b51eaded2bca5c90a8f3d5be319b4b22b3) 0x93356791bac4a23d9ee13349e426667519957d64e54f74fc685ad0c34e39dca7 (-0x596b0f26bd62eba99f4d2bc54ca7a7f61cbf21f7f163111957a78984bbda271);
  SDbl 0x92f1a40a85f4bf3b8d9f57616c8b12b166154f20f92c653b61e052aee23c1369 0xb20f4aa7e0cbd1f185d01a0aec90fbd6f2b87d94c708eec7cd2714d2b4548fc8 0x7747d3a8be8ed4066587ff923fdbfaf8961a2e4ceef84cba8832b6d9d5b01824 0x6fa118d8cc7a11e8782eaec6b58064d20cbd51891d1ec259a2c94eedf81bff46 0x545883329a116032e7f73cacbf23563f1b14941dcd6ac3554e5938a70af6170d (-0x2543bc63d86e388394d0fbbbfbfe5802a4bc29d21023d5f29bd56244ff8d30ee);
  SDbl 0x77f8bb74b96a0ad27b8b5562766cd97a5d318e0e41b6ec0b6a6f50dd79bf48ce 0xa6f5aa8e3eef2305f6aedf6e4735bad7d95b1a645176a97c5998918965dc0c5a 0x539f2a1c9aa232e1de16454b16745dba54de79d53f46723b7ed8b9ccd32ed73e (-0x103bf3d9234b41297454bb034a75c15ffb00d1eebd30ad242305fd1c53eaff533) 0x38392ff27804bf9098e365b64418148a8fc4ecce51f3f39f3d97e5c25a6ca626 0x533b25fcfdf78194097167f0db2e54723f6a0f63b2034066bdad59891dc3cde;
  SAdd false 0x8c592292c5506cf33e5fdddbb58ba874c7fb6ac3608cdac2b4e556b446104c8 0xcd9d038eb84efeadbb412e84822026083bb807de339279a9dbe5e15d229c1808 0x1f5fd30ef43d29b04f93d10bbcabfca142e2deb535e2e1d08c81d9c6558e285 (-0x3fb33ebec63c4fbb6de63e1cedc7ddef8019c6cb67fc9378f3915a3bb291107) 0x4cf19cd9e37a167eb59612c687972414baade4302f841be46e39f0dc1dbce9 (-0x1530fa12abc957263dd1a0d99d0adf690d1c2f35bfbed5088324c9fac526e4d);
  SDbl 0x2c1315413c40f1d31f77460ab8fd15300cc1a22f267087b1cee8c00b7f05ec5c 0x67f2a5d794f11d9bfae1d0d260af819c5a3d5677329aa4f777d5d6bbe085d9e 0x2deca347c53425cd665fb3ff9abcbbc994482806f58967f936c8e299a11c23a (-0x1eec1ae21fcb9a82b439183ea6a0d669c387535b5d3251d2991a2aecd44b586db) 0x79690ba9dbf9a0164bd37fdcab9d4766aabce6e546e88dbac75ef97a56ecc9e 0x2247f913e80654e80f064b52fb4aa4f1b38dcb6748c284bd7e2df5627067eea7;
  SDbl 0x208981c1b35e9352b2b398ea789d1cc93cd31c36697273e76cbb4a7a20693278 0x5513753bc17ebd04ebcfb8c3abde09cee88896e8b3c5c648d895da4952f02bc7 0x58c5176ce66e44b044120b1cfedae54b464c4628cda043e4c41b0d0fe61c4fff 0x3c287416e6e29ba02d0f9ce2e619ced446a8b0fa83db91f5396a5a583bca29 0x422aa4c941113b032021de51971d405d637b0c3a53713d612b4a2e85e9dcec3 (-0x9fcbe8c128c816df6cbd12fc5e9470b768e29beec9128b797186f70be14488f);
  SDbl 0xad1c5bb91073623150a3f5b15176cf35caf334bbd277f5b325c327d8eba987fb 0x9f9df311e5421a150dd7d161e4bc5c672179fad1833fc076bb08ff356f35020 0xccea490ce26775a52dc6ea718cc1aa600aed05fbf35e084a6632f6072da9ad13 0x233c44660845f73ab0af25da2260a8cebbd132e7d0beb8069f3d0423e9438e06 0x750f571cc6a3fa8bb80cd35dc4a320de6980b2d7257413fc3805a30a5932f795 0x32c89c1a2edce822e076189fb364ef84daf702abfaa9f646e4318b6f5cc68f55].
Lemma sd_pt : pmul sd_k G = A (kf sd_x) (kf sd_y) /\ xc (pmul sd_k G) = sd_x /\ yc (pmul sd_k G) = sd_y.
Proof.
  apply (replay_point sd_cert).
  - vm_compute. split; [discriminate|reflexivity].
  - vm_compute. split; [discriminate|reflexivity].
  - discriminate.
  - vm_compute. reflexivity.
  - vm_compute. reflexivity.
  - vm_compute. reflexivity.
Qed.

(** The random number of the samples. *)
Definition sk_k : Z := 0x59276e27d506861a16680f3ad9c02dccef3cc1fa3cdbe4ce6d54b80deac1bc21.
Definition sk_x : Z := 0x4ebfc718e8d1798620432268e77feb6415e2ede0e073c0f4f640ecd2e149a73.
Definition sk_y : Z := 0xe858f9d81e5430a57b36daab8f950a3c64e6ee6a63094d99283aff767e124df0.
Definition sk_cert : list step := [
  SDbl 0xd6a6796a27dc312621ee1d7807d53f6f50deb90e13e36666ba6451403bb1c3b0 0x56cefd60d7c87c000d58ef57fa73ba4d9c0dfa08c08a7331495c2e1da3f2bd52 0x31b7e7e6cc8189f668535ce0f8eaf1bd6de84c182f6c8e716f780d3a970a23c3 0x11d6cd80f81a9b5e9badabd304c2519d600d3f8b4fc759d131c1e2e5c0ec83c10 0xb3fabf3fdde018ae8b11c6c6c230d119ab7a3586127dbf7325ee158cbb960de0 (-0x1e380dfd5e1b5e2882e2747670d8a7457ae3f364a6717b3578c57493fb0d2b0d);
  SDbl 0x17e021789ef1ed9ec506f9ba33bba229384f476f5c75b6707bb4d0c32e74636b 0xc239507105c683242a81052ff641ed69009a084ad5cc937db21646cd34a0ced5 0xb1bf7ec4080f3c8735f1294ac0db19686bee2e96ab8c71fb7a253666cb66e009 (-0x4f09124c394fa03cef9d066ed39ebf371ee29a6771c9f23670d82169e1bc2c39) 0x23a0a3e463ffc20684142caa30690db7211c7346977c77eb50b4561c8f25ac0 (-0xa04988a7d8bd1088592011163b1877b16a3712bdbe2746cb993e93b5aac0173);
  SAdd false 0x8b44581d4d53e663b699a7a3a71122775d7b986db0934f2403f1a8d03c5bf281 0xa97f7cd4b3c993b4be2daa8cdb41e24ca13f6bd945302244e26918f1d0509ebf 0x530b5dd88c688ef5ccc5cec08a72150f7c400ee5cd045292aaacdd037458f6e6 (-0x4e0aa07754eb005b5632510f6f0b305a24b189decfd7ed3860c8e34e3904339c) 0x4bc349ef0ba1a33603a7d51afbedd900895eccb5bdb6e74d970908f572cfbd5a 0xd737fc4d8c051006415aa0bae857fab178d8da715a33fea69499d62a610cfd9;
  SDbl 0xd0f22a788c3807331c3b6f6b365a1ef8688175180f43a845b3a449a3253f6f70 0x927afb57d93483bbb17c93e71f22a3105ff8856a66016892c8b1a1a3c4b0d30 0x150c6b1ab4d1fc7eac1c0ef6ebf2664581adf1f0855a064dd572103000088f63 (-0xc91d215f4ef9c3c22b352023c68ea4d0f649783bd2ac36f88bc9850f07b685c0) 0xaa8a6a18e15a567faf8d253d944b2de9d7a7554944a8600ce81c1d6f7349f9ae 0x82df0443af0ec254060cc89ca2cd3ca3557b2709495949cbbb64453ecaa3d6b9;
  SDbl 0x3b705677cf931cb9932b48066b31203c7eecff748ebfdc1b7d798a4699cd091a 0xbfc2df6bb17f971ad89058ca059be46e5f7b516c5bdaddad9c9f042d0279270a 0xb145513f59636106cef696b67939bd7b73c9fc6fd150aaaab5fbf87b64af3c26 0x8cac0eeccf6cca596be8360b0d44759cf4bddd701b83dc7f4aafccf1a09a4e1 0xdccf9270d8520a7341c7a1f321c50da8c8404ce42630a0a70c97d10d3186ac6 (-0x2a65e591a04ee1732501758c3ea548772c830cf69ed3b0800142b27ade1eea53);
  SAdd false 0xddf5b9e73240d62132f3fc842f43a38b2320ca32c5c4a1974448989d0a90f452 0x4b3cb10c9c6d8e27c1aab770f67f543125dcdd589c2ff82668c74d78ce20ace 0x63516355287e39fe4918e5c02e2b0b930c94816e63c4bc72739a8fd805174a4b (-0x7a3ec62c841abf21397200e8cada2e66ffc9def05256bc902dcc963fac003751) 0xc0722ed748bc4813e69ce0b0c81f3183154da73bb071f8795e090ccf953b3c5b 0xa22f91d86c43338e6e5c810ac59c417ec06bdb8f9f64f64c790d2df97eb64b39;
  SDbl 0x41f1e44c8344b2e91158e0548f4e18a1f5ab1be0119b8ebfff38e34d0437ce43 0xe61120569974c0bc1835a4d0f3e5e2993e7307f46fa550d10755a352dafa1e1d 0xcfe30aa2c3877e52d08fc10e5056e4bc02855e18d12379b43b86cc142850b0f3 0x32e8aef86c583e9cd585f9d729dbb2ea8b28bd882cc7e0c332fcfb8ec28aa207 0x10fcba7e8f4d256257b7b37654aa1b990b1b963c8fcad0119bafdc1795c44e30 (-0x3a0da47eb5b809b236a93b0b14bee0f636e50b5324d1563eae753dbaa0c86515);
  SDbl 0xde9487a238c4f6ee40e06a0057594c443d77ba361722c08b8d43982fa117559d 0x2575c600187cec18a7b5fa7d47457508b1df2f7a4fcad9d2dd379996725be125 0x84442dfc92fb06ffed22d2e0508647f483580245568efa731e259e3d752b00d1 (-0x102c9548440afb5a4170b69d98cd394df406c8b5e3433b1c028b48115d197fa36) 0xc185f16b3769b01995b87cf6d0d3297a89f5ee69003cdf5ee81aa4c62f787b16 0xa7767833def8e71d77792542deb161902f114d3d43fd13c9782386f177e9f5ac;
  SDbl 0x3fad3a8bd70a0772ffbf3323cf8d9fbfe0ad5df06a5db94588745590c9e96a59 0x2837c25fdadc2e26b169aadf11e60e81a5fc6ff489cfc13e6e31484dbd771d0e 0xc3723f3fc316243df99091981e6bac0a7807147e3e464e77f2030f4225a85995 0x315acb08393a57f6dc07c089fea094cd634f9577ad950f5825eea41d9bea88b6 0xfd6b8091211f5158245c4585c6861cda681ddd99cda16d171815f881dff0c67 (-0xaf9ad4930e271a9ca3dc96182232e008e29f55830ce8d1001be1ca89d55799);
  SAdd true 0xccd39e05cf283f37e715f8feb997f41f85b222f95475014a5870c4d7c2bdb3b9 0xaed46d363137584ed083375dc8f7410b1cb62f04ad353b132741ab72959580d9 0x3b0d22596a1813ae083108d71d52fa0d830282b1dc1d81a1a3d1bb4c8eb5d8f2 0x87104905f00699a4d245a0a96645298129c1fbcf87054d5d4b494ebb279d75a 0xa3e1f2c7c528bfb880d848c54b88dcda722e5cd384389ca46af1ff944502d6fd (-0x6bb41e5bc69b686f66c990feb3bc29d7afa3e65dbfc9fda0e348fb275b05bec6);
  SDbl 0xfc5b925ee97660321b8dac20c252644afeb3362f6ef1ac62e00a35f1a87e50e5 0xf8d920561946d767aa71c457381d0335618000e4502dc31cf16e1e34b4ee7ea3 0xc2f4bd3857b00d4b1c3564aa53e6e73f3e4545a17b61d5d59cecf035b94a3d40 (-0xf1c443b3ea8b876c8362f1e344ac1ee8c2458a750937e5d6f16cafdca0ca3924) 0xf8c468ed378fd5f38efed59e49b9dfc142b715343e05fa1933d44b6f951d937c (-0x48f71a517d20520308a2ee51be5f00c8dc5ac402d87acf69884e718864a9c41c);
  SDbl 0x24262476fc1965c2bdf0961b251473b7dc5c8e629719346747454c1bcd08bdca 0x767649855efd77a958875af4590af4207e5a3b6bd5dae9d544d9f204b96350af 0xf560928365ce5dd4f20a6ba9dc920174634b6e675057f1c51263d0e74b628438 (-0x29ea147047f802b41abd56b851fa7f9a5dd4e025278f4cfed5bac1b25926e95a8) 0x51abff054866a4dd40d0fc138f9d45a3f3f394e3b342d55b813359035ec6a91 0x12695373cfc1e52798f6facee8defa13872d5c4f95335e6467c1dda8f44d5af0;
  SDbl 0xd648d0240f7864837a4bfd908d2ee66ebc241d164a3c74c98ab3a8187c5ff954 0x363d2e3a403fe54f5b02493beb2a9390ab807e8f13619ade981f370455bff8df 0x7ee1a05ac693987d4e763c54aa29ad87afb523f9bed7c04650d61d1e9c89612b 0xf65542fcae72add13c8155ef098999e37bd39fc17ed9191772d581b1ccebd220 0xb35dd0b2babe6aaf134b81770d1e153423f3da7889b252b360b0fdc9695a16ad 0x35c2011820ab8ae05a0de2fd6e45888b2b0925ded119601371485d54ffb9c523;
  SAdd true 0x2cb8d097ed1234ba56fdc0eec890ebcc9a8031bf31824749ad696ec20c1c9f5e 0x42dda417737cc54c94de862f05c482c2fff6f944f2d58609c6688eb3dd2aecf0 0xb4ee0b892bfeb0442bc90c771236f87216e44f58906239185bfb21aa3083c074 (-0x9b37726fcb7545934bed17fab8749b9b1ba89dd4a9df416c712b99833a07bb) 0x7d00d20c5aa54d3bc2254069b5462e6de4e914e5f65a4e113dd06a556717412 (-0x234b1e09c1aae3ba9c1eed703e031b3b23fd3a2cee60b2cc95973a28e3ab123);
  SDbl 0x809fc9ad3c57605a2e5b7b932b1859506cf3d5edfa6c2cb3d7c7f06d822b3b79 0x96ec96c42fec75e056a8f624adcdf4a75b58cc5fd0c79767f8e1518aa720bf4 0xd993044ded4bc96485f74094e55cd42c3af79edd92990d86515f58f5ea4ffdcd 0x816acecc3b4adf7f0b50b1f187653a55d3a1cc42b6883120fe1e6ffbdfe8bd55 0x40a02d69a10a00495109fb2b33ee21f3459349e0575728f22dbdbdc27850e6a3 0x1cdb466e6c9127f359e5ab5844d08a245fa0dfe7611444df25b4c8fac3435325;
  SDbl 0x778e6ed5f98764c546b8887adc5102f6a21e50ee61d8200b0ad69f09f894790a 0xc88acb3d316a6af01e45f094af785a48702453aae51c17bb06c2571314cc792c 0x4d6f5163bd865233e7ed8d1e1f643f6244b25184b724b23d0601848e7f79075a 0xca2ddb2e150bd0f16baffed2e85831a35dfbc0a3585e4f14690dfff1906903a9 0x37d5ba4a4b2f017706e8e7c21fb39b8ff9b7f43e5d51aba106fb91f0dce61cb0 (-0x5940591f3f553be8e6e7b94d1902f631c5aeafea49d727108dc47d614caf3ea9);
  SAdd true 0x994393b3d9b6d2b4351a1620e192f4a7c6a2f49d839a1f118b52d82363f47804 0xfaba395dd86fe165141cbeb96d6e12aaa423dc0529711c7463bfa387f9d50d8c 0xa9467926bf0ed321fbc489db363cd12e771cdd9dbf093dd50f81232a7b9dc4cb (-0x59aaf0a324ac1cc8098e81c38eccb8c48effba4b71ea4583c41a284796ebad26) 0x5bc1d863fb5a6053d1f46b32b45ebc2e41470e7a96f152759ae5b0c42a0a3b6f (-0x1e0b982ff27e5e86fac29a1cdf88aa0fb32eacb54823d0e472977468dfb9e25b);
  SDbl 0x98c6506e68be6e51e1cf3de21eb0e2594401fc77a51b61641e6ecf4d78619894 0x23b4cda37c7916a8dd134dcd54058cea5f36202ca0b833bfd5cc68efc208bcf1 0xbc1a50052247daac92cef3642eab8e137d3da7469ec255bf6a4a1435684ab996 (-0x216a6cb4ab8e412bf5cfe6334e0768354bc14352df18d417d32bf38200ee40d0b) 0x5b2c1923fb9d73cd11e21ca75d702eb6c7d8c14bfe751fc0560aeab7fa9ac279 0x8051c9b6e708203add05bcb42c0f70129136cf6ad8ca0f5ea652786c1f32dcc5;
  SDbl 0x6e54aa69a0a0340d25e4ca9d2ec8ec4f547fddf7f3d8adf5dce8e07ab27bf164 0xd2585ec731145d37558579b243ceb4a65ebc484bb4fb6888fe6d51e176e322a7 0x93560271d20399616b0bf366f5a1dcd4f4aeeddff46a79364a69eb998bad5387 0x933238b216911238c2b590da192f7065055e687c13e0bc00d8d3ad05c1972770 0x2f8cde733c58693a9edeb3ed2763bd4332da49c92b6e5168c3c478c0113f2d79 (-0x4b440a49efa1c795b7822cd847d56a8448566e982b3741c8173ffe216285e1cb);
  SDbl 0x7b891f5d1e3980fec753faccd8f0267191cc82953c981265654bb325e24ea326 0x84a3257e1919bce6cf3ad0ce2f8c491f113313eabae443a4e3e3a81581e2c6c3 0x9be37454b2a8f8f51dc8f3465d69d54d7af4b48426ad61893822f2ec4c43dfd1 (-0x1784cd17fc075013cf6b8e8d604079540461e78a03fdb681961d33e802b865b44) 0x3b9d0d964c2a584816fd57b4f1a25a20d3cd732d2121fc4321890ea58487a26d 0x257fb20722154cdaf2337cfd869a9f68926129b69d238e8c97782210f7e96380;
  SDbl 0xf4782e94a9ccf1f7278fd98b17773ae5aabb83b54a5683090dbd416880ead2a8 0x33e67a1a98ddb12c512a4ef3eba731ad7518d479b5320b1b1f438f6e08c9cbec 0x2d7a1f6b985140d2c53c3e29c53d031c8d6bc265c4aea05990a308832753e565 0x5b91ffd14147dae17d9d4f014dac9165fd49e0764c9d40460554d89c937e0348 0xe975513800fcf1f468a91309c92221ef58e1eb321ffaad868c4abd0b44174b32 0x4d19ba7c4363382d42964e926988bee81d4bad447022db1c8049bf98b4e8ca1e;
  SAdd false 0xa266914038d36a29b20099b0a44be297fb59c071e436b1a4ee27e625cdd70b30 0x192bea8dc7859803dfcc8f12e34ba0106b9f5b8e1e6f9a333ccce9c4cd9b8ad8 0xeea5ad4aad3813298876312edb63fb74d9919f1ba0c0bc020a518b4bdbf0ef6 (-0xb7d72897ffe445ba8604494378524856c9526a455bdf997f6709ee0d3be816) 0x6705f8edc088a43f13a0bcc5355ce4e3dd849f4a9a351a749705264d5e94a28b 0x10f4c456bf6b7564524f0bb30fce04ae4a5089862b80b433de32ae1823cee49b;
  SDbl 0x39e67b4408f2e2a2fbd4b9b5d0cecef07f9068a1da9a0295379274f881fdfa1c 0x453b028c92b80d12195fffcd27f1c3bd0d1d83721f4025849ec9579895cda0d6 0x8a56dafa92c50927df95502fbebade7b4d155a007475bb932cb2190f969127aa (-0xad9a1df026bfc3cc7812a47dda240fa955f10477f2471fae471e9c12a6fb13) 0xd18726612af22700ad178905c7db9c2b7d0e1d5b9723a957fb342d9a9520376 (-0x9f7071e4a33e3d8dcbb90d1dd63090545cc271ea250b9dc76457cec22b55598);
  SDbl 0x592ce64a0c91a5567921f7b6815b5b4fca7443f7779a3fc12269d9fb5df7e807 0x6432a1a03856f9a54ba209c745a4c60b0d737363859b3e41f396417a329e7c95 0x314c89ab22e7c02174e8372254790c8798637bace7c896b422bd2d353d3d4d52 0x28365413e5f0284843c60831e69220675f1fb3c24b4411512fa6bf82e5784d5d 0x1f103fff946afb0784472ef573cd4edc6137d417cf563faf5170064ab86b0e10 (-0xac984b8a4c318793847d585803c0615861cdcbd807450d5c1f855d5330d70cb);
  SDbl 0x9f90791917289f4427927b07e454451320f80cdab253298a0efab1a10374a42e 0xbdbffc29e9e74087e109c6929fa798c7550ad88f16c44681281e957ae35cb9e2 0x6d9a5c30792fe9cd02491f4fc74f431f353dd4e8648289f34e50b5b8e29b112d (-0x38321118dc3b7bbfbe2b297d0db9e63970497ec96a455b7dfaf3f1b5e1c2cd50) 0x6374c7f603bc05d9c8265b40990fd06d318c383899523262b9a90995019ebac8 (-0x37d1551b4140a7988b2f322b28d59b89e6801842e51d18f7f307785f90cf49ab);
  SAdd false 0xcce78262b90701c279f41ec308aa6a611b40fb65b38a63d26e69462959a6b163 0x4fe6f733b08a4edf7b4f0ca5a587ad0e25522f37471cea3870c8d0e78f7868d8 0x60658d865e1995acd58fe53d054d3664ee6e3683f16ff045eb76a6cb98ba2cf2 (-0x6f3df1b3431e0b3b4667bc0458d41f00adc0274f742458f9737d9d857b409d5d) 0xa401c92a8b77489af7ae6daecc85e565cb3e51f8bb7fc083733f625448d38b38 0x57ec46ba98cddfd45f1d45fd1c1093d887906d57d1122d6ff02bfdb72785fd41;
  SDbl 0xd4ee0b1a07a4b0dba1524f91d1ba5b73fdd0ef69de9a8f6a0e26678e2b8d2265 0xcb6466fc08f13db75b3e512d0844857b93af59afea4dc8a7eb9662a6364a2a2d 0xbfa61e3c8b8268d87d07237268908ff967c16d0da742c57064975071943b1a91 0x558a60bd48257db7c8403f9d4163943c96665c42645778e4a6acc8dc8ae4e3c9 0xb11b1fbc72a55a2ec316db1d278c16ca6f82cd5e383437cfa183df0c7f5a0004 (-0x66b6b48b2e68f7e7ad023d25af0c6e2bc1228b9c8a2d66785db4a93c63cb27f4);
  SDbl 0x38c11d5cb7fc8d6c4379414e483e9df71e1f1c692e359704f5337eea45bf9028 0x9201dbdbb7c9540056e7c6c3ddc2266b367b291e3ab6bcbfb910d8d7b690b0b8 0x7ebd4fdc1ba9d3ac6bb8542c4d0649a12069ff1bbc85a12143ee4a0813936c08 (-0x18fcf5674034d039ec6b63e4d36385f7a800272d5022b63e862fbb2ee6fd50998) 0xc950e85e63f1a767acd1c4eae20beaa262514cfc13ab4556931e1f62647fed2 0xcb8d84ef441797d79274898166630e8245915562fd084c6f806064d3736bc51;
  SDbl 0xdc9bdab9c484687ab6f6a65fb10ab1bc778f9b9010ce1d7e0ef9bd5f4e07265e 0x6d6d8e3e65f9f621501196576be4a8d9c06ef0e5e6b313755bfc0843ab683005 0xcc84de01f2d34e6d0a889496112fd006d6b2a26f2a36bf732f80a7789fd75b47 (-0x1f62a94af59832dcbfa0d758cfd60a6d83c0ae4b8eb5ab86c681833c31cd2923) 0xbe1c3ed29fb4b43b2ef1364d744db72a1afe18e7c4be94915384189ab1a586f1 0x1f85b7bf256cfa259a3b77e71af3de1d29aaf9720b8ada355c3ad2bd888bf395;
  SAdd false 0xe997f4c56a27446fd319584ef03dbb8ac59abe062bd5fc11bcd1fc26c25f5872 0x90ebf5e8293505ff8cd89700c1721dcdb962563f0f8e7c55b47ad64b5049dfd1 0x5f99e1f573c4471bd3d32e5a8f9691432ec199d9f49a2a4898c01785647dc460 (-0x358685a334a9645b1fba578a4832cff9173c817e933d67b30322a0a744589a4c) 0xd525f5c2db4d95408c65c91c275cdc9de940739ceedba041a9a9ccb0a3d3f1d9 (-0x20631dd8a2016382f54b5481219ac45232173c180f69daeb0092c1ac26087781);
  SDbl 0xe25cade9b67b73b7c90b6100842f093036ae5f657350d0b5ed92aba2e0595d9e 0x82b9a16cd2013bc580eecffd9037ec8dcad54656aa5b993c308597c290995430 0xc83cf4bfcc90c2aba4d0927416fbc1118f7c342feaaf80dcec0b79e94b53a08d (-0x4d0dfef3b2d6aa01eb554fe1e76c0cab9e6c6081df22bad4343e3f47dc0ccca0) 0xc827c49ee47a9bab18be0174cb175681ee145288870dfa2c2c7b315a7714e64e 0xc8d925044e1804da2641cc26697bb5587f9f9f1f53448adaca345f5d328ba8f;
  SDbl 0x547d5cc629e110954efa2fb41c9e3dc75b2ee04ec281e2ecfdcef6a6080ab5ff 0xd3d728afff0b071a42a8ec0aacb8e68e9888e89d54586b04395836c80e9b7a9e 0x67f103e62cf176f257aa4630b7bdb2794a76f9a3efb0daf4cb1746650a964a3e (-0x44170e6141e2b8ba5b2e58566b203218a6a2790c9babcc03925bd8d275769fe9) 0x1be28245e2822270a31046f963db493e66e464e67ebdc237aa149fc6867f8efd (-0x1ac5693298116ab5d6962636b74849b97a68f731062ee65dc9a45a84b07a07a3);
  SDbl 0xc96227b9e5cd880815db630f641ac28951cef01cc7f351e039c1fb36846894cf 0x79ca0d9dc94232fc88e9f9f9cdb44a9434b9600b87aa6f1b1b5f3cf9312afad2 0xe19762981ad9d59803f7643c61a5eb67faa56ef28d0556df702c74082bcf9a18 (-0x16a5cf8cf0cf1a82042a4de0c6f000a213963a2e76df642b13c264c542d16d3bb) 0x9e6b4804f9c624006313ce4071a86d0883c77e668a35a25acb88f50697b1f0ad 0x46d6d13f537872961a4ec6814a18e25b739bc484ceafe9ea207a338203ac9e62;
  SDbl 0xf35a5ebe50eae14cf6bece912915f5ba76103d456083d8474151f2778536e173 0xb43fae6120f6774c743e1badc5576e873372eff111c19e8359e2542e7a29faf8 0x1b9935f09658892319ee12cd6fb6c787967f11e56e15a63290fad10350110dd8 0xff12c98fbac70e163ca53337bd340cd6b498d085f23814c38f0e16e2b871db39 0xe754afc4f5d3cd8c300e1fa0263ea40137d0149319039b029f45b7317b7096f3 (-0x37924a96cf4ead32ec2ed5a5df1c2ec792f88c6ab33593686fb29a54d46ce0fe);
  SAdd true 0xab89208bcf6453393f8e96fd2999c8fb7294b25f657e1852c0bd79ebf1043c22 0x1f3ab9386b828c694a57b81fb44cd250d262a746847aaed1fb49a6118142cdbc 0xaaf3c6d503b144135cc82791ef2d00360f154a35ccf4efe999de4a42720d8b5 (-0x56c2846cf2140c733ac4743071c1bc0d23b4fa6e8f836fa4625af0c9a033ceb6) 0x72f07aef13c7bbb295ba55fcc56bfbfe9f1c79c362bd9ea79acabc133b8948f7 0x63da225bc8e747b0d9f82524457f66f7488e6e481b1563b0acd9643208f3d495;
  SDbl 0xadb03573dc6e72e6263907415140f78bee64303946dc3ff9f43c92c03ddd1ab3 0xfd64091ee899a2ccc03b21330bf6a3706187b0c7ebca3eaa31789e041745201 0x49a53713b9c1b737b58a36f73f03d68371c3bb8c41c9f3ffa2004f9e1dbbe03 0x311ba18b9d5133d4aa514480f311b44c56e1882b22a5ac77be6c83cc85e150f 0x75d7a188983d2e6728f75c5be1e31b0547ca5447dac0ba31d0b37fd2da231450 0xa717dd243b94b18dbe4c85e14ccd0f35ecae55abccd74f9e5dd77b7139c14f7;
  SDbl 0xe63bd6fe2e2dc275e561bfb0f2f7ecac459f370ce24d5b85d6423847fbd198f0 0x8759e5b2d385860a7fbe0d4e518b34b3f925fa5a4775199e5d990489e77444e3 0xb6031a3f92763442e948f5f692f2315977ae42fd2c7429bb348e8c61f5e4c850 0x5570829bf64594da8d671a31f532b6bd047627a00fd6ed1cf5218f036f81660 0xcf0f944e57c10865fe83df6938b63f831bd20a8d26aa09cb2f2795a8b71f07e5 (-0x6b7c3611be01acb0d0043020bfda0b48e067f5f074111ed00b756f41af9395cd);
  SAdd true 0x594843d18731ec2085c4f254f061be07bccae8317cd66aa01e8a9371dd8fc5b8 0xa716073b9cde1127aa023ccd23366dedf67380689193744f47a9dda74b9fbd49 0x340289548c2623ed6bce9bb205fe6b4ebeffb5ff6d2ff3a2c7ee8271a58aef2f (-0x1d7fc0add821d1d499921742acb77b6cef62d1a53b5c0e68f58495174943b790) 0x1f23538e06f76e139ec7e1410b741aa02a1e3f4136da4e11567dbf2c3a1bc2b3 (-0xb115cfa3daa599413a1d3a9ca0991651a32fbf0e2943beb212013b8a2b14131);
  SDbl 0xea52e3741c940787dd662f9e399a16678cb1e5b500b7d792f2c9c42a160c25a6 0x49a78a4dee609ccb86ab1b4b6ef4742ea682224ea17bcc40d5676391022cff0b 0x12948ed7b63483024b515b1f97f2bf08c142cdfd0f4c346bd4a1069b670c8abc (-0xe7f2ece5bf75549cfd92087db4b246762dcbd193d0ca04679fefeb5101d12a84) 0xd67ba2a79b33ae993daed01f4b26381eed784979b673f29196867d5b845311f9 0x55853e98f46b48da953d5417efb3d0568d5a77930a4d621a654b2a1597c927b7;
  SDbl 0x69c971d8123634c7899cd2666ea2276c7eee908255f34dbd9183ca8b11769ca9 0x3a9247aeb81ae874325a9cd25b8b820d267db29ccbbea6b62b712c8491a753f7 0x10ca6bdf307e6c91ea329d5f31cc2ca609ff8f1ee8d0f8fa83bbad445279452d (-0x3037d496f59d0df5d0c7a7f1af0e7f63f0b20fd44bb826cef743a7d9b3578cd0) 0x2bb6dde7629464c48a2a04b9fe900566db86c51e2c7a2e32e810285d5856ea7c 0x63b96b9bfeaf7fe0c0cfd247bb002cec0cdeee5cfa1933e77445e42cdcfafb5;
  SDbl 0xeeb67b27dcce66b0656ae6f80af9c9a7caba05d20830a4e9f9f51e1b3880ac79 0x519faf2dd02d49594e6e878de596f61c210be0cf35952dc7ea3277fe02f4384a 0x7cd63837d2d4e76a41ee927b1ca57aac606e1894d54958acdb11763d9eee3bb6 (-0x8e383a6f36cdeefdd52180c646497fb1186020075a643b63188d8d26733939a) 0xde97cf125514dfdfb07c0b71897cd312762d659f89feb4089f71875f49100f07 (-0x157ee4d6d9e207e3f6c438e127102c18058a581c4c05ac39175250d28658cfe2);
  SDbl 0x7e40dcc8f9d91f8928d9c612c088eac485a21561c4b7673cadd5b713f452135b 0x67715ac714dd4c1d9ec34404467b3b4ea9a1d508faa7ccb8edfbccceb8ea451b 0x23b981c9c02c096500c5bf31f02d0d6db53cdbe5794b991503521d48a33d93e1 0x2d0ed0653df7511147bd5300daee8927e85cac1c9262e05c73b17141f97de8c5 0x3e43e9c5371c9c948534847770b2ae2233d9b7a38c62e75e09eb3412df101356 (-0xac2b9b1b173bf268b268a2609301a92b6c9fa957c3e6d257425a13d7d781f1e);
  SDbl 0xe0c6eb9dafd61c9cd3434c21fa815115b587df0489243d8df4924043dc72336a 0xbdae4496a03ca010f6afeed6993e84bcce6892dc24a78327c2c2f44fd31b024c 0xd3f91786d7960b7b35a0558c4f0343dbbf7070220d35db920eb2195578f7d0df (-0x3ea913e0379301c56cc1bb42bc343764f7e6bad778556c3b3cb4c6727c4369cc) 0xc55cb6e609da4a20fc144de12791c449de9f7f1d744af5f8ae8229214034249e (-0x4bb84f11c56a31de6db6e06d6c6580cf8b6aeb80b5c0a5f2f8a76597fa1981f6);
  SAdd false 0x2b8651ff0a025a94b53eaf38d32d1e94280928145f2c40f98ce3a3b6f7eb6426 0xea0e0dceaf7c30ede7432b16804703e37a1bc14b9191a976f1197adccfaf0c40 0x6afb814d187f16a52996001aca72463c53f5df45ddac378aec6d840c01e4f9c4 (-0x179e1f0703c18b69b4a99db19db6234e5813acb388c3bdbca9597b9cf629cbc2) 0x7666605a6050d54dcfc97dd49b67cb3a4e33aa5ac6090cac57fd6fb7d24cdaf (-0x78b5f26494359babd0a70e0da49d4bd19bebcf1248bacd5b569360fa44a6b25);
  SDbl 0x50ebb5eeb4579a330e7b09078c97b31a10d3ea986e06177f7642f8f2a623a9cb 0xd7a9cf058ee68efe8353d4b1a7509f357585bcca22923a56f2b2b42aa017f4ca 0xa1c233c4febb712696f1bb4baf71d1f4915073c572ddd8ea081e416a7861c5b6 (-0x23e56e36d98c0c57b4a451934961776d79cfd614313e379b4e114e21e0e3eb4db) 0x19942abccfd56d898499214bafcfda84470e53b6b9456f5d840110ed1d566651 0x5d042b6892b48fdcfccb989da145ef4c2ff737127ca0b4ddead9c5545d83ee8;
  SDbl 0x31541446b2cbace08a0be4a7fc87562e31bcce2ec072bf1053ea873d47641cd9 0x4369e39b12bebdc844947fff552c638685fa9aea9a3f690f30e6e5ced56fed4c 0x3980441ef179d119f69f3296b52efbe8224add97ae56ae23ddd4790782c48835 (-0x1e2b56639c803b7598a21c2d61b905c5f022b75f8ebeb8e0ab609a217b017f063) 0x9814b6069f3b8ade96c5cd58163273f1651d1fa49a4fddbf38d01932ad7a6ef 0x1c90ecc6acae5e307588099d37dad1380eb738afe7d274aaab65c5bbf2ae2c1d;
  SAdd true 0xc513fc1c51eb8c729001ce92c8dc818974c6104d5aa6c312124a4647b248aff9 0x52398dce5fdb580764c737fb85db3ad92094e22e44aabb42087bde5ee485c240 0x7da047a082038ae55ea9b705756d43de54cb58457fa8b38bb5606dcb785061b5 (-0xcd06ec5dd89526736a1197a4dfa48d1564dc4e1f85ba8f4100eb9e80e3f7338) 0x97b7c3939248371c7f2b8b7dc7b1eff5503bec0e22814af7ca12183f343bc422 (-0xb66f5f9368b24eb7e592c71550041391f11b2f809c3cd00f628a6dcdf7c28c2);
  SDbl 0x82b28e06553a5f2f9f7e757d969b72e4504751d8d15de613df4bc5fcff0c80c5 0xf01704226c54053b9142dbc21168afe5b493d9bc8ad6aa4cb4b869be8920c603 0x6393fbbabc1efa94ab930638692e777770ae590c4ff02e65afbe1da60298a737 0x310b43acd9563ef1d12695a71a3601f5db45b2c8482a12e26a39c0b0f14bcf6b 0x42b9d4c880e2a95619ce0035b290c6974e43abb2b1072641bf5b877f88eeb2ea (-0x509891a804c0719170a07f74808286c549785283face7e18b38a7eafedc79205);
  SDbl 0x3d56ea47a1b28e10c2650123e887cf10f14db64dc26fe90571b17c75820cecd7 0x4868f4b361cecb9d10e1231d6cfe3ac28ade589224c8a55769df20f7b3e90a3d 0x88b5f0c4cd0261e0f1140ebbcdc2a7553600f9c01cb87bda84cf7f466317bdba (-0x273c959d2eeb46fef38a763d153339754a92621a4cdec693a653dda4b6a245a4a) 0xeb2892870494c7963138ec8b0c8c25ed2f52755a7798a5adcb00ebd5ae579b2 0x282d679ad247e249bb53e12ea8dfc6d8df64cd84b3503750fc0f2bea997f29a7;
  SAdd true 0x72e6583d717801c3d6e9ba0addb3bf2046d46df5c2dcafea94740868d774289b 0xb797fd5f0a552a0e04ecefe4af993f61adf028f59a5d4584876cb9a16931ed43 0xb371992191cc3665fa0f5ac02129b38a86ac5f4427e4083efa432c04af201750 (-0x9b6a0754cec3ff7116c4b2dac4207a14fb2897003fbdb61f55ffbf7183cdea8) 0x3391f5d9997307d0f7740262970f880af10ce7b8965c273057ef2149237e9e6e (-0x31e6fc7147a42fb1d955713c122606a11528888dd299b28d84c49b7fde75c654);
  SDbl 0x445ddeb1f950a7555045452cc9a6cdc5c770963264b50d41a2356dcadacefa00 0x22bcc89769bc4190e7764dccdf912898e2f146ab7a87b9723737e852c954a818 0x628af38f32f22db5de9eea67f893e593367529690cac5323fdb07ef5ccaac92e (-0x12b28015bd21a60397b0f32fbcd49c98e9197ab0406c6e9691ef8c7b981a6e168) 0x124200ba2dbd265baaeb9f8dd5336cc1b215f719f654e5eb7785aa764f94829e 0x27c0cf24ef3b7be0885262d9252849e5ac9f1306160c57351f32eefa1fa4e27e;
  SDbl 0x2cfad68949972d0f51402cdced5f400ac2a0084622f734c850e482f9ee8ef755 0x5709c77d1072b6f9c4535760db0d06501f2e383e5f076bfa64bf636c16097135 0xd0c678a46a0264c361bcf9b8f483f0969aba479e7424ca82891188fec2f04e24 0x147ccec8a7509368f79818120676b2195410acd1018f40061aba62cd19b62a31 0x7e72f86f120b2f0cf44dae98e656f0dc06a0e132c586db2002998fe4b719f2c (-0x9307ad4d76ddec2c3802df046552de9dd05ceeca50ac1963e57b92d063d270d);
  SAdd true 0xc513e6aec09b65f8fbc313143ab9fd07a85f197cd8fed3e07d43f68e588d202 0xaac30d83e113e3132d33a427bbcd94151f10821f4248d5f397785a097b10d593 0x800fe1a38aa527fa4ce6b611ed2e6074855c2c01c6542eba11480c292d50d9fa (-0x1bebfe4b1da7537f8e7a4a817e8b360d9361915bb33d0972b8adb7054ba28a8) 0x97b7a29599f5ddf98fc8f26e68661625e95a4cce5de255d9ec548761ff738b (-0x407415154d571719c52575ec287e5f524b68f1c9e97350dea5e2fd7cd6af326);
  SDbl 0x1a1bfa6d5aa8c19debd5151dba034968813b64a9d9ae1dd1242ca55bca4d1f9e 0xde69364485ef0ef7ecad949dd2f4bec84661be9603c7051c1fa55713ae456661 0x27e0182c560401b17b00551f52dabefbf7d487c992fc13d935762e51cbb5d801 (-0x13b97aff839ab37c7e068b346cb22622022e348cfa77347b4ad9666253951c560) 0x2a9b1ed011edca1da4e4c5714951817a14f1d7516aa01f222d217b143736c03 (-0x5448530362a1c35e681c07dcd4ef16a5b084d139d1dfc6521f43cb9f508fce1);
  SDbl 0x9ab14cc4e29136950a39994aae079d8fc88278dcd890092691b65f437d1833fb 0x73b66d7e6c6115c7a1ee5b96f10a3ea9e05c87ddedbe1183ab26b4f650a4376e 0xf92bdcc8c760475b0367927d01861a675d8b3f1c416f8c0f37fee99210406097 (-0x2137f173622a379db318042d04aa46ab77f22df2c3c5b479470b661f8c523a5b6) 0x5d79cb287d574b93370584aeeb68e57380aedc9cce87a15ffd2d3eaec5910c17 0x407972635fbb67f7dd32af48720b63426eabb2f7af41bdd91c2a59cfe4cac757;
  SDbl 0xb4e5ee13f0118c9a02b45b0ad1d505765929918401fbe3187be78c5065356367 0xfddad1f871bcb6372d64c6f5561387a7bd24a960b2f78b9094f90b167b3299c1 0xfab7015acbfdca66cc4843d04639f1de30e7bfa1ff45bcdd57fd5db651e8f293 0xc33d0d4a1d4af4e457e2d82df36017bc3aa68e7abe311bd5175cd0d16fc8d647 0x7fd425505681665c9b0201c7323df099869abe7eec2a9aa3bf4a8111873c352c (-0x619da9aca6315df7406a07a70bb7e6b77f6a1d5ee52c1b8bbb78871c54580471);
  SDbl 0xa9e757c5a1d76665fb985b19903a1d0ed08e1135192c5f8f5eb2744582c08206 0xcce3c2339875b1c49026272547ecdf287944fde03fb69fec76f5f38fd05c4b42 0x26159d60007190ef52cf556fe4dd14758e1417eb2af54a1818b260c0c629d5b7 (-0x1a663f835de17cc0e9f751d38ca10182d0276b8c2fc1aac7bb39ef7fff093e064) 0x70c342f2e533a7733adc6aaf988aacea24412327463d226a342c6daf63b766a0 0x207f592211fee678123bad5ed3fcc2c39167e90c2d21b86fc54725bbe5f07350;
  SDbl 0xf89c7c27467df4bd0b93fea193b3c2060d79863a368da08654c73e7f9c8e4dd2 0x13cf6e5008ac2a12a1138dbdb0633ad2945aa4614e96dfd660f0bfa2dbe1da98 0x321fa84d681bbd1dc915630507db00f23f0c98a678d219bdf055e08d3c01ab85 (-0x1a1fae83bd584a9e0c163b5ccb5ad6cef82613285fbc2cf4cb211c4041d877f33) 0xf16f903496179635b5cd448e4b94d352decc439fde05c0eedfbffa741ffa70d8 0xb3bcd36a83654dcb549ee092adb61a144da46a0820202774e98e1a7c8b8bf3c8;
  SAdd true 0xc1b5d67aa741d23a5b9e9bde531019856f4eeece9e1033db249e978bbff1fc9c 0x2ff9eb181d00549f3756d4be4d889a14bcd99e99806979c8296530b3d450033b 0x1e09af9fe8d2b0fc426d43fe02e69e92ec36fbff533ea98c4e998ba95ec5ef73 0x176ce27b036d8861be3a5b4b490bc820835eccd273bd8a852c86b704793d0c77 0x9293ae8e7fe6bb03a80e52525b4191dccd701a669789b7a8d26ce0c98482d38a (-0x155009b6290f8af5c18d5286c0d052be183ff6309cae8ee20218b35eb3a42db4);
  SDbl 0xbb88582db84be23abb5b3e909aaf84654b4db60b4a2989c979d6cd1638cb2d9d 0x3c0de90eb6ebcb48069d41e7c647358fa216f34d95029614414ff1075879247c 0xb5b4ada76bc29f22d9db098fb58b111cdb0d5ecdad6e0e3ad86e05e90213c837 0x1108fca5961e20e31f806540c0014f9a5aa0ed8c4c2fdd83d1eeb31951672dba 0x8960797123929d71ca9410f2e2f4f1b7a757b559fa82da11b10b843cf1fa98a9 (-0x8d9094b1dcc2a628783180e5f53c5108c702370f0737a75528f1880c0897679);
  SDbl 0x229f55d511901c4437fc41f0d3383b33d374cdf734cd9aeeaf56acb221dde3d5 0x9f3b638e7c6e122f23130ce2d7d392bd3ad12f40d7c52e26b63011314b80699b 0x8cb160739700f62a2b7911e3bde4083e33e9acf91f726062a6d077db7734ebb2 0x6e29c67782833e07e211aaeb8a243aa4b5d3798947e39b0dd5ed7e3e04e9ea7 0x4aeb5f858cbfd7d823155eef04fc77e356792208b69c195a881f1fbe9ed435a (-0xd69c4c4c051f0a7ddbbc0ade56e7374ae58ec385b261d18124dec17349d4c4c);
  SAdd false 0xd9184ee69175b1437b29d8d67a314f9336a17436782f342d3bb5466eec1f1c0b 0x33ff503ee9969a3bb9fe2f9fccaa967748a5d08b6f9f62f0848cff0328f19bf3 0xe10c8308b475124c527a5f3b281bbabd97150e34996f90938b77121d545023f6 (-0x5bfaec4f99dc64208c42f11ca1d91d9506936e2383eaac6f216588cbc9c02737) 0xb81a38127e4054f58bda8ba2927fbf9f69494663bc5d46db2aadd8cd920211dc 0x5af01b0d80a86fcf5ae38686a5e1aca7aa27ec4076e9bdf779769323e98bd970;
  SDbl 0xf331c506e9ee5cd99d8cf2885da4c7d47af39cea0a3d4169601d73de2846208b 0x86e261ec343c467628f9e22b966f1d7d7e43e39d868acab83bcdd058b94a32d9 0x808a9d00d9768de7c208385775e0b114afa198ed0d4da0c0ae72ef443f4b22a9 0x18be618298eb29e17b27d06db1d00556124865053e57a3a5c44c2e8b8a905ecd4 0xe70785b90b6b3b765faa297d509eba3c28e61a4b19899694c4367de9cb065f46 (-0x4ebda709286ecffd0c45507610b7f72664ff7ba0333e77633f1c25dcc68a0a7f);
  SDbl 0x3c586b7726c0885b7f40b50d6f7cf4a13a6dff038c72ec7bc2e4dd210adb94c7 0xd2ae83676795533381b3d5eec01388b36ddb139130de5d8ed9693caf0dca875c 0xc1921fb27a4c99c3ccb724491f87dc69ff1858b4875379c79e4ec2406644a4d0 (-0x989b8f4dae9fd85fb2a4573a95f33c508b26b6b62e4fa502e76e0f909360d6ee) 0xe3990e9f76b470c98d2131fbf7a481ba540ce1026841880c69b081b116e3a5d (-0x11de05d60d9be89ad5428fc2595ae396a9dac3962f2132ab0f77e58d0fc1cab2);
  SAdd true 0x59970b218e7487ea2c436bee1157d0a59227c5aeff695677736f06880f0c5bd4 0xd413a0c8630268b282c37f759d0bfe7dfbdf05e844d68cbc137c24fad8aa4501 0xb322b838bd3d944c07d6fbef5cfc083d178162e9c84a9b47c3bcf1abe169720e (-0x37f6a5029c6bf9fa61959fd8cf3f0852d2bab1226c0b440c4a98712fea0c59cc) 0x1f5a5edb96795978cc7f180e198a9f515ac97e5a0e47306bb215b29784f0d994 (-0x7cf9ea932ce0e436025b2c59d71b488a7c80140592e8ea1a6ebff09fe3357e);
  SDbl 0x2d9b109c2d35df58a2b537b25054932303c3c9566e3471e1af2f53ba481d85ad 0xb436831bc91d791f094e8edeb914dd083298b75c0e82806adcb451f236f55583 0xb3304837ef8ac627d9dbff09e8887d73497df7c31787231dfb545f11d8cdddb0 (-0x1cf3e535b5385a7451c91a8b1fd4a7614ae6d1d0d8e08310eef9df1f9b86a14ec) 0x81fe1c40e3776738a4f77b2070f43f8b75c270b4ae9647b64418feb094aa89c 0x5ad2b299675087ac87978fa0d03855e3aba94f22032374852b1277ee13f0198;
  SDbl 0x5862b9db3e773d7f81784f03a543db75154940cdcc135cad178065c88e7b1356 0x663660b7cea9b249816b29627f177c6cb54261199484ccfbc1709fb8ee179de6 0xd963a0c27168e7acfdaa3a1a5e2df9d07c2c6dab583d262c0c496c96341aad6e (-0x100dab5247df8679a1151709ab32a4910260f26aa2a54327539298a5a586e4f28) 0x1e8405d9ac406f78b105c08315800bc4b500856d1dcfcd84a3fc6c9e5de86808 0x1aee2080894bd5d20e527f57d0b3e74f83811867ab379ffa208c49f8cf5d3560;
  SDbl 0xa678a83360aa6f324545e8ccc7072f95870932cdad6b59c1035f3e50fa024abc 0xa31d36f64e7d81b21955495e1e9f04f567fb598acc1bfdc7a0ab1c3128b41f7c 0xc5ca4f68901ad1a5b349fd063122128f31b260e1d248bd94e3ee975b9f9c30a 0xa04bfdaf463972a6469dd94c67daffb01dd8bee2dd5083cce946e48eb8fd6e59 0x6c40b3012c4bd42df79dfd72b8227e1a81ef3bd433936354f23a1c2694222138 (-0x279a6324d15e7558161c8cc5699d4f3bdd7865de2dc945a65b6762124a5b0960);
  SDbl 0x77619dc59d2998068c823e3bc5e8765cdf73876931ab1c400fdbf14c37862542 0xb65db7e3562b6c46efb92bb0c399c05dec9fd36f272d8d58e61d40cdfeb71c9e 0xec63e31b6ce8dc62805395e5e6bef164ddf6b230d67cc932cf4e9abd7996e44e (-0x12c43172bb4a11bdb71f05e306bbdbb6cd68c7cfce211e1b8dbcd2b8b72e3a8fb) 0x37abe5e6e0c5a612735544474420fe4bd438f289dd425f5d16b02bb2ed9b3692 (-0x8fa533c7ce2581eeeef85f6d8d22519cbf29ae10e352ed1bc618e6463482be4);
  SAdd true 0x17cc4177b95889e54d9540407ce88c13aaea49265ff87f0323677289ffa58bfa 0x2e2af7266ef30622d33b1fdd271685e6debf60125e8b551b69bb333c73a284d3 0x2d9c5f0ac7fc47e5863bc0ec18bee67944367a3a3e5d9f18ddb8355702b0f3a4 (-0xc3bbf7aa710628cd11e62fcbba66f531d19b0f0b7dfe3e0264ec33a72804eb8) 0x23656bbed11a8bbb2fddaa61da779ba213542673ba212fdb2e10815dcd8a614 0xca93a97311ae3528d70fa7674a98c465911843333fe5076d244c05270e962b4;
  SDbl 0x2dbdcd663589b19343cce6404e15b303f40ff6856093aaabf354202434a26ad3 0x9a9d11636c2bdc2263e89eb6fd20a085b9e3853da45cb776c775afb45db0fe9c 0x1483d87803def4e0b401923e987d274b1315c96a3d5f680da3df1d7b6ce105f5 (-0x8adcc9891d1c9614242400d21a17d19a5d910e4f74e17343c918e7a1f229ea0) 0x82c46eee4b6973a1950663f64a02ca36d15f29ac1e51a7a7b3ee8642d569e59 (-0x136075dcd611a53c19a30c746128b9ea52be22fed0b771716c872143c2e06bbc);
  SDbl 0xdbe2ee5efd3130470435dd9d89707c1dbbe17670d29e3c2e0f45b1ffecf49a2a 0xec46016e2b1deac93bf1ab9e9c3b13dcb0e2e5412b0cbb027ef16fe3170c195f 0x69cf48b7ef8b13bab70c209967152f06cb347eeacdd714c5c59453350693b222 (-0xf4e61882e44a9959ebb14892b5f8d657eb79fb829ad8b93191a90f4e44daeb37) 0xbcde0d00ffbc027a1ea15d9c142af1bfee85893927cc4f1adf6bb5ac258787b3 (-0x4623e886bcef542e72827654b79d5b50ba5f5c88da81f4d0886ac9660fa395eb);
  SAdd false 0x2c341df9dce98dbc0e6965033aa31736b5f19bb8f5d1f106d8572053b8f15c32 0x2fb909281beed29e0749a3370a5bff2e8f94f28d50c46d1f25987528c0176f8a 0xa50f59793b163fa04e726854a177903025bbda8ebb9de471fa4bb9278756652 (-0x2007fe4d18d008ed046271773b8d7a16565f2c627434add358066fb39a20dd13) 0x7a1f4ea1c968c70bd0535c153f6670b46cb96ed43b0b85842be0a12731803ec 0x208e9d62995861065d69e5d4ffbe10681a987f83998246b149e0b8ae9cb260da;
  SDbl 0x6d222ed01ab34b1719b819aca19dfd1f577c26fb1659f0c0ca869a35cefa686e 0xe56c1fd2cab55a235941dbd9a667486efd2eeb54ba3f33dc800cfd34ed025dcd 0xf00cb47f5bbbce4280237e842de6d1217f1b12eb5df88f08b04aa052a94e0efa (-0x11e4b2e6c78dae5feefb4e0148e4cd4def357e7829eed604b198f5ee05ffab4f) 0x2e86206ddd1958c350422f21e1af5113af28351967c433703f6a5cf943bfad9d (-0x4d7583a9df13c9a35c6bff0b7665309d5b9e0fb46b8734731da6b19a8910f1ea);
  SDbl 0x7b64fe19b26d958141e861893b83520a39091c62ca6eee8bc3987b26c2dcaaba 0x8d86c49c658d07f211d6d6e53e9a294794df2c40df9c75dbb9b238e31daa0dd0 0x5c5b5b99849b09850aecfe8e0bf8f6f1f8b5d8bf3eb9908729651f0ac27134c7 (-0x181663fe6a9e198ae406e4449dd23323c1f3d92db411035bd3374af1cd44a08d0) 0x3b7a34046d39e7f139faf80fb45a05e5b9ead16fd331029e2707971d2e233a46 0x2a5ddfa95160bcfd8437b9f43c7102b8eb5d937edb00fbef552d3d2ba90b23ef;
  SDbl 0x645f5d658b10e8a1b8015afe6354823bb73c950cb937411de193f4d1341a26bc 0x1e5aa8b33dc3eb5cad7933e89cb4b0e1403da4e045ed5dfde8cae7a4b2e3ff96 0x5c20d897d0167f4a841c0244f7d20ce964c90bbc3e7933fa7ff09b84d2f9f33c (-0xa24d03d3298ecf6afe557c548c20b9baddbf1fc12237d0faa3f965fe57603d4b) 0x275aa47def70001a3f200d3c3824694059798db86cfa87dc7123180aaa2bc126 0x2b96a4d4b995f900fd132b589ea790c02a5cfc07d099ab7ee4d0d4848bf8196b;
  SDbl 0x40319a02b733543e1d3256f654ba116a8211887510dc7b70084f3187de8fbbfa 0x82c345df93cc08cccdbd7732d6e3e5aa01b228a463c4814a6b00589f911b0813 0xb843a8006c39f812eb3cc8122be85cfdc298a1ee6b45a019bfd1f55f8c202f83 0x236800c93f7f92b3cbc6bdde4fddc61643edffacf217fbfc901991fc8affca79 0x1018d69dbd63e6d42d06b869215056c0410b4f6677beb9dc153e9783d38fd71b (-0x192d9bb94364eaf92d62fd1eed2535371080b80ee51b56afa77798c74821442f);
  SAdd true 0x26cde7979ddd19673c4febb291463040d6060bdcadabee35939ea99e2c9b9941 0x7a8af4349b83e72c6b09126e734dbc14c2613a8d82d1fdd6f90b0636bd621de8 0x2c7f3d03dd65053a5e1b5a2bf2ab1c7545659ed83769a620788f61a017650ba2 (-0xc2021c24589b7c6a3e8b6f5937ede2affe6096c9ba44f34e011296fe4666c97) 0x5e1c65dc31536b3b858bf6b17d80b7ad6278f493b3d17a77afacae23954d841 0x13ef8a877fd94cfe865d9e8c8d0f9dddd268480c7d9705fcab9e1193195133a;
  SDbl 0xc88a356ce49b4807bf90dc89d73e55071489e53428fc65ec116342e6f212a26b 0x73c3a2a58babbbeccd539a3d426a7384c217e9d2fb4274b26fc2c4d2a1232188 0xb5f8bd1492576959a4d7c8e499273c322828a996cdd12b457d532f9c2112601e (-0x6a4359750fc43d103b668f35b7f2d1b43c58ebad57536a0f868471d0f09d9aaf) 0x9d183e1866d79b0825816e2702da67e146056fc3dd48b89212f4908e91cfc49f 0x54f6093e6d574c169adca8b5da19db3e7cee0b82f4a682408c8dd440faf2fa0;
  SDbl 0xd1cbd9f7094e7aeada50cbbab9f2ff794251aae55daaf254d9fcc49e143a753d 0xe63eccbb5839c4e4947f1e408019adcf5950d032c3944ffadfa68bd18feedd5a 0xa085350ce0f63740c44452b5450520132eaf88ab67e1da3f8ce1c3a6e38265d2 0x8d35e631257e7d61984b31f1225379166814eeb22a8f4bee2999915af287ce71 0xabee7c39707e1f8ddb963c59c01f0187cfa89ba02f6be6ca07ccc67ff4e04fe1 (-0x5dd1b67f68c662d8e099b8754008b6de0b87e70becb9111eefe5666a02747f06);
  SAdd false 0x478f4f5db7a76cbf6b56ae07a1974d2990aff4766aec0a42156ba8a461763923 0x7589c1ade986272624eca1f2457f37510dd39f4abcc5201b03718011c471e0 0x452d91606615ed5974109471cde8e22f3473ec70df476f16658fe452fef7fb1 (-0x322b575560912c9159ea3db9a5b9348ee8895968053b7883fe1c8b5f4a7d4f5a) 0x1400ce3fd32dd345c715c4f0a70769a525713598643f107cbb30501d95fb2938 0x403b743d228f5f803ddef7a69dc6d885b8b81f8931d0322d2600df419d7b09d5;
  SDbl 0xbb526f6c64baca25f86ee2d1363f2ee9964a7bbfd4227b6b09a40922070504d3 0x8ba312b7bab06ae19d5ca08fde831cb782f18f729c48c88e92e216bd7a70e8d8 0xce87f3397dcc68ef46a9cc8c6fcf041631c7cdd91c39c5bdc1e57e7278fe028d 0x653301727d35191b11015d1257915f2cee4d56a2366b54b830744b3c9428637 0x89118954762a21908ff93ba95264ac42fb12dc398c1b4d528cb39554e3a486af (-0x65d71435ac5842d2f8b7cc83cef745aed9dac47a0f913bb7c2a4147944388f5a);
  SDbl 0x1b6a441a830a60e9633ace7583198198e18c0f63fef0f1d6b490695e3827f084 0x2870f396ef4f3bbb3a458e84774fb1a3728a15168eb6141f04e2bf379bb19471 0x409449d65e37b7b4d43574b9b9f7cb35363257b7dcecfb1b64223c8344f1e930 (-0xb84356d7400f37846d428e1171e8722d38c9ead698f5b1fd7ccc54f82f585eab) 0x2ef967a12a663dff38643d9ae9862e9b68317133c36deb6e934844da663a211 0xa9f766cf9c9776e3e9f6389bf8a32dcb7c0e2aecd381833c46312ad2076d6a1;
  SAdd true 0x1f23374448ce43fe05b680ab85de2b6f6d61ae6bcd4a841522441e39a0b98f91 0x4d0b03c2df03f0298c09a25fe6a24b3b5d07a11bb1640e7cae67b2ee5a8118f9 0xe8bbd9dcb2dc71a5a9586f723d33495cae0d0772bc9c53955ccc44be9a16a7b8 0x1418f4552b411d09e5a71ad0c7889be9a0b0bca859424e970acec339c18ecba 0x3c98c3ab605d298365d8780c604cc8ea4a57b42f6b6af67e66c53271969d210 (-0x473b0ec694ae6e3f1b8cfb354e3cf6dbd5ccd1e43d4714c8e7256925c1d6610);
  SDbl 0xb2df47011dab6fb6836efed2efb6b4792434bd4bc3b5e36f2bda558a4c88ac69 0x92ae7d6a03ef63a498c424a051cfb81c8d088101917ff124615210a9ec37a046 0xe26fda5c8fb906ad1057aa9f8325e58baac17f7dcd154dd44cf658b9a713b749 0xffac51220a47d4786a72c1f608eebd9c5fcf9ee67176a6bc16467b7f78b011a0 0x7cfb417ad1e0f7f7975eb42740c7ea28f81a9c01d53d7ffc78946bfca58c8f27 (-0x30a8674e056042f557e9c0022b39747dbd702d67485103a2b457d10d9b28666a);
  SDbl 0x53a3a292e813c42ad028e679629607f9b58de3988df46effb204915844d05c5b 0xfb6f4abd3251eb5d0b9648ff75bef840f324f4a5439396f4db874b9daeb7e019 0x708d954a1c33d021be1ddcb2bc49b0a8bec7e33647cbb8dd8b47c757af282751 (-0x682c7851d0bcddf27d8ac457f9a594c35fcf3172ae999ebacdf649a19b1e0c7d) 0x1b538403cc222069ead77f4f9fa77479d8e457eb51a1dceac4f57dbaf9f5984c (-0x223977daf514800abc0c5c3809967d92576872a5857b823fba65c4b287cd9d65);
  SDbl 0xc06419f587a2a116fdb260589efad33365129c0bb19a1d391140b27c7de44d91 0x76bc1432ebe77a2c87d44691df61e8145268d46a086402ec8601df2d920ea999 0x2bd4e2ec3b3825084f07f99ae81b33a980a88f3c8c4c76f4f37dc544a29834eb (-0x23bade17595be2d98a2a27ca343782ed5ef0966f4762b4e1bb32e88fb49adfc72) 0x90964e15267e16c0259b9b654d96e95f09c9ea37c22709de839eee9713b5ddaa 0x63ba4c5e2cb324b89e3c194ab970f762e46f23a3a625feadf0e1dc2c2683fdbc;
  SDbl 0x799d16f138eacd0ca340ea6b934db9837664ce0afa2c9252975f013deaabfccf 0x810419e84e6a05f747e3f90fe44b82241d7326423744c5ed89a1695af5f28ff5 0xd11b76c7d5d7ab49d92bba35649ee3007609a9b487553e3426d86e670ae4f257 (-0x7b90bce97e174034949bdce82aae7956bddea0fd82fcb2d26c9bf2f2650023ba) 0x39c5e0156781feff6d51692435cb830605ed318b936bd43fbcf43159f7ddb3c6 (-0x4e259ca21439d76ba256e2e459407e8f47f4bc3e33187cfb0ac19953f05045a);
  SAdd true 0xf93709e8015d93435fa6da79640e2ddb61b06f70d3e7241d1b2f7f24ddc1ad63 0xc8ebe061f31958f3e5c2fc712424be12756309eccc227b1189fb4063153fe7b1 0x10a5b0cee9281f8e93fc557fc5b28282fb69c79f173e4a08451d936502680f2c (-0x4c2c8271a04e17a79acf6931df23835efd310567d5a7a29af8cad7b02f6268ed) 0xf29c1d1b8756de24ec541108e55267e83981fb03dad24390b003f98b6bc9f824 (-0x45ffe5a08bb9246115af3eca877d813b249ab422fbc0bc9ae5eb606c22c404c9);
  SDbl 0x36153e518c0b5d0bbb359efc895a855d6a772735a4d8179ec28e7d308029f516 0x9b8f02e84faf211d293ff277ed1f7c4095c0a02d2fb7df12551ceca9148706b9 0x7edca3178528d398fe176bed3070e2d4da1811d42c97356933107c1f751f0223 (-0x1d20b8decf60dffb5e53b4fbeb80ee420386c15f44ecb74a93c406c61c4981a70) 0xb6cf80dbb0e56fb5ed4ab3a64bc95bce7d14d287719e5e9e36e0d38d357b837 0x9955a60cdde7f87f6986ddaf1affb524fcb33b607d5751d9bb8063f709e63ff;
  SDbl 0xb93a1ad3cfff39e18cfc67001120f93296d18284c6d09642420145fc4178a1ac 0x5d9d41be85a670cb1e7bb7a8c4493e4244f0268ac8962049bfadb6322d9ba8eb 0xc3c480ff8927ce7017224a753b29adf26ed367f66bc527a4b1ba9af2fb5b155 (-0x63fefdf47014e49398a6bb8b1c0c00e53fa0e1a601cd3de4e55af1112b494ff8) 0x860507f6d36ddec56ae08682fb15041ec7facbab97503261792c11f3074feacd 0x2cd1c3daf17e82362f860b5bc67cbcb87f23d3a0f7aae7bf340de8c432231f10;
  SAdd false 0x2075044b20242d0e2a6d4d478d402407a4e35e961728ff8ad34da862309e6f81 0xd39dd7973e7c7d80b1bf0a179ac0c3ba33d111a825cb6a760c1e081a8b92eb52 0x8fd12182fc8dbed4ded2a0972d4067672cf9d52645d29fed45cf78ef95e7f69f (-0x56ea825b94bca753ab809b8401886670a05982f0bb14c3e497ee674e932bfd2) 0x41d768fb8e451f16d16552c78c83ce8cd4a9092f03adaf94ea98933b8adea03 (-0xef602fa4571475b11411369868e1a57d4a23408d5912859fdb9780f5f6d3925);
  SDbl 0x726bcf66c256912cdc95f25d2f19f9d2334b24d65dde63c4f2bb27b318a42487 0xa082c8cd96aa279fcf421ae8794b2e8f9c990785f0dc03717fe9b02567a2320c 0xf9c08d46d7ebc8a3998927496424be4b8a4d27568566a87ae9159201b38014ca (-0x18c39546f98d2f46f87b3826a0d0ef6243b3dbe074cc4edf00e206d183a33e0e9) 0x3324321ec027174f7f66964b377a3ec14dbf02b3d8ebe57a83e059785c99c97f 0x16d7924c76651dc7827a318b11096f775639427d524c828d3ed562163a907f7f;
  SDbl 0x3ff92574202bfa4ff79bc430ca33eea39939fd557eb020e367cd31e6e794e4f0 0x7b797cf194e9b328006b72c69dd35f9628c9ea6ab6a9fe18060ae44ca3690668 0xacd40c001f303db349d79dc3dc6a10edebc21fc05cb445e4c624f6d3ef5cb638 (-0xb118524560d08c66fd111c7af7cbffdfe6d50861c1ca70a4518f83fe2fd4b913) 0xffc92e9193393a346e2e76466b61e80802d880fafa6233f4cd0f994d0710980 0x94155211b82182f5fed4f3964841e83999742b109b795646361be148b95d142;
  SAdd false 0x9aeb5316ac01ec6f44ed229e15c29df2b4345d0282b8d38a6c6d1840e603836 0x7ac444c96ac177926c3a4e144b8b26749fc818c99ffafc89fbfc4e377ea5075c 0x6d7275684a654efb73594e43f447d806d0320ed5ba6d1a470f924d96bf81666d (-0x2bff99f5d38fcf22f65f79fe63ded106df0b8008c3da1066576c947c054b6e3) 0x5dbff8494b49c9d281b70261173018cfc5f47a7101e0b58808aa0d3882d727 0x6daa5d87ea2d5a7329c1b156bf2483df865a6d5af84ee124e2c47c13bb01d;
  SDbl 0x9b4a776ef6c50e11939d36567d071a8e3eef2bc6c2e5d8414e309fb837bf62b3 0xed388e4d1f8c259100fdacf3d819eb0a3c7d817328facf04510a518fef1e7c65 0x37cf7f29f5956e7b50c41673874a5b512dda27ccf556fac3cad7286b396976da (-0x2bd6b1a4d8e72702a33d80f2f04538664b58f0cb7f997210d5d5a5bd679c3541) 0x5e33424a00e4e4c39e1a588336a59714d93957324d81b96c4606e731954101f4 (-0x456db385ee6e55829de1c397a98be75f53fca9abf23d90f9d9af9fdda2a3db6e);
  SDbl 0x3fb901114f40cae3491a14498733828cd1b6af079a5e0a597585f073ea77ac13 0xf15c48ff8cc1942bb71588dff1bee139d521343423b3029da1549c5f5f03fe40 0xd949479f7701b25f47af05a76cd06ff851e6ed6d63cb36f7eb5ae7588772b109 (-0x277ac80faf2cf4dbfea7675fb9ef58be54ed6359888491ca918f3520b55ae94d4) 0xfdc94391fe427845b186b92211691cfe30b50a7405e5d5238c407e913ed6da1 (-0x107c8c8403b05b751502c22bf6f0b7838537b73ae3c00140bb491e6330f10dc);
  SAdd true 0x17be48213b8c885f1d9f72c214c16674fcdbd576fe668c34944bb327e091dc45 0x2a4c825b4cd7701cdeb9ee6f4f100343379911af5f54350736d65cf208bca1d2 0x7443cc56461c983035a55cebf68677e2897da392cb84a8e09e37745ee5985572 (-0x11ad49215adec2cd50d5dc4394067e4a0153b7fa3ace35c4094a577a2613b6cc) 0x233be65208e195019db75cdedaadf1c8fcaac584339b355459e0f40975c6a40 0x127660a4895090418d10daae1d5b1b572799bcd228696af107e2ff0c3e1294d5;
  SDbl 0x8b1ffe1ea5e612953f2d3a07aa9ea17f5d9e279a969714f7d58233d688498c45 0x798a6384009601cfefda5738a0192513244ef0581cc56fc1d0211043cf5135db 0x13a2d42d3e199e2934beebae1941e61e32c208adead74fd83a5e9009410eb6a1 0x69671a391d1717f3493791ec352a50e2d96264e36f7d9f9a894009e15b96b155 0x4b9bc1f51b709cbb887fedc6405b79e790a179879f99575d84518ea14494eee6 (-0x2b1080686a979c2c814a7aabfc6c021ac8c0473b94fcb2dd2522d46b13c72180);
  SDbl 0xbb90eb8528f408c0cd55e233d1c5973489d7c61d1e5161aec894d5be7e62f42c 0xecfaaccc289faaedca24d6d3528204b2ac90e5e5cfdf65d74792e567c1553374 0x4746903bad5eebe70a1cfcfcd4dd3a69145030924c3576a0b859c5ce56e1f52d (-0x9056395d125c7a4a7658e1f9741a387fd37f031e49c84cb33d5274c0dab67350) 0x896d0a1ee1bd5fe602d015aa2a19cc45297e7ff323356d25515bce043563b79a (-0x54945ee5617cd8868e1fd980ec12aeead4a1d20e442228f1a845a4689f17e9e6);
  SAdd false 0x8ed8142352b189c1371e22593f53d3bd3f6c50b1f9057da6e266dec8b10633f6 0x2dcb60a34cad1c2e0c3fd3e661d3b82a5e1a1ea415737059495daecc5a8d3670 0x39ec4e2a8de2ae3614143bcfdfaff8385010927f811afdc52a2685d66cdace0 (-0x67e71f71eda453909457c89f219f46d7be6c92dc268a08a0ba6da55928aa3490) 0x4fb46cb97ca276efc09cfab60fb211dccf77460aa8117c456c096d5ca91aee47 0x6aad9b316a5412c697098a2cb78c1f0fba018d8f5e0b27cc5f04ed9d7002b435;
  SDbl 0x96262e054c9235e4e77bc5318be11880bed2384e5e474e2a39a5b4a4c4ec3aa6 0x36029c40a200120df449a6294ac734456735b380b364d3abe4e92d1a9bf1d7c0 0xdea1dae6150e5be8a89ec0d967507ad899171d28b4c8d2814158a97d1f17a055 (-0x1454417a3f48409195aefc00ebe2bf3ef8c42e9eb2f4e48f4186d6a0f9375f83) 0x5810c3a03fa4bdd11eda0348ad10efcfeb80baff12f4c547d9096238f18ca0fc (-0x4d1969b266a6351e76f63cd2fbae780b3b700d1a969d16f2c4a6110508df8eb);
  SDbl 0x5b7bb8791accada52d29410559ee461bfa48ab8592e7fca0d9d535d9418eed90 0x6437c32775781e39da3b32f2f17ef67e792fd6e219be06ee395159c9a625f064 0xa24bea38d27f96287887ee8432a83d9b92c12423c2ddcd9de6091dece029d789 0x7ceef42d791bc1686ec53979f3473cc97cc01f048cad4f07c45c601f863e6e5d 0x20b130f1030cc4e3dfc94cbce9894a736c3442658e21d50f2e0d716f55d5aee4 (-0x108339a9de822369bbf1583434ad5a4e12cf8155bd831af5be414f82b9a8d7e2);
  SAdd true 0x438300ab7267b1251553b9dce37389f9255242a9ac256c9a162e21176a408d46 0x45b9a0875178550ba4641aed5696d72c1854db40b29432baa2313dc37c3441a8 0xdf119169feb569887cbcaf960037961247a928b5c490c8a339492e8ce60c2e4e (-0xd0a6c82af3aaccc60fd22b72a92278f663598cb2d951ed15118c67da522a0fb) 0x11cdd5637f27a50e3dec7757a0500eac587f94b4095b61fd9795e93d6cb077af 0x80a9db0154aa1780b0f4b1a2b2a93d66bc630077e0bb937142dc006a9e2b26f;
  SDbl 0xf5b4e5199baa6846c8125e005889d2b429d616ab2baefbb419c17a8c3576561 0xa879ce6df1ebaef75fcc5857e1d316f2d7d96906ee31c1cb4ba1501249713eb 0xff1e8e6119e18df42db711a5c85b94301a17702207b8e35a71e575ce81384d19 (-0x1e35976275d67d9a0c92febd8e64b82de8e652fe92078d6d455fe8ddc784685f) 0xebd3be56e8d1a49fabccf1d8d445c7c80e0abec9f9f9fc7ce9d0f046ebe87a 0x38d0b19cfc306994df36df75643bb8b379be00fdfc78bd950bd06ddaf6f95ca;
  SDbl 0x47267b5dcc2cbfb5cb9d390ffa98a3eeface0caf6cca1edfcea851d5c206e1f2 0x38cb1477cfd68299285d5403b20daad6d2a21992a0dea3d5e08addcd0c0aafa 0xfc5ae8bce7ab2465e5c22613f251c22bd45ca9fbff6f35fc2f0a3a16421ebd42 0x8c8305a44e60bad414c89a9c8bff8c41950a1a02492325513dc36b21033077e4 0x13c65e36f6531267b2d00fd6b831486bf0fd74990d2a9cf7f45f4888f32b8a0c 0x1f0a3f54dbecc06ce6de25ed1168494bde7b30051dab1656a713dcbf8c60589;
  SDbl 0x2c39a191356c08d7e24ab48a1ced6b949a6186acbe04c53bdbab59e0003c1f52 0xb1c7c43b44ad629d4e74456d6658e422d478ca755dbf13a86f781aaf4a7534e 0xe81b131d262e00fe74c03fba6bcbf85bd9a1a1b20a792722baf3c9104fb1379f 0x570b1297623137fe8f51263e90fcefc3e57c502912cade38bda38966f71bba21 0x7a3dc834aa2c138e336acfdec877a8661591dffc62c22d4e87efbc5e3e3b2fe (-0x14e6aad45a697688ccc742ce3b562063585b64f79215ec9831746e98c3bf437);
  SDbl 0x563b27df187bb5672ea17a709ed5324a8d09de410ae02ddc871563966a7296a9 0xab0e510a16e142d03d9ae072f296991e0450d7b317c1d035708de21958c20047 0x169ee2e255b1614b613412213e07e3006a2dee757a7af53c0741945940cd020f 0x9aeb1414158694e4d50e1708b8a33581a2d0660811639f8546bb722155d93f5b 0x1d0bcc756889ef3db490d3b36a43100407b5d8204f01811bfdb08954c6e22b52 (-0x35e033201f15fc9a23a1232706d903a78176ea2c40662e62ce7606a897a9aff1);
  SDbl 0xdb89f40e9585e188227252d2974083ede5356fae716a487124f39f73bbfb782a 0x766dc3001e607cb0c7cecf113fa2f1d2c3d73d38903e3cd3893b22dfcc2322ce 0xe5606e00ca875b1c8b9777c4702fb476b32ff98461c6a433ea74bd3f3af9771f (-0x1301829d2fae68ca95964a28001f53ba86ff0f16d58730bade769514db5c881dc) 0xbc4551e8d06038ef06e9fc1a43b83460cb9fe0e4625f539bad5f6cc446e3bc78 0x2d21b59abef419dab578a33d44c23a82fad3f7e0900570e99894685769426b54;
  SDbl 0xf52552cba073289c99564f098cde3a7855d5e18952f575affdb7a75720dc3f92 0x587ccc63c416059236320a455d48be9ad6f8453ee4f0443d722ba95530d14792 0x21201b4981674d8199e1c8e071e954ce8472e2b9dc7c996925bc7af6817e1121 0x112f15851d3d4d794d1f4ae0290d87c56a356b1776a37c9a1538ffec800b8f7ed 0xeac075ebb58057b2d17abf15ae3140add7913402a435a322590a7076f65e5dea 0x1cabf9866383ff51c7773e11112cec54e7b935bea851934221336fcc1b44bc08;
  SDbl 0xacd4021470269faa320d21d5b09efb08d7c4fd783386d3ab585e1e552c4daf8b 0x6d535ff9a8a2f91482fc8830c5903a8bac2c7438ea52e78c4edf79d62d1e35e3 0x363ff1213671980d6b75976287e3268085860dd076a07050e7a6af1fc6d3b537 (-0x2f0819b01cdc37e0328f6c131e798f87526f6a9bfaa6f6ada61491bc8ef8ca0d) 0x74ad925f5d3f8c46d40d8466bfcb82045661ff9529b1356e10bcda47b4c36f8e (-0xe116d0652cd1e4517af79c36876e00964d647741d3c2aab2c12b86988a274ad);
  SAdd true 0xc25b0ecbf07f41bc2dc5923b67020f2a36d0924313752baa179b5789df6f4bee 0x68a6e891553c865485d7e8454d91b0babd28829b1d3f212afad5d960d6502a82 0x970c5a45874a0329ace02367f3be637d0f745f037f52b104de8fb414f1ec433a (-0x2c74f6d996a225a94e9b292318a25e90c0ffe345ad18a385c7cb6a53d1e1088f) 0x938e22d131e6edb05a0099bdab18537213d02445d9e13bdf771d7958a3d183e8 0x38c5c10ac840b6ef5dccc4bd4e49a23ff6f9721583eab0ef4e5a88639ccf943;
  SDbl 0x57a93a051394e692dbd973d7eca1fef9a6f550f6e3c1821c0dc746423dd9d325 0xaebfc87ea8e69c10898a4a496daa82882a7bc28f846b4a19d0e3216dfe9d676b 0xc7129595801968caef7e5a5f85fa7344d543ec59c5fe4dc8d5c4a72198a6a886 (-0x18e605379fb0e174dcf914afab40edd7a0f1adf26b016145e628805130844cbb) 0x1e04754d392dd196b64ce19ec1527a61f81048445ed8ee5eae4e3124665db916 (-0x1800ca6899b095cda54b6a366c22f6c2ec1982fefc39745e82eb679cd28e3b93);
  SDbl 0x43783b3ea2ea4929aa9d33ae756c9a146b667598b1733c292acd00b9096dc8ff 0xd5ac3a5de72e7cf82c2820627b9216698c1b0f2d77a6a3aa6d4ac97ca1706cc 0x3aecbb571f2f6449da9e763a33c2e72c31ff8d148a857d5b41d52e8ae83a4402 (-0xfced14cf6b436e1c44d04f1685f560e84fba205e4000a4ce4ea597886c6146cc) 0x11c8277a737d73d628bdb01998bdb812b2cf68a564bfd6db132f87af125c67a1 0x2a893cf8f26f3013d9a75a7b64be77771bc1de38d4d63729367031c178d77627;
  SDbl 0xa12fb26cda01682bb79e4999bd9c66bbc630c41c88013e0a1cb15157de4827df 0x4dead051893b40ce6c479bc53ea77d4548c571f625c7e2ef1b30333d4a3fe779 0x260e8baae06d838c09f69002a4e08114124647a68803f329149282848900bbe5 0x481cb08cfbb83bc25c14bdd4a02743b1aa97dcc8072f92616d38e3846b278031 0x657d07505006664e2cbc00a80f0acff1aae9e78f1cd9f575ff341b5da6c840d0 (-0x28a69f6a0f22b4f5d8f41cceb2baa8a5b42973a0915ee1113813381f7a46ee66);
  SDbl 0x2a336b6670a937af3b02f5fee790ee5f584ba8d59f2a1355c7d1a28e77b2ff7d 0x353ee800b5e4ee4dc23cb4b99eb2ae8b141dc297ab754df19619e51c446bc049 0x93b0591e2e2b1eef6450dc851f0de52ccaf54aec06875bddd0753aeb3ea31950 (-0x3a993a89866c0cd3b35106bd42c6a6eab40c850281034121a68661ce58f0ee12) 0x6f4e9919bcc1e6eb7f3f5dfc49a28fe8cd897aed563cebebe7ac23c5a1d4c32 0x41128b6484b4978a8a1f63733b9759866662308dcc8870139faea270ca3e2c5;
  SAdd false 0x444c83380722c40fcb0c0893c2aab6babe8a7b6cc01f8de6588f7e8b7abc7a71 0x2c2183fbc28fe26237dc5cc061209de2c1929dc6dd54817b8810b61e8d8d6f88 0x101c114a5d6c9cb6a9c6e8aafa8402a0c85cb4178dd295544ef2b72c927068c4 (-0xa934eaba3a1fb25f1f5cadc0f631450d685e5de8a270bf71c36f2f7f98c18f) 0x1238bc940289d4f183d9a4cdc87facab93c9d613e840d16b093a7e9640bdbeb7 0x26e87f70d66d09963a0a71c785d5894246eccbf8b7dd209f7393669deb9e2e3;
  SDbl 0xa4a90337d4fccb9f90b2cad198012f45b16e1df5b20351cba918ed75591991cf 0x32935fd0c4c31cd64d2ac122681157b6b9b89d038d4fcdf4c0c634e0e40152f6 0xbb2d1501a95aee90f0d2bfd297b86f51804e7c5d66019827b646bf1bfb03b4dc (-0x21961a7b87124adbc7428e41d9ffd162945d51c4278018bb904494d5189cc3b) 0x69e8fbb5328e71899f39784c1c0d30e836f3ade17607ad3443bc49f843a20ca5 (-0x42532135692d86276baa1707993eb21cb35415dc2a5c3eda55c74f37347ae6e);
  SDbl 0xcaff5a87ec43fca5e1e4ba9f88013a3850941f517f15681801c4dcdf115198ab 0xc4cb89161527d329ad28928cb1668daeb9c09859f86198a9e398c0be778b046d 0x3e99e6bda100c9089422b891e0d3968c369b96c2bc2455beb6afa180dba2623 0x10adeda8bc9d137ebd355b912abb1cfc75774ea6bff243fed7e2f57bc697aaf41 0xa0f7f9949c9fce068efb4fdf3e8c281b81fb6679b1a27c5cdd93584d924c2820 (-0x73f22a37a27f7344919986300572f3ff3fdb5f55340a6659f1279c2d9b42f284);
  SAdd true 0x404c1432d0ba6e1bfd23be02ead614b38ba21e51b50e556a942dae2cc1b5f7a2 0xdf5610393159fa003ea5adb376e56c8e91a475375536b2b79221b66a82ff3ed5 0x604430fc5377a594c85c39dbca57ad4d24108db08b1209c5bb3b45a35d93a34c (-0x24ad1c492526afa0d1ae1836ddc4dfe90c29dd491ab1a01e96737b95a9f22477) 0x102620b5784741282bae4a9095dd6f2ac622ec403225072d025f8447cf38b585 (-0x6aa850103647286bfa272bc0f8d21224e050ebfe3982be6fe69d7427d42e8c1);
  SDbl 0x83848d77d14b39dc3ffb868a9c99fbe251630cf853ff646b6990270856d91366 0xd070fca7f0e305f4f86db4e17f39d9a53fbf7eea5a0f39a41d5faf71af6c9766 0xa29f05a7bb2477ed4115325b3664d9d36b94b1f6ed49eef11f0fae4ec7b923b0 (-0x1e59bacbf8b8312c26089a8acdfaa90555614dccb411ce41e3be594bcb375d0e8) 0x4390ed6b1580f4d746e6afbf04c38cbecf343f0d8d1e2f6013f240cc4906c86c 0x7a6ef5c96f98a0ed08e34ac83ef2169747a8f95612555acc4f1f512bf59d3c2;
  SDbl 0xfaa32e7273a952fe2dc56568acc2658a6d6291cd1f71d71e7a7c4004d57e541d 0xe9868934674586a4276b5a9d37f3c8bab1907875dc8c72676575f2eb1ff45a6 0xa1376b3269c8e8f49a2f1809b1436b263e2da51f36f1d4937bb36115861e9dc9 (-0xbeb97cbe3e3ee52e9e65ce517c0b9e7ce5bf8a5276dc73b14faabac01dd11ff7) 0xf5631ebcad767330df6d1a033404509fd9d657a7c5e4916808f226dae6a96929 0xbdc910aeca03d3cb68af6a5d697bfbafc74f06abf45d3f83538204d2bd227eb9;
  SDbl 0x463c3ce45d121e5439350f7bc5ccd63da8f76d331365db46a3b98b8b0f8bddb3 0xa8f6792b4c1e8239f5b274f082cd29cccf2ed30a60762a531679bd11d70686ef 0xfc6b459241ad35ae5fd71564a51a83c5c7d0a247e749c2c1c4f6495cbb8e4da7 0x55f71ac661b11435525862ac81091aedf4266fd2762034904b65e1dccd7105d3 0x1344ff798fb25fe43ec9e1636fc0a99610b42e437cc7dce9dedda8a7c0a48712 (-0x2a5a0b4d5f516845186915c582949c9ee1305fbd2390005f1e9cfb5cdd416985);
  SDbl 0xacaa0cdc8fbd558309af7850697a7b13cf7f610fb34d3c3d2543c5131cb021ec 0x3a629576059c61c8343ffd8a383bc45ae2192359691c157c52859b501f4efc38 0x4ca77b3335586ce4b09e2fb68a98caff2cc188e00fba5a551d42704e8ed3d904 0x5f238503163d2452359d9c600864f2209cf1c808d38030806579ce458f4ff78 0x7474f23deb2fb01cb060aa8566a647af2e415836bc949e9c2c5fd3d1845d5886 0x4a94d0c1802fa45f3ebbabdebe0ae17586d70ac6ad0d59d4be462276e27caef7;
  SAdd false 0x6aa325a61b65e8846810f5c11aab12d23b5ce05e2492e55fc94a898504b8f211 0xfe92b1279f185d3e78bb123f45237d3ef504e11a041b89c0381c878002e5a4c8 0xc4a4b89fcf80734c27bb1667f08497e276bce9743098df5a3574d1bcb7f1d912 (-0x32c3c6da44e8aa3909aabbf4455b0ead9ff5950ecc1786f9b0b633f82a1f924) 0x2c6b8326b22c3b2d714545b365e9619a5f4f6ab75ddfbdef7cd06381f02cf0a6 (-0x51b8f2f3bd8ccf73fddbedae6da552e3ba29c06a9aa2b3f299e937e6c960fc5a);
  SDbl 0xb405b5162c93cf99e1f8985599390137225007d5bbec2fff73dee18963d87a41 0x9471e52e126cacb24f5a14e1a18d42201768df7b01c7ae87ad092190e661be90 0x5636e5ede4d5a6d797f3d488beff832cda542323019fb48262cd00521a62788 (-0x1e2e5da8a757695c96e386364144d84a4390295049f7c8e0019f17ab41e72ce67) 0x7e9806c8403dfd7376c0d4132075632fee5272800369e5a022fbef621e1b039f 0x4aa16d221eedc67aee06e8d81b384c1c63c28d8bcb2bf8fd56dc4f2ad923dc62;
  SDbl 0xc43327167b5f598d907c012528842902362c705c9b94a90391feb8f91a8c61e7 0x1f8b949324d4201fc6adfbe0e4dd4d6e3b4924dc63a482d93c12c4fbf9cb77ba 0xfe18c0955f4a43b5b174bbe272cc2f669ef6e8372e9dff0e54a2112816c732a9 (-0xf9f942b8ad4cf0641bf11480b64be5e19f5ddb70cf8797bd974063df5ba23473) 0x965e5e139c3562c28cfc1fd824ba49e85b398c825df9eedf2d2db3e1a0761669 0x5997b17260c68d104ba2d8695493ac14214316e36956f774d28b8da052f45917;
  SAdd false 0x8e4b6d145bde7837349e1c9b5e44e652845786c5190a6b5a8b6727ca9a46bff7 0x8afab8cf58ac26e40037efd24485f8e8c02e5cac8440f6a6cbba1a08f59f900 0x296f0f104bcb72fc77c87704357a999e44a2c4e3e205dd8fd7a8cd08778fcb52 0xaaf561e3c954763ad14abeb5c9ad7135333ac22ee784b3fe6d35d080c30022b 0x4f17c33bfd6abccd9a3caf698e8699a568a68bb039763aeb044945d7056b6530 0xcb4b76c335923c65706e73d470b24e2430e9c8be3001338301cd689a26cf285;
  SDbl 0x41d4d7a6afc09b7eb9ade5976752dd51c9fecc9907190de8cb4ef4a52f57b783 0xf77f0c51d4d5b004a0ba1646c958473eceee5e1d1771a85c73c577377f0cddf5 0x81c5e3a10f024d148ac9c706dede6d49c2738515d3dd9ceb158f6c0ab4757b4c 0x146cf197670eea63c17bcb4f45c9babfc8f6c238d485329fa55841b4fcfdae11 0x10edc67897ea142e67b954855083925fdc0256a33c64db5a71c3202a452a42ec (-0x3d69347a05d5abc79c36141651de1169c8fbfc2237c11f411a9631997f816d03);
  SDbl 0x970703be3c9720f4ae4f9000aa760620205c8391307f123ca8d858f8c23f869e 0x27402ef63d62be29f18d4cca4d1b5835119c5f8b570e6b26ab71d89e92047f1d 0xf7e677574da3348e17937152605170723f804e2cd988cf2509dc076c595188cf (-0x234b4ab55a72760a93f713674baf13fda86cc7bdb389229a1cf8bd7a5ad44fc68) 0x5919469bf908e289f57e1eb7d0b1742eab018b5d8661b82b6d56fd228f907183 0x7adac9550b3ac2a753952ec9e515554512372470d7fb207b8492b6d359cf6acb;
  SDbl 0x17b1f8c5394bc76af7d796c5ae7b118f441e04a873619cf0d9782327683d40db 0xc96ebd2bf782a5fba9d3e3f21f68a375b75a980d7dd4a3fbe432ac8e7bb8e059 0x161bd702b46b041f659f70b22de1aa1f0dbfdbc077fa0d1220442816db21e56 0x1bd63cbbb2168c5fbbbd15e59a20981ca4edee27bf05539e3022f178eb83c9ae 0x231766d64f506006d3b7b45ac40a0626871c69a188f3cf17aeee5b7b6f5a33a (-0xf02ee9141c557bf19796ec1a4ef04c52e5c40fa5b63b033672c71c8a8122a87);
  SAdd false 0x80e1defc4cf5c3af82cc2ed35a17de2987c537ab50a76c5571c65948eb4305df 0xb13776d04b6bd933f780dbd86d76a1c78ccd8de35230a522209a70071c989d7 0xc5f40ba88e32512d82f0c30d58b060f56b22b73d5887ccd561df76b9d396acfa (-0x4bd9f6335c9f7ef145ddb4a7298591789d784a6924d1b1e15bb11f332d2a80c9) 0x40e2a646479240199f42da5b4540470a59ae30d5dd473399bca61f54a3f266b6 0x5fd596e6e79d0666ac6df2d2643b3d8638d14cac4b43d85a72d147b1f315e612;
  SDbl 0x371ac5ca9e878a645e0c221de41a2349b31d28af9060d2dfe43d192ed2233479 0xdc407062de8dfe8cba27e7c83e8536df14f27ad66811429db0a2e72e2d03a91 0xffc4d402a1bff8d2017a8d9a0815ae402440418487ff4be056b8c951fb0a570f 0x53c83b3d227698529c82d58c25ec110cccba68f1b6cba159fa185e97f470635c 0xbdc83c9e1f46d2449d133fe4c51245ae7b5cdc3f00e1f34840f3809de8bed0e (-0x9436dc7d78bc12edd04aff6d51ac338a757ad6b7d973009a7f9f98abe1ac0d);
  SDbl 0x6d87ef68f0726cddc5fdbe339563a4f89df5bf68bcaf010d576adfd944e1254f 0xbf631838743fb5890588193f8b0ba631160d3894cb8adfbb8907eb52ad19ac8e 0xf81b3b418fc57b92f23da393738f7f576867305ffc75bb02f8ab44ab0cd54d7e 0xd8a4c011be73d2f7941c895178800f5747dbaf8a6ad2622c95034ebcc928011e 0x2edd0a0dec312f6b7ec76027a4c09e60703b0ceadd54832390770475e06c334f (-0x4bff0b5115f68ca6601a763122620f728a706550c352da4c4047016d8a9f9d60);
  SAdd false 0xe3de981ccc6916b47301d4bf6dfcd7e382adbe8c4b452fe62a36fca58231c0f3 0x76e512c70cd4757702684777cfdad39d843c02ab7e522f78d9a22dfd69dd32b6 0x26af00c15edf99086fa6b0ca2379e4041b4f5cc6ea64fb0d622048aab3ba0c7c (-0x7d2abcf743f05673caca6bace9a763a7bd2709a6fa7f7d4c4bcda019eb570c3a) 0xcad4835009ab9dd193c33ba89b330710ae591c04d2f39633a748abf90fcfed62 0x4086c72f8278ac449033e28debcd16b73477ce8e4a8ea7980447264e906db1f2;
  SDbl 0x5f9d7bbba8854e18fcc17307c42bf7c5933a2f9ea56a769d194dbf6546e1f3ce 0xddab38a8ceee41f84dca57a19b7e6c6950416d66863e93284f8b3f636a3235c7 0x40a26a0fdd4504e8359918279b6bdaa483cd2449d5292cf632628c7238a092b (-0x88c2744381cb77375d914dfb93a3d4f6d57a51e1fd83272fbacd52408840b367) 0x23b642b66ac3c3ae7bbcb3a3878b3bc2e2f21b207626d37bf12b7e0f1d9fe16f (-0x2662c140b3770f4a851802dd32861ecbb786b1c3c0398b4dcafb4de5da794fab);
  SDbl 0x4b660819f653e614ba9ab340af7d57d75820544e07c3d682783ed21e66d71d7f 0x2b3f8e573dba46be0cb49a9d5e1db9e78f1adfc5ac9538f4e4b4da2ab3e79936 0xb15bfa1341d035f85c6728ce922684756f7010bf944afd7607f40a637c95f98f (-0x23d720c104643ea9013c10582d45f6400074b942d5a3f4f3207c27dfca82ad49a) 0x1634f169c17c071c8720f4d039c6dd90ba7cbdca91c8b5ddfa27f2e9c593ffc3 0x348ca7716c1ada302bc62b7d528f304c258a8c6e9bab87ca11b871587998e9cb;
  SAdd true 0xc50ba3444bec87b488f67051fa0fe7f199bc4f2f97f6c1f87c6521ea2b175724 0x466567638835fe609caed779266813b841e164d58ca2a600adfbafafb98d4da3 0x9c107343531d632c797b643f3680be73897c8e6ecf73a48562bc171d766ce554 0x5c9c902fa39b3177a13f2cd1f80204c38431c231d272b1828942b715ecfcfad 0x97aae9cf248383e649cf0252f6b7de9bc3dd559cad6dd9828f3f602cc29fde90 (-0x14e55bf7350b6a278c5bb1f3beda819b7217854d563cfcd52d29530b6c93b6c9);
  SDbl 0xd05b24b078b2f3697178d86ace9281c73eabe6240f007632cf6a075232fee242 0x97aff0a2fc7fea5c9eeaf6933a9a7d54b49055c6c8f6d6600e694fd9293c8af2 0x529ff3f659e591d68a81b5ff13ddc177cbc62f4ae495509a3ec49b5e2fb740bf 0xc3f7059c60be2541fdbbce4e6c52352b9a3fb29cab544e6addfa9965618dd208 0xa9943c12886ef26f71369837204f94033038c51354bd6fa4a9e792c911668d34 (-0x422980a91f12f21b83fd92fcfa4e82b8fbfe3f0377d1d2c6e5659816982c4d8f);
  SDbl 0xd016b7f66b89e0f89b6445dbf732cdfd0867733183d2bc1acc885899caa80e02 0xa855b785ab606d95431ec8cd3d1dd32a82b18fb0f050cfa7700e90b47f96f5fe 0x22d7233c304882f22bf72d58dfe1bf8a0647d420654ad6db6fcfa52597cbf654 (-0x87507db3fbf8909c0dc31463c100ebc7119d69576f49313604d32a6c5e1480b3) 0xa924ecf53a71b12ddb7bb035b1439eeb8f7abb6d65df474413d16d9546abd3de (-0xd882bcdda91080717862b6dced08804cc1a0475ecea0a85c34b2112e20d4ad5);
  SDbl 0xa29bb1f3b9bbc46c2e20421e13873b395314f5f434ded45ff47d8d7433148d77 0x785e375ad78083b8d7af549ec9309ae827ba518ffa1f87d3892f0ea344971bac 0xe87f7f4f8f265482e13381fa478cac0bbd026d2d8f41baa51ab8fb209f66d91e (-0x11fcf2f2cebe501eec0eebda032f72029dcdac8f38a34e0016a5547781fff120f) 0x67496be9d730e8c26367004598a0c01e58c104c4b2cd8667726fb4307100ba57 0x1e77cb4d9cd31539f51600f0d4fca2d0fa63c21d9ebb0c0c1cae01217a9d2954;
  SAdd false 0xa16d2de381fcba7bf8fabbe8e553144cc2d7cf3c61cba63b2ca890c1f91f9e3f 0x2cc0a16e98cf76221aa9f58005d81c541a47cac8dfad03cd617d2fbf394f704c 0xb59b7c28016917156413a9a2e42361fcd97e2a6f20a3b0970ee91368fd9d337b (-0x2be33e1fce597970ac9e300df2ba745b501d8cc454ab34cb4db242eb79856164) 0x65ca8248ab40dbf209c13ca54e17656b40c8b732b0867c93db34832f6e1f2d3e 0x2fae5af07f2dec2088f3a8f33476bffd3482c29b370628fa08472eb679fb9ff9;
  SDbl 0xcd596c18632caa766362d5746b9dddd6c63f9d3c5815d2b6e92d5993581491b6 0x8dbec43a02d7114ba7f72352bff6738d5d36af7e1cd698e77d20a937c9906e9e 0xcfb0054a60238185860510e90379c0984cea4bb07c33cb5e5497523fb6c0e94b 0x10be18b018be903b43d16be68941599610664ee9805dd8f64fabaf465bd713ac9 0xa4b8565c0a276a6c9a443cb21b4634322956d325095c4b0726e0ffde04cfa1d2 (-0x4dcd632bbe819e965f24a1b80f17a71e3331b65fe46ec2a7ab51cd55def8a2ee);
  SDbl 0xa9fd7c1c2eb59e185a5e33546dfe2d56866341967df4741259245f0e54eea3d0 0x58677256380c94c891468b7941c9485634e6526a43059ac06d327227fa81e3fa 0x7d3abc19076dd6bb39796dc7ece0cd12d4282ab4b3ba602fcdc0a306b74e4f27 0x285e9b57c4c8a3e5a0e4165d21a5c04e465b28b244e6495dcc9068fc969fe0a9 0x70e0a8dc326c16ed0747076cac42c2391814443219de06aa3117ffe20e103836 0x236b76379d5d60104367d9c2a4ecb77d4f169908656edddbe7ca719d3b802732;
  SDbl 0x8209501219c92486ece2b0d829ffcd51546834d7ca0f6d014941d9c4b2e2de53 0xf9cbe9a3bd58b1018c66fe01637e371ec27ce2f42aaf083869714e7e2a953708 0xe74a5f86acb7073ce0cd145477afc3f2a05b7fa6ea45940735489fd9b40c306a 0x23a2ea47c30d62d9e9a09bd96389db4aec430824721873dc25e2f9b2d400f91f 0x420d75a95e8ee04c5258220c05f557755d996756fab97abf0262c77d67f8f013 (-0x51fae398afff75453449870e7deb78761703a5b63312c9f3fb3e39f62dff6ee5);
  SDbl 0xae8311eb34bd6744b02edd92518397c999785c91ba7002fc04e7cb201aa0fe1c 0x79b66188be3c786925f3e2193f18b6bb516b415883c03e2017f8245b975f128e 0x33e62a01ee0f7eec646db1ed564498ae27ba56a132a59162d937208613e7ff5f (-0x19fe4fc6e96809106d632deff48bbe7f65431b57ef82e13adc739adc26dcf9e73) 0x76f66f778aa0f6cba0bd318c876b416f71bb217f470e8041764db97b9d4ded8e 0x5750367e72b6cf560c60e35a78d1ba0fc01e120b2a639cc6ed1a07bcc5972671;
  SDbl 0xbc3305eb859a60b18fc0e03a503e6a54d9947252211700f88676be8956e84a8b 0x3eac6d42de7cbe6363d9baceba763b33019d3713633d78cb84976567b5254383 0x878f9913527dbbe53f2a57ff49feb4b38a9e6d901f1c9ebcafb51b7d2de71d49 (-0x614b009898c4246d52ab32a6234985315b340b64e20ffec2d3b1dc698d8d68e1) 0x8a5afaddd290004bbb60cba726db66e7061ee675208ad604879cac7c4e3ec126 0x2b6713bca85bd3400398eb37252336cd056707497bd7be5d6781a75e629a83af;
  SDbl 0x522f15b592955e32ab95adfb619db03104ffe5bc88436e30b66f6d2b4477e017 0x40539f55bd8472078996adf43a2d9ced5c98671d32a5377d74c10d5ab3391e23 0x183850a8a061e2042a56f8a68a6e049b151a489c3fff57ed9aa9bb95a448b612 0x2901f09a6d982f33de7a7f66ccf826f7ebf73a83d2f739e43aa0c324c65e7bfa 0x1a62329166cd00978fee1f684253f662eaa04a03f81a0d594e951341cbf96318 (-0x87dbe020b38af2a270081263a876f139c5f2bc1f86577764b13999da5b8845);
  SDbl 0x2b821c1f49a6eb7e3b7abd232a1100f3ded46f55e63867331f664325d882765d 0xf97dd2ce0bc83b8d13cfc5eac28f891add550868190f84ce5e28898d56a18912 0x4de0d9e93983691c5f5ec9c645d53fc2ffe4777d766e944d2c566fb06d84d3d7 (-0x28423756147a8391b8b014fd97980e9ec32a0abeacec557c79b8d5f98b8e36bc) 0x764f7931d00b42620519d118785aedd9dddbc4bfc20e6bcd8c755275fe5e78f (-0x1f78326ab6b87c31185ea0c100eee14d31ce930f695de276714348377a9b7344);
  SDbl 0x5211e24e788b8e2811779571c5df6217ef0d94700fffe976cf7af3ade0c121c2 0xcf77d89f8e0c97335785af283d3eca3ed507ee3f0a26f06f2f2b29e0e4323048 0x4c88705b8dc410bac7bf61776bbb642795e675b5eea98b76b9c12fb41f2af3d1 (-0x2a78318a0a7c220e089d06c1810461d9174728fe600ebe36af55143aa8803b013) 0x1a4f763a360384b8d752f2f29ac1d5c507cea2a649a34727d223c400267dab68 0xd78d9aeb74e48cddc97f26f060a68ec2138f91118500d4aeed171d0c9927494;
  SAdd true 0xc71df9875b29d00f2720161d8358e68f62f291ddecac6d5aa314f7ccdec40d1e 0x8d761883a1045441a69abd512b8d6faa0ff80a3a1fa013794c0e6c65ffdbd259 0xe20eaea0770343a623a3b2df372fcf59b58e133266b4ab433cd17f101b19b65f (-0x79e19f0922c718ae73fe75436cc9f9180ab14fe8755bc9d896353c432bbb7d13) 0x9adf9d73867ddd4cd60e47ca7d92f57eeead36fe0409416d9046731bf8be67e4 0x335716df460b3c56ca6dae03735148c340d0cdc641e25e6b725b11bbe864852e;
  SDbl 0xeb0da0e1e4994120fea035fd582b797dbd82805b8bde3030f4cac3bb361f9035 0x213a8181eff66122fe8d5d279c561547dbc3fe5f9aa3becce6507d2dd4f4b900 0x5592eba373c63bbd4b2f223df6d7aa5f6101a95c1f9d125eb11ca5841d027655 0xb49d1dc7860918be03d20c835628525c35886be0d950bafb8ad0e6fe3882057a 0xd7d206194d8fc04fb152d1bdd598adfa292f8aaff0645287af8a95d13a9ab2b9 0x636076aa5b64e7560391f631e4a203b37eeae19af7e8a19f02d9c579803add47;
  SDbl 0xe1f56222eb4f79be16cad843f0f7ea6c9f4a529dee1b56adb5190694cac5738a 0x3a38b59eb8219ccb0b200f24bfb94bff59a282bd10a8c4311e3fb945ad4a80df 0xc815817a68f50a03015c2a235214dd5bde446d4b4ecc72e7c1e34724e6aff096 0x8a1fe6c166772c85550288b00149baae35aa6975f52b05a9a1d957bbc9490e59 0xc77141b725881cc2820d2f4c9831635fdb56f99b6f09edd3df98717088aaac7b (-0x160f60a9fa37fe171dd4994d266f8f820a95e01a723d5bae9af007a910abaddf);
  SAdd false 0x4755335a645cd610868dd7b63b5500e2dfbc4b86caedae84ff3dd104b0010685 0x2c1b7cbe65c72135f3a665fbee3e2756a0152f9bd3a9fe5cd01b88bcc32b66 0x34e0324d35455cb21949d46cc23e5ea3743a0c6b6dc5599ce5a85b6734a37b6b (-0x213a91602c43212d00e0576d36ed1a8ea67f9ad656c5c7d6fac0394268d08bf) 0x13e05ed75bdfa7226365711d4eff6e52fa4ef419d55401ea35595337b0259ff3 0x102cd093ab9cc22ce0a1b887b0b350a56a93baa8f39189c6e4082791738a2e24;
  SDbl 0xc06b0614a9bd4b313bc00305c133539092ec681ed131700d1ca2c41edae0f4bc 0x16973f029587a18a8a81abce13ab8984349fec456658ce8a82af0acd86d9e0b1 0xe9f506bf5ec894716149c9ea9ade16a16727c3d32836bcc4ca2ff33e2da22036 0x4f7c6a94d5f1ace23362b47d625fe21135617c360ecd817913e0496fb39d08c1 0x90a0b5dda4a784842f15034ccb81df7e997cc5b5f54697bcdfc21f519d694d6d (-0x10d9b9f49d35408bc86455cd2c5d9dca2cbb944657623148152d952e10a1c54b);
  SDbl 0xb55d0a719b30e068b85c40e32b167151440aec3a128a8cc33f378b85d9c74475 0x7802101f5ca0d7c16631bd73623f666f1b21ce850d00b5295dc9d27802f3253e 0x54e1d0b5918277ee47bd1d845a8b524a2425491199d5375616bf30663cd15ade 0x14583821a104f04269eb4ef82018a41f09d5d811151ca64f5f0da388c80968dc4 0x807cb295bce7a3f70e728ead202ce7c556be84f0f4d0515bfc3a4b5736728927 (-0x4503eda0fc9cc8a24894c2b3ba69b09ade980d3c75b2a8da876e4379592fbc7b);
  SDbl 0x1a45a6c0abae73eea67b7ba56e57d5cabb6cf668d6286db2c2045f509fad4ea0 0xcda091b6b3aa1448a3833d09aec8f383ffa2e253607d42872b1b427698a834ec 0xc7fba3b316079fe36a1b6fc596f257607800cc6e5aba2d896217c14f89ade7cc (-0x9759beb18db56ce2ad415b4faf7fd02c4a2ab3dcb8bc82fb701a9c8219bfec77) 0x2b238d2760ca411a5ad6364642c48823fcb4e20f8ad1946216a466882289b68 (-0x8c964a78dbf574e0fdc1b77fa238738852bde25cc64412081fe6516d2f9ec96);
  SAdd false 0x7a2036f870f0f10585984f38b00cfae1b8f36751d124eccdcac4016a2edaac84 0xddd31159e15b43725335128ef24ec3d3ff66b86c69daad78b0f7d0b0f2a6de53 0x4e5139234254ec44bb4cb11b4bedd0c414f6b9364bf589dec7cf058d528de6e5 (-0x49e0472d71555c7913f1d61c589735de0ec2550654415ae7471488b87cfde959) 0x3a42b872cfd25b28feddf1778f86e47d666353a8c4515cee484a22970989e3f6 (-0x7ba1a9e1ee3a96475fe311341270a427ab590d03059504ecbfcbda2deeda433);
  SDbl 0xc9a46a25b82f2f5c4cfcd4d2deb0e19ed5360a299943522c9b80a76add7c76f 0x93674a2ee867ce56c3e7e4f4721da3273adcdca03aa55b3ed879f16361bab27f 0x552b658fd01030a860ba6f1564aeda6ecfc1369937f0f990f376804ef54e0629 (-0x238ec4ba6c9896bcc2276436c4f587b3d3e87eddb31aa48ab9e8048bf888413de) 0x9ed398480664ef317aec968c07728d28e84cdd835239c3a84bb304a938ad04 0x3a9e6b482733d131ac8d34deb48f94cda123ce0f109dfda14159be3c8572022;
  SDbl 0x327bcf7e713bf957c8c974cfe22a8f5db9ed3a9c768e037397b4534bb94f26a9 0x7774fa4b6460de19d5c6d3282871c32b465496939283a0f8d7e791e35e461c50 0x2ca171bb156798d14c8cb5776fa8488fc454a09d1935f3a71b2dbab20f02090b (-0xdd08052cb9b1235ab800155a3aa743ed80a448162af6551f67aea735c923bd22) 0x9f498ee79de8f8905039c0c4aeb06037a7c104e6bb263e45f9db94afd96e5bd 0x582d7ad93d56cff9af90ab2d7f7accdf2d1eb6232acda9dd6f0a0b41e8cf02d;
  SDbl 0xb022cc8d23e13db744235ce6d3164a40c6fa4d0e4199dc48cdb76c6229cb5890 0x400b73e993d51ab62d19b0caa4788d80cf12a8e9ad6a2edab8b0eeba17cde371 0x16bc4a1733a415739d726e67fa997fe7d536548865207e5018e7ed477be83b24 (-0x69cfc3dc142897307c5a0f3a091b0df70bdd16e085733f823d67e993694ef163) 0x792fddfd837459ad6b5480568d8fba4727b08d859be485669164005d2156cb11 0x262014ade277021be207ed6e959ae6227a409148e52bdcd9f2d2b4b9c3e89ebf;
  SAdd false 0x2bd3a7f363c0b22f7442f79d303592688998be5f6101f4b3f4ded14125e5bbcb 0x3c3eb42d2e48b0e2458b57c8681d04cf1e32f934e65605fec085529e9ec2ef1e 0xe11cbf3da7271bf902259c5fe350dd680a85084c873ed625c91a436e19ed9fa5 (-0x245dd419a613d74fa2b02215e5ee749faf0f0b3abca0a3723133f8c4e973cf7) 0x780c96a14696877aedc58ad377d2feb1d8dabe93bf6a653dd957d59b8ed145d 0xa68874dbe5c16464f7a2a410d58ad1177d366862c403f1f619ad520c6e7bf8;
  SDbl 0x9e287dffcd8f9c3a04265f644c2ce61bb00e661276c0b1bdebe549184259530e 0x848935d9de1ad2c6bb15f860e0a05a3e7e1aab7f15db9e70cedd6440be53001a 0x8bb47b969ca6abdd9b1a660778d6d577b321cfcbdfb394ad9d5c85dd722b8571 0xeb9e5731e596799adaab446285ceac8b62e0e5876b4077df78fd628bf236a27d 0x61b601efc167520198613025c6274045500d31916ddeeae6918c4cdfe92ac992 (-0x2ca96b41a1bd49722c2b9dfdd1fe67178f6f0136907da88bc5bb1e8424e83922);
  SDbl 0x883a893e729b14172fcd5b48ec690bae376e741f50f22482be8adc6a4c40d1f6 0x97e49bde56b952b3a59d7e3b05774dbcb2d5a62b9c016a428a5cedc36731ff9e 0xf125695b3f405e068b647a7c1c7525af58c4fc79aaaea2ac5bd00cd880cf9ff4 (-0x3929b456f05e8565d5e89e6600226ec789df7c6ac221332422397c655172ef43) 0x487e3f351c22d8b88b5bbafe52fd24e6dd286bf268d153fbfd9c79792ca4676e (-0xa4cfb4829ca0a12b21f605aee42993035e779cae2396ffb4b21f59aa7208dc3);
  SAdd true 0xa963715e34207853309953bae452220685b2cdaa234316657c07c557413752df 0xaf68b73fdb83f5da27e8b1331ccb4be28e25bf92a2ee9151c7f054ae8f70afab 0xfd4a8900c0bfc4954af6399fc755a20359788b9e49bd99d39a090c622289fadb (-0x42e95c0c23c9a204c06b4cf237f13431d058d36d67da0d85935499fe38f7e00b) 0x7014724fb1f7eef99528f91c3ec7055081530ecc29ed43e3a9b2da5f354985cf (-0xf8f5893fe51633282f086b0f0dccd16ca6af8ddb1f4199056e8877319dbdfde);
  SDbl 0x1c44f365681aae88f9a8600051b21eec30b266690b7a59d1064087c79c80cd41 0x82756fea06ce6bd28e6c609c481f2ad96c78c7f9be9bc3abe192d1d2bff4a783 0x4655dde170fa6243f1e0b69e66ae16ca04856d0b9ba31e4f31fb0836462ddf33 (-0x130a040e832ae670381aff2efb634d88a47f3c78640d4bee02adcd468a0526c8e) 0x31f27d0672df7f90d4ae10dfa1b9aa98ace04d9ed9affcb3c8c972cc144dc58 0x4f6b72916003495572505afe1b67e703bd3819a475e41cd606d138df3b1bfe6;
  SDbl 0x2d1d3e1002e86d8a5b6521a47e5d5731630bc3bab0c1b2befb6ba5f9c02312fe 0x90e80b26fb6a0e8b52a5c799dfe8d209d4b4a7f75699086d288d540029b955a4 0x55615e04ebc7ac1e09a6e73b95f80bd1dc92210be9b052f1af855daad9e8b446 (-0xaea8310c475085ab7457e3a41d45e17a1d065d686edf60af7638be0b925f8e1c) 0x7f34b28c7a56cbd2f44d9c7eef885c8634fd0c583f9cd7e6c73f83e76c5f0a6 (-0x28bcbc5f85f5750a11e8d9d0bc7863820a06a6067bb621f71eea40a8c0355c9);
  SAdd false 0x4ce3c135a1f97769bc7dd17a0e0c38227cdf8a2cbbd7862dac7a450d555a0831 0xc5c5a4eec952137173afa892c6a803b45c940c01e15a072c72c78a8572c2b62 0x2f1f9a542d9858ed01406b5119b6b4a737cef0fed6ae924047fb5908ecd067a5 (-0x1c4640026a1adf3e88364d90e0beaa439bc04e403da1a44bf2114eedfa92b29a) 0x1718055826334e1f5176e4eb8cb03cc9f98ab4e56600de6d6a5bea1d677adc6c 0x27cf646730e7457ececf55b88d2dbe6cf2acba183e12c327ce50284d4b2df549;
  SDbl 0x5483fa7871b59a0f7ee581a9fb1ebe12e6403dbf1564d0571eff7dd2d7487bfb 0xa5d269cdab68330d798327518d980502ec1a0150c810b5fbc1e0af380539faa2 0xfe511675899a62da75e48ac2e34bef0bdecc084d8df8b914e0f194076a139374 0x1d52f67c12049d706f5cdf960d238c409b0ff2d6f841444baef9fe1c900a68fb 0x1be6e06972d9e420c7a4e54f257853f333d3e85bab69883bcd2645f72057294d (-0x32a9daa535c5c5ef773c6552b5dcf4e14d98074120a9a4e8f84dbbfe54fe1127);
  SDbl 0xdcea9b7021fd932d4df737f45e6266368bc0ea91418d2863a7c1791bed6596c2 0x648dd71b40c0640663c2b3481ca9e4ff739b549320a7ca4f0bb7b4a85472aa86 0x3af6a76d748c68bcb36136c42bb4e91c58971de8cfbb9af38f1445886ad78121 0x74b2c3ade36eb1f78e69de21d87054f74a244f6916d97da72a9b9ae8d88effb9 0xbea4122a006f04f7bfdf74418d2ae68feb3856e9574ec9ac2adea0b8dd0ab4c6 0x3852be60be8d23843cba341b51351cffdca5f4f7bfcbb395fdcfd4568de3f75d;
  SAdd true 0x51c6a0e600bf2145fbdd5020425ff90002ba113f660b1d3325b5627a0b884d1b 0xb02b76179bf30ed77247391a43d7f56260f6487c825fe829307fb24aa22bd119 0xcc3d5c004b9feb2217cdd26a5c70db7df3b7b409022d19063ffa434c92aedc9a (-0xfe746d3d6f68322f7412bf97a33d1861a12f90e4eac864cc32401c089f3725c) 0x1a1f4beeef81b638f22d308d2ea9d7d1f3ff86251d8b371a7dec838dd401af8d (-0x18278abd5b642020d49cc00fb72a268e9032270d0483b2b5010ffe99504059c4);
  SDbl 0xf386d93b6791a60a34133d689ea47d5f22da652a0781323e65cb17141bd385d4 0x919e57acc794d0840c6ba51b1075dd8a09514e6fa36fc878e376d1b656ffc095 0x379f1604284e07bfe306048b0bdf338ad76aec64f6ee917bb403246f56606af0 0x18e04a3fbdc0a2dcd7c2870d4f96493cd8a30d7593c481e4fa258db1e2de1a40 0xe7a9476fd0cdf87ed4df5eae13b31936bbbba45e9dc7b9ae601ee82b01e96b37 0x1d100baa263b63c6b386d11257d4407103c143b7f803c7f1cc35a0803b31063a;
  SDbl 0xefedbb88d79d2e31861c5d3e79b73758f861006e1cabbd3cf2e415f8b0d095b6 0x383edcb826bba17d33183e858e086c2d062510488faef01e10b57c645d09030a 0x8ff011eef3fb4a2ca684b41fbf2116a0cd5e9b716e79c8837f047536744e72b (-0x903bea9e5c9018b0f85665c5d98cf8b5639598452cc40d49bd5b114ed271e918) 0xe0ddc0ef2835aa5c9667c3a0b20d8b9867c83b82ff28b15fcca1bb632bbb26d0 0x53c322a80f36e206637b582ab6e08c6d788f7b8552e2b7e547034c8cdaf8aa49;
  SDbl 0x78c59bbcc253d01ddf49a3fa229c7ffc564fc48bcb48464bc0c2cd5f8513626e 0xd5d4a2dd1cf040dd3eb0af70df21f26786b7a388ba3297843238f664c8a1a417 0x68601e374fefc735a19a161e9d5d3fa3abe09475d83c35afe0d6939901081a24 (-0x1c95bb89fc75ef0a4a4d510b90d30b7026f8031cc0436c4edd83ae110e5ddfcb) 0x38f9da8a3e69a1240a594d55ed79fc174627c97eb7e302680fb78fcb748742e7 (-0x4a57d900f8c6f63ea33b835acac4f830f747f2e7c9cdd173f3a31ae2397fd11b);
  SDbl 0xcea799ba255cbc3b157a4ced1f153ab62588580ab86ae22130d2df583cb0b92c 0x45ff6ebc70c13760b7ed70d3efaa28109992f6ce2d3628d719a684d3fea2fdf1 0x68bb0e86fb81458406829683a92f4f5533b46b5478f4e826916ef996432eaa7d (-0x16f4f3b849832933c7b589a1e59566d788433a37994ccb1ccf14bb2f7a7be9630) 0xa6d2292228202f11fcfb1df8471ead32eec59c8de3bee190876b2a91cd75a68f 0x741bba66c207384696a97265ff103ebc205029d91f29f775b4b5a1406440c019;
  SAdd false 0x674d4bb9c537c663fe137aa77e2fd4933c23be274b2c1379913cdf5150f03606 0xe855ccf55d10811e8dcb0aa294fa5af29cb9ad61b2825b9d4ca04e337ab87a7d 0x18eab4462be791c12e5ebb75f829e249f96b65d3c7383d3c2e6c5b6ced657aeb (-0x7c271d62eb5528b3ce3eef2d0662b99c7cd5e666e0cd0652fcc418ea8128822) 0x29af4a464a892fd569edeb2159ffb63339ca9c16985b2d17e919719b96016511 (-0x4181c3e89ac957a96b4e0747c72f2b441d3b184c3569025f466a6736db656750);
  SDbl 0x7092ef365ddcf882192972d2879bf60fe2b05a267e24006be1c811ab85977618 0x9a80c1d8e3fb2c8fe34fd08f7092093ba141f118e14ff842148702852e5b85e 0x62a61634574723e5a67d9d633348c752228fbea766a5c78e3725af0133cf9963 (-0x262a8e8b9f170a228ed1b015dd7a550661e7b3c9d02002ea7c92e802ee8af8cf8) 0x3180e5a57d2bddf11b3ae2d8e307419a0e27a225233c54de294b5e2dd18c8b18 0x61ebd38a48d09d0991a3278b136eb89a902534a455e19d5790d35f27a4af9766;
  SDbl 0x4a2a69ed70e4145cade2ce79367cf4f3eb7e40ddfbce9c256987c41ec1ed0cd4 0x873e3149f5c0e0c330ce16ad0f1198977f047de06861c126e866ec1c94c3d9be 0xb10161edaeffbff9178dcecf07b92ed747349eb01e49747a9f82ba77397b2165 0x3810f77b0e55fe4765d4df59d0555d2bc32909a43ef08dea235f0b2831547391 0x157c8c44487e15b5dc385ac311ab01e49320f82f58d24ca2b944e1e4d162baea (-0x246235582437bc5d8b56bc72a1343add9571c53f5fefe31f2c4aa21c575121b8);
  SDbl 0x8147a47091c2fd5b4c9efb1c00bedd03cf02dacae4d9784e8e5ecda731ee34f3 0x9cb14e05db445f1ee9aa53399df194f1a0a9c86b1a2125ab6cbebd9c69cf2347 0xba24ec3478b95bfdebb425f3a1a74f825ba3bc0cfc5ca4ea71c1bf728d537142 (-0x23917e6c96a2d3498bf0a4d2a889ac93fcaef56d1135038e7170d3b6852772b5) 0x414947c6544111869256ec5d376119daf3e1115c774fab2917c544e00e8f381a (-0xad5022ede94674c65c580e4f4a7fae57d8cc0b48fb460d439a4cb881e2ccc4e);
  SDbl 0xa4976a2c6576aefe1e9ec10e528daa780b2bf3be0fe4fffe3f7113240348fd02 0xbcbd27bd8eb36d4ea10c3d3f6a8f8a7acf25fdad35a5317e6ae616beaed4bd29 0x5d6d65e5fd71eea720ec33316efcf51e5255e915d2d78bd40a34b37c0f54ab57 (-0x305e351389443a4d4b343dfa74563d246504e938e838b9dbf6be4e11753ebff8) 0x69d25997b83ae789112be3fb7654ef5deb987b7a1fe6500c2a7f52aa2b460fb3 (-0x149a8bc1a5cb8b7c1a6b4b4c6c5a2810e75ec8564508de70823a186d62a855a3);
  SAdd false 0x9de822bc9f5f43ee6096839922c8b67686ef157f8aae2eb2127285a63196bf7f 0x563879a6e8f8fe764c6ec7a19569ae1f224bb486b4b74d26efdcf06dca116b84 0xaa33b89ab1c90f74bed8cd4336163023d664f5dc8ec3aa4b2c1695502bc57b6c (-0x551a7e755adc4ac36cd534465abcc361782bde844f2aac9f1606e46d0e85955a) 0x61668d1ab778e867ff2f283bca5ba5b0b4022915e706fdc266ebefee161fdc73 0x3f3c54eb0fc7450f8248c02e0730fd9763c5202f1b747863a46fd4ec989c8ae8;
  SDbl 0x5b54ce8101941a6cbb3d45c814d35f995bdeb17de07029f2633777979bee78b9 0x77a5df6522328034ac36b8cbae91725f114216691b78cb9212bffddf86c81689 0x3ecea1341b97350846706c40015d678ae3fae54edc0f9ca6e0fb0714bce6d2b2 0x22538f31437a3da973e29410359fdfe0e7055786c876b10e759628d4a21d3215 0x209566e802f19a6f993627105d49aa828273420e77e31f63f672d2286400f7e0 (-0xbecf606ece3490326e9d1a9f217619d91ddfeda75058c670b3b1da21181c345);
  SDbl 0xeb6ec840af52c0718149153d240980a6f81a6d1348d8aa67305adc1b9108a26 0xdeb24056ed764371bb8a04281d36fb67471932634c527b0916efafc52362707f 0xc39eb2a2cc03013bf99f6f4cd2221901f3b0d5cd370e49bcb974c254aff285d8 (-0xa08a8801370f265d2eca5065e6b48ef8b51f6d4738897f9dd3f5919a9dcaf4e8) 0xd88493984ea24e4f81ad66b9e03f2a140f1d6278e41355c783197bb5a59fed (-0x5ec4f4ebb1a96935b50d31b1c7322da7fcde933cdce3c376119a2f7ba5eb0f2);
  SAdd true 0xa7f6f6f82e5fa2595e53ff2e4a493db5f6814c1bb0b7dd1eb170c9552cb5106b 0x3d97829a53c79f7766bb165259a58cf6da06eb5120efcd8896ca1dd2588b312e 0x6faac61eccdc3d97d4f1cb64a4393e0f8ae85476635da73451721b357af702fa (-0x70cdd681ca4e4ca68635d6fe939468e1653ccedb25af475a6e69d67a3cb4df50) 0x6e342477cdeff3ce1877a4ad1eb4c508dfb5c0d4cc13eb6cbfa0685daede89bb 0x69b3dce4a69a7f40af90ca45fe4f3669ede463b17bda563927eea86b3eb801f7;
  SDbl 0x5cc97f5445ae512ce915f38cfbb226f27a9056df83e90a5a06280309c8576fbc 0xed2050d15b3024f18c7a25aaca77c2492bf3d71581a0875e3ed3c0c8778d65f4 0x94172f97104b7a2f6cb8938ce039e6da04a521394145209baa65359dd7b2442b 0x247dddebb7b15c6fb073d7fe71b21fda1c425c6e769bad7e9aef5994bee6c199 0x21a1721de560e1126755efc9961f124ae1c1824122ae28ddf21afcc246173640 (-0x3f9f53d4967611d2a46d63e2298234376af5cd7e622eca13c4ebdb0b538c1d73);
  SDbl 0x2d8b7d46d4d2cb44a81eedb690e826c9a7330a5a22d6b2cc5aad0f12010f80ce 0xd0216f0ef735f7a76768097199f07cdd7f6ccc0f5b893df501768a6bae0d6698 0x488cc5da968d2037274828c8724ae0ff86cb43f5a2631f33c99aef0ac2a5d151 (-0x25e3d0450cf2952c41db9ec8898a5877993fef32b21f65bb3721d3ccacbf36387) 0x81a560c3725cdda058542f85243878e7639d9d5aecca634996aab12a8358cbc 0x5289a443f5076196da16edbf1d87553de97aaf6a2574f4e57745a4723469974;
  SDbl 0x8af809a7ff39529a4e78f1f8e42086eddca6d4ae6ae430a7d6203ec9fbe2a07f 0x4b38f736059a9082b1ae5e3cfb1849cdfe25d1968f72774f379011053b05fb91 0xc0ac098c2c06e638c9ac0585e213b3cb6abb4dceabb5bba9c6f35f766848b8bc (-0x1acdeaefbf812a2307a5bb3ceb59bdc1a1c218cd7dddafe7a106bd0ba31867fa1) 0x4b705abc2075e50b8b14327ce1c390f0405296caefb164eb7f496b15c845c9c0 0x482616d2b8ec0c02dc638dda269d97a2c7a74132370ab441647f7fce1e2e1194;
  SDbl 0x5acd3e11eef2f205164c0ae1aef19433db1a09c1e0fd32ab0825b9a34e952aa3 0x938d4199685e2284bdb78ac6399139cbb28b863821e731dff90a6a2114027897 0xa105c7c418b48ca3e2af7e55ce6129121bf1e7c7ed69631295c17d53d5a2de2b 0x465e9f183a0bcdbe5fffe6ecf1254c05e60a1221c2680992de8f6fa59e8e08f8 0x2034f43133fd2873ac5791ed800b8a016a79c1e8a32a912323596db38d368bf0 (-0x19a79f3017167add7d57d954d5fb37e32d71539277f37a532578ab02944fd247);
  SAdd false 0xa4534b7f4069c72940630659d992519c768f79ec196e98329b5f63145fcbd17a 0x95ea9c11eb1f24d1c7e9e5d427e2eb427ee0a070125706c053e676237ce3dc82 0xc047e5c9a1a2677d050596f007d727a540ac8f39fcfd098e34d9c903fec19089 (-0x3e1ffc04ec8afec7cc31f4770e118e2cd5ec141ff1608b6a741ac96411122dac) 0x697ad3d57ec9ee9871e364e331dc621df67ec36cd3433fefca0926ff554e5bbc (-0x18492ec10c41dcfc2b0b222544327949a014731939b0bd91f6f8ab7bd46184e);
  SDbl 0xa705ae3167546f6fc9458a8ed9e4796f6f385393586530bc8bf1082fa0a328a5 0x62f597ad8c43bb0bd8374e2dcbdd43990616fc1f31b4ae615aa50ecf4479bf93 0x2a6f268b7b5f1b62ef8698a33c493dfe23476f64196e8c9882add5a69e3f9db1 (-0xc7a7bc3b16950d02e4b7e70ed1be274dbc91c03e40ca494ccd15c49fbb20a91) 0x6cf86965263dce14d8b8117d7d621237f52b0643c89e038bba8863b535af7e3e 0x213ef7530f8966a3d9f66a21b810be7bdc89be457ad6019abbf6d70adfea302f;
  SDbl 0x773034b1201d7b596d0970208f82fec48ca3cbda69d40d8139edfa68fdfc9ca6 0x3d3ac4373eed8142941f5b6383edfcb81a98ee9e0980612ac9dca11617b2e5dd 0x8f1e3c8b22b3075eba84150dd36bc1a75d744d20f25b435a38ac46af5a3ef696 (-0x4b3f8a39ec8ee64bf900e7ef231dab65e96c8e6be17be5bc9b18e17cd0302e54) 0x377dda10b09dbd657c6daf5df39daedb7eb866798f04ad63cc99f8efbdfba95f 0x1190f317c38e7766d3fe0925af647dfac0bb7c45cbcc4ea23e1b582295ba8043;
  SAdd true 0x84a87ce1c39e0b4f9c2465de09acc1b341b20aa52f708ad58089345419a3d921 0x6fcfa11016dd92d81a249297f375eef1de5d3e0796ff34b3afb049ef0930caf2 0xb90e8587dfe8f76dc98657078e3e598752f7ff823c553fb6614b2f41c1fd97d0 (-0x56bc5f6a597248010ffd6346ef13a3e08da010d77517882fb05d788caf2cc20) 0x44be2fad3bb56760b9770834602c2caab3c99b99aaee5ba01f47e19faa012f55 (-0x1a360c3d8e514c5ddea854fbf3532c2460f414d40a01b57cc1d463f821fb1ce5);
  SDbl 0x4ab49da20171a153b1a658191695e0154afe592cd9d1659f0c14a9177af76abd 0xd81139021f9ee71e4312201989e07ca507adb23adbf698f773d98b9a201d25be 0x504ceef815d3e0e3cee1f8a500744c0c521ef1780944dc5f676a94b7f4d2482b (-0x267f9cb13d4518a5cbe5a8a2bb53add7f55ce2605e95a4c3fea9ece266a202d7) 0x15ccea8fcb84bfea3f9da849fb7ad867b3984f3838308a856f3ea6a6e947ac19 (-0x1e6c843d1f6aad501da5acdb30fec1a78d2e6d1f77f8e90aab875393ac449f69);
  SDbl 0xeeace9fb20b0cc3101dd3dd9eb9a5af03d658a72a57c8560a4eeed101e542e24 0x6eaa3199904c59ba07a3be6e16e7eb0b5794c06ad760d37fc5c168d448704927 0xe5a713490a4ae29906f495617319bea09af75e13da83aba278ac082c6b5baf84 (-0x18d5bad962e0cec870de33100b928f66324a976c60428a0f95acf69f6a576550f) 0xde85f7db0e9db8f3827de3e3da8b789d91916aebb9b8893216f83d09c8b99f93 0x6244fa72bcfc1f2805669d93cd56ba26921cd54944e35dab22d9914ee8afd073;
  SAdd false 0xda41d06bcfdb320955925529af7601a7cf57b21d69d7d6fe305f525686e7919 0x8f5e967fae956b632b684485b780ea50148ca40c7b0a576e185c2a6fc79697fc 0x85dbe263ba774a580cbb459c2b74f361af89ffa409f8043297f16c81e089d37d (-0x3310d7f578989b60d8a9e0623c61cd3552eec7f9af7dcea34a316324b7482c5) 0xba1427e3d8846596c24e48661127fef88e1288513bdc2c702b0b82a88eb179 (-0x1be2065a0808f30863a843ee903e39c71b609b8530d19bae926b3c3c6941d32);
  SDbl 0x6b463e6a570f9e65ec45f77b845c295d70d362260428a127950dede9ef683bb7 0x15f2a47018b48f80a7c231f29f7685e266713c317d1bcd614d72a2e5763079a 0xb9e555ecb7a645e42d97044249ed35d7960ace9ba28294760f00e4eea5366157 (-0x80b1287c2756f0d3b0b7b7c15a8a8bdee0cab577e531554f5189535f0f763a89) 0x2cf3cb73431a24bedd9e015a3c2b6b5ed3245039ea3dc58b84c82bffa1f25ac1 0x3b80b8b25b9646d56debb506910ae8a3779fe0c73742b5ab0ee731dd48cd68c6;
  SDbl 0xd5a283a5990333dd94f84048394b938b4a6d667df6237c7204f31c1dd796e350 0x4e023ab7c4b0cc7ac4ffe27185e3912e05ae850a4b79d0a4f95907ddfeda7680 0x1a47c5089b5ec6ab64979fdbc1afcff24090ca6f2a459c137dbdd480ef067666 0x1363e015034261a1e741f282394c3ca4854880e6347d9c3c29b40d35ec1703989 0xb247d63d242fb851632fd39c258126532b2b91ca3434599389af915b22098cb4 (-0x3ff453477dffbe3ddcfb007a352b1a604efbeab2d4acd18f938d18010a568e63);
  SDbl 0xbf8d88f810cca5555d1581f6e75f5eb2a46a163f71824a43eadf1442d35a00d4 0xebfd501fbb74041ec7489137d47dba224192135a32c4061c9c2feb0a242e2d7c 0x43d83779f36933c0816d7c6f44cec0a532a809a3a75e144b6a54e5f359e286e5 (-0x1ffbec35e9673fdf3169bbd07a697f1d9c3d450700bc61562778261f2bdd58f3) 0x8f5480a2e2f0e3006124c52dc29848baec32dde1bd3bd091d482f07414d26aec (-0x7635acca4a8e3015212525caeecf344cdbe4504de04e5c5b164b28c4c52b7a05);
  SDbl 0x91726a07025a402d8011688eb9a5f90afa4203d2c7807aa11301a4119ee13fae 0x19802403d0aa3cb82b387ea375f08cc3bbf35c862e5ebdca5e32c4873dc7c1fc 0xcad33a009c1131d4669766bc3e2aa35dd8e581f99ac369ebb388ee27d4ac0da7 (-0x23f898fab1a067019a81658e4608b91b0e2b737a1fd1bc558cabc9dbbb6ef991f) 0x52a2cf3edd74f2776f2973c78e33d3421e82dd90497499da2d1a64b3be7102b0 0x7796f8e783a0c3ccd3c70e57c563f940d42eaee0cd33dd2c36e89691e4fd038c;
  SDbl 0xfd81918cd656dcc4ce019feac279c43e584a7a432c0bd09fdceb2dfc29ef979 0xc5f73ea0cd5102c00954c2b78b03d49886e7b2791f6c9addaa12a972ac658877 0x505e9b93569b54e04942f53ad3fa6b812177b92c56742cf767a17ac3180a97b3 0x117c577c3c4ac3f6ceb2f72640d402fe2bd6be07279b542b8979e6ea0efa0a4f 0xfb095b455d61e77663767a60d669f9e14f3ca7d2d4f40205e3f8dedf7c713e (-0xaac8ff609130af11dfd0ce32ec4c04383a6736f483bb89b39cc24479ebee783);
  SAdd true 0x4f4a272ad271974ed249857331288ee01aa2fd2b2660b308794a1b7a916df3c2 0x8dc03c60581379bd3ed55575dddd8945bc9246afc47fb9e946717c76512774ca 0x5d02ca8ebdfad723ba20536a44959509e54730d80926d76a771410376f8c0923 (-0x2d973db74462ff45d6bdae546cc6727ce7a8b7dc42936f3f5e493d49522fabb3) 0x188ed9a73130b1fda6e9dd6f8aa68c074acd8e9cc1545231f0e16d2ef18b9304 0x1169423264cd650e17f55c18c1104eeeaff677736f1601b3cd12471c183580bc;
  SDbl 0xdb22e2028d4e1c547b7971e8b8fea0fff589a4554ee53fa452228316b4dd361d 0x1d49b6c9e3efe15a4e8b3a6ca25921964326caf80af05980e9d35bc0f18cb649 0xca6f9ed1f4c6ae04cd7766e212f3a90e9918bde12a1018a25681d1c67a2470fd (-0x4c3bd90dbc3dcbd611936a538f4355ff3a906a3fa6174e099bf9efa57b87c7c5) 0xbb94b371e98e622e687db5b38878cb704c92c3792d51923487d3867252596094 0x6044b74f948a0d3d6f997935219661515f1be17e3f95dff92b0f32a8479caf83;
  SDbl 0xc5e6cb34138d54c199b3f7c9a12d0b52853814aecf2148f7a8252b053a38cc5b 0x6f0a8d8b59bb292bbf3f69b1264849dbfbb21131aa210e01fd0233f39b1d241e 0xb6c5487da175d0ecbd72c670f6af2bced5db7b567bf3fc7aa3ad082ac93dd90b 0x12eef7276972e8fd365e28a946d2e3a10b6f32f43e9e7215c036bdf5cfe401692 0x98fd04d081f34cd0dbb638937e4d3ec5dc272ff87e1b7f73e63e94b437456857 (-0x3f3319689c5dd63b2bbc7e83fa331bb98893cac3f5e21fcee054304a1628ef41);
  SDbl 0x865670bac54cc52e687966530533d7577a1dc37152c1c312abf840745276d164 0x7ba48119d90bb1a9c395460c3b2b466a5bcc698b29fdea386f50394f53fd2df5 0x60d8a2185d6de6cadcb9fa06c5cdce84dc6455e311eef33f451162030feac374 0x2f537fdd19b57ec3a5e669500c0c1fee580d7946c809a67b15bce1f940d3d3f1 0x467e9b33bc2b7e1b44df28241043965e53ae89b188c26345e0a4894cc6c30721 (-0x69cd6c0fb3f50523f95b93b71718e81a1ac96252c295d04f7a66c37a0310485);
  SDbl 0x90504a88b4c15900c14f3f4118c90a00af990968f4cc0cc891e4438d5919ef27 0x3c673bf859b67f5df47fc997c25c2a6f33c63de49e1dc3e2c5ccc8da48f7ba6c 0x611bf0f2568ca2f6697d485dedb8e4345519c3c8e1cfd30137297917489d976e (-0x45f603286359e62b396136010a7d14e8da6bb6c30016907a214b19fbd19bfff0) 0x515a6d08c7d83b81964dabf1f1909d321de37c0386611ffda03255993dea3e65 0x23a64c7210ed43bfdb79031e137c5c2f49767cedcad0675948b2fdd3aa75da03;
  SDbl 0xbdfe4601c5b720d96711ed86e57c0255e2e08db9755b619fa90793a3dd2f9040 0x65296b9281ed0838880fdbbb679a851f3de02b56434dca107bec74930f344c29 0x62c883cbaaaa1e2ce3e717b7e296eaf5174c0e558228b9ead8f60d091bf18e2a 0x6562811bcc37cd3832cc1a4913c6f94e593d5401f325d42566dcf0d6ecefe1ad 0x8d016fee299b25f7a54ca7e35b88cb9000885883bbdad5609aaface2d85bb101 (-0x1e3fd8f58a24ef604eb253c6f6628134ce514da2aed68b91cbe39ae60f9f1b28);
  SDbl 0x640b1c79b87ba423f2ca3111142075d2dd2706855e94f20b228f66f15cdcb6e6 0x8402d1b762a28c9d6367b121cc15bce1d902812cedbe63833a75ffc43d7fdd8a 0xf757fc66d2e5e5f4b75e748339db30b869c5595caed806c7608c273cf08104c2 (-0x2ab7e693a314e04edf982641c1560871bab5265c34384636b4adc872b46e0fc8) 0x2718aebab4d9fbd1db59ce49f9350ca002523e43b3de6e5eea5be21e2dec9f38 (-0xc0e42ac499349d89f8287054eb0e890f748bbf4d0490406bacf531fd6f1d9ee);
  SAdd false 0x79b0e5c3d5475a32fc831b4db2a91b5f65e3c76bacd46cd170383a22f943e0ab 0xc3467bda93025aff20f5be511fbe4fd39bda858b5533070a40fdc95ab1d0ad27 0x7641b8cd259144ddecd861c90428cf13ad969127f1802db6ad836311af81f392 (-0x269e82702518b6063fee4fc3738adac92898d399cf27554b655a87852fb05b22) 0x39d8b37014f35a309184efb0ce152df3940d2781130d54761773c8301def4d3f (-0x1e12b2b7a4923ed3216514bfc0a2dfae893265bffc2437c4cf38f87aed41f9cd);
  SDbl 0x502052c7d170d639f71c3f85b9f51d78ac6c4580f132173b92d08554e9418eb3 0xe56e0cd1861d2738a051ab9d8516a6f71c236eaee0e2ec1de1c5b0eb2e580875 0x3da18718bdad73eeb9bcc8ffed3d2ab5f4e25acf0253058c45a6a8ee32cbe924 (-0x174d66bdd2e3f31bbe839fb800e22e30ba3f3f87fd4678d4e9e0bbdbbc69b625c) 0x191437d1c8b3b80f23a6c6c5ab643233b93c6b84a78e33764f0d399cf588519a (-0xab0ad4aaaa99589905e4b01117ba20001ee934a487486ee975c98d5c99a07c0);
  SDbl 0x3dceee813603f4ffb2e172c80d1fb32e90c49508dc05d4258a4ed241a90dbb88 0xa662475199823d363ddab48648e5cc8341dfc7e57467c4baeee24b55d029880c 0xf06da39f6861efe6761fcf1a49fd2f1e63fddc78993621759fd34b5698b62c6f (-0x24b17998e22cea4a37ebd3f6d8fc66e1332090d1ff8104d00d3fad9c17ec3bdd8) 0xeec44ee58d197b55682f0f667488b7bd57c5d0af7002b9dfb462fc607a9a0b6 0xf38c4453b62fb40d7d082a80bfda62dba1319c61c2f11743492a953f4ac2acb;
  SAdd true 0x2ce50ad7a0d6a56420b8131045a32cb132eeedd6c3bf2777bef2cc2f026819d 0x8b0b3c12ac31d553f76d9b9ca9e7421f8344763c2bde16f6ea8ea900dbe6a581 0xb7edca1e9f0a5adaaf68208cd913786235d508cca04a506fe4481a24c32a9beb (-0x144687320dd18ca06d085d4ab5982aa076494f48578f8b062ea6dbe50f3a57e) 0x7df88a68d649fb530491308512a1003fa150720009c375172971ac321080b 0x4cb6bf45297c14f1d5cb6a6e56818a5baab25c12305bbe180480a5ea11ce1b;
  SDbl 0x5b7d679b591d5d17fbaf4d4841be011dd9fe0e3538a9b61ec56ccd91ec307993 0xc6ec1c865bb85ba51db41c284199b08d8b4c28ca6bd6b282ec49a025f5bc4d47 0xb7d9be0e4d2ae043756d9afc3ed851c6886c290a6c8f8013192f71f2d7012def (-0x5f185a66218fc485531a6a52cc2c822c82a7ea9ab33ebd8a61d941769c1094e2) 0x20b26516e9b0abed89888bbb1d96e70a3de064f7ce3bc066e3d6624cd4ad4de0 (-0x156644d29d964933650c57d0ca3b93c1a2ddab188f61dcb03bb09c8496b84974);
  SDbl 0x18a2dee7a2c7fd17b02990c5f17152dc0bcb28c5fd5f64cb649c6cdd606dd6a7 0x20ea8e63b5f2497d4b49cc443d438e799acbe4a8f3a08d8c1674fcbf167583b1 0xa7bfba40686ccb3e2c12a76b155456e33c8a600c898a4333ce0b7c9747b7387f (-0x1ac537e4d6bb50683e9226f71c9aec9d84efd1b43bbb44e5c54527390610824c2) 0x25ef16a502505e51a89547ae46f0ba82d8679a71bc4aca98c6c289743bc7d4e 0xff9c2dacfa93431b1bd7a9c75ba7ce2ae33ff6a60cf6a7175d56c8f36298194;
  SDbl 0xc030d80bcb916a02ec927a11cc096d73e3c65013863e8a6ef6aadb25d55ad196 0xd8689a3a7832d49fc336b98a6af0c6997bebcdb4e2f8848321477c8a5b50a45d 0xa5aca28559eed6d3f817c727fd73baaa32358078de712b6e07d68fb12d541b89 0xef2d2ae5c29ef7db79e11de9a048b85e03e774d72c6c42fe0e183427ea584e4c 0x90494d63fc63ab00a39c153a8551fa4133b2f5745cd98a82ea51fbb0e32d67db (-0x89c18b5ea20743b7aabbeb0eca1495af7dd796dc6317ec8987dabb51b46b1b30);
  SAdd true 0xb61e2951289d8ea35c633be62637ddd2b279d3703976ae00b3c686a6a0cec6e0 0x5c2150ad45097427e5399da1a1e6c112e1fd251d7aa2317586ece9facd6b2986 0xf54a0017dfa6446daa5d108ccc985b46bf8fdaf9b6e0e4743a6345ed8e86805c (-0x75d60dc416d00ba14d94c493ce67136b5acbeaed29b6ded3cd482675c0ee83a9) 0x818ee64d9cff8ac8847c7fb95d787b47476ccdd03ebc79bdcdaf21f1b108feaa 0x586952b42a623f76856bb741d3c7187f15f20ac25ae360250506c369dd0ad5c5;
  SDbl 0x75070959e79a3eba8d626d15633183931341ff59092f8c170d587a63bd02ea2 0x1cbc793e535569743055b7922450d7c382b9e9ed5266161a61c04a9e9da6944a 0xf4b8614cccd2a28ca144b6d059b282fee377bcfe7d5451c4e68fcc9eac6f37a8 (-0x5573b0f6cf8968ab8f3317474ddb42f92303aa2d40ca5567370f7faeab9aee07) 0x357f6ebde674885f8d14b1427dff59c9d803b2928a2150e4e129b1bcbe48d2 0x1cfad4888476b601a050059984581d38d2af6df6f0f33dfcd13229a98fe800c;
  SDbl 0x8886e982df87cd9d381ff78ccf7a09c96e8917d10f5d3c927ff7307753ccad6e 0x6570092424621d5b3149ccfffa412f62b47b449a296a594c5962bd2c4769c836 0x2c8652723e9e0fdf489482f6c09051b4c80eb2415956c2783bb089bf4846e9cb 0xfb5887027b8910c146d1a4b462579262ebeb3c53425acb88c904b9ec190c0bc9 0x48cf9f34a05169a3e9ed063a479bb080e7a4442cbedc797989de7a0b51e91586 (-0x26c5b4c028c21a6047f4d2f9e593269e8ff7665ece1ffc1fc76dc0f34b431325);
  SDbl 0x354cbe4f5d6f6d19c129d3683df0502139021f75e8b1fe0d8bbbd2faad49bb67 0x39d9cd982ad3e6344d035fa6b526f62d8fd38415e6b9d855590e8194609a1781 0xe42a9aedfa97d62d9f11c772f3c2b9ee8841f16c1ab25efb306a14ae52dcfbf9 (-0x660a78a4b47978741913594f636bcc29e885e65beb43142e94f5d2720fc37131) 0xb18ddce74626270187a1b3296d0704ad8c06705aafbadf688963e3b4f80047c 0x9132b54b4c282bab6a66945f9ba529367d26615e599a6f3fc65785052e295f1;
  SDbl 0xc619029e3c1b829afde1364fdcd2af5247882a4d94f5d2743d0e5284ca44abdc 0xa670851a4aaa335dd6c6c3dd6695d4d8816db975fbdedb4212ca37c3bf60a6fa 0xed3491fc92324208eef5ccf748ea7856b191dd7b05983afae8e978094f7b0f56 0x139e6581279b40cc2eaf146a889e40fdfbff8117d2cdb0183ef60ca76a75d9308 0x994ab27ee133d8a4d24e5a1b54aa9322c671964fa4dadd99ec1c9e69905530ec (-0x54072dc3304f4e3c4e835d8859f34bf25bb102abe0c543f8fb57a7ecb30ad5b5);
  SAdd false 0x628d6e51f63b70a332b73943227d29bf3ce36ef094e23ed285f45f2699aa75b0 0xdd00315f57ac17bad724831827209f09a3c281a07dd30cfa37b68da967a361ea 0x2bc1798b7300bf4aba80d83f21e5601089e33a56c2aea076ed9ffb41294276cb (-0x2c87afc5995e66d24632dd48a35d8a7c537823b04c739ff74b47e8ad17032de7) 0x25f096999c49e0297623d6f83fe84dd966f875c34a860cf1062a4889767624ab (-0x1501249799f9f0269b2211a9dc24256ca8273007a32ed08bdda11b41c69244df);
  SDbl 0x20125f41f20f87f397bcf4a12df286a66fc4bdc9351546d2a0ceb0386628a970 0xc6e9888a185c613a25ccfb07f0c5df02865e019d82821e97b63c2f99a6cb5ffe 0x9ada891f614acbb380963609351c2de32de3ed0a34a42a5292f9df354542da33 (-0x2316559960e82f8ac46c42ebcbab836d973175a85f91832afbb5511b05a2279f7) 0x4049922094087f2651c4df8246718281f44ac3db991397cb1e0bc71d2ed12d2 0x2c46aeaa2f798a1a8208c9c83f35e1236372207f6b876b85d316f1f21dfadbe;
  SDbl 0xd2c656b911f302016f8b587205a4fd17db406ab783e283cdee7921203f898169 0xd3acada50cd000939807a3f40c2fd040f959128ecd39d461e2f644534792a01b 0x190b17bb6b77db9fd6d4d0dd9024e4977dd9c0f2d342a004c374dc347d615da2 (-0xd0abc0d0d4770b7ccc323a30aee13bafb43b3943ed385bf147f85a327adce3cd) 0xad89fff292a550fe3fb2839bf7b6a8aee91e8f903aa2ab6058aa3fb9235c6306 (-0xa81f7b1a243d33c5bab20fd99a8f60ffee7deda0ea3fadabb04666671cedf46);
  SAdd true 0x624eb8419ea37936f1156f5c7df0bf9cec6706501bcbb24adf226c526b874b74 0x100ee48c880c37e35550693d3fe17e9145cf5ac51a64b5411564a7c2ef3d76fc 0x4b84c434c7b123d6456345a4a97286abf1535deb5e11ca4d8456d6318c89198 (-0x3dca4a4c5ddf4cd8029af88a7fc5db2ddd489444269052d8b94dabc8a85e2ef2) 0x25c05d472fd096900d70a35b5e23a939250ccefea55f1b1b0f649abbc7875f4e 0x4b1e8dda803bef2f498957fd91db2fe5e5e3711579cf92ef3818a147f82e382e;
  SDbl 0x5f86640392ff253fa272a68ee25866784a37dd6a7c097ec8a6bd643755efe8bd 0xb96a60164c5665342f8ff5a3f4ab59111c349ac7a8866327db03a361ff0a3284 0x8ae8eb4819094773db6db543a89a12c05972a8462d1978b547771e6b1b763770 0x8024ebd1c872bc9979c61b7490519f0d81e81922eb1de437e8ead870555dbd 0x23a504c7a58f106bfa3ad33f9418c72fc9b8a7b20ab4d220caf8184ff70804f3 (-0x3f31dae522b95b0d149e2bb9620566ceec0c6b89fe070f6c2a7764d25baf8390);
  SDbl 0x6354f8497dcd0f33f12181c6662ef32a2f1b82806493275d87e41259095c2304 0x7e8fcc8c1dfe37732806422b158f395f65792ab4c3b8a9e57f170dbcf24e7a87 0xca79f16009a494e5997f86bd7c3994630bed280af0c2bcada80d751d83da88a4 (-0x1271464f5c5c55db7d8bd3a86c7468f70ed87e149c2039f81f4bf82600a82df53) 0x268ad43cdee075674fafd1ae7109a2e35e48cd9dbf81117726a9d01978b8c77f 0x16d60fdb94472c5a3ee8126392d0bce882772847a38ed439aa12be53be4e4920;
  SDbl 0xeb41d109b7a7efd2c8d136f04d61db7ebb20be7e665a6b3317b60a860025848f 0xdd054ca65a6a427f42ddf408b7839da8ef583ea1399dde8c27bccc71716fdac2 0xda13ebb8f9b38a7fa92570fac8b04e25707f2ece1213e70c2f653f1c68be9080 0xb86e635dd79f211be44359b9d795d713ddc11aeaaa763319cef52c2c38451258 0xd831e6b481005a87e9e0ff64d92c8d5629dd4f31e1d62dfae2f4f0b7c01307ef (-0x56ce258f76698d198154dc11fb736642a48d0df01ef148985d5fa6b0f19cb9e7);
  SAdd false 0x82c1bf25d637b5c0c38aa07c203485f052d3c350e5a90db97bef24fb7f82f016 0x26a7f29d1148845558dd412a622c1f7ceed1e76fd42b9fdcdf64164d57e7c544 0xa9220869339c90c319cc2d0de6400adba508cf7ffa6097c77c3d107cff8a66c9 (-0x56f5aa5143468f90bdddd27d39766510c60a6008a9ed925bb92eb920b4dc6d8f) 0x42c958c47620689b09f1681e5824dad077168553c12d8545ed9afff57122d2e9 0x5d256c448f8d5af961d5c11773dcff5ce88a8a73974037931c2c8c413674fe75;
  SDbl 0xa781033b8353ef64f120cb38886664ada8da1772c26e1c9f2c6882a73042fe61 0x4248fd8f9583ae7bedfab6b38f399d06d2a24ca7923bd768faeec88c7c98138c 0x334e7eeb1412ff50c78ed567904f0672611a13573ad2b41d67077eea0d8753ea 0xcbd200ecc6a62374d451e72d3fa11e5063f1a672542962aefa5eac7ec7b06ddb 0x6d99933c54f5e3130ef567f7f3df030d6530868ec2dc67e3a80b5daca59efd53 (-0x1213faa419f60a0b92408b81c5a32f26dbda9f469932a9e9a1271b2b6fe52c05);
  SDbl 0xf02b1562e5ac19112487be3efe7c0e796ce96fc6f46d2a98c678295212c99cb2 0xb4be8988cb78afd75908cc0df20760075f8b46dc0524388e2e7f643f1614cccd 0xed57cdedf78d8841e2740fa089809d96f898696272841cb3c77db8efeef978dd 0x2cc74c412b5b76ee198e8b16b0b52fd48b057583ea9f1cc777feb1061b505c45 0xe150cf5a80f6060df3242a0693728bdf0823c4dcd25e146646c2967f97d78821 (-0x6b6176886cfe572e3a20d0b826d04ef911ab5d93f9178c4dc9f1a8a943d9c807);
  SDbl 0x5a2b60eadb0213f28f1e310fb406b27f2b6cde710c6c3332eafb0c9d80c618b5 0xfbd072c698abb34f8e802ce761de1521db9d130ba9ab7ef55da04cb0c6b2da37 0x9cf8eb46eff966c6c9db7fbd8b1eb87e686516ab9946ec6e310695df9bf49f64 (-0xd7a351ab6fcdf2d0fd5a6e973350d24b4b2f7a2fa4194ae234a4fc8f09ac440a) 0x1fc2877ef5568beedf92cb7bffa13e7285a22cc2b39c609c9d9f1d2db87e03d8 (-0x190856e9eb310359d11bea676f157c00192f0bc9696cd5b03ab1dd4a64147bcd);
  SAdd false 0x680b1b5349add34b7ac00e55676445f7f169bec978f232d0d1966988bf82a1ef 0x5d2cc34086a19e0cfb3a727baebffe88f3eb8cdbf1f84ea279deb1c53c0b51d 0x2bb00cd7eb6f56ca4bc1e0952aeca7563887989fbaa8432a72748666f59b1d29 (-0x51b580d62c260560102d23ad11c8b73aa3ed73fa0d3323bf3d5223f0a7ea6c75) 0x2a4906af323943f034ef63753e420076bae80fea95ece6b7c19e311ace9586fa 0x63f9b7d3df7b63a818f0521f71b01727c93b8e0fba4a401f0fa73defbaf5bf47;
  SDbl 0xae8e29e72a85dc65fb4e9ff5ec23d22a6961eac00bd69e53b9706bc6f9e25c3d 0xbc5d8d765a97bc2add224fc8692ea954bb59178d2df3add8c4d0574e81c5a114 0x2092084143f59284e7836db04cddcc666b510fcd150cb267dfad40d372ffb856 0x3b2e1a68375bae245d290276b4bf42662da5b581b59d3bfb610554ed25a0b24e 0x77058fe9382290610020d9e7af4153886c357f7c374701f87d806195825724c5 (-0x7c77ae33d19680c6e0ebffb0047c0c2878dbc41287b5982c656a40614c5e2ca6);
  SDbl 0xdfe611a59e9e51c9601178d71522a542617eff26853f6a14771bdacbbdba4afc 0xf5f3a76749027389bce7cfce692412d3ef36aa07d1c73dfdafa70c29ebe24924 0xc8aeaee93361d176ba1584d037004f0b74ebcf2660f30c59df0744752dbec5e7 (-0x166d3a89d151cab0d02f648490ff97699419465a39bdad26690afd1aab49624a3) 0xc3d2a18304fae2b1b16bedd35493cdfb7bdbeaec015c3d41665b04d5cb46e33c (-0x325d816c99a8a4343f4d0bb2574e6056ffe78481e53878c3eb60e078b6d77203);
  SDbl 0x382dafd95d364da42864d5bdbe6af116ec2be66e49765d1cdcab73e474e02b6 0xfb3562c6bc6c1d320837a5b5e0d0bde47b14fc4d19870052a74de55453292592 0xb67440200d0d8f0d1c46d1cd721e97bafd0855992e2b93dea90703e28e137d96 (-0x2bf639221552711ed3b3c45c6f0c2ab44e65eb5c4d824a636551ae3becfbc5947) 0xc54051670517224f3da528f91304b0bda08497f36410c1dde1c398ffe5e76 (-0x127512737e5ca2c41db2a433ddb0a9358320aaf4837c597c88db569e902a4f);
  SDbl 0x264f7773ba65d826890dcd5867e5faefc92d9b354f5f9a539a8058e4bfb6bb9e 0x49ef875539d520b3c1aeaa08f1346c58ae856261b87a2aba524204898aa687f 0x30140381b69c2d2f025b4da93100d830482a466df164ad9b5a66853dc1228ccd (-0x2ace9676fd1282a53f878a3a6b07a50baffcd70e55f4f0e6fde5901270ff9935f) 0x5bbb021523bc2c3d8e09ee50fa8f3b70a05209e53a8c0528fb2eb1c2cd47e1f 0x24e6df426e1de65037084e4b1b78ab6d83105bb312b27af2b2dc4891085e77a9;
  SDbl 0xb4fc58bb52331fc731f0ab44e50da42c194c7e00b6c4042b40d7fce813ec1a18 0x53d20a1898389e55d6dbd8ce4e3bc1df19c3f48a2690942db2cecc9e58fb9a11 0x550bb04a520c219d03e562adf56d37ccff06f048ba8690c346d2fff025062cd4 0x43bade37ccb15ad745b8e6e2c24243cb7d3f6533a8014bf21d3e73e806ee4290 0x7ff3d586bb16e071c069cd0586cf6f921b93f2304084a10737eb9c0fdb6788cf (-0x37fdfa1fe2bee3238f72600dfd7c5f988379a5ca7fcd6d792cf3a7684a99ccaf);
  SAdd false 0xf487f72073b7521348fee816bd14a80cf912336c954142a3c969bb2516751f0f 0xcb52683a521e6fa761fdbaf0f34c481a4f29719e71db7d1cb455a0b4770d5217 0xc1d8fabefd7e0cd06f6cc00366b26a1d346ed85f1fd49d9c3e1d7a1fae306725 (-0x1f924991110522b3fbfc83efbe68c8542e40b228a12be60e01b4011574a6f81f) 0xe993774d58f29a838ef37479986be45428109ad10f66071834fd779a07dabe0e (-0x7225d1c63c007169dfabf5cabaeeeeb155e994e052111587c1572c38a5b8e9ad);
  SDbl 0xf827df2c5b5e55df926ea364208548a8206514e71cb90a95bb08f4a6925a735d 0x83e728a77cfc9469288f2f6d92bc9542d98ea1fd92bbaf7eaf290b94ad36687f 0x996324f6e72d5099d7f0e765185a1ba1a18f2e3fa51bf525ade3a4e123641368 (-0x6ca29b9113980923143f306e1febd2ed0ca92668c6509beaddda731e4ddff4b2) 0xf08d469ca3a63299dc2066a8d96d9305337b584e9ba43aca77221cd635f05ce4 0x453b052fff5f8f915259be3ed013e91f2c097a7e201ecbd468c7cb7224225655;
  SDbl 0xd0ee794a73e085ae70062632276b2ae88ce860b29f197b6ee3e1e588957a3bb5 0xc8ddf1d6188777695175b1be9dd794de26e7172157b0f921508be5e2af78b426 0xb438683972ec0ccebef8caddda194213f8bcfe25a54e761ecf27f0ebb781459e 0x2e7bb4c1a671991c7a512110218203b7e70fac1c96b154fe4dc11fc5f71cebf0 0xaa84633f66b82924ddba1e68e66b55ff709045a7f3dc86b1e4bb36de6174972b (-0x3848c191d3a2bc71c78bd01560cfd83fdd724e0b0d74feb71b96d92e0435ace7);
  SDbl 0x963749ab49379222fdfa4db34272bc5b3996488411a710554fb9df833969e246 0x23ed17c7f69034002118ed2cfe70badd17e19aa6af3828138f812e5b74604e3e 0x4aaf0fff4241eb336a03823a3f9d1b0ebc751e6e896f2d0799d295eb75c6bbf5 (-0x10552acc57760b7baccc16eb443e2eef1d5aa9b759c008173b961a2c00e08a97f) 0x5824d645cebe8dc431eeef5fc6d5cb1f643a19d5f454ed45abf91fee41e60b66 0x60c8befa8bf517cea4fcfd54d18b6371793262df2ae2d00f0c7e0c47067d5423;
  SAdd true 0x2bcbb70ac224acdb7378f3b6f0271bf433a5bf32896c9abb22eedcca1e20134 0x6d3f264677c5857085bbf357303ed7878627dbb6faa837edd399c66debcfcf88 0x862ec0ad8fabc3c54eff1f0ad25e0192f3124d3611c880ab503128dd0f211fb9 0x28a05d3d2f433d98deae45cc7f9088c93a57edc16b532f81ee1f0dc962d7d7 0x77e119972a6abd97cb54b0514d94cc13c75b7f1a34a3438fafa690bab1ffd (-0xc8b20ed87bb3a3909c568e25efcd60203847d3a1f485fd342231481b9c974a);
  SDbl 0xca20c5c5a000c30bba4dcaf25cb4d7e245ebd022a6acd4727fbeadcbf6b18e14 0x72d95e10d6becd0ef44dabd6e4a534c23358fc5627769ceb38f5b64c6b9bddd2 0xb05ab33255ee4e2197bae3faf1f34169a1529c91e08c15bc0507927d979764a7 0x4807a091df2f129a92791fb7a5e5864becfe8188356069fe45824f105c5777d5 0x9f97bc4e8a4ab11ea099396f8b0d43129de13ed0b5a905d4fd212f3c0cb94b52 (-0x46c67a0acc50a40c351f9379ad2dd7b45fb81728b3791118b8353e1303f51d8);
  SDbl 0x644303b9e0e5916d2f466e307f15df3e019ffc14ad4896d0dc514d79102002b7 0x7a897d34410c9e90626f9d48c859f913759bb4e4084b2ca4381bf30447eef054 0x2f879b9f2e14d055c65835c8c43b69c69d4fa2af7e357a22bff587eda5024073 (-0x106fc06b86ea7e609d4728f58e6f6a0ea11b2f20e5ed1ce74b67ef2d6843c1f9) 0x27446c7452516077f12e70b20ee92494a02c6fd222af9061e950b447915f4d27 (-0x302cf5ea432f292a486e5ff750117bdd31bf183d6f7c44cc27c79712d9f1bf8);
  SAdd true 0x48fe93b7b72c94d04f5bc2f55292f9bacba2d2f03400bc81f1db45554acd1737 0x215fe03d3cfd271c52a6649fb7c07d79667ec3e9ddea265dcd497565c6279590 0x2453624986a06c674454fec7b3cd6b36ecdde540ec42477488aff6acf574553e (-0x1476b8e94c00a243731a34827affa7bbd2731b62d8eb6baf0f7e7c17c9dd1988) 0x14d03040e1a540a1f35b19dcf746171758f010abdf7806f6e01567b345320cda 0x196c5ee2315411ec4e2041c4a45e558b6acce65d30af5e37065dbfef78867995;
  SDbl 0x49f5002cc267ace43abb84990a3fda66d8cb09491dd72bb747a56721dfef219e 0xfec96a0a226485b1d7994838f1d4cdebe9b7541cf9be562b7914d9933e1cf150 0xd026b3839f0689f035b976675141bb6ec820a109b6f97b9123bbda2a1fb0d8b9 0x7ef828cd88101ca72eb9fccd35c18352a63cd55775736080276c0d0d46b9e75 0x155da492f1e8e7716f84fe77322f8e1ab4fbbf96cc91e85a2d6579b1bcfdfeec (-0x3ff6fe7344c058fcdf2f38eb394b51423fdf92d5772cb25160e5b1e558587189);
  SDbl 0xf4fdf6a09ae7796ff35425ce00d5080d185c36b1938ce6ccb09083a729d9f732 0x94059ce9dde6e3f935866fbec377987a66854a07b8ab24defe1e3894bf9931fd 0x5961cc85c6ee727bdfc821803b3192ebcd25ecdedcd19c39d66be43e634b396f (-0x16a5622eb8802a3b312937a51116cd620abdd7250c8a175f2f6dc9a1b08047b47) 0xea751a1478c9958ec45f34ef235f80c70238d97e82f6454763d2b1bc365d8ed9 0x662c89e0026f80e115f4a8b51bdc4b6f8695c30b1c9589c72521212c374c9ef2;
  SAdd false 0x84b4da75a8c711a8b26c275adb6053ee9f33b09327670c2eb19847c9cb5e1436 0x894d02319d0f0e9b0f017e28fc08d792e83c25863d8fb2e9408d836cefc50728 0x2ca76b1f2e7b8e0d2a2ea4c4d8a4ab52c189302510dbc71c52503659a97ae894 (-0x326a2fbfe44f2d336f066d19aaadc8100486f8227df3d9eb53b00420a1b908ac) 0x44cb010d8aba3cbb174403754ad1becf7245d7934fe79d3fd965fa1e656a3288 0x58ec2b9f1bcbdb474cfc4b536315eb98277c4a014df343a0eb485da01767515;
  SDbl 0x39b9df47d4e8eb9026727ffc21f77136722ab74c0748d575efc75b45319ce6f8 0x4db7c7c327cd90e77f1f611f79bc524cdaa2359cc03b47338f70dbb20ca222be 0xb36aab9f25d7856db03b82cecd38d3bc8b97590d04a9d5dd6dc44c1e5ab47aec (-0xc8c724f99b24e2196273744b14cc60418556e740f329a349b6553e9b3922ec03) 0xd044c628263f702be84ec815c3fc0d83913e685c2e021f89695a046ad89a0ce 0xd6f7cd19535055cef662f7fbac7fc3ed2cb189bcc7121284e44c7cd2692e0d0;
  SDbl 0x3faab0f048d5a738ac52935634c348cdcedb96fadb984dbc52677b4edca5d00e 0xfd27e7f1fd84130d70bb6f2aba06e60272eb7abcc01dd40157bb8125cb18dfd8 0xae359872eac7bcb25e64e86455f3bb214195f556b36a942988e3884c4d7b2e82 0x12758bd8000751792c07009b1112764b701e0c1e34c1f601d528840a1fd81d39 0xfd574e5cd1a9ea43470786888c9a57337af98d068481f5f8a339303f93a6490 (-0x2ba191a2d27bb9a3596856073ee6cf8c7364706933f4ef9dd50e2b8a39eadf26);
  SAdd true 0x3bdb6e6d42452ed8909ba930d00b47c6870cb4173fa5bc2d3fe8a464c93b9ace 0xfc392de27cedb518fc3c4cf192e8c649dc915498fe36f5eb091bb05719925375 0x62d392f45ab7fa433dc9d255bd8483a023266778809408195e4152097ca31983 (-0x2f525880395112cc733f47c30c0389a08dbeecc6db38b6a37ecaf743076fdc34) 0xdfee0fc891c3a87769f24624ddd137221d23a865cf9a7f5a5b9ef1de3672a50 0x37d181b7f32821a00835ac5084af8efb143e997392493cf4b2ac4fe994c25b;
  SDbl 0x56d407b35f5149df8be053d504d3dee52e87c258b74c60c637725e6cbc1dfef5 0x5478889e4c7bd07c63f87452ce000f8946ec8f260467ef481559afbe1848f3c1 0x8385992eca57c5c6ee33d72a02c847be939ea8beecac9ead2f83cd9862a630a0 (-0x2a678023b1c6890c58e56d5750184e6ff83c464f17e857e9e3db8da0df2818e56) 0x1d7324c962ceedf2d03e48b8672fc6b3f7f38228993fc5ba8495f3b8b2008432 0x38e5a819cc5236e9ba30d4d893a3b8afeaf5fcdb883c59f393fb3e64cfb81adf;
  SDbl 0x5d240c06e98d6444e00702454327ff154db174ef9402c1a682c8ec8f9d66fb69 0xe23a763eab6c55484f303aec98f45b071f85d9189f399bbac92b2a1ae9f5b10 0x358cc57e7f601b7bc13814b7c300fc0b32c68510eccf0ea20e9d6f9a7bd238e3 0xc16240202584475867658483b86d9a6df516e29a2a26b078f1b19a8ceca4340 0x21e335d08a164683d15436faeb162e82df67497b443fa89a45d82103c69e3181 0x1996bd0fdc072f10b502ab89ebf85f9c3b5292082f8cad4d5971fddbdbad3dea;
  SDbl 0x756f640403efe059dc0b19f2dd329a36c08b7411800634111004e5b6db757749 0x787238ea1a128544b3a32b5406231b70ac54583cfd2205bf3e6db22a6ebad944 0x5b9e55566a6617bef2d03ef473d7df7638a62d06b75058e84880f99caa0554d4 0x2ec9849e59eb6d86ec0fc4881563b60549282086dd711303e6ee45db8a87a787 0x35df01e3c406d21dfbea8034cee39f675759ffb569f22445cebab1a4a5aa9c93 (-0x30c42a1bf94cda6e0b0ad9202309c6cf53da31b035cfc1921a8e98fe20e34975);
  SAdd false 0xfeb250ec004a2cf2fbe2a61a40610cc12925fb60038f2fc09f7717000241cce8 0x96994ad6b799349e438c6a95e1ebac26ca416662b2be7b4a74a1031edf00a0a9 0x5bff383e88f585dc9390ba31462b6a3506e0c4fcaa138c784a2e3f73a0635fc7 (-0x4552b859b3d9c198d798d7c3d3db7ab127f2e48772cbd14ddbac10377963982d) 0xfd6654c9efbe46e182552298aca7f3c032734b80837a8742a1e232b52f355c74 (-0x1dffc47b5a78220df69168d8d71371e455a4bd1eb935035b437e7fabf0d11bdd);
  SDbl 0x57d7e67d9377310622efc002a54507b20f07c614e03f096a3f32628782568308 0x57c8c34a556a5afb819be761cb15c9fd482ab5e88d97f8a7ca05499891e5f6f6 0xb60123822dd7be84699a05e831c21367592d5bc5db5d9008c72363567ebd651 (-0xcaa559e77349db52bddc0833e479ac1734e1ea57ab535d15ce0f3cc3b77497c0) 0x1e2474be6ed30cd8764fb09f5b73a447b9c322cdfebe5ed69e3b0315e3760808 0x158dd7c0cb9b859df5a7be8ac4328ee4b7c75e15a08d90a23b917b7b12814f80;
  SDbl 0x4d871618fa30103670d86db252414706f6a9813110b2f211d870837e8cf78ba9 0x8491de1498eb619c7ecb9f5a50a49024c0bfb5a45cdf391ee2069b77d19fc71a 0x873c4706c9c8cbf79b4c42c3514431c542100a20ea869d285b43fdbe1a28b995 (-0x536a6a4b5965a9c6e22211a5fe123e205ce5f39760aff2fd90b049362d5dcfc9) 0x177a8a936e3ba07567d7250124ac433f2921e51cd5140255a7f50e2d511cbf75 (-0xd901ef9ab74387aa4da57f8ed40d83e25c0c7ca5b14deae8fff903e05817c56);
  SAdd true 0x52f767e45c8644dea45d0f89c7dac38e953575c5a85465a120624900b6cd4ce9 0x47a315447853801edc3489774558d89e3497b773de9cbf9e2819d958fe1c5459 0x61319a10ee9fc09b7aa45f3825481fd76767789575c8840db8db2b17ed6323af (-0x1a82c784516b639e24d31525b3c0227ee28d3353c3c5cd5287240d6a3431376a) 0x1ae36da80afd8b088df0f154a7db48899ab07fa343c2210ac0b14a5a72c36429 0x13bf5f70ec7bd43c31f6aa197d6b76b0b8eed64e6ee5bd80ab577724644a1f9b;
  SDbl 0x62f8967d0277fdc9092afad9f7bc703435e9adb280b01d30a9b410af701f6d81 0xc1ffa56ed967c7b94cebcb98f30548be02776e4c1ebfc9070c42f1827083460e 0x6a21e0ae46149dd87a5481b6d86228e07aa0b60eb2c1cd7da1775500e999991 0xf0323445e446b4aabd4d2826892b162ef0f70cc015dd0538316985813189872 0x2643449bc6d2a7556df4d7f0b883adfdd09ddba2ded2409da34b4a29d8a6d3bf (-0x2f4e40ca0e5f5ce0bdfc528996b5e3595254a0e4c2c76dbad23e1e0e144e658b);
  SDbl 0xeef52109bf2d49daf70d27eb8421a31fc81e5e3300a3c2bca59da3851716d634 0x6cefcb1a9cdd1fa7e6d37348063de0c0b542c678d8adaa3ff44b44f86cc56511 0x2fe8ae0cb651eb48f2a2a34acd07e321c93e55655367e2d1ece43703962ced14 (-0x1aca8405602c00fe8d13196993ff014755a719526409c392c395feb181d91d49f) 0xdf0cb4273f7059d26ce7f0894b88033b3e6e85c1b1f043d13473416e71a0f69d 0x4f663020da8672106174a3ba83e9d148981a199c9bad314fc02ee53117635541;
  SDbl 0x8b463427fc9a1136dca1ec35b5f317049495685995058f22de1c631247130c0 0x71315782cfc4c05846cf0e1851864ae39f9e49cfc514d79e1fa124835ba5249b 0x5d849f5de349de3f378dad163f43414d2bc817b7f30b9073e724555d0245bbcc (-0x87cf8cb613aa304684caf565e26be2c998c2094db50ab877007aca6fe3c1dca0) 0x4bc54fe4489307b4cd5abdba092494db0d15f0a6b177f1c6c9fd3222675ebd (-0x250c206f52715c1c40870ab7f10d79764b867d7d007322fa78718557e9cfa0);
  SAdd false 0x3ca03190a0388516c2b947e5f405a441a77dc101ca4f6cb3a3e7683b1566734 0xe48cba10520f9b63350c47935ff51b2785a83bfa346028c431caf6b8fd2736d 0xd20efb10e56fb5d529b0b99a454e38ce4c458d424b3f4ea41fa7bffc617ad195 (-0xec887b046f9a02dee1734803dcec641144f7a5bf813d9bfe33065d9d85a95d) 0xe5b7b79d7d6ef8d266053d7c0b85d49fed30addf7bbfaa67df260b6392a3f 0x176c6546d38582b39e76df45d8392be29949798d9ce1c8c673cb5afe4370e09;
  SDbl 0xb80b64148bd79096b24b3fdc3dcd27b5ceaceffdbbeb714a3c7a8b84333b1ce2 0xc8478af04ded59845c944691feb95d92cb53882c474d9577602e600f848d7829 0x4d160b58e0b000a7463b3913261fc21f01fed23399305351f1ccfbcf95e3d01f 0x12ba41986199117a91256bed1811e2d9656fda7aa6684ae8b9382ea85173cb224 0x8450605fce3a53a56a81f147fa5347b92f5fcfb693f82d9e5e6beeae44c4277f (-0x85b7602a2aae404f7c1e2a0f617cdf409c07cedc96426f5be87836b5fbaea054);
  SDbl 0xd68c36e04d2338597ce5c6781cce5a9dc67cb856146c0f9442486767f79d07a1 0x64e1d3dc1a0caac4ff596bd174f97df3fe3dcc79314c526dba0778f4db6d8422 0x3e32579f1dd0becc4aba526e1bdfb3307daf65ba361663bc0484157d811498c4 (-0x154da4b21758e97c139efe3dba01ea612e4c0025d1400c599437ce0967d42154e) 0xb3ceb88bc5dd5e58f534b384a494d936220b8f375e80faaa9fd4227adad44133 0x534d77f9e14962664d9a0fef5ee4cc5f2cdc9f556fde9a5e9bfe720c70e8bf7c;
  SAdd false 0x29d6d671f7d2086796a3b72b36286ef74dacb6d20aede4b1009a98dc908c4b17 0x189771ba98a38166140b96e6efe2695257c193f1f87c43639f83cf8806cb2675 0x1839639267a693bdefbd22b33e23cde29c5bc7c333a48cc4c42464c3f0875079 (-0x830b961655f6db2a778e83c937eccef07e2f5ebf373a482ba0b5a8942127f38) 0x6d684fbc264dbe2db34ba1b5079df542743b6cd3989e4b8174f0d21fe56a34d 0xc77efcd96eba4826d2ff06bef53d657147a21a4b118e72777d889063af7cfb2;
  SDbl 0x3c28d1ab4051f5947e58219774a78c8cf2a2f666856a18d6316d47062cda78dc 0x7770c20abb78c3afb1783f91e514f312edb4ad269edf35e4c1fe91c806e1c2a7 0xf6612f1494cbe58989704e077360a203eb5a14109b7757ee5f1065f354e46b3f 0x44c638ad4403089c6070fa11e1359b51f4770a2c3fd7f1ff274bbeb93e71470 0xe2328ca8586bf19afcb2a17711de9acdaf33cb166533e068c8aaa8a64b91281 (-0x164a0e7648883f1cb4dec2b4c82816f36b162babe96162b4ec96c8f8735a9950);
  SDbl 0xa7a273399dc3be2225d4bc6702510d0e26df9a62035b85665fddf6ab84ad8e5e 0xd6967baa8161c114b9cdba25c63cab8d45c350a3e21c316713df8d771ace873 0x6e94eb4928b025b539e564b7e240a8fc9d9f05ca104e4026b977dcbfc8a15c62 0x9b7d6a063ea373a2415432640f7970880ef2295a98311378a2e2971b0acff48c 0x6dc5596ba26337ee522dad0e3b36128249309bb0b7bf19fb50b2d258d538033d 0x456e144ad34c5d575ccd488823473e8e3c41b5986fd336a81696d9a2bdf0d089;
  SAdd true 0x3cfc9bd048c37ff4b20a9f2b55fc276f283cc0c2181dd6b2f447b6eecf83bb06 0xdc2168b455ca836db152eaab1d1899a790b4e91dab7fedbef992cb6d2fb10f8f 0x9a45ce76a50236aa7efc1b027466159efa631636aa3af10e90e809ded342bd04 0x8e64118a0ea5660494e24bea9782144e42c9fee0e0bcab836cd6c56885dee46 0xe87624cd18828be7e0c72c42c8ef67a42255bd385efa398dfc476692fe4a8a5 (-0x313f1b2d4495f5c7df350a344ab3d3f1539a7b283ec56351921bec4a401d87f2);
  SDbl 0x5a601196f3a68cd260b3bb1690b4347fce46748969de09b64b9ff5da4facba82 0x5fd7f823ff0db87cd00a84ba6b73c8c835adf2bec01beaeb3f80f33f152ac44a 0xc6697744d98cf87f3842fe0a2589e6189f6f6cf0a174b43da9540ab332e6ce38 (-0x1caef723ea75ac9825a72c29b079ec806ab55788dc94038ceade4de98ebc19270) 0x1fe7b06b75a4edb78d3267233f3745c8d642b2e560ef6670f134010a11fbb964 0x2be075a74a4b77f7bc99d45777a2773b36c4de9485a412ec39b168ac1deb3032;
  SDbl 0x4ba1a1f0e25a2415e97d6d354a19bdf12da7d3d6de88bb954edacaa50cae5320 0x20abc190f912fce95570f20459d10d5cf5d6c1da23b64f95165bed83d4324cb0 0x7908f35778b6d6d0aeca8fd69197b07c3a15430dafaba31ba40deaa8a058a410 0x99656781571ad32f6894664ae97ccd0cc8c134c8af97f539bab823b70d05229 0x16581af0526680d51f502ecf590c10292ee3564ff05dfd760e575e41e40a1144 0x12a9d6c1b781f59eca1774673ef03a622cf7834fc6e14538c7eb1f24a2bd9108;
  SAdd true 0xab756ca2295ae5da2ed855778808ced0afb935bc9a38b11dbfe1c4be3f4c27be 0x7621d240c548e9a00e85f380e14f36db70288cf368382b74ad76db248f33a642 0x7e68422a1f937d2d61de6cd4b4c0b4b224fc8c16cea2e6f63c4fef11faa03562 0xc1ef31dcbf14784dc650ee5486c1650231e7ccc7f4cb4a0a1511a0f5f880a7e 0x72d614fd90688ac234159c3e23c70be4ce79444800a2fb1a33a48df273b6f6b5 (-0x393d105f388c6471e84a39242509236b66ad0600608f45aa4acf30afe0096e32);
  SDbl 0x6536c9421dbfc0d54fb639888edbe83b353f12cccb84da8256d951bef12aaa76 0x947a6c798214bc08f790c963f58f8489bd7cc22779c5969bcd659577f13d05c2 0xfd55b7c25aeb0a83a70347ed8a5a36f961e6ac5b755506c71794937aa3670714 (-0x3f9537f0db9d7d54f6789056dbb9a445ac8f9e814993d1f484ec21cfa7ee634f) 0x28044687d99b055ffba1d620e5e29f26716f1e3e4c7351ab05e23c8a836b63e2 (-0xbff73645de8c3b21349938041e9666ccf49fd456d9c0c0dadb0f278cd3bbe8a);
  SDbl 0xfc365436dd0dc56b88b594a2b73703c99d26d8b7ae6d2167dc49f8baee5a1124 0x31b2668acb52da7a0e2c790024fd21c995d4d72246331866f802d1b04c0aa6e 0x27312e511c6867e3c53ee628718447a035871ede05aacca5e38950201d364388 0xf0d2f0b5bf863d1d083ef7b107fd65ddb7c6cfa07b664db2c542226139c4cf69 0xf87b01549e876ca2a749388bd9fc62bcd68ac6d35d34c186a9c1182be8c4e8e2 0x8f38a2e4536d14330295eaaa5a6aeffb2c89205557180cf3f09e8f2d0987decc;
  SAdd true 0x81512566b8b529f1fc1b906aaa92cecf527bc00b08ed8abdc99058f82b9c5e24 0xd14e736ed100308de6fa4db04c12e90eb11148d67a9634ed999f74649159e897 0x54327e1b0a0e1c6a04e49b2eac7d6a82ef02c9091e994269236284124042e8ec 0x181389042a1e3477a1ed2d3d863bfd1d0ca99e2c6d1849be8ab187cae2d28a94 0x4152e16a77f132f0f6e8d022e97c25d61b0a6262f0a6099b02dcda25d2e892bc (-0x6829362c06bddd7a485a1aa8001943391ca38589ca5df2dbbb2f694ad42b07c8);
  SDbl 0xae60c3870a12efe490ffa26089e39fd68af9d57919a2e77f159cec72ea6261c7 0xce1ecdb89885adfc530ec4f1a0e44bc17ea931a2e4f0e8930e7726f2633a5077 0x236944aaf619680c7d042e617134a82a2a9a4a4bc7f2e131bc4697f7f05074fe (-0x18eaf47a8ef41374821a4a5923a823fd7acf5e7f76d089bf507feab389248dbb8) 0x76c7ae5f4317fb425d74efd2388f0b263cf99093f983064376b011f0b839b8f4 0x22b96eefa5e528b168712aed67f0d2524b42a135d7d91576c4edd68e11ffd0a;
  SDbl 0xeb509b7401452475f096b062ce2e8531adb7b217c9b613cd5bf20987be4c0a1d 0x91073145ff1b4482c214f97493916253377d2b948b4dbbbf9b127a75490fb039 0xe7ff51a1591bc4ac0c6b2a3d8c06d34109df87b06d8db8b887aaed9c9894ee2c (-0x1b0c733812b57b072864d18c8c565cd14bb838281b01ba5a6a76654c36e8a939c) 0xd84d16c95988810b8bc5003d4add05acf69f20aed6486c0260cf1e2b01e609de 0x3827e917498667a8de5ee40516a5de8255941f411e6deee46385021b5166d024;
  SAdd true 0x4f19ff2d4f958427cdd673b2418d0fa05650a1cafda927f7a96d11df4c575308 0xc1b2e468ab63344213df0a6cee4df0780c32850b0cba958186301ab5b819cac0 0xf8cc892bd4ca2bed871bc3fdee7917c0823b706b67b898313061427c0932bd41 (-0x1d2018e8d65ce9e4d0b6913de808ac1f0bfab9aedeef9336eda2d2fb713d2bfc) 0x18710e21e4c42d77362a1db516eacfa96057f44b0bf5ba4b9ddf2badea17bf80 (-0xf09ed8fe556639d59b85aa0c0d511c0ac1719c7a3590ef0ed2a1afb876cbb5b);
  SDbl 0xf31db583e57a4e810552fc7a6e8198a6fbde3b5a4e59dff5bb3b48539f7763ac 0x107d3f3367994a3e7b3e1e1cf2f1dbb037d5cce257d64ce2ec2cfcda68656484 0xca0dcf3a15f724d5eee8d490e702a8910f8ff3d72935fdaaf94c7c3c2d91a1ea 0x20e05f5944d0d6c241da6bdd3bc1666e406cf213da8ee3aa87fa3a75633e1aa5 0xe6e16a0bed1d5f3e4256f3d06e63f59afedddbcee3787578cc744b405fe27e74 0xa84a7c8c29c7ad6d91ebe7f5135e8c349e5d5713747ccc676b84c1bd1c227adb;
  SDbl 0x19d1c491d04f20dfb73fda82d6f0cc53c623cbae9798d80adc99fb73e3b59bb6 0xfe0cb261e3212c733ecbec3415ad1c48cade853af05648fca792084fd3264fcf 0x7a84d0984fc2ed1bfbb329f444c9239c43d359560a8bc04fb918259387393704 0x259223c98e3b4c3f155bf2a6b7d0e9bbab3695224804f73dcc6a41dc10d69775 0x29aa4470a4fd3ed36ddfec5c37d6b022bb562335dec044c1153a58651df3373 (-0x17f5aac5ceb699107c2916a2be7e5b729afd2c91a9ae7c907ef85a58ba9076c0);
  SAdd true 0x3f880cdbae66ab3f0be1fb8b5bf98e9f020f55ffab559f0692dfb692cfa700fc 0x2549740174588d8567683aa82e2d456fd6e86cb994d9a3a4ce2f023328ad30b3 0x24a8b1b60b93f60fb833926e381a37d6749f00df0dacb6f24806db7b57951c5a (-0x3272c1817b8b6178137116d91b1e383e3104413d7d5ea51f44932d5fb153aa84) 0xfc43ea1d9a968de4f05e3ba4b87d58f7dbe35bc4cb28c65c7c060125e56fd39 0x35cb3ef63de7fd8793d60eb4e8fe9fce8bc6ebedf646f798728431b4204fb3ce;
  SDbl 0xc5a284a6a1f9c1e6768f1b4ac2e61c4fdbc4904b01b449d70a277b09766dae7f 0xfdfd5d95b19a38b1c8549190c178571f3e0cbb3986daa1bc4e6f0c86d00792b5 0x824d1590c7a343b507f0d87e57a8a4a8f1a537d9c5635fcaceabac355ee84634 0x284f3b2d95dfb7d2ed400eb22851df9ec6a08fa24b9b228f2fc8623dac745e2c 0x98938755357f2f5b55feb72eec9ff8e3e1564a8f5f3cb399e3ed7623fe4b111a (-0xa74c04e35c74c7e78ec66d4040319a1bdf45408d3e11ee3b7c2f2a552e34a274);
  SDbl 0xd64086da4ee047fc54abdf9d80cc8647ea81095c8152a43d3aa19f9d79b96479 0x207244ec30a9acc7184962e8742d0d75a471693af78399369051f2b58868ed92 0x2a4d35682d5ae69b10b94bc3046232467131fa1c6ea64fcb3fb43e7100597c9f (-0x219e1c1564cf751fe772d698636edcd8b7efc8cde38df2085a01d5a215fa82140) 0xb34ff1b9635f9ef478bd817f8f106c11da8645a210072a0626e9ba1c682751cb 0xb96a1e185131a28c5cbec4979dbe7fdb10e2526e3401bccd03933597ab790948;
  SAdd false 0x5279cba0586e09a0a3c757eed332507fac541df2c49ddacd0463b0adf1386acc 0x76cfe262e757c4f31be8249a923e27fa85407880a447382f7ad40292aa11fb2c 0xa4f005c32dfaeeba8a8396ef978d3eab1b8dce78008fe89e4d79d16f44a0b4e4 0x5e71d3d12ca506a1424227540552261357efc06efa09043901b865c0288e284 0x1a924064f2c4074220e7307dd59c3b2e6bd661f19db236ae06541d9667f9caf5 (-0x1bd31361e3a80a1197b365f5898be589081c87de199b0e077066281df4fd33c5);
  SDbl 0xfdc350d846580d65a300862395a79cebd8c7205b43a312dc1aba016f881459da 0xeb5c5afec538915e5ff87cae766bb23aa5ad7c78ad3b9b3de9397aa403114f84 0x2f6526f9c7a4b75acf9d3cccad6b1058c4a06ebf95253723b7af5ddd5a34be70 0xa19130b0b0d637d4fa2c45a8ad9aab79fc519a9070be7435696504de23bb525d 0xfb8ba2d0b998ba1dd6e87d0cb75c34c5002fecb57e74fdaa936a3fa78d9bf838 (-0x7387bf00b8c5e379624dcd8a3192634eb4451e607a03b7054b1407137c8a21bc);
  SDbl 0x768cfdf95202ea0bda8c67cb5b54c9e4c3769121cce9526835cb301ec5c5d4fa 0x92379c068027a40c1c1ccd38985184c5babf8cc157c3f8fc8ccaba8866c79718 0x23f586eb3de35dbb7cb136f12eb76a6a624919808bf49e8068fb7809c7c6a750 (-0x25d429c8b087a32ed558b77702c7dae1e04371f2476f70a0e4e8747c6c21d3e93) 0x36e647c8d32969a6242679e7e3396da5f1b3495f3d340e87f3bbf28e2ef731fc 0x2948088f2aeb7fe6827e49ce00ce59f357bb1a9932105c6f540c81356e27dc48;
  SDbl 0x68362b3c3c907c791bb63f5dce4b83b7848140d79a00885e4401bf05c793df5e 0xecf012d496b8b46a0313fe554610167483dd493da06743c04f85e070fe025d2b 0xe6dfde82e364f7fb2bfda24a33f6988f674fe134db43e39258b84840521b7dcc (-0xdd43b8cae47f8abc4f6c8a8c68210e6c3765da9b658949c109622c1331c84803) 0x2a6c0e9760584b3345d3238b797ce4913d1d68a5ca2033c6abb31d275eb8a4d7 (-0x24ee227f4238b98de9602f5a8ee4120dc8128d4bb22b7d348570267aaa1592ea);
  SAdd false 0x9ea13c846e649d6500bfd57bbddde6f5b1d7cf5a8608f83f9573d681364ce135 0x5cf25b2150c24b4040a2419364349afd4cda37cc43f0c77703b60ad2ccc2a9b7 0x161cc92704ece005036f4931a358a1ee9a7a0e0894ef7bb992744bf1a4162dda (-0x735c096d3562b9c903b7780b4826fffe90a0e4c7d7302bac58fe709484bc6db9) 0x624b6c410770d158de8cd578f8c83462958174a3e8b346786f74174a247b46b0 0x593947fb7a1eb6436a5dbcd93573b00006420912b45ad1de92d2dcf108d890a2;
  SDbl 0xcbada8b2dadac0afef22cd754ae5cef1d87a5a2099d1766387d818e9298f3d98 0x4a81fde1a052d547b1d199f6c4f110f3aad1e0d3d7a9a3fd0e9b6c9bdd17fc1a 0xcd5c1cf6d75473db7e5333cf773c15cff33e35f05e579071e1cb19358a0a1ec8 (-0x420d9dc0ec12a437582e028ac7135d01c36b51e75d04067391d56d38841ef470) 0xa20cdf59ba0ad4cd5d49654dac9bac5368774bfcde0d33cd4c7db1b0e7fb8548 0xeab9c0732b44cf06e4b7e6bba0d8216351286e879ebabcffd956b6315b7ce6a;
  SDbl 0x988fbf292c6c8624dddb017dc24a03b63b00a90e23f7ff2db0d4483494b9c679 0xd05e6237f6f5eb2bc5436b15f96a98344f5433806d83bdb3a5c0e73fc54e7c01 0xcdac618feec3be22f635cac9123874fef84e0adf0d8d1fa0e6b8ff7f437a756d 0xb3b5c7a6d39c6744c758b70b22ba2d4d9c49d761dc01fecacde80b64988f1ed9 0x5aeb03b85e69fb2b35b15e9634f18abe5628a912d16ddd1b690bbb0322bd0f04 (-0x4fc605a495d45c9298102257f11b8e7cb5dc12d3a650fc122ce0e5f84fdd4d9c);
  SDbl 0xab410b1b5fbec52a526e4998f044a005b2f6f00690b6491de86defe2c9637ab4 0xbf5128a4a18bff16eca6502c49787f4399d6e27d6946bc614cb676388021d22f 0x642749da27c5c669c7cf02c7b5ff1df5011966b0d0ebd48c31b0af12479add34 (-0xe99fb97df13f2e4b04e3e4f57318d208cc1ae441a1895372aa65c2a194681d48) 0x728ff55da8dacccc0d765da1478d195c611a1143fba37494e9c2299140b6bba1 0xb682a8e781d9fab4c6d773130dc5f587ff529dc376c5e53b5b1f37e1089d6f9;
  SDbl 0xa35f46efbfe9635b66086b5b257b0d878f0d9a331260740cc7b4866b67f07247 0x363299f7ef8ede1828bb1ec0a3d7f5759db98c5463dd9568e72abc42a4874590 0xf88bd1be28b3f353f5ac0063d8971f879a5b17cd637af5195476dcea342db416 (-0x12d1a086cb1b53130b99a3ed4b016f21df79456bfec2858a9096a401ba85b94f8) 0x684277cb703e190519fe23785cfd11c7f2755562a0810015a5ea6f8e0aa79a3d 0x57817d2e0440f07f558be7308fb6d7f18cfa4a02aa7d1bc5b9be6d14f33cc331;
  SDbl 0x22d7bc7697f3a5460261ba368cc1b9a4077c59991b326a0a6f19afdfb9624033 0x6a9319c8ee39835c4cd99fe9ec24faab594c3beca4073c747d7ca86f4bef3650 0x9cea7042582ea64ebee624d0a6565ab2ed0b9469d75070c39d0bbfda19421b63 0x213be3a545ea4f7d34187f4c5458033f49ee6a91ed0cb532860df18f813c1239 0x4be03dd9f0c5d221cd2d7a4e1d9a4cbb5b8e1f08f8e52bbb4ab679ba7d83747 (-0x720f49442e8aa00eecf0f1ef75c4b5fa9dfc22e7c3f551e4f300277732b3a47);
  SDbl 0xa3c3927a249d561a517ce34a9ba0a6d49ec9a4d94f4a624648393bfd8e1f7e32 0x95d0ac285a724d845cc575d91a34d757ca23fc5fbf1f44c5d0f181a15258a89c 0xa9a735061a5a3a00fceada4d269f09d53f78014a807f9eeb6a33054030aeb15b 0x43a7da09db80dc2e054cf7b59eadd15b5eb2c78cced13be652978e0a97ef6451 0x68c2a1f06d4651517e8c35f702d66257d5ab3bad9f6a6a27bc5563cca3e5d378 (-0x1ba93cd71b423de5e13292c22ff0c40a1589a037883b39d2a5f172b19001786a);
  SDbl 0x77a2a199ecb8051727ffd81cdf8ad95dec95b371bb454284fea608984e4b9b85 0xb5613a3718f60dc2b79423b63330f45511f04045f69d5d8c80471502f771995e 0x2c738b32d6d3c4dc3b248080c7e7ee7e10bb8e03130197c87dbda219da4372fb (-0x6874b662d7d31294e8e5cd7a0b25d9d560285e2fccd4164faa3fd154a0b31d61) 0x37e8998e3ece3f7c7c8dbddc79b38340da395537478e1741ba3af13c11ba977d (-0xec03f6fb2902d496eccd5841c42f2f2314d21ee8014f998da53ad1b707d50e0);
  SAdd true 0x27e17ec469a8fcbf1c72bbc503909cd711cc3c2fa0c20acc5ea5fa824511ea9e 0xd1db6381906c7fe05837d02c32c32b0951a2cc701eb22f175afc44512aae6c6c 0xc6f72d1f676bb9b13ed43fa66c6f5a50176ee25a244aef3623581026b2e3f5d6 (-0x1458e59a18c0266162ef283eba91b36b0972df2e0e7a3fbe4e3200c195a3e729) 0x6367b3ff26fa202c435cc6cd5d5d8e546ade50b12fdb32c9de014ab296b410d (-0x46fb1c2a0b0e74759e030a5e68ae77197f9920f03dceb8cf6d3fb9d7075888b);
  SDbl 0xfde1a8b4ebff23afdd415ee2edbad8abd69c22d24af15621a48ff0a4038f9587 0x78df9060a92d91adfb78d7d3d7a96876ae20618b84e1f1a85feebd16d947d84c 0x9330c643a90b313365c6b138f77ca04827cafd14908c8afe5bce0256174b3f85 (-0x7974898c4cb1eda5e3efd6175f77f04c099c3c43448e9984ec0c7564af7a7b07) 0xfbc7ce609372e702811874f9c3e34a919a5bbafc8d19713c48b3e2b7a07c43f3 0x583f4fa09259a449a7ce797a521798ee7b508182c2103ae8745240d20b00787b;
  SDbl 0xd2ba57d731920459591b2a390b8c88a8f59cf247e3a2de0f05df1c4e2e7650df 0x32bb81353412a47e6c75939c765c8bb6f9109a6807d0dfeb281600fb721ea7a 0xe3fd1211ee2f037590554e513807af3b704f4978ce056e3a57a1ec946c9084af 0x471b3d639527cb16c752b28daac524366f08a1ebdd82b62ee4cc9ff5a35139f7 0xad763fc17da1cfa7f1791dfe2fbd1b32cfdde65f4d4f68aa9da40e9a9e9178d1 0x60e3347e08e70f317426e632065fa13920e235ec92255d78792daed48fb3fa46;
  SDbl 0x96bd3c7e14b14c544d333cafc8f6cf9229b0f636c18255bb1e556dddb49072eb 0x30299fd7def122f18b57292508aa784ae7fce1fc1b47e0860c0293cc59614433 0x933d10f474a8c10643e14eabe5f0413fe6975330bdce5787eea95946e8fd6172 0x10c5f77428401f0b303b0c9e92d9899d19139d9cf3dac67a28305718cbe46511f 0x58c24ec67977f9cf7464d878e1bbdf52bc142bbe113ab1ffca595911d3aef56e (-0x1a7e07e30b5f670dd16c6922d0f4487a1976558d45389e84c88f334df8465b0c);
  SAdd false 0x39f96006f7474e8f5a8feae3dbd08473f8174ac3e58c51d312a80d332a24593b 0x7adb462bcc4ad2debb798897208709443ad6698a52cb6c6697375ece9d75ab49 0xc7290cca7bc3f623532ba3f05073061ed20776816339fbccad6367e5946f72b7 0x970ffbea58b6dff8c55df191337a02e8a5126ca37e97d197b56903dbe107d1 0xd20ffaf18d10307c32125b1a5912267a1466257d23d937328a8ba31967150aa (-0x10ea50d82f14b9e55e318e3f7506140fa465bb3908fb4de23cfb18789ef0c3c5);
  SDbl 0x63e5445be43c77d13671644a4565c599664f28d1c1a95717fffce795a7624392 0xa1c5b945ec1e8c7380722ad31c1464fea8d8828203fc878a1c57083c90c338c6 0x982e729f759649188e5807450130171023d94710b5fa3de5ade055a8969f69ed (-0x1572b666710657f11a2dd05ef6c4b0b258243289858d4c91741b16979348d24c) 0x26fb203298292b48f2b05d15ce41a90c098c8ba70fb4188dcb9048058210d014 (-0xf2f84a05e78b8347def62997549ca96cbc06f544a9c589578abfb5211d4bb12);
  SDbl 0xdfa66285dc57c6b893dc58a91300ab1be59259342f9053f888221641e15903aa 0x2663afcdc54c5fb1b7f7d280c455e547d53d307a9eae4040ae0d0fc2d62a2fe0 0x581da3e12a8ff911507a4fcac2c3e3842aed1d045412ff20abffabc974a45ad1 (-0x28c82630d9385582f09f76ab1f99eafce356099beb4b3cbe178f9c292a4c915b) 0xc3634bc9e4c8bc8712c32964ddd1cc8c38877cf973215b43cb607483976f3488 0x6bca974e45465117fb235d7a7dd721990931774cfa670610f95a2d0018932a02;
  SDbl 0x2db1c2fd2dbfa4d68764d0b026beb85e1cbe46868bbd4f81bb2a81c1ef27983 0x474fde7c8d3caac886c1f34aaab7b9a8e240df5e3c304dcaf1459bdf54c6fbc 0x8b13fb345521358dbbeb1d6ebde7c6de23fc88bdf6560a0f575f91dc2e174889 (-0xf4df05a58de1c1e259289ba4a99c53fb7a6bcb1549e332587a95eb2b1d677e9) 0x827f9fc40db50ab87e9e019408902981131a570f1bb7966be3a76f847b673 0x60e8526e539bc8b3caf37ace3ffcc36034d005ddf9b590d5ba98c9e7694cee;
  SDbl 0xd8a4307737a521301d1d47269b7bd6193b610d4795d884443c7743b56e6f12d 0xa5fd03657e50ab09faa039b263afb7120dbda92ab2cd384a7c6f4b62985fa9e5 0xa17e4fed0de3dfcfcc91a6d42dffc2f264d5a93dc372fd16c9cfad8fffe9e0de 0xe7aa9afc5201508a627657fd5690b0040960632d07d1034c0a164f0b4404403 0xb7557b1807285b0e71fe550f4692b213f1bafa391447c4e21e11c006e6c774 (-0x88b25e5ad8ba89eaa4aa66144f392df1326efc2b56235d682fd54db07070464);
  SDbl 0xfaae5f9633e834aa0ec91a17ebfc98c77f82a6da672a316bb419731f5528e555 0xe0730f3f0594958e395a8b58218f7752dcf5aa7d82372fa3d943a65cb9384a4a 0xbfeec4959f6ea36cb844fde7c737a4e61bb0d82de74d8fb2f862e0c596524257 (-0x699ace8c2d6680b47ef3bfd8b4fb4f1f3e3337db8b2aff0e930172ba4da0ae4) 0xf579097866b9f2a3588118d75fec07a8e37d00c0aa448231054225b8fff66fdb (-0x393f19a2d09c92d6b4d532771a59c9f246f3c35bf3ad5b2e39c6a2e621944242);
  SAdd false 0x6c0c8f9e81ab9e88f2f9f1512c16cb1643f5a4cc1bde61da624eb309cd100d82 0x6824bdd30c4bf0911bda1d4823e205e3ab182e0aebe7caefdf0b0fcdbfdc961b 0x382e7246730eda973a3cb647896d19af3b6c3e699a5f7de9c04c3cfe9ad14faa (-0x494e1690c13f9753ea24f70bb0bc64f887818720eae4b50c1dded7217cc21f72) 0x2d9a99cbb27206a828eecb059fde8c431d3fb5ceccb46af0e42985ebc76adf28 0x32c6f183cdc2f5423eda3fd7428d2ff396a0537a77b3ea391a272ed4027baf23;
  SDbl 0x43322e5162586a33e27db19cf5fe2098c93a82b0b13a158e5840fd5c7e024b46 0xbc6e75c58e9cbeed69f0c76b0269c90b1eb6f08680b2bfbd113c85ae2cc6c372 0xfa5018b5c19c9ced35911c86c8d0ee6d0edcd2771bce359e398d73d86382f0c3 (-0x619b483ab28bf4ef273c78ce512d218435c9f3a543ac750339c0dfee048a3870) 0x11a34e14cb49596c980147918a96261ba3ed859b878aa917b3ddecdb8145d884 (-0x161fd0ca865a86746a23d78ecca7bd3e780e867c18d5335b9d03f17971acdcc9);
  SDbl 0xfe076d342e0aa376866985680db055818611adea2f799fbee21271ed147b3aa9 0x48c898c45bd4d32a586a17e8f37a8b77c53d0bb8ea7f06e46d95ecb08af7d7e8 0xf8f3dcc5a1aa708e814e8a658a305e67d0e20d38926394923625994f85917a4c 0x50ae310dd62f1ab59e2426f1b9a8d19787a8eafeb4cfbbcc547a2c23c1505ed3 0xfc12bcebaedfd7b79de1c003a125c97d6d81cd6030d4443334b3aca710ae5b3b 0x72c1ec25dfc3ae6f4d8ac460767e4bd13085a7ab589287eacf51b57b42cfa8f5;
  SAdd false 0xc64892efa846b00a0e7242e94025f605992f47eee9a48d9383358eed2a0ffef7 0x887f8088a318af59fd66dc35688a4b1851f4593f169a5a706cfcb01f7252d42c 0xf890e20542a86baedd1d2971846615c64df5e798a82ea871797c3603aebc5fa7 (-0x110d452ea2c2b843fbd31b1b586d3c926c7d2be029e2a7a1c8712767cb250816) 0x999457de4d06943d246c79d6d609f703ef249278ca76d6254845885a45b60e8a (-0x31598745257dff7796f217732ebe945854a56fe47b0d7ee29b9dd8735ca14871);
  SDbl 0x6fafa345d361566b6cdec53d71e4404a40b77ddd2f919b35888a6e185427ee70 0x5ba118eef7faaeb47de469072d70636a0b622b47aa05f1f1aa5731678690ceb8 0x3074a8d86313002c9ad059d63a75f8ac1066c185d2da5588785280b9118afd73 (-0x1747110363bc7fcf7485d2de2e633801dcc9dca73b7a7b37e0d24567f757f73) 0x30b9c8175fa12e5643f831f7460c7e1e3df2c1af151a3f7c3f8161f267020610 0x139337925fc6568a40ccfa354d37f47f7cc74ba2c7e72c123d2759de55a7225a;
  SDbl 0x8cfdf41731d5f4dc539e60bfcf68c8897ac776d24fd1f51f1aec9605621d8e1c 0x31abf74ad54856286d09f838db4d5c04dcd5344e99a862822a2afeb315fe85af 0x764cc89201024be85b8f9d73c4634e52fea22627020ec28a36c8d5030a0ec347 (-0x2d040ba5652c61f1ecb85b7ca2d1ec3c5c3adc00e3f4ec044e506ed3fddb186b) 0x4da6bee60abd7cb6da99971e8851b10471fbe6e26ef21d392dee603331e5100f 0x171bada98a8cf3afe93f506c91b121974478d4d9a42e15422caa3fd9ef11c5be;
  SAdd false 0x20f617a027b7ff44a852f3c65e8f9880b3ace7f2dc8d6aa8f8eb25433dc687c2 0x6203b92d43e79c317b42b4ebe80fab3ec76505fb9597f7af9654bd2194f073e 0x1ef5ed0a40747d4ff16f757e01a854a6d90afc0d7ea828f0cc34d2d1e390bd46 0x2424b5cde751221416f5e4e6b718e7eed1ec95682cc4bf6d9718d9e20273e8 0x43e72797826f33df6362fb33c91f55e948adf2fbca856e4aead35d9a683d2b0 0x59b53c23481ffc947f0c7ccd81a0bc1a8650d650be8478cccaec6a52c8e17eb;
  SDbl 0x12c88a8b64b4c03cd5139bc2a0c1fdfbb4ea6ca2e28a92b7d8f09f1a77fe38ff 0x549dd048d4d58328e1e766303e47fa9ce4173c8ce8a602746863c3d268bf828 0xc53727d9bad6f8c81849c87d32130ab670d2e7206f759c6e40bf2d156c3261a6 0x41a828d329aec374a821382e71eae0b75d2591f219031ed0cacdd7d6559a795 0x160d09460522a82b07de8a462cb9d796d7ca7b7cd4e9e8aa88228a3207578a3 0xfba93e3e6791bd11efebc8117e45d3be9bae30c64c816dfeb29a6a2564802;
  SDbl 0xb5065861ec043c2e9a4b7da97fd64a05658d362b6912bd0e15c984d40e6adbc6 0x4bf65925bfc8b3f2530fecf64a8ee9cd0817630411e1e5346a2b7b636ca7cda9 0x3683fdabfddfee70547faa4faaf42a40336256eebd75929c433bf9fe42cced7 0x11695dd47b7094fb6710265b0156efaa898dbedc7d577565858de2c314d7f81f5 0x8001f9233ada7e279165edcfd3cc95b8c4f5724eafc0164e49dbe749551b60d5 (-0x31f9b434e6a0baa40162f2b31823a2a1d4823731516925582e1d9daf310a52bd);
  SAdd false 0x793763dadd40b388b9b1f2bbe1e627a6b301b3f57c5176b6c9d008f782439bd3 0xd39eb78c6b48aeae6c278e8e714e9eae93a1df38178728c8aa99fdbcd202548e 0xd2e8077354aaa4e9f85c8f3391141bd15b0fe914048de6aa48d4762db72fa70e (-0xbeded4f83b2a261fe928a4257873d4f4e48dfa6fb201871424136d46925a732) 0x396568612d8aa6232e1af2df4e12e0bb1ac18387861a2cf01ec3216236ab6715 (-0x403beeb5267aff30df4614b1dbbde0dba4786caab877918566796c01736ab45c);
  SDbl 0x58bc3901cb3f57ae38de25977c2f1ac2037f7d74ded29fe39d98a53df738afb2 0xac6c68f14abd945089bf9ada7b98365ca7ef7bba8cbccf7655ad7b49c693e682 0x402ec864a3857a8c70fc9abc1f9ea314c31d6ab2444e710fd6499d20afccda54 (-0x17a976712a050da2f4949858772d9ca479244156435cf28d2c5808bfccc58f72f) 0x1ec1f19521d1cf6b1db5d8f46c068f322557c8f0dda61cb5e143d8589823b7da 0xd961cb1948343e6714bc001326be8d384d5dd13b5a4306342eeb94e5059c90a;
  SDbl 0x89fab720051bebe8c10e59772d1af83311918d68903c273ae4ac6065f7913571 0x236a022d93b08340bf79ec934ae6a48de63cf29b466457a4ed891692ebc37347 0x9276ad9ae82adc5eb369243c4908099720a929b2c025b365dc557b4d6cede6b5 (-0x11735c719e3fff8895209ab8c24dd457ebde1912e020b569e89cd78d48dd9f81f) 0x4a5e4d8abd5ef5e1d0f53a1f97875f4f346ab2bb4e46a12c50f99a7ed5c1446a 0x49d877593c6df61300fa0b8e2ba87ac73e1821fc227a686d41ec22e42d71acfe;
  SDbl 0xefbb5011f41de150b1352ed9861f926a7d0749d47e2c9223cc131589ede47273 0xce16ab14c5db5fafbbe85342d1aba91c001216cc56ebf8b8c9155c0045f9bce 0x249de5a44ace10b79ef53489a8556d94a8b7895eebf93c90fa1d905ea9b33ea2 0x1039d73adcc9503a0874437909873d6fc9dc258982e5b3e3b3209724fb09a1e72 0xe07f48907994f0c151ec766556e200e99cd31382fe23886e2c375e0adde3e2b3 0x151a0240075e209b7c312f8025d7331128297d296af85bb18825c1bbc20f77fc;
  SDbl 0x70b0bf56df8df258335cf591bc06a4425c87ce2a2f1ccb2406d0eca1c1c101c3 0x8a03ef69e26ccfba0e2b9defb9d52a17da28bc110bfa91f0c57256d57b9100a1 0xd543e305341c45f3c9ac9e32f7983895164eef920f66b8e58ac71f2b092b9e76 0x1e4aff501282512b4aa322c16a3b034f2b45528de4363dbd97f89ab7b3529e7d 0x319b2173dbad77bf081c7941f1f8ae539e5b58e0e2b8e4babb0cace3d6471db4 (-0x37157f536f8807060b0dddb6e8316fb310a5a221c26d6a65ea3861b23b09832f);
  SDbl 0x7612181443f71e492dd6f9dfd1d5e16604c7daf4c328bd890d59f80f7b787dbf 0x5c4c4fd6e1abb2940393597c683d6174b20752b3f72540d08b7aaf47a680266a 0x1fd13ca744322673b10c16e5a682cc3a8a9187f73a0000e7c9769c0104ad14b2 (-0x1a7fff95d0cf617b9c8b87aa2b0fd56e8a8138fcb364f56dfaa69c36f54e8054) 0x3674af7a4a39dc7f091c3981bd4220fb44ce81adade9c4b91a438f04f2ce132b 0x1515dec3e5365facaaded1077884306969a4820afef1cde4004b6d5924f1091f;
  SAdd true 0xa9220e3cfc8537b1d212108fb5c0a1b631e911dde745071f20c6c37fea68782f 0xac20e402ab20db77adcaed9b6bbb048f6f06049063a5d5ac056db44a57e0e9a1 0x2ff1aef47f3359a17a054ba29436c3f412e46b48d4aee835077ee54be5df3a82 (-0x1b70100c9e28c46ed180c2028080b0edb02a9f32acfebfac736062e859791f25) 0x6fbdfb54be23ac663a5b6c5dd13d3f71a7245999a3480a81c82caa2167116c31 (-0x34bdf47d6f38f9fcfce72b27511975168360c1330ca04e78d19b110694d611b3);
  SDbl 0xf4c6007b6a76af30970bce4e1d4b64ae05b97b5aab3ee3a724945679d080d797 0x1026787dbd14702d0c1e69fa90c546fe5a6ed549687ffc17aa84a67d7664cfdf 0x1b4e2ebe8dde65672fdbd3a727d4b7c324251113e19d3048db529a26b3b44ac0 (-0xff85c44e35d375af20d23d26c3ee00f4350bf72a53f39620c76ae86c8cb9fb9c) 0xea0a0a10ebe5331c0550336f6919f8810987adef9f1cdad4a2512f267997a810 0x95235275a306efe28522c24feef03fa41e462d315136c336baa65e8ddebe65d4;
  SDbl 0xc2aaf0eff5be0c1104ce2a48957d5bb98a528fb84e159d303986c57c1ffefb79 0x7414e359cf9e8538bb5fd34f2dc332b4ea1aed7b7959b6ec71c17267a9fc18bb 0x20bd67d02b518b4c99a1050d1826d5f530c9c25b8cf03e02c90cd81b424ab0b 0x2678778db198492eddc182c4caaf587debde71d67801626070e01677a9040340 0x9407875125f0bfb413335a92436e487220dba25f3d88e0ab3013294b4da33948 (-0x4bfd675b37dfcbc48de1df5ef1bac3edb927cb6421a17453fa527d92f2ede639);
  SDbl 0xcc32eb95a0ed1a0bd85f6143bee784fe29f9d944021addc3969da3d4eddea0fb 0x9d37491a62b5de643f1cde0f124b111fb35876c8e149596400b6b3e5c285adfb 0x3c48a67e57f3cf7111b1f72cafec02483a401fce76e1676adf950f0567a812d (-0x9aa520fe91a529914744ca7c00d010b9aafc234613ee1cd75838f3e351265dca) 0xa2e13197fa99fca10f0dd2180c6b3c84cf2b5a7f4f0fd476f59b5f50bfef2958 (-0x20cf97a813eb86022ba2c98fff9b13c07b4084aca348392e35c7dc1a3bb37e08);
  SAdd false 0x695703cc3aaa35d9297d7eb5cbdac89dc35200b2abf70a2dfd208b9298546066 0x9cb420de100d167eac922d761c52961e1d5ed54429f0ab94ae2ee65656a26167 0x6128988810c184f14b2c44f013cb313238e96b27e696492d2c0cda12219be7ab (-0x2bcd3012d00a4abbd3df118c350dc52ae08c7b210c2d03c7720700d94c642716) 0x2b587eb148566adb8ff40abdd843e203a0debe8762fcaf83af2ed924c537db85 0x35f8155cb81cca470ec35e6c4177d76ba50d51c85c96dda70016f33e3e65e0;
  SDbl 0xb01bf76d1e8a7c0ef61eeefb1c87d94dceafc84de1428b70a9b8bbd1a3d84347 0x247b09fec0bc449c1a4b56908d483fdf7b3d07f470ebb00b3e2234db03d54e0d 0x519432006f4cbab05f56ba7a111e5772d8a50e03bb2dee3307e7ed1673c00637 (-0x9a17084ccc6eb22ba68d2e699707fde4a1cf39827f14606c5423ba09140c5c8a) 0x79267744a34d1281a1d6c94c1778c44dac06b96d6c07e17f442b513bad9bd32a 0x52b461f196813c166b575d98fbc7f4d9b67bad9a30fca86ccef64c74507b01ec;
  SDbl 0x394375338868535dfe8bdda66a98a522aaeda71b631eccb7f0f1099ebc51bd15 0xa8c13808f977973889efe7f1a7b9d05dd0b0b7cd209d839dd6e4a68d89f1238f 0xf6fc6793f5053998d86e2b1a89c2bcdffb033b44eac7225f07221804b2887e1e 0x14e67ab1fc2efebf865756069e112d5e0defef87b17297c3c325ac4698cd8af2 0xccf1bf78e2f1cc20b30c7e326127dc78f04de68b9a8738632e6088786a9bbf0 (-0x1d967b2d2466119af68262a3cee7b76ac4709979784b336a2807a26746abfe01);
  SDbl 0x361ce91a55e2c6dba03523687b9441ca4f4e3de7a4b43a470d4d7ff163aa9ede 0x3289d3c347af2cd6e30de8cd0afd6c52df8fcc893daa1acfb9c260568bf98593 0x8aa2f6171b91dba8a3c01ffa1f263d43ae3998cde1984c663d173b0f42b706d2 (-0xe5503d717fb5fe8d06fec18c28d0f2bcf2b37e558347e4d950e58ba9c1b48668) 0xb70359af9af9e277e2da3e6250d39d675208731dd3ac1ce3252e2de8a6d042d 0x18fd08da57a97c1ff7336d55cf9bd97006df459395f17763b62757e187aafc68;
  SDbl 0x63a99e2246ae7ba48ccb7b08bfb6a8a5e0f955ac88bcf408fa35f2a3ea39fd9 0x3430f324e846d8ddd7a370ba15ea6278e0f85d3b7e7072b9b60bc2f1801d06e2 0xc8bd4f18ba921d14b1a8a2332cef97eab420ffec73aedd4ce1b801040e14ed18 (-0x172f46b9a0a41fd7f66fd573d323082ed1f46c943d3be0ccdd8e0ef29d3634cc) 0x26cca0b0d4673a87930a5863a7306deb4601996a91a7881f93586889eacc17 (-0xa4b97bd737a4306b076aa7ccb157266e92f438267c92c71d75d0f387e5f1f);
  SAdd false 0x723668ffefddbcd8d3cfcbde498162bccffd02ab8e2373435dde2f7e1c9beec2 0x22e40bc028c74e221543ff2510323ec0a5a4c76a387b7f29b4fb1818d62b37c8 0x60af059744f263c2f4e0cf202d9d3e3a6527786dde110a54970bd3316bd5d902 (-0xa28422bee63a3c1563b9756c0c05fc2b70e9c35f518f6be10d02e7a7120b43) 0x32f481149ba0219549acb98c87b29ad044f502a129cdaa19618c62661bfb686d 0x7b7ec5c3e10505fa0845404c735403bcb7a3599b6b2ac8ef2f1e12aa563a866;
  SDbl 0xa856cfc314d2bfe8828c9410f4f09e7dfb41aa0314a09efafc283e5b06c0c602 0xa064bff942d7b0b683ba3d8afbc1d4a0931372644092b4696e7c4ed95d44f3e8 0x8cc3d0a515046480af61996b07792b80ebe8d979d5438b65d63aa64926a23465 0x70e32f1135745d4117fd2026fae35586ae129f18dbde123805eff438660028b5 0x6eb20e20b9b5b7f06261eb8c169836ee6c4c99c84ea2f093daaf272d55744b74 (-0x5287055d0bc95adefc5009c12b3ac20c7276851a467c48d67518a3709fd3ba59);
  SDbl 0x3ca076a0dd9e3dfc4ab538072355b128c727920485b6ac5412577d2f299e996c 0xae6082bac636d93826cb44899450ca6db7de52b725a53574b12ea816d02322fd 0x5553429fa39e94482fd27f2e867a5b9eb3f047e02132ac65bab2a5b865e3bb6a (-0xeace05d3a883c4e77e124e01c45a61e8876ed9a1df290a48298520b25f42287b) 0xe5b9c2ff64b806f5b7a7e4b5a8ec09e1869d4501b47e5efe5eb48bb356ac53d (-0x34fc579ec4615d79ed1ca296ee19f7e00f8e0a356dfed7abb41f3e4c7a4a655);
  SDbl 0x67d386db07a3c8463d7cf621858a50fe84659f12a09c78539cd058eb07248851 0x8994e17278e7ed2a68857c67480b9ffc81fca1972e60dd0c3cd473e34e836624 0x214db90807f284c34c2620774766e05fa625cec832ffb41ca918813b4afe414d (-0x11f20018847e02d340ee5bdf125fa7e93e5216ea36effc8531571485dd12aaefc) 0x2a1be54bfe5a4fd62fbac82b67676271349dd1e1095fe7bd2894caafe16b827d 0xeec551c2656bb4d88f73701e73199f3ef89adfe9919ce8754deb9f7537ff40e;
  SDbl 0xdb93a5eff0f4e62864972077dd2f2d517d91749260908d245032d9a3b0d661 0xa895b87b2d1664f356f0794b22f95344278d06f67fabbff52e329b267597a8b5 0xd25df138c9f55455987182046d2e4209d3b770bb246e905ad158d2946c7f2193 (-0xdd98ee41c3a922137c06afefd9a3934cfb3cbd07e7cf4a04f0d54904dcf0192d) 0xbc55f3113fb6db9a2af6dda0739e745b82db39428fa66507835413b8243c (-0x1a979988a04aa03739f0bd80356d73e4c8a7591c3ea2d8558625da73802e2f);
  SDbl 0xb89ff4460aba43668f91ed4fadbd636b10fc4166130fad9f0a7c0a6ca63b20c8 0xad5681f5c55b5a2328a46c5b78ef7b4ce04c3b63dfc43b292ad2e6fc47243f1b 0x68d8442be152ad53215af136361ef16ec95c797db232e1d1b58713ebe621050f (-0x1da0a02c7472fbf8308556d6ab1f3521eae6652ab1a290ad30bd1bd7b8af05c8) 0x852653168ca8fef6a33c8decac2327b04903c3b10b3153f7d914185db1f0f445 (-0x36d891650f699fdde2ae4eeb74b13516a374d8d0d028f7b37aa3c4d973b99ae);
  SAdd true 0x72da204d2d847b52b0d7cdbac3fcc938f25a286affa5a11d636b574c6e78cc7e 0xda378d7b559277ddb8c5b6a00a2ed53e9c5a2a7d997598d0c91627006525f2e9 0xaa0b898f27a78781ebbcdc2c82c31104286705d06e376842326acd5283a7fc52 (-0x36fd5ff58adf3f954401a3df64ba453190e6c410167d6ec7e13a138c1c168f17) 0x3386fe9ff795e4bd2e89fb60b74829fc32183094dda1d70a1d8c3bf93e1d98c7 (-0x1422746f0733c07dbb6409c046a43f98897b6ece2285c6818768259aa988573b);
  SDbl 0x4f68b43b3669408d95b15156e4304731031e0969204461c656b6865f3b4a0c03 0x576fdc4a24a4e8ccd1b2025d4fdb167ad1fbc20848425ee68e50fac1be999800 0xae650f9dc66ce12426ecddb0e363f9db897ff90369a611c2fe66d9d065df07ad (-0x1c489c359377caee3663289dd7b448dd15c7e437750d956754f7d54aa997991bc) 0x18a1ca0f933647a18b7ec62d5c9e5b34cdcda75868c408d374f60394349935c9 0x28911ce0fb0e9d88eed44f3b2a37f7d7ee3da35561db0ca1da9f029b67450744;
  SDbl 0xf0a3809603eb630290b8c18b36aa32f1321aab54e81a73cf6a5d0b1820fae68c 0x3ba9d530676b91a4b469c925b893469729b19de6c28c4a62cdf65d6bb3385cfd 0x113f8b99dba15c9e103a3f22a2ce0e2d07aa82696e3c630298045a93526bf38d 0xee44975a98546d2f4eade3e92ca7a2364cc6083d7ff1e9931a92e262b320bec5 0xe232f987292bacc008b45766dcee1d284fae3c5309c747e1b5c56125175bb06d 0x1a1b63b20ae684375de8d0594b1f753023c3afca76aecd97a750ed80232c0396;
  SDbl 0x21fc53518ecaf970cd367417fa2ff0a5cb3b1ff27a3dd78516f79e612980a9de 0x44567e3e10c002a6e00cde7038b6a93523e5ff8da3724955873abea355e34133 0xe14a9dac25da15da415f53d815af289472ab0e5467915fa2b85e7a924744a3b6 (-0x2522c87be2f9f799d973e719a75a0fac3a430eb7d3eddfa8983ef35456661c74) 0x483062f2f0276aca3d54fea4a002160288fc485fcbc5082e4da402b519d1ea9 (-0x126ce93ebb4f1f4217430c99ca92d8ad33c556997fc77af6d90a1c3c475dbe9);
  SDbl 0x46ad384363ae068427a09126eb0d2bda7be9be8e5132fd7db3bfad013464ff0d 0x43e3a07a0e2d1a19c3a0c149075a2feae25004041fdd2c4ad67e837db09d0290 0x6beb3b068784b1bcd8e4cffebfbbcc4795ac1d357f7c254c8f4ab826929db97f 0x45ab7f3cabf6899bb037a2f825de0ffdb24ad62680b839eb2fe7998bdbd99bfc 0x13832ffa0578a21890834a5817abb3f37a09169149118c5e2d534134d4209e4d 0x1fb65cb50943efb6340cdc36eea30a189641d9cf562c1a3cb17861e940d1ee;
  SDbl 0x7cfb8a5d0bb8a1687d46f409348b0a1cd636f110fab7c506362fa8b0c2121e5c 0x77bd0726cadaf3ff0166bf10753842538e4fabb52270db972098f94c9649a665 0x321c91628b946b46d73175e046ccec0cab29514d1352bc1202ce5ebc1d1ca5fb 0x335d23eab27499c6157adc5c581af0d457eb13824ae1bb8d932b9d4d83409bb5 0x3d04a532fd9cf0114c92a59facea6298628fd00e9c1aca18a3ec0a7c3ef9fa75 (-0x19503fe979c49abb8598c2850eab64d2093c5464b9ca9b286badef1d9c0dc9fa);
  SAdd true 0x810814a2e4beaff8a2161be19e9b82f8ce4cc83214f4d883708f74d16792d4de 0x4ebfc718e8d1798620432268e77feb6415e2ede0e073c0f4f640ecd2e149a73 0xe858f9d81e5430a57b36daab8f950a3c64e6ee6a63094d99283aff767e124df0 (-0x22c3522884e19e1fac146cf274d193e78c972a6d6ca67a0895fc0d12991ed657) 0x4109250db76979b56387aaadaa8eb249944e8549c7c34bfb78c30fa4d572451b 0x39def62f46a2b7afe4646a4a304a6e28769eb7e3ea32e93e447752c92146300f].
Lemma sk_pt : pmul sk_k G = A (kf sk_x) (kf sk_y) /\ xc (pmul sk_k G) = sk_x /\ yc (pmul sk_k G) = sk_y.
Proof.
  apply (replay_point sk_cert).
  - vm_compute. split; [discriminate|reflexivity].
  - vm_compute. split; [discriminate|reflexivity].
  - discriminate.
  - vm_compute. reflexivity.
  - vm_compute. reflexivity.
  - vm_compute. reflexivity.
Qed.

(** Its product with the private key. *)
Definition skd_k : Z := 0x2c3b4b44f5bfb2df48f467be26367e822881a1987af56f6fe06065be12aba5cb.
Definition skd_x : Z := 0x335e18d751e51f040e27d468138b7ab1dc86ad7f981d7d416222fd6ab3ed230d.
Definition skd_y : Z := 0xab743ebcfb22d64f7b6ab791f70658f25b48fa93e54064fdbfbed3f0bd847ac9.
Definition skd_cert : list step := [
  SDbl 0xd6a6796a27dc312621ee1d7807d53f6f50deb90e13e36666ba6451403bb1c3b0 0x56cefd60d7c87c000d58ef57fa73ba4d9c0dfa08c08a7331495c2e1da3f2bd52 0x31b7e7e6cc8189f668535ce0f8eaf1bd6de84c182f6c8e716f780d3a970a23c3 0x11d6cd80f81a9b5e9badabd304c2519d600d3f8b4fc759d131c1e2e5c0ec83c10 0xb3fabf3fdde018ae8b11c6c6c230d119ab7a3586127dbf7325ee158cbb960de0 (-0x1e380dfd5e1b5e2882e2747670d8a7457ae3f364a6717b3578c57493fb0d2b0d);
  SDbl 0x17e021789ef1ed9ec506f9ba33bba229384f476f5c75b6707bb4d0c32e74636b 0xc239507105c683242a81052ff641ed69009a084ad5cc937db21646cd34a0ced5 0xb1bf7ec4080f3c8735f1294ac0db19686bee2e96ab8c71fb7a253666cb66e009 (-0x4f09124c394fa03cef9d066ed39ebf371ee29a6771c9f23670d82169e1bc2c39) 0x23a0a3e463ffc20684142caa30690db7211c7346977c77eb50b4561c8f25ac0 (-0xa04988a7d8bd1088592011163b1877b16a3712bdbe2746cb993e93b5aac0173);
  SAdd false 0x8b44581d4d53e663b699a7a3a71122775d7b986db0934f2403f1a8d03c5bf281 0xa97f7cd4b3c993b4be2daa8cdb41e24ca13f6bd945302244e26918f1d0509ebf 0x530b5dd88c688ef5ccc5cec08a72150f7c400ee5cd045292aaacdd037458f6e6 (-0x4e0aa07754eb005b5632510f6f0b305a24b189decfd7ed3860c8e34e3904339c) 0x4bc349ef0ba1a33603a7d51afbedd900895eccb5bdb6e74d970908f572cfbd5a 0xd737fc4d8c051006415aa0bae857fab178d8da715a33fea69499d62a610cfd9;
  SDbl 0xd0f22a788c3807331c3b6f6b365a1ef8688175180f43a845b3a449a3253f6f70 0x927afb57d93483bbb17c93e71f22a3105ff8856a66016892c8b1a1a3c4b0d30 0x150c6b1ab4d1fc7eac1c0ef6ebf2664581adf1f0855a064dd572103000088f63 (-0xc91d215f4ef9c3c22b352023c68ea4d0f649783bd2ac36f88bc9850f07b685c0) 0xaa8a6a18e15a567faf8d253d944b2de9d7a7554944a8600ce81c1d6f7349f9ae 0x82df0443af0ec254060cc89ca2cd3ca3557b2709495949cbbb64453ecaa3d6b9;
  SDbl 0x3b705677cf931cb9932b48066b31203c7eecff748ebfdc1b7d798a4699cd091a 0xbfc2df6bb17f971ad89058ca059be46e5f7b516c5bdaddad9c9f042d0279270a 0xb145513f59636106cef696b67939bd7b73c9fc6fd150aaaab5fbf87b64af3c26 0x8cac0eeccf6cca596be8360b0d44759cf4bddd701b83dc7f4aafccf1a09a4e1 0xdccf9270d8520a7341c7a1f321c50da8c8404ce42630a0a70c97d10d3186ac6 (-0x2a65e591a04ee1732501758c3ea548772c830cf69ed3b0800142b27ade1eea53);
  SAdd false 0xddf5b9e73240d62132f3fc842f43a38b2320ca32c5c4a1974448989d0a90f452 0x4b3cb10c9c6d8e27c1aab770f67f543125dcdd589c2ff82668c74d78ce20ace 0x63516355287e39fe4918e5c02e2b0b930c94816e63c4bc72739a8fd805174a4b (-0x7a3ec62c841abf21397200e8cada2e66ffc9def05256bc902dcc963fac003751) 0xc0722ed748bc4813e69ce0b0c81f3183154da73bb071f8795e090ccf953b3c5b 0xa22f91d86c43338e6e5c810ac59c417ec06bdb8f9f64f64c790d2df97eb64b39;
  SDbl 0x41f1e44c8344b2e91158e0548f4e18a1f5ab1be0119b8ebfff38e34d0437ce43 0xe61120569974c0bc1835a4d0f3e5e2993e7307f46fa550d10755a352dafa1e1d 0xcfe30aa2c3877e52d08fc10e5056e4bc02855e18d12379b43b86cc142850b0f3 0x32e8aef86c583e9cd585f9d729dbb2ea8b28bd882cc7e0c332fcfb8ec28aa207 0x10fcba7e8f4d256257b7b37654aa1b990b1b963c8fcad0119bafdc1795c44e30 (-0x3a0da47eb5b809b236a93b0b14bee0f636e50b5324d1563eae753dbaa0c86515);
  SDbl 0xde9487a238c4f6ee40e06a0057594c443d77ba361722c08b8d43982fa117559d 0x2575c600187cec18a7b5fa7d47457508b1df2f7a4fcad9d2dd379996725be125 0x84442dfc92fb06ffed22d2e0508647f483580245568efa731e259e3d752b00d1 (-0x102c9548440afb5a4170b69d98cd394df406c8b5e3433b1c028b48115d197fa36) 0xc185f16b3769b01995b87cf6d0d3297a89f5ee69003cdf5ee81aa4c62f787b16 0xa7767833def8e71d77792542deb161902f114d3d43fd13c9782386f177e9f5ac;
  SDbl 0x3fad3a8bd70a0772ffbf3323cf8d9fbfe0ad5df06a5db94588745590c9e96a59 0x2837c25fdadc2e26b169aadf11e60e81a5fc6ff489cfc13e6e31484dbd771d0e 0xc3723f3fc316243df99091981e6bac0a7807147e3e464e77f2030f4225a85995 0x315acb08393a57f6dc07c089fea094cd634f9577ad950f5825eea41d9bea88b6 0xfd6b8091211f5158245c4585c6861cda681ddd99cda16d171815f881dff0c67 (-0xaf9ad4930e271a9ca3dc96182232e008e29f55830ce8d1001be1ca89d55799);
  SDbl 0x9a127066da4062f2ddd2c65ad73fad5b1d945671b535cf165066e6107cf05b9 0x11e7198efab59ba31b4aab8014566d6e01aac585c5b5e0093ccaf13d7dd066ce 0xaca41a2e5114941598b0a7b806547c855609b0831614115524a323f70fc7120c (-0x44050ec81ca0c4f570e255e5ec00f3a79e4713cc5817ead24db54e7eed6c511) 0x5cba30901b2080f5341e5d96d6db874b7c46424a9c45b8067735ec996fe139 0xd6e2105d3fa09b5984f9e7a836b52fdde7c38b93ab811346226233d6a67761;
  SAdd true 0xbbc540c4aa2b63e3006009aeb2880cf5f3842ac79d4637afa7414a4a8f661f1c 0x133f9c9c23306d856c72df390c015ec858ccdf65c8344efecf751f8bd38bf1f5 0xd330644463579ff0637f9512f4c797a76a3c4c3582a5f67361d1cfe15b558202 0x181b2e62e342f003d6934eaed75673ef788b6fc51bae1ce195b00c7689fa3058 0x89b9c49c9965fb7cacd0f93d9623b70978d9822a8e116e0ae808eaa46e91027a (-0xfcb12ea01b309f534f707988e4aba76375363663106f1fd9e2147a43fc7aae);
  SDbl 0x6d9a8c5782ef59afe989616950efa6087704f305652d322e5813a35be4875312 0x49fa317672ca28d7ecb80c869d8b02029aeaee1ee175a7cecec1f26db4043a67 0xa96bbf129c826d3329f58a33f8dad6b035210f36ff667a2913f2df02acaa43a9 0xb07eaffffa52504c1f39c9ebd3090dd42a1ea4518bcfe18b10ab40208fc80920 0x2eecf8cfdaa628479ae97262b987aaea4eff7926caa1b92e2100e338932b710d (-0x176e7b9f5574b78992d855567ba4bfd5d9a869686620ed725c146af973f02c51);
  SDbl 0xb880934254005afaca89a518b1214b6a05c31c2c2af52d32114924a2d13e7e09 0x518d5a582127761a131d411a2a732ebf966f08d9213352a1d98c48568dc520b6 0x3602206200a46bcefa5894cb91e75eba47abbb25a6d9d209000c57c617346121 0xb413232578be0f0ba3d9445677cb0d36d6e195ca3a7cce8982fe1ebbb331626e 0x84f9144374c2d50ec6ee65a696127ff32b8e8da86dad2126525d08c1f964b933 (-0x575935222863eea0be72858b7dba2caa331c1ce663284aa3474161e5cdc606f);
  SDbl 0xe2f11e90cff943cc177e98fd6212ce806b62256d02338695b91012dda9a46a01 0x15a763d22ccd0233d47401094661813f23e6d9b6eb2fe3b3dc5b786d2c41a225 0xde1581522a3b98c3c7e78749ff2a355f6d5930d03bf3cb859e6dc00595984a15 0x11d13a6a6f6006495f6c8c8a1aa6c195bd32dd4f9d603c73cfcf533bf5bdede7 0xc92e9d1308b08ec215b57ab2a131bd7203a745c1912a65d1682261d2f89f0f90 0x35196e465fd3f49ad48122dfa0f5e1798e5a699288c1c58108d5e98a0afd22a5;
  SDbl 0xbffeec168d6f223a96a0360ca80dbd71eb9dc8ce8a25d3c3fcd0c4289b4dc847 0xd7c4cd39744399804bace83432b6c821638c6abaac5f82fe1f4b095c97fc1274 0xc5c3e610c832fa13b179e83cf5989395c211c34cf9daae06cf95ca7761537c33 0x1479fb7c9adc1bb5fb693e81f6cd6fbe3994416f323cb53760aff397e739aa462 0x8ffe62238d8476806ae3f0cf134544ad2e3db9ffd6a3c2579b6f63dedf1a530d (-0x91953dd76b505ce7f8d23815e9fad54b5eb7a37a2992d675b2c4e586e3de5bcf);
  SAdd false 0xd8ca26c0c5ac887c262627ddacdd2359474079d79644ca64db87ae5c163911ae 0xe51b0dd976c98e4bacfa02945cc3a1f606778e7bb05f53a3c9f37a2a80cc7b15 0x792a36508ea4c2a29ac1ebca8f83c7e8c6ad92407c821690b59627851cd1d7e2 (-0x8bba65469036adaafc72aaff2c0854a2f75b6fccd135f48e2593172b7032c43e) 0xb795c107333ea7786b7fd2d8b86988ae5eac709c2fb286d97219b03d8360700c (-0xb4b4e9ae442e806453066cb0a2eb3db71a89915761258394314ee584b67dd7d);
  SDbl 0x2ec191c93ce434d8884b8c60dd1fdd276f6508159d2e37f39c3b1f1e12da7280 0x3ca6f9fe76d7b269ee3555bccd8710368d7ba74daa55cc093b994bf0a549a3a2 0x9c6e910bfd615de19fee64287d9c6dd2946415c056a1f96bbb351f5bdc63218a (-0x23ad9d5c0041592444181ffccceb861e10ead51cefbc36387b6856f96fd159ad8) 0x88a22c17edf8b022f0c3dfdf0b82501540bc785ac3935c6b42ef7c471ac59cc 0x1ec43b029b50a695f5ea91da62017a7704d6306d63ddf33a5f7d192765ea09ec;
  SDbl 0xf38dd6c0554bf07207044fccdafc9756af0b672b90a40444454d96f0b876771 0x35002c0967c06105e257126daab3781243dd72b799cd5a01515b6fa89e878182 0x8dee00fe035b7724f421c10bb9d5c989f67924fec8b79e3533dbb4c7b19d9bec (-0x1881a24fa6dd17e4eb2e6f3b8410ddd53fda8564c599368b40685ff2e319904b) 0xe7b694484da8d382a8e990b9b17f7d24e0505a3c71356a5117d709f020a8e5 0x74792ca4465febd5dac7ec26a7caff5f079476586346ea3441c9e917b4cd56;
  SAdd false 0x140d71fd3088b9e80c58d68df9ea28639c2aa30992788732444268d178f0ce1f 0x1d05355f68be5d4948115b15706773caeb824855c37ceb176f5e681c4c931ff9 0xb0e6d50324c94b31a2f16d264b9697547c1b230e50ab62aa4fd3d458c3c0353c (-0x2cc3d925dce766d40183820ff48da2e693ef4a73352f117261f396bb2287e8) 0x1921a84579fe4b526b0e58d0759ebed5ea215e6ee4f220a184bbaefee512e81 0x1e0ddb14ee1a5a4271f320958dab2bf0fd01cafcb1427fdf68c098339d9c391;
  SDbl 0x9e56c3cf49d370664257d01a3401dfa538dbdec8736bfdf5b168e4020f7d7e1a 0x5c119bb9390d038740e4eaa063224ecde64e80fa60ffc5b336afed3afa5b9de8 0x43eb0f8bc6a3e4128dbae20d40ff1476dbfbb8a70fba038ae2c2cb4b198d628e 0xd0f64e0db8910813f76f68919978fbe84819cf328838ce553585126abfd2e060 0x61ef371c661b423abb2a0d48c1c2d88baecec988ae9f5361e4c882c024004336 (-0x26ff058f76e752f77c01214760741633b11444e2c0954def4fa14f914fa6fbf0);
  SDbl 0xc897ae3ca73b4ba92bfdfac4e58a7414544ba153ca36a23b87f297f4a80e4bc8 0x9eb9c85af3271917806f7eda9056fbd15f4bf5cd8b476003728ad69bf5e7ada2 0x954d97574acd2a570648bd1ecd8dde53767811e8e6e4cf70282e35a1edfa34e6 0x719c8a0f16d649112d1c484c0dc3aafab7a466b71ab1b358a43252660d1f4dd 0x9d2d5a1e649dc9fd66d060fb6f6ce7d459e0c73082b7a36602d1878f0a501d32 (-0x343ae16efa4f8fa2d808888926541260b1dfc96dceba2f8954ade2597e44a13c);
  SAdd true 0x477f3559e4930284d94b0aa8d7eba2a00d64f7f402f3cac6f6af254c05406aa6 0xd75c627695d01edbd129efe778d2ed7d4873cb26c0bb1fbbb68aba4b39c9690d 0x674074dcd06491cb87a46ed29e4d21057a4756309ef60cd02394ba3de1e8094f (-0x1e269f5abf37ad8ed88f0d93c354746961c3f2aa990d9f1d1c3ff50fd8ceb844) 0x13f7cecdeb107c45b4c0a7e4a0487a336e32c099b16b378a064cf380678fa7d2 (-0xfd13d35baa4731f583be7454ca25491465ebe4187bed21798a55e82c263ec69);
  SDbl 0x4853bed4a8177885c08e9aa54e10452380c0739dd68561760e0e160829dd742c 0xaa5fe356cbf18521cb2b8e83a7a2d19e452ecaf6e1015305b2844af8bc912b17 0x812413b283e6aac49e7a2d4effd78650d40affac210571b2e53ff1a73290d6e (-0x1e52d1cb9012f576a00520d41a208094dca40191d34429a9812ad5df78e07cb30) 0x146f36bcff21c3ea0e51cf1058aa852aadd6baeeb2a5032be6223e074f7415a1 0xcb5bb26f9c77affaa26eef67b9c55e585f3b45d292deeb0cf8f07436ff4f875;
  SDbl 0x52eebefbc7a7e760dde2bcd68a9efbcb5d168bd644cb94f2be5713f6c689bbc2 0x67a9987d6907cff99517360aa711668a7eb563c50e55330ebd111306bc568fea 0x3d8fcbaa7c49c77a45849fb1b36e7707006cfadb1d1034b9d80c5379e08fc111 (-0x14eefb9c88773bf5d2126ce9d65d9c50ff5949c4fd8cb0fffffbb37f02da6da88) 0x1addd1011167516bb2131d24372f6d04c50cac4e194e81b9efb0ab959e1fe714 0x159c9b3835b59c787d6ebf188edfb41d66fe70f0bc22ccaa0a623f657ee05765;
  SAdd true 0x4adbbb8210adba25d71bea25515bc416f50fb4b2eb0465084b4122eadc923606 0x32bed1a32679babb2f64d7cc3e1d8b287b31e49682cc27beb3d941e902ea06b3 0x723f0c263a185dbb5d86199c3d0de4c0cee828e7261e48dc5009834b2456bb23 (-0xf77924e193b460e927626144cb5fa63873325dc8e910ea8ac7489a7d969cb9f) 0x15e3c501a168044ebdfcb54a06ae839710fad026429ce5991f889f24f84e8340 0xf794915a55a49c9dd54560129662dd6db00b4823802d3dd80f7eade420baaea;
  SDbl 0xcb7b4a523081aac702810428d3f5986a2b67e685fe2d2b9eec38eb53fdfd88a7 0x69ce8a797aa54743dee2eb26dfa1ea99b980a4fcae4908a05a38f67ec81ccb7f 0xf25101a604ec70b993624bba7c8f3f661c888e48c56d30853372de52df590e7d 0x9770bfd1f463172f2f12e153756a8910d73dac9ad17c0b8cb54ec2fa810f4bce 0xa1bcc33f7b38a31f476afe5a674a4262c25c71ac3fd9a92fe99328d554e8fbf4 (-0x2bc3fc1c2862f4c430143c41a53b0d3a9f2eeb30c986b342f9811e1d4609754c);
  SDbl 0xc02fa5c63e93ac237395704537922352107aa7989be81a4a79c3d168dea32360 0x3da3a8e982da51630193420b27068770e08e3e2b853f516773c561f2d59f2a01 0x21d070c5da863ab8e7ec482503ffbbd9d8d46c0fdbf338999e190f86e95caa8a 0xe8a2795bdbd3d3251ca25acaced198b82cd7d06b51ed3d2fd3fe0b53a4b0ef40 0x9047818838492425d24d93d29d68dd651a2b3ca7ab8101b27e08779fd4b55cff 0x212861a55bc73553ee88be42d54a838681107e68b78dba5f02a545fe954aefc7;
  SAdd false 0xba3702e751197b95d19a2375b9d0efe16a6df2aab788a91dd9a78f2148031e48 0xdb39b356fdfc000789156294e06d6541f8e39e2342361e2f0b6c7ab2cc2f634a 0xc060de24eb4a3a59fa6df5f11d79e806cbf307ec160821515515a789304a1200 (-0x7e8583511ae3bffbe02a49658edc2f8a910c9b2ae04710cd7e4f7464268d6db) 0x8773fc0ae8ba4adb934ad902bc2dec5d2c33cf9d50fa2ccb3db8228c9bd60dd2 (-0x72a0e099cc013a8133947da725c5f354a85864a2644e4accf11d36d7733798ee);
  SDbl 0xbb354e689c47a129bb5aef6a57c81b594e5c947141ee1c51de29a327c859b0b 0x8d725ee60a691cc32432a06330f4fc2e1c4084667cb34b4a3f11bed99f8d8edb 0x7df60e146ae19e8b8b62d0df9defab1fd4f75762ee5a54ed2cd12a05d99fd6df (-0x2219d7762d1a4c34ad895711412e7d0920e8006f53c9c65aba12afee7e91e97d7) 0x88e6eba6ec8c30bd9f5a5eb3685aa818cc6bfe7cbeace479333406189802f6 0x38e0ccc5ba5f78ffbbda0553002cc9d67f4f23edc233a0ad26d6a8d01ab931a;
  SDbl 0xfccd50cd99a447c895b159e7e4cc7b236f20b374cee26c3439ad0244710ffeca 0x8b996e246a4e2a071e8b4ea58171f88395c30db2f829d5de286e2f341aef8d1 0xc2eba9ab7f75c7547c7d7e3c3957bb8833722b3a47d2fdbf3696aba9117166d5 0xe50e868baecf324747ca2ea4666d18f5663b0081ba8492099bd0f097a1d721c 0xf9a4dbc042e97f543b0c8267292d199b5c456b708f70cde08d3cbd6853889f23 0x831056c0b8ea3770245ba365d30865a2d149310d3df6e22dbaab11d8cbfaedd0;
  SAdd false 0x3a30d606610dc30fc911466bc005184435152e203b9303addc3e7c625f433617 0x77cb64852ea81fd12fb143d743bddb615494b68409ac305a7f369285ef66b6ff 0xdcdfd9a06b6f20a756637fa7a9c66ab3e54afe8466ae1fff86b16617ab35e62e 0x98e8881741c475f5404eeb2a9014e17cb924fe50fb8fb3eb4f05b9e24a6a170 0xd3a2a4be6877643e71da81ccbadfb829fce8e1c8628876de8a5159bf6ea6e86 (-0x193f38c936c82c79743eff10d962b514bab332a8c841cde9a6727b270daee8db);
  SDbl 0x5f1d8079576529a138fe30c26043dd19a9ce372b599fc8fc60c6757f8bb4bfa3 0x316a1bb6901a0272ab4081d2ae0cc7ec32130a956b17b7acebb627866539741b 0x6e23b5a180806825a1460aced18149324e54627060158f0572e8fe31d6af2775 (-0x40b1f37961d4c32099b04b60a396840cd9d4a074ce7a3d737bf316eb0c10c94) 0x2356e8c08e2b5b7a8a176aed5f58d7ea1f46e8863a06df381940631f355a4050 0x1a26365c06ce81dd466e63c63bb6b16dd867b66d396c9212caef7d3beddb5a77;
  SDbl 0xd746d9793090ef258d311fc510adbcb4db041c857467e22794799638ee4438d9 0xd0d69469724876ae63f6ad4ee33edb90124caad412a178911db5d6030f82202f 0x13d5debf1efa9a8d8676c436b6018185d0b4a451071851f70fff57793b832f97 0x9c9f91f97c353284d50f5020dd22fa791f9e955f1aed519ca67ba24d8baf5c2e 0xb50814e5eba0c38e6ef8e4618fa65b3e53ee3c6a65a0f02741c60e3e1e0d6074 (-0x861038762dc25ba17d0524ba8a5e97bc80e3c274c2708c96339755c0633f6c00);
  SAdd true 0xa32fd5ea2f8bf80913b041a6e897b663785d83ea7a005e1bc5498df764676717 0xffe6ddc02e0976f5af99ff2058eca2111cfa7417cb770bdc5876a805e39bdbc8 0x75badaca6fa83104cfbf285ae1f5ab5eb485afda1930d00c14ba2594587d6833 (-0x64c2eef834454b5d7f10a5496837a5b031f3c20708c89be40edfe82322a8009f) 0x6805f358df4f2ff3612c1b3bf386295bb9f25306d105fed2e7ef8ce21064ecad (-0x1e002a03691e72073fd17cb326b89111a0477d93c55bf70d58aed819c4a5fe77);
  SDbl 0x9f247f2321649ed0a1320f904115f2063efcfc1be02b69b6ded2d8abe98f018a 0x34b6e0f83f71534286a96d3ef21783ffc19cf4b46647ad1ecb2544346d8a7ce9 0x4192897335441c07f3515099b2b2ef5b814eaa397aaa2f2afc67b65e6478b430 (-0x26d098ca5ebe0ad1d006c9bd320c5ef2e1c3e792021080413fef57f1fee5f583f) 0x62ee5b22076e9ca9d5c9a78d6569a2824715d8b1805273d770f005344893d615 0x7e4fc5a8e8159c4f05040cfbaf5103e4d9d359d5c09707c070d2f19110a9192d;
  SDbl 0xe71d7204943b2bd137084d07f5e5890d2bac18afa321c1b3cea0a4061d1a6725 0x2b756e8611aa13d2ecc993bfab19978e3743f77c3688cc54377803d32713934f 0xe8b05c724b4e4c7e738a33c4ed26002c12f051f2a3588141b51f7541cbc1229d 0x55d51f8dbda3e563991858c490f90ad90b56aecd25686442f756e01a50d0ee50 0xd0a627281bfa99bd456638875566957aabaed592069f2c2c1ecf50688315c1c8 0x85b1ece55f1b49e9c38876b3e8ed433e3592197942c30fc5508f810fd691d8b;
  SDbl 0x7c7f18e1867f05fd78c0581c2214c06fc2d09393c11e4f2b8cb458ca7a0d249e 0x7ca924d9c7ee3fb97b7c82425b7ad8ab6f8bc996bdf4506568cea300580ee8ae 0x565ed5722280f943436981aa0455d7dacc1b12eb1a6da1bc6efd6685936fab1e 0xcc2feac889c9a5b621289b7af3d9f2cc1f506854bce259ec112e5eecd1649554 0x3c8b5f346904eeef6a8e5aa0b6277a3ffe7fbb401ce17f2ba973b9bb50ed3dc8 (-0x277d5cdc8982429941f11a32af7fc1737f8d8b2959729dfa94f1430871dc25a3);
  SDbl 0xb5b0ea0429f80c4b23ed6856729f3b510f74ea52dbe0572f2f94dd480736574b 0xe02ab7c90dea4640318349ea124ac8264f03cb1e9167b6528bda3171cd2b171b 0x19c2e513d4fe2fa10b5f9f0c44e89f7f7a5072ade1e5658e2466c809509ae298 (-0x3b83683d1fe0c2c2ddd2727b39821b363b08ccf9743ace5e95a5b9506ad924cb) 0x80f3a52cfff1b86af52bf8b3aff6d296b8d48b17c7746c770342daf371e0d87e (-0x469f60ee863fdb5ba94872d8be18a060a460a7195a8b2982f6a8e68872eecd5b);
  SAdd true 0x9ed44301b6c3cbb8e7956c314f9c5ae1372db886206fb05e92c773883b270a 0x28a7ebb3d44246b60388faa40f865d485dd91024dffea1a47bda8922b12179a1 0x28c33aad3789a7eb8673c137cd3c85e36897a32154750f37bd4b6a13c83499e5 (-0x6b94bfd21aa4a40cf2e7f6d460d77ddc8fd932a033a94e1023fa553897ceb0) 0x628ab2b58c84fc24a14659419e1be4c23c38a5ed5d23f55179fc0d08f91f 0x71dae24f02f40313ea4dbe51789eb94fb9ed1385939668d0a16c126e53bfb9;
  SDbl 0x9ea8b00f3993edc7544169266a0e3102748b3a9bbf1a96d7d344d88d7ee5e5e6 0xc53aa6441a717bade0d5980713c2d75273f78d5c0e6899d3c378d685224190f9 0x7a472c025f52936a7153d9144536acfbfea0ae1274cc4e51575d21d6db3de31f 0x1f27fd538d0e063ff09bf644086caffda11d8f16633f7190ca73e26b0c588c44 0x6254a87aba77c4380f523e710030ab0b5fc852985725eeeb78e36cab00933997 (-0x6109bb1e0b1c30b75a50c49ba3c38ebc3de8d665b8aadacf2d68c5c7d31ed1ec);
  SDbl 0x4d7c8bbeaaeb3092b6f3a8eaa61fac343a3fd09cc43148c18035049d191a8ad0 0x48b421957792d7dded5bc121fb09dee7a561db1b3e3f029cd452e5afba0ba970 0x6c738560bdb13a6e040668cf0b809ad5fae8322e2b5a2161ea66a513f3adcf2c (-0x17dd42913ba1a22659374f50f81805bfb88c1a3a907388fb2aa8d8e61f01947d0) 0x177428a87743d355556c44075d58a562ea72e05fce2392083fc99dbce109e262 0x25b10b0aba49ed6bbe7ced1637a9a60cf641f8aec8020b0a0239133e2f65b8fb;
  SAdd true 0x3ba00f11decb296b29109f412fd4bd42ab8ea24dfe0a96295c75cc39ab253f64 0x3a514a7ed9d3b611d6e6c98ac2b3d69062d10174455ab7d3abf536ec1e057676 0x4d33b7837fc7e2705dd19cbbb3782b19431fff34d3f3c82fd58fb49589fc5c19 (-0x51be68bfe180e11e919146c6e6fde63758697c0a0cf92de01a5d088a260b588) 0xde32b0521ce676b746a71b68ab089b76f5ed752e816528a1a31ff8210c3359d 0x359c631738727694eba789bb129180df0081e409b078b512f9baf3ea890bb9d;
  SDbl 0xb01af1dd34c65aa0b0e3594aa90ac6f3bb74a468f5981b0f1bc840aeddf86325 0x206edfead8cc6ad75211b78845090daba9a0a1e6d46b59992b56a116d2760e88 0x63a4d026cd72be46fc21bdb2ac84d6bcd6563fa28999e48336d9747c9d4e8cb2 0x425c8e0205745d058966fe4fc3ce380885bdef1d7d5eb8c946efce6fd1a905ef 0x79250f66a726c0cfa2ff7ec37dc2c0e31592fcc4533195921bc0fc74ee6b581b 0x11ce62b929ace3da219a784bbaeee595693ac453aa17441d574be19ca1cfd965;
  SDbl 0xd3e0f1d8052ff9e1f9495b0c9fbaf53a8103e84fa921c5da7e1e5e1b504b98 0xbdb7b0429063f416ae3a2740541b296c07532dba91033e171665798be84ae83e 0x69f2da5ba1d58903c6482e27eaf4a991898dd13552cb4eb1a5efb42dc2696e9d (-0xbaec733f29b59008263a42082f3d7529c241cb3e56bf9cbd886e4aabc5de6a3) 0xaf5c9452e66b2e3fc85a68273f974e85298bd73b2f9f3fd98ef827e49b0e (-0x822d38056002068bdff66ebeb708d3ee77c923a289749021d87a1d133e6ea1);
  SDbl 0x5545a7f66370cf517e090ed3daa89d816c009d3349a1992a042d5bb50624b728 0x602f9cb5bb9f3a447d8a5c98f911753f84851c2a26495a1585c5cabd22eaa77e 0xd5ff5b56a23210a7e137f24d28ca2bf0d2d6538ae8881d352d5492a21e2c2152 (-0x15f354d3f4b96b0652d1bbe03db7c5af0c0f046053ea0aaf5a3a5628991a5ba07) 0x1c67547db3753bda050065b1d3d750c761222718378caddc4439916b0d3641ba 0x1f27a188f09acb396c7d78fce505c85d95818ca1d83b1fde80d51c9ba04231ef;
  SDbl 0x8c4566dda995c85350a6c5b140ab298c930a7f028e83d4d34e57b9e6e0a5324d 0x1a89712e269eb39074e49fc2550715c0d110f86c16a2945a987f27180fb26383 0x64758f52f6931e3536f2139016caee248948d27c4e8af1284659f71ce9f34859 0x7e18185ee943ada36efd7ffb28015fe045f766ad1f3217142157ef067084d2b5 0x4cdbfb535b2a9c3e10dfdc9d74dcde2dca4270ecb259811757098d95b4638756 0x2629c1948b2040c1799ba64cebda2c4073c2be802a8c6456dd47fe15d224f12c;
  SDbl 0x1efbc43d5c0bce5cf2a17d1fac255b31132440dcc64eaf784e25d61feb932df 0xae06dd286f53729c1b7d5f49e7f4d761a38d404ef45322911c8a3af2f34d2dee 0x40324294312df526912fe90769815a2f91d77aad8c9e4fe17d029ab52a5e50f2 (-0x6bb8bf4fbee44978fcd0b27661e6e375fb0087ca73a1cd5053f4ecc222d0ff6) 0x3bff998cc1340c451ec0b7433a922d077ac08cd83779def09ef37fe4816b3 (-0x11d9bfafa55a71ae1845042160bc1ea9b20cc74caab16982e74c0cffafc2d80);
  SAdd false 0xa720fb0e095ad634c91e930ab741202bbf0efcc648a8a242072cd7ff2d8ed79a 0x599eedcf5c147f4ea54fde3bf9f6463c9bd47a20437c150ebcefd560f6aa9fb7 0x3a431fc2ea6f277599aeecd48689cae9bb7f7d443f8d524e7692d5b1af79805b (-0x50780dcd6e88e61b3b7d2104113ffa3002c51caae9597138c6978bf0a1071f1d) 0x6d1c0bcc77076d1808f20c07c0e3c7c633fc821773f3541b09129d9114d839c8 0x371aace7c63c2cd00e7fa13f588b6df3409becba0d59cd96a7342c74cd1c1337;
  SDbl 0x3d8b375eba47a03839c5d7e289c13c0566e1048162a38185fcf3844cddaea18e 0x92a0751a206c82b923d94c8585d3c90e17dba4d6ac134642ab62918ad7096e53 0x27646283b713ed3d5347c47b598a53a04687faa92d818f47ba8d09518f920d38 (-0x421c50d2afae11f0fa06be42641e39544aca8753435f1a81421eeae073de5c84) 0xecba4186069e75343fee807111e560a94fe37753c99368a6b6ce5ed9562c2fd (-0xdb45d65c031bf094e5e748f788c7f002014d92260fe13932afb4c899265bbe5);
  SDbl 0x1d10c2067ea2c1e72cf59b2c5d277bb5c84b6ee21c48ffb7b1313783efaaa26f 0x138bbe963a3327e95c55466929ac99c3ab1c9013799efb6f2ebb4de106bb24e0 0x24f4b3413bd69ee18c2e5d19c245888482b5f330bdc4ada1e68f85ee408bd344 (-0xf30057d9cfb15d67bc0e186c8917bc2bdde6f8104e21e1616720dafa659e09d8) 0x34ccd0e4fdb596dc918b29d2226dafc8c8f56e02823d7bd5e34745550515565 0xe6daa495369c5e9308d50b8218084ea97bff7b7ece21f1547ad0d64d053419f;
  SAdd false 0x4dbe28021c7b2b9aa38c9d8b16faa04be4481d1b028286a80c38b582cbc24519 0x4844bf7221e54116dce48d40e5bfcd19904bc576b6afa65380a69bf8551bf416 0xc6115773baf231cb2d6b320ebb59d3818a4b6c20f5343cbab1dd110a141d220 0x97b513317ef07cd70c7e80559f25a0497cc31745e07b0aa05b0dcf45f722b8c 0x179bf150c620f94b78c6831e404a8cdcc18c8cc2b1934fb3449afafc1c99114c (-0x1002cece2f5b4e71953d223a66e5f0399b5d5e22d050a8b63e012f8185f89056);
  SDbl 0x5d613476d6990b9a87580220f2e9e05903234bd3fc667190fd7c4c790b2b5885 0x2a853ab440180d68abf6f1df754399af65a9328921bfc37fbd5bbc5e66234647 0xf4d8147d3f62be341d4d22a54bd9c8c38b5aafc5c8bf6c9c0662a0ed4b49f48e (-0x342c4a35c415e05b0d35e8f97596340fc68309c12d2219b71076bb4421807f97) 0x220fc50746ca15c90dec4c5c5ae537524c80ec26b31cf30ecfcb8da2c711795a 0xad9dee308019c93e7bf65233bd61e94023a6257d3c34fd7c835eecb32d55223;
  SDbl 0xed5503d0fc59b04c8bca7f6a62d4b4e3eae0b65d74ae4586bc22c85ebd3d6996 0xd6b59beb0fb5e6dc4489940c0dcc705b5595ad748b205f47e1ac66d981a75569 0x264b49da17126ad480d40782ee7d9215019a122ee268e57f774c0bd6373823f2 0x1b0cabef0704ae176cc6a37b82026d9786779dd727bcdb0e97f10448b7f2ba4a8 0xdc06854d581ab9cf4a65785f8bedb07f085df6e178775d2e869438cb54e57e13 (-0x9fa1f8a1c7389e6b084da38d6bd03bd739caa7607bf7b31261a6c4b17ece1794);
  SDbl 0xd13e8051ffff5c7f5f39bf8c3b6c0480edce30501f2269fafa655b083448db8a 0x3055acadfa28495960255c861b36748416fb5368dc393841f0ec25a648776419 0x81dbe4436deaea6ef94610349c7f091e8c06eb5d8c71a8045043748372c124b7 (-0x1dda2c318b31ac405a03f32e5511ddb10ed4028b8372f74978fadd25905b01db8) 0xab071cc8f7102bc51a55375404405da06dfe52fb5a583e1ad61170cd01e0a887 0x87fcf0f299b988eba4383fc4541890853b4cb99d11d356f3a148bbd0b431c389;
  SAdd false 0x5251c468a7a661f0b0318f3c6cc64db0b285f1da6ef6a2de906472cced5af85e 0xdf7d461f46a16f76cd210098ef112680ac39c9ea0ae0c3d9ce307df330efede7 0x52dbebbdf64c4804fa7599262bf18b5f3851edc13ab1f25d553357ee6e0d57dd 0xc85577dd5c78104cd148a5533a47b5368af44d23305b62252d39c5d6743ac4 0x1a787bf106c995789ceb75de31edadbf93367b2f8fc4e34c3cc5cb210da58443 (-0x3852a10ffbf061f761ba04397f43708cd24097259f9c397605c167ffd50359c8);
  SDbl 0xefe6e11c3a67585b4388930299fc433c02b7a2ffdbd0b84d9125e2d70f0a4c2b 0x8ed0ce81f0b1d49370594496f044875ddf8361d4eb02353f7d1c08383aba7d40 0xb8bf70f75b2af4cfd7d1a0b4775bf6feea7a2bb3a35b636bd4b2572e9672baaf (-0x1ae066158a8e76130d1362ae444b8c7d0142b06633822787c6704d02190b428ee) 0xe0d0e88cda89730083de8d55f2e418e261035a195d94766eec64f28d8894c9d5 0x4b99c5902095ae825b4aec1d25993434ee165b6b83ca1475174f9dac9c8e927f;
  SDbl 0x41217735814f914db02092339c624fbc60bb3801ab27122211dcecd33fe74096 0xca7ce2fd7db28ed4b73924ef16d9b4bbd991ef3f70034f3653f614f7414fc81e 0x341520b97019b96c37722215cf94d40d7968b81620d12199d1ef3601d03c82fd (-0x91036971c248f1845f6b63a16ec37ad21e937fc6f5ff3d536e245768fac59517) 0x109202e92f8a8a9cde5c2a5546698d7836c8868404ee2c679a217b7443c56aba (-0xf2e7e2b8832c8f8ccee9607b518fbfd547157d546e6afb84c942e1f3acd6440);
  SDbl 0x70f50fc631248b371f0487c938d91deea2c04114a9ad0b42f47a38a0236c228f 0xb798a6782e517a0cf0ab62552db996c30c145aa6d187383725382d6aa107c0a8 0x9af700ec2c3b4ef3389f6d686d19ee6ff19f7d6e7d189c12be012867dd265c46 (-0x1b285c5f1da97b5555146b88c7e4f7c88d55ceef58919f13a318619555904e01d) 0x31d75864cf2a3559d8165c3ee0fc22bed70833933334674da9a7d578dc550503 0x855f012465861c8aad54e065769bff67c2cdcead21dd7af5cfb686a4c610859;
  SDbl 0xf72b7094c78edcf5e8dac47a166f04cbad59e060523e5fa013f189a076b77089 0xde2a7d3ef3834bfda9ab3a0f150cc6215ef2a5ac3ab321f07517309369fc2efd 0xe15a2c9f80f0ce88c1df3b9b9182b2567d6ec6ef06760f9375e1abce2110d7ab (-0x5fc59003daa246362c74365f9e11252dcaefe3b58f7306788aa3db06795ab82f) 0xeea4da9f0b38181427408c0a97f655f9a00268411b8cdc5f94c89ef84ab586fc (-0x253d41af393b77f09295ae1e4104003ea82e4a2574aa3a79d8c4df5579f19092);
  SDbl 0x187a08e6871f2c89223a7c79e9eccde48b62a60d57f3a2a783e348004d4204a3 0x2796890b3d111cb5c2c713ab4800801d4d4850b8fa675bcb5bff7e8c08d435b4 0x462b5b7ea31211c4baf62003c68e4e49f3894953b2260d008d2f2b7c336e1b02 (-0x2175166d9b539af1ee103bd660b88cee532612b28058b67533bc38f60763449aa) 0x2571bd7b7b4f5f0e6f30a5802f11702b97dd15fd52b9b9f012f67e26aab13e5 0x1174e7c05421d438292538e218ce27ddf9d012ff90085c25e73ac4c99e541532;
  SDbl 0xbdbca3c74dcb738f0caf2fdeaca106b76b79f6fbb7f0ff25e106c2049366ea14 0xa6f6794cacc68fb169e5127c8fb99fb5c887884fe188ffed6604bbdb693d08d4 0x13248eebc0c19a750bae5d95dae81e2e7ab01d9a8e50674b883b6ce96d46760f 0x55a5cbbd3f93b03e167e33c32e1a6adc9c0633f9dcdc5bb4ac3a782d9400335d 0x8ca014d5cb002883dcef4e424cddf0aae034fa2c255458a11236be2124ece2ac (-0x5e67b0525e31324b6ff51a57932867d2f81dee7f0b59681551c3e7c7875fb06f);
  SDbl 0x8233b31dd1931cddde1cbe2030197758f7661d3f178db5eb9512b90c47c47f12 0x727b783cd752e7ad97591318bd265e1d730d35e4e1cf2bf4b58f162a20e3e02c 0xc9a7c6c6d298eeb4690b22f8eecd4110c7cee9099685c0ad960a8b60a56de966 (-0x13334db5596b911737730404f0cd7edec2bf0d01b619cf582b22e3c7f0801ad6f) 0x42388c5b66462cd71d8635f08250a02d5d2059e31e4fed75e0de0ae224bb1490 0x1ab10fc379e11695695507c2f9bff49a234bb72eaef65ad1dba1f08508a42ba5;
  SDbl 0x1ead3305097136b931af851187643460c54d4f91a04d3328e184509d49a41a8f 0x464b31dd973567226530806513f89ffc0f3c258d45b80c7c2e0c98b8c967ec80 0xd7f6d38cb2ac9e1c892ecaf1f86f353ef7a378bc8317fa3b38f98537aeec08 (-0x6942682f36ae528cee8358db99b531d50f68d927d69ad60226175ea763e46147) 0x3ad0d2330dd5ad70962ba333f5e3dc789a49530a5a05817dea1d14f733650f7 0x54b8dad39c4ed8a1880a432fbeb3242016f73f72ccc83bffc395b5341f0405a;
  SAdd false 0x63f6b3f3023478cf9022bed37812b3f8985037eb9be0d77b4b0a1c31144ccae7 0x62a60352e9cc0a0fbb9c0a0ab99c1fbdea1ff6a5337f90082e08c34da123577 0xcc0d58861a63b9f7b696bfdd53dd5b62eed052c0756e329863de3f6fabb91118 (-0x79fd5e9cc8b30afe02e697d820885abe5e15e11cf92b36e3d1cb41d3abbdaba) 0x2708bcec70434af7b93ba796caed3a9eddb65757ea72f4f45ad71f4ba4cd3a4d 0x190a7db1839f3354dd0813ca1a76aff2a7a95f1ed006cf2369d30e963ff6ba01;
  SDbl 0xee7d31e58daddb4f5976ec4c3b18f4aec3b8fb57f02741f7ec7dc4a62841d472 0xb565bfa0ea8770b31dca29555ee6cca22e864aa5c037e1a7ceac6e38079f72e4 0x8e993fc9be22e4f7759db82111bdecc5f013b3b99cba2d01903f2c7baa410aca 0x17bbe5a9bba05678e10367ac90b293a9aaa2659601b61e531c8a945c510607e90 0xde2d0601758253a480c0870223f95a0879f6a0955d094d422416cf788992db0e (-0xa33ee4dbe1e88547a890493d794e3bdddb1ed37e263645ee6b2a61cdc9954594);
  SDbl 0xb16618de91cd5c9fd1ffa39ba37fef6ca1a0d367e5edcdb8358adf2dd001aa10 0x3107bd4aee931cb35a426cc37e4dc50380c62fcab1a3308326fd85aa3512adee 0x2bff355155df1390de710fbc7909bf650a5365155860308f49f81808eaeba167 (-0xbbf974372e451d6443b0b19a22b7032876b7f139a092f359a0c39c98d7b21013) 0x7aee571c1452fdae98a6b9dcdc2e0af408ea238c2ad364bd1b36041d7f3852b6 0x5bb9c9eea251a00a548aa1f3e42148bc0b5049271d67914b584d72034c9f00d1;
  SAdd false 0xe385369f3308de1283c44715b896d334b3cabc8112909417306e0fe922f21770 0x460a6e6b233b550ae42e96af49345de8909b0220d47a1178b09dc16ea4529768 0x305a403ed3dea772debdabe7397cc202a6cd08ae6c0f28e61e5e10c97c3f213 0x18b711fc412a1783d3a96d03fc011ba414e803d2ab652abf04d0923be93f008 0xca358430ebc9d1c4ad9505278d9c51bfb54b080b0844099b24828f97facc691d (-0x12ac51f14951e9012c907646ea80877c49cd9a84165c1e54efebed842a0c5126);
  SDbl 0x5cb9ff08a388725d934bfd8061ce87a2b664a4da5df3480dc1a5a1347489f87e 0x9a37421b64b1a7a7e5d7b2479721b0f4cdb1f7fcc120bbea4a9718946e9c54d4 0x6eb9813a410bd9f38148e3b9c6bdda342c09c5c8dcb2c55cb315d305e4dc7ad3 (-0x374cac5f1bef24b413466a403619cd0073ad284594f8419940fda13b91b98bf7) 0x21963670efaed9edf1a0f79e13571f6d7b6b8325016e9fd245bdd8b39f3125a0 (-0x1e7d4453ee6baf7160c4ddcf9fdb9388b5698f0605c33d4fd944ba2134c7b7f2);
  SDbl 0x787e3e5e28de789bbfd7ae3ee3b46225f6c10431ea358067b4a7cab44138cc76 0xa66650ed103e61b5442929d68346eab0448f56b33834028f1f1bbd3d8cfcd910 0x80bdb6e9e4a8700b12be45e78bd4e0a0519f2a17ff856a9e64445d193a64b79a (-0xae7878aed7ef3aa5a64312bb2511ba0ac3603b12472a3d90dcc2114235de13d7) 0x38b698b9f2e923387c6679366578aa6720b5c89be5524249972e4c0867493c54 (-0x5bc11137a28a0f378e12d2ecbec4926b3a97f704618aad3533dacd7cdc209eb);
  SAdd true 0x715b2d5d983e9863db0b84807a0bf3aa2c45bda5c540b08d5f895597ad4e102d 0x7a56ffed579363a005c5c6312bb95d586135d2a91b46573ceb68d168cfc82b17 0xe8afa175741264220500e6db4cabeb1747be1aa4ec1cdbb21760fc7dca27921b (-0x333387c9e852d022b27ef5e08f47333a6ecc94cb5809754e2aefee526ba69625) 0x32319e861b2d274c9323444a245e88240d9f8103452f049e078d436ee19fd105 0x138274018bedd1551e1865e5ffb52f89efa98d32d4f0f37bfeaf0ee1308c24f0;
  SDbl 0x9c913b233f0dd75d857cd153faf53d8f7726b50989c28fe462287f0926ee1583 0xb924e605dd4c69f762853d703407b0fb3bca9698b9c466d096d455c2a8f3b691 0xd8f5895fc1457f85ff21ca626ad11a424e89bdb0724b8193178ad4e584b2624 0x6d38f2c00070b69145bdec02bb3aaa698797096c7210d78c3435ebe696e63e8e 0x5fc152776030e28a016808e721645e77e281c1393b132dd56cb4ef8f63214bb6 (-0x26691958856fc418dc2413544de499c9731001066bdfb68d0fb872ef6267e653);
  SDbl 0xc1618137bfc5006780e7fa462fec7349f8da3de4bee88144a202011b21767e2d 0xa73592d1a7c6b6968b1ead9017cca51285d37da6aadd39e54663f3d05360a546 0x17096ce3dcf7c8e3e878d748fc269fbdd8628dee6f58db44d3bba1c3f906fdb6 (-0x17d36956fc4ce8d4fd285085903f67796a56826111638574197e7d4f638bd5e48) 0x921429f9ceb3c348ae3745096b3918d81d679d0b8f8dad6f86fde4777b9bbe7f 0xd8c42767175e1d186177d4f98c661206c7092eb0f4515befc584c6d40632fab;
  SAdd false 0xcbd75e905aac5054052f2f2db4f28abf1bd434a4b6f5b93f8ddb15c4caae78db 0xb5bbc429f77d87d23410bf2a3044f65726b0710dcd3697a6c8ce59aa8c9f71b0 0x4bad0e6239fce63a4884ca36c0b8323a541badec7150cbfb1ddf0d5b8fdbde96 (-0x5cb77b22c3d21416bca5cfd48aa4f9046bc2f399e96ee8a6d2e51e8e05ede9b2) 0xa24f45298b832dfa65d266d9bb0c65fbfa243672b37983dbe065c809f48a8064 (-0xb90a131fab0aea8e1880a10a08399a666ed7aeb8c62123ef69c3b397a869506);
  SDbl 0x9687342c268c685c41e37c786c982ef5f791858f7496689f3520d001fc82f2ed 0xb791f7e8e7a870bd65d544f49412be0424f41f9c71135ef7066aba70b8b5b45c 0x66e86745e8c7907640c50f89f5996f4f9f2d7c78d5e3b2ed4da6983383cde55d (-0x12a0a6b1b0523bfe8770b9b620ee07bc999a44222396fc14a5377de00acef2ebf) 0x5882b88c26e1e234a5dd4c77cfe89210e262d9b9a4655085fdee56ad9abba853 (-0x1147aa6ff18c0edf383d9af9444dbb444c3ddef291f07b34b6f1db1e55bead1);
  SDbl 0x8ea5028c2ddfdfd1e446bde027ee046a25786c9c8006e4d3366892f64c32403c 0x70aad3cf7de1db9192a88739a5e2e146cadbaf38a5e5aa9904eaa7c804514cb8 0xeef1a6f2ac7e99f7013ccbcd2f2981b2813f30d6451cc464b7c25baf5e121558 (-0x118378ecb5881dec8c5017213fb976e42266dd1a34d030720edda1b2f3009806b) 0x4f7b79301b19758d2d7cc0fce2af5e4919e7a24071895531b87a5958ae2ea760 0x2781e9b525f3d0d96434c5946c3c1b1c4bfeb8ae4f96f8cf9e023d469266b045;
  SDbl 0x8c3b74c1dbe23391929fd56f7d573c006c43660ee05946a9704088b19df4bf49 0x14b9c088f052f076f46540a501612ac79d22a3d2d0e53c06f6ddc95e07b451c6 0xcdc61a79fcf1af13d0b9686305c39ca4350ff3b9d3aab11868d3b0db4c65a9ab 0x710589f70cc35c32a3ac7f460ef211027983e259c6a7ce35cbb33e6ce85fd08d 0x4cd115835bec1a40a00efbd9093eb3f5e924a3913e6caa6ca30ee95f5440e865 0x325d3109157df2b6fce29e6f269e4d3938691efbc8b38e6bddae7000e9d1a201;
  SAdd false 0xf91c3ce4f3a1547f7ecfda0aaf3d3e0984a12f0679982c2134473f81c4178b42 0xd72d327679ec153808cbc13055d6842cb0b9b4b7ec72fd8adff0d1176854882c 0xa77b7fbce57e818aa36155ca23c8f92a3762907e044d812f20d3e47c5b8ce6c6 0x1d3bf17b4199648925af741dab77bce1b16ce6d61a6a761ae1fa6079d10ed472 0xf267f193b4e93234b4533875ef0019cee182ed7987c0ca376d13fc1341b891b5 (-0xbd37bcb2349c01ee508dfd25729e05a95d842b25bc1068f97e33e9f5760c0743);
  SDbl 0x1394d45d13eb2ca0ea73f0bc6d31076fb656b196fce03c3ce387d90a5abb1d2f 0xb7acfc0997fcda31d2d624c1529f4aa5f33a9d338eb32d48c729cc49d86f9e88 0x37b81200fd651c0526e425160dcfddd26f71682ae9a43e2ef938c480719d87f9 (-0x204f7c69b4c4da2f460c3c55f0408838aae68ab7f4774b9991d09489bb75d4207) 0x17f6e0c0e3da96c876fa71c127b88fd7f33418b893a5d3ef7395f83f71b003f 0x268d44b2f3998dcd6a9f43ed8453a7c342901e107446caaf0bfc33020dff5a3;
  SDbl 0xf179549ea451e3a106c21b743c7b8dca6248e2928b5acd1879004832f2a839e2 0xb7bc551e9190518bba4888cc21e149fc30eef253d09783d019a62390fa3418b2 0xb273ba52c7a13a9203fb166bc84a1775ad9148591910f61e620ecbd4c682c3d7 (-0x1223cecf07a9e865ec78a4ed12ac4975fc5096769fc90f93fa68b2538e72c7ce7) 0xe3c5aad4af17acf807f93532b64f1f69944e0503027440e5b3b183e15d5cea3e (-0xe7a22eca9fb02aa62b1073b6f28fda961305caa851acdea2efbba59a8811c);
  SDbl 0xcbf39e156fbd8f5d6e4b162c222420fb1c0c5283284ad875202d9413951f8f5 0x44e7bd1b2396cff0bef024f19bb50be6e191a950561762ded7d1c7a7a1f66c1a 0x685e6ede4d72a13df7216e15ef8c4854e4b0d09005a54971e55d12bd3d4548de (-0x179d6f1e47ddd03691f07274fc66445ab19f0e0653694e6e5f7d573c3e5b3d63d) 0xa27c448c20037f81fb24bf60dea67512241a6460caac8e12c4ad42ff390305 0x5b7bdb403253e430820a64bd075bbba94666eece8323383cc85893b5d769f3d;
  SDbl 0x5543026a7916fcfddaf7a3ba8ec564f11a45c73473271555804ca5e35f0b376d 0x6251dc203657ed3d46fe94b2ac6d29261282c263e4e9ccdf2a700c8b289330f7 0xdb1d915edc9703b04b8af0c8e3dc018d2d1e3fb46f42b28f5da9e5d8f7ca7644 0xde18e4e479d39d0bd623fd9e5c29441b171c8c76191e73465ceaa12f17666dd 0x1c65912514900d5af11d549229da23cefeae544438ef5e70cabb7aebb72204c2 (-0x9cbef59e772a5b7f3b723e4545917dbb9619fabdefde8a5d08cd9dc5365f3c5);
  SDbl 0xe1e956fe63052d14e06a2523bd73b3be6756d05dad19d08f69429269e2e741df 0xb61c0e9a65a04463616f72c96744385941303bbbd6af216ab4b7c6d11703ce24 0x14a2fcf2af37aa394d16fb38acb414f8450c3d38735ad83abaf0059a9b0db7b 0x111711626abeac08a42c22529a269d98199f1faa55f9f029607241eab5d961878 0xc75bff9b6a0b3f964b62d3444d5ffd841c467dd01fdc4df572a859c3bac52fd1 (-0x49f115deceb0b7a571743c4649cd8d14b1d561e3979a7bd879d8618384e8570e);
  SAdd false 0x2e569b387178b2466ee9e94ff7cfdcf57aedffe089a554b257ae4ab0f3482f2a 0x2630455a5dbc98421c1c1a203dc99605825b55c08190e4a979083a37c0dfcbca 0xb096cd18aaa6aca3782466d4c5aff9c9b1b96e49d9e6c4a5347da8d375218dcd (-0x17c622512a35657ddbca36e9a7c31ed677dead22ef802ecef70363505c460fda) 0x8633d14f93440180f5de483211c818762e50a29b65bfa3ad04b06edbedf9bd1 0x1a0d0ea2b533576a3a1cf7891c5bfcb1e907283bcc852502f20f66f8492b8084;
  SDbl 0x8ae0d9ccf8f639906a9355bfdc9555d61004cccad9f5d785ca45375b2b61c0d3 0x8c73555bd71292417bbf8a8aa78308e3ba3b243aea485f34919494e39382b925 0xfb44ffa99b521c28ad542c7d189641aefc75f9447cc87698d77d126b5c87b302 0xae81b06de7a7a667dd33be97067afb38c602aa9ef1137c4dfc103f4b4714b23b 0x4b57304f27c17772bf8360edc8423ec5b814ad799ca291feb6334d36821f22d0 (-0x3779f84fbda1d04625e2207d5b24185720ca18bda4f136aa94699135278ddd30);
  SDbl 0xb97b2c84b631b87b715f9f5d316b61430b8a03fc2362e1efe1480bf0872b794 0xc87ed8c8cda684e41dc572d828613f3c6366b9c9285f74a0a88e96a8e492a2e5 0xc3158225cd3979937a02599b6f76cedffecc4507c8aaaf6b20d14aa7a2d93696 (-0xd06953a44047b368793d0099f0b04a95018cb489ed0b3ee8971d4277642c5848) 0x8663419c24fc157351d2a5e89998c275f3feee5a6a96c2198e72b6c823279f (-0x2b8135f32a4ef0d9b1447854a0145fe046ae322dc3ddcace0be9143abd3b368);
  SAdd true 0xc0b396b92d2823bd7b8ced36824a09d49137f28bf532c723ff54301569318dce 0xf1cf665018134168d515471e4eb8312d807543f5b5a8726e186f1608d4ad62c1 0xcccf40c50f9638d48691a123c5ca27e78a544854ec31992197f20a683986b169 (-0x70b4a949221645b7154ceaea5bece85602840069c4171e85a3243bcf1201a3d2) 0x910de012747cc2adfea7c515019f444c2aa835fe6c710702bc9fbe845923e8a9 (-0x1f1965cba1f12cd2f83e64af9fead12601b152238803436c113b69a23d5188f9);
  SDbl 0x525df0c186c8a1fb48588ad3746aa1088449d42ddef87d0828ec6660550d04f9 0x441b22bf23ea8718e12488b5bfd7f6e29d99ce83d92d7b63591129e263a94533 0xe6e1f44e4226edfa957aaf3c5585ada4ad2b24d58169dc84fdeb2570fb9a55f3 (-0x2296d5eb0dde5ff92adce1682aca8a76f2030215500f17cecfa5a999f076365c2) 0x1a8050b4e3e035443ffd89e23cddfef6c179d665eae26d9e48db893d31a15084 0x37e37b7d81748d409661f4dae9e20d539b5972284dfb33f9c61e206b9174103e;
  SDbl 0xe57bb789dfafc235dfb87a468b29c5d82dff4c1e945aee884f7cc6102b91a323 0xba35d0e4f7ae397e6861633d44de7dd17fa8f20c16d8eef4d1456fdc3df76ab5 0xaaf5c6c1197f93b2d7ffd23be51f57c941301853a7ea64474f152c07514115 0x167941f443d62e525cfea3cc4ab7ac2447d4989570b7609ca49ad01195132a606 0xcdb6922759fa5e8ed139f51ead011b564ab65fe02068bead1d86fb990dae5e52 (-0x69def1469a704f0a6d7b118a706e0de1e32ecff112552e8c0a05738a4de18232);
  SDbl 0xbb33bf28ce4580fc7ff27cc2d8fb650d2a60ae6d1b2f57d8c7c3a48bf70f4df8 0xc6275fe43e1cbcda942baa6dfc283196f1605ea0930de7a085b2a4b4570a8764 0x9032ec1ec950f379d5db8a8445794dd3e15c8c9ea06a6833c042abc917bd8e24 (-0x1955cb46a9c576c1d25305c968cd0836bea12c35d4733b8207bcc1e6b2dc98ec8) 0x88e4a3bbdf3e482af92a895650c2b24c379c9134d5f011fdfb7a8fbe082a3c8e (-0x8bbdd7f1f180c1898734892330208c6d0fd932a52f832bffed576574f8bc43f);
  SAdd true 0xb6ddd538a955fc44674c4dbf478bcc586221b65243f9ad27dd5c9bac944713ec 0x5882843f8fd4d83a960e9d8ba375fb75d55df06ed77e1ab7ccf3a0504512794f 0xe133723a1fd4abf82959fa389fe334103128364b5351c8e0565e73d299f8c963 (-0x6947e14e7839adfcfa0dab3d853e13bf93cc09e22635839fc4d52c81fa5dcdc8) 0x82a02b66e8d222e15537d0f1845c84936076d2667b81dcda52dbbaa8e0f493ea 0x4e5236cb6eba8135b56e729713b54d96e0f49ae15c92acdd135514f9ac2acd2b;
  SDbl 0x7c5c7ca06bec1a14cb2d43c118697c2b82555dec090f750256aa948603f75ce3 0x26b4f60d9cfbcf52231aafb6f824e679f31258614b5af2901e9ed502bdae8eb8 0x574677627bcc78a4ac81e03c2d3114cab88758a4771ecdbdaaefc8c7254437fc 0x7efe9684252cece1bada3845474ca144b618c03ae1f6137549d793b4ccc9058e 0x3c69ba2574efd2302699aabb3617d4e9384962c6ea3b14d2ac9ea4cd9615900d 0x18318efe2a1ddf27bfdf126a946aa7f52e3dedc0426bb1debe783601aca4b97a;
  SDbl 0xb11aa4a3713793039d4cbb1861aba62c9834e9e3aedceed5c41a74b095f7e733 0x6e7c7c34be6bc95dd6ad028995c9bfcd77040396769e704dfc5ec6ea1b4535b2 0x2bdf9a7c8add2c7d7165257d61055b3ffa2325ef82bd9ad62e8f390f42bebf07 0x6732f0c3a1901ad1857f871ad474e080fb847952a8166e186e64cffcae92d655 0x7a85da705829846dc79d86b9cfe6b268a2f2a010cdfb7370f501cf9e436b3ef9 (-0x31a86c2e857a6113b5f305becd70fa7924f66da496ea6212bda7f83465182f2f);
  SDbl 0x595758a7d18747a07075ae924ce521e1f3113dfeb0a5a2b7873db0f67298061a 0x75d37d6ace0cf5b047295322bc1ab53da0314785b43560096593d4df82681535 0x7e83623d9c3f227c8e5917329c2ab84d36ae4de2c4a20fee8b9d0afe8838a23 (-0x706e3c09407820996311429f3209f1e08f65b5c1b34f988d1c4cabfef85d9223) 0x1f2dd9722fa22142781c4fb5117362d61977e8ed5c2727ba9212290551ed45f5 (-0x28fc087ef8c6146c341179730f35941592ff21bfdd49beffcf92eca7e2df188);
  SAdd true 0x48b42189afe083f770314707d5c7cc1b86a7ac83ede867fd517cd2696374c8c1 0x7410c2a54568f26bb09b1dd0991b1126078db5de76bbc252fc8a3474ca4cb23d 0x403d33e5ca5e144296accf28a0d82e9963c3ba03dd5c682c93cf0e4f18fd1a53 (-0x130b597c6608c1c068c0efd827670e420068331c663c85bedb8f8f3e5247b695) 0x14a5d19cb59838f711d1794da69369e99e70292ad0d8dac0e0b373ffadab1ab8 0x8001adee514937978f3b0bd42b41cf1fdd5032088451366eda834e0f29477e;
  SDbl 0xa4bfee8a334a84760f24d775dd85f185a2154fe63474b8badf0eb4c8c748f542 0x48ec12d9282d40c691a6cb068c8d060531e0de5b67964366b77867f3ce5e501b 0x489f99cc68788bce4087f5120acf36219792312aab84462274e4011534e091b5 (-0x4b2ed6f35575662d4404da5157b8da417caa8222953a8a49e26ddef972a1c934) 0x6a0679874c3bbe6a1cb6a55b5995a8da539aa3cba0b8f6bb4b4e47a5e6e04f91 0x1bc3d9316da34bb14bee29613090436e87bcc102cc2ec873fe2f29242eedd544;
  SDbl 0xe6ee7b35c9b36a10ea9f5bbe1ae341253a23f497dd92be94f102176fca543a39 0x6788e4040ff91cd5dec73896ad5f94da79fa44a491389e7d9599b97faf6b10ad 0x8ca98764c4b074e4b0ff530535d28f5795ae3b2c2fd2230adbe26d8068cd6a65 0x44b52a1eb1b42e324d3bcb274081ca69c236f769318df3683e65191691dfc1ee 0xd051638eca0f8addf23b8ac87832e946f59571f7d03c0178923cc6611581d032 (-0x1b9d6872e4d78f800fc2aeda5931af390141e1d016c0a1dadee232d7fef20f64);
  SDbl 0x3f6c76f31e0bb3fc31ea8958ff76f22564b240a67aca41885ab15e4e055ac5d4 0x78548de515d29b9b9115c06d78384d673f220ca8ddc538bb215009d192ed4e3c 0x4f9dbea8a77bc35b0de1a8240f5e863806c60a20d643363eef5c6c438a3ca531 (-0x37ebafa5eb3259b8199a42ed35d5c228c6c06ba1b334872ccef14c7013df6a90) 0xfb690804ce6b38b21ed2e8bde89f9262dc32814862d7627c0a693b6f7d37806 (-0x4293c87e320d63e72308522b17ebb789f170823749528696593d3c8fc75eafe);
  SDbl 0x76c925ad5092b643b5c8f279cffd3d57a2c83ad5a6e1a26bd5b952371aacbb0c 0xd15da0cc7db691b3148dcade8df06ada82929a75de36c26831b75240e7d44a94 0xa8e80f200c5aa8060e040255f00341ac84ced8a49b13566090fde9ba78b5690c (-0x5fcb99f4ae75fa1891aa87e664063682f3105c9483b7632759f6c6d853db386b) 0x371e0cc82d1961d1375806f4c6aa4f114a52288671feb077042bcc31bce45e7c (-0x295023f141c6de3a90ef614e5c36c09add3444f83b89fa64816c0a0accc5d5a3);
  SAdd false 0xcf3f610e2d7c03b27461e5bd6f67fa34d98202e7f901f0cda98bf65b3652f877 0x81c5ba665cfba75d8db4b7074bbbac4c507eab552cd2cf64cf9ca5a13c7f524 0x40a1e09796dbbd24454cbb10f2cfd102a6d09420f47598bde37a9015545e1f12 (-0x8064eff49ed6f8acbd778c4cbcb1dfc85014a1c1ef6f37b11252c3dc5e025f62) 0xa7c78ea67f1c3eebe59a51ba8fa8d169a984cf171d66e2c9e0c8edd3dd85ed2e 0xa2ed9a47552852f1d60489f83c9c86783ce0375a9ef462a8bdc02b4e4ab3510e;
  SDbl 0xaa224de947e44afb550286c8599da206db9176765473cdc5864bdc6beeddd58d 0x8363e8559637f66d3b5d679715d57000d45b12faa81b67af5342b6541d9fd670 0x5a0d355bcc27436f3059f6ee68dcb6667a05b912f25206f95369cb30c74d6a73 0x5522f604c31d082a831bf519832659786a5afb0f50d5f3cbdbf39c7075ab9959 0x711194130e3a0a200cc0159f43783473d900a7dcce1b340f5d3c35ddb199d10f (-0x51ee0872336632f873c93e22721974f97d1fc2451db561ce0e7cf43bb35d239f);
  SDbl 0xa3422eca946317d89a99601aa2471e3dd93b326536e79f4468b2ea7424a03689 0x9730256727f8859e0036ea5a9cf72cf0487aa19528c3e61a7f341a122079cd1b 0xcf9474f2a266d51e95329ec6cdb297b66ffa5f83c1f65add9e0e9265ba746e0e (-0x5772d2a2001976b3eee63fb91351f7de2db104df71adc64679bced9309462019) 0x681d58b28a1579cac99ab4934113bae73262aade27bf5099e51432f79cdb64aa (-0xca0292858906d28cbf8efbffaec2026c9b8d7bcb62ee3bd0f04aab9c6b113fc);
  SAdd true 0x7c1a9db4bc600641a84b0c0debca7fd7ef7eeb3ca3d7ae3a9395f9ee2029ab68 0x2395a6e56ce0ac46c662a07a064beff98ebc0a73e837c7641cb5e9316474469b 0xc53635cc2fb232b1eee5c47068ced47f20b4e366ea5fad3cabf6b68dab4df115 (-0x30ae7e87b28d0ba1bf26147968fa6ee1e6ff19f4226866e71230180d4f5a7f4e) 0x3c29cb8bbc8443c3d635a8a59c5b57229fdf33ce74d2b911353ed1ca5e266e3d 0x380ada2f451ebc80c048dc3f3e03d596cb02865f4dc04cc61b26f75cc82c3b23;
  SDbl 0x61f87ca624d65fa5ef7820f81ecdab3511450e469e0170ecd769f32dc7e56576 0xd6c10dcd8d31b79b6e111d1e6687463ce43bd5a06b0e0b01c1e46dee1c0cc1a9 0x7b6b8e4b280ae689be5fcb7e3b8dbdcdaaefa2257c6c801b658d48ff6b3c15cb 0x881b247eb01c29f5cab79baa161bc15da24b3f269fa80cc7c3545286162c942c 0x257e3fa7cc01730054f43e55e545a195a4946263fc29086e2b2a1f88c3a2fc7b (-0x44915b473774acf363640ec3f9d82e6ddb061c32af37df75c3caae832b1abaac);
  SDbl 0xd036c8e15f7470008c7d2e5459f12d37cd88f4105b9eecf9f443a98a030c3cf6 0x732c23549453a0e565dd065436139f5a160acae43eb978c02940a6103bbfd0eb 0xe56181bd3575a7e64c4d7615229ccc7bb2975287739ee095e693a6b163b6a23a (-0x153b263b237b1bcabe69f78280eeb539397ca7db9f717d54f1fce9e73f7b04574) 0xa9591228412b78d742f7858086e9524ba5e0baa118ea1106628db2b0ea4517d9 0x50fe4e1012e9642b814fdbf9b786f4be2961ce643631ab3a75be410fb9aed971;
  SDbl 0xafc3b5314b7697047f407ea61f2baab21228e7ed10f1bdf1697cba8a7b9e22b3 0x7e0bc40ce6a85de93675a5d12dda9fdef836950d4f493fc36b8f35d9b6753b91 0x9c2573cf24d1bbac34ce47afea7660e7351bf795a4b36c5e668d7b5d79b18255 0x9f87f892b7401083e731d209a5e2d456b82b1d2f7fecb2ea88b893c74163e20c 0x78ad27576730fead4935e72b7679e2990ac1edfe538c6247fe0da5f7524cd43e (-0x7772ee7a8ca75bb17ee3f1f1885769c7ccb73f5286efc1aa6d89212a9203d5f);
  SAdd true 0xa1a27c32b3227fe37108624953d1286fe0c0b394334dbce9e9d3bcb88edcd85b 0x9d6c8d24fba4cf93bf8981ba0588189454f50d26301ef272d6045471062fc954 0xa49ea9fe39d26a154456b3bb4f96ec2341f635984688983b56235a305a3278a3 (-0x2f877c43bc6e9d72937449cb0f19d8c903262a353b89c635b05e5eb06fa677e7) 0x660dc75997cb0b736a8a338699a1fed67bc93a636e8f71005bf5667a68afc953 (-0x13cfc8f09283ac2e9150055cb14c7bc0f8e9d215eb5e42bec0b188476f9b18b7);
  SDbl 0xcf1106b9e804a62dcd29e9fff78c5bbe4c3376c089170bdd89e94e43b0ee9bca 0x1fa69008aa13174d9ab9cacb6a2c10666abc17830aef5fbb9f73de7df6b51111 0x866bbd1512e1e1fb654baf0728fbc11dbc71fb3959c813dc632463712192cd26 (-0x181c7cd22032110268d3ce28030fc790c504ac1dd0f10a5c4c530f077348b88f) 0xa77c8a0331921d40b63be656db45c69a883f276c71ae8f6503aaef0838ae6855 0x65bb751e1491fd4ae6b5870fe73160ff6f1c8029f30d9a8a70061b2999154feb;
  SDbl 0x8df43161d90189e87a4e467fe0c846a890919b2248f2297e0fcf1779c6e0f9b9 0x8b4c331dcd8ba121145a289eabb9371e1c5b0423f4bfd541646945b15dae9c48 0xd858e58b2f6df971ee4efe1dd6b0557efb2b3bba2d88444c214bbf2914ed789d 0x8955d5c28fd5769d030d541b4b26cc6873d2310fa182b174974d856b89c75c74 0x4eb6e75443cedea5ff9b5a5264bf250acffbd56cecc1be941416ebcb27bf56b9 (-0x3bb0e9762999ffef782b39244ee600e62227b7136e027cfd844a70124ca1a07e);
  SAdd false 0xfd5ab790f5667b2b5d939dd1516478543ffc76a6b8563a13905522faa6c78fc9 0xc725501e3b6fccd8d7f67eb20be73870be299473dc2a9072b1f6d2223e50672b 0x24bf8edb17449fa3ac2663551685e412ba4ee1a8d544fc94bb4bcf2a9783a8aa (-0x579d4d82ef1c19c1e4ca82598a41f4d2af970e5a92d89364a6aa14f3bfbe55f5) 0xfabc6efb15561b6ae9698e7f5017fdcc7ae7b8cb16ae8629bfa2babf480b4c69 (-0x3b3ac6e7f136452e435a1c21baacf78c193fb93d8f01b5b9e819508fabbcc57e);
  SDbl 0xf68ea32952afa4084b95d16c4eefcaaeaf26e6834b59ad8de8f1b2b4a973ead5 0x3112b203ea3c8ae51cabdb0fe957c119603d335e2bf92b018ec689264c42b7db 0x2cb4baaa29eea801bdcdc90c92c19ae6243834919a4b87f734281156ef2d4272 (-0x189f7fe17f7d61b5e9464dba1d020e80f37280077bc3af553afaf29f664ce8f3c) 0xed76710dc235611eee87424f65eea12d15e79853cd324b36cfed7d58bc1b70f8 0x908981e7a148cf285cd52e0466e380348239e9e92ebe8da629c3327f0e1eed8c;
  SDbl 0x4c5d79f3739c0db022ea55a60f30c92ac2c49f9ddac4d60b8c93c61032566a3d 0x32018803338bf1e3e235f14d9546925a435b3a167dcf5c086c9a410f68889c56 0xd3d6624cf9f386946f66101769820e465532c7441a95d05ec512a164080564e7 (-0x18c87cc8518efa63aca309b8e3f954298cd6914b945e796126f4b68984b924c) 0x16c7a28a786654db3282e6c8c2c8ee90abfb92d05064abfbcf0fd1109ffb7983 (-0x473ebd4e0f19db54000bc18de812f4a3413466db6858abe7a065399438f958);
  SAdd true 0x7662fde408a493f751c4e3f28ab40b399c1774e941f4a260be698cf3b744e6eb 0xb90d804a7478322124ee2f157e55d33b64593a496a0b9c021e4909aab5cac247 0x35e94ef0ab59dc5781ee66b74163fce4703d4a5a5efbf241c1d96c6f7e79623a 0x5a3f0d0322af23b308bb6f2505b5cd3117f49874e7d458e699ee86bdf355fe 0x36bf6855cd1a42f3c7bf7b0c16161ec6f23eae09d5450993eee49171da7cb7ab (-0x3e73bcf5413e391d024588f8df44cdc66e0867d7d8d00a011788a5bec4addea4);
  SDbl 0xdec5bdfc37cb87e918e3e8c7da9df93c09d1e6f61a69ee5b2846b42336adedef 0xe80e4b588086cb0ee6bd7c5d81e29b30f31fd907b5b81a6502fecb9af0bf2563 0x5b65edb20559d53afc65377fb856509c1003350a8b65221e4c5635a7a86d4e54 (-0x133799e653f0f9049ab114d1362f4140fc5c13d6165ec2082503966e36c75bd3c) 0xc1db8e4025ccd01805433e776af42818891948f89cc24019db07e10a162a44d0 (-0x28e6fe947e1ab95e40828b17cd96b4374e2d98c6dd2857920d0c472aad43dc4e);
  SDbl 0xf2e8e4d403e8cef667fd8590c08cadfaa6bfca993cbd40ac1217f184a5c0d447 0x23c9c2f1bf1ef6b0d50597123ffd2427b5d3799a7945bc9e25ab1275697dbd9 0xb788ebc7923c1e03d68cd9644f058a959538df2d3cbcb0a380a0465f9b461100 (-0x1c99aba8fa83fd2323c24d6b35841a669a1d03b6d6d67a43cde3715b6eecd45c0) 0xe67d24814ab2b84f70377e4090cb6e0ecc92d491db7e60c95dbb8e4297907aee 0xda114b09cdd18a4dc6390d5a2cab11270e32275057fcf37bb899a549e067b20e;
  SDbl 0xca1335cb8d34ce68822883af0e0c8e07edf45210f18567993100bcfb3afe0f31 0xd8f099a0ca613ac45a4a1efcbaf23304f813b391fa8a3813bed7399943be19ee 0x442433f0c0241096354b2908df8888f29e481802cfd6d355b2bc52203d057bc3 0x121b09d2eadeb5237be25c3f3288fb74213377b1eafd010a34064f631459077d0 0x9f825256e1de883b8fe39ff63114b710d01d928029952c51df72becd96cb0a3f (-0xa97a2276272dd4b326ca6ac8de74a9dd8f127ff7f2b1086c7cf45c332ae95638);
  SDbl 0xe8e5d2af9ff9e2940503b7745e23f93c63929827a1c41f34eff723361c92dc99 0xfbdea53e9e9dbcdc9c0632972b649033aa8fd8870efc58d3efd0caaba440af20 0xf84647491319fae24c43648d2412b18787cb4f1387b67bbc8f4b4cc7080ba1f9 (-0x1ab88b90ebc42fda4300f8ffdfea8391d7ef450e7ea5b51b89d69cd56f3f80b4d) 0xd3e15c31c16f16df7aadc5fffa452f32d87d66bcf13679d2d6c9e2d057218f8b (-0x1fc71636c86220e587a06cb8399730bf58feb357441af8a769ec40d64628bf62);
  SDbl 0xf7fe41d4b7669e4a9f68f11736f0625f4b4cc3285989c8c36b2f0c747a4f83a 0x63254078bc7ffd92d8354ef06aecc9cc367667d01d4be55077970aecd140db40 0x288fcf286f9c13290347ff64c8fdb73be0ab9735ca5209c421057631c1cb360f (-0x2c95ac07ae84229e34442ff6a53b8c0fe7c03e3f0c8fc7ee973e3ad38bcb988d7) 0xf03c9f901d2e4a889a9b0ffe562c4e03e33e30f060b84ce69d0a18f2c1cc5c 0x93f28f7376fb0e26c8ac65f2a2c5259b6bc1ebbd2d9cd225176a28e4b1fd748;
  SAdd false 0x8162ad640014962ea30e33a4a5cbc345d05c9f68f97a8429584f0986412bc51c 0x89d52901a05eda068e14ef3339cfcfadc77a5a8518526ed91eb5a22f2de6fc73 0xcf5039ea7782aff895dbe4da7f1eb59294235b731557b209f9642d8f908fe470 (-0x18734f74ddb305a24c004f3c7888638776e4dd407c781179c1a3ef3c9a1bd474) 0x416498c83f79b7121e933c75fc0291c67dc4db5acb4d86f8c2195fc12b48316a (-0x138d8db80fa68a05a9d21a806634d7a10ddaffab0d126d2fb54ed5a92d5c04ed);
  SDbl 0x9c69fd81b2571f086840a4d272a2761c3c79b00672fe1ed37f8149d7dddce817 0x901d12bf095f558033b8605f957cbe15efe1478ba96fb76e27936c1735a7ad60 0xdc0c8cd27a4002ba3341cfb3a9f6abec0ed4b00a6d8fbf5cce6fa86ba453325f 0x1eb3ead90219faa4fd92d1a709a81b0ffaeb6f9b062138f1afbae884485dc6d8 0x5f9158d860596e577faee595d368cc24ca534050c26cf5f4461e947c2183f435 (-0x3d66c268f1fe587c4b6ef28b602d7d52ba4e9291c6f49e16b7790c5d3ca3be6);
  SDbl 0xf2ec051140f126629ad5694f5f4213eca5e1950ea8117f456992729c5f740bd1 0xe847f9a2b126b66c7a80ee51487aa3b46b55915d505b1532554fbc2d87d9cc05 0xf09fcdafc4d88c7229f02b37e1801b96cafd80b7c18838dfad5e848bea51d5e4 0xae3b50ebe6a51ddd58ea5c745732d7c9270b2e9811bd483da0d01e269bbc42df 0xe683132edd346a132bbdc826e577145482555801146c96f1e486b4441f358624 (-0x53a9d78f29dc8bb58201b7b0960cac78de8ca4aa50af02c9f41b7ca6115adc08);
  SDbl 0x93edb080df3420cd7b4120d002b15f99d210941a9b339aa10d16b4d0ad71c7a6 0x56a2338f990db73d21b6c8dc605ff284675eb32ee25a2c3658ed574baefe690b 0xdbeba97c97a748634ad9dbc9ffadb584e30ec02489fe78f3fa53c108193077ab (-0x16231403296bd46f6381e167e4aa23390d603490c8252a499299d94e3bcbbf368) 0x557ad5649e1f6d5cf9f9a25ac0deb3a5a2cc1b9ea6dc856887dbf77e86728171 0x54296ba0f4ba4f4b1dfc1a42539a757a875b295d866272ffb4e81db538f5c973;
  SDbl 0x3d241f39c2a9291dac5e647e98c0a76b306ca408378acee69dc0cebb43c018aa 0x564aaf6f7103ae089029acaf5658cfd7781500c38486379fa3fe6422257dbf1c 0x1ad199130e1d085702c5a7d211e26c04d520dd7c5460ce080b4766d27afbf931 0x11183a7617f9b4e08233f4c04c28d39400a1e2054ddf7d3aeeb27b91257b144c 0xe9a3bfa616ca35351386ad1d105c3bff6e1a37fd63dbe779e95554f861a404e 0x14e6d4eae3c86684305efc3cf4f2e9fc4450e8b1fc99cf3a0388d3348d3026;
  SDbl 0xf8df79a6ee485d72fba85c380a3fe3a8d403a3747a7d541c8a149b9c83261085 0x2dc49eb9cec073ec8da676c2e0ed49f67778f45e47f43588dc20e1ef5d99ebe9 0x71902cff06ae368f723b723a1ceb5787b168760e7daca2b895799b2c6b10d0bf (-0x231ddfbfb9dfb318be491f784e4a0e340dde87769a5df993089fe44a917aabbd) 0xf1f1bec98a4050056c23773caddd06a997c14539f58bd675f9c07f8aa2088508 0x2765403a755b8096abcb61328698fa9fecb3ff991eac7129e5055c265ceae071;
  SAdd false 0xcc43b3c914ed5f44960cabc9210c49d4f753915bced3c949b0f389f6b8a245e4 0x4585db00abb1c8b146ecc875f9b6a67fd22107c1a561543f8c1b58089e919df7 0xdcc2e5b72147a6a4bf5931c92e1dccbef917cbb84ceb18e31c5b838a4b91f242 0x3fd5ed61f310fb33b24200049413a2c1ba9f561cc472edd003825a4d55382e8 0xa2fbf870b5da0dbbb49440abc48bf0ddde7cd82d10cf59a99ee879fce7d34b97 (-0x12f4444a175f6691abbd244195b0790531454eb7244673d88eff281bece8e287);
  SDbl 0xd7cb96dedd81e10654eb6a099ecb83d44bd03e3a1cc446ae7655db41cb28afbf 0x7bb1690d8d8a47e7063418c98f51a1721e55d256cfabadfcb5859a6fc7bf37d1 0x378e28b61e3ed9d79b303ab2570c0947c5575b04fa5d4f82744062cf0c0ed67a 0x13b8a3504f751b44ab41802c0de0619633a40435b8a95372ffc2ce2c0f836f274 0xb5e79953ac54fae04fa2473f48f94ffa3bed642d8452b08c9c52b452b68bc33e (-0x2da9a8c3516d62f85b453968ae1373684cfacdde11a104deaf5ee30edb1d679e);
  SDbl 0x955b3b74dbcc59bf43bcb9810f7a0478d1341e4570c5bbb6d0215fe0ed2f9de8 0xb51eb731a0ac5f890e176f9b6540f1123891233eba57783571770623ea2337bd 0x8294e86692b0a83b985545583b5a88d2c20761e26cccf897b938bcbb188e4ffb (-0x7278cd6da4618c68b35e0d833c72500c8c5a71123cfe0757b6dcbb94e6a5f740) 0x572353b9b1e28a2243fd2579287b2faf133aa195b1f166e4e06a81c88d0b451f (-0x218115ac4f4ecc62946b2b40e196210447986a2fd82ebbddf5e26555e47b2fab);
  SDbl 0x67dc573a125b4172eef36e907c6bb4d0411e2ab1e7d2c9c545bc13710d2ecd80 0xd32d12aeed139367b67c74f69c4c1c716fc0b5772893edf517e87f277de57aed 0xf1f05ddadb9700632c8e5caf7159b9f9ba92322cffacf2a0d635378e023a7801 (-0x11678bc4587c1943ffac9a0df141b5fe764433447dd8fd2edf49c04034d29b468) 0x2a230bd6ee708d004169de980b5e5ece359d0690011cb06090565701d335aa67 (-0xc31a563c81cdc85cbcf8a5c5e218404355551dab6a14fe581cc0a18f1a83004);
  SDbl 0x39b6b30b48d0ffe7690b2503703257909d03409ce8daa50151e55433e97bf8cd 0xf710c53b76a3c9bb1c549a075edfc46bc4a7e32afcc842a141db98cd207e976f 0x5e686f43ecc4f08dd996792e8c9d613f996064e8b8ef519db9d8c41b8925791f (-0x19d83a03905ffd49469a98d51d7005928dda57f250c6822e29d23a2e43201e362) 0xd02de1e24b44192ab0e6942739024686b89076fb0475d14614c067feb7db920 (-0x8174fbc0d787fadd6890fe3824a5aa64f902d9b4c5cc509ffb634c5e7f04ac6);
  SAdd true 0x1be8cfc16a737fb82dd54971f13b154b174041c4b41a4a84293d4b423540a66d 0x2a53001ab6fe74b570f94189f1e7d24f3106e14332d8f6d25c614326ba178226 0x2f8df036589689040ed86fdddb1bb9a49caac2015a71ed0cd44de78ad4b5c59e (-0x15668ab16f2c51afd00c5e59e9be09ccfada655c1896f0c331b83c767519d6f7) 0x30aef8c06aa9a1cd51ef1e48a0bb5d22263ea5be175b26e73b79e0c493103f3 0x165235ed52d05f65b35466b77e42ee5615d53f577a9d23994b847c667ce9d8a8;
  SDbl 0x9a3d9fc995a3196fe17100f87e1f42b82ce48e0d2e050387562fdaefbf920f2d 0xd99f49f3db4e25b858ece7e8735c7c334fe4a076b2d61f6aaee22ffece10eb7b 0xf2d2c359c9c415843fb2db7e1955014015a1e8f28ef0b69520d3f7dfd0a0248e 0x244fa52db58f04b9c060843fffd645e254823dba68d6c6dc8f427ab855b3db5d 0x5cee33146ec3c406147f584b88beee4da477104b7468f2d79532764bcc05a1de (-0x699e17050d6e9d82733966b3eaf9d9917f8ead3106a187abc40aa33ebd2c96e3);
  SDbl 0xaa207116ceb5bd2f65ed49fc6f54b78a910ec3dce4257a930c5e818ef0ec5934 0xa498439b1db457fca18c1de9de0294d33b11f7748c6f120323c801c014c3a3a6 0xa35670efc864b1d46581c4efdf46eab7fae25913fd4a1cc9d183243585acdc4b (-0xe840d4c89138cf75f6742649bb96ef280c875dcd9d34ceb225d1dccd0c586e68) 0x710f1a4f33414b8611a346ba2d943b3bdc8ebf84616f229fc487029799f0480c 0x233d6284af763bf124216426fbc3bfb7556f5072d31c02da1120752fec455c95;
  SAdd true 0xe0119c6e01d204115800ff31b3e66fb467513d7c6634cc2108c0fe65a34fb447 0x1b41e5bddd35ab60552f229287ae21f859e87cebc26f8f58a873aaf024d7f447 0x9d50dbb6da769c7746ef3b90b2a5fb53521e1260dc0b0914d642f8713a805c91 (-0x63a0f75c4790697830669dece3d348801695c67dd9ab5ae5cf98f0f59b9f1fd2) 0xc41ed2f76d80d977d7443aac5dc6344842050a3b9f3960b2f44635d040222103 0x783504c9f19e4e009697764063602066a672c6ff075be381f72d4769e32fc983;
  SDbl 0x938298725c7ccefe0abde350cec1ce9d06657296026049b8a589d51498ee7ff1 0xf6b1328f40e001f3f116258ce3d71ad06879c6395bc048afdb5601dddfe14d54 0xa0714718839ad7277b09189bc6e3717dd070f7bc2dd506a1bfef1d20e801682c 0xac96778ad4063eb38bd5fb3eb253d78fe48d382ad5fa3572b76c3984c1ea1c0e 0x54ff3db2da2483178add77a40aa129f9b766c203d309d79b70c439f5d5843501 (-0x7e70da4dd973c9e1dee21ecb85623c59bf22619781900800d4c0ef42a46df306);
  SDbl 0xa2c21f89b27a1e4858ad2827a2741b4a19c3b5c7568e020384a5c930796de932 0x365e892e10fb90d0007918bf4c29a5aaa6bd0647a21173a3251bf68f436f1ed6 0x12368eabcf71a40c3c5feaf4c4a9c8615dfc7175769af0b410b43b87187a2c84 (-0x1fd286645fb8bd370309f1e2dc399ba1abd3102e9f7a58f74cb1af33d6699de83) 0x677a431e7df1f5d20a4b7e5b64e196be81e52ab1e040698a5652ede95631abba 0x7a462585cb0fa1f5e6d8722e336837e79dae57b74c5e806681785cb22c37d214;
  SAdd false 0x12a92d5a69670293474956d115d90ad587c2c82353917a68d6ec54b8e43d5d27 0xb6b10dc6e180158514edff7c976019d1764f918f7f7d93362b753d7045b406a1 0xfd9194110b9694d8c16cec584377e615427064cdbc9460717f34d4766d3a2211 (-0x43329b089fa9ea35c9c401ad601ceb6d36b7c4fbc82652766664234b11c1dc) 0x15c3a2da196c9883ccc78c00f088b9b861239f5a4913125a52e9cd5bdf43e4d (-0x95a9a88240c8899941af9341baa028eabfd11613c37b204216147241238a27e);
  SDbl 0x25718ee89c8298e12a3d29fd86342694708faf6586976117dd2935d87d73c869 0xec214c7d60c6a8489a4aaf431cce14cd595354e897437d9fd64f0effb038757c 0xce67123f65cea2896e9a6d296bf79d47bcbebb3a611421548f2fee8cc5f9614d (-0x13cf3a3b5cd8db4345f9a1de498313efdd583073e244d3117138d8edb4e74ae32) 0x57a05aebbd8d227b6d41a3486569d4a20a2fa25e8d3e4b9cfbf989c066647ad (-0x7d0ed70e7f207eb23d40c70ea514ab58f41ef1d2376c7666d58da8bea7eeccf);
  SDbl 0x61c09d766eb877b95983e824c81c6a079a2fff1f6c8ac6fbc77b6c063255b291 0x8d59aa3f4f5fb5476eb1a0a55c4c7c8b2260d64d4b017ee3166bee2e9d806fb 0x52189b97cca9b2e5ca13858aeaafb0645c9f4a104eab24465a6cc8fa1486838d (-0x1efc787bd0c6b5574ecc9f30ff3f7164c019cacb9fd9718ac8f2486ed6c71910d) 0x2553884077bbe2470862e0890ae79365a0031366da44c614241a8fa59570fbd2 0x56cab2f7aefa41789530a124eade21c997ed11f546be39400e2a9eab8e369bc9;
  SDbl 0xf3dcea89067a2d146269144ddbaee72f941f8429d6b1fcb2a2e4133015d970fb 0xeb202da96c99c4c858cde2b72d9acfe031da7c5e3bf8988d088bb84172087483 0xd9420f1048622b6d960009b8deefde7717246c06042e8c2474131596d225eb90 0x9b7e446c4133b9b676605b7953b26846bcc5b092baff619b649581abef56d7ca 0xe84d23e4fcfb00a6742f19f28a9fafb88f55461fdf0b2528061430ad5c55ec60 (-0xd79010f6aad8c60ed8b5a0f972ca8d04c5ebc12c3bce3ca032833aa161a4ac8b);
  SAdd true 0xde2bfdae37c1414b2a0cfd3fb1de3247a4d39779fd57448e5540208eaf49adb5 0xb2ba02044106d370c36b59ad88263b2f650458a28c678dd8214f1bcbe43339c5 0x5db8b2ee3f26fa256251bff0358460afabcd83555f1a38e1c54cf3e48a2133b7 (-0x9fff069d9696970186bbbd350747fb211654616148dd7fa8d00b8252d9921f04) 0xc0d0538a1d6c0c783b82a34c6dac292008a12224ce48c906358554188c700116 0x30f24ae61c5676fc54255e5d9e7563542b479a01d65ffa6bb3316f2b59a430f1;
  SDbl 0x3575e5032be8ac53fed8d3a08a06286629c16a3eb4a1e0c09711d30f8c8ac67 0x1b10b15baa532b67c6e1decdf77456ec81fd9728431dfcf5cdb27aaa60e19108 0x5fb580a6368b772ca50f0786b66a360f01c635791f6be4663c0187f153a020cc (-0x173e349166e5b24e8033ad1fc9bff02cf50803bb913ddcabd06ccfd78358f907a) 0xb2a071e7d1d2dbf1cb434d5ee26d1fd8542f7c5585f1beb4d4a4cc43d7321 0x1fabe5c13a1200844b0a820205400eb4e10d3faa95f410dc7c7636c3edf7478;
  SDbl 0x859ec73f9a0aba1c17b4d996d07fd81ac1124f92692e18ec563f84c46047a9c 0xaa22daad07482f5d4127f3bec9ac25ba3502e4c6bb194721d798d489ffd9d 0xb7ad080fcc7bff81b44b5f0d40ff3e9288d7d9893e4110679c6f56aea49dfc58 (-0x256fe74c339405df6513c9580bf7fea2ef6f8f0270e9f04244e03705a1c37e3) 0x45be5d82e963996bb002f5caae20fff90d3d27676e947fcd7cef20aaca109d 0xe1ae8a8becac94e9fa9302e5e7f5a40ce76b1b3db390d8fa5d983c605b49f0;
  SDbl 0xe23b41385be1aacd6f07dce2fcbee3c901dd675ecbc3dcf93265ac1cddb1c752 0x3f9655dced5f5dc94fbe10140c9cddadaeb6b20064edbd786602eea4d62d8cec 0x2bbdb4bc43ce6ac5fde6ee13cdb1aadcd9c28bc35c334359be4eff40c449f200 0x144a2884267ac966c573cf48e42fdaff8edf147e04b018a4653939b90079a9e78 0xc7ecacdf6abf2387c9eb75c6ae6b26c73259b2ba883037b3d8d3aa3698d8f1e2 (-0x38280a03d04c062e84d44dd2f535e9fbccb2e5d8977d4be54d510540ecbac15a);
  SAdd false 0x15384728b512cc9f876fc6841d8baa9c829d3e2a18bc297cca47ced4fe8ba2ba 0x198a527005bfb911b3be9649d5a693be18b9599d14003c5cc1df6de3acf037a9 0xebf777a7c6dbedaac8e648d5ce7dcf0cd5b1ddee141857e19912aa75a0c2d88 (-0x110042e5ffe47f38b333a8634b2565a691e984cf6470a1f1dea4c2e4a99edbf) 0x1c2480be50e30c11a85cdeef3b8b4665f25a90636c80e9d7fce62ee80fe4a38 0x327597c13b723da290be619efb42ff4402d97d4e014fed489d29d159270c6da;
  SDbl 0x9bca4260a6bbe04430ed920ddfb7d6743ccb4c7edae7efd1144043b49d902e90 0xd89655947dba609c90fff1c65d3a6b8c8b499a13cd454c4427ddce63a8458107 0x96a8bc32c1fee1f4bc636f3cdc534a57f24955503b1528d07d6e73940b3255a5 0xa4e3bf8315d6a27e6f92593bee807af225aa2e5b46620384dad4e4ecbde0fb0 0x5ece8c2e3a7328b512739b956648f56e515aee3b03e163f17781a559f7addf59 (-0x744336eb3d6d39ed7a0b7a1e753114c0392b7b63eb473f52d5c73c8dfcb953f3);
  SDbl 0xbfbbaf886028cef0bccc26cfbb11a98f213de51c3b550eaf79b2ec444d934753 0x524c787330b0ff8de5c4d17c16787c423e4cdf56d81faa71a50849ffe0987925 0x4e86f65b3b3ddbfd00df5947e81cd76aef3d4a15cd09611fa7041509d61d6e0d (-0x1440d68284f051935087d7cb1c0855c2a688ad1ce7d5b4d7b3046d84acf38e46e) 0x8f999987f8aeb60fa082cdd7e33822451c362d26f3f6e64d76170d0c45f2564a 0x64939004cc392da7bc56f477290f3ade3585c0e30ec959499ec7cc20a640876c;
  SAdd false 0xf5090eeea0c329f2ca333d467bd9fa471ab225c04097246c79887539f1b2a68a 0x16dd534ea1540ef16a8d87e033b2f1f5c51cf5bc206248ca428ad2f165dd70a9 0x754b0eae1a7516aa35f9ef5b60c52f16702fd7579958f0a9409acdf4a09b1e7 (-0x1e2e12330f9e859acfac3bd7fb0c2a54c4c2bb77b8b4b2340faaedb0ba2c1002) 0xea8a56e7b7e62af00a6b8c993fe8e141d9155bfb5e52139420533acaa1831c31 0x38e378ebff0fc3e7e3751ce2d263cafc2f1c7e238e6d8fdc723737e10d9c251c;
  SDbl 0x88c9737d9c93ef51e72af5d00787ac65f6902a0b3eff294d9f781cdd06cce925 0xa1763a8efb61c7d38fdc607f95cc8efc740e239cf199d0e507a5ebbd82fca122 0xdf2c26213677385deef945d1337e3721a7556edf971c1160de40161717f44e12 0x1b528954d218d23e3818ea8c07478a38533c88fff859bf47e7703f7c54f03ea 0x4916a93c4ecdd020544863983f47307eb3be0d189f37694a7312b0cc2b6b231b (-0x4a0e4b6ebcbc6196451ff991e72c577f6a540285c3dec92a6ef1dc958ef5dd8a);
  SDbl 0x63b84f8c4482a03ff2454605680adf997563e3dfbe25c0461f34fe442060e03f 0x9270f71062096d6e583daeb35d48e82fdc0e035fdcf7c11c36054044e82dcf74 0x81c49a36aaa1e9df0ca09243962e9999a9253863d199ae86b2d82a95d1d4e1c7 (-0x83a4451fd8b1db775ebd7856740cddf9d0c2a19d8dbc7f1e506bd61fe74a9353) 0x26d81239162f75148799b21238ca71228fbd6ef1d705229d752c958f3a78c237 0x5d9d98d58df4692880f681d0f82a943dd14980e8da941ca079e488d782b5607;
  SAdd true 0x3294928251bc980ec258f6268c19a512c85f041d3e84af3ffd28d0686f33cf76 0xc0abafa7563a48482e5311d079aee024cc561e368d2c3e2aa62d500d07482449 0x2dddf0b763c8a963e50dc557beedccba286bb37aaac94cb02cafac1f6691cb7b (-0x12e72c97c18bebf55dfeb20be6f3b6fe1b13a124d1c75e2cb857786b04f24269) 0x9fe5f74ac73747c7c83135409e8527b2f13d845f93bf1a581268d967d9e5e20 (-0x9224c7541f37a5b0b59ddae2ec69752ac20802e3cd29a3d54fbee56e56efd90);
  SDbl 0xd2dca275d26cb9eb95c6c65b58eb7a8406b92aa49293e28dfb9b588e9896e454 0x88900f7927fd388a833133b5bc49ef61f7c601a835dd25270c0aeca0dea9b1b6 0x6bbb59bb57dcc6b0cd4855a00f253dbd7f956132d79a1e637dc994a4b19979c0 (-0x16776c14519e14e6a2091dc29d50d0f59f987e613a5314566156d831041a6ca48) 0xadaeb8b19c8419234ace4e5077f5387fcc6c310f9aff08e1c35af776cf243eb8 0x2e3704bf05f0c44cf78a7d215f910a8cfc9dcc7f6a23df3d7ddf56b13c00c0ff;
  SDbl 0x23dcd593a4539091b62726bcc0b357bb5a560161e3cc0f1caa8b9548e3ed48db 0x81437715e40e78322196e5ee77eb5cc06b9b8acc88261d086a64650ce63aad89 0x540eb5b86759532cd6a4cf3f2c04804ca1bf390d4e3359167ef10971c65491f8 (-0xbc5d0c39acbadbddc0624e51663ed34c1fde497a80391aebf3fc9928cd96c657) 0x50620e62be66ea7ae2be37ff8373e0c95b7341ccece5c875171a9fa4754259c 0x105c4bf79135652bf80fdb28ecd9497641147fa290e717480c5377ef31fd139;
  SDbl 0x7fb2fefe9bb8d59c058d3da45092b7b7773b7e786f2e8dc67a0307fcb54468b5 0x1f2fe75748174a21adba3a9335991cbb69126f034d484547b43b54f85e6549b6 0xbd4e37cb20be9068d6abe8df5e0d9a4f437f34d51c10af2d10fcb09664caf62f (-0x6ff30b2d36feebc18f4bc7a66424798175a38b74a1e79164f8281b459acc8ec0) 0x3fb316287643415e7a1ff1af3667f5f324264ae1664cfb65740446626ddf14cf 0x30ec479aa684bf1e9c783f833665ee5e9192aa926ca8ea82079d075ebda63bf8;
  SDbl 0x2c7a4514763d73441f172cf7647ae7e10cf1f32dff5154ae021235105854f576 0x175c21eda8e73695ae6fdc21e3a6b2849e5f56a3a0bf410bd25d768776351e91 0xd9d5480dc322499a40426a335756481c89ba45f5d00e7795155121298661adcc 0x3661ceebf0b77fabdfa36a9edd918732b6610daf79f1cf5aa317ce9b6f56fed5 0x7ba4224fa841db6127b27ac41b403e76ddf09464d97c965878010c512349f99 0x15c22f6f16ca55fa778ae21af80be0e4a63174982e368a818bf218beb8a57ed;
  SDbl 0x135eeb547ee69b19033416e80d7bddf5dd32e614d9e16dd3ede7c9635f0f916a 0x46940b3d2e375466a20d44e207566fe0b9d753b37615744a2a9e59f8184f6bf8 0xbe658a7e508e58e7625592f860e9a62178fb7ca5ad373bc313d96cf5ea8184f6 0x1a92240d1add3f0b30da4f8760dbade4c321bdd703882fc7e86f418e5163e570 0x1773a2036aee35eba847db9693c2d25759d1ffc5fb0d3ac025dcc2bfbb46936 (-0x392a8407e972906756d4a3eb3ddef50d65dc086456a441fe1806953c8586998);
  SDbl 0x81eb58cca4ab55a1fb14191a33f7ddf4a4901d6392151d226565ec5ae494c751 0xbb1f499f55486b38a349511e72520676830fc047cf1d1fb9754649aff5f89cc1 0xd0b07821e7edd6f0d6ff86f0ae901b5a3e5606097e10d6e8ae37055478003045 0x86e084cef06e5cbe3fae3127875afdf845ed9ede29068c109ec9aa6342af2911 0x41ef07daa6675b83c2b062df4731c35ac99d7661f2c3b176c666272ccdc06d10 (-0x3b254eaefc4d6f794957bdbd3f06ed3cee71d96fca85d2fd48fc7f4cbdd59c2c);
  SAdd false 0x7ffd719d99b108e28b74e4069cf550e6d1de7ed9050d6da718b60f1aee0612bc 0x736958243e76fa14b2c331f2df95db8d92a941d8cea89b0b1a14ad63bfdbdf99 0x551b81181697a4b1231c5968b9c11a49b7badeb456203c834ed3de34ea9a8e7a (-0x442bf12dfcf5668ca5b7eea32ae06d42f360feb62ac447965e041f7b2c21314e) 0x3ffd71a462696314e1d0fe667991a99f89b5ae0e8855758f30a81b7276f1f711 0x23da416f500b77b8123f792ebf9d96035c9b2b1ebeeb35b29b16352c0143055f;
  SDbl 0xa21df72810cf81b6bfc101b1bb261354ea8285d16988c9e06fb33b1db65e5e36 0x81528bdb4956f5f363ba8bd76105f82ac288db3d42392918976e201d6cd92965 0x4c00d46fd3e2124130c8d32e888e55bb138ac5ee3f6496931020d079e308a0b1 (-0x304cb5aab1f6a5f3fe6019a0a22693270f4dd8d9ed138601486c7dd8b037f728) 0x66a9f05109a2b63565fc35a0f5ee357373c2f2cf79f856b4e55aedead23d3533 (-0x8cf3392e7acb645dddbc6ac4209ef038541b88e2156aaee308bf90d92ee57cd);
  SDbl 0x6a356471710932939c6a2735b67da072fdaa73de993e46c6a3df1638ca66dfd1 0x2bbcf9322001a8639f6f2a2c416f351041945bf4c16f7aae86574397dc1157df 0xcc2bd1389000cb47bf65b280c5c5cb0df3101a157fb80ed6c1c92fda7988bdc9 (-0x84ec7eca9fbbe95d52b5547f0bdb9f5c2e352e60af1f5bb196144661d954397a) 0x2c104250dc0d8096363f4480da6a25ac6a071d276a09bbfac59529d5c389e208 0x2381c845e5be92c46fc0d0cebd11182d6cb581c85488d7210540e9e9e2879614;
  SAdd true 0x839a12af3ff152bd78cbe40ba2cafe39d211a0b7a686bae55ec94687b18fc66e 0x77c8c7ae0a355950b769179f38ce35aa2b3263d7e61667e8a4287067260269f 0x8915473c73957840bc00f4551b038de58e9e7dc38e527b16a24c1c3423549133 0x39d2cc22a49a5e528987fb2a35c63225356f17daca6cd36f2ef3c85e6575727 0x43a70bda1b4e11d5fc6e80c63acd3fbbaed21cfed9a0c9bdbfe87f001d0b9c01 0x12a2c908970966fdf8eca8659f6ce0ca7388a6ecabe771d2ceddc80c63e2a57c;
  SDbl 0x81aa70dfca884f1c55eb4838722ad22d710c2e9a5761f1039b29dbddda48a99f 0x7c49c75ce667ff92a0ad6dbfeb9055b06d715ecab67cb9474903f93f0af1ee8e 0x17baf959364f68ee749cb00bf9ba951a0bb4b56624ba4514ce1201a9baa7f89c 0x8a35d61b080f0340f4283eb9037a87ea4086efa869d1caa634ec1d8fb7c910e6 0x41ad373be6c828d945ef681681347f23bf047290a355dd2d90d04b4349deeb0b (-0x3b292e751f1a6bb5bdd119528cc7663df38b4df6d60e5fb7e91378ae614381c0);
  SDbl 0xce1514ee67525228554080dcc888f314a0bdde737f6284bef3717712f08850b5 0xbfa1ff5a60156ddfb9db08e040b92a3b85d9f26d9889646ac1157b642d46c0e0 0x4bd4b94bb8a344457fafd23c74936099d19d80cb97aae1976637c30dfffbe657 (-0x8ed1d9569156fddf1de072012453cf8cd86027b0575a9014e87b5db939ae084f) 0xa5e5ef6cc5017d504c6db22e8c437bb22edee6f3c607a1bc051fee850968fe03 (-0x363688cc617d1456ed385d9be7811a0a436cfe92825ce7faf6d2f24be219cd13);
  SDbl 0x3e1a5e73270d0f46889695b9d7d689ac102030cc6c83696a595600e93db17903 0x2f2a8876a1198516d40f9fa9cf350b0003dc20cd344cb22bbed048ae2da65751 0xde4ca87029aafaed92f9db22da9b13f453ffaa96db3b2eb8c9b9c57d0d8f5b4f (-0x1898ebbbae5af837246410df06abfbe7b3a37eb8f55b73b515de977b1b681580d) 0xf10c8772837cefe1f9cff19e6d8d93122df0e1f194f23aa810ae94c8ada0308 0x230bd03a37c9d26c57db228f99da99da8722791626d9681a3060e05f2de66df9;
  SDbl 0xeec7d334082baf22bf3c7053d125ecb77724ab837b5c147584bbb374cb842468 0xc105df590291298f23deb1989467d558f9c11f1a48e0a703859cae433c922356 0xc254678915f7c791222b4ae95a027cd0232bfb1dae8f54ed89df4a624e2834d3 0x1849fa3a6cf00d895f4c97d59880b109ae1cd6232ae5aaedd91084902b4dc0eb0 0xdeb828afa70ce649df5bc6de25b5cc49bdce1cc4e563c986b6d7fb6d177167b8 (-0x880bc49cf674be2e7a9759326176430149e59d942e4491ed593d17d84238d9d6);
  SDbl 0xa650029d4bc53f692193e2153d0119587c71185099d34e8232aff983837b5498 0x23ed06a1c0b9df66cd9b2e437b2dde2771526a51e06bfe275ffc51a01f4bae71 0x7da79f21f426d3d1278b6d43bd7a4faa3fbedd199375c582a325ae7c5e8255ee (-0xb81ea1b6306505f9026cef3010a39ed75fe4ceaac7f6b532a9caeda9fe414fe7) 0x6c0bdc660ca5dbbf214137fbb9bfa650e99a78b7ccdf93aca515f698a26bdadd 0x660f35e5ac730cb0270b4210b5cd27b07a00150d0a3d7f7c17c2c58fd372fec9;
  SDbl 0x8321d0ec08d1d50de0ab1bac183ded047e4f4f4a96482887c9d720a1911bc380 0xc279cd69c43d36b5ce1e373464941c7ca83d0f77194d1242192c134eb2d8c460 0xe83bdc63ef86196da203348bf9b96f240770a29f2a87d1793b1bda16c56eca05 0x719abd5bc96f82dae0ef0985f2c84483592dee8deebdf47533dfcf1253c8e7a0 0x432ba0495b8d0e63ba7540cdb6192fc400f7bf70bf809ef2b01859151f23e142 (-0x5136fb42db8bc334c119320f8db7bc6a32e40dedd14a0b6c59278121ee99db8d);
  SAdd true 0x65a0909ac0056276718682ede3afab4a6ccae73ed7587280be02aba817d57287 0xed162a8eecd9c9c285627da08e532166a5805c954886eb1cfb6323b18f53e384 0xbb8fd8737c534a8f6ccd8195b6c4c745d0df9b70a9573ca649da8b7769e55d66 (-0x390c97b3d20d39e3244b8f22030676f220c91f185b215eb3bcbd06f1ec77bdb6) 0x285816cf56fad2cd85e4a84776d420bfa72b4a77ac72ac2de66ec4cd6b96997a (-0x10ea6a8ba794aceb578c8ee2e7cd03d01c9b1ee53e3dd9cc41c1f24392ec6499);
  SDbl 0xa34f73a31a4b5367f4a24b977393934c468ce198cf1ca619c8c0fb61c0c77a72 0xf20914855d773441f09b39aaec230cb859545ce64e2da82f16bc2b4302d8dd1b 0x3724009058bb9c66ad69f16e0394234625078ce1b6fc3673ed103b104184bc8c (-0x1a3688c4cae304242bc9c64342dbfefba3dfa527376669170bc5ee8acc47e52ab) 0x682e45eaae905e28b5cf05dca8d37e83879d0d75238bd59f7010492789b3c95f (-0x328342a662ffc9826cdece70fc2754be7baa80f79f131e2e5c662df400bcad0);
  SDbl 0x5ffef4dca5f6100aacc75b9d5bf4c9020ad0e16eed55a183cabf3a327d3b2ef9 0xa3702cc6c244526952efe416fdf06e9744a9d5add500c46ad4091bf35604ac80 0xf2dcb55e9d2179307c881ac7919caca14893e560e5664b1028a010cee4c5fe14 (-0x28524f4065d983f5f0e7ab0bfc0f21e6dacf641bc2c26add1ec06eb45eeea35d0) 0x23ff37a6b73a866131bc60df5dc656d63859cc7a8a799952fc496ba78251f885 0x1d7904e3436bd021fa89379d573764fa96c279e7fb91ba0e33ec0969087299dd;
  SDbl 0x41973311dbd9720dccb8bfa3625dd0cb693432e093dc51ad90042264f59ac842 0xffbaad9228e7f896accd431f8cd3dba04fdba5e6cceb0e9c4f9ac5062e99573f 0xdd35701345627095c843a51081add3cf6a0f08c0cffde176e052112d70b0b6da (-0xbc952927dbdc8f8a5cb2948b04b5828dbd9bb74ba1dd21eb74e91957c2718253) 0x10ce213c6bb406838d11c1038f2170c5029c0c59e20ee24a8bdd6078fa937f3b (-0x17a56d0efc8bb82f443f17fc73d09ae46d178de8db05fb011d10ec802cea0dd4);
  SDbl 0x6c803123f34ce5ace1334f63f8806e8cc818817985397bea834c12a6ffd36b60 0x805a071c3c93d002f9023fd177d7d3fcdb241e6fa0963b612ca732ea92fe323f 0x53c1cc5f799788f0b7c6e95b67e9fdb45a70dbd9608bd991da627b6eb6f2170c (-0x242dda8d2e9c22d4c9f4288ebdce9f27dc7c078aca89857982668ec1bd3a1bb00) 0x2dfc69a7b0a7608719b9ed6d7006a46dff49ac29568f1b8049ed1df382e77cbd 0x35fc8f0093c88f896cfcc53d2537cc31d6ec0f024240370519576f7d75fdede6;
  SAdd true 0x4952c1e35dc77430bb6c16799cd7c37b352a4fd6775a97b64c1af4d8b58beb0 0xc8d0b94c4cb65bf578d9d787c7cb59dd580176a2090db0228f7c3089bcdedd49 0x902f96eae5938818a38f7921a81f89a11ccfec793b2dfa058113852e65f77a46 (-0x1638aaf58b709364966b7bc770a684d178b0d54e285ffb58190648097a6d3ec) 0x15004d5488fcbeb4f25c839b4ff762fa5dc05bf86998cab42cd546bc1fcb4f (-0x14c145b6b4e21b5b966d07b388e1ac6cbe3e3209061f97cfb62d6c6203f6bce);
  SDbl 0x267f5e6b73ef2addcb756b6ceb253546ba5c396117fa70430d66770b6b7dc578 0xf6d7abd2ca1310e5281e81ac2988afadfa1a1c5a8faf2f010bb528ec22b205a3 0x97351e38c05746b5f29b57fbc4fe399d6e6b6de48559441bc8fed3bd62713a2e (-0x1ad36c8bec4b5412c7062b4b1125716210964a9b61295541fb3cf60d920e50130) 0x5ca0f66bda52daae0055ed6710c6dfc13185348b259fdb24786a0d2dcedd7f5 (-0x6ebee6c2d0cc1a7ce6644d114ccbbfacf7782334b1b176a0dc9f4c2ac9d1f5c);
  SDbl 0xffdc1cdaec4134704a9ff74c41e8d33ca5304777ba1ad843043f630ecbe03004 0x1b1e506b26706ceaa1887aa1f3431625368f03fc106cb46323ef834c259e4e80 0xb9c4e3a99dbc90cbe67a18a3dd71db48a502d0ff367d6e14afcd645217b87cfd (-0x19bc9c42be2247dfa39c1f2f56cbff69830feb6665eab30205b621ecee577c018) 0xffb83ebebde8d42e1021eea5d2658cb16ee3a79a3ba03da1255c2c3a0300d9b6 0xdb9a8e1bd14832b432f2bd8cacea9a02fa03b2055652f51dec7801b8d3e44a9f;
  SAdd true 0x9b2758202b4bc70e2e7505bee7d9a736dc83fe3bc002a31fe924f52cd778f8d2 0xa76a3cd8b880e76cd78b287456def3f85a33ccbffffd8b0a1f3650b6dcb27b65 0x3385959d8e3c679f480724666763cd429f3bf76265d0864b460a846b02da9e9c 0xe555d40564f9db46e2742ec9fc5ffe9ec60c142a425f5460cab204189494565 0x5e08aac34a99c0b4104bac1a0f1e258996255988a6a0a39e223c324142e5b268 (-0x550788036ba642a64e649f6a408b88263446b3bd6c756215e5a990d7cd0a388d);
  SDbl 0x90c7ae0cd196ea1faf428ed1cc4feab1bedf38ca2f2b4500892c5d41df890950 0x14867560ea67d10a2e06185718487b47437e3103f699cd08e96c0144b523ffc6 0x4e3849578297613bcf5468a7bedc3236c7444bc0c3d5e3cb94bb56967e63b0dd (-0x10e2cae5e0ae65a9a976a918b9b7cf3b3dd4ebaeb75c4b0569bf49e3a6ef777f8) 0x51e13f8ecbee4d1fe65c6fbbce2e90edf4702bbcfb63903d7ccdc07e16923d90 0x5312b321f1a55a92a003e3d097759f694fcf791e33888521d5cb94a2794816c9;
  SDbl 0x6e587a1d4489820f426e11b3cbea279d65ed05a584b237f3b6a4d7001857b560 0x4bef3054c69abc1203431be74763cc4eb1cb60d6d225d52d2e1c4545ecbe661b 0x253dd5c4e4365ecc7385ea75ae6884ebd263bd3b6fdedfc3c0bc88fa817b25fd 0x3e7e9576b3b661306670ed79527971fb626bf5aeeb74149ce9e87f4659fcffa9 0x2f90278584d55a7fb5e0f71cec3cd6d1e7bbddb8df604d7dc8fc77c08f4581a7 (-0x17e226c3631eb2ad10a88d822a930effe4210bba222e8d39665401993cfdb046);
  SDbl 0xb33239f23c55b3ac0cbd9535622c0fbbbf5f2e66fd5f064c6224219039b17e45 0x56c029fe744fdeff2437c621f700f7c38b2e68cc5c52dc3cb38a950bf362ca62 0x82ac6c696d09076ee4823fa9efba268c06e0bb14bda30dddb67e5e1a93c0f238 (-0xf6efb720f163d38b246e97a31513f567884cb2df8831e47ce76b111b538f1da) 0x7d6f46e3ed8c75b500d52649e82c5d6e2ef4e5b9ac254ae5011ec2ad392d97ff (-0x7923dd532db36336ac8db9806f1a3820c8a7c29a639f24ed1ff60591302eea8);
  SDbl 0x9c241d98bd0664a2a4afabf2f4590766dae30253a36599f950520cd304e39e66 0xcbe3844cad5edfed983b30d5ee1cfc10ce0a353f858304b425184b6d6d046419 0x63d5b61ff3fc59a9639a33c2700b46ae7e99b67ffac9452ae9fe527893f99639 0x4735fd744fe2886d0784393a9fc4e40fb4caf3c7d06345593a201ca5a50643e9 0x5f3c092adbfcf391d86829beb27533cb5a596a8e858ebbc2ecace20bd8e3e839 (-0x4772118b89edbdada721d96e41cf0e924a74e480b6a2f8972c22d4fd7bbe46a5);
  SAdd true 0xb7f89659fa02dd10f46738f00c9cc86a450dd8f392a25cf4d6ef23d18c6a1010 0xe6b58249a8b552ab76c028f29daf73636d198283e36b77bd48813c07ae9deae9 0xc4261b065e980226e4203be4ab5d11dc90bd61cf4c66c28948ac5812eabeeba1 (-0x6e09badf06007d1dede91298acde3a880ec1b01c059743ef4c5f68b868579079) 0x84355858ce47668e81c3adf43be6dddc6353438124feb3cb8e7d055b80acc2c9 (-0x134627be7009569172bdb72fa2fa7bae4beb855e7841e172c408089b3d221126);
  SDbl 0x24712d269b74f0d41d4eba93f12eac073dd3c2442d153de099b5c50addbbf7e4 0xefa3972dd3c4a7cd43a55207226a46f95e330483d097d5780a98670f000c691f 0xc986bd2105b3f860f7136cd4d1e0391568044b6f12e40f647e890f8fc9480ecd (-0x237e7cdfd8f7bc032eb462983532fe73e8ca9d9971670c720a114d28ca5f00c98) 0x53006bbc4f4c02daa3da67a5beb64c2adbf94918f06d5ff2cf0854a9e267be1 (-0x1456d9a827a07b624adfee74938bb5c439703899e1605208a60db805a58837a);
  SDbl 0xee751ae516cbdb2e846ebafaadf71d376edd83c64873a364317eac86ac817889 0x8839f803ee03641bc349cf1631cd2aabda801e644654ccc7d7396d65e36c4f3 0xfa895d39fdf0074d36c914bfb7e250f7edd6e2f431e3c2228d2a7b709a0906e6 (-0x12989af4b228688c0e417fa031a911bc1345ba0921c38365aad384d034d62b22a) 0xde1df3946cbb2b1876c15c1a3da2f8e862288f7aa27696567407e215937cdde0 0xd74972287d5fdb0a27926e326ba16179f142b8d1767c471fce56fad858db9a27;
  SDbl 0x639934d93eae3ff4d3c05f6a4c8098574667594e8eb3e8a964aaaf41f05cf2a3 0x854f5830d1fde7633db3a246131d97a502c7218cba31e3e1d25f5bd5a87daa00 0x836b4e408ab9a21cd0a1e4f8e74b74b8273dbe93725c119d43c3a18540e0979e 0xc218a4d02394464af9e628354c05ed7a0c9225f46fb61794e75f3f04f8415b14 0x26bfda9063d086224ef92c8b4d7477750c81715b06fe41c5302e100b79caa01d (-0x308d77f123bb941e797a67e97cce716fd467fd1a1097f7749a22ecc354c04035);
  SDbl 0x5e0fc53defded242d135fa5432ba5c8ee8897c678fcad4e9ca4c85beb7cdbd06 0xec265b576cd841782a1781829b1ccc5144755bfbc77513b95371cc9256a7b3bb 0x454565afcbb069ad2eac1f1659e3bc58860e0391f996f908b86be7c6fac2ac7b (-0x6fafa021f4845d66d23436f62e148f3d5db9165e7de195b14bf65c9b02c6676b) 0x228f95d253f1b68129f6b709374bbac07c545906081478a124dbe9becc752b97 (-0x25c948fdd8ed3d16ba692ae2dfed283e42dad1fe4b315a4bacc9a14a2e727285);
  SDbl 0x6448e06705823591a640782536287bd72abed9b7abadbc6a79ab99a1b590b384 0xf6ea5aedd2cf4dae806b664d741e45e75bdfc5f76aaeed02b012287e7b31229c 0xbaeffe6d6202b6e254570b9991f2786c006899e80d9c794e92d8adbb7076ceb8 (-0x2573e928fe82271da8571cf306b37058ec9d2cc57d24ac03788c037bfeddac110) 0x2749040fa23e4a40dab282d83fb366f65c1482efb3f32ef7e5423df80e1eae02 (-0x437a0667b138b28c3735d4c831555620ec3e83812ed4eefa01df9fa31d205c9);
  SDbl 0x7b27a9a5a788009c6e1ba7860236e52b7467dff357f1c9f87080ad4b5088098f 0x9033972b8c7927554c1028bf21de67aea93d365d2d22b94e0770a339835578f4 0x8da564f3d65cf57019c47820ca00b3ac31eb361f5c54e636d414e12d9b32b98e (-0x216992c84edc83603bd074d7ff8f4092aa69d5d98658dd78b8f879dce1d927463) 0x3b3f232a8b210194005b2d0f0202ed3522c8eb5d75036f27929ec628f16c604b 0x3169b9f77a0d0d34e147f48428ef983301311a16aa6afe24c9eb22bd3dbedb6e;
  SAdd true 0x4465b984e3aada24fe7f16f4dd55f456b93fc872c7916422bbad80a45d3d5665 0xbe22a58fd0329746c195cc9521300fd62166ede6e9b3ebcd9e4a9c7b31b11160 0x361742e7ece1a11a45f7196516a33b31203dc49f3c399e20b8c868ded5696044 (-0x18f6965b857292ddb4d8aee577464a6e053aa0d8da41df6d3d8cf757874a052d) 0x124632fa9485f1b6dedd250f424173645e772757730f6987d5a2345e3d08fb42 (-0xc45c06cf5553c9cdc7f1d747ebe47543371bc4e06695ce31089d71472507b92);
  SDbl 0xc5914143cb80d80f3938d017588a6e8a5b5ea93a7d1dd8f9cd40f1d48cc6f6e6 0x17ecf4624299162b9aaa18acd2cb4c8cd7901eaacd8a43929331c01c7f735d5 0xe1c06f7a35778c97345a714f18ffb48400479690ec26689658fdb6695c445ac2 (-0x15429286fbba8b801ddddeb6a6a237b462ab47e224b838aa1a422ab59efc1fe33) 0x9878e0ddef1d34a5b35be1cd13cf083aa0208fe6e1b7a5e982f82359c17281f1 0x91951ccb30f1257356e04601822397e1cff73cea2dc2c7f9ce22f2aeca38ea24;
  SDbl 0x2c3880d5b90729c324e04bb47d0e9f5d60edc05d449d2fa045b8a9334641d23f 0xe20f99ce62106110d553a538475b942437f7d8361104b27682b803cee29f98ed 0xd087f72782b345039e857f454a37459bfb3367509cb395a1a1ae5c5274faf763 0x4df7186ebe64c5ee932b5fbfb1109a2f4e80c7e665950f226c44ab5c79f8b62c 0x7a378c21d954db40d0c88063abb04dad27ab14654716c42ab7538d18de49916 (-0x26ca737fbf4736f26088dce94187e304515777f0de3e3edfdce43c4ac4ee9af3);
  SAdd false 0xdce33c3754942205342c7de143927d6d5a6d630e62b2eab2e20b099363a1f6ba 0x9a27c55d180b182439075048a4753278a15775227a12700d632551c645bc88b 0xe23af9fb6488b59655113f36b9db79a99b2a186a7cf541938ef2a9ce5d7287c4 (-0x973ffb2a6bea3006e84fa2cb918d7651083f2e559ba807aaa254d805e12a2068) 0xbe975933b03fedfbdab187fa4f39bbd4acee62c34fb660633827858c5a89d71b 0xbabde0fdd2bc2b913cb9613ff633d02e27736a929711cf4b2110d699f747ebf3;
  SDbl 0xf5c3a7548b02efbd5450d3d43e2be17bdad7b549bf7c857eff4ce8cb6791523e 0x4dd9fdd7bd8bf54ebfd97c359b04f4e0c4af5f21a07c95f202bbee703b91708d 0x6e9d2efed824604a7e89b99a5f90a3176b5c293a63f3584d4e99d44f341d300f 0x1b14834752e09f54bb304991caf07d79c13ddc4aa3a9ff39b5f4afc4e31471f78 0xebf013d1162ee2740e3293ac04fb5b42f700093c6404701586e187a8dba13a9f (-0x417d41cffb180186f341d3af8e53f115e50501af216602ba8b89ff12287ef3b1);
  SDbl 0x3669ab70f0ca6245abeb53ee8af9d7a2de7240536497979901e520750364c954 0xd4a02ae34fd078e7e3ed2f7878dccfe8521f3456197482eaab80722e0f8a9e94 0xa345c5f3c6088ddf23e33c275cd434b48cc7da68527ead885a6c53f74b06991e (-0x1800f410c3ca1ead81bc835b311d2e12eadbf5f7c7b397ce2fcfbbcee0b60ee0) 0xb90bff1c69bbaedbb253245e584afeae5418281ec981a4c8c2fc3e0a6b87c1e (-0x1ca56f0adccda701d586f4bd61f2a024fac92031dd2434c4c185efee3e399d87);
  SAdd true 0x8c9e0082fd3b77b37a6892bb25099c4b0589e6861abc9ca87dc9ee123f435db7 0xf4b3f7717f3d982a1d874316cba3a02c790cca0983ea929b26da1cc784339911 0xbbd6a31e9733bee976332398d465eacea3f7d6d56379878975f1879b6abddb28 (-0x58e7edfe522ce6fc3b1d919b40c400af8aa06b86a38f9b6f7481dc3dc0864df3) 0x4d3d321433e7156e6e38b9b1b497726d77aaef0b99783c962cfb28e884f2339b (-0x119ea0267d1877846fca9663852a6659988418d7dc6dde9f03c980b130ba135f);
  SDbl 0x817e49ae0baf533a9ebdf6c40eadf72ab19ab7a7616b8b02401bb73eef811e8f 0xdbf693e20e11c785a184f8386b49dc2d236fbd044f8d0cef73bc512aa25ba360 0xd2c4ba74c643aa21cee79c22a0fc3c11a9020097461102627cc5b5d5680aa6ca (-0x1ffaf06d1be91ce3728e958c44ec04e1f763e76e9634d805320808487ace63d50) 0x4180848e45cf700327d44125b76db5a8efb9cf61af71512352f8f346d8ff01a1 0xc83a381286312c2708e88ffcca5c9d4e0be2650f336e7f819b5aa464f2a8613;
  SDbl 0xe085544ddea4eb8b87e402666165a9dc98cf53e987e1ef661ed4d82bb83a6f81 0x231c8454dc139350846669b12853c2a69fb708385ebbdf83eab61b9099f9628d 0x8362755945dcbf8c1d98338f63119f5194a384705ddc62bdd0521134c30da3bb (-0xc54b9a0949862a455e2f00db8dc69230aafb9c7be979319442864884df5d1797) 0xc4e998f9bf36be56976cab56442b719237abf34bbddb299de4278aefb7ab8a4c 0xa21f13c609adaba869f2d3998a725f5926232b3900b944cefcdd8a7dffac2332;
  SDbl 0x8d3d7ec603c4b00a1f3e5c751e77797082ce9d18c89d644d5bc27ac50ef17534 0x472eb08d39b82cf891e67e3ea36b9a60373476d761d1897baa64813db75be271 0xc3617235b44a5c5ee22fb0285e2e592bb9b9479809622c4db15aca56ccb0ed2f 0x8287263bb047dc9175cecc35a84c354260fcab757d87540c211bc6f9c3655300 0x4deccc6c1738c6f2940ed62ba4327f0eb620e9cb704382ffc0cd79c759be14fb (-0x13e6ac8c814284528e70ecf8dc80564184eadaef0569662826533faf962840c6);
  SDbl 0x570558097d63f8412daf344d71ebb58a23f82ea31f4bd201760cbc2d6bcfbd18 0x5210db2ba616e84ed5137c332f0b4076704c5006434b87353ea331f888fc5e2f 0x404ae7d365ea3d4a8b369cdb1c8b19ba6c15b98e63939ebb493b64ecf33d21e9 0x49739879f345b6832d9512595bd68104bdf5974b913ce3fcf8976e487c7f42d0 0x1d94a1f31f740125e82beb01daac4710ab8212d6424314998701295e8f37b0d1 (-0x3b316a4d58e09cee3a18ac0da4e2dc89733a93912500091c5647592a5091118);
  SAdd true 0x7cf452305d6bc87b03f3454c1a64fced9e835515d9cd25b8dfec6e8c0747fffc 0x5f6f80cfa186841871057914a9fe0ed98faa5db63ec174824f8a81ea0da2ea5d 0x601aa9bd607f6bbbf5863cb0deafda838a248bf0ec6cdc0626689a605afd9d8a (-0xf46c47308544ecff6d6703b23ba2e5aa6f46281f31f37c8ba79a609ab82d6e9) 0x3cfd98cbde131d756b57ca07264f2c0035a22ecb08ee730927f6698c042bbd43 (-0x6869abc2c4ae90f60c8b1d05d98cfcc688202f3794953b055b2f6a4156f7145);
  SDbl 0x6892176144a9fd95331ad6eb0dbf59963f2a6feae5efc286f61ff5e3151042c1 0xae34eec89bff1769e23676b6b5aaba4c874e1c2186f6c39d3456d6bcf87cc9e8 0xbd7752f9bc60f67b9ead447952e0fc0970eb794b1ea8538920713057b5c7dd01 (-0x1c387c9ffbcd06fa63ac8ae9a64d160a6708e9483fa10e7f8dfa97ff9a1c40bc) 0x2ab7065ddf961597fe17e8abb7a823e4fd59d7e97e7d05bc4056624f003a8921 (-0x202d2877a8bdc67f424f67c5ff00494ea9bce16d80bd1e608cd3158355a727aa);
  SDbl 0xed4f3f1d3f5b31d8a74a4bb9d54941bdaeec8e25549989bf2aa590ee6e9301ea 0x8bf8c100e7dfee42e64e8d4c4906b91d31641f3bf92b307d9337e788bd86ce2 0x1aa7a126aedab5bcf8a3c7a9dc86cd5f6f906b53e65b4c9744e21e182cc3a00 (-0x45fc1ec1ea1cf1a0b545071a13311bd2999dd1b9bd59cb6d00a50c36445a117) 0xdbfbd36506e7307f3d3df101a305fe8245b4d6d06cc5614bd6fbb2ca321256ce 0x9960e469b5df80ebdcc0f656e8ffb6263401ca66fcb2a757a71f815347880985;
  SAdd false 0xf5b118fd8ce81d63f8d9e56b40a284654fcec630d648285d8108ba7efa943fa3 0xb4fe917c7b4d28aac1e411f279630b2834a93ebd69e2973bcc22b81d415e3cfd 0xd1e2ee659f3f250c36ed64b095918a584c296f3f8ab5894791ff71d8ba7bf80f 0x2853fb4bb30689d9dfff4c3f8d5537978ccf2e1e72f9161066fc6ee8fcc37390 0xebcc7459cc8e1b1f20f8d26b037401f525da5f624075d212cad3198700397cdd (-0xa54f7894ab0221012a4da63ae2e2ce2a5257a653e4524c6a92cb85d992b1a7c0);
  SDbl 0x726089e50852a1a8b3794f32afcb7854a90e98f219f622e841ebb2e7393fa995 0xeae62af0af3f8aeef4ff1c39584ec88eb2f35f3bb2388ececdf091ecee3c3356 0xd11bd04881bf9a8658542d9dcaf4fc0316510634ae1103584cc7fc26684f1a7a (-0xc45884933ec63022b225e5311061d76815a9928ad100ee9974dab41b9039d95e) 0x331a1f37e490e4fbb810972fb1d1c7602acf5eb2a7e39c597f2359e82f4c9c97 (-0x181576388dd6f8a3eab60eca93675eff720012c18e89c39449bf903a477ccaaa);
  SDbl 0xcb584c2ab86e5df7b8b1cd562d56bd5a071474954b37110a23bff4c838b9a13 0x9df65528dc87872a51822642c2d0f7957c54c075abe3b1ef2477b980f3c0aad0 0xb4b33d6921210046e090f898321c2b3760072616e8da4caea7eb82400f5607f (-0x271d99a97fa2af26e0fe15df275968ae8d74814b968a2a4055f28721e3c429373) 0xa1852740d60c60cae0261849e06f9b4aa93912a0cc24f834295c42b0dc3413 0x3d1cb7db38230463b391c77f344fa3bfbd0921d83fa357480c375e0cf36bd07;
  SAdd true 0x7cea563b741eeb8eca6dbc2b898e6473f169792346d2104ce9bcbcaa1f79e4e1 0x86f04af2246b85371efd75ca69a704bfeb88b732c4267f8387791f01072917e2 0x4c4a4e8ec4baea58d9c1ca2ea3b85ff22c1d507492fd7268b8d5d99e669dcfd4 (-0x344e2c60d63e73e3ab59670ab7eb70c85608f56dc20642ec6a9569a49836edf6) 0x3cf3da0b972e16980d830286b908c42dfa1fcd3d1cfe748186e5ebbe86e2a9b8 0xb3c003942b21bc00f57809d039339c4101c51edb9403d7f7081502133011525;
  SDbl 0xb024396da05aafe568b3af5891f63ef7e4c9c507324ebb6afcf999614f9d0ef5 0xe0eaaaa7dc90fbdecec7cfd1e125ae298fa996e879edce5c4340286e8dd20300 0x5da44c633b930650a6e61ccee10c377a5e5289071ebb16021320001ba1ad9060 (-0x6c658ce1e628ff1298ffc2da53e09376546b60794b973db9175371e660f7d13f) 0x7931d41769659fcea5e1916bd59fa3ee806927078bd76da9b7efe7300cc27c4b (-0x3de8dd31e9571613a351a44f37d606a34ec92572df2dfcdbd49c689267c9f816);
  SDbl 0xb8c4eaa079690790935106585bb6c55bb41c9e9e3ef50479ce3cb7f024b25903 0xbc46b208c254eaa5e0c17b505b2b8bea5217e8105818fb50433f52eadc495020 0xbf1c6948f3b6b2f4aec06992c3ed98084ec5406d43808c0ab41733535275504b (-0x1c9a6483ef6199d0e2f8bf1752f39d339331dc838f26dcda5259e0a4379d92243) 0x855ba8bf50a64efeb87e92759897de4f9ea347e435db2ab36d6bcedf38ce4017 0x1a7209d1a83aa67469f457bba57434bdd1a6ecbff0b3cf1f2deb6df77998e80b;
  SAdd false 0xd6e0da1453564dc180313a290841a552980a4f86a680ad7b6b1c6e66a53050f7 0x3998ad87dbfd474b88656773ce728abc67b93a3a8ce94aa75738a279cc619028 0x749c771e41ee1b66c0cc29b73284f16cee464a240678bbd395541850b3c07a73 (-0x736b7621e723a748eea735d672e41f25bb3eaf38c912ffa0fed1abefe57bce0d) 0xb45cb2190d0972acbf06de22ce22100d2303a0ac5e21cfdf491e209cffbc06be 0x6db03f5aaeffa66c2fd5bb021cb585ff3b116aad3d803bfcf16d52966b1e1276;
  SDbl 0x7d2ef3fbb68a41905728739a6b9556162fa59a095fb41ec496c45b314527d71c 0x6e03300f71d48d17f4f0dd2b916d0a88c59db0f2ee0422f77f763c0ceb9d2602 0x667165704816a93436df33cdf4ad4ce4022ff36c62ee6c5b9a1f5764523a20d6 0x4b2b89d5ece86c9cb26ce9665929d2ce1daac6185037cd25fa7b91f901a51f95 0x3d36e2e0a47754a117319e7520e010df1cfd2780312a5aec1c2ac0202d183b42 (-0x19a19ed465dd5e665d6f980de328b68a57a416f7409740c1016c36c6ee70eadf);
  SDbl 0x7f9ced3010f24711f8748aad4e22f79a613f0a81b9482eaf92c72c6cd96f3ed6 0x87a11671e1341bfda00ac0f7b70c5f6ed4d808bb4ec5191b1f4e5fb9af14fae2 0x392177e490bb992c12fd2ac457906c86da236bbc9cf163929f7a2f757bf12bc3 (-0x27b21d58ff0b21df4c2d904f56465f3b1ecd36bbaa9011955a6ea4e2f660c5bf) 0x3f9d1387dec425b944bfb04be0b9c6fe4be2315c321cf2d1e9627a652d4eec02 (-0xcc5093f4397bfb527e4c141d7b2613950965e6e51fdfb9c9c372c7c98fa8027);
  SDbl 0x2f6b1195d795d7d505c3f5fed247001b37a447635118dc4a1bb49ca31ea8e342 0xa329d624a685596133db5dcb04166e27e50b90669162eb3f3f3439d116aa466 0x2267866fc59c4f32308e15c9499af11be9a1923195390d90babf3e9e00e130e2 (-0xc267cd435344e587aa1ce2976755934412a29312b96be02d11215167505bd403) 0x8c87d3cc268f815f73e4f32abdfb96514f6f1af7f88192ace0a2855e7367d26 0x173bbe044e66e06c40719fac92147946a84101874333c9a78234c00582d81cad;
  SDbl 0xdc1c826f842736f196288d47dc897fed5ab34092bf0c7d98a1d158284183413 0xc9a59149c227cf8dc33256c43a78c5425d0c30fab87ea80fdadefc17618c784f 0x28a2c43a39e71c765d87d87aea38697109791ce2e8d02f4e9c894aa5ed606c77 0x27a9ea3b1b4addb4e836d6d6ac4e2ba957aff0c428cb1241ec084207677785d 0xbd41035d333ec52c2434c98ae1e13d2e0a3607797c891d152e8a081e3a07b2 (-0xa49c1bba025da705c998e18f17679726d51f6526a7e734934023f9f3e58545c);
  SAdd true 0xe5f7ccb40ae4144e0f4800d6334b72feb77c2221901e129d67161dde2aff92bb 0xee988aa636f79d282a852a87a77412f5771c5b46f28679eb061c1734751c78de 0x12ac0908eecb43e24d5eb8d39adf40bbb013b698cd592855b4e9e786335273da (-0x878936ca7d83d9ad5b84eb3ac6e1f4dc4c63b891acecf07648cb9d3cace8577f) 0xce954417912dc48538b5a5e092414eaf59e3e22f4887574d1e77a3360951915b (-0x21311d0a09031f9e33fd7e556d4fcef4a349083ccfd89cc89c0c9ee4705a293a);
  SDbl 0xde02b54abe11116868307fa6dffcdc95a8054fc35a3ac5e6817bd045353e40a6 0x7ae90829c1901896af7a8af0aa1cdd29ece684f887699578f6d524e124af147f 0x918cef86e7ca31f14ab4ab91fd687acd6875dab0d87af6f6a081e50a62590540 (-0x27abd314aa8831f0de0d1666aca5f8a7eeeedbbc56a01af9bb948f79f69909d2f) 0xc088b275b7bc0b81a3aad4542b0184682644ea3254750d69afd9e3e5f22c9a97 0x64536c7434fdcc9366ee45538456e92c73264ae46237ab601953788e1ba2a380;
  SDbl 0x3941eb99ca12c9ca4cda5324962128148610fb62718587ad6c117ac1363f0ed2 0xca60e46cb8e54f3c3e6b3d22dc2792ac27d8f9b58818d3772712306fc329aa2e 0xfdc28577ac3065515e1f4fe50a2d112b2fc99e3fa7a1491a8f7da34bdb7da271 (-0x6fed1794147a8c81ef624e97c6f29e02959c8f9e49194a85b2256a166e4d5800) 0xcce6be405b71cac3d1ba14db2f1d5cf2887860293e18714fc254fc528502ee8 (-0x11c6269cac677259b09a55b7b3d2368841f43719a2d0e07a4f6515544d59fcc1);
  SDbl 0x3d274ee3dbc14ced49c74e0865163f520a4abebc6b7d9475e1cf9f4487c983ed 0x4828e9ed27aaced39825519de9e15998fcfd36468a099a7c78bd2019e2e4a1f1 0xd1f195e6b222ab9a407be45c143a0111dd059fef5ca77a699969831b8ac38be5 (-0x166ba863283b0857a8b48ef8297c37680e94f4769b19c7b948207d7f126b90a71) 0xe9bc1a1c71279e98cdb412cafba2663f3e66af122842ade16a6dd4d05118ce4 0x1f1b5558a3e399d90a94fee1eacfc57fc586d618271f9da667528463d03c56dd;
  SDbl 0x1f0040b285b8e9171b09734f7f311b45a209f8914acf1a44b26a06c619353a5b 0x5a4f8837c3560fca0eb48a1c2ccf04aaa887646f117f76c52d8a0c218d4a683b 0xd05692cb8378ab94c3a5fdffa3088cb96d5567b891ff41790a375f6a69829381 (-0xa2c31f29355c606762b043d2e6badb7a1e51936bb5ee8a5b959676aca102a2e) 0x3c10fab507d977998933acf13b6fa42cdc66bba3516b775c01a531a56184fc4 (-0x232b1c15af451ef92952d3d1cbb1e7efaa142359e736e8950d2297a234da04c);
  SDbl 0x3b2862be0b49060775dbf8c5aa136ecaf5674d05e0e30cb97560f0cceb1ba108 0x97abcd2479154c64d3db69963ecf5749b7ebc3a3d53510f4fd0bd1ad502d2160 0xefbfbf8b5865ab136aef0e8c3a46ae7938480cb4d5ea26675139a7bba604bae2 0xb595f9997133986bdc655461de2b51b15a84c4c41a5ac0289399a776bc7eb8 0xdaba3e2a858e134a4831f45f0304e9c47b2cd5791aaefbfe83c88905dc6e196 (-0xe2df1f8409fa7cb441304a4d10dd575711656c5e78aa81a3881ff90c50ba375);
  SAdd false 0xd4d2ad81c895b725415890483d445c8919eaad2d762f43ad660ccb9a13cb7b87 0x2df7d8c2f7d0297d9e59e17f74759c55436f66a1bdc365b8251f40f805e0babc 0xa39a633641d51353fd06b567a4b0faa60b5c324f3d7af1fcc1ea9422bda442b0 (-0x53e26fa0bd94c763712a401d90dea1b91a62090821e40e8af729dfb3618323d4) 0xb0ed9cc0c3ab549d0e9a6c77e359f0e0518cea774d9e7a26e29cc9af5ba54fb2 0x57e003a3c18fc1082763482506ebe52f267ff0bc9826d509e88d70b5f0021116;
  SDbl 0xba4a206342c0cfebf3e13650da870089d81f8d2be4c7202ddd7ffcbdc8f16c52 0x65e602ee92b7fcc438f68e3f3cfce7e76827ca89fded33e1c3a8bff0ef9bf167 0x6122a07bbdc7452d8bb3a2a94ad7898961a2a02a69d5d4ec67fa70387c81bb6d 0xd557e058df3efdb23da0473e4a1c4e01440e49c3a82405c62be424db56c1f56d 0x878fcc87820b894f7b5b945581f7b007ebde8fec5263223c6115c3dfbb241c9b (-0x28b33c8f7ccfbc39bd43fb800f784bd8ac9c581de1b1ff6076b4511bddd75b1d);
  SDbl 0xc8c396e553bd733614a4ad8775f9e6f49d86ec56ec7a2f7e46bb30da30fed20e 0x2ed3c5c0e69d75bdabc08d0b38192aafc7361d7b371a136584ac34e6b03223fd 0xabefc2114da4dee4259277b84d0d38abbfe73d87707347260eec53ea520cfd8b 0x1eaca11801cf3921de438e68a7d0205b8084a1975f316a0d896fdcc6571bf264 0x9d7231362a9953691e95f947705a451c2672391e760a23ea79662885cf470e07 0x2b305326789c4ca0bd0e9c68836e8c7fcdd644a885d8f6e61bef33ccdd18892c;
  SAdd false 0x8f316a4fa65b90aaa289844cd11cc33e3c28581beacb8528b6adc953763d0802 0xe2ab9e7bdad265e34de549b6e88c53aa1e5f1146c9516d7d0b01e0f36f322ca3 0x41d2d4299cb9bf3aba8ab7d8b181897a6d9486704ee6ed52130daa51d28f2f81 0x23454935d6b2cb5d65eb8fb458d64f4ac5ffd88eb7942f065b319d257dc2040 0x50183e4f2a96478719e99a4139395be7082bee407e7cdcc59d91b428a97ca563 (-0x64984910a3022e0b75cbd7dffdc1b5e023914e68410af1e174eb98e1c99091a8);
  SDbl 0x20bbf23dd2d2ed107bed80600216b761e8ee062615ec20b606039a17a4aeeee4 0x441a2c823ec438b15a817b6a1550255d651406f0eb330ca80885308cd5b336b5 0x70ce6a183ce263c3ab285f2270eed83f7317461f25e460d3910af75639c2504b (-0x249450902e7164ad548d7f1e5feb9c30b58467d141794ed6fa11f53fab25f2a70) 0x42f868b446f337aa7d67f6d20686af30f8750f79f358cbf5c671bddf73ad4eb 0x144698895219702f474088907bd1c54cca4a4f85dba7bb2f40d73559aed733d4;
  SDbl 0xced6ece149ba3bf260f681b5823f6ca02a2ec9211eacd1e06fad44790922f7ac 0xed4f5bb670cb0909aee382787231b4da7c1d52a1996a3508fb56d58099b89507 0x4580a54446361f14553934c7a460fc64135b40b459163d8ef8b82ce13ecfaee0 0x7fefdda53740f7651b7994f91eaa92539093e2cc061889602a46c5e90e73f520 0xa71e99ac1d9dbbb478049115c71a298021225eb11b167e1beef43bd173d1a6e1 (-0x88b6db03ee98061510d2cee72f5333ff80c7c2e732179ebb31f540163ced83bd);
  SDbl 0x6191439476f05f80ddaa26e36f712d0250ea4cf22493c8d1f0486d649c732e4d 0xe29b1ced819b13807323ffb79518c729bb4b55dcc3b57c5ec479f2ccca013e6 0xc64811b15f1f70877f14b14ea26ee56b8ce74cd10b01aef6e1c9af3477e5c901 (-0x25ef9bb940f7d845af070aeb2329eff442dffed021703a265aa44601fbc944030) 0x252f67a4475758abae7bbfa97545258d93c1d064e80c8689c89ef7c586837acb 0x550be49e96ff4d11cd66b58ae0d7e538517628f8ec7e39b550b5e770814fb2f4;
  SDbl 0x27a8fcb296da29dd5ad34c513ff973eacd81023fd9568a004ca0fd290f960161 0x8172c95668e3a91a9fe7318bf398836cb55a2e659d3e01744165c985dc9ac419 0x3fc0d78bbcdfab6592fb8cb5f42a2d8e4a7bc28121fb1155ead664a6489fddb6 0x3b15f8b6d96f7bd336ec76a9812adb32801d32b24fd0638330c132c400438327 0x624ec8b13f179371ad775690d5678dda0134b82c84a666c4afbf0be7a2d0524 (-0x11dc3c5989cce75314429c15745b8d613fc9a4310deb5112397fdaf4fbeb62f6);
  SDbl 0x7e6b8a3e58a172d68a9c94b8ae8eb5fd2b315737193ce5d636cd731dc2e1e105 0x3e70701a49b24042c5ef11a4bcb55137fcff102b3d5397f20295bdc094941521 0x5c406a95c151c4942d90fc612eff4de87fb0711ef54e8d8ad6187a09e8f01df5 (-0x856742e6e1c62121ef0ede39f2b401a03581cebe36e33dd2a8d5c6aef705b5cc) 0x3e6e094278725400c4eea76bfbfdf9f54311bd375ed11e7b5bacb7516935d33a 0x21174e169a71bfedd7f1f2d738fab513b02c0e03ec54aae73d99a6f831ae98d3;
  SAdd false 0x68ac63adb166e9df8df3bbac8516ca200a4de6636383f61682ab588d5ae50e38 0x8de05bc950f22fa0ecf8b9784be975d6b4aba762d50b27141f2b7f60b968c772 0x43878e0b5bf6ad03f2564fb7bb5bf7689fb1b8654434cc28eeb9348e4a2afebe (-0x4c5a2ba693fe99dfabad11638e381b31b2c7c5e176ba7b5cdf4e47bc3380ee6) 0x2acc85136326527223cd9329346edf7abf78f1e605485164f9ed7e08b04f251a (-0x207af5dfc2d914469d8a5ffcd121f3e0dbe56177a34e3d5ea4146ccb20287395);
  SDbl 0x32cf6a73755036849ad29fd911a23e391202f008f53f3e69de86de325b761384 0x82735258d720c1db02e77f478fee54880543bb47bd01915f2886e41cee67793f 0xeeae43053d40d470edcf7ef19d03d8dbad4def7524b5c262551ce4fe9f9d0700 (-0xd1145c590c9d929d87613e1d76b02c80619c47c4639c7ad7950f66c485479ba7) 0xa15ada276e48bdf76ca693f9c552d4fef047131c1a82f5464082af88a0c2c13 0x2448dc2e9222f550a5c720473e76ff3cd2f646d5439b79c4443792af7cbea72;
  SDbl 0x5daee7c1365f593c2e0d61e8046fe8256f40d8fc6af20019b79994b34241188a 0xde62eedd8e34d0092720b5e3ba6f3cb0381246ea1f53b26e1e874a79439d78a6 0xe1e3cc9e1788a24217c1b8b2e5f61d8f7c6a369ceb2f81fa591dd0feddeb72a4 (-0x18bb39045c65c6f968b232927d4c07b49102df12a6ceaddc0da688a74a3fb380) 0x22488be2603dfe4881ddd69e808e3ea964aab8691e5845f2d21390827ffe40c0 (-0x21a4dbf353c31ef7d72db4ce694059ecd03f7f574594b720ce93c4ac1c4330d6);
  SAdd false 0xfeece1a83566d84f7f85eaf2d83aec85b8f92b65332868f42f59a90a6f3d2d 0x944abeb38cd13766336768c3bb27f40b7d5cb7b765feab82ec34cb30bc4481c4 0xfa0d6757fd4a4c5fbbb68d36ce3e58b9b30698770c88a3f8613ca2348045edf0 (-0xaae5d15b35387367212573fca9c6280617bd6e296a5d477a669f4f6f4a9212) 0xfddaeafb9cde923d1adad4c2f75eff7581c7a477c0341dbb6aab9389f548 0x49c88f664f8bf5a974231f09613380efba39dfd0247b5530bc14c980bc20da;
  SDbl 0x38ba837290f3dd2c789ccec2ca16478a290ef2f087c674369482fd7f7a332644 0x2761c38686a8f3d72f0e0328ab103bb6d1b92d128a9e1d03007e054f5364646e 0xa5312f2d41179516652ea40af153b8724326e8b254fb37e8be4775fcd0ebc059 (-0x92e14d7d9b6026a2db849dafbc63e5064f8277dc373521e6544361773fb44d53) 0xc92216571f5e8254af986a286e7a0e1cb8c6e80667e5e09c9207187b71d25e6 0x18225024662448e7e8e5b8f23d4c34105d15bc8cb4a92a4267dcd4755d2d1f71;
  SDbl 0xb06131cdf390d579794505222b4d08cf2d2925cff6fbe9681c35b613702f8c8 0x446a7f38ae01c652631a5f3644fe19ba524942a4816eb16ca93f131b22c5af2a 0x18e5ebf11206617cd629d019e0b0d2b6edd279183f1169033dee8030dab6786f (-0x3f2bbb39552876a00a6a75a6da22e602bfae874fa1e731dd2fa3070a06a9d47) 0x7985c962702fff98ac677923a73c55c364f58b3cf7cd91409a1f3b04aa5bc6 (-0x140106ffb51a1ed76697d0c85c4231c7551a24e98d78d0e6fd226a5167d4458);
  SAdd false 0x43fc24fd1d8f79ccd6baff022716ef69c29d2317a3577904bbcf186196e0c2d6 0x4fa81969b9c3806d63dcf3a7163b2e35219bdbd65d475a46d94dcc15dfd08a84 0x532e50aae415a0415e7a8c25ce26a69bc56c84bde034db69714e3061c8fe6626 (-0x4afc77cdac2487481082e5ff0e235b9d69ac02ef0aef135204949d1d5ba944e) 0x120df3b567316a823620396a1d995eb59cd0376690fc8ad8660b34e5e319a391 (-0x2fc319e6834076054bcb258877cafda35bd01b581a1c58974a95770703d902f);
  SDbl 0xc119fa68520145b6da53413c8feba612285e205e6a177ad7bcf52c6b07b0a1a 0x1de91f1d1ed624afda61a400bfc6930ce7b4bc7e484d9b86d7c27e60d26128de 0x85c371907272cc8e6e893ae0aa2d2ce40c0978439d62499570e22aa5d7b713f9 (-0x4283bebba17872adaeb3ef710f712b8b1babea7e48cab74ece3e84b10fd3fb8b) 0x91a82e34ba9e083f44fccc861528a1fe6dce3ae36d2a3eeddc654e1ca03342 0x258607031dc2043d3984cedc831e3dcb33f5053c6bd34d8b120aa13ded31343;
  SDbl 0x2da803256ddd09fc006dc7a2bf388bc3015e3b8f2451e8f839b0ca3983aa974f 0x9efe102bd407eb373bcfcce8963e77fef03919a02a87815ed60c033c3c9f11ea 0x8e8cc8942bd0922bfc29593ad58864f61b57f8d22fd7678fd4207cada4aba94b 0x253a59b8edb06aa1f76fb908af1427ee3ad5b09e98b5b5259f0481f62b044fdb 0x8247f5f51ee4d0b241c3985e934840a573f60a2e3f1a5fb2e78ea47b9071945 (-0x170565b3fcc570440169cc62184eb5ca61626e6a1d2e94abfdf1564250144408);
  SDbl 0x9779219a1f620206bd730149a089e7c5ee54a75d89fb4e25ef6da5d9fc644dca 0xa1098177ed77410b4acffd60af71e0ce70d63dd55fbac7942c4fe62a51128c9a 0xd031637d224bb42a27333c66b6fac0cfd01a3ee1b666d84ec4b10a1233a49c02 (-0x7f8acd2ebce6a9978bc945edb21c1798dfe3770e28a689d5ed6902de378f8ab3) 0x59a01ef4f2c080dfdae65212b1a44d54086fe19d72ced357473c07bc3cdd8d0a (-0x135b78125eb8aed2dea8be5b0225581c2e71a7b7d7015e19853b42c1be9fbd3);
  SAdd false 0x953b3bffd03a4cc648a8d398ed65438b8d181ba4abeb5091d22c9053af4cf9c1 0x94ccb8da51f60d59c3cf4e0b37223946641da0b444a3b27a81b7ff5e5079e42c 0x6be4371bf9358092e7caf1b005e423f953037aa8ef74ada54b6fd67a8bd3956d (-0x404792b01eceac6ca230c3175f2dd8eac884af4c8185f6b5d511c308e5b65b90) 0x56fe018cd55bc366663cea139be1d887e7cb786405fe0e91e41cc350b897e20c 0x72235a43bb393c72de6d2b2f0db9b710975c1f1ade4b4207c02700c9de63881;
  SDbl 0x1eae70f8b14afad9ec929f4ba8271b379378cc8332b969b1c548802753492ec1 0xff669d86523e688152b4a55e0b420766c4c38e263959d974663b6a095529c094 0x8ba3b9dbfa1ff9da41d0a41b71806541a5ce572b5edd3e6ab1f1c7f8743667a (-0xe99b85fcd1ed3e0b5ee3f6c8a8f8e8bc440812aeac537e12f4a204edce0143ad) 0x3ad595811267ac9bc63e981ff0a5f6009504ad7d92f0c7f68f5a0bb1d819b6b (-0xcc6ac7084abbf19187732f89612ac3f0ec488a522cc25419daaf8cc391129b1);
  SDbl 0xac8526d3a1ad65434394d100624efe3b06ec6149123687d8598788f254c576e4 0xbdf30e3d7d1b883bcbc12a49ea45717e15081d491ec1d3530c29a647ba171ac2 0x75b19f884ccb78f31b9a00eca1f0940bf70c7f88fce5d0329cc79a6e16bbc623 (-0x2f0a57099ccf3261ad796ebaffa6fd5abc8b077fd58c353cd28d18a32417800a3) 0x7443316e334db29f320257db15d7f264e6fe8c50632af9f1bc6f44f4924ba0da 0x2c1baf3bceffc3cc4f2420d5502e18930a2af38f23778b7cc1845cbe665ab195;
  SDbl 0x9de9eecb02dc8487ecafb5b7e8bfba12fa4948de4bfb9fb9d47c101c42c497e2 0x110de89bd5fd2941c3713295b8e7f7b9a7ffed6068ec471d5c954e9f88630ee6 0xc36e3409d536994ae7d037cd5fe4ece8816932ddc8cb29671e88556b125b575c (-0x1159f66cf0f1ee51c7ccf0ff4716c9ed16dc7c789daefd48275dbd4cfebe72ec3) 0x6168c4a9ef348ef17720075c15db061f94b7ae72cde0b88cc2912c758864e0e6 0x6aa685e9f2e51a150b43711845560132bf6fc75f564b403a2210d31448b5e147;
  SDbl 0xec6076896c531d6e226c1b786f714bb2fe67d55509ee28e19d34345fba833f3e 0x78bc1b53445f49c868e4b9e1a0da6197fb5a2447ac1ea06da71acf19b4d92b03 0xd697f577d7e185b57418c42f735e2d68cc91f35bd87b4865e3a495321ac7c1a 0x1657deaa3867c99e07c9b35c24dc5bb780118e011e950fbc8329461fbc2e04b59 0xda41fee757ef752237eddc4a669a6eee70d65b48d46291025c185124e48bb5cb (-0x5fbba81671c05ab53cda0c498bd1a457480a28b6cafea40d1d094f19819b3a84);
  SDbl 0x3b9f5c05e36d1030ce14d969ae2dbbe0e0a1108f8ddf748032120d9d184af519 0x1694ef3fa5b544c77afcb75fe2b268487e8e3db18f39c58d6e91cd3acf800da8 0x8762546c60e70941f97259742d7c6d28cf6f7337d32a62b68880ed88fcca6e37 (-0xa493582050843b2dcd2dfe6559d8faabd7ce296cc866e5a85ae803acd951fafc) 0xde2d79e351bda27e0a9c379095c4296d6d83baac69cc57f16201cdcec15873d 0x16dc20c5526a51e52b194e65efe66555a74cd2e9cf68fe0ace1670476b5cf56e;
  SAdd false 0x4dfbb6bac015ca4259b9b66f1fa34640f53f1c717c2c5f5e265d6b6405c48c0f 0xac344abddd53ef3e89ad150d3d4ab84e0fade8f8685c5bd346e4482aa0c5286e 0xf91eb9895c3b396895da118d1ebfa714737fe9e818f39e3ea73bef4fff792c11 0x896135bdc874a4617937ddc2b3a3d3400814722219522d289e950c7b1e0a257 0x17c1636c43f13b2d7767d654d4e14423e1bcc913851423f1212720d749f941fc (-0x2d940c904a27c48e2390667c3ce6330fb48a9c74644c76497a62fee198738c1e);
  SDbl 0xd2a911418ffa42444eaf1651190c443d71fa1f016cb30ad10985ae3b9ca2aa1e 0x2635d500e8600afa426716f9ff3c10fbd26050e962cb6277e82132fb2c9c3b76 0xbd693a6b1d56ca053a40ebd63bbf6eeb8d38344d17d5d0d5a50446da7c46791e 0x3e7c8733828844c94c9843f8034cce1db9fd731d2a249b0b0719c676f29ac5cd 0xad59cff8074a4305416daa9ec9f18afa6870a7f7f4456626e4abeacc1f22b0ce 0x6e433a995fba930c59d72545fbc36140833e9b8c8b1fce40e72a98029ca7301f;
  SDbl 0x97cc39693c58763f31cc1e4dc6746aa512d670fa08ee40c226bed6fbdbfe84a0 0x19e78ad6d20a594f16bcced0b8605ea573d23383ea41143233f6c06e691c2ce8 0x697439b9e1b4f31091a0adc17d25f05b075c356e5dbd1995d089c9e1ca224741 0xcf8443ea62b3890bac096633489144258dd002e467424755eb89965d905879a9 0x5a028ea60bcb1f4300b40255ed1d5be645febe5a5eb1edb2fed820af901f3fd4 0x74bfee47188bb30b5f2292aa431215e0158a4637ae6cd3748f0653823fa6f9f;
  SDbl 0xc5167d0f951011a5835393f383a12ee24eed1c106a07aa578f81faa2c115b47f 0xa38dab0443b64c490798b8a9a2634cc44630bb219c1f2c6f5788d94ea95f5e9c 0x54122cedbd6ac09acfe0cc11c8ef36370b1cd5dc7a3c94891a04c36f6028eddf 0x9a82483d829e3b647e8c8fa14316f0c7c6f9189ef482ca4e0f5258560b019c3f 0x97bb9e744eec30e49366ce28ace5c0397a5c8695d595bbcf9fd62170e17ee16b (-0x69f8ee48a4f26ccdf85085cad6b7ead8366024354538bdeabade445beda89294);
  SAdd false 0xde419999f0fe1bf3ff90a3f8fe9cebd1016100fbce8b80b5e9fbd0d3241353c4 0x4446ad80994c6ccf46c256385a27e568b5edc4d9e1b50330817b38f822b1be24 0xde4aba1f8a04d3a030fe2fa33544d99c5b4279e9d45c8e2fc4bf570d1d74373c (-0x61eb31f7f5f521d0aab57f4b80340fc42bb797c61c07090b3aa49705aa48c86c) 0xc0f5d7371b444f5e2c6f74fca3c84092b98fa75b871af6ab5af651b354dce377 0x52b7fa09979063c34f2e009257f542d6c082582661dbc602ded81e374cbf613b;
  SDbl 0x18f43b46d8cee11ae8fdab2c1db01e17a8ef94b0cdef8c2751c8694f105592a5 0x4eae05839f372989072d20b93f758e9e12fc6fd935fa4fdb8a13e998510d114f 0xf1464eadf942a6327d08459ab52caa5b5afbc71fb8532f2150623e0b30c8306c (-0xb4ab6c4d62f7fec8b8163a76a050bc4f32248dbb79fc4541c8b0a9e93a3442b) 0x26eb41e57dc843b235b7d0a831065b3b596c410d6837ee1b913b0c340ddef3e (-0x1039d28decda0582d4fd4bc8c2db3391f982aaedce0dec74bc0d26f6e3177a1);
  SDbl 0xb1feab106ce86f7c4d492143cbc7bf43143cd507d4666d43c0e1ce05c7a0694 0xbbc76b63afafbe585bfa0262b4ebadaa4ca3607a6f0fb59a7d05518ddf5118c0 0x813aeedb78f5f463f852e798b9fb9ebed1006232646d2029f9d17387d1f7b21a (-0x339350cb1653256fe9dd82eec6da84aae8ba93b9b85eb4342dba1d894d1849c0) 0x7bc225e519429fd8871e0cdac8142e69457ff5d7c64cb4d09952d9dc2ff5ce (-0x4bdb178a429b9c94ab4e4c471643d9028c79494eb824ae5ff215528fde52a26);
  SDbl 0x253f8a61a560ec0cfc1be10c7b657d8ec31f25e4ea5e6405392d6b98f8509d49 0x1fa1f12404c07086fafd2d5eb573e0d2d037780900856768df6ae398347041a 0xf7197f9f13c6411a83c607ac0334e78bddf7c97068cd9be44193ca4c86e2a608 (-0x1779ba6f1a590af0fa3cbbdb034d8482422cd5cc168acd351b11d66d3bc49c6d7) 0x56b6dc5a6164340d2215ea6ee1467e3cf46e57ace96be3d86453a8523a696c9 0x1b08c9fd3222186c9bd786604acb8c90deb270bc30e86d06debbc29ca770a6cc;
  SDbl 0x18f0e7c6a10c79252042e31b60ec696176be88b9720b460c044c3e78d27cf7a8 0x798bd3eef65951f7acde41cda1235187705502dfe25a67e98af4d8611d420e83 0xc8d9924639768d8615099a8931f4f120a690798326d1db469ec27a92e114c0c5 0x301a1d503cfa378785f707932eae7350a63d241d9a363da97e078c3d49d91d69 0x26e0e28a6e66d04c9cc8ba6a40497c26178a235c2bed4a2d0f36403a97a7877 (-0xba62dcf8bbf9a6f851ef48ec42349aa045b0f6043335f68415508372762754b);
  SDbl 0xc63cb59ceb6a2a96ee3ae9b0b469a986a2f7f947c69138d9a0b2978b53b4982b 0x7ee8403f958c9ae4060da1a25e59f380980003a2b2565c47348f2d20d69fa327 0xa009cc3a6d416d51ce74beda0bab5f7dcc53c7260665239d9d293b7ffac54574 0x89ef611471aa17141032b0fa80164e515b9867d9c7bc67978b8af8146a3112ea 0x9981f754f80fd00e496c083337080b6b8db3d6e43fb93e3be1ae4b1ed838a8f4 (-0x426c13d6402cdf0bca1bd4fbe61dcdea9ec49725ab6577e326a199fc1dca23b);
  SDbl 0xb5a57b4d27b0cd6c62982841e7fd3e4dde82dcb1df3a593c3dac5d00367f4677 0x631fbc9f2f54beec984a0d082c4950d0e620f1476445b216026e36c488762bfa 0x7ceb8e2f1135ad8294fb8d85da4a6fa6c1e873fca6dbc38bc5fdd955d3e450a5 0x26606bbc9a34dbae447769ba86a62f9ddb4be4e9fa1f647e2a55b90cf4cc0df8 0x80e36b53c7dbd31ca4e726d162088b372d673e404e91c19f80d82a05043e26f7 0x13b6baaf093a7fc498579a4d31e995a1bdcdeba81dfae53f86a873d88579e22e;
  SDbl 0xec9424ef7128e10d766cfa910ef69be225a97e32cc549ad1cc385b637e4268f0 0xb5fe94f8147d10bd6f5e099eef7c8cbbfe7fa9af3dc1050810cbce92188bc66f 0x810902f281c3fa48434a6f1b9eeff28d62621841d1bc8cb27caf1b4c4c81e99e 0x73be331887bc0a7bbd2f1e1d48a179f433412bddde31f962e3c4d071c7608b09 0xdaa179d50d73e7d21302e17600e16735aaf395d18f6f97fc906b01f4a2b43d63 (-0x4c95643c2c551f5ade555b2a5a9e37c581d69cfa3f2b442884251e479c6f700d);
  SAdd false 0x9b484b5c0afbd48f7d0fb54fcff4e58370b51dcd4fa7f1782622b1f89100534 0x4d552da5530f1ff79bccdc073a029537610baf3d0f052339c9dba797b82500be 0x4926d36fba9f9f899940f850828cccd6e5361d702f31d761039786f406e6473d (-0x4f991da7db97758fb448812febb14aed82ac091a7bf0b4a99e1f9e89dc6fc1f) 0x5e309fac4d72d041139fad648580b8d0801d6f125704b4a32eda88b5622964 0x3f7c2003ac840b28615143c86111eb9e1143cd5b885aead7a1621dba89b93e7;
  SDbl 0xce8e83aa8db13b37a0b068ddac228260011775f94da3f96dd72ce15b0bc32ba7 0x291fd10cff891376d2f46532137ab1e660763b7aad385ac0a5b7b4afd09b075 0x126011061e5bfe2e2e0f4a21db11af9341d86647a83720b6ca1ef5facf68069e 0x2ff6e1336186a5252aa43c9ee6537342a235d16d2ae6fa9c2d2db6aae3783773 0xa6a9ab3d77a015cc905c8c89d48e68d5db3b0ded6d1ee371aaa3d9348b782b00 0x3c52afd0610b12e76b201cc623106b4165b1952edac0333aaf5a4e3ee665ab3c;
  SDbl 0xcd1757056735ab2a48626f0ccf660f84bf415ec47251bddbbab059d8aab2afcc 0x77d0eb62d8180eea5084b4729ce21eb3031bdaaab7874b050b2cc02b6354baa 0xd0fb367d9a1c747beb82aebe5a38c5e68beca4e2a851acfe870b1c66b071c67e 0x1d5d63664bd8dfe0053f51f88a9afd7a6e12d8e8859d71cad8153efd9902b098 0xa44e63800c278f8a31b9deeabdb6556139b94c6b7b1ce7cd7f537424cfe02204 (-0x3f0afec0344e641a63477c4f32f3bc46050e11d6b2b55aa342dec87057349a8);
  SDbl 0xf426872189aff53b8b533c66f7a5962be8ec60b0a77870d55667e90724ebd43a 0x267652ea7885e9510f8fc43314722d24b811e04537fa5bd97d3b479389b6d519 0x60c4f50ae20842e9c45a88b773e662fc93cfc836d9b8f5c3e428738ed1695a20 0x18df58b64de545a8cd14400a2e85acc4b47c0fc440d9167868962b9a428a08591 0xe8d977653c9a26b7e9ee0248c32ff26b28f2f3245172823b0d6a837d53b54f49 (-0x1d8a3e5b968fa25f3fcabe7a25d62cc980ce8b8a55abea7f679259cd8816d03c);
  SDbl 0xfa4f5721c5c357cdfedda0bbd5a7c72ca1dfdc35df76fa56a46f89a6d4e66dcb 0x230179e13f4dc42a096864615a5e5a333801c42e8ce09fcd9aa1b964fe037aea 0xba07e1bb90a79bab0af27247e73f440a463b8644b011d7d59af811e52daed94a 0xabe6a41e1c8fefe10dfd79cd98630708cd65947db0ba725e867a97349377a690 0xf4bf0ec5cf809db3b13da8f4070b5b2a044d85f9fa8de428d9a62a066196a623 0x3612e2f299855a21a56630cf814afd5af9521c4d9e9c8dc5c6049c3e83fad25;
  SDbl 0x2c276c1a57812a24a6b9ee2b8527c40eb92941f6d1b4e6abfec691369b8cea79 0xefe3f83deef450687d81715376b224d16b2b558526ce8cc6d78dfc7ac19a4823 0x79dc986b6c24dbf7e33e9863e94be786f31f09280e628c6b7779113790194af4 0x31cfcb1b12a349a04dc9745223310403a3bb9477391b728564a2548f440ae9b5 0x79d933b335edf9d838e1e123281e7fd8788e5a38dd9cc639e1180b8ec87d0c6 (-0x23567abdf3fe2589d1f57d91800a77c7ceaba29ca18e808b5b1b6b123a2ec1d1);
  SDbl 0x9c21157b0dcbeb2be7147d27eb90d2de9788626b5359a2c8c8faed7cdb341160 0x804ccb015caf0ad1ade6b977565faf07af5e91a5925e3a66e21c9a0d9b09e0db 0x76db8902f55121cec838f2133dcd21126526f7349961aea45b349a952c9d557d (-0x20dbe047df64e98d229650dba978ae9929e8ce6501254a85487ef8a606cbd80a8) 0x5f385674e38fd70ebdc9eb4a5888299db8d837fc2745537a2369ddb1ce108d21 0x440e8b6b0c5be18abd67c81c6d1082326bffe0e4d0d3c775689676bf1d141d71;
  SAdd true 0x9f67c370a41bac38ac84eb651f813e31179e567107a6368d30fae59348182651 0x529d6473ec6be979aa3d6e81d7535389bef5a03f107f8af543dc0bf6e80be5 0xf5034a08979edd2fd2ffa2ef20339340e414719265bfab23def492263f2e375a (-0x3046f6dd06893dc104fd3ab4013d492763cf07a7280e55e359bb0ec158893a89) 0x63420ed528f5489a4ea5b8072eec89c46e056c579dc3ef3efdf038c800523be6 0x4fb041b0fe9f5d56faf58272a35d731ea0d98a17f11caf0f3be69186506aa701;
  SDbl 0xbd399d202c31dc09bf0a491b21a6aac979a92d284df5b95713a6e14c4b9734f3 0xc4b127ddf770b5b80504e757aadca30e4b016ef22eaa16bb90a0982e8822fd9c 0x7687c017bce81da1e1f945207a94e0a939be3015f174bf95770f47a26cc5ec6a 0x16a34d39110c6a5bce1d299adb4cdda853938e5d4552079e63be487f44272cbac 0x8bde1ef965e3e654024c4cf652d65b34b03c72928443abd2fad7c7a8925576bd (-0x9125fdcfc4f144485f57c19423c88436ecc834fe693d7708043303fe500e3f87);
  SDbl 0x1137d8e9e17b94258a729cebd1a2423b18b1e53d2d800ae5c3c7dff7500d0d1c 0x54e402fc54b20a2280b94fc83af38e872951ba6f73221dbdf63497dae3314fd8 0xcbe026dedbe992166f293f3850de2ec93fd7a496717276381afdfd8c18445ff8 (-0x1b56d80387a311d265185a6ca88ff0976e098fab730aab657544f0811de095603) 0x12876fdfd6545f165777811413e9f2a1f979ab003a6f477bedf8b541df37000 0x78503412b1bdbf8fd36d0ddec8f7f745fd21667d7f443a3ff85b1f921d456f2;
  SAdd false 0x52e834b8f899ffc1bd3de03974eb014654410f32bf88e1e4f9d9fdf078feb8c7 0x28466cdd63e4339eb645b644f84146be9dcffc4fcad2a110d9ff8d95572ab2d0 0xcc10334bc78241e03fae789834fcb206c72a3cecede4fb40f895889a6f70b7de (-0xb0cfc969dca8c3ba8d4c73820e18ad298cd54be28075d1da80683d3ae45ce62) 0x1ad99466343a7e02bf4e395a3621fa3a9d02d22e08d7d2a3522cd52bad65ccbe 0xe72f21642b4caad3299b0f053e96e214a77006acd8b27c1892665c65fc3469e;
  SDbl 0xef5fb6cfae3b7f342fd90e1c9f6dfd52bd32aa32030ef60502adf0e2e2a48b0c 0x460a489e1716dc2e0333a0ab043a6c68849962b6ccfc265d1bc34ba5893a0567 0x8ed01e5272da5f9699c326d261a268816a0f5812b0260c73792ffb3d9b13e6f4 0x16a9c97126886fef3d1341131c55eb080edfcf3a846e967e0f162c3d334c56a2d 0xdfd3db21d7d637058593dba443e502993bade6e6637735e439a7765c94a96277 (-0x1bd4fb18f37f80c50dde80bf20619ae990011a58faaa43bf9549b62f142f851a);
  SDbl 0xb485b6e8c69aa7f3ac76e9be13bef8c1040a6e321935437867b0e73e4104b71f 0x520a685febe62ea4ae751289b0ae6b4cd52ca57960db0bf9f850a47abd467851 0x203bfd532dc278ae9359c7436533b2d255f7976b0fc0c1b600960f1827d5fa18 0x8fecfa97044b3ee9042c7bee30e7c8cbced662aa58e6caae61dd5064efb8c738 0x7f4c4f0f6723f5fd0e0ede5c535920c8cf8c36aaa4b004b161f131add5c52d5e (-0x8765af7d1cb9e1fe07d5225dc5fa3760d1ad1744f080ef4437ad798d3c6ee9e);
  SDbl 0xe4aba1754669822f92cf997f3e3bc6a3f99af0507b12c856b5acf77299793494 0x74b79a1927fb8354ef363c1bab2792b543b8b3c5eae4a8adc5848d190d6d3643 0x9ccc6a60a246dd42cd256e63f619c1100f32b8371d2c73df54b1ab07a28c76f0 (-0x1549edd3d0f8bd5c48685d32aebb6e0288da13a2a59854e30bd8fbef3b2acee0) 0xcc422aaaca2ee3cd98cd8362b1fdcbd7cce1d7c2f347e7d9d7db5002e145b155 (-0x1ef97fd81e2e803af9eee82d37fa847e34b6ab79a04bccd5219d847897409710);
  SDbl 0xca8a802bde3bb061656f75bd7bf93e0696bf57fe71a7402ae640b98b74460ad8 0xe16e84b77244f0e6fbf36f1444ec148bae926564edf24407509ad75f087c1b6a 0x4e32c7963194f8bebda90dea3028e0ff2a2afd1b22ec97716ded0407520499f1 0x58778b4845263cd81ea1e2a3fbe40388c8f12d8a41bd35d3819a98c05a178b98 0xa03edd344a6c8da840dc099d745233f3cdfc720655221fac9b186e0374c0f1b0 (-0x56032629cc5da873c0da436de92e79374acb8dd43516ebbc9656e9014d401037);
  SDbl 0xdb9c68c2c516141053bf98d13187094ba1ac253d493b01457aba3840e4f05b5 0xf76d71b2d63763117c6f6f79a51da6eb611e4ae689c97ec3eadb069d0718003f 0xdb24119f80672160fac6f1a97163f9501ad31280a4c5b526c48b65e514f945e6 (-0x24b27b80ebfa45c5d34d1243d42cf377c2038c58af15f67a3e9a19a1bf2648121) 0xbc64facdd1d7c85b728652e6cc0b22ef0c742c5541a5da82b397aec639a51a (-0x12de8513d6f49d9724097f4534e23c54202edfbc7025a98bccf43d245962c90);
  SDbl 0x8988c68d2b5aceb840fd9d15af74e0f3fced8cfb56ca5a11d5ad634a89ece3bb 0x3b73e4f7a5951d2ab44eee1d5de46c8e12cf1789569862760d27faa38c9bd13a 0xcb48423832a27f6003d09d96d7f8fb8218c7735ce86dc65c18de11c023e430c8 (-0x1e1f65b785051d1cb651b03aed762505059129e167d38a0ca47e62aa348c1d384) 0x49e3ad96f2479c3d0cc078fcf642858a92ffdbf0e822f2c4aaba56cec96ea71f 0x64fcfaae00968b2bf509ff2f26883c4a15a00422e50a54c03e029ab59cd9af07;
  SAdd true 0xbc08acc8f46ab4e38896f2ab1c06c10324c73a6f322f82c0cc18dcfe156b7ac5 0xe50b9cc2e0e3af522bc5e0696c6881f694454f6d50e72447ee3c1001f7578f0e 0xad89bd8b8ca57e284fd55e01a9a6b200c09158641bd15a64bdbfa6d58eec719b (-0x660f793bd7e1e530ca6532895484003b95abaf5fde2ad122e148e2963784da9) 0x8a1cbe12f247649aa4459ad16aaffda5e3c4817cb0cbcfc531b949fe89b17976 (-0x7c912a2e8a68266c6ee0d93882845372e2c927af19e94086bc3e4b81f6a34179);
  SDbl 0xbbfa798be8ef93509c117d4782bddf6e689cadc55ef5d213f07d14bcca2064d1 0x4c53c99463c1b541a1740c8f9355a7a22869e2a052ae8625b4c476b5e89ab590 0xce008d4298bd16934fd4ca536b9e667d37dda84ef89fcc9f44e4951f7e7af56a (-0x167ee8439ec9418b6b0771cebba3f4bf01a393a36a6de7a72044a5c166b34a8cd) 0x8a07e2a48f4e66714e200de8fa613ac3aab375a7c48aa941ae36b88ea755e10b 0x7023b349fa87de6732fb11c6d449a8696567425b29917c664cc7f35aa4849f27;
  SDbl 0xca8df9ae03fe206cee65aa21f03a52972479cc1b3f562da9950f47e10344f953 0x86b11e9b275de8f9191bf391b315ac0405cca0cdab88714741471febc50d3ab8 0x2afc9a9b30717653bef2288a92765699f71ea5b4eab500494b7145b003bc4b6e 0x101b7cc09878cde872042fe218b2da4c940d886d71f23af16ab4892bdc49b7c41 0xa0445cc43bc5c7eda494c1455e1794fcb7638ec13165f304d3810f043d5814ef (-0x2e2e036bcd4d681ce198f9817e3822de0b6566d70d97fbf29de6df2bca83ab30);
  SAdd false 0x7f3d375f128c3bbeb952ddf82321a7e077bda8e122e1dfe5043a34dc35c87060 0xabd7f7b11e33bd81ac5f4d8df0b24f2919b3d95cb56816f334ea6e054d9b890b 0x3496ad81fe01e4e6a4bca78d9c4a806a6c232eb0ebf1b995c861e10533f70a6b (-0x29b65d45003f71dfd0bd9d714e188f8d5c9be3306f9e1326aa4b9d289cca91af) 0x3f3dcb9402edc2f6beca9d181963ee52d61a1ce5bc76874a12971302bea1148a (-0x127727fcd6e669bcaba36e5aa1e9f06a94281325e772eaf0828a1340f0d2fb07);
  SDbl 0x7fe80410801a7c56b4997253c6ab14d056e62536386639f25b5a1b5e393b7211 0x2dbb5ddf042f05cb9d93eeb20b1ef655fde15f53979239c837e6e82d7661a800 0x36280ee3545deb28ed41b4caf463be83e9d7e48bcd5baed54b59d5cf992231dc (-0x12581de5dff7fa122235902b3cf095764b5943cea731f2d9321597bf5cf5c5ace) 0x3fe8064ffcfb02c0789f57de60f0531a7bc0d6fb7ab93edab944e322b8ef94f5 0x3f027c3b739ea640328b6b4fbbdeb8ad210d7294e9df8a21a4606d2b6b81648c;
  SDbl 0x3a016de604a69f63174b4fe23514dcfd4131920751c7697242ccbd3b77785b2f 0x8b66a7ec61ab93e0365064cbe6cbe3407bbc2bf301156e3c77dbf9f3bec9950 0x75ee3e31dd080c32608d68a4687a694628f10416b8a9ca85e43669dbe6654265 0x88926858c86730ff797f06f4fedc77303b4492dca79492abc6d786a7f4935 0xd24a5ce5239ddf6b6c4961204696d7ee43a0a00ca0a2a39a88504f4da2576af 0x863540d2892fa6fadb61424b0208d7876229ba0f12364e011ed1b84755131f1;
  SAdd true 0xf5f2fc8cfbca7ebafb879d7c4182bce02e03b27353a9b9231547e53f6d5d1e53 0xf75aef3f862329f9bbda361858448b156ab4d4da07d40c9efb9fca55e99fcc5d 0x62618c52ddde5122b77e8a922e5bd0639a2ecee2b49c1812cabbfb0d2ca21861 0x286791be3c3a6eb1aaef5d1ef2a17f9b2c2c925ecea75760af3bcfa365cd94a6 0xec4afe0939ee7ccdbf850d0855437f9db7cda25d11f4003d299ff6f29ef34b8b (-0xe545f6003aa1fa6ccaedc9a87675c0764925c82b336a18ae7b112178872a9203);
  SDbl 0x5ae6ec8217ea84623e7c61cbbefe3077ecad1e651c22d300ac1ca069fd2e5608 0xeda75db12a2f93772570918e5bf7c54f2a53b13307381b2e6086430eb4f062ae 0x19241721e9a0fdd02fbcc87ba9d9cfa390fcb5557c10b22d6073cd0979352944 (-0x28723ba354d5d30ff77f9a8824bd5ca15f96f488185fd6003fff9fa49d55fa4b8) 0x20472e996d5b2b4912527928c8a56a2866330eede36b517b3014a6bbb0669b28 0x371e1774df34d84d726a846cce4d088f61f66484908a332aff1166c22692a2d;
  SDbl 0x33b037fe26d530c9d5010348bbe44f46110807ef7a929c34bef2208978041913 0xd9cac262128b604e3f797e29357d4e9de68349691ca1911a8df5a36be4f5ddab 0x805151fb70214c1acb8d102daa2e67e0760bd9ae64a3983e1ee500e436ad12bc (-0x28bb6f4dc03727f4a58a0df594a04efe2e58b152144d50d4d6efab1a3d5365d4f) 0xa6faf9c579d373087e805f348982c30c3b3c459d2c6b693002abba0b3c9eb9e 0x4029ef3a95bf5f9b35f46c610fe21baeb70feefeb04edcc5a75d1aa4d4111c7;
  SAdd false 0x3f1f4c672283d2f093e6bd85b7da598bb1a967598eb7393e7076ea57ea20e3cb 0x2dbe4fd40a59560a3e7b9d465969b6b50b842b2a7f1187fc2c58f36ee71b28ec 0xdeb4253e019e6190df572fa180325dd5beddd3bde5014ebadf50fcf1bfed8570 (-0x292eea8efa9761ad3ae22c8144cf05927f9dbd7f620a5e88680aa0f3ba0eaa91) 0xf906b6e6a550f38f95e4fb42bc272a5e49d8dacf9fecd30739ac7c125ebd865 0x2a6c190bffd9e88f8251ca7be409d7901df3891abed1286e58ab73a98e07e7b7;
  SDbl 0xd6ea7854fa6a3bfe6b0d5abe0f23c53752429f5ccf338d589fe270b580419d88 0x9e69087e7c4e65bdf302177a245bbde61fc3f15c2ab5eea9566fda0090ce6782 0x6bdbaf5896d4c59fdf98c01355b9d2713b5c99225d37937a1fe45b9c685778e0 0x15d67c0547074c8e1678b468a9a419475bafad9c44d516bacf65cb9efac0ea5ad 0xb46cd7eefb00056ae5ff9a1ff66ecea3938419c857a23bca94205034ff04a11a (-0x5e95e761126ee348244bf1ea3bbe27bcc27de67d5677fafb67da3f20df09c400);
  SDbl 0x96de87f03888d1955ebe71f88d25c702d0f0f6f965f30a342bcae0ab32d72ad3 0x55010c39be82b5d16bd6ec418af1b524b82fc1001b7d90ae864d7e40757f707a 0xdfb87d86850bd18e059a12fe183f56edff6285fce9328f37dba6ea56d72b2aa0 (-0xa6f07fb0e67e9fa43ad6b58314c464f0832fa305e94b1125151076de3ee52737) 0x58e988bde7fb28aecc234f5af1a7710e1ecdbc6d8eb152763bb3facc35885595 0x2b42bcf7edcf67bd3488b3a9ef71794c015dfee84abc0d4f9e49c438c12db7e8;
  SDbl 0x418ece164c68473f7fea815408cd67e76343505b80d380238a25e3d64781cfb3 0xd5b8491d8e3ac5dc192c2e94d1db52da18f35d7a78562f60cea763579d64503b 0x1b22210d99e12648eae7dc4d7c1f9f9b512b09b9c984293d0666f548774af7a5 0x1de8323f3d566809807e8a3e37cb4a1b75780269735f189bd0003fb280d892a9 0x10c9d450aa3b7116ff06f47a3489f3c052be64b788b96a32fe2c6b8c437a3a06 (-0x20f653b8683aa8f518666e6ba55a63cc0aab97feaa8ad9834d7d753474535ac8);
  SAdd false 0xd1e8c06bda18c82b085a0d83c2fc229a65ff7d85982a72fbda8a682d20dc5c72 0x4d596b2eb0ceea886c783b0eba30d7713bf9173501604eabd7b862687cbacec1 0xa4a75b984ab8436ccf25ce1edc33a8d9d964458e8f575ea362fada6a9bae6043 (-0x859d08bf66fdf67cebfe66196479d4d7d6ee0f0dc7c91bffefb1d8ceaf577e9e) 0xac1dddce1a57962462bfdb3d844c198afdcacf4c7557bdb3a8051669c81970ff 0x6fd16faa2d570ce2f27555c2071d1347ad8539f98d5da71092dee12d181dd794;
  SDbl 0x97cfef8aa2f655808b13916568bec7d5b508d48c89b6cc41ec6004c34e5ecfd1 0xf76d77cf7f82791be626223d6c9ae802c7fca925f17e9f6230765e0f0f54f8dc 0x642823d71dde93e19935aef7883f7d84962df6734bf23de4ff4ae0987e9b56f6 0x7d2c2bb5bb95c0aca0e5f21fd3a803e14ff4a6c1f900e0c2f9f965a476b4011a 0x5a06f57b289d40131f8622c17d495c761068c7d69943449c383a18b9669aedbd (-0x64dbf8ce47ac4cd09089a6a244c2b77d2bdea7975172107ca218d573dde413bc);
  SDbl 0x87b1ad23154bff7d69b94d8060c11cb5d1050c4b518a8b7081f7a07ee70de99d 0x43df65fad2e062d46fa49b0366ed39d2729bd701120f75050bb68ce5b523bbd2 0x2f5956af2337d2a40d0b54983f16be9abc3103bd070dd8ddbc4e53fb0cb82758 (-0x2633fe73f32ac039a8d0ceea0b1e112a7ac6b542b59c67d619fa1fceeb8ef7e8f) 0x47ecdfec27feea1144c977b5779512406f2c5c1b663b8da7bf6cf61ceeac8341 0x5f2c8a1177aa7de7d789bc15b27e323cc4df39aa54e294859412fda04b10f52c;
  SDbl 0x6e2f4b040287ff2c992300a09e8e67aa8e7f03b719595800def19bf952b6bb08 0xc1d7ef99d2bbaa495957cbeefbc6ac798b96f020984e8dc795ead60ca3561375 0xfe94c994595a0a09cab745118bb5bce823e0a94e1f11bfc2c791947362765e36 (-0xd39d1f03c1806be659efd872d4cb4407a7a35458adc596a9be565aa9a739cb7) 0x2f6cad34430dd3fa0cd2a6b96d4d51cc5c587ae37ff64d415f9ad8087598dad9 (-0x363810ad95cbdac9820a8eeabcbcff05dc682bb415708b9c7a9af7f3d558ac5a);
  SDbl 0x49715b28f7bf2841481aca80ce07c48665306fdcba31130ba12c4162c67cf499 0x8c88623d4d7a4857e683cf961818ad61d87d25f40bc0959a1f9f4a01cec4370c 0x17372af164826ae17fc9de50cb569eee7783ecff6d4016a1e2e1845782e80204 (-0x1264398a020e81e1e269de39f46b2b906f5ac13789a2ec567fa00f54beb1fd224) 0x1511d82f0cfdba9613dc15cef44b0365cbc385386df39b03bf16779c8b845a85 0xf4b4a68a6674b268ea85dd3a5948c8607b848e1edeb20b86c514364db419179;
  SDbl 0x62f4ce3e9c710d560655b2e416e841036cc97c819b66bfb9e9a58e0621d12d46 0xad02d00339cb75f69ce7e8b5b2692faa7d87c5843ef3b138f641b56578bc51b4 0x89dbae4ba231c48b106fd6ef22a69d390106f5fc08c787df7b405ae7e63d363b (-0xd57db8e0bee66b7265bd5ede51728813122962d261b857d670f8042e877c0883) 0x26405801e389f0cf4432832d844d9e43d26f07550680e031c4c4e98a15f710a8 (-0xc8dece0e77f0a6fe4d669b52bce7576cf39d77e4989ee832e6bafb2152bf5d1);
  SAdd false 0xf77f74a28892639be5440dd86e7c4d96e5c6c3e8c29fa939af55505a3d5580b0 0x50def5c72b0710e6dca52e29449f67ae86d8b337136d2a89148e5b8e1464018b 0x557d95cc4894a0db31c43631105f980e6ca3ac1dbbb2dea09058da302adf8db7 (-0x762ecf2b8e848be71108cbc0616cd1bf6fecfd423eb188d90a57128a8867c3ec) 0xef4732878138e2f2f6b6e5cf9781cf820ef5609acc07616cc80bfeda2adc4f06 0x591477544dda553350f5dddf8fb003a5f7c1047b85e2d833873c640089b427c2;
  SDbl 0xdf940d9b8d4d0345fdd312820421d79e870ac66cd206c176f54cae3e519eb3e9 0x38bb5f2a35de5909aeadf82921950437331f71b7da2b45e6437a986fd595fd3c 0xf409c5bd04dafdc99daa68628763f0ffcd0005ebcab5cfdc79fb9e8ea70e9888 0x48af59e3042287158d8eb7604f9ba560de6fc248ac11750792929aa15ecd434a 0xc34345558003fcf374bc328e3d7d77a4499540268b05c3b740c99e73fa525641 0x1514f60e5ae630359754560a03080d4a007ad9638d0745ced0190ca7f3a6fd58;
  SDbl 0xdd27e6b4dba255e209e7255c71e9ff5a882e1da964ea054bfa351b9187cf0c1d 0xa059cb2ad5d3104f6f68621ee3bc1a95eb67ca6527e40e41de9d26b4cbf8d43a 0x875f8b45990672fe62121a127c3f44bf82ed5b158cd19b82d51ea60177f122f9 0x17fed69ea91ddef9641a5a10edf293715ceec659efea482c930bb07667b7ba35d 0xbf0dea8d1d4898b8d84ac932a7280cb1daf8e138049dcdb4f06a7a7f49ac1369 (-0x5983e9c0e10545ce51b5580d84c4d68e5bf3117a42d098db8e6078e98c5801b9);
  SDbl 0xc15d804bd4aa2219728584bd311604b433b500834e1539eeab6a0e1bc89248fb 0x2deec45cad24a489fad91eaa55df9ff338353f54348ddc62ff65fda09776199d 0x3cacee54e9bea78d356a84989d0444e047fb4914630d3d2da0577d63f5dff8f5 (-0x60d02543d2404206bec290e27026f494e1953304fa6c458859b7d890359a4cdd) 0x920e1d99601b13c0f3b941e2bc2f190b51d19181613988930ec88c78ac4d9bf8 0x566c7a5aa3cb7fa79d84fd4114310908f6f0368281fbe7170c46d4e9179dfbff;
  SDbl 0x90ab9834e0b156d4c26a97e5b30ffba68b826593161e0345ce0e9982fb85791f 0x4fbeef6ebcfc56a38bc676448ab317b42904b5306db597654cd82064aa5830a3 0x34f9173312ea6fa3df4bd9e6086cb78f8fa071e789c7d8313da1dd838ef6c1fa 0x2bda741dac9cf8ca8e8aadd40c58ca34b1bd572540dd270979a760781dbc3982 0x51c17e407fac02987efe67fce8df191066e164b47157386032cb090ffbc0121c (-0x131bc261969eb6ccd6aaa301314e0c4005b44aae460d9b56b37dff587cc8a557);
  SDbl 0xb3eaa9da61fe1950dee22cbca84614ceac7e9befb0398526fe8ecf07f7a5997a 0xda75ae2087f46a9ee27e258d48f51f214f29b75ecb438896d6f9c6cc6985a308 0x5e60301a4f4bffcafaa64cbacec210ccecdafe9c06215b7565683c77c6dcd910 (-0x10be70cbb01dddea8a33e32a25010854c067232fdce57882a5c363cf691ef0) 0x7e7200a2d7688c3cbea2bbae1b00382c42e9d076f2f61e51cc7f5da11eeef62a (-0x617cee69f9869ad3d4279b98e4a6368a7eefbfbddbc43ca56e61b9e4370c83d4);
  SAdd true 0xa9e244d5f9784aa46c4d4bc928c28ee329e6d1d1dcf9effc125081ff2ba0ee71 0x6278ab959bf8fd2040a29ee47ddc259dc34f862e7c8cd83e66e870eb9c577c5a 0x6ad1d5247e3ca290aac80cfdb1399ea81c7d25bf05f2a591e4192a2c2cd47711 (-0x6f481051ebf0fcc42e43915d9c665b31e96e1975980f56a04f432c3db9c50fbf) 0x70bc86e0906c31326ea8409b091f71486dbe0711bc8a3819a24420de57d34648 0x4fa0144dc32ae0e0ab525a31172fa0450454baad3e00c22150364cff139c7953;
  SDbl 0x949c0103b2d1745a89e3e0a87825b2e1b24e5911384d5e5fcd4fa7d72dfbb64e 0xafc8838fd3369966fe7fbe9b774728e052cfaffd8f35eb2f38d7a1ec4461092 0xb4f32faff66373871f99e892f05f5c2b15e2d8c48d5cc9589be05c8740e83e9c 0xa62fa472a989d03c9b83d5f213923d52ed177c443a410b6f7b21659749f348d 0x5644c03dd989e57fa80acf5c5bd9a0814d9e6a9bfa1e8c9da451eb5b922e0982 0x32c914700ab7b988b70fcb15ebecdfbddd9b62922603e2b17350ccae60b5aebd;
  SDbl 0xe4ed3ee4130842463f9b2b413d0b110b8210a777f3ecbca6624bb42e54e0204c 0x596207e2b2ab3f1a3249296cf3bac2d39e332ca03dd4d2146c9a85b956278fc6 0x1e8d8d11f0de2e7b12f35b3033696657b025405303acb817194dcb5fae3eba94 0x1423674de6eae6fffdb40f48de6a92322638dd6a5b38cad560406943158338d29 0xccb773e4905caba64ff5240bb3d1d4dd18e0bf38c43023796d13253c75a09a5a (-0x461b0ced08fba410f56fefe3aedd2d2f27a1c9b640e61ed2ea3005953480c360);
  SAdd true 0xa34d5c0a4f7aba31a354a5cddce90a19c5a7570db221cab084041ed0e1588702 0x731675d384ce4aa4a60009217137827de0b8708a8389680f12483e76198ca78 0x57e9508ef6569f7e2228ed897a60b2c3fd1fcc9248a5ed55f74b4657a32e900e (-0x18a1db556ee23a1227bd8d787e7c2b7accf214077fee308df7ba567d556a1af6) 0x682b9a9608ad1d0fc49e5c25e519040991de3aef9f006779d12cb7fb4e79b301 0x346dcc62429854065bd9909b8daa32b4a01917057e8f272ffa42563ebd739e06;
  SDbl 0xe14f8a64a4e388ed7514fd9f068e22c3083a0038ecf5bf545638fa16db0d65cb 0x82199d1cb367ecc4694c57f6aa0ba824f89999639ef83ba60c10b3c029edbdfb 0x42a1b15500f04a09e5d5351d38f780776370b0f91f4cda84643a884115a0427c 0x9a238918cc4467a5c86abe0768edd91d7ab0cfcd76264c8a7f44fe35dcf54689 0xc64ce9fc65134e72db07c4a362e6f19bdc8fe49a74b5b94074fbd3ce1c0783f2 (-0x6c2c4757cc4e3e0a9bddeaf540853c8f5860ceb27a71ca1ec72a0593791a6595);
  SDbl 0xf7bdae7ee00cfd742cf58e01f9f1354019a167b89e4883bb6bfe6f52c8ed008d 0x26c88e6c1737b87b41ac83b36434d1cf16226d2c6caff1b702080009596b85fb 0x1eb4a1608ecb575646733812cc2789225fedd3f10aebda74c3f21e53280cd326 (-0x4563509c2fead2a98916e2cfccd4d36f75d50764bf0c32d8cd90af538af18050) 0xefbf9344e2602efc48169145e29453050936a96842104787485b9aef5834b448 0x585ede42f141847188fca8543e140fe2af82dab06d3317ea9e3ef6958df43da2;
  SAdd false 0xbddd3384c2fb77459aa6f617d4b889853dd3714efcd123e58b112988c4a0b7c5 0x791fb2ddc149832cc9e51977e2623177da9e9b97b916ff5cd4a99661e076d97e 0x8fbb1ad7de1014b7b03458033bf7d5edcfa858b4229ca7a85c0094d0c0539cd 0x8e37e81a8f073f6bd1ff87aec404d6912c7e5a652b7fac7072ee2dbd26da53d 0x8cd05d34924e7c072030dad9d01dfcf187e8c93cf1503234f53b02588b0396a7 (-0x3d117bb4ada8ca9eba8a0f0a63ed7396daea301eb9f8371823ab721a49a40a3e);
  SDbl 0xeebd1fc0df8d45e10763f79831691c3cfbf4645d1c0aa52d5e23536ab5fd22a2 0xe4f2f5e7c2524f2c8c20c9bfa2ef5a0596d577576cdaf15b4a7f02a241fcf80a 0xe0e8d49b6b1fcbc1616ca8bf8c41ed253562e0570e0469de0b85a478cb0c47f5 (-0x9b2bacca7adec9c658a807a619004b63cf5ad31acc8ef7c7565426b7905d0d6b) 0xdea432c365093ebf4b18c7c34170cefdaf9bd0af9ec3247f281087f776073c82 (-0x648e10ac01a007a397989f5de94cec47b6765ed8c6b933ba9223056b75a491a6);
  SDbl 0x9e42ce882d02894e9560380366d1cc78f8f6fbe7bbf00583e5890e6d1c6fd06 0x896dbd082d25d09411a526716acefd69ccb4f1e8f5d612da6482198525528c32 0xf308fcbe25041f6fb012c2982c1b92e73f12125c51c58db583211bbd25ea6c6b (-0x254e3b93c171df15f436245dbc4b73273b8977ba354ee59e1e649f9f61bbf8053) 0x61d6885f9e3c500b5aba5afe0f2ab1da20ca2a03688a18a34434317defa022 0x38941b48c2eb7ad4b1bb38b38115b8bd86aea2e5d9bb36b2765d2481753b550;
  SAdd false 0x20002c6670b1caa3573920b40d2064b0876522e27d46d4567e83a3b248c007a9 0x1479561920fe174063ced573e869abb342b2b68fcee04bc0902e31793cdca2ef 0x92153d3be34f0033583791c25616ba657d55bdbbd6ae74687bdeea9d00f14b02 (-0xad530e348a69ee692a8e1e770a92fc5fccc062b4982b20241fbd523ae3afa69) 0x4000b19a7dfdd7d9a9fd2988542a73d5c13050c25fc5267699c1f2907c0f657 0xe9ea126beb1d83e1962f644ae80202ae8408010e85c275119292782ad63e532;
  SDbl 0xa9aeb7708baafae00b4c6a594b85d77d98f425d89d5a70c0de1f3d630bab21 0x664d054839eb0f2a3a7b9f86d9b6a6d5d692d18a9cb5eb696a80e10f67e2977d 0x99cf54befc71a34de5d604600c277205c19686a90b58c951c911b03c98ed594f (-0x427e5723aa23020d31565f66c33ae9acfbcd41800b08c8fddd6200d2723f124) 0x70782570e94fda42b5450d5fc2f57d0f3161b2fb1f81104db1643460c31a (-0x363c9729ab2fde3115757caf6b4bb52ac393768be24ce630d9d56373e7fb61);
  SDbl 0xf44eeee8f6b82b317dbd9522847b26785992d698dfe860d8983dcdc8b1cd8f71 0x310e65e790fad1bd4e2f4f902fe6147e949fcdc731b0d91eca7f119f54e2a378 0x87cde375697422c679666d15ce7c27984c483414baedcf88de79012c695eb74f 0xaaedacd49f3a735bb74e4d8b53fe6669f18bb34b25fa6ec32d6e4fecc734ff5a 0xe9268fc37461f912aa20c3e4fcb5821ebc34001526f0636c8f3dd3c4d74e6291 0x32d01aad8f855639ca7a07bc5820ef32fdcc4b1e4decf1347e6cb2bdc9018f69;
  SAdd false 0xaa5adeb2fc49c1a6069a5b5fb94d7f89db2efadbe5ff5d5f3f052a2cebfde798 0xe2cc6a30c7449ded1f7c19fc8409041562728105b1fdb03ecc3a5291cd2a5873 0x55d417ba4fef42050ea19acd2d4ad1168048ca62ee13f69a1ba28be98723d357 0x123a79034b79f200c3a4a55cddfd89807900367eb1dbd5f254b10158aa1c828 0x715cd007800313c7e493427f0b48fa6dc7d2a0accd1913a7e3520a75b165c672 (-0x76474645a31217a5bc98d51b64f3272e0ab5070b11073d7285251d45ab8c8352);
  SDbl 0x64f657aee5b0e326699b5ae817dc98bbec98732261464c157ef7f545494c6ca4 0x23ccc0c2cad6763e68ec5824f9978e3e55dd2c2f8f10a90277c4dc441813a982 0x1592f226610e7c98e0339fe3177b85c744f07dc952e33b164c79afbdc58671c6 (-0x21715cb361cf9cd59b80c955651d70781c447e5338496d2941041472082fe6480) 0x27d1618d6d6d5a9342b084c649aa571446145eedea660a781ba05c397aed9158 0x4b53a947715777fa0f4cee21eb3cfe1021ba5fb8482d06838a2da2e60fc886b9;
  SDbl 0xb18aca24e995e36d6e139a851234ceedb19fdeeb1be46c1c7e7a9b4f8681352f 0xa84129bbf6ffc703c4461a2c3ab35708f0fb28d445ef5e59d1aa580a83317456 0xd3404d8cbd1b683972bcf58050dfb74a16d68db304226f1f33c3a2902aa8dbe0 0xee7b5ed3029c2281258e5193da3ea7b248d1f92b26c58c3ba62a2cac894ef55 0x7b2136c6158c96cfabf137dbe5c0672ded26090179b6e5ba0b96ceacdaee48b9 (-0x5bdc4bec2dc58be4b5af0bc5cd1295ba5072123b4f5270d827eb5a7d0d86916e);
  SAdd false 0x5055f40a2fa510966c16adc9172d8f5f332a266c4026ead7123871436ff5bbc7 0xaab4de739ebad0721a92eefd9edecfcdbff755038f31de615d11b3d53468f5ce 0xa90225443970ad199a05c6eb0ef998970614f551439aae918a2096f80b52697b (-0x24de58f17198872dae21ed3760645393b72c615af6839fdc20753b2f5557af58) 0x1935d5626e640e97df38129640f5a74928af30d367527a0fc1a9548764448a3a (-0xc4fb3ac7630d3c1494180a3621220d667a7bf6b7b277f604f6d6ca8c746e5d);
  SDbl 0x836f3e9dfb781c25fa3e3567fbb213c6ad4e46a1b541dad95900d2b4814de4cf 0x387c07f32f58100e21dfe09b2540e17ddbea7a2be09999307fddcdf5245d6dbb 0xe7fb9cde0b2e84ea527331c46904f4895c7b8ae452fe335014c48ac016ab17db (-0xa7f3110449648f959e540015bc077ba5bfa4862179ba518bd1b635158afbd7a1) 0x437b0a6d4f28f0b12c2d48a3d986982f2e82644186f4107969c43e3b7e27f9f6 0x3aa4b859365685dfa6d98826ce8e1e4d18af051f575551c523fcccdb62c28df9;
  SDbl 0x5a3199c40782f37067fd86c42c3af46ba3fb33ff284d35094f94ebd21dec75e3 0x58b75f1289496137b1f022967255b9bf7551c2c3df92ea77ff44fe6a406c9f2a 0xeaebed359f31a939bbab9b1f25b78bd730d7786515e2e6e1a6c514656ca97ec9 0x7e13509669b43abd3c10a4f92ce02774d4aba40780f469c1e168632251b1d766 0x1fc6e9ba2e75c41c705562a4892caff60bb17fe71a780eaa5aa902c98a563357 (-0xb5b1b58e36cb5feb36cecbeeef1fea50c6eeff34f2ef9bb66a9da868446d8ef);
  SDbl 0xbee6c2e0fd26e858609035c66eb1220bb0a8e013cc998c95c6f0922cc0f48155 0xd337e89f294495e2b1212ae616075dd2093590d9033e482694cbe83c1ddf0c64 0x8b4ab3e433f282e5046a719d283cac2110928748ea2b9aaebfead7e1d1b2717f 0x10221fb93ed376781c6b1f4010840070fa1ed14201303af9cdb70f01ee1b2d52f 0x8e5b594946c1c180eb77cea0222e811aedbbfde05a350637cef4d0525359847f (-0x5b59d2d360469217210cd89948ea79731d80562d680f00c0213ef37ff6539176);
  SAdd false 0xe5d9c6cbebffd9cf5586d337c82f863c2b77688a61d7265dd4319cb11a5264b4 0x15cf3dadf6bc9d0ff3d7b289b5b973f5e18143ef11f1cd2fbe7495f52098541e 0xe6d1b08d42662098b8a9b7b2f36fb4defae77505f25b0fc453969d52dada3a0e (-0x900f918ef22a2eb47b3b7d19fbeb99ee4c8fb0ff7083dbfc9d683b713e5673bc) 0xce5f56ec42ad3dd8596f5300b8160f2620385b426b05603a44534bd936d6b6b9 0xaa0fc1b92789b43ca138833abc159c11d21cb95df5a07f2e3deb8096d46bc255;
  SDbl 0xc059dab20261363f02ed895f9bd0801285bc5a7e28491e79186edd5a4108828d 0x46acf18228446cd575f363350bafb92917ec0cda1850c7a1e73872e8127e5edd 0x4c3b69c5df684575f2162eff43e1d40a6464bc94b2be9149caf3f9451c560db2 0x15549995611aaa478714924fb07de6fef82d673a605652c9f54c026c50990ef1d 0x9086e7955eb208607a7ec9f92c465248099d57dca84b0242470d0f1a4e4b8570 (-0x24b76db1946087389fd31a19bbbefaf0c114a5229f0ce2d43825b6b126aecf0d);
  SDbl 0x280fa3e09435acec4f156186e0fac2c5795de6baf5e3b4332e3719f057695ea4 0xc2f3b6b39ccdb3bd5ae49463b47e4a4e775614d792e192a5022635263a8064b9 0x8f4674b96d73e0e5d8e9b44dd96aeca52c75492e39f0b050fd22539629afe518 (-0x22ad391c490242e495d64ebaa18ce43830575bae6badd6dd356ff627ee3b23b8) 0x644e42ad1ceca3efc2862ac79f9677b06c9a6bb9e40d5f39e38d5c421f84963 (-0x1372a68370fbeeb5e3577383185de7f6aabf4b79c0df3bc460735d902f4b8446);
  SAdd true 0xb1f98066e46224c1c41787c2df866f159ad9dd6c7868f0172eea55e499585be4 0xf04cbe2ecc4199ea0f425f5a028c4ba3753722d431687ad12ffff02c8ced6c3 0x82101cb84db6e3256fe3f92f0d6402fa051d644be4fd68e9ca1ee58cb1bcf67b (-0x643d0af6d592356355db66a344dda8db9f8b42e748de8c78d70b557d0ab93af0) 0x7bbaf6b9cc1a02362ce80750d884ece84e1bb2853bfc3fea6b6ca73c60dfcd33 0x7d178dfcf2e9167b94e1b998aad1456393ae47ac667df02b3bb7182ea943fa7b;
  SDbl 0xe0b7f1f2d168f513b453825b18003acdad5b10401a3285f592d96ec641f460a0 0x454c80b67b7fd2ec662fe9d7e151cc6611d19eb4ea91d7bbb1700b7f4c4b445b 0x633e7707cf18aebc20d601420de1bb8c1722dc7d0beb748701c82aa99e76b3ad 0xe1b26b32bedbae9f8bdf0e57b5c3e6e3aa9c74740cb65ceee952ce60dc736fd8 0xc5426b95818c911e9275829abb15c89f4dca8aba3142b9fc6e230fab48708de1 (-0x2fa5bec88d2fee32b259db6489405ba6428e743450a090a3e62672accc0ed6d8);
  SDbl 0x910577bf4f638b17320b2a73797a123edcd09a426fffc6b295527881f57f6940 0xff38926a44778f959ec3aa77b9b258e960a649bbffe475ca8096c51c8df2142e 0x16414d060a5faf0a6c8d877127050c78d9c9478bddd4fc78923a2a44b466bbcb 0x382a0362fb9500949d7405a262ba3c0473c8805772efc9932729162d7453a888 0x522731c4ef9279febfa2c83576484e2c662b9792858c26e12df5aabd0dc30ce4 (-0x6952ae9b43add9a13f45a7e6a8799910f782017a68ae25258445ebdacf8410c8);
  SAdd true 0xafe6b73e5ff94d7b0622995f0a9f10253743250b509f024e338e948ba81edbf3 0x96093941a71dfdd32ffcde3f41e624eb032d4f59f0fb11c0f2ffac674409f2a3 0x298def933c9b5a79b8beefc7f7eac62ea2a74e0bbe87f8e9d9f155d2d5271fcf (-0x8c7b7b7ec0bc29f72939595358d9d43db91a3785e2359420c8d2670392875f66) 0x78dd3e758752c6c400477f4516ef125423ea1ba7e26bfdd5632060c3cb5ad2ef 0x484629c79ff6642f363ec51ed7686a46160c00f8cd816af945546418a73a1ba9;
  SDbl 0xc64d3a927eb9b0bf28afbc17b5660bd091d7ec90c0b24b25a6f782450c5fb985 0x4d027fc2755e5f98d1442695085fb66dd1b989d7a10175012b2e9b230f7626 0x199cc0db8fa9654234008c25e1eed622f6f3f89a884e9a0679b64b9b71504676 (-0xc76bcd4d114aa49558884a2f7151c029d6ca0bab9799c932fb88736461f67fbe) 0x999b8de77f29bc4473b796176a9f0ad2dd980df95eab3a5687e65487fbfbdc53 0x73fcbe39370757ff658a3fe7634e1c09e592ace432a77e109fb7c01111fb6454;
  SDbl 0x75ff413e5b9286fd60c744ef7390f951f4c8b890bd10da119464b8f00f51327a 0x33b9eccdf0e5a52ed9bd3e2e9cd58fa9458035cf617de51de514dfea19a0eb2c 0x3d0ff3d6846bdac34e933b8b8be16c08946a42b1078b0a133f524b98928b95df 0x179c161f8fe12028eb0133a33a05a8791f1315c65f9c3cb36f543d0a923be871 0x3663502640f26723ac76e6d855a6ec9f71684ee6d07b9039f6629ab51897f554 (-0x17b40dae65115f20bb2c69494cffb0896d3a3916d416004167b6ed80b11132cf);
  SAdd false 0x5ab66eff9342765c458d8722a5222fad33cefa9b068f03c5aeae978e3f8d98f6 0x2be7efd6ba4ba75beb407d4c7f5c2ff4a45cf004acedaf8be54215dea3728c43 0x3df9aaddf439ba2d6e3ffaab3ea4a3d14bec3590944d39e30238e91829f3a35c (-0x56e6c9c0e3d0931b66983bd5cc5fab9b4f8b5bbaeec1fbadd4b7f027aec972) 0x2024c80dd735877ad4246c82bbc5d71eaa41efcdb8fd535349fa56cf01fedfd2 0x2c5659ccd152a0bbf9e528f72c0bb4a2b8564ccbf2e8ee3628eaa5e0640ad55;
  SDbl 0x3f3a0b17652c382de597d34fd5205703bc5977c9e792b4723d8c7e5b7a57a5c5 0x71a5fffa916a80c8c41096abdd0d10c8ea65628f51f52d69f67889705db0ee4c 0x4f6f4f2f1a673d3027a207c114d0186b0f2a9c7a36dd2be94a9f28fbc39fb836 0x805c67af0f042db587ae62288d2673aca3a0f8aa97c6ec230a2a83e457a0900 0xf9d9e9e9a7e3f23c90cf7e2b4d51fa19fdd6f2a988e9c4b138f471dc9587d39 (-0x1139960e159df05ac744af65468a2aadf6455dcf0a4ab530f822c49ef02c6681);
  SDbl 0x921cc6f0133f0bf7226fa77cc0c6ab24e8c1027980eae3eca21699239e1cd901 0x18f4fa5f50eeef009a96779c4f0a98142d675b2957fe8f25cbe453a267421e3b 0xaf709af6583ce061b1d0c018a027e28b6a840d2376c5178ae6c55448f9a05e22 (-0x3caf14bd8d1e65066c47c4856f05319699db0235f03e23eeb4325af00666c8bf) 0x5364d6264875348067f73bea32e1b80c862eea038caf0b660fbb3f1fb67948d2 0x329eed7b7156c4afb272bfcf4f8c5439254652d1621cf5a6d59ebdb69896dd47;
  SDbl 0xabcb2854df7e5586bd67293b1de91764fd7e10f1aeae6df2f8cf7ccf6fd6829d 0xaf018ad7a5ad0f65ce1df5fdf52ccaa7fa86c438107f7daa18f830a1666a8b0 0xc856399e0fbc92361ec0a537d7cb0ac0783bddf6ecdad70c6145645163f455db 0xe42a56c2f82978d2cdc1896af8b24d7b077083e83dcce3be9a714a7550d3a714 0x7349091ad2d0e3b36048a95951c3f27cb8aabcf53b9b6dc9f3271f661dcb10dd 0x96862d634dd7dec6acf96124b94a6bcc086ba8f4b641e5873ee5350ce1b07be;
  SAdd false 0x15ce3afa457390430295fe3684d125fb8711d3300e16e13a7ca7620ceb362c68 0xa0f4bf2cb710bbe76273acc0d7eda5e2f72d1a3b3ebc15bba94b444cef9b77d4 0xcb4a2f5679dc70b892ae837797d0d9f3fc540d2518fd4a0a6f558fc835e0e93b 0x3648680cd17b2a1ca099c3ce26eb174f9740d9f8e60161707d022481488dc2c 0x1db7bd0099e939b49cef8b16c60e26ee026806dd12494f3ad54c22285baab0b (-0xcc73bf62e1b68227b4d466a5bb881a00c692d195614fe37ae28426f57846a4a);
  SDbl 0x6d13fcbc10bae6cbf25a9c078c6c0774ce4907ee500ae5ef93360949e6258008 0x35142b44737c51f3df9838543ef3af4454c16bc0730d66129bc8cd123e0348ae 0x8001f9e98a376985d6ee302588857a86b8f360a4b4c37f99c6bf16da634e8a40 (-0x825ba027bd86d9858c9771b0b7be0e8244d22880a676f8a5f805c80b35eb3d03) 0x2e7a06c7d22676284ac9fe75e87b758426db300fcfe1fa5107b4598f7ae23816 0x2df70b255e8c4d0954b2c8680ea087541f95a33ae1c3a949d54766d0005cfa4b;
  SDbl 0x512e27ae6968692b3368d50ffff070df4c2c9067f1743616cc2c4aa6c8f145cc 0x6febf1328226da21606e4b25301b4e136b4a7ac73cc079dbc7de897f5ab90362 0xed16cbade9ee37e5fde14bd499ee40444b25184981db2dd08a048ac40aa65784 0x302b56076a543ab6f30c4288f150ec88e4f7b0f7c51314ca2c4750aa49f02cc9 0x19be3d6ec146cc7328b68e32bc536d2e53494c6d8156be1d2e55cea0999ffa2e (-0x12a8e184ec1dc54d37ae04795382fbb6aabe467243372ffc643bb5085273d2cc);
  SAdd true 0x7e163427d2c3545b05eda0cad29dc521c3d8549a3d5dd3cfdacdb6fffb2be976 0xdefeca67e2da4b2e612bea107e35f78fe2dd012434770bce0443fd548933ab64 0xc6c89826c162e15472c3b07a1cb7d878a818f1969ca60efe135e16571cef36cd (-0x1e1ea0d2825d15ebd2102b8f2441d130a0b19287e736f81adeafad14028e9872) 0x3e19dd44730a91b1cbd33a6461ecdefca3cb8656d4229ad696a2c7f370ad2129 (-0x36b4e9284253af2178a2fe5b842d189abbfb2cb559277a6afed31c019aa12ec3);
  SDbl 0xa676904f17785cf3c9e9c20cf2de03f3201b38981c83e1d1cb5697a85d1185bd 0x71e6c0124b9d2f846424aa9940437bdddba65e68d55695c774b211b9081affd9 0xf83477cae40ef168fe2769680d8c76b130f6053e05d3692dd9faed5b5658ee84 (-0x14438678d99280a20bacd1463e259512b73dc56f192f55307db6f7cdb339daf85) 0x6c3dfa1058f0c8691a8c8e79769e22c946232d9cc01e1f7cefa3d1f3bf8a6918 0x46f01d47c4b13caddad32a5fb15b88a4b6acf4d1f1ef2d28dceb2ea56fb748b2;
  SDbl 0x80f3ce7e54d5b3d2a7b1f154264c64df7077b1b58f6f70e5d2a88a0595df1b34 0xa6c9762038ef6c1b96fea7f082a640f0a76caf4fae39fe41b86dfc2b959ae897 0x7bf6421f27e1e030cedd94f1f816665aa0995d0266cd2136d99478d067ae6f8b 0x6204ab2692fd96f07bba0066d414f0b6dbe023e60c207a080b8d9e5a8ee95430 0x40f4b6b0402f0715d5ac4de08e2e7c9558cfb3f56b8f2158e1c9877ab654e5b9 (-0x1aa3b8e26820759495ad638b1b4bf8d3ed80570d083dd97d82c0390ab2ef5159);
  SAdd false 0x8c6352a8d85fbb6b9ae7e64b7cdaba430a927e95025a8a27c28c3ca646807362 0x68595de8f9428175f85fea0fea52e1f105d05f296a7db0162a23b063a1f0086a 0x5f2fd83241ebe5bd3d2037376e48422e8462c59debbaedc79f23a9c87254f482 (-0x3f9fa0a91e656ecc1bda4f583f3073adb5b0be5f2cd494bbfc065b9de0d99a8c) 0x4cfcc8f202ed71f4b22d81bd79809bf8d012d1cb406cf636e0a5df733cd63444 0x223d86c0cc853b5704806bb429d52d7b22df69652e674e674fadd5ad6b655bd3;
  SDbl 0x2222ed4cabb01e9616544d23ecb3c989b510bcb32c9e8ef13ac5c3dbfea6a873 0x1ba891afe06408beff5b8dc69d75597b18798bbae03967d38d93ccdb9c20f7ae 0xc8945419e8f0cbd1f40057e46028540ca2eb3d371a91620f85337ac633d95a64 (-0x663783e52fdc609b7ecb3f1908421744584b8a4e885971cba9b6b50df8c1e923) 0x48d4bcc467cbb8ec0a1deecb5c9aa023ecde8a3f8cb9c7ff1caa41dc805e4d9 0xa39f1b16419235f4a5a85aff509ea1ca1a5610a834d97a7b7dceef0c5466a72;
  SDbl 0x5b07430f100d880b205180651a487fde6457f313bf0c405db7fc18fd7e2083cb 0x121ce481e95af54519fe653721ca68ba8978daf9502fc365a2be4b95930b1907 0x4ccd403e63ef24dee376086f2e70e0b368cf6e082af9d86450ec7d55346c066a 0x85addbcce005fd1c84a8a9160d661759f4994ba9cf6c407c9341ed0d0b2bfc31 0x205e29e1922b8ca0e38eb84eb9fef5eeebfb082606f5a7e0691f5031c0b3a56a 0x364ebe134925063340c370b545dd9061469829e3b8efbc32791058efc1e5d61;
  SAdd false 0x98b82c25e8277b0a86d6484bd8d21477034afcd8dc9d7baa4dac0ac007a59a4e 0x335e18d751e51f040e27d468138b7ab1dc86ad7f981d7d416222fd6ab3ed230d 0xab743ebcfb22d64f7b6ab791f70658f25b48fa93e54064fdbfbed3f0bd847ac9 0x137b1df7c24160ccc0029847a5ae92cc158c73d6a7e4f973fd4f3581227e9475 0x5b1b38ecdce4e134bc61ef952a6aa4a9067fa4ac366eb408c8bb87f8f0b6c117 (-0x13d6a3ac88df466bd8316785c1eec68244550169d6ce56bc9174298b6f4ad4f9)].
Lemma skd_pt : pmul skd_k G = A (kf skd_x) (kf skd_y) /\ xc (pmul skd_k G) = skd_x /\ yc (pmul skd_k G) = skd_y.
Proof.
  apply (replay_point skd_cert).
  - vm_compute. split; [discriminate|reflexivity].
  - vm_compute. split; [discriminate|reflexivity].
  - discriminate.
  - vm_compute. reflexivity.
  - vm_compute. reflexivity.
  - vm_compute. reflexivity.
Qed.

