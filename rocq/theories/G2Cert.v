(** The chain of doublings and additions from the generator of G2 to its multiple by the curve parameter,
    and the four additions behind its Frobenius relation: for each step the slope of the line and the
    multiples of the modulus to subtract, as pairs (coefficients of 1 and u).  Generated data; G2Order.v
    checks it. *)
From Coq Require Import ZArith List.
Import ListNotations.
Local Open Scope Z_scope.
Record cert2 := Cert2 { e_l : Z * Z; e_k1 : Z * Z; e_k2 : Z * Z; e_k3 : Z * Z; e_k4 : Z * Z }.
Inductive step2 := Dbl2 (c : cert2) | DblAdd2 (c a : cert2) | DblSub2 (c a : cert2).
Definition g2_chain : list step2 := [
  Dbl2 (Cert2 (0x237db2935c4432bc98005e68cacde68a193b54e64d347301094edcbfa224d3d5, 0x124077e14a7d826a707c3ec1809ae9bafafa05dd6b4ba735fba44e801d415637) (0x0, 0x0) (0x198402ef92396e65c4ec656c73adcc821a22a799551f5341df84cc2bfb8d560d, (-0x30a74d8a4c7c732068e9b15a0e384fe72c67559e238efc86de236e5566828cce)) (0x13253ae763aed78183ca7f4e26798a9f66af87daeb42c29c414d5d89b6d91a03, 0x1ac5a984b13588ae20752a246f497423bfa31fc3a1cea24f7a85ad571cf7fdaf) ((-0x91bc9da82ea428b0c63000731c0055f8ee09fe3e2855df7c1f83bc007242e25), (-0xae26827fa10d79086326cb4becc548ae508bd9492608640d8ea0348f9e3341c)));
  Dbl2 (Cert2 (0x1cdc044f17999227eabd56d4e922fdbede24b697392faedc10e0f871ad009ae6, 0x2ea6893199ba1c165271f9cccf0de11f968c39ce48b1964880b76c0c669810c) (0x0, 0x0) ((-0x1f77bbfd436ce5e9b20bebf33a5e1eb6d9a3294930f69bbe0d91d1c75d458938), (-0x808610e3ba138b5caaccaa6794a606e44f05cb8ea498541eef5a170bc6e4b212)) (0x1109056d9e342b92e88e9bc6a08fa5821d2a8bd7428ce2e1369ca013613adada, 0x37a4585b5463a107c0a4899e82417fa3a98c6f3d15af44bf17fa22a971eced9) ((-0xaab9170aaeffbcc473a313749adc8c1ac100885b130d42db8a3b3ea6e71319), (-0x55bbdce29fffcf3dbd3fa1268d25c3590248a314a2c5c56ea0283c26f6668d0)));
  Dbl2 (Cert2 (0x2e2ee370c33f7a4d2c6c223923ad074f11207b5eecae53e329c58e6e11c2beb, 0x109eb5bd1ce2df720dcbba8ed7071ff267537d8b26edeef61ffcfe67ed10403e) (0x0, 0x0) ((-0x144783e6d170ee0adbb9c6f72a8ba295ed9e0df6ae2348b7579ade7d71341bad), (-0xb4bc949c6bf903ee5961577e7c85520664311bbe165de16a88eab7c8357b7350)) ((-0x5892fb146ce3394193312ae8504d09aaea5138fb6995d49a32efe2e9b1773d4), 0x1fb90a048945d669f11a9e459ca2088b76773e6d9aaf71cfc830a55a11a3f3b) ((-0xbea7b86efa133f6927ab69f803c9a0b5822c646d14c0aceff57a0cc27654f5a), 0x825d96dbacc27c0e605234035f7c08133625674e80fa2bfd48c117ed2976894));
  DblAdd2 (Cert2 (0x18e9fa33669b73b03f6de791c3835be958e630b01eb6200d39f0f054d3578661, 0x2ff07983a0867503b196fe1b0c9d186063142cbdd68e52b3ae46f867ca46a6ec) (0x0, 0x0) ((-0x65b0c78af6fa0f792ec4c7e7657ba0a055cbad8b4093d1982c484f2e2458ee48), 0x522d141522519367540b498e237ba6529279bfa92d937425826a8aa3802805a2) ((-0x22aa18f68a511c52697d30d66a185b3cd857b37b5da80b696974b86bba8308ed), 0x315caf74a847111ffcca360cb8dbc1cff48f98011072d1f8bd30680e05d196e9) (0x1b1d5cf5df349e46095abcfaa4daeb8fdf38401c8507f5694eddece6ba909810, (-0x23bc4e2ab36ed6cd11685fcbadf100203d5b25448a904131f40cc9283b2db5f1))) (Cert2 (0x26e7be1f96900307f7637699c05e6c614f2fc6b1a0c03feb64550f73469a0b78, 0x2aa71014fb5a4ad574162b9d11a98563e0ab4d546fe924efbab1aef3797c1e95) ((-0x1f3ab744c7dce66025fb58ba30b2bfd17e2d8e4a43beb0234034444a00e30b2), (-0x1b199851dfde5a7be025fb84ab960b6573986c848ab884fedf1db0eb16c12367)) ((-0x79225daa335fcc7aecf1f9196bd6a8b22936f8a091ca7f38b630540c5848526), (-0x49816f4db834ebf028c5f2c8b3cd5995ab1242a20bd713e4bf6435fddce1155a)) ((-0x650cdbab99314f5fbbd8e48596903ac9aa210579fca64f8e770bcffa2ef37a8), 0x44950cb88c610e3a77ad0656eb7dca7b08b6acac76527d205c6b3d1bc07862ed) (0x132cb311fdf3fffd585d1b4bccc50bd7a3a86ae9dbb257f6ae443393bc34dc03, 0x1e41f6adc6c498c5d14cc844e12095623d259d4c38c8a72383fccabd7578f6c6));
  Dbl2 (Cert2 (0x14f2369ddf806995ebda4cd1ffe14ba35cfeba28445f5bf52ffd323b10b91451, 0x1b538a39d2c2d8c0dabe64c3f830dec4f311a033edccc90bfdd283052fdcfbe6) (0x0, 0x0) (0x4be49b0dd64f25be1afc9d4069f4af46c7533ddbed0fbe68681d5f153042392a, (-0x10d2726c9d445dfe494264de3331a2f1cec7be62f92679957a45fdba36c0ade6)) ((-0x65d4c60284c18bcfc9916bb1f102b470ec72157a65e99f2bf95392a043731e4), 0x17a7f7253c3e331d850b72a429d4c9d301720dc6c55583023e977e282bf0123e) (0x35f132a4f44b93a31392f1b6228dfd97a71baaeb647c9d7b32d6d263bee98f7, 0x1a71bf09d22d795a5ec8797b4535122f06c264362252941a84fc1991b0a922));
  DblAdd2 (Cert2 (0x2a8391b609666cf286fff9e96b024ae1e95132bdfa70564a4a52c3f3b55b5d7c, 0x220c54b7318ebe40b1531585d230dd3c2090c4f41d397bdfcf32eb2270c6923a) (0x0, 0x0) (0x32fce43bbbfa0301ce4a5ea1c5a87dd935edf8ce0c3100077b9e02abe39c1fbb, 0x115abf0d5e9a8d737c8da2ff4513b1ae69f12c9c795950a1c0e242537a304320) (0xd64d9c8d7ba8562806b8fd4711682aebda79ad22fd8f1f189dafa4727fdc029, 0x3bd337227999e5aae50d5b3aa07714b328a05c67bcbdbd5437e5bc18a0324ef4) ((-0x15f93c6fd89b8001344fad0adfdc3cd5c93b4a15a2f2691ff4c86767911fffc8), 0xad5e24de4cfb978ccf7c69486155612cd363415e698870d46d8aed3b0bc3615)) (Cert2 (0x1430fa04fdd149edd1ca0858cadcd5e9b38c0abefacf4c96740fc266eacab313, 0x1a84fb29b2a3810407abc7e57576183a7ae9ccf708ac398f2fb5ff0339a19cdb) ((-0x1a57a4c260c2535d2f0febc12fa2ba294f6c77fb81500ca805a1f95b130c551), 0x5fb6caed7881e2eca50e5be653edf540f9c787a7e3545f6baa39f342d747657) ((-0x1aa294dec8f0050909bd0063281aadb6a508530359568e54b43ce2873dda409), (-0x12b3e2bf0ecdce6625b531d0c2ac4d29949088e565425cfd84cc8843b70b40c6)) ((-0x61bba6fa9de14611b4a35eebe865db629d85f1cf17b0de8e65cc38661b47ec9), 0x16215b33f7a69d52936388fecbc673f221d78b6f31c26c0b8991afbc58f0e89d) ((-0xd806eaa8e5e1a363bcfc34aeb790c73de546797e4950fa8b0f70ba6d4c74c2d), (-0xa3a8aa3178d9430cfc24cf89dc6aff0e3510d1ee51ca9b4665bc5f350d3f3c7)));
  Dbl2 (Cert2 (0x260c9fd9100ae1761cf0d77e0651b3c7be393da7d3aa89bbd5fc27840fd9d98a, 0x1ae2aaa967f536ba3e9d7824fcdc46f5c8d2661895e25735113f2ac119bf20d9) (0x0, 0x0) ((-0x6efe6d99d9e667c6842f22fd5975206ac55386f6b364181ca7afba6cc350dc38), (-0x2e54fb451884db7a0a5f45a56fc46204995897f0de648112a651f9d35148e44c)) (0xefaf5d78f637e308726e3af58b023effbaabfe543c20df46ceffb0f9fed0b97, 0x2a4758e0199637ddbe418928af4e2e5c06866c40e84203ed6f4c8c797a3e661a) (0x13b75c433b6a991bdaddf59c01c7ac6ff8e85bb956ab1c7d4cf758b94e413e14, (-0x71a06e1ddfc46f51217ee30eecd88a6073804cb7bdf13a7cc2add05a31d7a06)));
  Dbl2 (Cert2 (0x18cd6c297b6fe0bcae13223bd9067e6bfc9e443b4a0938ceb41dfa335cdc2397, 0x27139dc63d9dddd6e4d60fb10ebdd55b914483d53f23a88199ad739e89bd2d26) (0x0, 0x0) ((-0x1cd3de21b9fc42484e635a49e765dd36406802d0a2f713bf5fa54455766b56d8), (-0x470c4249479780451c8161423919bda28a79bb60ceab10b7dacf4070c0616dc6)) ((-0x12d7acfc21d5748938615d61bf2dd6fe2d59a053ae64c9f8e757e9cda65a050d), 0x280e60afb7779d3e9a32c5de0fc94ee595697d7322e194316da9d93bb343675e) ((-0x1db56d12e25cb9edf0fce9fa8550d989c1ddd7381f51a8ab0ab6d759c9a497a6), 0x59949535ba6fd784ff67adaab3b39241d3379f18df9054bfbba1955eb09d8ee));
  DblSub2 (Cert2 (0x25890fda3d70c96b5b0016f9c8df8b5402ff370b34ca5115aaf7d905a3ade54b, 0x26a3e83936ec96e5f309b9fd6fc23aadb52c9a2fd7be5c8e1004228367f34d7d) (0x0, 0x0) ((-0x7a0e5e712a57fdc4a6657f0d241b44aaa7be04774738adf3eadd0319c9277f86), 0x58859811781c3866a03bc7f4b0b3e82ee13a4dd4f5fb416c22b39e83729e05e6) ((-0x1bd3d2620e4d97b48d2fbd31a91d9fef050679519bec3e94ca53c98d24023a1), 0x3bf16e38dfef2ae77a80bb1e5d02fafa15f09abba51734adecf4f1ac9917f238) (0x247b3017ce08d11e87c7ef3e0c1a5bbf1c6087c34cabe260c7c03c3a0e4156ea, 0x1a8ba3eeb572f282186a652e5852fe32f124921521d7d768b5b40c60529b0ca7)) (Cert2 (0x2d10699c76d0152a510e8f0d71bcaf0a8727a58e5237f6a032897c99fa11432e, 0x2aaa33f89dd9c8d27e68d9ff604e50e65a2693a7cb2d6a0a624e1c44e279ace9) (0x4b6dd2bf1d743136e887f7fdf4b55af3a76e73c2ef8594c9a4fb50047d75f51, 0x24f193c88a324711fb4b29f8a4a11e956ed5c188c0482da861d3e172ac1e884e) (0x860884d1e1478cb872786b7d1b2c5c3e010ccd8651f76fc3d90a21b94a882c5, 0x2412c395e7e024d26a10e9174dd14b38b76d09edb07635fcd7762072ea23b65) (0x4597e46593343bac4abf3cdc25d8982ac6ee9836c15864b245a41488cbfa014, 0x4f7641184c9117d8195e5aace6f436241f5e4f0664cafe02b6c7ad75c5963502) ((-0x57542ab83eae5383e79e0eb2dd96230f3e694c878e9b0fb9467303f66fbd201), (-0x2625b08b38b8430abe36d4736bcc4cbd0e6d17a386215846b67d29521308e113)));
  Dbl2 (Cert2 (0x4c8d013221133f041f4edc73c738e19da441b35f2f65b30246c07c634dc870a, 0x2d2bcbe819a6cdc72f661d7ec788cd97a48ea0cb10ab7395fe8a0bf228abbb45) (0x0, 0x0) ((-0x394294a0f00839f8b75f41f06abe1a751f29c6e89112d208460b0a7f859ee8a1), (-0x10253eda5385a1fca45e96e1cd26a91f220e0ad7d4d3e8242a4bf8bdbdc03fb8)) ((-0x29b111200aff93d5ce053fa3c0caacda18dce944bd833f0657f171c6d52d9e9e), 0x8ee96eb51b643da01aab67b94a6c541a2a129fac819ae7a36b624c77ed178a7) (0xf501b661dddc0079f78bf7b6da279d2e5881e04953dac65fbe3db49c70b9e28, 0x5b7be4d732ba7725d15d9520a6b6c9636c0fddcb809749e862d5fac165674a6));
  DblAdd2 (Cert2 (0x1618ecb56448ce5acc11015026446358f8e091323fdca669c401ae213ca2746f, 0x1ab824534d91970005bf21994a6fd41b5c56b966d21eabfdc869de5703f34933) (0x0, 0x0) (0x364a21d30ecfbf44a9a4c656e2e95f9fdacd02b87d573fa8851d5e0007832246, (-0x30c6f9afe31e0e2e3b21e5e779d62f944a8df4479db13d084d7e5beb1c95153c)) ((-0x4a99ae286945feee6562a57f96fcb68c154a8cb45489849134768dd33a4ecb9), 0x1866e2be0e1592acc520fbbc5b798bb2d815b390397d0453fadb643872338f11) (0x24439d19e0cb7cbfa2be4a98eea68c3283d247faf77f6c61efdaf1ac2af91f6, (-0x39eba2e2925092f5a0af6eb55b15b03ae57d593cbcce8b2f13a833cde16d698))) (Cert2 (0x299c43465806bbb64a55ef5cefdd43aec5eea15ea4f4f85fe06a7a9d2707b192, 0x2b6ecff18ab4404426666b32d63c5c50a3412a4fbd9b05ce514bf981cc9af658) (0x17788dbf6f4dbb2c71f7cfb4d3fbc5f3227bbf3db40a789f2f06005347fa1a13, (-0xe2b35f6418db4d6f05c2cbb7f67e9d51df60dec66adae6b4dda9e40b017e6f7)) (0x321864afd2e270591b455cb70f2164e10d98371dd45dca189d56bb527eb6ddee, (-0x25db5b107ecadba02710b12b1131ce87639f15b6873f0296cbe92fd1d657ac05)) ((-0x333e8b40c4cc326cded72ed5ae28f9435ab75340c334087675a8226a7ce6917), 0x4ab1571097aa975abbeab2779445cc7fa0577565ad0e042f2b2afafd944e45d3) ((-0x1cbb8cbe3db825bcd9cd694a26208e69c097f76af8aff9c9fbf1efeab922c481), 0x2ac9139e9c9a519872502c2a7e9231238932024d50bceacb628d99b36c112f96));
  Dbl2 (Cert2 (0x1a5eb1f9495a988d164acf56c57ba2865cff1a9656aa78cdac0fd6ed1c7e7d00, 0x1a7b7f3399febfd129703e83e3777ddbd472eb7fc12571247d7b8112dd444d9f) (0x0, 0x0) ((-0x171d6e202b6b15bea74b908df18acf29c5b0ab4872065e49637a01e4bb77bd85), 0x24e40f6cf34c8df8f3f217c568433d404f8f598842a51aab9ecc713a7e157210) ((-0x1f74d9e82bed6d2058bc7ccecb6abfcac142d5cea4940a2d661580a53cf31d), 0x1cdca1ba1a024115cdf7648aa914ba20c4b5f6762cd067fb2b63935c5eed12dd) (0x1117b369a660dead17a7232fe490f18b3acd22d193f59b7b6576cf261fecc9a5, (-0x12a736551aac2fa2150920bbd11cfb57f71b6b6ea029b3801ea3595f195bfcdb)));
  DblAdd2 (Cert2 (0x25235017d3bd80caeb43dc523842f8d75dd1a7691727cbd4c7f23a6766fd0228, 0x18d08dfdb973fafe4ece6fd1dd6bc798d90d08fdf059114405ffa7194c140b47) (0x0, 0x0) (0x64e5dc22c841ec3e0a5b7c781c001ffb16320fbe7e4d8a14e4b3801ff0e61e79, (-0x2616259f8887be7d6f59b0f82b5da05ae0562e8b07af9ccf7b1bc8ccdfbf1bf8)) (0xfc6d001ecd7d151bd72b38005ef09a7fc08d77e80e077906f330e019c59d2d3, 0x261670db4e6ae0aa45d423597cf0534d3b87bf3232ed754ca502f69ebb1b8781) ((-0x91b7716e9afca4bd072f274f16a3238b902b20cd996e39106111682543bbf7e), 0x6a672bb918c152beb575fba411123e384901db5a594954240689191eb07f7f9)) (Cert2 (0x736e7b9e1bb1e9351335aad7acd355e78de3deb70b371273da0870a4a61081b, 0x14fd5a7f431ed7b57c4e37321f98a3d26521a81e8f235cbbec3773a162f1b40a) (0x22d23c9f276f16daf2e4486b6a09389291ce7ac15f0d358759085ac0aaf24b7, 0x32152bd2a15d7a50245916cd738aae9baf7b66db7b849ea879196bb15e9277f) (0x5896df4821175d5bde8a0aff222eb8007fc98b343e5db22c05241baace8d6e6, (-0x2b8b906943bdefe8f739599a479708ee8d2b052c80cb08f37f2fcc4ffa64fad5)) ((-0x80750946e23778b1e3aaecfc3e93137ac90581e3f117c33156e9e92c55a8524), 0x6422b05b301aa8880fb965d4e1738cfe99b586b8b6aaefd1a7bd741522ca66c) ((-0xaa4352247e847312af14c6e0e61e6c91cae495ee71f3d0ee0a5366e0ac0c323), (-0xa72f8a4cfabd25fae048a137ad118800c054fa71147fe6552fd587dfce613d9)));
  Dbl2 (Cert2 (0x21df407480d46d504c464b09a0e09ecf65039414f79bdf23538e6006e0f39770, 0x25ffadaf24390509b734393477c7a4a877006ee322b30f22edb1a871b7011ffb) (0x0, 0x0) ((-0x8c18e2b35b94240947d0a3b067c505945c82c03271782d464b1d5fe483637d13), (-0x63f78842a150650de8bdbb4e944d68b0423a0e5700d08cd8a8021d20df483ca)) ((-0x620fd452d8714f85f1eeed4e37bb64913600f48c86270f5ede2998805c16c7b), 0x3531ddb7f9d555525107659c370003964212d6e47ebc0a725e8d23d7e802a374) ((-0x33a34d43fd4bff37f913f9402d382e5e69b393e1b46893c99d2bd9822d0493f), 0xcc6d3aed91d1a038d13868c37c3f19d19bb2817521087a037b8fb6ff87c623a));
  DblSub2 (Cert2 (0xb0f007b7034614498df735760721678915daed53b1beebc533f4a323c9b6fbe, 0x17f5349aaeea2e57cdcb26cb1bc3a341f9bae424f9697bf1400383ff082857e) (0x0, 0x0) ((-0x4b43bb475a3e02a0de1deba84444ff8d8da22788e2fad57b157ca69ff8c982c0), 0x1a8c76493492b272e541c7c3984330d457beb064619984bb4afa0af324e2dfc) (0x27b15e0fae34652c7b8bfac449da80eb2b61531674528174100d32bebdb95e0, 0xaf325651a9f31cf33ac99b591ac43881086855b674e313b6b3d4bbfa2ae162) (0x9550486deacb9e5e145ad8374bf00b7e7486409969cca1f367b26659d98a8e8, (-0x3ebf1dd4b486bc318e52bd420d9ee6a5cf403cc3a0f3f28b6aff6dd2d90f929))) (Cert2 (0x1563ea3d23869ebe3520991de5ad296429f56c800df3c9446bd2dc16673e4cba, 0x1303b1bfeebed02cb4b6d0ea929e93e8f9bafcf53ffb821b675a2cd7bb0c2696) (0xa5c07f74dacbc2d7af97e5f4dbd1104e84632adba8e142fe5049845e1485fe5, 0x97df4bdba04b504fcfede263c1b1661ab75ed2f069f3e1719e1a496527a53ee) (0x24d42ea38a08fdfd0e9f5ce9211056673cae686e1b94d74a2b175657794e531f, (-0x18251fa1d5bc6df5da749486ca3d60f4099a4238d0e59d1f77354565e78b3f00)) (0x1fbd55f9f1d2f3e94bf296e7b45ea1c348be45e0a0d0e1539bd245daf71c0b5, 0x10cf43be1df1cea1690848fcfc6f2e381ffcd56a44508e61ffc47f7df4209b64) ((-0x63c35a08b43227e5b9ec3dc1e47704f83820a01b79a5d89acffec77173b6c4c), 0x71b02253f5c000fe37ec8ad97eba7bb7fed180317eac5c56baf6cf7398e75b));
  Dbl2 (Cert2 (0x70d3d597fde7589fdd4b6b7c178f778585165977ebd5bcd43d7b67dc6f290f1, 0x10233e2a885ab5a8ddb192e04b71404589956f1cc38fa2c9eee6f4aaa58e02e9) (0x0, 0x0) (0x7ba19c1c4e8a7403e0ca1e7eaf8f9ea07f4feebe691c829d9bf6b9d5320657a, 0x18468edaba21a145986edf66b445fa76afe9267b4919dcc3de98bc4a35bff002) ((-0x45a9f3258afc6d6e6cbef8676adad4ef9103b66a53bb75f6b0a02e7fee44c61), 0x4b4051421ae0bfe60cafeb6f8b6e56abb8b84ecd557032d183dfcd7871ed461) ((-0x57ec787438137a356adebe9fdf1723d90d733b6463bf72783db94ef830b7b4a), (-0x990c213a6ccd6424b8ffda8573c9bb555f9feb433a3cd975be394fbe8b5c325)));
  Dbl2 (Cert2 (0x274a2470605a9266f4df275598e01609946fab8ec7e20b0679a9186db08d1bf3, 0x1e6e027663222dcb601f8c620d70ca23f773e2650c6e5d29ed6c0c2eb6b52817) (0x0, 0x0) ((-0x36d36fdcab128f20bb9e0fd9c8481c68987155ae5fea564494503cd47c43f784), (-0x2b8fec22373a61bca63e0ce83ff3ea9f5714808f0df13b0398bb2b85d65d8c22)) (0xcc3c1d74fb6a3859888a2c0c8add719e89baee08f2e7222ed34adbe1b0678da, 0x3169837d25e239f39d2259b914c8fa71e2f60a80bfed079c30681c4509de6cd7) (0xf40dd3820c29169b02295fed079ac6eaeae06b85805075d66dd0ce51a1610f3, 0x14239d0f41d385051a8f42495e8174f7d321561b0e9237ff283ab5ae2b2a2b0));
  DblAdd2 (Cert2 (0x2580f33ded38777c00ab4583316c6e6dfc94c9861207294853721dfbe82acfa5, 0x14fd951c0caac4a0e7c85df513722dbf14f17cd2d0a282e490afa0b7f241565d) (0x0, 0x0) ((-0x4fb2929966cbcf443a43c0e36bafb903f091e9338e361c2baf9745f8faad05d), (-0xac8ac33490880d4e8fa9ef97227cab1cccc6b5c4f956b9c91af833cbbd5aba)) (0x13f5e3450b1140886c0dc8e2880c6064d827420fa3e744ecbca82de7cb45b1f5, 0x208910558d3f1f7f8069f3883de123927244961b3b7c19dde4bee2b91cf81171) (0x3088a52426dc99a28e1f87840ab6953f32db4df582cabff742cf5771564d072, 0x1720210c5a496266174ddbf5814924da9acc69cec7d747fc5e646ef26ed76108)) (Cert2 (0xcf13206c2f6628b5bc159a7b3094c3be6810217f9f32ca24b6554913e7e4807, 0x77cfa13eb5e18c22887ea5a48c296a5c5f2228a0ab8276c5e404ddb207257ee) (0x1f0bbb6aa1c7132b2537333ffb2cba0ed0edb80a8c4344d3b9855b5a221ab0, 0x8b2217c422fa2dd3d1422fe6d7756a5aa1da135fcacb7eed4c7499261e0afc5) (0x18e3a71aa0fc6ef65c69c743c757561c9c84f829cf26e5c6ae1477f8c23bc42, (-0x13c5221dbc716bca848e47a1a6edb48e19cf9ba88a76b48dfb70329296e623e5)) (0x24d76d7fbdb3cf6bf32909ba06490b42850b355fbd610b6c0d385d04fc465ae, 0x4015f8cc18c30f3d2e94fb2678203db5170452d4821a7fc0de84276aae1b731) (0x6ee33d87a8030b5e2a8a5e34610970f25f57a07d0091bac65878204293fd794, (-0xcb2a3d5ed8357f6af3a8b35a88ce5ae0f85d6e1f7b37a4049d5dff1ef72a984)));
  Dbl2 (Cert2 (0x1e7634fcd3596082bab85f4a3c9dc3d0ae3a0ec7dbb1a8319d60343128f2843, 0x17737d22b5584016dcbc8b5e446d86def6671a46ed60f106bec748772b2ea954) (0x0, 0x0) (0x80d2c4e5ff0e3809d39aa3e18fc9a5a1dfd913ac3f7a75648e746cfb9ff8d69b, (-0x110f1d98935991864aff4743edeb31f7c21ea8ae9d8bc74adf00f4c08ccc0088)) ((-0xb4a2beb189a5ed917ddeefefc9036e027362380462b25043007a7f2d544b07e), 0x1d862ae9d1967023fc1abf32d5ea4f088985c858684fc8384ecbec901b2a251) ((-0x1651427db2fb60d2978a35861aeec4d9e3b68a873c6a430dd95d6f3dfd3bb04b), (-0x6b7c56cd151a39e1e64601c57b865a6eb28186a33e22a1214180aabff8e97a7)));
  DblAdd2 (Cert2 (0x370b3d5a75760c3e7db6889d9a955a3afff9c50cd9ec6a782c6ba9a8ac51a53, 0x2544308c5c90c207cadddbe6cd0e58b2e77bbd9bcb24b8442a145d27caa13d6b) (0x0, 0x0) ((-0x632d42a69c8ab078d3c36fb85861e123c499365c5b3f441e12f31ae4ec6c40ae), 0x17b78283710d9c01db49b507948cf2b4735400909ebd5e23c26889c484517600) ((-0x1c74413f4a4a6c5b711f50d3c3e19e8e528945a7d2199939f6f70a7d842e0fc6), 0x54c7398095bb0eb528ba1a7e113145ffd7f7e1d3ad68d13bd0ff64873861709) (0x1da0b04b6e9ed9e91819580d5ab5e9f7f035b206b9686c50873c6de28045b05, 0xe864dbf48b921858b6968b47f5af3ae10bb9f9922333a99f3e61ef9d8b7d94)) (Cert2 (0xa6f889890e4211014e92314dc3bdd2aa20197d68736faea753ae69ea55a2e3c, 0xe9d504de5daea2c90edd90d696a12ab16244472361468c2f89de8dff9542f27) ((-0x690835bcf29ff51d55ac4f17a2637d9fcd3581d7dbdf891a30520b627adbf14), 0x365b7fa4d0338480c38df9e49632bf2edb2d693986f51221ff8633576ee993b) ((-0x1cc5aecbd496f54dcdf48e63eb411668d18cbe20f6bf4ac8590793ead4b8624e), (-0x1932c5f29f4fdc6eec580b53484810c078e56805d1fbc14edf02f5823f2f84f4)) ((-0x229c6714b713ec395e763ead31a73213ca097da96b9987a19844fe8ae012743), 0x64da0314023f071523a4f1ea78121aed497b906e7da1fccc017a65e368158dc) (0x88fc8e196f2a075e2f9a7ea85cd1e3093d60cad55a4841f467b8c635ea7390a, (-0x375fa2c88d4535663d9ae562fafaa8110c97de695130bfcbc14b754aa01297a)));
  Dbl2 (Cert2 (0x1056dca4c59df53f31ba01548e29baa1350b1a1b49b4e18f64f6f4a0431648c1, 0x3bdb062b424277a24ee9fc2c9071657c8236e8ff3631796de74e15ac1583f61) (0x0, 0x0) (0x2f277e7b011d66c2e638f1945d08f12bd5acba8224c66c52a1d18e6970049e0e, (-0x2f7db99848b25e483f7dd4bef3ebe9eebcf4ce2237a2c060e34a1c188229c518)) (0x53a4aa0807f3b25135241b8d5f42a964d9e9417a256809b5045f6f87d2fa3e7, 0x286b83d8ce571d9b82732893e0eabee2555936ad8f961c0e6925e25ab61f061) ((-0x6001bc774b219328d58eb40c464ce91934a16b61bdb957e817b9dcabf72a59c), (-0x548a1443a569f20817731c0cb471e7b3898484c713a4984a25fe8fa2b48eb99)));
  DblSub2 (Cert2 (0x14bfb521533a349a42b1da263b33902f31cbd1cd999c575f47f5274e543cbab8, 0xaef99fa8568b19b804320fc69df181b956acea4c4c0dc212d7e207f6be72cce) (0x0, 0x0) (0x117b21235eca5e51b715554f8461ddf5ada75f48366bac89235e0f2c2ec965fc, (-0x9c1c688403d8ecb0beeba1a6ff6bfb6f2caf8f2fa803c16d934f2cf2a8589c76)) (0x66cd09035d5653d11c5e2712a7df841f8f3c6912708f275f7d17dd8b7147e16, 0x960c21af6ceeb2f0a5ad31e4038deacc76f496208b65967688dd127f28f5e36) (0x26172285e2d3ccfe55307bb38e5faed5d9ebd73862ab99438b3de38bc0b4048, 0xc2704c4095185f1c9c9a609f9a8525bf7d0944302bdee71adce323b3ad009a)) (Cert2 (0x50f04e89969701511d75868c003a8ffcec479b87b602291c937344456b18ad5, 0x26d3e72d2ec039f9e53c06e3756c80b2a9de02c53aef43cd703e05d35909f4f6) (0xbde9b447a7a56a6b565d80e9fab9362361f079a5c336b49e4601ef6d576df5c, (-0xb85e35eb0f49b105029d0438981576f8f325978e2aefb3521f8fc5cb64a445e)) (0x125a4a499379406642cc6891921c38cca170c18cf4d9308dbd7f2f16083ad2e6, (-0x8233e703f1680a7b5a59c2219414330bf48a9b871f96a08be361c6073766ab7e)) ((-0x1ea005af9bfa7bc4cfc8d91b279a19303a326154a2feca3143db55768b98048f), 0x81e25cd043392b1737b43f21dc637c4768c5e820e75f57867ff00b1dbfbacfc) ((-0x178601b38933648cbf701e0263d58540198a2209d6aeccaaabdb35710ef28714), (-0x49f0675e3ab0c3a560dcf533cafb0b32b39efb781835053904c464edf39977f)));
  Dbl2 (Cert2 (0x115a98deea9fb764d4169b680e34baa385a2ce9f63ed6c63abff19ad44775888, 0x9543916c3c3fb94e7e4c6ceae58f3f19121a3e96b1cf99f11de85cfb5e7a461) (0x0, 0x0) ((-0x768bf8e2d3a4bb9ac7d5db7a4a6265b3d3efdc078effd6a0728f7c380518d215), (-0x28a8508b505c65eeedc97abd5851d8742cdf261d35b5e748191ebe13dc35f250)) (0x46cc442e7f2392126d81ca424c885aab55342d636c30ece27676102dc081875, 0x6b0e43ca5c904741f33aacbee4c025420d8f7ef76c02e290a71cee18a244c65) (0x2139829eac8e956125befdd91a17a7c65b8fae3378d8c906b7a3c68b8f4cbe7, 0x4fc9e986c575f88a9577b14288a2c34d34338769b85cf773a178bf22b24a24d));
  DblSub2 (Cert2 (0x1570a38cbce2347463037c307a963bdcc7d43aa88f5c70b9a409032b22abb23a, 0x5ac6bd05ffde4f299e7847947381862680da8d8adc54c9805fc16ca46ac9463) (0x0, 0x0) ((-0x45f68b1b7a3ead5a6810a16a68adb72cbbab9e43f05b3418723efa6fbb57887b), (-0x329a909e810fd84bdd50f210c38afd46b9ad559b288cced3e4aba93522d61dc)) (0x8d575237b1eb9b2b9e1487a89532d8e6afe9d06bf492ef27fa8b9a8cc565d7a, 0x506fd84de1f9d388bbf61c7e431792fc8384ddc2739314c2d23b934eb05fe91) (0xc1d1302730937bbfbacf6681a4a1d37f5d3b6dacdf2ad14f323e201deec483d, (-0xc3531e9d3cbd38d67194d0e8ee9b89c1888dc7fcee2f8dd084335debef02923))) (Cert2 (0x86b5246b170b1cac09c4a7e77eab5bf8e40752e35c3ba7c9946210b3bd50da1, 0x138963de6cb7c4f1248d899a21c26d976119f1011e060c19397930829eba717e) (0x64e0673d6986370cd9565ac587c805055408f04c93923ea65144b7041b51b87, 0xd14b283ee7c52e1fd42ad9f717e49a270d92ce0f44eba2eed82422d5f0f4d8) (0x29f87978495c01ee861f74f9ad928ffdde003c5401f862420da4836aa3e7f913, (-0x4501058acf8eedeb1de563acc164953c6b90706c191d7ce34fe52191ff33fbd2)) ((-0x66c2bbf194440a633420420af889dc6547be6c8447b8c8384c0e7868d10f3d2), 0x6cc496bd295419c309d9ee4fe96bc51b78d18fe689342c9c604961a66ade0a1) ((-0xd93fc62d5d705853efa45d916552a6c6e28a65d090ac8b6e5440be74d0373f2), 0x65f1fcb7061e94e9297ad3d4dd072a928e0a61f0c544ee79c3a9db870eebecb));
  Dbl2 (Cert2 (0x69526d5c00e9ea2ad5c810ec35c68bbe849c9ca082fcedad18132469e5d7c97, 0x1a6a5c3afafa1715f0d8348eb64c330b19320185261f4059962e060984034a15) (0x0, 0x0) ((-0x9010f7abffbc2fbe950d3da031415514d3326426e5113530d73c810d3db9c87), 0x16cec2fd72e2ea46e83f299f9108150db3a045c7cf86d61019b88aa4758f6e12) ((-0xd861e3d4da3c6586b054b2536e464213a45472245181e83d98a350deacc9fc9), 0x72fbc42b251637d384f4b1ffd9506276ba7b8d045f7484f8c6f199930987a40) (0x136d07d7d03d6c6601c1285f753942f433f2ed3c2d51ed5e6ed28c4c22043aa, 0x772b96442b26fedaac4987e84d7f41c038dfc78c9e8a7e6f4db13948937bd94));
  DblSub2 (Cert2 (0x2208bd69b3de507ec4528dfac65dcfb9e74cb06090c5dc96bf5d0565dac94ef5, 0xf9d265d9807640706dd65da96454e02ea155c247041cbd2385dee1bf49d7d28) (0x0, 0x0) (0x3959048a7b5dd033c64299697705b0b2897ba2ba15b151abdf6d9969421e80d5, 0x1be8e394e8de78b0947724e318aca2e1bde6c887d9e634d86c83bb3f4f0d34f0) (0x12e6000f1bbab73d9b4576b44ae6cb74d273d091bc6ae63f4764f9ebb937cfb3, 0x15f66b5c5f6521d5652a816af771ff876f08e2c18ff6a5c1c3684e240d4217e0) ((-0x1473df6b74775589c89b03ba2eb67a1933857564be4f593ba46338e393da5ac6), (-0x122ff298da7d412b20a74093ef43d462b2759b256bb5a1fb7a4ce9a536dd37f5))) (Cert2 (0x6251ad6239f48f6bad0ee63429407c7a5041213a5a86f13e5ce796fa47fe3ef, 0x164dc5150342594a57c99c3adfe98cc8cad2071d80e90ce34e3ec705ea066d46) ((-0x7406fba21312c12963e4b10d72e34ca9467bc03e1fe5299dbab5c65c0faed37), (-0x3f221d06d935b46bf6f6c7143fc59751d0212e88bfed518ca95b4dd600d9272)) ((-0x242a2ed56de805f6546b421bad6312aed59425af2b0957fde4cfe9ca65d6fc03), (-0x39c3487df59f72f6cb66d97475ccd43e5cd99d3519f700457624c31f7918dc88)) ((-0x97fe00138129fe03860ca60acae4cbf6e18d222e55da5c8cd04cc1c9c427fa4), 0x5aa167f85d5d76ff812f01478d0a41bf7ccc2449e9ee76354ff3e58a2f98c9c) (0xbf60f0b352e0517c4a9e0913b9586e55ca0d7c4764ab1e4e7feb33653e06a5d, 0xe57b8a8e0d36c224cf65cfc0fb288cd663f1f8e04c28d8a32d4a6a536fd63));
  Dbl2 (Cert2 (0x257c6b4ca8c0cb626c405788d791da50dde18e12521ff9cc154fbc7d8ea259cd, 0x1f626a2bfe8ab2f8f39991a7109fddde569951d04bb08af06b17d268b385350a) (0x0, 0x0) (0x4fdfe9f73904f17282fb52e8f6d39a9db72916810afb442e7d4a94f3097231a6, (-0x2762ff01daab08216f49fe8c69e42a175f57b31e1eb55c8d6efc06c9a726e498)) (0x8af04daeb1be7d9063b7955fd80a9c2dcf897cc4eb954ef1a7a7e27912c9ec9, 0x309f7b6abe3d94a596513244e46625b50d3b89fc41b059b927a07efc75361cd8) ((-0x9f89ebb4665ba9b7e932ae5bf08117b20d5077ad49314703e822e67a3be93a9), (-0xe76c218f4deb6f38787a5d0c3741192280b8e21e1974b85968d8530316575b5)));
  DblAdd2 (Cert2 (0x2bdde3e70ea59848040de160379d55fdb945d05c438535a9a2d9e3f81cb37d75, 0x2764863437189c9831956668932061a0f082c17e8c6ae813a06978fbcf7ac467) (0x0, 0x0) ((-0x2fad6ac8c5748e006b894804a751eb55e48e4d8694afe4cc1d9c30f9991cb94e), (-0xb9a15bfe44397f4a07ca971074dff58ca706cd730cded8b66c014f402efff47a)) (0x7b2a20e52c4c78af0225ca37845d0df1c2d75685dc745bcccc22dc48752a17c, 0x476b10684c8141bc69cd66aedf88ca1e46de510af5fe3163d462938b23734170) (0xc6fdf09ea3ea63d7b225b6b715708c208d549aec28dd89a263479eb896a1cd, 0x2298ff41685a70cf2acd99159ba493f4845ff46fea45a6c92afb43fe54392cb2)) (Cert2 (0xa14097d4bbbae66366586c8bf1ed1f6738a45a7fa894b579173a59e361c0275, 0x27a3ace65b110a0cf3618e74890edfbcf766fe4714a36394c501643b47f39243) ((-0x422732060b18b1fb377507d4ec4545bd8ec8066674670ede9b22572b48ceace), (-0x1296c4816136b6b5522d7a213c65d766ac14b0eae9a62ac40dc8263bf78a1ab)) ((-0x173987357074626920583354dcd7b4f76210a496c31e7c8afd1e5b4ee9374092), (-0x1a3f08a8e97b524d0c1aa6bca982f01492e0f568cad3501d67813593c30a41e3)) ((-0x1e5ef899fb49bbbaac0cad190bd618e14606afa38f0f3806f3480c54beaddc64), 0x1082c9fb8a9ea0c22073c24e95ace881f045333daab338fe98f8f3c5f7a013e7) ((-0x1e77f7bc16156fe029e7cc2cdccc530b313ef6b9568692f2c2a1ac32857170f), (-0x6237e1f4b6266c37e8963fdbb507f7cfa7b473144d3596df14b5b42e72f6df1)));
  Dbl2 (Cert2 (0x120aff8cbdc8642bffda1d394c5ef4efbfa8fe1dbae82175552b7f957051d3cd, 0x16535518eb5b2865d21004e34acf2719d573a15f8b8118cd89e3605acedbf9ff) (0x0, 0x0) ((-0x2c3b125f663f235b390a2c989fab391e8f199d28bc9c01dc24a170d4faad8250), (-0x11c94f5ea7e06e9df2b64dc16610216cae3c239b964b1dadf00f77cb3631a2f6)) ((-0x3928ffc5c08f456216cea595848ba1a43336fbc2efa5451fbdafe35b778ab8b), 0x10a5f0ae3a14cb6ea760c14641f4cf47aa50640453476911656f8ec8ddd62d99) (0x1199f9127a770d8b3fd4138ae816477872426a2d561a545be0815bfc3160fa9f, 0x6ec12a7b0b6557a2e1d2abb5f41a9de760d5d7d91944c1a2c8c8284b935f756));
  Dbl2 (Cert2 (0xb533812747d19918ca2c6781510261b5322a2b8aaea97762d2fb8e7eb289ced, 0x18743cdb3e7c7d5eb2cfbaef7a3f0a596a857aebb41f1db5c1dc4c3a3e72d299) (0x0, 0x0) (0x55a5e2bc5c80e4cbebd03b0ba16f54a878b6252b73786b615956f2f9a66e50f6, 0x41d21adca313a2ef5033f0fb244eedb05482e0878b1641361bb25c4a2a3bd90) ((-0x9b503629f86ba4221deb5e5f7412f14e7582d4c1e29319c7465ba14e00c5c29), 0xb72267e8e605ff164d646b26912570820567de21cd66dc9a80d67ded5b60c8c) ((-0xb00983bccd754b526ac7c85862225bafbf8eb63768dc460a93fcdf7e281460b), (-0x923224976fe9e343d0aa7972430f0cdd0116ab8c278074f37ca8f3f8f6d9cfe)));
  Dbl2 (Cert2 (0x2c17264c219e6ca4d23837fa7389e0f9dec4e0655dadc78d4c14ccaf9939dc56, 0xb24fc42e220cc121cdac0319c8dfef4a18bf19c0a7dcdb829555bdfb5ddf9b6) (0x0, 0x0) ((-0x75a04fd89219f3008d8bb38a8d0fcc258365ad6b1a877c3fd6ee0db0c5a1245), (-0x4ea3f84e321eb813c2f5457c09c9b879c9e381e9aca773747bbd417d99cc5440)) (0x259ad68d92599e08fc9302edd18a4a29ad130e17b12c8c14e1a2516d924dde99, 0x144ec90c23195842f13ac5333ee99bc6e286d15ee7202257c1afbee91e800bcc) (0xcc5d33eac03d2474dedb39f981094ef3d1bc3dd37040d14d26d6f27261abcb2, (-0x55997e6cbda1eb03d984def22075b261c7c9dbbe70ab3bad4d9790676a37287)));
  DblAdd2 (Cert2 (0x83513e18434e7d174ae1c2ef180b432f2d0fc51485738ceb1baa96586da11bb, 0x2b5d41d66137c8bdd19c46f9ff0608ec158fdcd30b06b4b0c110b6b35a11e854) (0x0, 0x0) (0xd12916bc5587d7cd1e97f977feda52158ae1adb0b8af150732fd831f97530b9, 0xbe95dc035e99999cbc28724d0d1c1d1cf13d40e57b62bf23e657f6fc393a814) ((-0x257793793e37490714f193115dd35303c74b8dd99fcab9557bdb2ea4ee02c1f8), 0xeb595787a4a257b8ba8fd12b491f40b6fdb35aff1341cc009171eefa42f428f) ((-0x51e562e8ac1ea25587d1d97a8df081e0148e619c68473fb5dad4069ef774d0a), (-0xc927c530acd0ba5a68bf9205daf5c81b4b4b8f080655c36076a6b3527552d78))) (Cert2 (0x1628b7eaa59fb6a3c88c461efc6e4332b553822f2653825a149caf595e6325df, 0xd8dbc51651e28e09bbd0ccf08c6912b917d0fee9f9c4057dd077951d5cf8bb0) ((-0x2380001787a1251edb941b44c6b334d22c8e4bfdd6404e13dd098ec7d4bd94f), (-0x503ec90d9c5ff4060a7c33d872c887b03d167a830cabe510601d2ddc284aa2f)) (0x16917655f01ca1c5d3ea6a47807c38f0b7a70579c20e2c90b86fb5c6f923a0f3, (-0x4f5d64221411cf439c81ce914ae7d5e3cd5c63a5d810778ad6d2f9eba25fa911)) (0x659c7d9956361e9927c5f8e13ea874f6fca3ee84124ea1db253fd4fdb94a968, 0xc69a5a9df7a69bf68d0927b186480cde16ddfe9a256f5dd85d6e385c7617a23) (0x27bd5fcf4029f93405c5c11e8215f546cb03af195b4f151bdf6dc7718047562, 0x82a191630ec88d5ac1497e372cc194b24e661dd04b145ac56d0f01272639b20));
  Dbl2 (Cert2 (0x244f6e10ddfff9d384dc6c32d6c0870293b4f518c1258df7748cec7db6ca9077, 0x2fed95e673456dfa7981c7f10666f3591fb86388c8d12a33335cd172f6da0c96) (0x0, 0x0) (0x35460a40dcdaddecf81c426f7f61c1c991d85adc9150b89d8506136936d052c1, 0x27d2d48cdc0c753d7fe7ea681e81480705768780f876cff9a26f0ace24f4320c) ((-0x14394746d503b17c3375f885f33cb00869847019ac948a59e61213999fdd77f1), 0x47ecb2b350aeebb2da0ec11a68c88c09a45c197c2b1a37bc9127e33021f11086) ((-0x68fefdfc1784e83904fb3a9aebbda0d4dd09bae9efa87f060c1df6b2f9ae684), 0x1177a0d1fe06cccbcd274174e1400d6732b3765bb6ec5f652631012e7aa55352));
  Dbl2 (Cert2 (0x24f2c12a26b7aaffa2f395157c54c34aa119ba7a8efaa1936deff7a39057247, 0xa8cc354b844e9322a3fdf8ef1b953c76285112cb59d9946f8736d4c1f048cef) (0x0, 0x0) ((-0x55031f432cdc936c6557bcc3c2185b6e3efe6580f94b684e383fe301a072f74), 0x484210dfddb471258602a492d7b0624e9dc810c536f50ee4710be6b8441151c) ((-0x230947839231b2660d41e69edff3d82a1de6883e7f75549890fdf496d9d6c2c), 0x101c30365c037cbed7a0ef5719b52a969fbe9bef5d63565431662b3e3f84432) (0x6f44ef42fd20d4cfdd33fd114c5bf55180a1f5da00e44b31eaba52c3c8fc053, (-0x2c7d9bf5769fc34a7b9a6fe4d8872385aeb2b8b05fd2310e469c36cec57ad7)));
  DblAdd2 (Cert2 (0x272e4fa1ffdb52faa30737bc0021c1287343c3093dfc3c1ba7e7eac374090591, 0x255b5c65f87c7785950d83447eaefc6ab89788cd561a311a292f3af360f31476) (0x0, 0x0) (0x7c8c1f1c67262b4a515ad0e29449eaeaeaa6e8b3cd4f6ad74ff1b9eb3b5f12e6, 0x26b70af82f4f9fa5b892840428a4039de904432dc85ce7b8bf2aa5b3d8e0f2de) (0x2e28a67717a45a9d413232043ba4bd3161684954dcb2efbabdccca942c9bd9e, 0x3c7e223aa15e3bd12c9303bd31ad1d80251c2d942a98c7e2cb96323e6345dc8e) ((-0x17d6ab9aebe802f77aa58194fcc442c95a1faef8497dcf4b5816473eba583227), (-0x47fd21ad9b3a9911217fbfcacbae06c7dd799e1d7aae20b7fca8388d142a483))) (Cert2 (0x2d3a66f4af6845d81c9799b9e4bcee3cb7d8c7389a2f08ac110ac7323a139c36, 0x620a98d361e4e1fb8cf1a98f4125afa9642f4150b942c25ff68381a85c2c082) ((-0x926dd057d0076f8e2dbcfdf8c2ab5b794b596d0a0af03fcadb01be14bdf9fd), (-0x161188ebe349d80a24f3fd377b0770ad8eddafd72d69fa20b268d04be532573)) (0x3fae6067a426d47704d64c836194fe6ec320a4cbb565ebe847b1dc768525e159, (-0x2f249eab6c32e0575671d6c81cf846b496f0283a16a074c5ef94ac80d4f75980)) (0x297ed0cdaf4e6d2d4ab7aeb9d69095e708d70bf2af2a666d618433662ff0261d, 0xb74379fa8bf439728e7b5a405d743382fd87dbdfd8f8689c45145c38d5d1fda) (0x19a51c7fc02cd0f7cd3d532dc9de3cdb7cceb3a976093dbe7fb3a86c840e418, 0xaba86c69f95d064db65ef3c9842cc13851aa1590b258f594de4709fe0f7d64e));
  Dbl2 (Cert2 (0x179fa9be62f872fab89f2021033e504c75abf8a223d326bef194b685613191a3, 0x1cde70b2e644b35a8ff90c581962704c846d7e614f96ce152f93b83b834f321d) (0x0, 0x0) ((-0x92d89f6d5876149c300e00dc91a234b0a4240ae2e9200e3f85bfb216fbd8c6f), 0x602254b200c7978a33f134a7d56c6f0252a6d1524e0c81a15ac833642e15e4a) ((-0x5b090bcca6dc62618cfa7b2fafcf9689fa1b44b3fe20da5289985235ec7bab5), 0x1c2fa87ed55f1f2c220ef4128b84f6ce3b82433eee4b3db87490e07191ab1537) ((-0x4ef5ea92a2695673894cb9c6d3338b263a4cd87ac42b5487f6bcc4f93879ef1), 0xc98ff07e4cbcbd2fe4f2026f761d71e32900a3d9818b0169307437b651174d));
  DblAdd2 (Cert2 (0x9bd965e2b78fadea8777c9d7fb589de6751611dc76ae8c4701c45a76d684dfa, 0x9d30c9e5c94dd0a67b04d81274d1aebb91a3b12b0f7f1f262f19a96af18059b) (0x0, 0x0) ((-0x1cbe74f111dd8ac988c9d504e5536835b9e655ec3f0af7dad4028d9289cd6674), (-0x8c384301551a385c12f24c0598b454160ee2cec1ff3bcad3f50c84626308560)) ((-0x8ad5862c4332361b53d37452e4127541fe4992c3e5af344c112769021464f), 0x3f47c7ceca8967c15b79d9e744a5899bf454b0c7333681f65a0abf8dfb4b127) ((-0x15a0fc12912c98915da2c14d620fa2130f1219d6b3cf6f9b716c196183ef21a), (-0x4211bbfb15c24ad5f21adc5a273c72b8b56432814569fce0b13cc58f2a03cdf))) (Cert2 (0x27e14c3d3e3556b8fdfc8ac7758972d0090455d8d65f1a73ed4cd66e43855657, 0x1259ee56330703a6082a5a622467a71c041e2464bafd778a2b95821e6b3b42e) ((-0xc1900014fd0235ec02c7a4ba5b380b456031416e884bfb4327f69c0e54d4ee8), 0x6a282f97a1e460248cb3533a9d1136809bd3fbe9f85dcb8064f78668a3d0984) (0x153b3f4149ec54340dc5da31ab4b17de8e597d86411d37696d5dfb987a611b5b, (-0x42b963beeae0056cb29a845a38238185e73c6f00de76fd2e0916a3f92aab6e84)) (0x20d699d7aadb177781ccc28d0f114d520bd4d43b6e443a7627560151230e03ad, 0x1e3f339783bee216acc8ceb4a8cc6d231f832ba0bfdcc11cb6431fbf1e15677) (0x1e91d669b1b578704bb4b4782d9096ebe3fa7eb1ac80aa7ea9c21deae33d92e9, (-0x10c144368e4d44a66cd6da8ba6cf2a975a608acf164429c324002c4929f3f986)));
  Dbl2 (Cert2 (0x2777f5130a7da9c0852454da0158d348e295ea94a9384c3575f773a901c5d11c, 0x4104c7075e62c7076e1a23949feecc183d083e15c45a30fee7822ddeda62658) (0x0, 0x0) (0x5a5f719b3693b7340eca9a68e7088b6220a430ffccad87898533b72a52d1fa2b, 0xc8d4f12ccc190052813bb4c48e674edeb90556cff22d6aebe9faf4ac25bde28) (0x1fd9794d254bb029c9f62af00e158562f052a6982f7a751a6b8b111a99e7330f, 0x6a0f1b90b37cb739402e0678e8e649f1a63699367cb0a4a136138e5af5edd94) ((-0x102862ef304f41c32c0b97fa6d226d5cc5904d56971433655185b1671648bfde), 0x1a524278d95f3ca975f7e7d0d766fa9a4ce9b35a1a0b813e90564fa5ce9dc950));
  DblAdd2 (Cert2 (0x2fc83a8ef4a6730b99d7cee83d4d72fb6893133b12a83552daa816d38ae6a92f, 0x1a4778fae298792ecb76306a5761a9ee553ebe019a58a8d52b76ba0308c2b4b5) (0x0, 0x0) ((-0xf277c10c530e08b4cc5902be1de5adb108458a80b35ba933d41e50d55622765), (-0x738ecf2f8c3a378150f844c8eced05fb8f24101573d2da8d88506cfd5f7e77c)) (0x20e8c30f4bdd8289e63d7d554e6f8a9050a1de847da383909d85399ca2171e03, 0x33e56dd986dec40b8bf10985db1b31f21121172dc25295b486f990f8dc13b40d) (0x7adca53d72448654d3b8dec3014b67d6c4555096c5afa9485d507110c49082, 0x4154604da9257d6552c9111740b10da477058ba17b8168023fd5092a8c5926c)) (Cert2 (0x2d593a3d8e3c7395cfb97258865871a7f64d3dba89294563a584460e75ab8ad2, 0xa944db2ba981112ebde05235a8c79182773e81ea0daeeeea6d66c63095dc598) (0x21af9db98f93770eb51de62edbadea4010c05923af00e6e9b203a007220494e, 0x18369aed734ec5952176b7f5fca76dcfd1052ad9d05c1a3cce03e988e875bb25) (0x1466e9f7b203ae805d360871757d6f13c77c1385b96575275c2c6bf8e7d20fd0, 0x4b7404a95482e57f9afcd3f1d72a44b646a2d6b63824983dee9533929bb53c5) (0x282f0f6f6e6c91cea7449cb6b9880357c89db0a55f735252b29f74ce2168d00d, 0x13d3f7504fbf28d1cf770e87f44207be49bb65cb054e6d151ca8fd1fc04d27a4) ((-0x165bb4476b7baa29bddaa7ed5775c8f0c025c53b1a2bcf41d3bc6ebfed199a90), (-0x13142385091f5c11c3a086f63b0a90552aa19318635dc05ad1c90125eaa8216d)));
  Dbl2 (Cert2 (0x2bd295a84c0e5ed74327998f67c9c8901dd67f72b498074cddf314414d9cfb76, 0x2337448403ad5c78f4c78b3a764b0dd0eedd4aacaf43e90dc170b069e45fb7b1) (0x0, 0x0) ((-0x1932753d4f761cc1841cbc3a042a0c4e9216b70b5e2589710b9272642a160a22), (-0x8ab55a3429ae4e1f9194736fbcb700c638b43f8803f8b8f901be2a2e4b30a56)) (0xe0eaee3bf9efdbf30b64bddeda15111d7b15194c7a078c444451a3956c386d3, 0x3fc810e678e27f44a95d3996afab3a8ed3c824809d623b47ea32157bce9c0b9d) (0xcd6921087d8742ef92e777a7d8b159e9846f034a48fc8737a2dc8e500277e8c, 0x108f231458068d91472de4ba7baee5afd3db814e43c0da0befe3f323c0b1a401));
  DblSub2 (Cert2 (0x1c8f1ddd584e9d67d2b9e1af3bc78dc89a56b2307bcfd51bdaf6f4bb71b24645, 0x30568a60b2a54e4492f0d73df5cbe72e27200b312c31a5bee0ee100700609a9d) (0x0, 0x0) (0x8d191b57730256f28d8169e120c6836a5f0c290cd7c7f794acd4d1d95590703, 0x2d654c8152ffbffc31905b54356aae4d9802d7aed2dbb008f279d69a8e7f4202) ((-0x1f6e0a9a6d2cfbf8af91949de67a3d0a0f7f2095142acf06013461e6e798f47e), 0x390dfc2db5f5d90c3884cb17a1669d0cd1f60ab190983b1b83492e1223da7ee9) (0x1b689b6e76c64cfdbe096c9902c89220052e889005effb2acbad3809fb5e8e6e, (-0x108cd21840a58bdbbc70bcb5e341292b969acee77d52c5676e32ae5d05dec51b))) (Cert2 (0xc712f588a7b0339c5757dceab6f4ec4e7d684598773e15e7a27f52809a400ab, 0x64eebcbcbec7afeed7379e29e65d752dfe28277fa77d0e3125ea55404d49c5b) (0x13c1939a27c590ff2d47931dcb04c9af4ac144d2a0c4cfa43ea7f18fe668518, (-0x3b6db30430558fc94755e2c58fc76c6fd577e27d59a553227f95d01ea2a6b8b)) (0x18286b8be12ed8650d766740802b0e1f5d9082c2ac97385a3218ec5ed54a3491, (-0x5e18692fc0adc0709716157584a27d162c2153866d34d19ec7500dd7fa6960f0)) (0x2606e67d3f27c8f3bc3f46b26d9b89d9efa72d61d614f5980e369344a8ef907, 0x33e6e8fb67d39c801b45e81fc7e56c15063b71776b4f7d9351e0f797b007e13) ((-0x10a73145e332108959a26e09f53e3575c102622ff5fd4d8179ce11d84dab303), 0x8d3499cf50fba3128be7c26ecc663de5ee59d45d06f7dd64dbb00ab9c796d47));
  Dbl2 (Cert2 (0x2dd51d0151ac1f361cd23528af244e6f476c5d72c9e5fc8dc7273dea385c7cd9, 0x267cc9900fb6308018982a8731bf6432e6cdf7f91ce68cb009dad3d8b68e2170) (0x0, 0x0) ((-0x353f10e819489a0cf747d0d86b2244bcac57da0ecbdaa2cd86eaf638026e7060), 0x4dd7487fccfef646086b347a8a35f4f2ffc2ff4229c5c03e88594cf8293a6efc) (0xccc5bb1696e7188eadcfd28fc25af7638396b1241d5825b75fca333c8423389, 0x48e762ba62185280a2b831fad78b5afef01b62dfd86771dfb7873ee2934aa719) (0x11f6bd8bffeecaf032bfa2f1ba4b61ed7cb1707633fb3091e6de953bcf2f8cd2, (-0x2216a15c23620e21ab2e14831bf8d64b9400f88ab4bc474900bab9df679cac8a)));
  DblAdd2 (Cert2 (0x1a00d78fefb0e10e6b8565a989a559be2cd8df1832ebebea2f0b6865bffa8447, 0x18488387629d6baf7d21183f744efa64146ac3dec58b1e07e8882f14b2925cbf) (0x0, 0x0) (0x4ec93c6b412b65816d8cf7793aef2eaf008b591939c0a717f6ad91f4b438723b, (-0x49fd892f4883f0336c23a9aa64786e0f1091a5b2fc460416a8851caba740792e)) (0x1c9919bd2315dd2f7520d678041f9e91cf5f78ac7814a8ce96bfc7de203f416, 0x1a18df757cf698453fd9c899e352985b3c83e855c39f3944eeafc83defe00878) (0xb0c9e9511f99de7d5fb86f835eb60303e2ae161040f3543b390bf2ae6522e7d, 0xa658440969a7ccbaffb72076c39256761e43e2076c627abdb8b517170c8e880)) (Cert2 (0x23de978f6a32b7ade399d4fb8642aa895b715c1e569b0b2f3dee4464f0d91ad3, 0xf81377956a08cffd803bcac8be672561ea8528b99a18a0db5bb91e848559eda) (0x158d1f9f577d26a50b4f7a3350eb9ffaf39f98b5fc423481dbc090f91ed6f821, (-0x3c21140c90ed312c96a8e04b5aa877caf02ae923bc68db0b3da624d05f3597f)) (0x3e277c1df20285967ef115e5d22f0fc5cd5c2f770c0d3714b81bb870a851d64b, (-0x15d0de1a2609968bd5c14aad715bc7776e77f650ab6f2ab47123fa629153b3a7)) (0x159eae26473217e91acb53d8c0462e8da0b8da1013c318e80e7142871132ee5e, 0x16fc35baef54e13174200764a6fd9ad4c150b29eb5a889341cd4ea5dec5d755a) ((-0x2403a515f2fbce15971f2d6cf4e688e9bdc2d774b385f8f3247c66e841c12b0d), 0x1fec518d69ec11ba7eb9a5f42ba3154a31ed55ffc3958ab93a4bb09e725ac4));
  Dbl2 (Cert2 (0x1f409ee5cea535bd0a9ac4dcc66a77baef3c1f6cff6fbea8ec40742745bb5017, 0x1ccf348e10de40f86a47b2c6c1910b344687fd91f1c192be8dc1c01a97e7ee13) (0x0, 0x0) ((-0x40e5df40cdb2885b4a89f64e16ff1af9b3e31d5e2ee2e88c282cfd1c8114616a), (-0x39749d8645121883d0757ee2e174c8bcd27484edf757abce4e4f41e0cce435ba)) (0x3083d039ac1d0834190e358e000e033fce2b4daa0fa274eb09904dd611b250e, 0x25361d9ceaf400f5c3b3b6376fb1452d0ed97dab27902e599b434a0a4200d862) ((-0x3b91f29c350682643cc4159ef9fc7decce8a8525964d6fbcfad00995cb8bcdc), 0xc5e2482925f5337484ca5324a234c65236f70455fe28d07153dfd3c3b7a8969));
  Dbl2 (Cert2 (0x164e52ce3d5cda1cef6fa312ffd4d82395b8a77f8d19d00afe06042e90a1c067, 0x2ffe810e39950f75946ba6c6d5c09fdffaeb57bececc019ab4faa4119df7b575) (0x0, 0x0) ((-0x9437bcd123692b8f23ab593d518475895fd5993d6efacdfd12e7a9c79ebbd068), 0xa7783a13392fe28f10e9dd05d1a17e056a9d0a902b070a8fa241c50bc5a08a8) ((-0x25516537de52aa7585c77cf85c63799dfbec46ada7a1dbc83139a4c58d553ef9), 0x2c3ecbe468989221576659ab09fcaaf626a35a0c954f66d08235fbb683679481) (0x6a5f6c8bd091bd0d50855b0ab9d9cf729cdea32f2ef6f8c97eeda10cfe5f411, 0x1a5a8ff60920273b11dc305c8b04f1bd49aa5cb39aae05b6226c8096b9cecafe));
  DblAdd2 (Cert2 (0xc06ae5bbdb307e7fdd93a1e0ee35f03eed2510f696262224edca1a76b2c4f65, 0x5118617ffcd2272bec50637bb9d36fb27b535f965dd7532b2f0ec846ccd0192) (0x0, 0x0) ((-0x835605053b9e7c2dd18fbc47404a46beb6b7ff7ac7bca083aa3fc05a20b728c), 0x42f87a4f69b9146207b27ab69e9c785306494ac4c0233ec9650e64964265d80) (0x27532ed645e61e76ec1e7c849f24e20aced0cb31aa7a4866b81661f3693b220, 0x284e892becad7027b8bc82b2bf9021bf3b7c663a3181c0031bd008323a79f36) (0xdecb43cde9d6c7824fb56c4856b1b63a956fb90d937119d5d2027c1d51428e, (-0xbd1630bacb0cb98dab80b08b4a8344f1f7da786eea214b902219fd74b138edb))) (Cert2 (0x2c0c5f5cde74b53ca097c25a2dd3b41dcaaef41d86bc84f8520c20fb924212e6, 0xf982012d8dacce0ca91e394bbca9fb02b67266e8ec9d4be67a310eaf0cbccc6) (0x565dd1e7360bccc9b1c0d0304aacd48efa45751e4ac99d3e9035617996f0dee, (-0x13624c219f1fbfddbdb0ed2398af73cec7ffebbb2be7d91f8c1c17f7a8ce441e)) (0x3a73d4d917c0c266045e36f50ff9d47f382dcd24a6dc9c77b8ec3bd7f2b207bd, (-0x3bd079f61ff2d548eee94c14183526c117252d059c8d469cb5181e44d75b87a6)) (0x2311c82734610abf4196333f9834f514fd99671bb94ed245544c2da6630f94a5, 0x1c639c3dc7f07d3e3c2da62513cbe43bc6bdbc451e3a1f2d4682f867f115d273) (0xbb05e504cc38bd394684e900b070d6ec1da590dc055bc763e6fbb048b024cd1, 0x11627c602f787ee6b76431955baa0df1df2c27ad91c8558850b81bf03e7379a0));
  Dbl2 (Cert2 (0x1bbe479638afea396e1a7d07ee8b3e681ba80ecb9703994532946b0d307d0e29, 0x2d0b2535b82e2ca29ea1cf0457bd16489f31626e52c1d3ca4e2eba5a794a3faf) (0x0, 0x0) (0x4f27158504774540fac54b6e86475b97a17f689bacd9c81d6e623a1bca35960, 0x25f5329ad7741897802190d6d32b588a8ebd2f2d1f6dcf0f54518aa1afb4c712) ((-0x1a0584d47010de08f9269be3cb97bb93df2a07703faa83d304b0f5c5d20455f8), 0x33a5bac53af72d3372ab97e95ea413d09a157ad6736fd34ef9fdc6f9d68b9054) (0xaf8145c6b8ce9a75f66df694947dbea5150eb80499f17787c0bd2a1332c66d4, (-0x61a7d98ef13f9bfa699918c3294edd0aa81bb6ca34a0e50554ee7d69102b79f)));
  Dbl2 (Cert2 (0x2474274b0f589d787d9cf0a6cd503db8891a26ca3902d34274441b3fcac98f30, 0x4620c6fbb734b46bb296befe2484298a52f7023747401a6ece89c1d58dd23c) (0x0, 0x0) (0x83dfa1e040ff40eb38d4fe9500c13eb02bffff3da69831c6db145d9f4236c1bc, (-0x4421e4064e3dfb05c3304dc8943bc2c29168f57a166c784280aae14a8e97338)) (0x1b758bcafa86540bc85d6e01927c62a2ceba8ab55428e11843cb02adbe82cdd3, 0x69a7c6d581528bfd5e62854c6b0b008de0eb5eb920ccbec103edbda0dc0ab5) ((-0x15c63c8cd899689b41776a61755d1e4f30e7899df04d7db9c08044775823802a), 0xd2698c321a6303232849c60b7cdb5937a526f29930fdf72c7ae2f234e83f756));
  Dbl2 (Cert2 (0xbf57c87afcdaa0eb79e2f884d162716517f66918be24b3a1e35e863698bb60, 0x84476b3e488c398c9a0b193e9c32bea80a20f6f1e8cf5224628bd11a3f875a7) (0x0, 0x0) ((-0x2c5aadf54257729f4df33cd1b1f77da750d9398f623ef57f724110119eab49c0), (-0x797ad509326ddd091bc255c9cc3f58d73e96cd18c865e0c3d9686c388bd99e54)) ((-0x166a10896d63d965172d21ef26c63d487b2543eb1557c084980b7d36ea26e7a), 0x4161235c2ee71f44c03538a32547bb64dec505d8c07c9b8ed989460fe000e1) (0x23b2a4f728147d1ef12ed660ed65a31bb2cff180ff4e8e732ee15e9a07a88fb, 0x3547d6ae83ff273c029d345cb1123cdc3adfc26e97d374e27500cf0928b79bc));
  Dbl2 (Cert2 (0x7fbd82169e9a3dbc394dce2f591498ebf3cf445c7416d6b13dee04f83a1b3c9, 0x2fe235da17ef43c82d1578299efde6f7e8533f0eb8785c19d0a2f9c42f52c04f) (0x0, 0x0) (0x4860b8561a1892fd3d985e4818e03e58835b1e74d39e7421db5b1777ab86b998, (-0x438472f3a7957b841104280de8540f21ee3f779ea7fd27d6f6a5cb5e629f0702)) ((-0x2e1048949d25975666deac0ce57acb2e6b12813ce9df7ceb54939b4f93dbd7f9), 0xfccc2f5fbd936673771bd133b1adc01ae4d9a39621ed09fe2085ba3dd2de9fc) ((-0x2519183fd11c92dae80d6e21b6ed4f73f96e6f31ded87db7819e767a085ad9e7), (-0x131f9666e25da79f58bce950d9b631b602f5cb22b461dfa0fb3346bd70fa079a)));
  DblAdd2 (Cert2 (0x9899804777ecc856476d798a8cf8398e480aa3f166f38988c172dc9c8f46dca, 0x1d603e0bf959bf124d07f98432ac49c696464376a8d4db9e03d8c4dc3cdb259e) (0x0, 0x0) ((-0x75a0b20ad77f55158d572901e9f85cf7a39af42e7e99714f6ba91221b842bb59), 0x171b9c654673b6fe9ae573a5d949f41a460d51cb0c9496868d1e63c8d747d744) ((-0xff3e7a5319e659a03848bc1b1e76a921c16e900f90fa137c42a7f9338ae1314), 0xb944ed21623124206bd741ec37009f1e310bd6815519904b0eb3a3b4d7db104) (0x1062ef4b3f64be910327e56d7e73202b0d16f8afd90d0bb3d117a2321002e44b, (-0x33ba5fd468a1f4b399b4ae3c7f8df4450c77378c01bcb102246576feed46866))) (Cert2 (0x2a4305582535215d71fefd9fdb685d6aa70df62761a82dc80b174e03d5b2cfc0, 0x2a5be5f76ab23acbbdc075eaec45c8f31c1b962710c913dba432d43a448e1413) ((-0x703336b46112cd8a630a4139750a6fba0c3460278b584a7f465a113d0ea1dcf), (-0x10a93ae0f55dcc6c491bc09170cfc2bdbb4cf457f0e43caea3f605a1ae31cfc7)) (0xa0ed1420f8343fc8e6c8ec5abaef4577e555ba062a65f92068f9846942a0def, (-0x3a80ed47ab5700cf00812c2b61014ce12960027e0cb4e7a754eb7fb389cf6c2b)) ((-0x2b808bd3d868fec9f25e3be9807c0344e059ab08abc1484ce4a2135b1013bf), 0x49fc8020b37f26c1df23b0519e90152cb6f33e1bf8d1e5467ac8756934265a73) (0x19fc711f9c4ff2ec32d411ab27d2e7e87db11ecf0c1050d2f882a5fc3d684a0c, 0x19eb8ef2cb190bf4eb534ee42cd194234ffb2225f3bfa8c531e9a4314d09f39a));
  Dbl2 (Cert2 (0x28e587ac8143860928b656d9db45b9ac9ebd8449814c8d8287c2b04fc8c1c5d, 0x27e4cda82a08873ebc8fad24372d4e64602c57778d4c5d50fe2c3f69bbdac313) (0x0, 0x0) ((-0x11e0fc53c00dae092e09a44f2620e92c4a5f86d07e889720b013707181690a78), 0x28853a982e97cee3c976250f4b89eaa552a206a88b8dc63c0652b26db4fbd16e) ((-0x20c0c6da2652db15de68f068938b25e7b57b1a5e39224095db63f8664b33da15), 0x436df6d21080b3475439d1888f1235408b6e1fb69b2f16c31eed9f18d3f225c) (0x56b27e0fd89f2093e05b18457ec5d88f1a3cd56e4ba0fe0f9c1f132bcc001f4, (-0x19765589af9428dabf0cf2693444914a2d8fdb4c5d2503cf321b1e4c890f4def)));
  DblAdd2 (Cert2 (0x26774b80c802077001c3bcabc8184ff709076ac402538205e6d3b8cff6b46f27, 0xc7cfc425c9a1b76e20b0fc4d03b2d02c427c0e7df3dbbc9204a2cf093f54b38) (0x0, 0x0) (0x1686657b30b40347b5f93b5f9a082ee53ea4b130a46803740d69a5dd28ba420d, (-0x8c2d7cb7f979bf63f4fbd51749dde2e1bbfb0d3cf6735e36bafefdc50f969584)) (0x1b5a73505a7cd445675c1ecd4541114bd4fa832814abe2e55ba32f9cf4bb832f, 0x13da7acdba7223bc02631e53e3baa9e945a8637a58cfe400ae2c2035a31ecdad) (0x91160657d04223cb2044a2bb1ce2f182c9435bfd27f648a523ab15fa8838544, 0x1dabef18d88eb635c39f0d173414a10baec96badb286795c8cd4576f6780adc4)) (Cert2 (0x18bff6d85866d0e341671fba72482b4f00d5a90e11696cdfc408e3fcb1d1d10e, 0x1454113310f09296b44ff75952273a192d5f0029c39ca6d5c60fc50e9c1b6da0) ((-0x33ca98f967c9fd648736f0bb93c71c60a7b7d1d0d9dcc2f9ee89492a68237a8), 0xb535d1b35cfa614d2853cac1d3b3b5c80e56c3a7778fd26bc3cf84a0a36cff2) (0x643bc7e3eab189af4b6a6b9df5c1c87b970d7e760c3201a8ea916a272c0a168, (-0x1081eef5247a914ba1801c834ef3d7d41cfdda6e36c37e45786a865878fea56f)) (0x41e6446d92dbfe56a53aa84b6ea099151b566c772d1a28ca794de4c632f396e, 0x14cb35f9c82e6d3bdeeb1b83aaabee57243577572f687e307672ac62050d01e0) (0x90ec411e8ee2d9f6462ce502c4f237cfc7e67f94cdac3037184aee97b94d5f0, (-0x10a523b46b84f8c3c379731626cae1769ce0cb385243aa1d4df41109b84983e9)));
  Dbl2 (Cert2 (0xc7eb924061b2bb8edf9149709cfceafbb25067c0596b64ab2fb44115be0d292, 0x227e8dbc19c28557ab64b31051212d982825933478aa35cd89fc8a5ee79cc815) (0x0, 0x0) (0x2e4a21c419bb626100cfe323a47e89f97ee050a1137e4b6af0135fd52261bbd0, (-0x192ddb0d88560faa9ffbd0bfd44f821b8a485f5a56fa39916790d08b0cd06f8a)) ((-0x155c9ccdcc8637bc4ab7f905226bfedd2343f94404fbf154207ed37fa2cc2fe8), 0x11d02fde1fa9821fb776c4ae6342ab7ef924128253fb66e681c57e20aaf754df) ((-0xff9ecfdfa18ef6ec46d9b6a299a1e82347439a8873a8249c04dc3122bd09fbb), 0x1725c1848e785458af55d162aa134ce96ee33b377a88889ca5201006a77ca62f));
  Dbl2 (Cert2 (0x1ab0dafbc4a34260d4e82c0a79546bc2bead513a830f34a489ab2ea310d7b300, 0x12efd05b1d136bfcff981cdfa00dbf557a84f9323d3a703ba8049f55978e7080) (0x0, 0x0) (0xd910231dbf25d534c9da4e0a0b5205f045d0dc88890b0d85d2efe6d2a325718, 0x4e5636183f03916320d5499b87ff62d3d91f45dab272abf987c9212ca665a97e) (0x74fa73879435624fb290e2ec11acb556aa0fd81690996876c6e94a921b2c019, 0x14e3b0a4f1fcf64c086b970c4127f8430fb792f9eafd606fa5a7f7540c09ca87) (0x14c06c1c03f18cbc7fcee4f66cf46f83af9cf18022fdcae8ba9085a918c351d, (-0x18a01190b632d914a1c27b65425078fc97570e9bc4210840b550a4a7f668bcae)));
  Dbl2 (Cert2 (0x5b5bb79213f9365d0ec8cf70e9ff013b45c6efdee78257ea44235bdf5fb267a, 0x140aaf65ed942a975039a67f728d90dc08d7390fdea6b5b6c01d30dc299da758) (0x0, 0x0) (0x4640d2d69fac4914fcf61d35785bab776f20b4a6b2ea3018955104a5c267a530, (-0x3ec966468a3494e5a558be5403d9778535bdb0dd2f14799039d4a09df4126952)) ((-0x7a06d6904ad68144d124030787e81e039daa37c9ac1e10b7980f4480265c20c), 0x4bac4d8da659e2be543f7c267cb475cacc7038d3f5a785a7efa0c451dd6f964) ((-0x2b395407e371e47659adc1e0c5ca7bbabdc482f8c68ebaeccbd64f8d3ad53da), 0x48952b83c9599919bacb0ba1aa58a88b9f1c45570f2a7679f9c7cb998a2fdb2));
  Dbl2 (Cert2 (0x2b89f2e4adbc3886bb459e50a9a65a24ac7d14069f8b5004e0447fc5ca0d75d0, 0x11a8f314ad0e575824cae802b496f8842d20ad642f55ed1d40ccec56f6018095) (0x0, 0x0) (0x432007ea1d0db6ac6e3cd71a363521404d81dbd5bd885cec39a33e155024f27e, 0x3307874c23369bea135f0c70135a61c4015fae809116369ba66ad3accf517794) (0x20ba51cdd2fc9f74e7a0a6d027dddeb8be0eca948b597ec58ef0b75ab31daa1a, 0x1fc72288e0b21f2a0ce4642a889f58b952b2d3e0a4f836faf64dcd87e357dba3) ((-0x2576e29e8df3ff3f5cd2264c1255eeecc34129d071970aeef30da048f53f9c3d), 0x88bc77749bd63396ca78243a57f0eff8e8868abd55e2f0af755bfa3a448c2bc));
  DblSub2 (Cert2 (0x1ae459c0bbd4795710baa17e5967073d0673908d0c7f0ec9e05c0256920c6b0c, 0x2879a9bec30a29c408d918afea5f58ceaf5895c5ccfb7ad184e6110f6f5a0f13) (0x0, 0x0) ((-0x9f48fc6eac4ef5c6817e6cdfe01b7960ad9dd496b0e81f6180fd111932d7633c), 0xb635c6235917ababf7ea8b9d206b0478549dfa4d87d9e0e3df484ed9f83fef6) ((-0x12e8d6665c23baf4936643639ca113b58455abfc736529307b32225eca5a5f80), 0x2cfc3c0b78d460a767e569fef1f309a2acc0a257e26629dccd750c3a9fd3ea55) (0x19988d038d81e14b441421c5713b97ac85671b45b2d52463d5f005879fe29f83, 0x23ecde3a5c265165965fd07ed8edc74923615cb659d0290b256dff52e2bdc04b)) (Cert2 (0x2f22e57fb4c59a77c7566a8760a30594a189a2c1603f30258f8868837472f522, 0x18df48dba892ec5486bf5bc3aa88fa1e198d3384a88174e108155f15768dd636) (0xdd888eb3f118e4977df7e53efe40380670f7e780802b73873aa8656064327b7, 0x1d6b9e7d227428d89de3d8f7967318b4293c0adf11a3b58c8bfed27edf06b20e) ((-0x1f36709c7106f72500f3a47d460e13a5cbe9c59312b56743b0183af381e99b12), (-0x1175775519fdd2f4a3499eb47e7ebcd712a7d4a37f630681db4a1d1de69626f)) (0x212132a3b3c811c36bdd56238a12eaffacc8a4f815518d02e6b60af28da9601f, 0x30742cf32bd386091caa466c3846e1590b81ef96ff0bac7024cbc8e2f5e39031) ((-0x1f648266bb971cc8316235621c21205201be110ed82b19b85e4e9672b3b1f57d), (-0x1de03f7e3f13e05eca1dedbb6d15f2bd48ced9288841cf8a43729687f1e3ce6d)));
  Dbl2 (Cert2 (0x1d524335b250048b1de20abe43f87346e465bdd5eab19abeac8d27cbf1801d04, 0x1402f8a0181c91e91b562f6a114654fd6dbdae6fe88f5678e1092549536535b4) (0x0, 0x0) ((-0x44546269703804e5906d75fa525706f128a59ee855fa0488da6e943810758bad), (-0x4fc18b818ab88aa211bd6068050831700b28e575512295728d5bce357216baf0)) (0x97da4395fcee4f1e9c82bf566d7a63430f5b08423532c1dfb2fea820ff81cf4, 0x18402bf4c1ec4b43f980453b658fbb99cfa6e7ead85fe1ccc13ccee8dbe650df) (0x6f58318a52726f9f4a8f7a3c0782d57e37e43b195428827647ca76050b1dcb7, 0x43ce8e188474e91e64ca293c7d86c8685477e796695d1e25fbc10635f571fcc));
  Dbl2 (Cert2 (0x295ce6dba261cbeeae8146ec770ceadb4ab6d2200ff1615439ffb0d55112b64a, 0x1a63a97d743cb254ad2bacc085303c0247c14385866a20005dcb2d527cd0c645) (0x0, 0x0) ((-0x360415e6ca80f9811bac6a67857a65a6c04e3b87d2e5f3f3d71b384c70ea3e63), 0x5b248341918a7960d86ee75627a3145607e3daadb6fc465bf42f71d6528bf2e) (0x14f6d32a94abec7815e1b24156fd91cc73bfc03d524e38fc832e096fd7e5fd58, 0x2d1ccd06b72e977195e74e5fc776ec826bf367fd78e9fb8e063eff2cf813a330) ((-0x7d83c3e07a4fb2d892198d7142e51f876e13d35502b5fc209dfdc1df265fc31), 0x1e78275e53bdc4e79d24a21172a1da8dbc6a68ac273b7c2853395d0d7ad4672));
  Dbl2 (Cert2 (0x1121c5e1d01430ec38c040e7b2d4991332c6e7f33d392750b53860aad6654a2f, 0x1a07341a1d7ecfb0b34fff4150492663bbff3f401eaaf0bb98da662a7c4317fb) (0x0, 0x0) ((-0x37b187ae1c323fe68d6946ecaebe01373de07eb970d3158cca052739f4742fe5), (-0x2bddadfbc95b9c1f9ea63a51fdbaa2e7e3d95f3cf33c03d4a1ca966832cabc3c)) ((-0x7ef36450bbec721707d2b067917c3946d1dcada6de01bcb6ba04a817dd3f623), 0x126de25e8eb81c32ff8d56775653f37d212c9c0577ca635f672ee3c376fcf75d) (0xaae9c6f6e0d59d83cff035b35584aefde3515907140a9d54e9da9c728661a7d, (-0x12abfd25c389646cf15e72354847155203ff68feb925203455025fdfc3a0968c)));
  DblAdd2 (Cert2 (0x2ec81c97eeffefb4f8a03ecc3a7f296f8f9aab659f86f32798faab970fa4c664, 0x1640481302244828440528aaa5304d5c95947655b1200aaca34d31eef1ac10f1) (0x0, 0x0) ((-0x36a675599722812165deea6229491bab62cf22f8749033f1f0f3c5ebe1c33eec), (-0xa9c0e5bbb5c1cc2d07d69e5314ed01c6e4924d102651f75511f6628cb01a8808)) (0x22fe6b04b43b42d4cecdce8855b778d987f918b08ef2193920efb11246756cff, 0x2b057fe539ab220db9097b7aaf8f2343b341fd88df31ec18fd7796f89ae2b716) (0xfc402ce1ab267128adc965643fe47cb85a0a5844fb792170881230d8b03f330, 0x3227022e0dcc85ab91f40bce91f170006fbdddf9f226cd4139487ce15a812c19)) (Cert2 (0x17c4cd86aa4279dff4a394b42d95f3fcce05eae06809b070862c8e2f82427105, 0xb89be28f3cd38f6aa66d69d7bc66bcf20957fa8bc9f6644db87b700f2d25af6) (0x54f8a0fe6ebe0d66a4eacc500290d4c4849f8b37da5202ea99a891df97c3b7, 0xb573622cc61c3ad757bc1508a71af537cad12239f093c141ac4f45e18d00301) (0x9ea2c4b38705b3ef08449044bdb1ed9831d9483c399f8df5adbc70f4287c21b, (-0x1f65b6363d096a8d375f222b70d83af62f1a3c9268276ad8dbd5dac7273376d)) (0x8ec6e49c128c469a01936476e5887c02a3faef8500d2382f3100454bac37548, 0xb55991704c1affd85a3f4639cbaa883a035f4991eb9fc33e4f9a5df0bf9bf1b) (0x4d2a9e572955f30f5bad9141be4d8822e6535b9ee7a2b00345823c4d33f55f2, (-0xbac990c372f38fab968981d2b3ea1e45c14b7756fcbe39e247d782c3b330f2)))].
Definition g2_cert_a : cert2 := Cert2 (0x142ca377ef9963bf799028b09e383549642bcfb62a7ad6f4d7935d6d83ff99cf, 0x17bf677cfdde46dea8371ff61514d5b3d25088cf2a638fb6e3396f6361421eaa) (0x85c842dad8ad320234e18955922c61f5ede95376a034be28270f8e3d8d00e7, 0xde728d72aa6ea45e2ad06f4026de454ef2419cb94584bf5bad2e3728eaafbd3) ((-0x3bc500c1c1a60de148b281d4ca7bba887df4a0309cfb22ce547180747087aae), (-0x36697eaee62d70f52c9c834703e590ab04cd92a44dfa6d56e061df4dc6d8615)) ((-0x33e45a5b759a6bf2ed556b65b7f3ab638b8bde709fae76bb06ddfa7438380e4), 0x13ccf633260b889e18c5df3228bb3cc45259adc982609a362f10256f87c7118d) ((-0x221b1ce11b7cff873dc5c4d0390bff2c749afb033ef1f4b629c9fd5dbc23a59), (-0x107ab1cc8cd0c59f80a0902977030e0f7052737df67e48f311bd3550b287ed75)).
Definition g2_cert_b : cert2 := Cert2 (0x1a02587e87c80472799f90904c6447c97a18b3b10bf21225af2e66d14e1c1df4, 0x2d76fc5fe6027700a90f33c21300a15dfd34fa9660f69edeecbe5fba5707c6f0) ((-0xf0c731df73cc91eed6a5b6501709584099bb2ef2656d6000e98826a62db736b), (-0x153b351af77f90a56d71dda00e979febed7476af96543ff96edcb6f84c1faa99)) ((-0x19504b72ca78cd6b1170f84b758b2dd1af19d3e1fa4f2ff578d9c7b3019572b), 0x75a07b1950d340aafd61f79cc392b414d7555eb60050d5684abb36c062ffee2) ((-0x1cbc53869958e0b3d289e84b8762d03c9fba15d46201996a0d4a753377853160), 0x30df376325c91134f9f1570514f67102825ed72e75e1a118b6e6255e1537c7ff) ((-0x183676f94d8dab4cc05aaeeb85a217837f799c4ec92e1169abe667065e968a62), (-0xe401bd8fcdbdd592a2bfc5e1897d393b9c8d6f974936323f34375b7d603e11)).
Definition g2_cert_c : cert2 := Cert2 (0x10fcfe39ea486e183cc69f5d1601ce897a58e9c93bdb78060adf5b919acd6967, 0xeb901ed90fc1a848f54b22bb2255c196922c69a9d8272eca1b1b9251aad5f3b) ((-0x10602c2b558e67b2c4685d7d81561e0d7a07ea7d32fd47dc0878c009c1dfb2a9), 0x63edaedd5161f49682af3207d1bf9488a247adefd9ad9fc6e5b7b0130d2547f) ((-0x2acb5031195a6360045ed9e54447ec83f568bd73c69297efc455f52d8c713de), (-0x34aa9b3ac487e9d76df92d6ef15343261927e009c59bd672bd7f2f344c1e0391)) (0x17c0fd6fba6acc01ab9e69c88608b63a2d949986d3100b746f40bdb0869a689, 0xa564488719d3cb4e2fa185b45517775858acff5e3624ed3fcec3bc7364e9aea) (0xfaa85facf6862835b7d79b99c3ae350df97e5506c44bf87d059ee4f2e641969, (-0xb42236b31503056f72620b4676026822876b306ccd046ce935f5a7ddbfb46a7)).
Definition g2_cert_d : cert2 := Cert2 (0x219437e211852fe9bf07703c1406655b4a0bdf89fcf26264bf906eab3b3c0077, 0x4c4d47f8b92e7ae3009fb9c1e50ba41208d8825daf088ed2e95d7e3847c9f6c) (0x0, 0x0) (0xff43028ae350b11254100b09df5253a47c2429485f44baebc1a3f687db70ec9, 0x2d7fb84003775b37978a9a20885c0ab484d9ef3098c1ce9a832223a4aacfaf96) (0x16d49670880abe2b3cf6283980855635ee804d1e862943484f04df8b14ef7a19, 0x69e433610467bcdea2786dff299c8191fb8ec94e926b1d7ff5497992fad0cb7) ((-0x39f5433184e323d2e91d75d7b09957e4e8d66b1f4b946a95aa78b681b6f81ad), (-0xae54b21a375561a51c12fd16d7ad484ba0bed482649b3c3b88ec32cc71edf66)).
