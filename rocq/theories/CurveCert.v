(** Chains of doublings and additions leading from the generators of G1 and Grumpkin to their negatives:
    for each step the slope of the line and the multiples of the modulus to subtract.  Generated data;
    CurveOrder.v checks it. *)
From Coq Require Import ZArith List.
Import ListNotations.
Local Open Scope Z_scope.
Record cert := Cert { c_l : Z; c_k1 : Z; c_k2 : Z; c_k3 : Z }.
Inductive step := Dbl (c : cert) | DblAdd (c a : cert) | DblSub (c a : cert).
Definition g1_chain : list step := [
  Dbl (Cert 0x244b3ad628e5381f4a3c3448e121024631a10fed0e5557e9ed186911225dbdf6 0x3 0x1b386c209eabea1777ad2736a8d8c1b4a538cbf1cac001ef71d24eccd9c64e79 (-0x244b3ad628e5381f4a3c3448e121024631a10fed0e5557e9ed186911225dbde));
  DblSub (Cert 0x2ebdfa51df55c085637c14ca7745a9b77dfa1863b93f5dd40e70e4678578ba64 0x29cafdeed9c2219864ff820658929dc5316421daaba817a88561ed598c6bf1f3 0x2d260bf7cefe770c7a46658961c0610599aea9033ba8d7b876ad0b29cf77856c (-0x381c1e34cb09516b3a98a6b5aff81ec585c513c1c2572c66c0f03e9c0103c74)) (Cert 0x2b3790f34693a1033ea2fd36c1ae1186e727b7905466383f9fb15b18480d2993 0x5f186ad9f3a0e0b527f9af4a7874f91436d19363237f9a729c37723b3f56287 0x26987c9a01ca1ba7abede7a806548476c2f30f45be8b53806db89278f78b74ee (-0xad49826abe43ada49527b06e3afdd8e763ccb657428f8d809fe89d328e3afd));
  Dbl (Cert 0xe961a40abfecd3902bb1c8e3868f2f06a8e6111bb6072b6104efcafca7fa6a0 0x16584f81c6a94ebf3e621b23debc3e22b0f1e6b56e419e6795212813ecd6cbc0 0x46589fae0e4426bc7950c3c4b13c383b03f13d5df84879c5948375b5aa10d21 (-0xc43ceb900cf7d0b0721ebda651440759f7aec0a9d252d2de2613be1b846a6f));
  Dbl (Cert 0xb98b758c06981308b79a1a019a4b04010da58f80b6f8222a5d89ee7855f6456 0x5a5f2ea62651bcad88ffcb4837ccaa88e0b89ab3aa242b98a05c61d2aef44b 0x2c76b3fccc30b234c472b65235fd5d399619de2d0ea835d1b113216107808d7 (-0x6adac64761d5f13d53c4b0e48fdb441753de98cc48113f5cd3bc2355fb53e6c));
  Dbl (Cert 0xcff828bafb248c839cb800c24b8a47cc46daf2fd5c2f040278d01985527272c (-0x4026c689ac6b4b9dfd5bad73f51fdbf952abe393aa7dc4c81411f93585b64c25) 0x37dc5a7195492c489bad8c96af8df1b085926e549c3c3fac990e1efadfcb4e4 (-0x1fc8df1e8820c30b72d3274a9bc710e0147c0063ab0d6559d87027f7db3cfc5));
  Dbl (Cert 0x2256e093565e4984ded667fc6496031dfe0fe653a6ec989265265b1fa025fae6 (-0x60b456e57b9c8321a9dd442b91d38ba2402a68370830e94f32f8112f9c4585f8) 0x185e1a2fc52327e0b85a32070bfe4d7a9f2a70b7d3b1f18abb9059004caac7f6 0xf71c307164f3fef4cc5b27bcf5af09789e68b2d5aac2e72ab82f39021a8a10c);
  DblAdd (Cert 0x251b3035663e7e72c895811a4c9a83698329e3065ade57e3b20c3cf2d1d28208 (-0x11c967ab374c2ea6eb17dbeff2a78dec3468636be7c1858f732a905d75af1844) 0x1c73d9dd2d56a33c3b27f9a3d7ac89a46bdb09b4451f69c24bb8a5e69f1bd697 (-0xdaaecbf2e82fff534d6809e1ab2505492ef0d79dabf989823f805c0b70d6718)) (Cert 0xf626240c40fc8463a704cb31518e8171e5cf0c69758bcf2f4b62b75475704dc 0xd1fa6e7a808a2d3c10dc217f2a5a4622fcdab4a00939db1c1d46903fddfc5d5 0x4e40e9db735d232451c6ab609108ffd85d859c900f7615b2c88d5686a4436f9 0x99119919922463258453d22a75fe41225a3664bfa018e07109443929098db70);
  Dbl (Cert 0x23cdc5e86f628c58c5ed55b2ae280e669de5f9bf5dbd252c3f94fcf709177289 0x3e5b00bd09831c94c2c05da7ae38273c8f5c43bfb47d547b850b1b7aee07c411 0x1a7d81fbcda2c283b9caf1cf35ec68bd9ee53c85c418b30dc11838f61fcbd4e6 (-0x89817a2a829e293c0879b31e9a424d2ae3e8092cd48284391162514329c7c6d));
  DblSub (Cert 0x273881704bbbdbf502fd4df746ce334a68bf3af7106904736fcc8637a0063a6a 0x1571deaadada9781925b26e463ceb065beb2f904e37ef79007f2aa4b70dae78b 0x1fc9a7753b0fe3d5fc30491e9e6bd83422a9374feee3f72651ca0be3a7925f32 (-0x6614706b837a9d01232634a1a40b5d91e7e406fdcb9a75a88fa6469f33400fa)) (Cert 0x16e922420ef7726ebfe60f5f0c06a9dfb58032d299effcf6b16ca52c5a92f622 0xe85eb278b2bf673322ba4b65e8f47212f993e1ae76f026a5eced87ffb5c4792 0xad8cbac0067e2d4eedc9195afa9781ea1760fb83cc21793036b9d5d9a2af8b3 (-0x605fdeb701152f0e53211126eab1542fff3db1fb2af24d367ad7985944ea7a2));
  Dbl (Cert 0x18b5190dc47a8fc2388d2e7eb1be103087916a1bcd4bac52b9b99019d79be8b4 (-0x49ed3e7ad2a5c24926744b968080a7e83a122675f57ed70dd360bcdf2c9bbd34) 0xc9d67c49b79f878afdbcb7f44513a5433a9848f75346764e041ccc967996dde (-0x1ac7c588c662b50cecb822c70ea14cae1e94c7e478e57da9c05470fc068ac48));
  Dbl (Cert 0x2020edce0a784e6ac774151e3160c2382f646fc6c00d139446eece41741a97fe (-0x5195229e5287e884e62ef18b247e04e46a1d46ce59ddf58f077226da52ae2784) 0x1554c03c771e2c9f368bdca353c884e64ce0630d2ea24bbd5d606df2fd19b8c8 0x1122493cbb9d902229cfd06b5b93d24bb74480c5a8ce52eb6a7b86626e486196);
  DblAdd (Cert 0x1a48faebb3190a6f38f62b206455d444378f35fd1d1681a4b72fd171b3a6a3be 0x5bec2525739d5ff920e4b33461b34af2ddfb4b66297d6955d4c8edcdd0a3258 0xe46fe38bb413174b5f53e226f31d9a9d0f9014a81340e7018af8ed17e14a3c7 (-0xecaa8f45698802f0a1cdcfa1b74a0a85c62e77994b7e5b78d2c9a7a8e5cf016)) (Cert 0x19185428ef39f8fc71c632d8bf590612fc846ea28669a43c8998439282f440df 0x18f1ca2cee9991306ce61791ff4297f7140ddbb23589378feff0fff14c20eaaa 0xd03876075f8fb163f3d757a317e4e547f1c6ea4b3c8877f506f53829f20d274 0x9e32fd94b1f1c90450f6bfabd24f98c5b80b3dedb045086104ba484a40411cc);
  Dbl (Cert 0x16977aa83d87ad71978b57c89c3d6f10126be63485c6db94afb9eff33f49e493 (-0x2bdd4ee8e76875556ebb590f9dabc0bbc24c8cf0fc2b57aa9952dea5e4b2dec5) 0xa8c04344d3350ae95ceacf831d44e2c92865458bfc0e09b8d34ff9e5bde0e92 0x386606089a237defe4ee5950799554b2f1b84c461f83160f50d322c50e23825);
  Dbl (Cert 0x27451181e3f178a29d5f8e315b3e6720e921f458016ed9ee9bb7e66ad382e014 (-0xc442cdbfb61a2f9bd6c372b68ffbbc0514e0529cd7e5d478741e987e723697d) 0x1fde07daaa6a5f8a17e8efeebd65389947e4de23b36fd3f1cd51b95b19d26e7f (-0x19692e359d9e5c95934ccf0717a574cbb59a956d9491037eead60d9c4fa17fc));
  Dbl (Cert 0xbebc5e4a72832894dce797b023675d94ba4fb3a6a36dc63c5dfee849abad581 (-0xe2888fcc656f39be01a2a2d7dce3c89da6f116a2ef62122ff309a7e997328cb) 0x2efc874bb2edcccf798571c42234bde5cfade11c3e6d4cdf28c9062f48e07b7 (-0x1b3581f36b35397797a03ea45574d1220f92c8ac837b1becbb1b1bfb853e59f));
  DblAdd (Cert 0x2fc6abf9f34d37080e5e40038ad78f066575d4dbe9f9c72e48ae6e350bf51275 0x840cba8866fb61057b5820f45405eadb18a092f14501598179c38b714e66c2 0x2f2b0afe4b8e7cc7b2365218d80b6f1ed48f9f852d69f9fd4d308fd00cf87a15 0x120ee56dc9132a1a8d0784ed3608949de6cc12815e7d82beda36772ee9a30ce7) (Cert 0x2629f9ffea8f943cb4b4e71d3e7fcb2cd83d9efe6293ceebd8f3abfa603f17be 0x981a52bd9ac1dff6f0d134a11e8523e20e0e8738cc311414505ce1743037cf2 0x1e190b2d5aa836234123e1371e0c8d28b8a607f061f9639195325dc72e6589e2 (-0xf5d8eeaa2a100530e6dcfffb3514df82eb65d46dbdaeedc8d7854edb188979c));
  Dbl (Cert 0x457284b49335a1a09419ee3fc70f2f477fff8854cf020b9e98045a2acb51779 (-0x3b04372cf94588a8df86c6e80e0cdb7c5fc53c33aa2d55cc22567a3223887ac5) 0x63aa099d6639954b1b83e5968951c864bc5400f99bb364b176f97cf3045ad3 0x28225f2f1b132714696e5e2e6b2230b261b149b3b9f4436c6335ac3fadbb0f0);
  DblAdd (Cert 0x15a8c261ed8e0f26105550369668c3035610ab4f4031396b3a2038d0fb0605e8 0x1269b4aec676820540d39bc53e22a7cbacd2f855ff2a4a6087cb3dfe506404bc 0x9b1b94f5fcd19cbbc0c0aac5f41270864dd09ce034b0ad3b4e727498073cdcc (-0xe18bcb7fc71bae958217793cfee01312b003a2e263aafceb03fcde449758b51)) (Cert 0x160ea2af73f16e0fc871a70f3e1f811e8a53eb1a9dde41e55f83b6d46c11971a 0xffbc63fc6f07d35debd66158b61e5213a8ce9ce3e7b957c0b41de19ece05cd6 0xa0dc1d4fc251f3e68e91d90acf7f3f91e4502435b4fa929a9d0e5132f88ae53 0xd80a28742728a522611312797f7ba620e9aff40d79ed85620c36d1d8ecd4296);
  Dbl (Cert 0x1c01dd687e547afce8b54cf5a5d2d551778fe980f17c61fcf8d5d6c3b5a3fc97 (-0x12c3bd40f68863ba15a00a1f01124bb50fcad4d45bc6120173998679c112efc) 0x1035a2d0a3aeaef9f37ba2e6588301f00c7daf13b8c4e9e028457b047249742e (-0xabf059a445debb3d096064f6b0e691ea1088403dbd91222a715d0265cce5347));
  Dbl (Cert 0x2afff5a01de9dbdadba6de71a929f3c1f9c6e5324a1b0a7d77ac9c642df1ed76 0x28e13f43d3bd948fcf95a005fd7494a4228e983bc16d539c46623cfbe694617b 0x26356a59bdefb1f49855d08f29453d5ddb3eec44bb6fc268cb4ce1308c14f49c 0x95b338268887aa15e97d03bde6775a3e95c99f5d19a2a9b9ff589bd63fb194d);
  DblSub (Cert 0x21c06e8daa1cdc5f3bf223aedb63a7d520e761f362223a8dbf8631baea668da (-0x97592940ecd1662814c31deff6b871f1e1be96c3635a70f71c2d898bf0b1c28) 0x178a69f784267efcc074b50775c88ef23960293ceb7447c2429ee175277ba9 (-0x115d34a40221723ba72ca66b3a20eb7eb067d0bc916f148f8d72bc6c535540b)) (Cert 0x26dc14c76241c6d5d2a7f47387aa9e963d68233f3640ab735f070054ab65cf87 0x1ed155b53544672f9972ea33c6e4efd1b525570d8d4712a4ad77f8fc635708c0 0x1f3486e128d719f4e84be99b055ab2d47bca7bd26a5f2ee7d6e0b2f27fd22a2b 0x140f77744e47b80412607d2528c249bffbad9faefdcf9bfc46918bfbd33062be);
  Dbl (Cert 0x2b6d2fa38bdae61a43e939fd275b5da1bd06f3823e74fed6562942fbd7cac6e2 (-0x400ebe7bc154de01bb472cfdf8f27fa4b0061bbdb55f45263fd34d46954c618) 0x26f87dac03b6ff9cb8c81b484336d9d5a6fb5f6793bb96d45cd72878502afc18 0xa3b6faf9d995a2d2fa6cb5e123dd89bc0ab3d9e9f57cd69dbea3c3c65dfc0c5);
  DblAdd (Cert 0x26200d5429d515598024bfe610e7878a494e590700cdaa4f6bd465b60019a277 0x12ada97f08c852b5715bfd5368f6e5e17372cf5e8a88db8b597709702cab3ff0 0x1e0965d6641d6531712659dadef6ebc4909e549e4de7d319fa8e5e835988cd1d (-0xf111b3c8cadebbcfa27d903b94ee5253fcbc70706bdce278b945bc493977bd6)) (Cert 0x2ba38695d4dcf4db8bb856d565a10b77a0112173a52c31799acfb53f88bc8390 0x130b37edbc06606cd060ed4688ab860d89d47fad266213ab21307a05d26536ae 0x275a41e08d28c25c98070dea72fe81ced9b38ceb86a83e0184c66799195ae378 0x33c6d63eacd6b81c98188c62f97909f54162cafe80a2276d3379e933e7ac6c5);
  Dbl (Cert 0x2e6082cbba07dc3394c6ca4adbdfea89fd1f1d4f95b21e7fb8bf574f86f93b36 0x4824dbdc4e55b141791fe5b93c7c8afbb08d18963ec575e26429a34deea0d0bf 0x2c7230dea3923ca7fac07ce80048d4e17db69c061e213164b16f3c120ad08baa (-0xbe8dd4d867bd1b89dcda6d2dcdccdeec5e9fa3d23d00abcef1600c162f7424f));
  Dbl (Cert 0x16801b3c328958375ccf50fff9678ae775b03fb2d5f996e1f4c95edef220dd5 (-0x352514b741594b8555e197c00ca4ce3124797d62a23d9656f6daae92bba0f8b4) 0xa763cc60aec25299dc6104940755e301c9b410cabaab7955c2eba86ee3be7 0x953bc6959bbf42451c6334cc5199ad8dd0b5a8e1a311f3f5ea14ff354fd032);
  DblSub (Cert 0x2d91113829d084b83f00bac0a4b0f7d6dc5164fc0054a3cc7253c667c801a0ae 0x2ac80cc55d8e1ee94d0eb4825a6fcae77362daa3983ebebb394c8faf63499110 0x2ae80d263288f574d609cd026d9a6dffb8d4dd3381df2d1d78d204bfb04a2150 (-0xbfd8bdfa75062a7a77783ddff61cdeb31a73e2d3d27691d35cd90de65c5d51c)) (Cert 0x21f1bbd5436ab5c6a8438d35ec64160f48d75e3403588bf1aced2770304d61c1 0xfdfc5b0e86db4893ede35977166e2414a09c93282c3edf7e079d76b546ebc8f 0x17cf620ab211d1086bc30a6e9843a74438dc3bcbe5d4e82da12abc40ea11c4c8 (-0x23232f3b03b24066822c51553a816267b1a5b2c5301a7436f94f594e8e77e00));
  Dbl (Cert 0xae8014f6919e0274f0af2e3c37f022fb8f79c46508728d48adf96e03ea145b8 (-0x2606810fecd15d5c875ab276ce36206e5c2e959735f688661928091d6d016e50) 0x2753efb773d2719c696f438b64ed58a5dc2a913672ca0639d432e07c1ea7ecb (-0xb5417b05dc1b410fc006bdfba8fd47926e3f95ff7ef4701c9d2cae8541f6aa));
  DblAdd (Cert 0x2f32de11a7f1beb19c3bd7a238726cef7e4b057511b48d9f6084b8148815312e (-0x27690cf6d290746bd7c86a6ddf73f80591ba518882ec9309c34a63e18c0311a5) 0x2e08f58e41bf0dde485a0d730be02711640a79b86c86d28a02b9ebbe3b12c1fb 0xdbd6d066044765670463f1287dc6ce089bd6fec9c7f52f457dc8756e55b8bf5) (Cert 0xdf0f69f01dc1997240ae11aa2730a0f07a58173ddd834fa8f95b0fd6023fb6e 0x444ac8dae947f398e0792bb36f2508c01806b77916c9863c5c0bc685159f519 0x4042ff3a3e94dd31c88b12d21c1c69d449e6bd30b5d4f263576423195f6052b (-0x5d8508e13cc2c1873475978533a343ae78f32300668a69c82697eecf044e33b));
  Dbl (Cert 0x187c23cdafd85d01e1a55442b9d3dd9df943507ac411a87dadcebdc178132641 (-0x277d3e052c2d644cd805ed59a0567344c5fc8e91c8344b53173cee35bca48da1) 0xc63814f5e02754861774401af22e201bd4d5959f9e686aa05bd9f797d9b0fc1 0x786f403246358f11d8c41bd224d913a9dfc4a6410b7405351d024fee5bdee2a);
  DblSub (Cert 0x27a9c7188fae1fc9cc1bd8ffcb7a5d5b63d8c2bd40b6983c2e8078af497aa97b 0x101c673fddb9942f548c53891eed834eb92e3f8b57b9740f2f9dbe4b2c6e0fb2 0x20824cc8ed8f8df77fc403488c28cf77ab83c50609f8a1713c5323202b8afb01 0xd4d05d7357bf2e0318e662026d3d3fe98644b520123c9ebea7b95ff3ad5c0f5) (Cert 0x251997b19897c8cab3323671bdaab08b993d49b343ca1d1e47f56bd36c3f570 0x310fe74258c07168b3a134f65fb09a1045d5b7edcfe9b7c484d54fb4c2bd2c 0x1c71676dd945c6001775279df13c38c5e8298c8a2f790b5fa7d614c4edea5f (-0x1b8760ec0c4fb4dcdeb579a52b3589b25fdb156bbd43ac03348551b01b389bc));
  Dbl (Cert 0x1c8cb1b293150c9fbd4b2a012cbea591ad0da1a02a577c3fab113368f90f6f01 (-0x35f44c74f0ff3eb214301e43b7ff37d8f936d6dd73bf4e3819e1eff620bc8384) 0x10d7e3bde1b2690e387c5e69f45e2aa68f2a9b1173419efe5a81673ebcc9bfdc (-0x33e927a2f378abb29b3e36d10ac7d9f202acf2b4273e41caf4a9205995d3dc0));
  Dbl (Cert 0xa14b5738b9c9a320aba0fc41dc34a7eacf9995316b538a2e8f0afa10cd47829 (-0x7d9d1c53b7566c3f20e442466bb9226ff1793b38eba64ce4c1dd50106bfb7207) 0x2199bc191589a0aa68c984a79509e67b4a932155922a58087cf01954c649029 0x56602dbc141e229e26a53df2a6218de6fc98e6547a10b0fd35f2e9d1a3d2636);
  DblSub (Cert 0xa19e34504d31f5136d97d99ee02acafc84811e1495fd8576e9d3b119fec6b3f (-0x671731a6c4213695938bb23716689c660508a61b568957a28cbf898b7311354) 0x21bc4b1c03171a49453f33071d123527dded12fe1c2b32e87ca878572552d70 0xc9bc339b16d0e211e9f9aa9ecd10479f6cd2fb4aa41c51a14f4fdeb1a25117) (Cert 0x7d529f33133011ee943d8b6beaf1cc7f64614574ebc9c509f8b416223c47cc 0x28b3d2b4718320f2f0c00e9202a17b4d407391d3360e2725eff2816497c094 0x1448dfbcfe99190e6f77cf63015f3c08ea82e94f0b84773a16e48b53714b2 0xdb09e63984b4211fe4ec062b694183a6dd442bf34a33e606ce34082fab021);
  Dbl (Cert 0x17bb8c9e8957d37f901ef4e021c2d48c25514468863656d7bc971e63af5916d7 0x1e0ce57bfcb21e18956ce6fc36c696125b561e5e375dcc399ac4b71228e73a86 0xba39bb1c8479b3fa3a45791873465c0d2233da8562038607b36a285ccdf5eda 0xd951ca049a87ad583ca809d1b6c247f3f62259b635183d50b20c92e50a4cb7);
  Dbl (Cert 0x1dda5675ccc27bf681af2669823a2e82836679361947ae1669b1dc004e7a6e07 0x27e3859529f977966ac075c28b6942c87bf2d20bf001bfba22a080469c6c1b01 0x126a8d8adbbeb2a52e3dd477d1d84bbc38bd8024f26ef4782c9696ffbace573b (-0xfb36c38aa10dcde290774eeca7d4ead986b4c4b607acf8cafc59a93b75e592f));
  Dbl (Cert 0x1442c245686c8b476cc84a5337dee66479a11777716e64f1963f27564cd51172 (-0x40caf1604c7401f91c0375844dbe48e05d52e1b2a099d7d587f512208d4882a8) 0x87b9a0a6acc4d3911053eb544a01d2b5dafbb6a27422152b44a29a4b8a51a0a (-0x2d3231614fe7020d2669497b414c9caa59c43ed9196e0297a7d1cd241ca11b2));
  Dbl (Cert 0x150b05bc01631d37449a18ac375dcca7f6be692491ff0a5a18fd0c4c5861bb2d (-0x634f838d960edadc2fdb679a17e6a540a80073c1edbeb9640ad72902556e289e) 0x92688514abfbe2219ff93f9c2c2788137f99ec72e2fc0567437de5d1a135234 0x3dbb047ca994ad2127738085bdd5e62df32565dcc89cc72a12426c2c4a34937);
  DblAdd (Cert 0x26e99335e96fe973cad007b35e14e37b3685b24860f0336d8919996c73a98d2d (-0x14f8b7ff432b003755ad905f64800601f08cfc61d8c96cd10274e17a6af02693) 0x1f4a369c5ee97f93e427dded282b8a1aa8b659aacc7a2dec80e933db3f249be0 (-0xb891f7bf07840b502ab53394ba8df42f2f70dfc4bd1ec6722577d5461e4628c)) (Cert 0x6dc90c5a5be3eeb145e8f7c4101d2954e9e25b9cd6c4b3cb7805f660ac2c0de 0x6933686818e0f140575b7f4b1dedb1762fb5d608e36377f67f172872b5744fd 0xf9113c8e3fbc8f9a915debaaf3e43297c793110259de40d391244fad184eda 0x33f8b169b6870b7675decff12f2fe412e86cafb97f7357d6ca78c5202c4cd99);
  Dbl (Cert 0x1ee719cbfebcd3259f5a49d3c5099858aad98edf372816c163affc6054973019 (-0x16759d532a723b22580da6d8d065cde8534dc6cac20c9fcc29dda5776f0e2afc) 0x13bbfbafa07b5e92b07f9655844c65ce0e96b83b8af9b9945d7c4504ce634e30 0xbe13cce9b752964369e510d1816e47f4462d8db98e8d8ce17c51a5e2746641);
  DblAdd (Cert 0x6c143c5e6a1e24183de98f17fb81e13d8975f2befd0997ec872adef94fefac7 (-0x19320cd56275204b7c090df2d331811bd9475b0b07c4de119a33748626bd8aa1) 0xf162aacaefacb48cbc7bce376f75e5d1e1c1e25be2571238fa45ffce8aff66 0x2ce343023ca5b3759288d4f5c5fe764115f6a2771dd523be9bea97982cf47ca) (Cert 0x12792a14b1acca23192e125d611f55f4a0286cc3b90e32d3de4cf8158d030d8b 0xd72ca3ab184feef6213087aa242019d1a27c08a394c983b57a1c7a863add4e 0x70d54c7535f8ec597f3f349d5fcb84a92fb7cfa86d5620abbe8a69b88f86c7a (-0x3d8b829850445a1c2404fe183a4f666eb7d29eeee049731fa4861eb38e8015a));
  Dbl (Cert 0x1d7b3235387f80a18d19b42ef1af620c5010ba88c5d68dc6f86358660e4bc906 (-0x1b8482367aee3459f90aedf68d5bcbe2133a5bb0a7b407ee27f2270b3e15a55) 0x11f5e5e2fecc7f2f5ac3ddad1b714c4fb56d2d75e650840b6196f33746a34b55 (-0x10d1d8f94479a250a0784e05457547a715aa521a321a997a7932b87f21dc87e8));
  DblSub (Cert 0x135ad99ffbd7e76f30376e8fa0db3b38d1127a38968f882e5e272f947a6526e6 (-0x51df4e52c32731761b7be47b08aa4b5230763d8e4ec571ee1c8817684b2f842d) 0x7bdc045d3c482fe5155ee496a825c4736cb7c17649d9e436a8dc4e006d68768 (-0x2a579bd92cd1f0ebc00e199158cc92e62d35c19956df520f10e4680a591397)) (Cert 0x2a58f75b55e85667c5ce4f3c707184d4687b941b2127935d55b7bb678477b65b 0x23444126131b0130550ddb1e09416b167c4d9acc6eb8ca256349181aca998788 0x250ee4d779ebd054ef1b9f8bc94db2bb3cce8954e123a8fae32ec754a6374eaf 0x86a488a16b5f09c755b15e4a1b05d1d816c87fc1404f03ea3032c1460b9e68c);
  Dbl (Cert 0x8df6f9e9074dc9b4821f9f4319deee252ff56908a024accf49963f4284d7ffa (-0x2914e80fc809e71c6b7078535d7cbbc7fc5143a00de06e40c42343f40278733d) 0x1a079a2433e0bfad44347eb58f02f273bad0e75a8332e41a2a019eabf28e12e (-0x2a01c300af1e7f20fece1a17b485b54618be4acbb100db1ac1c1c1bc8de3194));
  Dbl (Cert 0x29bc6d3376b3e4f403abdcae00f7fb5abccd2ba8ff6d54c8014474987c2d4d5b (-0x6bb8355f7a5d71ac0549ec98611427e5ccf84679226a6dfcbf0ff40039ed1aa0) 0x23fee5b2bbce7c5ecef16a877974030068df2e26ba7d6b3246275a46302fa48f 0x21bcbd20cdeaceb0d8d0e65cf496d555289d3309336b6b07ea5b1ef20eda3b5c);
  DblAdd (Cert 0x25f52c3ba81ddc7e1fac3cf0eb318176cb77d2e944925f5c15db595f86cf6e46 0x470849684b73465a7c47f0304e01ed3c990be5094484d7ae6cfdb1e893bab1b0 0x1dc5fb5b0a42c76b774570fc8231bca87d7aabf99f357475163d7b97e4f69ddd (-0x6d8dafe2749e88940d4a33d8676af99c5aac14aceeb77c70aa05120f87a961)) (Cert 0x19fc3410a8f1049291b8c96a3621cc7666c317bd7a83c32c4059ed1c52267d8d 0x3740d3921b5503597cf146a3845dfbd63b4e5b47f42e693d37518e0f9c65573 0xdf4101a0c814dda495446ed12c44b2abb1b252e21cc637ee5d3aa114d4dbc01 (-0x746d32ee24391da70a33790550cfd1e3053f1204ec96e507e0e19bb05883e4));
  Dbl (Cert 0x268f1f7d3a6a58f68c2ebeb7c3f07afbdf1ec6035f03f1cdbe1b0b22e1857206 0x3b83069bd84bd811735c22725a025c8520b8631cfa7e288133d9e694e495a890 0x1eb9682237a5191e2299cf9326c2302dc6b75620ad06587b91cd87a3d4d03bd4 (-0x14b1c9b7bc8835060a3cdfc16ca383686a8a99702eb6469ad0057d0160ec399e));
  DblSub (Cert 0x109e284a33747db30a621365ecf8739fb36add5d6e295169dcc349ba8548b595 (-0x33dbc802a7e15c83b7890fd451baf41ecbfeded5577b5a0fa2eea39fcaa2132c) 0x5b4e1d0ccf575f4ab5f4c91520728e4b7d98d059586fcb1a88e0c668750bc67 0x9ae92791a3562e10b74bcc487ed2870d6bfeb16f19af0447c14a024aa1985b2) (Cert 0x1095120dc7ad73292706c053806bdfaeabf5f6ba067524a90c0c0fc4f550f7d5 0x1bb7b97f7d3772f2b52b08440831c2bb64c46a68f96b8b96da10efd7081ca1b 0x5aea5dbb0cddc00e5f48c82caf467065e74256809e3a141328be2a13d164df3 0x19606fd661fb5154acc0860b5d200e96a12c0c95ba3a6634f103306f9b34591);
  Dbl (Cert 0x1f5c252e0c6d29fb807b56464c2b3ff32510ab753ea7e769e049f6d8335e46e4 0x32b9dac1eadb839d581ab07e58df2a3d87d5b3b02903d2538603acf4f010dc73 0x145293aa51c885e77e6b8016f7b54212d7dc0ab17e79803345eb6a79841d4246 0x14c353241a6d07b011c22db1f4a1bd485ee7473d44e47d067a85b076ddb91f);
  DblAdd (Cert 0x2904d764ad868a63c312128d5cfac63b2d449bb1e010bc4001ff8423cf2b778 0x37f843f9e3d90ca5a721206bc5700bc511be21f2812853812e035d18f859150 0x22c4f2a6e2e77aaf8b7325f0f6affce9b55f30145f79e766a1285131fcf87e (-0x13a99611d7b6ce6d7f3f4ea646588d8c21c870b06ff3eef7535a521631d3a15)) (Cert 0x17b287e59f438bdc4b42cf5a2e8534fb9f9b5fad4db8d397775298d69139a11c 0xb81d54a230526ff41460a5e204de2e6cbd8a1e7b58f8427e3383f62e49ef768 0xb9ac4dc10072cdb128f7f56900383ab1521da319a902067dea7c166c1a65d74 (-0x338f5750a7bc8c2bc71b248107eb5ffb6524be2d5b5429c14ff626ad45047cf));
  Dbl (Cert 0x1dbfb1889fcb8d70cf3aa88c606610534b771910aab8af44358f8136232b040d (-0xee8466bed000b0ad88eaa504aaae0aa02acead5e28ad274225b45e675406e73) 0x1249bc901825f031b40f533c82b0195fa67f68f8d17c79ac4fd93b08b55b876f 0x6db5ce7cbf1fa9e3a3acf9c56ddb62ecc63b697b434a41f64f9e736df32cae1);
  Dbl (Cert 0x7d0e4de599e89a0bc21bc4d2bd7832bce267b1e16c133d72a651cf3d0618c88 (-0x148377f5fdd5685d631e95d3ff214f5be9fc849f9dffe61c94dd2a1752a7cec4) 0x1432c8266faf38de8a57d415c6f59e2304bbdbafd4886e1bce3be319d99dd6f (-0x9e73e674a3dc339db87ae6004ec5d33028074c55ec7ad7dac4763b2e24e540));
  Dbl (Cert 0x2cf5a01d89d359a2ae7b4beaef0192270182845d1d56c4427dcaaeedac96b77d 0x21481f74158145a0bc452ba89ef2d636ee0fcf72895ecc3aa87267567d23a0f5 0x29c5448cbde715d968c9310533c7cf3dc7bcf222d88b3aa2abf364992c320813 0xa60a66264a651841c656f07711208546aed7728b3dbf69e9d2103c5394b3cb3);
  Dbl (Cert 0x1be7c36735c142edeed61917515c5e4373acb9307826dc2f53106b72b98150f2 0x3c7ba74b18c2c3f41c6befd81ce03520c0a6f5b224344534302474a928dfd88 0x10177a5474ae0b96a0c8cd56be730cf9fef7887111a812af12f892bef5862761 (-0x1200d5c0f81eacb85a8a9e5fcde22a9e5be7a82fb6cc6b065fa321ed7e933b4f));
  Dbl (Cert 0x2a930c420be9d7752987279c1f1505f995771c2c31e9eab166989a2c7a815572 (-0x5f6170aaf44bedf76ae2175d86d3a085f1ce9bb2c21071a68c4d45ff4a28c18d) 0x2574d201ae92b98157aac7ced2add174147b3c5ed5d8bda8565f847a35c51fa4 0x2dfea975d1cdc411ffef76beb4eed708ad3163634baebe236a0356e6f132312);
  Dbl (Cert 0x1237ec0a92764e29f1e2ad621601b8cbf79d5560527ead139762d2040107d2d8 (-0x3fb1d9b15cbc96bd96bd417c7a49321c8ee0e8bdfe5aa0edd4db03acc774a6d4) 0x6dbdcecc5845cf9e626d2b1cce4fbb8ccc0a68a1ec17e37c8daec8a6755de1d 0x794675c00da169712cf8038152f76592d9777a044813a1974617bd6ac394339);
  Dbl (Cert 0x15e26273249766945affbd32c2dd606877ea793e57a60d0a43ed85f8739bcca1 0x9b423027b95b1806cb1b342edb78be47270993fd6a5129bd071c9c48d70a105 0x9e59364ca5e79ba3dc3f849570785665565ad9fe9051b8094b2d9e659a8cbad (-0xa2d4e38f3a454c4b5fb25b3831be59d0b1807d1246514cc57f74da7ead8af69));
  DblAdd (Cert 0x1571e7c652b64f803cd992ba6229230a3941a5fe9e4c4b929a7638806c22f791 (-0x4474391293ca2c574c63d29bbeca11827fab0ee88463042e1957580b53e1e112) 0x980dd1b0efecef500c170421f5101ea92a797d8dfcaba7e57beb917615f3477 0xbab41a3ad2558cf72cd082b838c5dcabd8ceca112905e7868e815e2e0121678) (Cert 0x2018fc262cd5298575d3796c36a34bcaf4f2b2b440e3f8ef55a865ea082fb1d9 0xa555d533186080ce8f3a8b2c84c45e19fb352d37c303f93f6b6889ccd0a561a 0x154a3524a261712e8624b96675c2424e9db41caa99f1c39606712e550c1e3590 0x9d8fe45f07f5af088529cd8bf2668d02868b1fbd9ab2926fcd5c287d99214c1);
  Dbl (Cert 0x1f9fa64eefcf029fb9e8694bec446ce594875e2f64f066da77ed299ee5c2495f 0x18eeae6e5d534b4495fecac3109bba221d675cba7257882ab8628e62db58b41c 0x14aa6fa1af9b46e9d6e750bdeb299843aa5b151fbac95609ef87a3349a7111a6 (-0x1b2e8266bae89c8669ecd0e7b3303c41f9bd6b5889b3f0bab639ae88206b88ad));
  DblAdd (Cert 0x1510801c397503143ba34d09a7a21362685724d9e5e9a5b658a87edfa0160d31 (-0x52b03417d062b44db7d57fde6880bb10e08326b446b473353645463f825b1ccd) 0x92b4c939939e7268c3c29eb7c5969e808c9dc6d0b8cf82ff64bdcc00ac6316a 0x7df2a776e5a02e9f5ae80c5e6d3579026f695393f4118eed11a915992454c33) (Cert 0x404c72b21c90840a957499653c28085d4f2776627ade19e07894002f80d0c51 0x20364569ecad3f00a4c8438d1e8e2feba0f3667c60ed0b753b0843ab26550e3 0x556f231d03fafcf28a0429a93201f34576e6e282ce236672bf105ec3e7269f (-0x144f06fdfe4b364cd542aadc705cda4803af0aefac1e4dda157f50bdabb4994));
  Dbl (Cert 0x17879a7b61a17c327d14a24949623da0393bc6202eb3a8e355e66a65d1478f71 (-0x53f38bbca7a14b66aa153ac7a67e929f21bbafbf2b430c6ce85e3b012af97500) 0xb70dff27353275f5159f40d6e833c52abcce3635881e22816d511ad7dab9a1c 0x12ac109f6c34e28a16a04ca2bb4e936162c8887159db6a01e15594bc95a8abce);
  DblAdd (Cert 0x4ce96142a13a74d4549dc4a88a1a52d15bf441a4220156a05855f16b2981b74 0x368b0d6d2b369c77886f41c8f33faa2436d3d272b622ec0ee29d077bb2012e3 0x7a3d5b189ea08ab29d8f1419338d3501e1e6bf1d575ca3c945bf8d97d6221b (-0x3aca6a8f4df651367c0c4bcbf00f48aa0af293f5f33825b1518b7a3e8169b0e)) (Cert 0x1e612182f7409ec97d153181947f43b99fb407c1b8a5ad8950866d434a684c54 0x17edbf0b1ec577ff0c5a421fbd9a72e80ccc36292f8dfbd116dccb1c0516d9cf 0x131253c1534017656a2c2859aedc89042fb9f97d87465653f542726d48a9f9e1 0x8da501657a9a24c7f75d1714d86a7c123b10d9a730d0f2361b59612be1b365f);
  Dbl (Cert 0x387bb97d0c50ccb8a835f3a3ed7365a057f165287f2787ee20629df7c108a96 (-0x20ea1b5b1eb6c108842e88a96b7f970a3d164ac38005ae7150bcd55e14dff99d) 0x41ed7fd878f7fa217d89df8d76ffa02b977f4346458a9e68b62137e7e50941 (-0xdd52521cc802905b04cdee1904586b0266b2f8ba945f732a1da39a1c7d188b));
  Dbl (Cert 0x13d0048871eedae06c3560a9c139cd7ed19941be2254885796ca2f98f0fb6a (-0x4fa78d6c6596fe13a239f12bdb7a94fa84e47ebeea01e3e3454e02f0ae7797f1) 0x81c9599c667dcb2c56ecef2280b2d185aa2bf79da2b17ec6ceea9171ea0 0x8467aec50a4283d78bf52812cd73587363c7cef40539091a08eeae75c84d7);
  DblSub (Cert 0x1ad526c6a54058996d94ee70c87db6adc582b0263714f3523d083339c2741f84 0x856e4dbcf2d6cd141812ad566cc8d7d15bd7d7856dc49af1fe686fbfff463c 0xee0da7208f33cda05f1c510d377eec7ac0df02108b6ab6c03f9c607e95b2b2e 0x25e2b4ede5d81891c67b6474411fda316d851767e531cfef0842eec5d9af220) (Cert 0x254f800127f541922f88d09722a30c3abe04c8084c4a234619c62bc6536346c1 0x8c6c34977b9c154e4c2baa3ef318e72053956a688ea53f4a52817a071c0b317 0x1cc44bb6e58808cde4321d0834147b09e915ae1028b4e5f2fdda22126a2565d1 (-0x17732d242258e1fcfd1f34995a9c26775f128828628f05f7a4bb23f832c2ec26));
  Dbl (Cert 0x1223101c4aaae50db202a023ee3aa297c89cd986414c050f1cebe29cd2dbb694 (-0x50dc37ea739e38f4ac8715c9adc1a8bb9f0c960c5478b2938a189a1c09087c2d) 0x6cc312f843ba07e55f20c03d3aac36119348f0a0d7d3edc15eec8d8419f0507 0xcd4acfcfb543d1a24967ac406aa67d74a7e3096569f253a601c029f18f5a391);
  Dbl (Cert 0x2160ae7a77ed4e047da900f1ae78efbb2dedfbd5fc9987b83cb90ac4636be8d2 0x149db0f958a5ee2d64cf0a56a707f6a4ded27ad54717637b7b9f97e78ee07813 0x170596b54bc809aa0425827160dae48f4147c4b7d1ea093b352fbacc458c7b97 (-0x9577d603333d6aabe1a1a7c13c60570fa7c1cc0c81b6becb3ed7334d0bbb2f2));
  DblSub (Cert 0x24601888fbc51b48d172ee785c178b651742e283624a78fe4cca37d447dd76f4 (-0x294d5df99d6bd69126d4bb7934914247cba34fcd84aee009ad1f0a3f79a9f85) 0x1b57c1ac22c2d8279c338b8f6475f60807e354a2b68948d0b879498916bf47b8 0x2387587a3dd5ccf6de26b4794f807751cc812ac509b07a2e530e1b7a07261c5) (Cert 0x2167a15b82d6aa5813037e3bbf9ca06f4dd44f1a691c78da1a32ee11cd58f599 0xc87f9c8bc7ce97d8d0b14c150f893b7fb6c8d9dcb638baa2f3839faaa7f594a 0x170f2da032f01f316451aea16020b0d91014d702fe0d3c7ce81c5abd7bd16e36 (-0xed1bae99d977f2924c888210c261ecabd58a99143da21b8a8db8119820abc4e));
  Dbl (Cert 0xb610e00597c96c1079176489bb7378a5c49024685c120b102e1efb6bea36d25 (-0x5b68ab322574bf30dd3fd77ee2a318c120b557c18d111219822d4397580bb6ee) 0x2acfde2fc5128606079e23725e4eacc66d029709a2574f30d0b56c51aff0e60 0x5127b1e86e69b4d2fb837f0ba6c55d578330ccaf7fe9208f4f1e9d7b57aedba);
  Dbl (Cert 0x1e1ac59502c903441e65e9b29d57e7ef8cae98bf55e2b3725a377cd1b58b246a 0x218b7cd1c421481f62a82596e8d577b565e165518e6c3411ccb8cb0d1d1e64e3 0x12ba62fee1267b1e29129debc70704d4ad341c234641a14ed20f9278eb96b5cd (-0x96bbd046dd35a5b7d83841537d3f3e945e6db5e59fedf00b0dad14ce136e592));
  Dbl (Cert 0x1e4f85c08fb05978e54a2c6270592522f79527c3996b14a788a7b174dd063287 (-0x2b12e9a42573cbe46b871536e8664a10d832090c637f296dee3550e9a30e7365) 0x12fc3e666c8f615f48ec2656b28fd6f58965024aac78492bdd7368af7284334c (-0x938955a9b32fa1ef23e069f04409373cda952f1f6f265a82949b8a6e6fa2126));
  Dbl (Cert 0x979894e03205744b1603e68c1a98a80e4c94e2d008e0ff2d495d3681c41819 (-0x8e17e196f57f500a32e424ddd8b19bd7d3d06a291beded4e9583ef8419a65b79) 0x1dae6cf5b971374ba3b753c13d9c91617c52b075f38f292825518f3a66ca6 0x819652548b5057bcdc1650cb67b4a1782b27c9fcc1ea185bc2debe6a4239bd);
  DblAdd (Cert 0x195c5802e045cb7aef280e15a2c84df17a71e166d93733ad8fe39d0f5bbe7d94 0x2b1263fd86967b572bac5fb708e61950e2978ca654dd767dbb106ac3b897dd23 0xd4a71d9b2f9e77cf186b79118f2df507cb9abf891bdc700a84b7a4e5bf7ba80 (-0x157115e8392121769813e1ab4096347caed7f56bb9790503d54ca74863bef2a6)) (Cert 0x1915e3020ad3da0547c24260c6190f5193dd2a8d1835e6a4ad8f779d3a8496ae 0x189ab38e55c5586890bfeb773c2c10c8bbe8d9990fafda468d9f1dc9bc65c2c5 0xd00ff1e0cc8a732f0c2761c0b781f432a16a7bb404cb0f2bb9a9948e2570229 0x13bd2b398eab4b675d263e78904ff96f5142d71ea79e26af5522e8790b347e11);
  Dbl (Cert 0x1f278a36a1a78529848782949af9aef8022a17ef838e20d96df589f656b640c1 0x32771fa1648b62f7122106a7e046f83d567e8d5f30aab9880561ecb7bb9e3e84 0x140e9e86b1da45fe26f116763e939028370d223dfac55df7cfd5bf36c5b81d55 (-0x59c7aa6577a274eb0f508088f30b44ddc66a98ec216b2bf8c4399429ab14513));
  DblAdd (Cert 0x2a6a13f925fd12d91e07f8a654852b677b2788feca31a4f3979e58b7b2c5d60c (-0x6d008eb1c0669518eef8ba34c48f78f1486d21fe6c4f565e1d1200ec8d8824c) 0x252cddd1967756d6da3ac62f882b0cf7499a70c799336bcd0683f33b0fb82691 (-0x1a33844c204c9cad0966783ca7fc906d7709c2fa7b09ea410b4f5266b614bfff)) (Cert 0x4b258b07efba57d9e516f398d9caa5ea94169478fa74cc864101cb6976976eb 0x4a87e9e2228cd79b91b61de0cbf676928940f918da64d8813cdade33c0ce3c2 0x74b1947e2ab625a4a7b548ca706f823f9280adccd81a30f4192d102e1ce4dd 0x17448582975e33563b26d7793e4dfc095a0140e1987a5285d863067a9d2014d);
  Dbl (Cert 0x112b81a89b1c57c0e16c4c90057f8d5409d5a2a63160973e841b331e8bd799a3 (-0x2baea1c868dac840164b6924404bbcf9558646557148d6491a0c0f619bef5978) 0x61792df8fddeaf9abd2a633ab603dda25a473dbec300b5be299e56102584740 0x33428812eb81d22e5c6238b88b67bec287b70c03b17d5c9c2a6f3fccbe42449);
  Dbl (Cert 0x9c5c687f1f3889e11dc89016d0c8d0a5527c09d63b2fee40825e8d30f6dc141 (-0x199f727c1f0726b0dc7a30ec679caa002ae9c8eee8f887642159a0e5040238c9) 0x1f9399224910d200f2e5f90e075f73dc04e2e91768ef0b9175a0d49dc416293 (-0x49f497251f70ea82b7f5cf647b1c2ac462a824327beb43c8c6f6fd052d9cd94));
  Dbl (Cert 0xc20952c118eb9187ccf1c8d33fa608ebef27f0a2334b99e0ab6c536289d2f64 (-0x7136d96c26d1ea9edafd6f135b3fa543b8a0d3a071e1d0749b81c6dd122538fc) 0x30a06d8e8b38337c3ea42d162d4fdccadf1bb8a8568317f276834861cb3f38e 0xb183a9d394d3b327393778e2fa719ada6a225804bc3885ea1ee0f74d66419ec);
  Dbl (Cert 0x29c370ecda430fbf5cb240ac975f5b6716f3523eccbd169ddf2d12df6eb22f2a 0x4f62d104ff67b0116d9315911694760e0d0d9c7302463363973cfb3d39b74f10 0x240b0032a09ba679e2203f186b5fc259856a992373dd45b8f62b3a4fcbaf248c (-0x1387a547d90de61d8fe7bdc93c352dfdbccf3cf79a2ceff74459df9f528c610));
  Dbl (Cert 0xcaadf0a15a58f18b77c537e6c98241a47c4d104d437c1bf39dabf2d43313c6c 0xfcda237cf9159cb10ac2f7ecc8e89890e77e6e62fcace9942f9c89497175818 0x350e1ddb2178b7c9535f8b502380349cf6660ea593461979e0ddbd5a4b1ecfd (-0xb1fe8d847a2150105d9c3b1a10a76c7854ffcda9f1b247e0d38ca57e335a57a));
  DblAdd (Cert 0x19c1a075bc7593b7c8907a50e511976caaec45e8074f4cdb3f51ddb27012f384 (-0x7fafac026797b6aac50921f2386d4033a7cda6818c8bb0498856735ad753b075) 0xdb56e7e9a51c092aa3cf4edecfaea88e57843b8851a5c6e5a17820213de86a8 0xb33791ce12f6da60684bd1be67c07426e3d2a0b3f7b01246d8c2cc38f4da684) (Cert 0xd1c4ef7baaecceaa58721427001cfdd0086dace0daf045f46e91632887b2259 0x6e64c0e5208cd8fd846ebe9a826b02a22442106b5ecc749fa5bda416eb1ff40 0x38d4f44e21fe850e66a70e10985899b8a8f0001183f5488f4298167b85b5c3b 0x530b3977f4a7e6c976eddc78a891813604266c38f06cc131b2301f994523d75);
  Dbl (Cert 0x112f8842639ac7b70f58ea26773ac9996fccef0ac371e20d69891b6a2557669 (-0x2038ff1fa86dc2a70064f287674d2852f5b5865f3b6c20c30db0b04d7f65c4b) 0x61a6e8b8454c44f53efe3b411e2943162b6f2e9399788577bc762258875fe (-0x23b0a12d27231de1a80d906c55f591712acdc73923a3acf7ef8795cd212401));
  Dbl (Cert 0x223898e14545ad37ff32aea43ab66a0353126d0f1e2eaf9d1cea8b9bbcd78bad (-0x4dbdd81661a5b670da11baf5b7f0132fcc429383b5279e34889c9b928baaadd) 0x183333c222fd878000b8597b4d74e8bb6904b213f9b2799808466368cd972cb0 (-0x137ac89c6bfddf7b392b2cd3c42407f3dba1d89234601b35cb434f143d9b35cf));
  DblAdd (Cert 0x9836d84d11be7c719a5e1e74c9e64c03901d04ce676567b978a0acafa57178d (-0x5a3a4ed7503c3bde7b64bc097e877bcbf1fba774a94c1bd94b1262584ca537ab) 0x1dec8688e8cbf81ac14ce992d0a0a4a6d91879ddd7176380fbae77c399ff819 0x52f48e9b0283a28e5772f175b11e51886ce9b0f4d43c27339eff0f026e954e5) (Cert 0x161d09ff6a27e5889f3d7919d8af2040c4647045cd255931f81b00ff2735a811 0x64a13e0eb7797e227b31398da78bfcee736ed27e973800cb94b55fbf8df07c0 0xa1ae78005cf6ae5ec6daef72ac728646ae8c8fc1a1d0b822713f5d05e78869b 0x4a57efbb34ad639782bd9aca3e9d973e34304aedcbc6db37a60cd73f25efe52);
  Dbl (Cert 0x899530743ce970ce7edefe493549c00619328c0e529a915155481659f32f942 0xd46dc98ffb72b18b5e6a3dee36142094b318b87549a43604c7c28954ad83 0x18729598401c3464e0e0d73d25a0e41272550f00a016eb7b8156e7566278247 (-0x1db954bc7f1576a855b11c12e04b36df3c0f2398983edf9959cc76144d40ac5));
  DblSub (Cert 0x5f6773d8fae9413faec2512557c15715432ebcfdfa22276effd7f5e9e98cf99 (-0x141702ec83b9353d9cc350cdd49c0bd6a059feee1dc4399582d6a61fbe594b7) 0xbc16a6efbbb88e4f12401466d107f30438b17f3067bcf61cc45fec34af1f6a (-0x1bc9c198bca4f5186f376365cc3769a6751dc55d1a0bf0f89c32064a175e8f4)) (Cert 0xb268eddbb607434f481481dc6b74e9374b51d93df4393eaf02925d43529bd76 0x67c3a1e34a2725e21ec5fe72f23d6a22505a4a92feb988b6572b0e8fb128c2d 0x291c1ed241c6a14a41981e81f83ea6fc6b009ea3ffc435d05c0eb2afcf7ca3f (-0x47f07e0a0227ebcd2d62cc9ffca0aed47ec6ad869543abb1c06593eb5e1c57e));
  Dbl (Cert 0xc7226b66cc216236f0d29d2e7fe742725981f19cda7851cec1eb9fc4827965b (-0x7b6e641b55c72bd252966aa82f5d5ae689b2fcf1316860af4905a9940a209c4f) 0x333726998fffb98fdab7db05568fecbc598f28d944716ef2e08c7db80c35fb0 0x2cd79e84cee4da24165a0f35de1a0e4de5d417c8c8d383347137b341fec4d87);
  Dbl (Cert 0x1c6e2eccef845a7b15aca5f3e4267c9b71f292435cf731d3098410259008c2b3 (-0x474dd490e18c492553e9256e7143e6435ddd9d6528fbe6fe95cd3ef55a41b7d9) 0x10b3f6a233e0d0c935e4d87f0a76d9bc2e4ade8e2468f34e5e84c7c34ed5a0c7 0x1092a0905709dc4d8b511c9a5656b41de426576caaf1d4a173c101945c0a9d5c);
  DblSub (Cert 0x2f863709c69b04b10f835b22afc853a036a011b0af47c5c564cf77793173e28 (-0x46bd9691ffa2674650dc105cc833139a98fcab19cf9c6a0eedb92a3b2a5b704) 0x2eac1ae7440e6325ddc4a39be333196665349496fbb514f06e02fd09a1668f (-0x2142119e815e8926180d86f5e34f75943666b14350f66e9f5b14e28ba7f30c1)) (Cert 0x269556d04b38a71f8b412628a585a2fef2782f8040ccdd3d0228b188c10b075e 0x21d1d25b7c1be123a45d292dc0f09e527a9f6ada2dd2ce17c253a833c4278f88 0x1ec350e5d4226251fed8fdbd1d452e9d32378458160a19f6394397662e1482f1 0xc8405be78303a987274dc69b756e80f2454a89afa46661496bf4cce151ff5f5);
  Dbl (Cert 0xf1b2e069283cce51cd664d79e6c0988bc1a4caff58b2cf5bab77677db866af9 (-0x165d1feff1a93df594744f2ca4441a67ea5e7d9a83211ea0be460773846c67e3) 0x4b73176b38d1d1bfd9d88248e0d562b75e352505368d0a91329dfaa417938c7 0x3b6034fb1a146b6189087be89a8f13813217d6136856e32788a8d219df417a5);
  Dbl (Cert 0x2ccdd9f203ecbe1da550ba133af4b2c895849a28230c08a1af5adb41d90dd5e3 0x109a399fe2bd0fbca84ca49a48e5589409967ad64f3432061c543838c9ec7606 0x297b7d4ed59029505c74f1e541916b59d27a775e9b76b54805a035901a120afd 0x8e7e3ce48aa985fcce21c9be56a2c5a2a57acf7d81e1b17e1f7e643d0e35cdf);
  DblSub (Cert 0x113c0819326295247da43da89ddf4834c45e4ba6fec48a38e1889c2c157b8133 0x1ad2f4bc8725c07f756891fa3b6493a3e990618fdf4fe407808a40d7a25e0880 0x6235287687befcfb7e421347e1c5225129920855bffa5183321d073244b02fc (-0x7a48611c5392aa9e06eb69db2d9cb8057fd73bac92b18a0f96395dffabc40b0)) (Cert 0xf25f9ff248986f1c805a24476b2047bef0a0186e600c0703c3582f760a70279 0x8596e6014807e9f840117236261fdcf8f7512297726a1e05ee5670d4bd6683b 0x4bdf17ed6dacfaace7aeae8e9f20000adb9b39b75bc2dd594f5ed7d0868832e 0x3ec4083a988ae684320c4dc9c28533ecff946fbb5ecd7a1017663bc038119df);
  Dbl (Cert 0x549ee63d300910ea517b332749293eb9b3d697d2e3cd185c31f126cab89b89e (-0x2a2702ba8965194f0be379ac7ba28597da54b0e8d06ef95790fb57f51035945) 0x93f8fb4e945a48da5f11e47d38ca3d18c1a1ac88d97e61519fe26dae5da47d 0xc64838a995b020f603a63e6e57e6f7dbad4ff5192bed9c27007e40a09bc386);
  DblSub (Cert 0x76a8bf56edf32a926bc9c65f0a8d724bf7f437f09043e56c4bf6fdb0ab8e33f 0x65c1ddec0d4613c16055f0615a7f647fbfa988b15da3d1d40530c9a07113f9b 0x122f54e1570a00a9f3c01e53baf7362a71705a7481f32f3aebd11448794178a (-0x996e695097d8c9519b4e197f156f93b38dbe9792aa11980cf3d3a6cc2f8d08)) (Cert 0x264fbc37fd3d3f92e4c655a2d93bd8e0cb477e95c162168cbff9a06ba7b62713 0x8ae2f921e49bfcf4ef9e25f6927c66677885554af988043f7abbeecb483c324 0x1e54b71219f1582be11dbcdc54c41027eb6457f494e7c018c35d325568ba2a52 (-0x512d53c928fdf7ebff61cc4e42fe4e34be6e9e5dc4c970979345523620de46e));
  Dbl (Cert 0x13ccc983156e70e4a6008bf7de3062ed1c94e8fa00eb63ceab61d6bddf15f080 (-0xcc60beb0ff592dba0f0e5509dc73e9ceb84d645318ee740d8f7b2198d46626d) 0x819f09e6f22664d20d781feca464c9fa3e774216092dbd602d6b3b2d6e88d4f 0x50148765c107a3dbe87dee445e8fc5e78ccc4b6fab6fba00aafb4ee0d4d3356);
  DblAdd (Cert 0xfd96d3981d2353a23fa9147cdd2d1034a067430135caf1bd6da7a12937ea35a 0xbe7314dfb44d27f02d6ee9c6c22323c924be7d1323f2d1607acf8b69478892b 0x530e423fccd198761b9e4364a2e2d18d5c8c4c76f83f83e921f128b93a79be1 (-0xd9ae72bc0696b716cf61dbfe46a171196bc828cd1f14e80d09d3b5acbe777ca)) (Cert 0x14458cab61a97566f2487aab4c163600916409984ef63e54c639a197f58de65b 0x138dfb0accd484e7947a86615eb4f2733eab9929731b3a81dc885c6ee6e20488 0x87df069af3a8bbf5690c9bfaea2ec92c06d125421ccb411fe6f97825140504c 0xd63823a941ee5aa52d8a45b14c934685281d6ea16eb7a192d9b9caca8fdb9b0);
  Dbl (Cert 0x15bc91ce76532356c9069b9d241ff98aabf7bbc273934733bccb91ecc95f500d 0x1154d260d8908fbcbad81c97bc7f4efb1491b2f2cc846d1c2dff70b28774f65f 0x9c37d2816bcec8a384ebc88249fa53ad41010b5a1ef5385da3d400b5f96e817 (-0xd69380b31b87b63399821bbf6ce59def293615644fc6af9da016f0644301ecc));
  Dbl (Cert 0x22ddee6aa3d487d19122c25e9c02dd175bbd0ede00f2d0c809727c493a61e2a (-0x79d404fa1403e9e8c747c5f578b9b29698e911e3ec3c356b9195098d23d37418) 0x191f3f0cdcf60991bbb6e1c9756383bee929c117b742c8def9b25033051a1f 0x18bd6105d6f97f694e6dd0afdb05bdd2cab81716fc1c7e05ee8b618f9598721);
  Dbl (Cert 0xd3ddaf67dc486c4f4bdf6f55dab14986d79ad6d20a4dc2e9870d75bb4957d37 0x2aacb37c54be746f6fdb6aa8fbe37ca94324dc38799c8b045ebed94d0bb5dff 0x39f93f06c31790236902caf12985707fd8301308ed34cf99b0ecc360e47e0bb (-0x74f8824d40d9690331415fbf182ee700818012382891f72d8a8aebfad5d567c));
  Dbl (Cert 0xbba0dfca1d05b6f7c9b10dc8031903c6cb0b0265a2f5553092d307c10bfe65f (-0x3f5c94990ad862ab6f19b3b40cf9142c2b4bc8cad17e4a72e5d904e4f538c8a2) 0x2d77cacd45dd7b15d3b0cbf2d66aebbed8173cf263fd04a5cb1494350bf499e 0x5bdb39b3c9d3e4e955022b8f841ffd69be1753c7866b7f37ccdd8ff5f6799b9);
  Dbl (Cert 0x2abf7e3ebdf4d35285e41a6234121f962a8382259b28136a42d14f377d60e1ab 0x13ef794796a94c75da8080fc052013b6ff2ab8a010114d3cd05c5db510bdbdc5 0x25c32f31ebb259e2b34410e1e83e5f38e3ac9f73f374d3a3fe1b9fa9055fc2f2 (-0x1868638cae36633078e204ca6c78368f81a78f4776877b524a2cfbd5f2c98c1b));
  DblAdd (Cert 0x1e658818827a3ea7092f30d3ea6fcf00dd2c4709b3ebe6b02f80377e16760c0d (-0x37e69091a73f14b1c7451c6c28e460ef9ddb9da06dcfed0d80c8a72a8a40cd41) 0x1317daa63c4250c8a78d4216a185f52ce8a9323862338b67dbaf2370cb20ceca 0x1355e2f47fb5101e616a309aa78e66b288f97dcc8857b78ecb65345b74b83b6c) (Cert 0x8a12bb3f6ce59b179936ceaccac98b21913529c217711498964407a21039b9c 0x1cdb0844ca685ca15c4cadb7dde197ecd911535561aa429fe06b94f7018675c 0x189f47acab17864003a4be016278ea92244a0b748aeab96ea026b0088a9c2d4 (-0x24cef9612626fe75beeefd3f69b12258d2e759b946a245430cb7b16ef5f49a2));
  Dbl (Cert 0x88db6899fee2448fa543bb674e1953a83d096446f3f96848ff24027dae4f4f2 (-0x17a1b003b00d3b735a5f4c2e043550ff4d6934c7be0fa27b766c5bca32cad244) 0x1830bbff2b586e2c79e204487504276c7e42ed8f87ccf2b195aa46cb1ccd81a 0x19677761b24bc3695281d5300ab5ad622c6b3cc12365b98874532d8cfe629c);
  DblSub (Cert 0x234cbe78d138ee1e2422ce9e9060b7fcf714fe368842bea96f9db6bd23d46229 0x1a4273e5970a9806c9ae84e679bbf935626b3c8e2c93c9817cb51e4e2debbdfc 0x19bfebe2b5f29b8e4dad01096c7919b792678107081b7e15f4acb9d0e6d901ab (-0xee1288dc71a33f2c80478b3e7b954b9c71938fba2ec7c02fb8c2e8fd145dcb4)) (Cert 0x2624c03e773035578041a07c5515c9d9d6b73ab692941efce81dd55dedd54400 0x21c69b8ae9fcdf5e498b845c64f00b1816894d1c3447072868e0cbf4702e1ce0 0x1e10cdb6725b59b1aedd17d1d582768213fdd6c99f64ed255445ea6d57ee8264 0x1a56e8cb1ba800aa734828dd1a70f59bb5ff85b85fd8a2ec7e85646d7ec7b142);
  Dbl (Cert 0x8e7975e05925b3ea9202938762244f3012e2660dd5040c8e0ab52444467be1a 0xb6b74e7fc6555d133eaa831fe37f85cf93bf9c23e335a7ae820f04702e10b03 0x1a378994e319b7cca0703e56a78f505cb185b101226df67d6f1e077581a0b26 (-0x6d2b3602c1515eb3a927782e3f9cb3e9cb02cf539f17ef18a901355c575a570));
  Dbl (Cert 0x14c0d266abc2aaef0f845aae2a267c37b7d1d56a53a430a3316a13d20a60a4ca (-0x7f77715506bef43c71392fd4634d43cd3c15d3cdd547b053f4425cc514aebcb8) 0x8e671f33332f5962854bf70e77e4591dab961fabe53f62ed7b1f234e7b9c720 0xa23cc09801763b5417df236829241a7d4836645a043ebbbf0346f3a0ca6402a);
  Dbl (Cert 0xfc6e0c32524153bafbf9bfc1cb554fbdf67ad99995aa1799720cd6c01ea7642 (-0xf429a2d11bfb20ff611ebfa57d1862209648454db6332ed1b71e73628fd8ff0) 0x524c4cf9dcf8138c7b44c48471ae7260307fed5e8e88678e6e4641ff6391847 (-0x449446fe8b50b37062596d20ddd41f60a7a7f13593e508e2b21a1ec1bfe3183));
  Dbl (Cert 0x20cfba8b50667d6d9d76db6573641a436186c023da874cd0ec8a4fe2a91f6258 (-0x12fdf8bf9be92ad5f41111eca0b3153d31c5fdf90c2c133c6c73f4ec035b2d6d) 0x163f536b95f4d6246c07a212849faddaca246955193dc1653137d5639d23bce3 (-0x4b42ebe9b9e297f69c5bc3b79ac989e1ac23b58ae18cdcef95d5f46f58dd38e));
  Dbl (Cert 0x6ebf8a821fe1b5bfe9f61b89a8d6a0dd0750ed492610a121d7c25dce77b1db3 (-0x6b07b6a9b7d679b29586f884db30f207e440334619c2f23fcecf34344ea9df3f) 0xfd7490c002dcf3d22a414d489f73b53ae3a363d15595724414220af858185a 0x1acc25118acbca67e0464536cbfbab4cca456393454b87d28b51ce4df0722e4);
  DblAdd (Cert 0x1af1f4741583610e598125e8d5f1f36292d4c6078fb6b14d8b50c61d2ce2760 (-0x3c3f29ac89ba4b7b03fe7d33386dc38f148cb3fd9ea401fb7bd5db148453fcb5) 0xf00dccd5c30932d6881a4d8b6a07ae1e3d2bd7f55d1dba77ff23760016042 0xf3abf655e9ea973cde9d46037a9dd372e2df59fcaa359981372dd2c3f1e72) (Cert 0x28047402bb0768f801622843fdc275add5277032524fe2028488d91a5a29d372 0x186ca0cc0ab343521e41756023ffe53c7004496adfac4b74060c376ba4e005f5 0x21179a8189a25806a246ae5c20061e37fd0ecb1ee55cc7d64fd27059fcf9d380 (-0xb6424c9fe5ec84716c3a9be7721c253d59328681f645548e2f41ff8ae68e8a6));
  Dbl (Cert 0x117fc46b7f60ffa9b63d436519633263e99d0eaf3da90945b651e677b1517f02 (-0x56623d68a60059aee61657ae5a57103db1fe244990779218f4fd232d78d1e989) 0x653f0ac638d1de75c4215acf5d2291f28516ee25b8d7341ff4c656ca902f9e2 0xb32fd405fd66ba8e1567ebad411b51fb492342a549ac2cf52a43e37f284c502);
  DblSub (Cert 0x295ce0611683d843b552c973173f2f998fb58d09e480449fa572daed5159dea3 0x47f64c7c418a2696b1208c1a649e813b7feaa59f0173cea3a7cbf88fba1fbe0a 0x235ad15f066b28926b69adfeba046474df42307d7cc714f62e4e17302fd7000b (-0x152b2eba9fa6aff6034094decd12c01aeb66984c8eac2e0a338d3211a1c27a66)) (Cert 0x1da2dca1125c4fdf53cd3cbee7d4e7216b5e17b2b17cec21e6eca0e8eb24ec2d 0x16b98db9b33a1488de5c38bc6b773a922ee641bad6cbf632190265e08c5f0568 0x12265af09ce5ad855b372a133b8ef6da55ee4b55135dfdaa6a5c2d517d9a7774 0xc60c43f764e9b4d52dc4a0255f3b4dcb4a0c5cf76f2da6e3a9ba16d883dc92d);
  Dbl (Cert 0x636dae5dcb6f4cc93e6120d66c1efc87676c7cb1364995630ace2d3c1c1d580 (-0xeb75f1b9d967b5d1bfb069fc6d2a07a66bbf89fddd7df09d320a85a2a041800) 0xcc4a80c9a5cc5e3b5998bda5d75d9fc085e14b805685767f21b67f09ed1d26 (-0xda85611dea250d7f68f0afee1b09384e794dd5efbd8726601bf05fc4da1616));
  DblSub (Cert 0xf3bab473c0a52be7d7e0544de03f3c6677d90523b0372b79372da52ed3475a (-0x21e83b7e22b2fd2f0198a7a2c57902f50da0a4851541e928d744e30f9e97cd8c) 0x4cb8ff71bc5871838309281d50c7bc59c85562a0acdef7166437de2d5f3e0 0x75e6aa63ea1d90eb47a1ac39a1368bf13f775a5e8d8d1f3d77f14a3cd027d9) (Cert 0x2cf189b78755eba6730f8060c48e609f48798ecbf2ccb8f3c86d30f637580f01 0x1fa79ff3da610537771ae67d642d2cb55c7f90ebcbdfab6824e8c0e9c87eea 0x29bdac89595a32c25a324eba835d6fa99591179a83c9fa51ac6c3630630bcd07 (-0x1ac2089f880aa9e13129d1d73f68213b6490afffeef6f7c8fd25971c594ad4c4));
  Dbl (Cert 0x25cc4c58da4df51bd5ae337a3dc9f71d668e392626eedf6b991d65aae80a5d7e (-0x200314031fd1156a8b18a70dad86ab1dd5805e4905dd35b2cc9482d04e14bffd) 0x1d85fe7fccadf8209d2e6857534a42c80d1b343efb60b7441c2b6f7319b07f3f 0x12f62197028b2c55a624b7b553cec59e027dd7fecc308c55a96f3e4006d1f0a3);
  DblSub (Cert 0x2f8c217b259d5cb5b70bc64c6dcbea53a2425c6540bc97b19e8fa1d22bf61176 0x366a74ca5d89dbad204aadea856042925d0f6d6bcab514383986ad6e6eb26687 0x2eb7ba364039beace53e7c739c0d45de67c96e9acbacd7440e9ebe9785e73fa7 (-0x2337497137c6009b1927e9de1723ac392fba85f604942ae0f2be2196be05efe9)) (Cert 0x29158954fda5c1404883a7bb05b1be69227795cb848ec1066c0834773ba7cb3e 0x22646adb02a00a4c341635da36cbafb5122a0fbbb352c935daa328b960e760e0 0x22e145f24a2b203316bc9ba437e06a4d7b2b233e6f7b096ddcc7da3fdfe73f35 (-0xcf5a42847dad9cde0467a5216065ae49b37b2c5ad1683c3b2d852161aa5927));
  Dbl (Cert 0x92d7a7ea13295ffb39f06f8918ec7b14549ac93a148d21d05c40b7b1d4677c0 (-0x6508b4f0c91ef153d33d4968510b8d5b591ccc7dd0eea5e8d7d2549bd0561e75) 0x1bd95e090a829476ac49d972cffcc0c23c8690e1d342497ce7565184c81aef5 0x4bd19e76ff33d4d88d16b77e21a25a9356df17837f4924de39c7d0c976b3a4a);
  Dbl (Cert 0x14bbd39e00706f30102c044a5319fd6610d47fd37fecd0a0e43adeae86de6aab 0x52c986753a74076a91b22d18f4e7aa2934d6d3abf1b3dcee2ca5ef039f97239 0x8e229a1fc7ad21eb8493fc25f84690213da3cc0849abcc89c09c941e723823f (-0x6d8fbda4477f348e7bdccb1de8060dca605d6c86825e91772ab09c0130d74ef));
  Dbl (Cert 0x2bd14b9a9bf6f826403a81474f6a3bebf2ab4d943f89f2302fde326986c7d903 (-0x7f9e16522d85bb4957fa9c76d61671fb1a025de52b8a5b5cf6ba842fa2b9352) 0x27acf982ab9a2d1313bb7603e44164f51eeb5313452e7e8c12a6486bf8449e69 0x101a5fa037b17ee3a228ce9ccb95716a7f0a20f9f2857ec46881a82dba61b3d);
  DblAdd (Cert 0x757fb3998139684197442dd7a05ba45dd94fbb59b9c7587465390654dba4f16 (-0x3623d7eaef38d54c9a217bcdb3f9d519417074818d56abb8f821b86a7a1eab04) 0x11d4baf5795f836c6a7e34165e64f5da25167645c8895cb9936bab0ee433a78 0x24935d5c3226d1ec5068396cda2e846b9f5f4d2910fea104ad0d49c310c2ad) (Cert 0x10ea365b674e02991709b0f4c703b83278218970d34b2bbe943065a5e6dc8a68 0xaa0ddb22786354feb572aaccf02e6567a64132bfec9640062b8e87c00a8c50b 0x5e9956e1ede6089dcf27d2db1b9357e4d1a4dca39f84c77bcdb468ee24b63bc (-0x6073efd802371d06b1309504ee0d8c6a748ac5ebd71083d61bb18a81142e3f3));
  Dbl (Cert 0x1366965ac6c442e35916142a835f2048c9fda3c5594a5594725924ef9746d5e7 (-0x8861db713d510476336f6b6afd47a10c9ed1ac8daefb1875c7fa24c82d2c637d) 0x7c726ac924839c9f641c186e129c348f468795b9cb43235f25544a91e90f2a4 0x94c61d8a0c95ccf1c4519420134e7949ff133c64d8e41e5be6e867114b9ad12);
  DblSub (Cert 0x1cb70e1f9a1c93624ce0b3c766600f9ccdc8bb211a0226be5056a72066db8e3c 0xb19016e9e2ad908462a98f3dd6d766c1657b588485950d8120e6f858f128d8b 0x110a0488bcf270aa424a93cb904560489f6bd9f5c8ea04d1e8c69e25704e2a9d (-0x89c458ddfabb378f6d3ec3915e049200913dbf4971d56a7f681307f5b4d1882)) (Cert 0x4964d37efa8f1d2c5fc77488f8d7282688bd804374ac950c51225c23fc859f1 0x3b1ae63fe8ab892ed650170647d1ef63ad08f7c4440d33b2fb7337a3e297354 0x6f503a06c4961f83a6d1a02410c9bbba756d780aad50db27edb309ae5e06cb 0x3394cdb0ed5dcd5ace920c694df2637eee4f2f716830e101e453b03d73265dc);
  Dbl (Cert 0x226dfc056e89f92caf01112fe5ea88149fce91a7ff75c92e13c601ae9c6ae6d4 0x305314019274d6264b8063584ba4e6bdeefd7aa223a75fc67f994e88d5313898 0x187ef08cbea3a8fc8cc50b7fe4dbd045c5edb3985c70a7b73f10f8dda359a7a8 (-0x1700697948328b7cf80084293b301507fe17cf20affbb067e441fee90b3b9b7c));
  Dbl (Cert 0x93d4a638b1d7f48d69f8969929fed26ad82d47020b6256f42a020d25ce0aa39 (-0x497bde5385f686d72935689f69db396f10b40863e8c61e9e7c48e7afef11944a) 0x1c39a6f0958506303d517b180dc71430d97b714cd0a7a5a8157cb002af9cb79 0x69048b851860381d7d42384873b218b8d78909af53c13e65b40e08237dba435);
  DblSub (Cert 0x2a506f85b672378a62ce1ad162d311e2e8c0942b40ae33de92c457914adfe6ca 0x38f103468072c4de673b18669232bc8054789176b428529f3d921b9273b907f4 0x24fff836786ce4b3cc75b74778c20fc67205a4c046c1eceeebc500662115e004 (-0x1eebe7cbec856d3b85aa6976d8de95c52fe259e532b7b0d71f22c7a4a2599ff)) (Cert 0x16ea01e5650a28c7079b0e4af5fd7e0a551b5d134bc8d530be821980a206263b 0x26d0774fcbbaa40ccc7a60b004a57c453bb09b03b17041b5959c9499ce7e980 0xad99f725047ef59b41ce1d568d1790a078eff509185a67499fe3a7b7a9a6c3d (-0xbeee3453c84b17d1a0d649c50a719dc552f6d2bab46bc88498046bff7ed374));
  Dbl (Cert 0xa42f8b891bcf0f0a7cefda6496263874bc631ff41948bf8f4ed00aea1013211 0x9f409d3f61a14e4deee1ca0a4b7d6774764ab9b41900645277986b3c48ad8bf 0x22d0e51aa763364ce93ab45ae5aa980111b03c892dc5c02fd6ffee0063ecec1 (-0x3dae093a4262c59fd70f72c8a2a998d6c01310e5c114f2b5551e683eb7d2f0c));
  DblAdd (Cert 0x11fac73b8a046fbf95944afe752dfdf1f7fdd7d7801f7a2ed2805799353c86af (-0x1801e5e2facb6346f557ddbea5bc40a1609ac912a75ff961d5c5cd56ac10b952) 0x6ae204fd13aa9aa4f1e842c7d617580824e0fa9c44d3ff38d23aed75a24000c (-0x164018f56779692b29ffcc3dc4a08e2b2c9b2ab15fada2313e0595cbaab0193)) (Cert 0x1d61d27be1fc147bf32382b655cb09415db9517676b31892027a43f83d7afe3d 0x1160aac72ab924490f120f659cbafee7556e50936df18b072d463f47027ea115 0x11d7088cbb42f8d29c369eabcf20af1bc58d74564151ff485f460b48293a4165 0x14e8d51c2653f876ba878dd5f7cb13513ea909521ec0d8eb0e9e204567d3e1b);
  Dbl (Cert 0x21ed326a3d7cbd4d723a45044799ba102db5b1aefe8c1e2a9f36b9235572d612 0x89dd6a5adb4ae84325b9e43e12ac21d51d0d65799530a1149ea44aad5bd15dc 0x17c9051f36eb72325ed16db5101492334fbb25c7e8b081551fa691ca2e656860 0x244c40f0bcfb5d4b261c4d0aaa26ef08ae22f991961a3c66913185e8380a738);
  Dbl (Cert 0x45db853818fdc70795c86b9cede38871dec14c3d1d55a9eb0aa79631032e862 (-0x1f4e676a08638e6a247a3cbc29ee18f12239dcc14b6b42453118d778e16e52cc) 0x64d84e29542fbf3347ad9356998586af5b4f5552f41016587ca3f56d5045a1 (-0x1687a09ceca5b1261c641e275a1a08da1b2e0d610152e2bf01ebef1fb1753aa));
  DblAdd (Cert 0x25a88106a601d5850b1a022cf599ef00137cac2233f8b3ae09d1284a3de58e3a (-0x45708845bd7e9c6b515f7fb9381f929de465168b9b7f385fe368b008265d8241) 0x1d4e2e57b964fdb914916e1d224aed277f098842204d476b3619e34ef51c05fb (-0xa89eced8fdb7d7285e98ee59710483b07a368b4bfb2bba04e3f96a2f71431)) (Cert 0x2a04062bcc045c64e3fd401f696fa7970b118930d33735a3c9a463f558adc04d 0x21c489aecabeb6f0daee6ffc455d415e41d5f1501d0f83f79337543d25d846ac 0x247acfa8d7c39c69497ed8d9e250992c25e884fcea9b217ab957e2bd1631a07a 0x1ad9b0c4a6897f86f3190d0f79cff1cb1fc0cb99acb1caf68e3870f2c5bc1b5e);
  Dbl (Cert 0x180b0ce25a74dc249e485a8bbebd9ee27be601b9dd1fee07e146812f10d37aa3 (-0x171b52b790e45e718d185d83deded44d271a329477c880aa85357ca0e485165) 0xbf218de76c1d6f0b04a07403cca0585a48a7e821c402569672e7dda8c5d4463 (-0x109e047f4f001a6c1436cf7ceec0b7d172d73e8c19c234e28ee2d2239532c60));
  DblAdd (Cert 0x2e6ff53d8f2e90e314c3be1af21c38f04a6b5c93e8f9cee21be90ead9691fd1f 0x13f1c3aeebc11a5c514acaff6c6adc69771bd650e687bcbbe2ea995ba85b51e6 0x2c8fd165da5b911c9794010f6ad11d4520a68449cd601cbb1946146bdc2ce7bd (-0x227bc9ec7a3ad16cba5811e46acc91ffe2e06c71bb30a146d907facf43d7ad3)) (Cert 0x111d39268fc1b34f4e7defe60f707f98e67aecd13e327a58db7eb4ba9e43f564 0x459e80e17e8288cc65d78f9c2f99ce0e8bf2a0ee004fba96214b2a8b483f2e2 0x60d7459e3c703e61b6db71efbf89cef246cc0f02bd19f15ec6e3c2e9ed8c17b 0x356b08148970f234f11523cd6732334a860e02d40891829fbc98081d7e35d05);
  Dbl (Cert 0x19a5ab946a1f10e7618062141bd5c86e5bce73e872cca2d015633cf6f33bf3f3 0x5d27c83c000ad94d44752b7fb6d927d640a0ce0d29622a60c3e8e2d3a9066a2 0xd97bc341469bd4179dd2d1b135b9f1a85b8f001a9b3be7fa75e97886b0a02d2 (-0x10175ef351a2d6d4ddee8c13353275741117d303813e15443d8410708f8ac516));
  Dbl (Cert 0x14ad2f1c612e62b9278758e38a860c9d42263cc7fe26d2bef045bef4aaf03d57 (-0x38008eed80de15008020cc819d7deb3e58d20bc8226cdea9fb7af799616d3c25) 0x8d5a1ef18605e33a510aa4a9595a402406946c0d9c7776bfc0a17f4522706c9 0x5d91cd5f1d85fe0f418a01ffbe6457a3c9997fe377e2a9eac4577094d9f8b28);
  Dbl (Cert 0x2788816394c4d74575a332d396e7cc4778249075226963b2d18b532000113e0c 0x30d5801f0e7d68291cc553b00fb696332e6cc953bbf991d133ef66e21c2196f8 0x204bd8fe6f25a5cb46673d74c3fdd8f19d15ac259e7159f1d878d76267ef050b (-0x12f9a36ff02c2c5c3c7c5e107282d129f5ca957dcdcdf12d7ac88d0324343a10));
  Dbl (Cert 0x302ad7d40982853cc80d039dc1c41e90210583fe530c34ed2eb629c5d6ac70a5 (-0x31135062a34c8d78343828be0a456da6b569885f6b6a24a8116b2b34617dd2f3) 0x2ff1a5717874f4583085eecd2aa93a26bf25406b04b4f525371bb9da8c72ceb5 (-0x4b17ef488fd801929a2d367ada7962b04baefcc9dfdcb9f714d7c253b54f05d));
  DblAdd (Cert 0x56e1236874abca11f14edfc8afe616271c227d6168e59c49dffd31c328b6063 (-0x84b5151ed157d76a2c420597bcf7d58a330433dbe0e959b5e34a9b83214c6792) 0x9bfa413e7530feccab844e9c419ddf23474a6385d1a95843c05854aadf57ed 0x4bc8fd5e65680d057c87371f13e36c2fe578d12318712058f7d217f840e5c8f) (Cert 0x5e3e0dae7cd96992fc62157663d643181ca90e94d675454e71dce135c72cbb0 0xa42394476a44a12273505d31f95d093bb79003a510ec271a055669d1acdf80 0xb78926c7d8288dd22957cf8c3fc2b02869e8fc002659cbc6eac94f6532ad07 (-0x3ccf9242cd2c2ef0c4b99cd069a08f703441edd2c33863085548334a40f37c5));
  Dbl (Cert 0x20b1de64c7e8487dcd455d67cddef2f2b25d2412c5eda859f834a9ea682ce080 (-0x43be1cf8fc5bc9dcec52b68b8638164248549c453d453b3ffaf5e07635080d00) 0x1616e7d02fbe8b1ceece45e2f9eda645691b012a3d77d3e7672d02228ca05f79 0x162b2ab7bc8468058b02c21da3fd27b6ad86b8ff2c9b808c1cb695219867035c);
  DblSub (Cert 0x1d40bc28a67f95532d3d0252d08030305380c28fcb3d85d92f8d699b73dcec14 0x21da240ddc3bd06124589d60902967197eab3ecc7bfe7aacf00ae947c0b4c943 0x11aef14c72ab856705b2ec3a63d619824af6c5c1075c6ecdfae6bc112c1f3271 (-0xc76ed41185268ed2d2d74a51df4f4ad7d34bf31a4e86c7b19d03bfd53f7449c)) (Cert 0x18eabd34d796557cce774e37e6cd8cf9951cba63e594338ea5113431c37bae15 0xc832bb36357d883acc90ab3de80a111846c9d2f4ffadf142d92683f4c2090bd 0xcd469adcf70c9f297041641b4eef51297a5092aa9f28f4569bf27abba5ef6de 0x4b3028ede3f95975d1a3cd16aa1a47dca3240ea851913a85e20826272d7d33a);
  Dbl (Cert 0x5fe489e3d7fffba4a848d1daa8a10744ac891dd35152d6c15fd4619e5619b57 (-0x27f9a6212dbd61ff7e08c544378b04210e9e551313d6c4d4e0985da73c7b683) 0xbe0520b227ae72dd530d3e3fe953c55377efd0d943c834fa0cadb325045f8a (-0x3b33ac100cfd8be1c908ff6a37e183d681ca97a7b0cd80f9b10d130ed688ea4));
  DblAdd (Cert 0x178dd10db238d3be05a57ca784a7e228234890e2fa835f7401aa2e4151b0c021 (-0x6f9e8656ba89b9b21023562103b9638c501f86055ebb7e7e41fd1892fe769cef) 0xb76eb8584a42d07ccd261f5b7e950d96c139c5c7b829a61ba0d1b22b5b50b91 0xe7b32a965883b2687b1b309a38b409714c3d423c0b0af095ab36e18631b85ee) (Cert 0xcf71846985302ca1c48cd2df4bf52caa0afbb6fdf9a37a56fb121e3964be10f 0x4194534338adf29a7d8e910e0359edddaf4df24f809d19d4c678fe3b79fec37 0x37941d6a9d3db604ff3182990b80d027abd41c774f5a7e2cdcf31c1d197b07b 0x1b24697152b21bf5fd184e910200a36395192f85b77af90dac14375e456f253);
  Dbl (Cert 0x3048a4c9858a606f35c924d2ea4d82fa477b713b8f092dfcaf28f11533a59743 0x532ce8ad58979af0617df481fbffc90ab29de484b80dc6cfafd0f0a9e7af3b4b 0x302d0af0549413dc8ac8cc9206f8eb8d5e8a833a08c9832bd4fa616c76791f6b (-0x22ceaf1e304b0bd3b5c51f25752087ff41b795715cfff53d7502e911b021e74c));
  Dbl (Cert 0x2af4d70795ffecb8b97f7cbbdb1eb15a48478ce5eb31a111fd984a6dba403443 (-0x271add919d3afe6dd4c4ac3f3abd6e8c9887cedd752dc888703fbe74c65ab83e) 0x2621aa119070e5593ae561d44453daf5adc8e7761c985ce6279e2c0e894b827c 0x11b22062c304f334abf42a68496b6a337dc164dd0687d2ad7653b32be7a76068);
  Dbl (Cert 0x1f9d686caaed131e5e1e3e8a562a9de14617b0bc9b875093a2054e368b858a6e 0x17161ef5a40a0cdccc2dfffb24016ba1d6a7ff59117cbb4230b2c175f9caf2ab 0x14a781ade5bf21edbd18810ec05120755d49499e26ad29e89837676be56d16a1 (-0x14579ee8817e7487796561b63a279c00376bf49efe1cc8f0f3e127572c356bc));
  Dbl (Cert 0x2ecf336779df206169e6a4169fbdd3ed34414a83755581222cb08226255ae846 (-0x10fd8600bb6b4a07dd3d1ec17d9ab2b6d1614b6c8f04b98a89db924566f999dd) 0x2d4757a5ad00861dfe49fe05aef6c7435ae5ea1fa8534e071da6e4d457349a12 (-0x79833ea8e27b8ed04cc411015d563c302f5a0102f9314462e87ddda29d23632));
  DblSub (Cert 0xa938eedf8687225c1bf938e9f63e821c166402074e828f332d6e4d4ea2e6ce0 (-0x449a481bcded0b8b1813549bfe7bb365691c1cc959186c7c10df74c378ac9f00) 0x24fc1e52c8ba731cc761795c2919af85c5f3978e72593e65faa87c207c6e739 0x2f8ce8f58e373e30dfc3093cc9bd330b44a03c4cd1833cf668036a9bd0eb6c) (Cert 0x232690a3c00bc0ae4b6f7a99a6406e2e6df84ea70ad1451cd72706f37252d0a9 0x17df32c7593f214e949480eb6eaf487352fd92db8d2c8463118a037c03f73596 0x198856d0a9241ae001be09eb8d0bef4b1f10cb18def597b80921113e5bfc8601 0xd1bfa0296685e83788eb5162ca7c406bcf03d466a174b1e5b73ae18a140ed8d);
  Dbl (Cert 0x357822816269a44c06c671073b2e8d170af17f9746675af2606a5059da83c39 (-0xa379b6fb9e0b84ec031f768bf7ca9e45908d84ab26b0c841947577a1e1836a4) 0x3b145898a59379d6434d26803bf9d336aec2fb6db97f6d1ac447b4310ee892 (-0x23eb04977c649df86e83ef47dce5d048a32687538e0704c05c89fa1b888b374));
  DblAdd (Cert 0x26a7c8e556132d0db44b1d47253a85c34ec6714ef7e5e82707fa6d7ca6e15240 (-0x8498d2cc38b02d9ffa6cc1a2a67b0d1b6c4521caf2d1077bf110d5835494f68d) 0x1ee0c1de9b6e94e86ad68a5bd799f3d58538aaebde55c69fc8022676321242ac 0xa84d1b13e1f32afda8f775d87497e70763e9fb2153485fd4cbee01b61f4eb7a) (Cert 0x22dfd592ca8d4423cbfe3ee9f8673c858b5b4fff2e1ec059745765d3f5b87563 0x189d6c8752110d7138eec3f555f4cfd12adb8ace94f2a6c21ac90641dbd2abc2 0x1921fd2161a685b20a54aeb8244b36434cdc4ad40ae848c8b421c6f3d38ca2a0 0x1870f38cb4395030c75afe9b0aa3ecdfea79eb8f8e729424637c5cf7fb793734);
  Dbl (Cert 0x2bc6ac7170b4450ef9c928dd5f36ff6ed6bbf210ceaa47e650d320e7b1598886 0x177d1cddff26be0e8c231a346c9fa185212bba823efbc6fd6c8ea4652cf386b0 0x2799bf949431587cbce4b827ddeff1fd872ae5bf8b2075241a0d119c83dca2cb (-0x154cabfcf5728cfe87c5bb032bb971a5edcec2a992d74dcaca3af952cac449d1));
  Dbl (Cert 0xa19a0d34088177bd5e39bed6cb88a7b4bfbdf75d6bba4e08145cbd6c4f4c594 (-0x1b37b485582e125f542716588002d73b3e49b2724214131b8708434a5d36838d) 0x21ba8f4ffe7897c4a6ac800658478d2d04c8d3231985731a6d9b2d23a4b2e47 0x2b5a4ebcfa3d179e33761a4a67eea52cfbc5b54c8b766261f9a76204781b120);
  Dbl (Cert 0x6069e8395bbe44247dfc6e78011ce1472d7a56f55d65b85032bfaec13ef46f6 0x23cf0bd85cfa632c616e39093833885578e546a4cd689c6d5da7ce8a240adbb 0xc017207239443151154e24e4474d67d75add60a5bceb4e58e757d8918f1f41 (-0x2bfeaeb01cc4bde88b1b9d05bf836406dbd3b6c92398399a807d4bb55c1394b));
  Dbl (Cert 0x66718e4349d7ef4a6a343e43512a54934bbe39132b0a818c3a994b7b09407d7 (-0x3c4e6ee64d0d7d6f2c12050f93d45d4db5178aea3a5cd71bb280c8a73b0fbf03) 0xd8de775995e78954ee8e19011469fab823c919566f24b27b2d2e78e85e5aec 0x147f0225f36945f202751d971a689bc82434cc4bb3beaaba2bdf1eb2b6ee7fa);
  DblAdd (Cert 0x45c8a3961e8f0e435228fa47122046c65da6b8c7d7560874bdff2587a22b637 (-0x1c1f40c73a320692651abbdc2dc0fb9892d45b35a0c8a625951262f398e7d283) 0x64a1d20cea58af03ed48465662cd5e89eae377607f2124d4d7bca354061ab8 (-0x3ede4a89aeebccf298b6407bf278396faaaa754e6e1b6b3691956c43ba17c9)) (Cert 0x144d7d1801d7fc37a87497db8fb4526f938a0627fd4e6ead3b673229c6359f2 0xae0e4e31486370a23e6eb5f536a0a6f381fe700bd2544bbb5e7a3a1cb43e04 0x88498825f9619bc43f600210d317191046808429606298d6e10354ed80c95 0x4fed380b2b13c3a68f1030eb3a42d0e08cac12c37b95e75b6030b71b11ef64);
  Dbl (Cert 0xf9311c2e70426da42826bd7224526a4ecfc996bae985879f5b3c279ebe8c2c0 0x1a8bbaaca1869fe3a3f983e4916cbdf22710d6452dee9b3e5c30f56770931c3 0x503342e0ce0ed4280698773d4b80a8110c7898c9d26f891332f7ce1c9acc2a4 0x26001fec55e78910d668e1c9a1acd54c1e78d5c88ae5c18c381e33390b53840);
  Dbl (Cert 0x303769dd8eab6c29ee2c76b0d2c79ce1c7153c414e5c8829b22ca4c934eccb0a 0x13410c1f2214319db5098a59785c8f4d284b0530de9cd3f028bba9353fd42944 0x300aaeeddc0060492a5677d1420ab1d4d7b3ce734b2ee7695ab69fe7f409c6b7 (-0x140d095b465104a7fd8e8aaeb53b06265001e2c2cc4fe5d8fcfd717ba961ad88));
  DblAdd (Cert 0x29b5a6479253145ec6fa71b38a658cee0584e22183245f0f78c78484497e41cf 0x1cc73cb3cee910a8b09c391293128fc3a9c2364dcaa02c7f117928adf6318073 0x23f3360b5bfbe951dac2cfb9d8482aee3030e626e2452b431a8b2f47ee70c7b7 0x7f3c844806c8b2d61079bfb5d0b4a5ff4cc8bb5eac5deeaa4350ebb273aed3d) (Cert 0x8ee39b97844871583f0c5328056206d28606439fe94b203dd62538b1d9739a1 0x33caeaf31a16a48aab50c93f2368cbfecb6dd8687918fa59e2bcfd70d0baec1 0x1a5ea8b01927c0c0a0ce661b1bb825baec14e164c4c546198bf37d8f4fab2e7 0x26154b56263dd75398d1bda42f80db12aa9a61a54d84a5b7eab5dd67f207178);
  Dbl (Cert 0xadc8e12601996e2c755bad097f6814f539072314d2ae99e4c9f90b4498f2035 0x4815b767962615cd30c134f097722ba3e3c663ad19b1c68cc74d9740850bab9 0x2701870b7739fe8096c331d52783a3db59b15969f2df19ac04fcd6cb37dd9f4 (-0x67134d4dcf3148048691d2ca4991a39f950360221c40af5dab415833118bbe7));
  Dbl (Cert 0x167c6c75c9e42c5bb3aea341a5548b08ace9566752844c3ddd4e16ecef903540 (-0x191d8794a7557730ab6d646bb67ff74f0b04f92819c7f7a03bd70b89ae5d15ad) 0xa72d057ae745f9826fc48eb679fa3321d3cdd2911e44bbf8616f9ea16158b16 (-0x185fe6e438c75736ecea6c77162940f1bdeb376225f2a3cae37759be1db5aaa));
  Dbl (Cert 0xf2ee9db8e046082458146ea32f66575233b4994d330045d4cb133925d6a6b71 (-0x52e4729d648c536cc8ce9dc177917aba7f63b521fb9bf9da9096540612759c88) 0x4c38b82186f2f450e6ceabbbb4d831d041405cabc73250b0b6b1b4d595ed1b9 (-0x2d40f8c73f1d1a73424831e58641dc4f260ba938a71416ca0dee8a2e72e3802));
  DblAdd (Cert 0x5a8f4d37d8eb541efcb77e6181e4f248249c6759702f2475885090c4564ba63 (-0x77c77546fd64c87e2057eaf47d1d54dd2d715581cdb26b6b427bc0887068cea4) 0xa978e732466d99107853515d2cb352e416ab8ba16d42aecf3243c7fd323b32 0x47b6451d244113a6e7327e37f4ac045132d16042724dde9f1ce736c3d063eec) (Cert 0x293a310e2a403a2d28e73c9ee6e64984c4fc8516a4e715e29596dcf2fc6653ba 0x63c07c3822a68243cdbf4f089c762c3b5623363dc13d8e976b073fb2066c62f 0x231f9f1170825f6918da536bc038dbaf85aff4419a0f0a356b78953b472a9050 (-0x797fd50bf75b46df173213db586ea0cf0caca72e2192f452ea3ff11cbdb6d83));
  Dbl (Cert 0x1a39720eaa39bac770fddf647ee049cea4a50c1191a5d8ef605449f929adce34 (-0x77e366c39ec320e38bf9608a5983a96090a0e9eb3277f4f1de12c244bbbfd80) 0xe3622f7aa393dd6a3964844cb0881eea580c189c5b5835ff60b2b447e0a8ddd (-0x5bea3b8a7793d21302beea53a4d01511417579d9f792a94980c5784dfe6dc69));
  Dbl (Cert 0x1c46ac2077579de134086fa961c32f49e50627e4307097c1b02cbd27c60cac3b (-0x1d32705fdd8bfd72c90c2f8f69dd1f7a3b5ab26523ecc42c7ba2cfcd7d0400db) 0x1085aa109be90de61828f967b2880b83daac2d6ced279e86bfaa3b851f3b5002 0xb61fb57af32d22fcf9856f27e8f0da65af726b8bd034fa015dd63dce67f0088);
  Dbl (Cert 0x256f63008c768a5d176132ac32876fb17d1a3f10b7e1258cbd6234e214135f2c 0x7145b51601a07fd63a150b7377dd632a85928d8ea2eae588db954952729b353 0x1cf58c386986816409ae2f2f716e0caa4d0faa428262c30a26897c04f43d0013 (-0x134609c1b61d71e7d21fea213863ba12dc35b9ce6c6bdd39f5565f4e9e4496e7));
  DblSub (Cert 0x2ab4ab6b908853631de8b8ab2ec6cc851ffa67d205f99f4ae8d8e049c83d64ae (-0x1838072687d36ea85ff622b7455dd26b8de365c0315cc883e4df4b6de9d3adad) 0x25b01245e58e61bb7495188d9ac3cb36bdfd9cce9041a018e4403f6ba244a80c 0x58cd7f81d7812c70d3d24d47600bf1156d8cf2d21ca2535f34145c3274764cc) (Cert 0x2539d20f81c182880125564fe9c25bf7ea65a5b591a1e963bab3d97fc0c7e8ba 0x13fba828215e49ac95dae370bcdd3e47614d4e03a170e7d9673534dd17f48854 0x1ca2e74f3df07be3e4043c69dca91de0c60a2e608e0753918dfe302851ec5d2d 0xfab4a4eb0ab4019494c53bb12f22f659aaa384a336fe223c56bc9fec9255720);
  Dbl (Cert 0x205c0bca38980b47a2436bc5da10c6178a88905d2765d1ac14ebbc595487c76 0x200526a6b21729aea0864a4c114bfb4eb8bc6c353343e2b8160c18ab447bedc 0x15a3882c476e92b4e940709d6c51782d685f4dafdc8c458c8e8e8bdcbd2918 0x2824beba7d7a72624f0220f45b848160fda64f2924e66c4b9187f49072f42d);
  DblAdd (Cert 0x190606ffac1d3df77055315017e98bb3bc01783e168585a8312515a47ebba56b 0x2702d7a360ff0899b132872a6982f80ea889f25f86f54d7a55494f156440e772 0xcf093092f6abc2b47d5b7f761ba7188e0124bfdf0601670cdc3770717534ff4 (-0x14d35ee1bb791640e531209bdb22802346fca9be96f693596faf423970d47fa)) (Cert 0xe4d994307f26ba8a2bb88b2b6a902bab917dbaf228f7594d7e9fe66c12e5eb3 0x14ae2a82f8c42c5f086320788c33688c0eb71f031a403694174783260db95ac 0x43a413eaf93e1d003ae6c566ef9b9c7f3118b89c3a9284d85f8a7fa9609fbc5 (-0xb9723643a151012870f53b3f3023b91b7d06c1886235cf94218106254b8c893));
  Dbl (Cert 0xe790ed192e05461ecd53c13edfebd0111eb5b6f1f1ba15685957fdca6dde5b8 (-0x5c3ff382e3e716e3b333b10cad0882104e1a5c5c931a14550e83796696995e20) 0x45419032f883ac3a38aeb97e1de88ee7c7b5a1035add16f5e2dff1f9c51b989 0xa0ae2f97c626a106c5381024ab8de956f9375fbfa45086d3c3e11de621288eb);
  Dbl (Cert 0x10e9ad1c3abbf0b4c1029630d312881a946d4757ac34cfc07760aa3b0efcc87d 0xdf6c2b37e3233f64b3ab77c1302e4bc919f608df5e9b2e7aafe68fd2dd6eaa1 0x5e9357d52965e1135f4220ea2e96600a6b00cdf843239942ada80a7ed61d7a8 (-0xce0a0308be3ccdc86de027b52dc7aa989988fec0aa06a6b97ea661a665c1e5));
  DblSub (Cert 0x17b9eddb69ec7c7440d2c385845efc10e02551acf6403bf75b4b64a49ba5a01 (-0x800125a642a490ed63ef5898ce51a4f9b90f57a2fbd1fd3258d7cfdaf3b3a2d) 0xba204eda25f760db0a2750711ce2809a35a967a27e3c198d0fc565af424d8 (-0x10df4e0a2e538af83e9ce3e6a3fe7b4c0065a93c79bd8d9edb0e060018f5513)) (Cert 0x1c4280fa25ac250957fe131c62d02708fc737d51a535e93dc62ee4a6fd44e278 0x1b4921438f4e186c9eb923640c06122768abea1a1eb86c6943fe64b114a55bcf 0x1080cb522c2fb87c295e0c6620f1a221fa113271801c90993ac7029192523660 0x15d94f564e0aeb5f39535f733bd0ddc726695b69ac560d760cd18b9129f73a9);
  Dbl (Cert 0x8e040dae17124d0da191ce147d65acaa8f84ea716499f8fb75a41633399a15b (-0x69fc3726a6399bcb860f0dbfdebb54d15b8754d5a55ef7b87899f5b1905161a8) 0x1a0c6602d73fadfc554b87272244f817ebf79c8b7ed72dabc3b0981265ef63e 0x241a7383ef1dd92f0e6d04b4595df33a79c3f873393d8e6214885aa6338971);
  Dbl (Cert 0x11259bc0d10c8fde31d3e295fe89b9e0cc4ddceb5b7a877abca7205aedd04994 (-0x600405704f49970eb12e2af879ded35a222c212f0eb42d8d201557cd4fa5ff85) 0x613642159518e3ecd34360cef1f2e107c76ee74ee90a80c44778b0829f46c76 0x31a9108d9d5eeb23f39e68abcbbe7e5b64b951ee5089be4e3327dcb7f220df);
  DblSub (Cert 0x283ae84a20293e0ce83a51b1cb32ae9b7ebf16ef9ea1a0ba2d17492163534758 (-0x6daf5aeb0a5bfd27081b03d2e05363d73fbf3a79a3f575bc6d66af912af10690) 0x2171e77b3ddd5d1a090c23cda875dc5c1ef987f0cd9f6bbf83a7650da75e00ab 0x1aaaebba0b64bff60ef0f4459c15220daec3445579b848af6e8e9eaa99ff258b) (Cert 0x1c1b500b0a44d28f583431b54aae90137556b078e1b178b14fe4613072cd3e95 0x662426993b351c6a21668b3fd14ed6d0531e9df1ae5c63fb6c43981b8ddf69c 0x10532506cc2864389a02987eb9340cfb3ba66089efc99b287ba9214d8d3c4b77 0xdb6caee2b5fdef16b6a050685e06166ab9b5f4afd9ae0148c6fc0d7555a8f3);
  Dbl (Cert 0x149214e5dbe70587ff0f61a06c13db757c70cd62c486461412008aa7823f3827 (-0x110687ba00df19d37e89a30594ed7a2aff168174f0319b7bfa1c2418fa6ddac) 0x8be8818a34dcd0b17e01c317813b7048f9bc0cfbd80182d6b390eb58388b20c (-0xb1909ab0a3c1c3816664ae4832694d7e862bc0b859a2c92a501b2082bb5e049));
  DblAdd (Cert 0x9a3bef7682411722160861e27007b8de5185ce265fc29c789be5762218e0ebb (-0x4872646e1aef575a5fbc93121f659bbd8daf2eab7b1f289d83e7e5a8a7a6f261) 0x1eb92f5d2577e285d4d681539647e1db926ed18eaf98e7188d885c91e0604f8 0x5414e2701f951faa36de95775bdae69a8dbdc87cb81c33a9440364cdf96e621) (Cert 0x2b6bfcb173e1566aaa9a72263379cae0069fb72f1b4bdb81c201d3264e6b9797 0x84adfb1e4a6aa6d761e17abc441ae67ed6972b931c51295acfa5381870227c9 0x26f656ccac6a923fc6c16493ad82707a5a0f0708e0fb3b9a2e57e62fb385a238 0x42b976f9dab94fb1db42b5b56976cc12d112e7ca92c2593f44bd02d9fc0f3e9);
  Dbl (Cert 0x4be13a2d3a877e95195a8759378bb4ce60ae5dbef291ed478378e35746de769 0x6c87a3b129f83e01ae5561164f7c5450abb02aab2d21c59265f6685ec23379f 0x76fb533c7278c64b62f1a4e18ec7bf36681eaf01e5a4fda734b305a38002c1 (-0x405daca769e3648b94f97ad1305179a6af95d234ae67bffbc2a0af76c54303));
  DblSub (Cert 0x816b8960c10165858d58318a43e98112b88350a4a27d2e122a8a4b98c65e44d 0x2efed376c37fd7ac191321da21e8cff225c51c765eb6bb08cb35bf259253d0 0x15a1fa65e50179b9924a5659af266e3c1c65ab0cfbe5d7a4d407b508598c20f (-0xf0af1b2e7cbaff9d7d103760e77be5ca5c0a15d7605b33d9e05dca9e955f00)) (Cert 0x1de9fb55ea3ced89b02d207245f783c94aad1172636e8233f2d5b34100d9630b 0x7e719fca6d65dde5b01e9e250c5922ffed3353bbd96af042afa7ed3d4092c05 0x127ddfcf43f6616ca2ded783d55c2fc18b67a81502b419e0419366310e7e3fa1 (-0xf14c5ca030fe2a5f7b9fb9949d1ae20947a47b3955764220be3bc7eea818ee3));
  Dbl (Cert 0x264a77b7fe7515a006c7d958a6f30a8686565e3319c7c52ab5b97a8b6d613d83 (-0x4da966c78def9ee10914c818286422b407d3fd887b87eae29c7ac4b259128d61) 0x1e4c6072bad8406cdfeed00b735470e5ad1b5c46a5da0071d1a52151ed00e5df 0x5faea1983c9c10e758466badef509974abd57dec7baebe1a72649c4931808c4);
  Dbl (Cert 0x2b71b6f9b87479f6881ca3089bf3c8252572ad14c1758d3db1f2b65ea8c55bcf 0x1319a311479f740561f8ed5a8b50cfa52fdb97da21afaf13074fbef2b452c102 0x27009edbacd3bc70bb4bbc343d4217574dc583b5283ffaffb9198ab430925fab 0xa452cdd66067f1bebb60e655cdbb14557f0dd407a17f879401c133d311401f8);
  DblSub (Cert 0x89433d7bef9974ee585f300055fa900bdc50008805bf5deea0a060c7ecb8aa1 (-0x5a0d8dbcb92e5590b73e69b95f90c6cb376f7d1228aeaa4eada5b437b98feee) 0x18557e9b08c2898ee9d269a4ebe2c8f07f0aa3b6caeb9f862250d44c52b9041 (-0xa7b9034fcf10f21fa73370f82c662a6de025dbf576ac5686e2e40a9ae1c8ac)) (Cert 0x4f778971cf0648aa5874b1313229918b3b04113d532837dcbb07602ce8ed1e5 0x23edd27eafa023672a91203569a7c5091005629f2750ddbe6f31f80a1cd2738 0x827f450564192d265c157671c8efa13bdc69fa13d7aee6a5ae8922094af320 0xd79c15422a6ae9359167285a9ce7bd1393ccac3ef2a9dea08b1ab08ff4e282);
  Dbl (Cert 0x461c85d4404909e4658638684f3a126d899dbfda76618b721cc90c5744de3c6 (-0xb39e7deeeec69ebdb7e9f6520d31ab34f377273e06c718eaba535bf98b21438) 0x6594519a84e9d9d6d62e75431bcf7e12c49c783293c86dc303f34ee56507e0 (-0x29405404b329382110b7d599a9baef36c37840dca355c4575cd3817c38ef978));
  Dbl (Cert 0x19b4e8b6a36851d8511d22be57d260e7cfe283c3a3094053baddfbe0f7202f51 (-0x6a8aeffc693876dfac080efadce6ba64e2acdde9f162af3ad28eb822688556d2) 0xda7e81ee3d917ed3249827827a5489b4497b640b1901952d7a9aeac59380647 (-0x33690ab8a1977fa7d0213cb7f3ffb7b06d83553fea654ddc407dcc114d907bf));
  Dbl (Cert 0x29653b3ac75cfbb0d11343246f2b263d6937bf4674f55d0b8c2769f3cb743697 (-0x6abf25401dddeab284e332e90ef07d529bb9334f38f1b89fb725c2a0cb962be0) 0x23691b2b24927e216d1e588dd226d00980d174f3af9db65b42e748f08a261b7f 0x24f40ec552920006f53eeebd68cc0dd014a58856b6e4f4fc8abce66529dd84f4);
  Dbl (Cert 0x1f32f77d3ff5368c1f4d7788afbc139230e99f499126bfc54d2bab562e4ab7f9 0x216093995e7cdc734863e9a69e66b57590568a374784c3dc77d568e66edfb2c8 0x141d57c8fe2aa9387d482a91a98625539faf178f83cb883d7b4f758c91a95b4f (-0x195a7d46605eadee6e8e731f1d218beea731c1d5b7ebd6c9074be89bd2a8f7dc));
  DblAdd (Cert 0x1a9016f2fd92266d1b45e5291954ee7f74026f5df250054cb00f67ed6498b903 (-0x5dd38bc44b9423465919187db9ef1648daad797f2dbb61f90da818a308d249f0) 0xe94a68c3768970529c081dc36ffa57208000f26756f722be719f9eb549a08e6 0xf07ba600480f91dc90207aeed6eaf22abd099547cea9c85d8804efcecb16cee) (Cert 0x1801a93613c153016e2ae6bef60796bb67866f65ae2de9259db128799484bf17 0x8671908879c701f5202e0141c85bcb1531e820473e76981d05b64b61dc05d35 0xbe8c6312163a23208351388b236e5d982f6620632e643eae9c898df9f1a9bd5 (-0xd6b5d2cf3e190405937d40c71c663c9173b1f96ee63bbe79493b6155273a629));
  Dbl (Cert 0x2df04c2dc9f1dd6a0b296b8da1c797148f46ed79b251290cf6a479d6c7b2a460 (-0x2b182dfb4b64c6fa679f7b17ee6fe14572c8da9294e6ff9ae28ca2a96eb7e994) 0x2b9c1ff226fa9dc3a7e277aca9007929ac0753cc0ffeec2b04a7c4533ae01163 0x18628bdc5d4ac2279dd251c00f40213648650162832153d076b94ddbce3e815a);
  Dbl (Cert 0x13cbdf52a74e874e5de6d76341eea0e4c6dfaaf76c2c08f4300327ec10a861a2 0x4abe6d46b0bfd24d15bb52bb6561b3e2084bf75b4738b604617f3f8149e8807 0x81930feb52bb0cc2af283a8aec0ec28fdeee7b51733190090fbe7fc1395eb35 (-0xaae5d7b4b04239adb907100b09d9a812667031f3431bea08232de0282f5eed4));
  DblAdd (Cert 0x2f1a8d7f619caacd1e7f3109063fa15cfc7550b9e3a7f68c985e1cdd32b1c1c1 (-0x7933e1d1ee080a6d168218c7f0bcfc468e39431f55c35bef5fa3d3d48cbd51db) 0x2dd99391a487b2435aeeff3b0eacfeb658e764809fd6bcb92e214ca04a096301 0x10d22ae63f6672f28b937e2c30e0b4805f66c434ebb90f01602dd6a8542d9cd9) (Cert 0x1ed6a5b2d0f7e34a7f771c4051ab90ecfbbe1eccd3e9580d91d41805bc02aa71 0x114a09c3aafda5f398c8a211071060d2c5a772271fc9eb65419707b5d492f80c 0x13a6fda3183ec6c1495c1f10b69933751631d9e07f87658707cc4e29ebf232ef 0x12392226a81a084ac7e728eb09595bb5ac683f7ee79ecd2bb7fc76f6b0a26ad);
  Dbl (Cert 0x3f90020ef50ef013183acfa6cbdc41fdddf6464616279bd987de482ab6d8116 (-0x216030b0bbecff26dd83a07343d3e21859e67917d6ea0c2bf7984365376a6e09) 0x537d3d6afe98a36ae5a2ca5c20070d7cc133b64bd46378180d7658539dbe85 (-0xd3a49419a0cf2ff250db1ed92ae92f7d9ed7a16496041143a2cc632f161932));
  Dbl (Cert 0x17b2670480f64263c86f40787394ef11bada6e427a6dbdbe8a5b0ca3379c68b6 (-0x3b5342b243ea9447ce33a08af3d7ff2fd7953ad3c37e6d5be1ecddae7a5ba6c9) 0xb9aa4a87484b1a4a8be739cc07fd49061a3f0e0acffa53033528002ae2150fc (-0x2aee3db39a289efa1580db627eb15e3b73b4f138ee9703236dc6b6f59935de));
  Dbl (Cert 0x1a10f99b8eb7335dee5cb3987e197b0b1136a3d9613347b91933c8d60b79b440 (-0x2cc0429c73f6d11500a6f133811413a19e8264e4eb32270bd4d1eaba75d9d8f4) 0xe0a67c9431cd626174ea67da8d09f91cce9fc93dc09d9c25f363f63a09082f4 0xa04980c7036fc80bbd0717e6bc0b0c73c988a8bc9ca472eed00f4f1c398b88);
  DblAdd (Cert 0x2821929916f7c0550a8820159d9527079e75b13e35f50fe129f7ccd13491b04e (-0x46059ed7d0598d87d937fc606f13999028bc38ac02db197c0ec2e95adac9689c) 0x2147d51a210a8045fab12dd1aa576a6e0a0cd1033331e3f8acda189e257097d3 0xafdd01bcd9330c78683e3ece71c792d69e6a4535eab70fd15fa921590ca6c75) (Cert 0x2afb6cd8dd4174876fb647624eb274663b462d4f1ff555b5a8f7d8d1b3a4b9f 0x12f445109373418b8ca3d9a470cdedef935688c6b954867ef155fb4fe76c50e 0x262d5be4fa31e52406862d938c45b02294009c51db7596a949f03998422ecc (-0x3b432ef9f420c55d19345d411c35350127209977f214b3f40ee55bdedca06f));
  Dbl (Cert 0x1737025e1ad137f6fcded04796fe7fb752ac3b87651968281128aa35c04b1901 (-0x14bff2a3b7de6cbfc9ca868ba7a2cd3ead6aef3d9b401c9aedd8e90440cfede7) 0xb23062493db6f26aed308602564e302ab0a47b6d946102d238e91494be28a6f 0x5af837c33432f2af4da4ab0bb09d44dae7b071dec41d04c7b841b36662f8662);
  DblAdd (Cert 0x17fb9f70320653fbf75b45c642f62e505fa7bb68479573da6587003b01688473 (-0x9e67af4d31230e1ba63fb219aef1b4ceefbfde6c1e1b6ea23d6a290615e769c) 0xbe2c946161d8db8a0fb98b26e18ce8295e64a9c17a166fd75d1eeac628eed5c (-0xe2af772a1ea5ec93c0f00dbd377df8858f453db5cbd313f5c7a0f60e0240ec2)) (Cert 0x16a1c092d3cee3b45250b2840cf56119492a00075dc039fc3f2794accfa8bdc4 0x13c1de7adff720ebe1e97c229bd5f97e27192db3f226f466b33b3dcb77f2e4e7 0xa959deff6276fc1e9ac2a10b90e94008bf6bdb97ca0bf700b990f23d9d5d432 (-0x6beca3453457c96197d43a587ac2372e6aa7ad247e266db7f7810a2e316fe4));
  Dbl (Cert 0x978ed0826091a030ff17d66de9b007728f79c70e79dcf6c1bec95a922760822 (-0x61c2ad78681451e062c65e6fca1d6b74fd701380c3e76b9d79c87dd003b99e9c) 0x1daa99fa3ee0a485a838cd8ea75a842c87d91fde6f424be2e89a020239ba87c 0x5786af0d8e57fa3503058372ed8bd65b587b2dd8ea888837c0d7548b581c863);
  Dbl (Cert 0x24fba357ab49d6fcd8778a36d82f44d33f0028512356b6880a935c20f529a9d3 0x1bac43afe16230aac7ca79770f15129e1e525be07e5a2f1baa76d4446e07caf8 0x1c438bf79ff6f1a28841c584d1d6a260a7c133a40800a73c6f50af7431ad41d9 (-0xcf86941d40a749f31de4740c1c23155c20ca96febf46cb1c90b6fc2dc23252b));
  Dbl (Cert 0xdbd316a4401ffdabeed844c21edd205758e37604aa6cb722f6e478b9c87bec6 (-0x332cdde91a3339a893fde3293501aed82e2f04d89538a9a2ed1eb9c97cf927f8) 0x3e69311d284d6d27610a8b694c6e8de0e598f4025b1dd4241cf6077c1262708 (-0x31736ebe3f4d26686e9c24a7f4a55a0d6bd8d183c412df14c3f0c4f9cfe60f2));
  DblAdd (Cert 0x1a7cc0a22457ed9f6ed2e7f7677bc3bb4dab9fd2e9600347f1c6ceaab678e1da (-0x4fcadad0adb4aa06ee1428bac77cfe5585e53fea0ca5f6aa0e72caff3cc3e98c) 0xe7f73b318fffb68702fbfaa68d68e79cfa34b19284beca28226954cf74a342d 0x10a1e3a7dc07a0d25c9c069e21206a0e0d3617619d471e88c33ef0d907175713) (Cert 0xf2988a755f0d1dfa4239ef3796b5c67f98bf5673759b6ec2264c536a6c09ae0 0x3f8529b3b67741e6943fd3cb2dc499113cce9fe6ad6faacd53a7483063d2758 0x4c02be476a37736b435815f5cc87d173d5412e80379374fb05561e71a17a8e6 (-0x191c09bf297769eb2b0716e5370ef5ddbcfe934f066690cff286a68a456e082));
  Dbl (Cert 0xd58ca9f0119e7e72e42775c58b08adb0edc18bc1468c70ea804a27e951600d6 (-0xaaa32d97eea2da1eca26e8580111e07635df17635295a36124dd19527400440) 0x3ae60b2c8947d1d53052e3b4534edcec6a047b51b6d15bfd4bb06e001d15094 0x3c7daf663a8cc4365750fcbbd32dfe8b0c3b16f0c04b197ddf1f1669e29f67c);
  Dbl (Cert 0x2ed80e8e18149ac7474112b6c2df6503caa5a5fa2cb80204c1f7525563d48bf3 0xba0ed9c036e7a494ffc748a015e4007da6250be164d109b44d088fe1b847fe0 0x2d587b4b84d823b0de11b1709e738edd412cb27d49b9bb05703dbb3638ca3fb4 (-0x14a458ad30d9327cd670f838cbee5fcb48a3301d0f689313ad294fd60be27d7));
  Dbl (Cert 0x1ac8e9774cc1306461b43514a6bb3364f35fa4bb71d65925e9d468ea604d7b47 (-0x6b755fbb3bd837c52dd2aadaa46b7dec09c0adab187bd0fd84c4e40c0a9cb9) 0xed34ac898ba155a8434b086aa708b3f03ede5dd39aadc18a0421112a67ee585 (-0x6cbb15b8fd9867c4a70c9e1469d5204ec5c9cdc13b24a3c1dc704232847646a));
  Dbl (Cert 0x404d8b74399422a11a2d0797a26efb8dbffaee4b2177726e8b291bc4f36ad8c (-0xcce4910f187c0bd44ebeba653b843da793eccd027cd2ed4d82e98117481e998) 0x55720d3ade5e05eac38d20ea3b0ae41a49f0a0922c4814cf33fd97a5da9e3e (-0x12bc917bd1b94c7cda975b4de9c6e7cfac6fe4c959a1374e5d83ff56dbae49));
  DblSub (Cert 0x10214e91396aba83b40e731156f4ed3d13f97f6057c787a82aed2b35a03605b2 (-0xcbcc0f1160d12234837a23b4750fc7ae55dc489b08599ed47b965534e4ae5a4) 0x560648d07336a4fca7fa6b8fd838a666bd569624cfd7dd603d129e998fe2e96 (-0x6995cf9d5a3208c624f4cd8d3dbf9e77e2021070d25835f34db8483e263a91e)) (Cert 0xcb251e079264a5708b70ed0c5847ff6100cf85d88a354a6527425fcd6754deb 0xa09e2560a102641b8e8f9485eec80d9acea21bc66563553b759974cab58bfc1 0x354c950372b15e109c9558aeaf38e6ae579248f345cbf561e8a552405748e5b 0x5dd7b6f2490e0e87cf8805ddf3b10feec40639eb01f910e90667283378e50dc);
  Dbl (Cert 0x16ef2108d833d4701e0af8711ce3d35fc07ef08a3b05501f1182dbf79f977622 0x19b6c3ccefdd425cd73e53546a7788c476c60f759b6beff3884aa9c9cea9a7cf 0xade79aad2b3c2d30f4e9a6080bcd59b2fb8c55d27a1bec8b9933087169f9203 (-0x8c6f770835d2e56d5b374681f6c59abc2cbc306f93b93d5d0b1a7e54e1d93ac));
  Dbl (Cert 0x14a235b5fc6daf089defaf9bbe6928f0e9f0a5b93b91587108754895235a79c (-0x47bbf84eae7196cc0e977bad1ef5258683fa5025c766b73ebd94ccdd5ba63ba5) 0x8cc43a9d20c5d85b20a9b60b634741f8966942e99c031c798e9028bc44944 0xa3a3520f2ac19217d2216598869b74a7418ee5adb84eaa5b067cead075c68a);
  Dbl (Cert 0x28cb70d401b09f03851f69929421b11ef94dec3cbf2ef77770d2bcaa44945047 0xc6ab4635c7dbbaf15a7d6edcff18b6cc53bf3db142e6c5127aea89d117899c2 0x2263e74b896a251f67cb873616cda64b30d5f60571283f5747278ee40b4c8aef (-0x19d8b3b080614ce6851eab5c9df8ad3016baa7b481e4d646261e16e5dedc015b));
  DblAdd (Cert 0x2126fa8f847daadc2709260cb3dee099a1d1fd49306040c1b76f4b0a9027312f (-0x36e1639fbf06782ca5b94e94b8956b520e9a57b8b023c6b2b92b8d05168551d8) 0x16b6420470114338bdf0c3acc6c1feb0f8eb4d0f2ce82e2717259e8bf01e2c6c 0xbb82365e0fb9f0c8af71e33e65060fd0a708ee042838d6b30610a79017bf3f6) (Cert 0x2d9daf725f5e624349b36d241e2b76fdd7c0d4fe247f31b62cee899d93aa09da 0x169e2b92746f3952fe31dc52747cf6350809b1f2060a23a6e144c76549efd189 0x2affd3ba4581dfe641fcc93311697940e2c727d107a9e4eb86998041d94c4ace 0xd2987fc53bc9e7f80be2893cce5f2b8c457eee198e8017b24338e946f5563bd);
  Dbl (Cert 0x30b0ae10b636a516786b1cdbea996cb36f1e93c42121f61c4a630f17585adfb (-0x56e10ccd4008d99cfaf373a28b756b737d3a292b423bdc0f54ed084430869c8) 0x30fd863785cd401f6ee2534696bfe1a9aee5bb3078b5df108e89c52251933a (-0x18f1e740090e4923ce803b390f0992440c3ec382f6f529a44e45ed17dd206eb));
  Dbl (Cert 0x5f6e0c28717df768041ccbcaae066910c988d8a89186cb83723705387d27de7 (-0x485053f47ee42f3ea1959c8df2b82baea767ed753d74b168823e6ee6dd5a4375) 0xbc30a8d150d0614cff81f0dd4ebfe5c0a0ca3fa2dd3cdcd60517d69d4e8b74 (-0x3b98386d96fe3e35833d7c1ba90b13300a43cdde7afe6e40d6627a0db76d74));
  Dbl (Cert 0x11fe9234083fb8908883f3b02bd5bc30404aa5c838ed1049137ec2051799314 (-0x52e7c586f65695420dc5b5d8102e6806e01b58b1819420d00a136a5253fa0f65) 0x6b0f21f4643428ba8909317579c5ca42590ff0dd5cd03c9bd35a44c83bbb7 0x69ec901ce1611cc8c93c7f80714bbab29f6c02887f517706a79779bd652082);
  Dbl (Cert 0x1430534a1cf0dd920404c54d72420cc0b01aa1e2f227dc8478d3ee704f0ec4ff 0xf7f3a64e7722a69c8ece109f397c7a4b568f8c667857a84acc75558573beb97 0x86c318f049287014504020b94688919136f1a159defeb6cff7c3be1ea0db5d6 0x91c2b30c92b077368f2b524925d9b31e2cc5df91e5b8e461abab4f5f4acde6);
  Dbl (Cert 0xcbe277ccb57e222f383ef26dcfc3accb352d541621a9e2a4da2b3e561fd5f3f (-0x16920a03ade9f259dddb31311ccc222ec35a555b9d3b7044e6151a2fd071f05) 0x35b01f71edd31d3f613428045dac4bb208be01769471bdb28df354815bd427e (-0x629a509af20bbee5e42db4074dbaa14b5deb64d8b770789c4a4eeec7f0436be));
  DblSub (Cert 0x814077acb691a11ebfb492f615853356a954f4cfb107ff83008e27402c14be5 (-0x5e9ba9213206aed0b5e73f7d09122ea9c2d2cd4925ee3d3acdcc1fbb2a3d6db9) 0x159396df94b7c11cb2e452ed9eee18a14a99e06f353e92c0ba255630fb71498 0x50e8ea430e6dcc27bd73c112268592f54f36d579cdeb92044d4fc1a40d8d16d) (Cert 0x1c1aab72fff9e0d6de24bcc4615cb26ca8df807a083d4b28083518b94e61063d 0x6300157c85bf14519133dd531eb725d0ccffd18513cb6941ad64f159d1d6971 0x105265d681a2fcc0e861be7c9b5032dc0a1d4488f8f3f45e172fdf7fea64556e (-0x420ba0b5cf63bd20ea0623e962d20887de5f1b6db198bd40b0b97ad71a3a0c6));
  Dbl (Cert 0x24286aca76920307ffb7ed28cadf341235bbd10663b66ee4e75ae1b9f74f1ace (-0x70c5ef971b010615523b31e5b990f1343b5be1ecb3fe4d543dbdb6c1010d8b1) 0x1b044d1a53c6fc64f70ad306cdb5485f5a01c14721d546ec1594f9425d0b51be 0xd163fdc23b62876d8c67d840e687da5ccb6a342682c4b307da7b32fcbb68fad);
  DblSub (Cert 0x54a754b90e2e15850234679301e95aa2d2f8f2e00d8144d03ad27ae16dac2c4 0x8d8e798d0d7aa7d918084300e1f803dfcc26b8927b3e0c24efb90668f5474a0 0x941679ac0be55349296e8cd2df7cfb58bc2d482872ce5069500b4abab8e897 (-0x221dbbb9170152d69046591ef0738806e7edc1cc22bb273f91f3409ef09ea13)) (Cert 0x2b1d9fd4221b370faa3b1c2761c0d3c915184a40425752d659ffce861897fd8b 0x1198926d75111b8217b3605972d7d4e59906a332730dae0859c1372016d27baf 0x266a34992c94186bc13a22e97ef6794034ea5627afa526296f6464f77bcd8ee2 0x73fb9487b1727758d59cfe538f2679b7d5f2e49a362582c92a6d55a5f795e2d);
  Dbl (Cert 0x840894bc159f017f6ec62b84cb749479f5a4be4724e2a430087e816bafed7e4 0x1d828b52ddfd27ac1b4839567bfef0f38829fec45cc6102f8dcc56ca8121223 0x1683e64d2e3adbdc1b333f65afa30f1f327c507ae680b5650655fb73754be3a (-0x383dbb708b841d6609dc0f91a457d0c8419b3f4e8b437ce602f18931b9c1bf5));
  DblSub (Cert 0x13f24d4fa7029dbfe6b1d742cbba3a652228ef29a39601bf122584e0678a9df9 (-0x239015d767707433a03589af5bc96d6f76932cbd8d126e2373ac13e7ebc7d97a) 0x838c0a9d102aa47cecdb7b39b6f88f0dec7c87dd58fdc8b0701e29e0063a690 0x911bfc4a68e466253131a83d4e839f9aefed1629eea5c8db56715c15eae5c4c) (Cert 0x2b6563110f9d1db370d0ac74dd51deeac8a39649a86403a99f715e982647ab07 0x92afc839089fbb624451dbb68f7181d3b8b4f99c5b464292fca3aed48fe9354 0x26ea7f81c483100bf2df78d3dab34cef43f208d77e9d382ac16712b3dba8e181 (-0x217bbb947594243dab802f8d97150d25e4b303559f9de057e14900cfb6f55b6e));
  Dbl (Cert 0x25bcc5f50aeda3288d964b633677a125d81beca89f9d9f0b9e6d8dae7b3aeaaf (-0x603f836d2a2720332a01b3b7cd7005fac041b2ab7a8caa4a9e3ca05c63f44162) 0x1d6dc2d249fa1ad9fcde297cd9c09bffc9d95334bde4b799170f3814e002fd0c 0x1bfd7d5ff423e046b4ad88767c6c7019b51a8fde29bfefbd2856df22eaa37166);
  Dbl (Cert 0x8c47adb37d932755efd1f77486e63d7d467c197fe4c80ec201876905037e47e (-0x224cdd7e06959dc8f5bef1c14e57be502e36d5da01cd18407aebe67b992b87d) 0x196a61852dc53e9baaf99ab9d9e6f66a8d151b5991c022550f11410c2f2b636 0xc1e424f59124ab7e7ded54e506f6fbf298485e65938c008b3aa3b606d79159);
  DblAdd (Cert 0x2df6f16ad800f5ff58541fddf596a5c1ff20b5d5d7db45df6dc6143bf7c52a24 0x10bd24e6b113116af5e6ad2b4ff6f9ca7f290a31708a6ba3a1b54323695cd4a8 0x2ba8bed9f5e322fa24eeb181baf4f8c84c5a997a68eee9d89a781f14f16ae80e (-0x2626d98da97977950210f2c247bd29490d9833740a3ffd3d9bfb01636a31261f)) (Cert 0x13ca70ed1693f62710c0bb4f82cbdb564f56d575e64f4a56758ffa257fc3bf8d 0x137d42648456f988c38b2c3e9619b124bd3b1421615db36c5de2365adc189073 0x818054328e2618a11604d6f317cf878819110fcbc6fc0ba0960a89fb2160e43 0xe9b9e33e3a7dfeb5f6705901998a5e3498abad7aef3c65acc364c2a6f7a8041);
  Dbl (Cert 0x5085192402d00d88c817eaa927e8b85a742206abf3092d25f279643c7bc63a5 (-0x851b1c30f0875d4724cde0978b1dd7a0fc66250736529aa1ce2e16fbcb9dded) 0x85fa7571c034a29ffbc98b7e72f43440193190533a7660106d2e90fb138897 (-0x14679e0988c18145201cc5884b8f6ed9a8ec18b845251372e203d0ceab51a23));
  DblAdd (Cert 0x300729d4dfec0e9368061084271ee3ff6f7b65d5dbd6d145cffa1c17e8619f01 (-0x1ce57b2e8ea570b9ede7ec7119f25fda2c385f33ab8c35722d44706ecda5ca94) 0x2faab87e3a84b320b84ec5480da7da35b9c18be4885f25fb0e9a1e1e36657fc4 (-0x17f159e2fac9dc006a3ccea0aa87096f361f60b3c9eb7c4fc2de7030389b8635)) (Cert 0x2af1cef54eeb9a90f650df2bedcb8cad306b8103a5f00203915c75755f2a4d93 0x2ae233eadea1e0f000516b2f0bb12217098df40a84bf5b5017ce0026ee431f8e 0x261c4874329f950e14795773f6b9e7314f351f4f89df4324c222e5bcfbb1726b 0x197897e9579da78d401154fd370c81327779439a33da5ff13125624da30e34be);
  Dbl (Cert 0x1d7d229f53f1a5f29f4afa742aee602667261ae509edf5513c58c154eae7b659 0x2005b217ac01633914b81acbf0cc45c022ebd58459c83f9512dad1d1eae6b056 0x11f842d0a5b904ac785da19ccafd4d9b191a4b621aa94249f211db6d3da50542 0xea7b873b9b59be60d65c1bd0da9053df211fc7576fc56fb84013d882fffee6);
  Dbl (Cert 0x19f7d736c2df69b05b4591a5bc9daae8535a93f0209f71f9eabc8c688b4c33a4 0x1103ae5263b7c7b2aee7747fc1583ec078e2345531a8bb439cbec380f1bdcdeb 0xdef610dd9b607386f989a925f61b7d943d3866799f77e077dc14f111e076458 (-0xca5938a9df4657a5b83263939bb995c9191cd5363d08c63fe861c4e664481cd));
  Dbl (Cert 0x55e2cd861260cd10efb01220516c167853bfb92083caa9a61296b3f42814b7f (-0x62122be5c517cf656ee22a90a0ec55b3ca173f4198364a291a2d14ada4274c12) 0x986e3e16f9e029755e083ae6ece7d0afad264a75e305118ee68f0181dc895b 0x27c5b2d5547550baa60aa569890b2a74717439134e00d846cf9b3a622d71d89);
  Dbl (Cert 0x2ead7f3b5d3c02d452aea9b0849398e34ab9e53c395c7e3848ac7d5bef5cedcb 0x244687647bfd74f96c03fa8726ffb83cfb63e301423c655579dbc8b5ac9e2dcc 0x2d063b11f31dccdb31de26b123f6d82ff6450b161a68f46ca8bedb6ad97b265d 0x81da8925f4b20cbae9454e40f0b1bf0718e0890588fa1826ccbef5097512632);
  Dbl (Cert 0x27a27f000b75d9f04634498fb4b2e0533bd7c7e33669f202ad9cb6cd22c223e9 0x28b7e334328c4445518a58f3e1f2658d20b164e56f6128770143350c3e85bef8 0x20765e286ef2e2c61b8b30a0435011e42f7e19b8696681dbdaffa13c88d6edae (-0xbc643c7443e828484d77357ecc43a8990b20be7a32076f0e2bc977eb859b1b5));
  DblSub (Cert 0x953138cc7c4d4a715246cbd33ea21cd8f176f80a1240c48921c0577c92e8fef (-0x2252e3d856f4f0af5e2347209ffb035e3aa15b47005a569c1f688e7e51a62c55) 0x1cbf5edae1aca9cb807a0f6495c86ea9ea6c567df80a8470504bc84282f71f4 (-0x1ca715cc1e3349df9950c70d1b0f8d1b8b7d52171b01d7be52bf74404ba2aed)) (Cert 0x42820666c5e45a9ab71c06d9165e7926d9befb0b3c77c8a6ccff2035d922d64 0x2f759c560743d530e944fd67e0993d7f9bec1f1c98b6023222a1ea97c7384bd 0x5b67ee9348e04ff9866bfd8f46413f782df0999f6e310ed95f83d62cd401e6 0x16f870e0d3937abbb8c83960b495c036f6d6701d356d6b50284ebe79ce4f298);
  Dbl (Cert 0x273021a2296aee1d39768189b1051434b15d423a98cb38ec49d5e97dad435ace 0x1a480e812e6024f6d1ac5b26a66577d14add7e20bfa2d2b5efbb01056929bf50 0x1fbc15dfb5ff464777cd1497aacb007842777dcb5d50a5669b93a773de73b4c1 (-0x52a46a68c5dcb24e6c22783e6bc11c11f4713ba85750f4ac381e11c9bee0fe7));
  Dbl (Cert 0x240abf878ffcafcd1c936a1d668c4b9210f7c3f73ef5a4f62bd5925182f34617 (-0x1466585cf9800077ddea912aa9eb05d335efd573c3d107a5de3ff907eebf1eb9) 0x1ad809168fe8e4679914bae5e4e235291d7097e2fa544b7475e943c0d35a9e11 (-0xc852feb20e82acf3b295f0800ec9c04c4895352a2cf8248223f343bf62bd423));
  Dbl (Cert 0x22b67915c02d345abcdf4ab250c21047b4a072502b391aa3cbf6e0480453f0e (-0x666df0cbba7c8e61465def1c9770ca8765f3ee429b22b114347198aa6a309688) 0x18e682f33ecd0740a0d890b57e61d72e5181a366e5d2e39864014a9136b19c (-0x4b436135c6b72dcd9e6d95b6b8f52f9e6dbd82c6a95b0c223f99b2a7dd35e9));
  Dbl (Cert 0x18209d4738ccdd095d0af05ca53336a11ad0552e9497bf7240437b1afb7af20c (-0x6d51d785b44667b4a5a49ae742d0e9c02de4eb888572dbaf9a436c8159f394d8) 0xc079005cfe5163ce9c9d0d7438a2a270bc0e3b9589e41ea2ef5b87584e0f39e 0xe7b92b0245a0f36f242c39596a6d16c8495fe2cc75e0cc6469734259825ac06);
  Dbl (Cert 0xc6d5cc2c25578cbfb5a6057c0e876fb6ba0cdd4d7b40f8ac5384d186d7d815d (-0x8fd802ca8e87654e29b86f7266c32b81d72cf07016de60edd694a39f30516) 0x330fc47e09cd617fe8243e65bd653e3248af74c6bc98ae4e5a0f6bc273bb1cf (-0x187c0c81b8d4235e7f03649fa0eb8bf27ab140465dd418d571db264bb22e366));
  Dbl (Cert 0xd6ee858e4f024ed74c8811fd6729d56d27e475eeb92e59c4a5ef09258999379 (-0x22ebea56b03d8dd5069bf31258e74d876d66bb0f3f340fd34a5fd18287bbeaee) 0x3ba9de6feec90de0511bc4051a65b719bba5d8f3da543b6c8daa0fb73ca391d 0xf5f6aee28a752bccc96a6c7985fe5adf834551448e86e3d5f79898a247737b);
  Dbl (Cert 0x265094859027fa50fbb51792d7192618522c54336e097694028e70157d7b1135 0x1945d6ca435ecc9b4fe47d538504128669832e0b57ca1e8f295d44f57f9dc2e8 0x1e560d939e0cc773045fc64182dfc293cf6bdb8cab4b6a46c74ee65476e1166d (-0x1490d95a7c064321b6a15d9fc49b90085f192be28379210f89ba7a45aa89a996));
  Dbl (Cert 0x1d88921a8368d4ee73ad10a0355afff796ca74747fd1dbaa1e09ee1ab0d11aa4 (-0x73b3e28d5f1c37fda248e48b6767f3b3885a13371f814349c5dfcb0ba640fd74) 0x12063563e78abe11b88c576951367524ce9c4ea574fd73a9f0021d73789a9b70 0xbd38f07236a11f07032d66aab4bdf01e0f553487749b3aaa1945f311ae76601);
  Dbl (Cert 0x2fc5d77504ec52cf143ce624bae3fb43552c8dca9a53fce0ac0f5427037d71fc (-0x190963be74863e4ca83f42c0353a450c2e96d2698c68e1348d73ccb3489d8a68) 0x2f296760a067bb91e1ce7c52cda64cce2f396c318238bf2402e69c6c836e2037 0x179af6eb4c9b93be5bbba45e08e54910d27c63e43729e48be6060d7e221f7498);
  Dbl (Cert 0x2d1706a6e9bd484093e09ae8129e36c07ffee3204614e19f14e3d278f506b016 0x631674bd349da8e091db87aa93cb1250ebc100af62ea1844d7da74bd899ba17 0x2a036bba21becf50f3b98de9396e7558be475723c3122c069bbf34b0ca3ba593 (-0x12afb7baba372ef04b37cad867ba2b1323cbea5d05b0b1a38466864cc9d32dc2));
  Dbl (Cert 0x12d801024879727ba748aff9d9291f7516d0094dd6f7909288c155942730bf72 (-0x2c7a3488519189094998dbec2bedc09016f33bd1cb935e7d6817c57ef1bb151) 0x75677541f4fe225e4b9f85a233222ac6d96c72d767ca7c12d66c1e76cde5bdc 0x42277769e78efa730e361eba7aae64c0dfe14bb20c23992f8f725677b13aaeb);
  Dbl (Cert 0x2cff03b756b0e5c41f60a6b9b91b97d9ad0540d758f3ced0cff3628b0a83e3b2 0x48c72f8b15bb4a7fef42348543a20951bfdf07804bc336d28c9f7e0eebb37c54 0x29d6b89b497181c82e6736b378e42faa103814501c4ba4cc263838acf4fa0d68 (-0x1a791d08698e56964cb85cb52b68418de75460ef75282cc64661fdc43daee04b));
  Dbl (Cert 0x22673e958c1e673562ac71786bb884d96c2b41982757d275a1ecec69c9f934dd (-0x46b505f059390b5491099b419922221148ab4ca3ee201ea73a5d87ac4f5844de) 0x18755a4620fc1bf8ffbaf88418b9a3a6eb4320a89899b76917e6fcc45a2f31f4 0x1627644861bb3da5a96d4f8d8065b5afa18fd0e0090c777295facd832a860f96);
  Dbl (Cert 0x8d5d1c800dc32d43d15055167e25801cff3b7122659e23da1334715fd3dc2ae 0x1028ad6d6899545dcbcb13b7fe6332b78b8fe8e15565ef200b29b512683459b 0x19cf4c5ddd63906d7e4ea60cd8112ecf0660b830cbbe828e5027aec823cea12 (-0x1176d0e87c005250b0176138493e8b652ade2aabe1b6200d087441cf1343d56));
  Dbl (Cert 0x896c414dd3e0803d8a35dabc672c9541deb64be0a2485bf8436607ccf393d57 (-0x5c5cc0006d8cb24e3b57ed4301c9466fda6ca0273980ce4ccd4215e36469554) 0x18640b99b4977d4decd4db10af90119680b6e4a80e1060ef07585bc30a1c170 0x535b3b9cb2a8d0e085f896c9a3521fbb469c9dd188c1803c015ea98c628c61);
  Dbl (Cert 0x233dc8e6ea4b1280f9a1c57aaa14e3ac2719189926e064ca6e9b21e0e7c431dc 0x186dc4a146c04f7395e531349c2d78baebb62b4f6a271300442cffd1fe17834b 0x19aa1d7e068bda42c5adae6e2e2586f120c20ce0a4e6996f34859a263ab6828e (-0x14395c9895565fb5a51c1d8c14273e27a4aecf4286dda77de37d2908608c578c));
  Dbl (Cert 0x18e1ff19fec26b66704e65d395fb336b13e9fa00bcc14443000c2432f3fde11a (-0x58adbf2b6d82ea7430cfe6e7b50667e1bc3ad57e9dffd4b0e896cfc339f226d0) 0xccb6a753dd81b1d0df48815183be80ca760f7d6b15434bd637300f0d54db751 0x14c5deffc912e3d17239e8e334ee0c6a0e0557a38bb53d78a8626e3f159b39cf);
  Dbl (Cert 0xa2f22ba685419e652fa540833d16692ee881ca6b7180a3cb871b33ac1590ed7 0x465f8c203b6f84a4dbe921276aa4c6fad873f300a5e21b2cd4e63d1fca837fd 0x224acd8f3a02e3144e05ec0272d63b24ede5ebf5d33ca5fcd739d7c59b028a6 (-0x12795a8132a3a022adb36fd0de27a8bc32600e882e7aec07fb0fcd88003b83a));
  Dbl (Cert 0x4776eff38681dea6005b3ec653f20cdee4dc51a9f9812180656918e93c907f3 0x5312759e12062408d8a752f18deee0f340f27b4640a71073fa3e83d81c5b03d 0x6989cbac0d9e15e0d041f8b78255dd4c4d280fe65145e72c0558559d301b8c (-0x234b943886a3d87ac4b0e24bff450e2e1a8451f439a7bcc6977d7675c7b4dee));
  Dbl (Cert 0xe879c89382024ec9abe14a5fdb25aff73930d02f94c161586564731042e6240 (-0x25ecaa339dc4a618ba16522bd8ce0f53e54c26ee171256af12c59cd5bdab851d) 0x45cd1f13bc7d1003d4720e754ab2ecac0d9b25aef8354a47607300ee55785ad 0x141e4f6b071efa5052b179b863263358432f6edd0e3459697771a3d417e2098);
  Dbl (Cert 0x923a1c39eb534e5e21c8fdd5e64aed15a8a134b3d3106c008e74f5159082cb7 (-0x1e605d23bac2984ed8dcb7de95c817d2d11ae627a57ef0ff1dea588ef0eb5ca3) 0x1b9dbc0c1c450178645908b97a9a66aa7838cecd3d9068d3a40a6f3acd0137c 0x513e0576c903c9a2ad16676cfb8f229a299662e3d27da9071f591e660c49f5e);
  Dbl (Cert 0x1998226536e8378b4aa78829ae2a70367ecfeeef92b0832b00db592053517623 0x9a5567dea766bb2fd2dc5aa4455dab4f8b67fdbb9687d1d9224f96aca88effd 0xd8966f7d6b532015056621fb50b6af9298ebb4bb072e1f4ecaeff274ab2685f (-0x162291816cb6370a9cbd929ef01c532c982cf93db8da0296d9d2aef987265fdb));
  Dbl (Cert 0x913318719a23f5d74dbeac8e020ccf7333f4cb0b4c955e4a7d0aed61714adc4 (-0x6cdb70f15175ecdbeffb4f9287d3821bafff9ee715a72aae3e9c2ae82b6b7a4c) 0x1b3abd1697d05130bae97c3785e6c1dc983c58fa382633999e3a92162e0a044 0x4e6e78ddee1f9e6431dbb87f0be243d20968cc1a450176b2037c5a86011c84c);
  Dbl (Cert 0x71a0606656bd5d073d6dcf93c85e95ae6f6ab25db7ef1191f9cced853323de2 (-0xc66c624e218e308b5fc6c37cc5e183532ebbfbdc370ef76e6ff213276a6a094) 0x10accfe9c8091c59bacc9b7b8686354f6b7ee1a8d307d33c83edd58787af1c8 (-0x45eb2ce306138c8cd0982701de593b4db85e5eb6e4587c0cd7ef23475190cf));
  Dbl (Cert 0x17b3c8d7a71d652e4a2a6a32036c7530294747b9837130cdead0a329e484a557 0x7881415ab266832963d848ad22a4f2c51814d14fdafe80aa58740456d638178 0xb9bff39914c79dced9fa617bd1bd9c3f22201b2e15604beeced3b04ebc782ff (-0x3231dd9cfb531d13110100e9a02bcdace45178f320937e11db94d38bd95e6e1));
  Dbl (Cert 0x19d0d0fed800dfed752986167c5f873013011269a177cac9331e51bd73d4e5ab (-0x924bf1cdeec83f3da893cd11ba630dcdac880744000e898fda076e9dc20b14a) 0xdc59e93d94cb57a5cde278c4dc2dd2c761fb65ba36e4598d3c34fa2f8040a8b 0xc431953fbd364c3903424154bcae653d9a3bdd08347556fe8e8e131a66843c2);
  Dbl (Cert 0x266d8a1ede905128be4166cf5d7be87904123f456a04533ce315af2d4fa6bffc 0x4129da8cab34b8d49363c399c80930eba4366ff9bcf3afdf589f4cad9b97ea8 0x1e83fa81ac3246de2cbd7815b72299c205801c2933a82182c865be85d85e62a5 (-0x1112088b916a8db10fba26a0ef8df872652f4c0215bce3895eb308910eb07d65));
  Dbl (Cert 0x1df8fcb700d2697efcbecd3051bea54b885fc00fd54077df3637bb19f7608fbb (-0x1174c2d810add357f88f2f234a2e6ded699216772abaae0e690e216cfe82cc1d) 0x129071a71e364ad24dfecdfb9c1fe926e6e824c588b6e40930dc980c43aecae2 0xe195dd29d438e2f206b5489f160ec2e13f1ad06b0555943682ac6d8446711e1)
].
Definition grumpkin_chain : list step := [
  Dbl (Cert 0x60c89ce5c263404f3a037dbd790c24a58cad3ca809cec543c2e444539ca1454 0xb3c4d79d41a91750f7d69a30b34fb0e3fb90ba94910094dd 0xc19139cb84c6809606cce01bde2b317f7b4b3f07abe13fd7baffc9b06d3b90 (-0xd9c36104f55f50b24287daea505b52747c85c87a16113bd8768199bc206adc));
  DblSub (Cert 0x302c3ac7b9a4e5507dd4e931b6fea20af61a179f509a07d479f230a49245ed0 0x9f419baaa9e32fb8adda5b0588189342cff71195b0e10c5a4fb588b70f6774 0x2ff4681808c2f45d5549c22e062170b2f3294fec11ecc00178ae0b56efb69a 0x517cc499166e82e329b378c311bdd351114d82aba5a0876e358b5d13a6bf91) (Cert 0x172bdd37e1949a7b4292b50174cd79d3783f2e8b20da1708b63131c7c6b330af 0xcf08f80a95e5c555edb4c794eee594ca2d965826b4dfc6b2c58977d4975e98 0xb18573e05a81074ff80feaf072b181158890dad79cda9b6eb6b6412000515e9 (-0x12f231c72c1626bb24f4bd87620be060efab72fdb5b8a429b6faf3c70431f65c));
  Dbl (Cert 0x2d60a3159754bf35115953e6f464ffdef2c13944873018c6f82c3b688904a589 (-0x449be9f697ea1aa530f894674965ebcdc2f476dd805ec0fa755dff62e1677263) 0x2a8d08f9450e3bc47bcfa60911cd4de98c9a35e42e8764e17649da12d62efd9d 0x168b8dc845e39109187491a0dbfde09aac989bca77b4c3a8aaafb851956fe8a7);
  Dbl (Cert 0x1492644b3f7e7c2f916acf0d3b91c8929a61e1cbad695ae36a8fadf3a420910 (-0x1040344cb51aaa9c7ddab858881a3e2e6950743c6c21f73c74c9a9c6c9278cec) 0x8becb992d6dd2ba0e81d9835f3289e3f4bd90dcddde7d4f30838764fd26f7 0x572ef965a423c6e2a0de960297f4a26a696fd64492a8123baf48a38d08732f);
  Dbl (Cert 0x1d1c575019f5ecfc72444d14986d6a51ca0a34a4a86c6cf08f8eb462c43d43dd 0x2c9768f90b578406803305a2c38b1d808a2325f843cfad200bf70fe24a557a1f 0x11830c98d4b5dba007a99d4dd1cb4e43d306117c83803dd68da641211bd91be0 (-0x3ebbc9000b7bc5a8d55263203a0a1f756aea30cfd11301549b8fd7bf0c82fe4));
  Dbl (Cert 0x383f211be37e4ca009ce93c273012db5dda34dd3905a064e45a6b89e124a13f (-0x7a9614e0c21f60f5d639a4abe170de385b36fc59f787fb0338455b91634d75) 0x41605763a86025459b13cea415c280b6373fb56463e13c0824f2477b5b0269 0xa80ea5c481e137a325c11bc11409c27fb88e57316dd7e8fba6f207500f40b0);
  DblAdd (Cert 0x2ffde0444e7d06a4e0d1244a34fef438e3a447b21addec68dc714f5e6150107e 0x455ac45817c6fc26fb5e4d3679e8c30eb9524ffbadd76735ebd466f7ed928f4c 0x2f984ae5ea92e0d4aa462705375aafbcb1d88314bdfdad70c09e854c4f45de9d (-0x9e0b98ed3c5db26026dee97192eebd95428f2c6245f6f83eaecf3dca360d31b)) (Cert 0x1f4d235f039aebcfa2a0e74d7d58f4533b798a33926b31376e000ff934de2a0a 0x7a81d2fb759b5fe7501048bf9103c58097107d505000e0884c967a2e29d1285 0x143f2502cdf33179391e918ccbe53e4f4cb7f94b05ba9815059b5d312f91141d 0x1ee5ecfb8b03636913c1b874a416a200d72c3f6765a4985db68b20d7828d25f);
  Dbl (Cert 0x2d60790238f36609ec042d08cfb48d9672be486abc4b5e1b02f1ee13b3723d2e 0x22583e422cf42f15b69e98f446046f356b2ba6d548d85e0b7f9b9607c912a4ed 0x2a8cba109355488ae4b5be15b1aa9e123239c0cd3532ad44e3806d824446520e 0x6ecda9c7c47b70475f5bf0e267c27468cad4c33e5be9d211457adb802090bdd);
  DblSub (Cert 0xbd7316bf974a3085416c1a491d8c59c167d41a541fc35d0c517d31aa8809551 0x1016890f0b6bd348203d01b962fe611812c9c59aae5c241dfffa73212f618a2e 0x2e5ad8175c22c5409aeb51e36c2878e287642bc727c13a21b8097795fec7d92 (-0x496a8fe311ed1405ab3abc09a56feabdf9d4d7925ab93863c5921e70f54464e)) (Cert 0x2836a97128b581799f57caa53c10e5100a810d66d124e291749a5e1f1e948dec 0x10cd60c9891fe0e8334c3864f48089db88dd3c2cdc893662ba93a183377297e4 0x216ad8c5a2104b90e51ded2f7103e486ffac097ede6ccb95cf48337c32c895be (-0x100e114b81ec413f130a7ef0defbd6f23c784e7eafac3ae931cfcd9e969266ca));
  Dbl (Cert 0x1dbab72d56f765e9df3bd6d2098c60c7f7140a683dcdaaac34e142648c77b3e7 (-0x32c4366d275cd94396e7d516354f8739f85c8ae14cda3d6fe736c6d1ff307208) 0x12439e41d836fefcf0b5dca43f9671f8da72fccd8135c03cdd6a65fa2bec15cc 0xd35ef48413c2e158b29fde844d8fd5382a430f64be13aced11a7d396499cc8b);
  Dbl (Cert 0x2e07e88a4ad753b3442e6ea5c42899c9928a2de8dec7ec96c8e0958edc7c5e94 0x4346cc385b56319339867752f8243e80c1c6d6abbc6ebe7ca77e20ed8f189ed 0x2bc8ff5ddbb6103c1b78e2f1d2e32ecbf4e2ef044022306542546d7381938b5c (-0x19406eb7b5946c4fb85228bce78820ea6c6731b9f1a72e23dbf33396b8f6dcf7));
  DblAdd (Cert 0x1de7c2a0a6e9037eb2f14be09391e590dda96701d502c70861de5c333a6acdeb (-0x643a5302f0a182b6297843abcce7702a800fc7b26d0f551d3c0a183ce76300fe) 0x127b20cdd68530758b4f69cdbc6ceffb82891dd40ac583b4a3b4c9520ff3fa8c 0x17324cb4331b898acbb8080d24756ef2624bafbd2f6ec2e8417a5a9ab6604171) (Cert 0x1b15d2a1c53141787e90702b37c5d5fa048efaa43bb00e8e87f262a67e4b8330 0x3f1b59bd91dfa7fd5a3aa797cf4197d28a54074913bb82f6efd291ce55067af 0xf28e8e0a6483e805136cd97eac1948abf715065e1a4641656028ede1dc4cb1a (-0x154b6a0c8ff471019055239b6864c79e683ea960411c78d06ede49e5dc7bde38));
  Dbl (Cert 0x588d5ab521215c875b55ba930328839f5a9e5ef9264c0d998970a36c29c73c7 (-0x75556c3183ad45422079ee77ed2aa5a418f720b6e61bbaabce9dabbf58f52956) 0xa20aa3349a1365637b925b3ef569c94ae558e1c7c84c62f3208c586047a65b 0x1cd3636c90254bc2ec2024e892fa9f66f31055aa894b1bf5dfd85075f076982);
  Dbl (Cert 0x3a0a220ad25269b71a997653a85bd34a8f82564e662a937f6ffaad9beb1a1dd (-0x33507ed467a4255532106efe160eee5905f45f100dd049ab966bb4bcb696566a) 0x459c5ce23b669366b14e032f14bc75828fca7e553e6e7720c231bd70e9e6f9 (-0xea22fb118cedff15fd329c6fbfe1c837a8bd974c907a7e19c9a9cc008d7e11));
  Dbl (Cert 0x19af1e2a128ca2b56f534d26866a97859898c21eef168f7d5573331978af1edc (-0x48ceb93e12c6c3d084521d6adc53d8891d94274817905303a042e77aaff463a0) 0xda1c1b22afdb58dd054ca72a87df214191264abf85c59e70ef995b23a922e92 0xe9a1e8bcc485879cb1fc964d613a3241f962ef0ca6354f514089c254e7c2cce);
  DblAdd (Cert 0x27958726847c3a67f3b81314594f45abafb35b698e78104acf3f0362025d4772 0x20a9c3ed75c2b57ff2ddfed1f53b58264da8e004778051d429ab325515003004 0x206123773cf6060beefc8d20126a648a8804ee8448edcc72264674431093e84c 0x10b6026ad71204c446c17f56faa947410fdc0ffdafc9242b7b140f54c762d32) (Cert 0x188530192366fe98b42bec9f0900f3cc9bc0c5672a98d3a4a7d212393698a514 0x67631434745df27da1b3552b975918118acd5ad29620cea7084c54a1c92e1d2 0xc6caaf6b567c0046e1240644633e8ad81c32bf1960165c66c9dcd3e4470bc52 0x47760a511ea2dcb481f614a4b9e8d00a1cce703264fc7b9f7f13b1b3b4daf95);
  Dbl (Cert 0xf6cfe250d6e8d92e72a14ae990116377ceb5591f7cabd5c06c9030020a14181 0x4524f2a5c929bfce1865bd14cadff878324046e15ffbbe6337c511a81d4dbff 0x4eacfc48b931405b80f3b6ba79ee67ce421408c6ce2cbb11195bb027d43bfbc (-0xcef5c6390d162ea249474c5b81b6b40a6c14a50c05396bbc5737092607748ec));
  DblAdd (Cert 0xf70b0b1a1bc5f8c51786fdc524a8c1add743ae9b895a80834c11c87b6562e29 (-0x711fc37a1aa3e90a2fdf2031d1d07c1cd1922fa071b7e5e14a444c3e5fb3d8b9) 0x4ed2b824beba3f865a29a8a516b902d3de3cfab566f05737a8a71a34b54d267 0xdd4793ad9903b3c9ceea8126a4b9fec4b4a85e46db9ce620a4887a33f02ce75) (Cert 0x2fdaa26333c7f0951860caece38f37dfb066cfebea02e90703b0f36fa3f9e9ce 0x1286de383e5d7c60bebaa8c1cb2dea97ee1e0b4853b7604a963a7ec6860cc1d 0x2f527dfef8a9172f21bca202b8f892eb14b8beaf213b037bcc43acfd25a5c314 (-0x1d7fc8018909571d4affd7055422371579998226ad3c6ef60d3788153f9e9a43));
  Dbl (Cert 0x1f2494df3da8a701b4bba42415b4cbad1ab38e407805b1317ffeceda530cb14f (-0x23e18a03317e1edda57ee392e7515017f6d07043b93e58da2412dc484e72163b) 0x140acf8f82ecb83dca359588f63618fa0bcba24315400e96bb9b2d306184b067 (-0x85a9e2f0ec563060bff83e9965b2a64fdf73f703a7a96aa976f6317987293eb));
  Dbl (Cert 0x27deb1af06ce109d7af2308321975d6dde9c9fcbca8a14564bfbc645fbf2edab (-0x3f331c2e955932e22fd5b26847ab1ada644e3ba7a6f9b9c7e9c12e81688a0828) 0x20d944eb4ccca907101a78927b2d0d05b6b9b61f1443ac993b28ab77909d4cb9 0x181315e2bf449cb3aa5055d18e554fc8b4dff0dd326b80a04c1378bc325ab2d2);
  DblSub (Cert 0x30195a544d72edd04f9a095d686d4e4dd3cf6b7981859c6d682e4ff651da9622 0x48b537e138d66aea4eec9c5c5a3a679012410c0d77c0cb6e34586a3cc5616d8 0x2fceda4e0135c7409e7fd8fbdf0fe3a9ffd1d48a0effce8ff77809fb0ae14bea 0x36ad95b96ebbc23c1e74c5445a6531d5b5ce65f354895fbece953cbc5687658) (Cert 0x2ec9988f007adc7c71a0d133210f86386875c57c470034371093ba85abe5be59 0xaf2d79e08ce8b72987679f8a73c928f8185f01689d11c244cd12f32c9f22817 0x2d3c80722650c43533f96aabca51011dce21f135b2f9fc0e7fbdcceae3a12302 (-0x1fdd67da6c214c1c8103156f70be1affa0a3f58cec24c981d2d5182a3f8056f1));
  Dbl (Cert 0x27fbc26f86fb0642f8d6ed442217cf9911ef8c20191c4c1c55a78e970bc57132 (-0x47a2f4d9025c8b222fa00628f3cf6263c0cf15729a90cb5f1a3c932046a5872c) 0x21093b35b1aea3140d48f1e942d0bb59fbab52ba4ddf6b08953ce4d626a43625 0x1b224b415dc6b84401f9c00119295b9fd1d91f1f5ccbefb748a3be74e0a72127);
  DblAdd (Cert 0x185e1bb95ae377570fe715f41519a14f7bc6deb19cac63893cf1127612a2de81 0x12e4439847e76c9f9b5d4ff35b22750b189225b037dd7cbbb14e370eb3546241 0xc453009768bfe1540a43d5f67127c3a26fe48de36cf7d7a02fd0d5ddfaa6af9 (-0x5fe51aeb9076f84f62a3857ce4e16084819d404e131ce5c3cfb3a9fbaa3c20)) (Cert 0x2bd0ff72519c026db28c2db106823793a874dfe0366a4b3ff4f8b0c32a894a3b 0xb087e79882c6634afd741c351ccc15edd3f0062009218ca1a3472658d78a28c 0x27ac6f985a0264899771ff1721149f84df0bccfe0e1f07a5de0bb63c8b68ec92 (-0x1caaecf89b2661dd6a0612e5f073674aa4fdf0497306a781a4b0b516fcd9afe));
  Dbl (Cert 0xc773c7b52016f9b55dac42532e7da3b258304c1a72b8d9db330d219c7ea81fd (-0x4b6fc86ff6e7c369ff4c5fb58682332ce48e5dd230eaf13b25325ec8e90636e) 0x336108d283b9c762c8cc16ba0658d85c51bbdf6c4ca8b37012e2624872ba450 (-0x12affb2246b732c4347e1eb1f4615432dddeb21e292d86b3f9021ed7e5478bb));
  Dbl (Cert 0x14f47ccdbab0dd09fbdfa2e04376227d0f777cd4cd923c778aae0be499ad83d8 0xc1f8cf4d5d7230b2fee783f4814d52b5dde89c533968db6f23b52f41bb1fc2d 0x912f99a523e8a869f5e3107144c68a7d2550e06796756dc12fbdb201b263046 0x741083b37bd3f0cc379632c7dd2dcd0afbdd44046ed7f6982bf30200b6e12b9);
  DblSub (Cert 0xba5275e0cfc5546774b7966d22d6fd95ec9e84e5a0555acc1960634db37b335 0xf2d7c602e958a6e00c971d147352173c6aa94f37b00c4356f134f8506e11ac4 0x2cd64796cf9d4a4d9f557b156c567a4e781907c866d235ecd8abbe5123821af (-0x988acb7623b9910df73df81f122b59ec4dc4d2af05a350c5a3e25622b805af3)) (Cert 0xc163cddebe3b7f3a92460e6b3dd566856708f3190eda66e4e60bf826f697a75 0xa61b41aead173bdacc19d73a0de4fd6fe55f0a9215fc59eb4da591123474292 0x304d9b26a15bf8e0da03230cf3d355e4f167e6e68de14329fbf7a53d8509a21 0x28a80ddfe04260e05603fc6bd3e5d3e338661fe8b0bfabb0760191abd1b6cf4);
  Dbl (Cert 0xba31bdc93d9b457fe3b75cbdc0338aa57be506c71cc94e3cc27644a2b8784b5 (-0x296fef2c2e61bab91d8ea91f4f85b1db06e7c498ddb548d241b56bd94b77a4af) 0x2cc689aeeaae3b4bf58cf183c2f5674b8feaec24345bd8b1ad5d57da60786af 0x57e73f99ff55640cabf08f06fba47159b070f22702931b226c4c57135c4f7d8);
  DblAdd (Cert 0xc536f7b5d96bff55a9a81d878583f042d5497c2d75cc28f7eb2635497e8fe9 (-0x435ac25bd3acf328a7ec18b8b7d759fb26f0c130d58a856d68be784808a145a) 0x323b937783e45e22e7789dcc081e6e2ce2ae6cd402a8d979f2b94dc72db6d (-0x395f14acc11d3d44d4b504a402b52a366ea4b1020266078b152ef7e3c713bf)) (Cert 0x295d80627d565c43fb0569febfcebd79c94df81839275b03ed1da4b00d129ae1 0x135683ed3112301aefecb5c7e0f1ea88df588e1a17b6161346418e12cc163abf 0x235be2e86b6f9855ffaf6cdc0ab28b716b9403ad9e11461662659991917d9122 0xdd9dad7f2711bca3659242882c36822544b858eea271a2404a4f192240fe745);
  Dbl (Cert 0x300048d29184260c04813894a5edafed882b94f74960cd0ab7036a1a708189e (-0xca20be4752cf3ed7c02b80029b929ac5326c7fd024257591eec16e9caf3b00) 0x2f9d11ef0356d71803b56600e0ac2df9457e24bd0f2786b33644b36cc13fa0 (-0x119491baafa98d2a47b5b977c407c7b80f932f8347ba268cf4adfd3f4a15344));
  DblSub (Cert 0x18f19ca020f209c6882d271bef13acc30945454a7064b303ca164e0b5d5f71f4 (-0x10f5ae525abc30c90c6b02289032dc270d44ec46a9a81f1470996e85f34e9b88) 0xcdb7e813ce054bb970f7a887cce5ee9cb5bcfbef8ef53301978bf3ef5054003 0xc26a720a198e188f40c2595cad240ebff91ced4af76006bc9e9089b62eb98af) (Cert 0x3040604d3e763e5d2a5228a017bb2fc10941a2f3fadbed6462b09983e818eab4 0x914598ce0305dd592ab31177077dd11ccac45ea6d2ce2f15cd52ae1e41a872 0x301c8cd51b1a5f40f8945685c22ab721baa779fb43f1469491f661c8bdc753df (-0x1d07a340cb636937cc927da5a328cc045ec178633fc79ebce52c36e7d82113a9));
  Dbl (Cert 0x19226b2969e17e8fd6b1fbe06abe8527d25f53951168154638490fa426d8a9c6 (-0x237635c1ecfba5e0a597aaf6083493abfdc87bc95b04a72e26464264913da427) 0xd0e00779525b6165ae6aef9548582478307709fe9eedc8f2f2c0005300096bc 0x7a9baaf791e1bf2cddf2d77586495ae699203defbabd29c30c23398a7f2f56d);
  Dbl (Cert 0xad074edde724a50b3292ee9f7b5136de7a126de5a278d4d4a01ffeabb3de5a7 (-0x50b83f729091748796952f34c1044d455a2d0673cadfe74be9222e16923dee0) 0x26aad286626de86eabd3fdbc901cf23e500fc7b5348c56160fa69f32ab33ba6 (-0x15fae2fb9b3f46063b5a4b573b1e8808699322958ef09545724a389fa9b6140));
  DblSub (Cert 0x17768c0ab38cd32800747c9d2626eaa99d653ee3a796e6382da731918e89f285 (-0xc9b9a9b0f3972ee27bd4f54dbb9d28efe3756ab5df2fb3aa1c5b380a8495fb5) 0xb604fbe85f9846688ddcc1b1a692caa09e43b881f0d3eca91579b0c0e401ab0 (-0x29cbdb9fefa8e15e29f48fce2537fbea18eb60763da945634d94eb9bb91cee0)) (Cert 0x141ff0587cf7b49eae2c9847e8c21792c2514cbe97576f9d71f4aba821b8b594 0xb0181e5b4662ccd7cdebfde29ce8fa73676aa3d96449c9d556ffc2a2f553a03 0x85e8ae5dada324d488c61ca3b176788331697fcb3786b2e747b29a935bcef19 0x18dd9f5a4b5a1d9c35825997a03d8f9778b91df76b159a439ebd1fc2efe4633);
  Dbl (Cert 0x6e178aac8a0021be2d3740cbc611410e057f10b422eb653f7ef3b6e0005319e (-0x1e019a9a9d63bba3a201556ffbbee193a11b116460a6f71061645e9f8c3fe95b) 0xfa75e2dda113f9ebcf186f606239a555b4c05851eab87d930b76bdf924db76 (-0xb084541b7aa3b38633b4730409f8500b7e9c4ec30c73c506e0d486357d778e));
  Dbl (Cert 0xb182cad6996a99bde3972097ef7a68b3cac2a4755d562481cac01407d8a8184 (-0x2a307e1c3965d32734a8eafbc56a913a7ff9f2e2c87f2646ff082eea2fca5720) 0x28b254676f2a118837fba479e33426dbe93ea14b7a1a5270afac7a1e5fd646f (-0x3083b75e9b956e60d6a21f39f01e04dfeb7b354522ddcc7564f76246a3fe69e));
  Dbl (Cert 0x6f501aacf9278e2a65baa10763a991ed2bc0a577bdfb94669523544e76763f7 (-0x5a5c984b4dee631a8272c8185b01e48cbc3af88f90b8deeec37af8c56d2bd88f) 0x1000bf06150c69bcc6c8ebd336ab18130ef2189789cbad90df2dfffa98fa0cb 0x3fd73c29de8a1c9d0c9f01afd802f926bd8c4d6a75b3e779fcd40ee2751a9db);
  Dbl (Cert 0x39fcb9632c5527fb995e52bbc29b5939e70d2b490f4cd75fb17640fea99e662 (-0x7e6893558e3b738c363dc3985174308b6e15d15c0b30b69fde2cbbb79db2108) 0x457c3691bbff7eb887256f0d461611088b94fdeb2f5f59cb98d48078526dc5 0xb98921b87f65a37f50b330bb317ccf35b3968f0223292465dbb71f1d9688d3);
  DblAdd (Cert 0x1f844e4423798879a2e9a2e7bd023d1c97dd375acbd3b5a2cb256d25de03c95f 0x2c52fad3352ce7a738d0b10489828b93f42660de44ee6680a3a787f422bfee53 0x1486c226630c83bc213c9bf5050dc3a1b212b88d37d3413f02163b4c06433de6 (-0x1274d0e4c943a2a89d75909066eab54e01019939509b4b3dc2fdb7a181a55428)) (Cert 0xc4865e58560d9aaf7e29eb8dca7353fc70fbbe1e6d54a783302dda84dc1626a 0x80c7285c330f0fde7ef0807e113acf4b646f0a27172fadcc73d6494b156ddc3 0x31e1c51e76fddf6620899ab804a6ddff3e840ad364b48af6af8d2ff112bd63d (-0x195bb1de3e914c5ae1611b7994cbe752fd7a04be0fc184719359277a8774d0d));
  Dbl (Cert 0x139bd4a8e17d60971727735e346f2cbc163572517182a0d45fe0a59a1119d04e (-0x5912b282c9b2a1a909da5739d467389836524c2436a030687abd7e85a97a4963) 0x7f21249a801959bce7ee1c35f89acba2b67ce0c466962986d666ccd20789290 0x2951f58cc648614dc476a88d47dee8e3436569d922432566a50925f85e36107);
  DblAdd (Cert 0x480cd70090de5ed42175fc2ef72eb187f8142ad5c68f765896e150db1e85d0f (-0x3aa1c7d3373d8525c85e87df2d7630b6fd671f4d4ec792efdb67e539f807cbba) 0x6b465bde7d66e92107ec7363db0ece907b31d58d6d41d3c9b1534e6c31d06a (-0x9d86eba4b9c3608036caa611efb08c9b13505f459442049c2d676a558bb39f)) (Cert 0xa6417d6a070972c42c63506fe48aecf96761035e8477231385a547ba5e5ad4b 0x8337cd68fbc651ace1b00e4a327884677c39d1d9a3b74b81213fe704dbe5f19 0x23b310678c5301c7598f71742b58678a87da0a9f103d1d1182d6985ea551eac 0x148ae534243a7aa79f7f8277bff92623449f19e2586913dec2fb3417a7c7679);
  Dbl (Cert 0xb9c06f9905b2e8d0b333fb76d50d7d55676a7e4e72a3fd4660ead4d8fbe0d1a (-0x3977547ac566b28ab33a955c93980a8c769f8e22564c06703e880762d4542de3) 0x2c901b97ef718c1b668807c963d32ca59e2ad288414071a5951f16f5fb57c40 0x65d7430539c9094217fc24dbfd4af73c83606a6556ba1c14aeb0ba19ba072e3);
  DblSub (Cert 0x25b2c18a8a68db6c33d40f106981271c4c793ff0b380752f5ba6edbe3b3a25b 0x1bae25fc390b2ff5956f8ee100e0b50a58be7b279d9457009a90e4b8269bbee 0x1d5e254720786b78aaae2771cd82ee0a222e8c8c32643b846b4bff935d895c (-0x78382214d0424a43e47d094783d338e4771cfc05c76f6595f684589e35c172)) (Cert 0x2e1e6a088232684ee6e44624b3a99543849d83107b20f4b3a9d3b743c5d39aa6 0xe9b958936058f80b349e32d1282456fbfd46fbacc575ea75ad1de62109fa476 0x2bf3daa37a8446c1ce8af34945613f0ff4b9dbfb74aacd41b4c7f8fe02afb7c8 (-0x40d2b29bfe7a7be53f57f7c437edbd398b7f8112cd6fcb300ffe6cd198a4f8f));
  Dbl (Cert 0x25e2e606f5f8a3628f4ae06e53f99ce75166381435d5b6a846f70e6459a3349c 0x2d8a0049aa0506c2afc550eac204cc405c1cf95ad95f44a1f63d5213d0280a5c 0x1da9573fdaf15c5dc0921e9f2fd47e912344f58200c4986d2de45b6370b1e004 (-0xf6591964b6b044fc73347b2c43a81d527a5b48ed22522ed55debd2ef1d89530));
  Dbl (Cert 0x25e3ad6c6c171a963375cbaf3caddeae4ce035bec75b214e2634285d8030a6ab (-0x2ceeed055aeee35df51f4b0c660cb3ec4260034e777daebe6dbd540182ae03c2) 0x1daa8f7ad16c52e3aa7d13f9585676c7b7c86d1330413c6f4875203a93faa20a 0xb63f475f0e1aa7bb13c6b4447fd637e259753e4b27fc4c352eb12ba380d9980);
  DblAdd (Cert 0x21c866c36615c926c69fb4d5f1c23900ab559ac2fb4380df725147c0c702abb5 0x1785e426ed32104c762d2f187a2b341937565e0a78c18886ef565525ab5ed079 0x1795893c8b181e0d76deef8670a5aa808aa25263779f70a93b1dee10a2128510 (-0x5d66c6de1a94cbc2964b3f29a9b2a2c3dc5c4ff259b6ab6d445c3cab2d0e7cf)) (Cert 0x7cb1b3f93afc4368d069c752e3e31a91b0d8be425543c56cd35223726ce6c6f 0x552f877488746cbaf31dcc1b8d2ce455140eb808b0fb96b42a5c4ef883be935 0x1414e98367ab4026cbe88cd23de869a5b7e44cafe7f9380de20c08bb450ad2a 0x2fc0341998ee3b887b0f1956cf6b96f03c21d7727cac12daa060c1543d48245);
  Dbl (Cert 0xb0cda286919f0f07adf2a6ea774c391483d848a2e48020505cbd6e6af009def 0x4568f0662c605dbcd431f0c92d2c788e557847ef4b38453b2a5436b479200f9 0x285f6e16871841bf28d52a141e0817a2e02c5bc87c0112b53ea4882af34460d (-0x54df6eb4a41c75839eb616d67cb31db0a252dd76e2af3f6026a479ac1fb21a2));
  DblSub (Cert 0x1ac13b474565ebab4a291d4f13ef3b150b74bf155e274e2f3992ca55395aa944 (-0x3a3a236c703924bc0eda0dd1946729915d07111db2313f2b1358d2bb2411bdd4) 0xecacb70166399ee0398a0b41a3a5e341fa7c7ada960580b2977d7160dc8a9bc 0xc26d67563a475065f761b156bd59606aa859bd12d016dbaae15adb6e6f689cc) (Cert 0x2f5b58a4e5e3ff0579f56536a57a055ba7427b9b604ab456ca538aa967f16c76 0xf71043e99e5737d453bc56d9d8ee17c6cd81e5633da25167408f323302b55f9 0x2e580d940cc242c0df531a795f7a045b7dfec5d02b170c818834dd04dc8e5ea8 (-0x6d79d9c7ecbe5efa4994e7d02aea6d459bdeb9a31f4e4bc51cadadec479cd6f));
  Dbl (Cert 0x20c75887b2ebe926ee5b8c2fd6621cd301bc27d28a3feb352674382c8a5e8099 0xf2f2751d43e51e9664a5f6f89fc3bd7f62506b2a54f561ed19c1ae29dd1eb75 0x1633f6b80dbcf736a8b9b2c4691b1aae0be05270d41193c7c06a7d31c1bae225 (-0x54d7d6ae6e3dd632535ebae9c186b2de8fdff4112df9f42e76b409a6422f6bf));
  DblAdd (Cert 0x7f8f32a1dd41280f6a5ddcb43b250b6e2c06f8e177303bcd3b648a9e5866325 (-0x2f08678d8e11809e6bc7bfb4ff1c5d41113ff4020a2472f3c23b8416bbdafb34) 0x1503e1adf727a46e289c5f022919a517bb8c1aa576491e5f53c08c48cd96a94 0x398c6a73e5ccb88009735607db65ad565e54a18e6a1efc0ebe6f3dc61569cda) (Cert 0x6857e4d7a24262084fbc51150c86ae5a90fa7137a273297bb527bc3798b7a49 0x12e76d126bb0005c25e1bea2da78b9fb943f60b573051cf9f058f5b4fde5349 0xe0fcad251c2a42b951cab853ff9c4dc9e3aeba187e37d5fe791333bc6b63d0 (-0x5331cc9a08402701c0f4426953b876b85fa0193ec55e62541bec3e30f46c588));
  Dbl (Cert 0x25a33be43dbd305d6e5279ef83dc28f53e023a9eeb4316e214bacb7e3e3f4a81 (-0x628715154c5b752dfb73ee7f629b21e5ded2571b1172fdc86fc02d78f786e8b5) 0x1d45fb23f032bcd297905b91aae04b19ed051be50cfc06eb6152a2c966da5e5a 0x1d69fd0ea03f5fabb67376480a8d00498b190096fa077fde699292abd5d0fced);
  Dbl (Cert 0xb2e09010c3a4b176d05b4dffb04ff19c074651a5e9980379ed7b716ad752504 (-0xfe0411f49edde9ba379b22d0d11230523a9d227cdf86a98818cadce5b3e6c3) 0x2953534eb70463c7577b49c40bdaaa91868075e31ad736c2a1ca838768abd86 (-0x627931d8cec1776ac50041ee1c6890f38a95552ca2afe42e92d0748d44546ac));
  Dbl (Cert 0x177dfe19815b9610c7654f38893c42edfd44181e19c4922c0b734157a0009b84 (-0x487ef10c47e72c33622b0793897c912a88c94f91d596f7eea338ff6764cac7d0) 0xb678937b8cf94acc753651b853f4ef5a54b9f221010bff40ad8fb22b18e6594 0x6e24c19c6ff6fd4f6ae4984acb817e4f6aa3cf5161f751a8f8e9cf899160ea1);
  Dbl (Cert 0x2132ab000ee733e0956aa5a0de76e2f7b7a2a282ac4225ba5e6e51bf29154b85 0x1a1aa257f34ecebafb67ee2ea33c30a7b6f4ec9fbb6419675e594ba164150dba 0x16c648f5fcfd9dbe4f671a4afb51cb9be968a22ba0d3f81286f03bf3294a83db (-0x111c45a9bbfe0b908d99d1bafac1767c5df86769241e5bf1203b293cda0e683a));
  Dbl (Cert 0x2cc9a07cb80bac914587c4b81c3649ed41d876c9b72cb51d8ee6d05a7c6d3f2a (-0x771ac5e02fbf09900f4a2acf31c79d7eaca824e4e04dc543da73bc31412c78a0) 0x2973ab1dd51f92632dec6d088cef75d16b0d9ac9c1465aa12c1ccd98e493b771 0x136ac4472c8e7233b8af27679dde332de34ff9f5a56d34bd16dd9bb738776132);
  Dbl (Cert 0xbb01df203bd4e74487e5756a4a6873bb7c6dd380b8d76f07bf682d0afc2e796 (-0x1e752fa89f05a2d912efb731870a2ad944de61cf6f268159fd00fd742ccb91d7) 0x2d2adb8e60f3d69e04f26245a2a765ec67ed759add23ebeb0343ec8d266ddd1 (-0x254830f4d177e0b25b0cb235e83476b781693b299248ab6203b13dbc5873712));
  Dbl (Cert 0x25524b55f26d4b6e0681d27e8dd3d089c5e220135f402bc419fe7d62bf678ce4 (-0x19b1c59eea37253a7b5e134c1d2e5aab3afcacde21f4108e1c46ce74bee4e803) 0x1cc89aee0d1f1557bc5df5bf0b07adffa6762c658770c58ebd7b8159a30abf10 0x58fc76fdfae8a5823bec60f91b3a7fd86bdabb93bbbebc970bdbba8ba242587);
  DblAdd (Cert 0x2a356134e36746335adfe91d9da6e183e05c2a9f9f9dc6eb27ae6cefed9aa4b6 0x113a21fa8fb84645e912aedc0364150c03baf8212deb053536dc2022a4fcd9c4 0x24d0b67c89dd7e617581918254565cc8b21e707057a48ccb0d78a2b27e2c5826 (-0xf40c5c815c78baee672fbb0d121c93a31c5518b9e4919e47ac7943a8006c98d)) (Cert 0x112c5b529296759b19dba85ea3e88a3917ffe1bad6cac3f5cc917bf50ed41556 0x1047eda6854206b9f0c7adf858782b97f677d6430a2593ae7e14309b0900beb1 0x6182d58e95c50b92f9404beb36d070fc80449cbaed9e795f90b0f19ab668e74 (-0x22a1e24c940e6423b87a73eedbea4e61d869c6d20c76ae16b4faddac4c61fe));
  Dbl (Cert 0xdd2c77e3c6c47059a69e7b00e760058edc1352d35b82755901f9cfa7e0e2441 (-0x7be9f4b9d57f6230589c68a643100cafcc70b3513764837f0572d8e6442e7025) 0x3f2de8ac5a9a666a8eb91caa3e514576fe2c633bbfc6ffed86ad18282dd2ca2 0xa8d828f8180d4e04c74844a3d97d2eb90bb78383a7d939c5d93dd5fca0be6d6);
  DblAdd (Cert 0xc0d4d88e1765dceca0dc639145fca56d087251456bd90ad3aed3de7fda6c93d 0xebb69408c65132f02d28f782eab1f5a7951561bbc23a1facbea0ab2771a374b 0x30064ba9607627a34ebd6a2ffbf44089f8b9cc9cff6611a957b1aa614c73552 (-0x9a7950346e216e06bfec5fefcbd18ea6edb841ffb43cad8f493ab90545afbd)) (Cert 0x240e654fefed4f04c735d1127662a892bad7042fd4d7e1fa1321399af0967f7 0x8bf27a7d62683432ea732a110960a3a3615bf31fee80db74bfd08ade0da2d2 0x1add7850febd8441ccf32f7f18ec784c7703c9a3be89d86d384a2f7865cd97 (-0xaa84aa12ef212b5d0a925a4c21797ccf453e9e391bc653a11e18136de47019));
  Dbl (Cert 0x2b0a1e3102f2ad680bb53e67636ca88751bc2bc0abd9d44895cec1856d467a19 (-0x21dfe2d360c02de1d9e5870b6666750c891ef83fb6eceebd7c2500e9adea538c) 0x26477a165a62f11ff87a3c5906234c81bb9e73a5a24fb0c5e46c0a5fc809fd18 0xee84704da0589a6fe7d42c46f953c3c327a5e008c7b83433d96a4c635ae3b27);
  DblAdd (Cert 0x2f35ef39a274d124a25ae648b22ab769021732342eb9b11235078c1ef01e9a24 0x7188b69a233fdd2db9d2cb4ec46d38f93d41442d2ac3f44b9569efad011244d 0x2e0ef1587ee40d79d19c69901098fa4c4df32228cf303e9454d1d3128b2e9acf (-0x2569dbe134fa1023c7fbd44605584cafeaecfb41f0e44fed6a4296ebac720bd9)) (Cert 0x2026f5a9418866ff8605eb5a8649a0947cf3a29b432e00a677f48d858cdd14e1 0x1fa58cf880013194d72e218fddc29faa509920c3164a24c7e7d4354ecf460a13 0x155cc300c2faf6e506f293612925d6d88f6a5f50054ff14bdcc0582464b3aa2c 0xfe42162cf8c366b75869f70a10eb228ab108d51ea682a3d4ad73065a6513e82);
  Dbl (Cert 0x2573b7899497d9c94c691765713c2dbe0d412a716d655d9a976466bddda905eb 0x11b6bdbbc23699a6ed4e24154fd3356aa58d2a3142797ab8b02a844c95f9f18b 0x1cfc3fb2515dc2e0980144452e97303b1e9fda42bf33bfa951424a10b7ebedc9 0x3acbcc5ca8eec68004988198d9e074e2f69914ef36a9f1cdcf41c49c7b17bfc);
  Dbl (Cert 0x27315efa291bbecbc2bb0b0633c5bfe76af26a313692c9e56f590b985ad657f3 0x13867b696868dfa5c843df0994ac03dfcbd512813fb25c250bfc4b4a0b850ce4 0x1fbe17e133c6290f3e664e14623ef553c0344aa29cd8c811b663c484c07cc43f (-0x6ea4cc55c60013f3f1cbcd6fa67f8fdbb765f6d16df1234ea5dfefcaa039491));
  DblSub (Cert 0x9a4ab374024cece4b81d3cfd30c52d2bf39aa57d7745b545f76af707115cd3e (-0x2a125f0d995503a570dec28a25a36e35a03b2e63408aebddc9780964ce1bf750) 0x1ebf1197378dc636ebad4625c26badd9c917e82fccea1d460f14f9efaea6048 0x3f9023bcfe9ccbc1c63afbdd42fe131d911d9612835725a880f53d43dc910b8) (Cert 0xd1d89df1b28f2f1e66bd898b96e5e2dbbddbf2e934dfaaa57ce7914d0174c38 0x20d128535a44330785a337a6fd0345f2eda67a040b80feeb7533982ccaadca1 0x38df9ee6a4504b9fb2a282b58a0797527058e3e1925a24f602a03befb430356 (-0x9644beb66de023998d1f4bccc7af11ee59a56e8596c450daca1224058e1e14d));
  Dbl (Cert 0x1591c927d1b9da65af4e6690d8cce217a770e1ebea2facc814c1977a9fea92fb (-0x539e9aea07d707e3fee0936f0b6d8e420b3644bb8ffa67609cba16ce7dcbe5b7) 0x99d3393896ff0d959d4f36cf0c6f3c3ede6a5c9b71acee87c97414b1c0be734 0x77dccb5ec9e1eac6dbd7c8bb8defd921d947347386a6063e811e7836f6f89ea);
  Dbl (Cert 0x1ce8a2496d3cfd1a699deea4de4334dae5a174e0ceed0061d14468768a2c08ee (-0x219aff2264ee0eb6b126697599b4cd9894287e358ad7bd513e494ee22fc4d633) 0x11450e0c6ed52c25a2fc557140a25e66a835b99283a941418d1a59226eb1acc0 (-0x8691d5e9e407c192374b2279a4156a77186b58ad5f1b8eae6cb532365df13ee));
  DblSub (Cert 0x1cf2905e2e1e95f5b348c8ef8c5a4b977e5433dbac461194ae0861b313d9707 (-0x606b86da2763b1a6c7f1853da4597c8cc96d2e54f9740844d96249296081a278) 0x1150ed4e9c29ec4ae6aeeef0f3283f1542479c40dbe0c6c295f4282c82d08b 0x15e9e2f4471ae8d5c5fc15f00ba27d4d228ca19e06932e0f2b068d92a0e60b5) (Cert 0x8f3d848787876f2d13086f6df1358ccb18244122badcf2bbc3d359f1eaff0d6 0x8769928e43a1dc8b0195c4abd63509194873341f4742c05327fb261bed1ac9 0x1a7fe28b68e9f782010b9e523b4945343f3ebf9ab999099a52cf563c52732a9 (-0x1e6e47e9398170be355d56362f309e4b6b45aa75b33cd8cb2078cdd8ac93017));
  Dbl (Cert 0x2887a288febab0ba4e0c95d119b8059e40d7bb09b0f2e60f1edc16c78f7cb55d 0x143f31b70900facaf15acea64ff14c533c94d1fbed362a6999de0c7c64a27674 0x21f1f3f219806b5f59b683d42624c86b9091addcfa222081dae92386b9ecf874 0x80e771d96f101a7d2791b1ac9bf96715b4f51ccf31d285e7320bf35a99c0b9a);
  Dbl (Cert 0x1e208343331c7d66bdac622db451ea47c039553a94fc2a8bb2bd9368d39f1a56 0x25de52464c2130f9fb58948e68d71776629f5c00aa3ac1998d7c64dfbb728059 0x12c188412cf287dacb30ba12bd2dfea8ac475618d3663f492b91216512871d5d (-0x19192de7093f917473a155072478f338abdefbf69dff8795a31230543d3cb1ad));
  Dbl (Cert 0x6e466e6aa4c26e9ced7a2c99fb1aa950ca0c2f7523e85d9bd5e6933692e8235 (-0x6ed76aa97c74d288dbe08e0805a4b4d7812c8f84b91a63555a49a96bcfd05fb7) 0xfb4b699bd487f399adcc87dc4590b42f70cdd9b4d170f8a821b2ddc287edec 0x15cca2b34d4760281432858fc35868022c9cb7dc94d1b8a2c6d68289e8e0e80);
  Dbl (Cert 0x1f194e21d650cba7ba0fb4f0f88c3e6ce0aa36d4b4a8925417ec717b2c9142ba (-0xd2e0465da9d55fd685571edcd01b15f6125f15c0b736b720e7b0e6e7b85df1b) 0x13fc4e9ff53f62f9ab805b37722a161586c139e46b4324c8acfdb385f2ff8ed8 0x31675fdbd8bff442e8905aecd5144cc796358e7a53b8015e8063e1be9cd947f);
  DblAdd (Cert 0x841243bce8b234b753217b814781e141052ebd1e2630e61211b0fe8517b68ce (-0x342a22d672e24bf2e74764c4b5525f04bb104de540bb9d772481de69b12752b8) 0x168733e51122bcd88e725ba94cb65ba3db0ebc9bebd3f09d8d6c296aac2a09d 0x3db9e45e63f8ef2eb06a65516ddbf3c956e2ddf207639e8ed6ee01f2d5f558b) (Cert 0x9a7e80c4ca87fb995f607fa0e0a835def3c71b2e2c8832ea2203df3c3376449 0x15dc41b85b7142c44fd972bea4ea23a9bffdf884fc1dc761203b1fe2fc47ff2 0x1ed3ba5490f086e5aee784288f9ceff6a18a1268283b0e76157534842908e0b (-0x50017b7fdc129fa25d7abcad75be4d0e33c03ef1edebaf70c99f32e57c6ca46));
  Dbl (Cert 0xa3fc03f7c380d5718388e29196bd4adf78bf51bb0a68cbdec3b3c05a5583964 (-0x34269441efe35c9d4df897cc532c05bcdc9b553190dfe3ca2ab2bac226f27a94) 0x22bb0dec59637b54d8b0785aa5cbe7605c2f42908817a857a1da24fde226f5d 0xf0a9a45eedd0f43b8b3187af5759caa62561f57a9b07c36fe5bf06d7375b72);
  DblAdd (Cert 0x14a0d4d266686803d1118645fb519a3c0498ada5e6e6bf1a27ab0d988a72f74a (-0x13fe2f0160804f1c92b39da4a1ab4f666a8412cd290ffb81066068cb5bbe7657) 0x8cb16c4aaa2f8f6a2a39bcc4996d5cd584fb88b782896855036d4843b495a60 0x9dc613de5a06bbe391a957511f0cfc10052cfd5f296a983f8601fa19704dfe9) (Cert 0x2e54a34ea44c81cd83b7e1111c51b9e5b6161c9b2137e261aba26c95839fd9f8 0x426ba6b8bea1aec3494fd2f73adb354be00e4b9b392129bea5e5942d56f90f2 0x2c5b71e868867ff03e82ac92ac198b06fcf7c67fd27e9ff8c9b33c884d55800e (-0x7f73c11c5ba38f35be4a6e6cc8ad18441618de3f871d9ebdbb04538a5a7d937));
  Dbl (Cert 0x3dab6f1821c1948142e0e615b211a11b6b67ff861af36677341a83598069706 (-0x6fc4b55781f23df1345f008440a24e2e74b4db9362e85f86fa690398d1bdd8f) 0x4e97387e5d4596e1ce1b07452e82ac49ca1f837cf3385388e6cd955e4f17d1 (-0x2c37a856bc58319b832fb8b1a71c287cfa9a38baa4de3e378e4d46d363b6643));
  Dbl (Cert 0x21b8eae4e3de6757b98e9886f6bf1893cc3e1914f22dcf73741007839def7dde (-0x7f52e36596d7a76dcc5889726aebb6779dd0020fb02f7290f6f1178b827fdfc3) 0x177fefc1c4e78f95ffed32c61f71de0a9f51ec67ede2b19d25fe13e2972d6ea1 0x9e7a7430fd5f2cdd17bccafbe3c3b6c57a2d68c31f97fbdd5adfdab5205862b);
  Dbl (Cert 0x188ac380d2a87e77f8c9e3490aca1d2b1e234318256acf6995520913791c0ca3 (-0x1e2f48a27e851ae2f05943fddbca3dd877596ec888fccaa6ba371615a04572a1) 0xc725225611254a5000f8c9ac0e99c284e19a9943b96d3a8f9f9a2cba0652076 0xcb34c0ec52e7741c6da9480208928447497ce18e8a45dd3312ae2d2c80430ff);
  Dbl (Cert 0x1b23bebcadc8e5ebd7908691afff3486f48303b9548d1fe1d4ad0fb8af6d3d0e 0x28d009eb3268b1a9c462b0665414fc2e3994d4b96c40f141d2d28a0d09c98365 0xf388297b955ee97d7bcf3124e86a215086085135b37db717d8bfc8e8f5c3005 (-0x6a81ae8e607d875673618da9f4cd9242aa8c877c7ded5643e4b88ffcb7124b6));
  Dbl (Cert 0x28a58b4c52a1152d2e5447ad3f391b9c55323faae03041a453b106aaf80aaa82 (-0x7a51bfb64c1e706782869415f498f75601ca58b02699690c38bfbfac8fc3d3b) 0x22242009f68f2479b35f46c7bdf72146ccad1fbaab7492750dcfaaf2fce59bfd (-0x116b65b047fed9c50adcf5ce4a6e52144af95f4547bd47b5da2599281a8771e6));
  DblAdd (Cert 0x2b070ce9264054cf132c7da27e69ad41a17f470c765918106f0fe18537acb95a (-0x18fc144b6d812419fd282b1aa51dd5413eeff146243df49217ac1d5609e9b7a3) 0x2642056e0309b9fe550bc0d66b75dcca84615ef1b33a32ec618071c2d4c74b18 0x1de04064190f44568bea982d61a0ff294ec977fa7fd2b866112da8325d737a92) (Cert 0x229dd3c9a98de1c8619f59e8f612354e5e111dff4cf553e64d9072b350ca968c 0x51508c944fde9a3a7bec3464a489a90475fc38c7893c11f3e49da3b886d887a 0x18c333d65204e338bf10c76add8a466a33413bb046424c03f1dce3ce2182efa5 0x33f82879d942aa502b4ca76d3893062f73d315cdd7c4698da9877a7ca1dc4fd);
  Dbl (Cert 0x1681385d16a87f9ae714c3c97588a16c1f0763d99a3b6e079d4e854eb5bfebe5 0x2110af8fe3492f1b0966f93c0ab51192f29cb7e7129e60f21a07bc49ccd8c462 0xa7745f29e79b432a0b3f186b2f9ab5288920d937f5b1d9002fefe92bc7395c3 (-0x104b3a59ff6a6c9bcfb02d2b2875c061b63dca8ef3656b4cb1f6b0c4904f89a6));
  Dbl (Cert 0x546d3446b52bf54bc92f02db0d03705c6b8c41f32ba27b01811428025a8441 (-0x5742942ee93d7aa8a978360b70225ba291e5a52d31bc8c1eb24f0cdc3a3811e6) 0x934b61a404651182ae478e259a31c7b645a15c652389eb65dc11539b4983 0x2dd7887bf25c54ec8275c7e6497932afb02f6a11e461f26a50738469889480);
  DblAdd (Cert 0x1653b64b37ee7df686ccb19e803099f9ba4f1d49765e0413b9e16162236b5593 0x889e2625fda346b4e4e31db9554d23d2d506906a94b65174a7765b913dfccfa 0xa4d1cf1297522af7c9438301633c99ba606b39e0130271cf600a13055a87fc4 (-0x8938c663fd70d45c78c22989a81ff2ef0aa634833980490d5ad77168088d446)) (Cert 0xb410d55e5b3fb04c4cd7a29a02d41aceb741d913664898b09bbb4c5fb8c65f1 0x6f4e95a5a2da3facb971db13ed1e02e04067f909000c2013242bfb7cae8b874 0x29e061d0b97c09fd5472f9621d8ca9a7b5a0e285e13372c1721ca07cb485eb7 0x176294c01a1f7228c35d21098ef24c1207d61f632d4af9dec872775b2ed2ae8);
  Dbl (Cert 0x8e6074bd0f98699517f9befcf3cc510ef45891cf4891aa1678e7e4f9071d008 (-0x1c1352c7443131dab71e3ea5440b5f626c60b8f5ce067121fcd453e303373830) 0x1a2e569f690707c6f79d2930e8d84dde8565db5a588de182bcc470f3521d367 (-0xe27a5dc0e58d38567bb3b1f291d3ada9dbe9b78e671857186cd706e63cf5bd));
  DblSub (Cert 0x206edbdfd853a8786580275b79f1c55a81a2f89d3efcd879813144d8002cfef3 0x2c1a7a1d74f0e363999fd9cab96c51873d4dd25a8d125795bcc8746980d9c55 0x15bcb881bbf20772493d611f4dca75e911736e8837534ffc14bd49b247b65f7b 0x6fa418be851473738634b06ac39c8f04ea151e1fd4764f0d273e34476ed996e) (Cert 0x1db50125ee86064a31d43fb6dfb53a4aed52043b19e6fba8b50428d315a2c09a 0xb114d345be8586a58470b25fdd06e38b11cffe037b946ede2842fda71091955 0x123c9a8bba94c22b09eb7a9b8963279b3d7307178edbbb958243cc4ace099f98 (-0xeac0165671f11bc7b46283e3a3c2a42b0a4b3119fa3c6b06ebea4b0693bf952));
  Dbl (Cert 0x148469de433349e58b33771ea0b9ee85fdc6dcb042395c2997218d2cf4310f57 (-0x6cc6ac32672f34ec1df05b6bc2eb8efaaa1d9b267e09174eab407a0d75db57e1) 0x8b2ed300609c71d23482a49f4fc0908aa5fd1c0c83c527317079f1e7427dee0 (-0x147f67916b7b4252d638ddc559f1ce86c5197fd93bc1d0249db002b771fd76a));
  Dbl (Cert 0x1381dfc42484c89bfb071f0ca874a8b1b586cb95191e0897461ddeb7d9ada002 (-0x73d286c76d407bdb67aa1758b0cdfc9bf06f2e35d95cb9dddccc1352eeb8c49f) 0x7dd1717e50a5d4b5372e3583c5e77a602b56c46137ee70cc38e3a2884e5636c 0x8dbc05a12c1a602a4ba3172f60989716e61e9c07b8ad137b120a3d22270f05e);
  DblSub (Cert 0x17ef79ae34e183782ed06fbeb8edfed41eb0b2ecf7203cd6a008da9cfdf7daa2 0xa65c8d1ef646248e4e805debe60ae3dfc8e7b95c9d04078c312ee782042ca68 0xbd6c1f1316124a024d211f3b360d13c2ec01cfdcc068e123c03528a4aa36480 (-0xc710167a28f510eb63c3655e0664c5e39b52cb788b3fbe3d6e177de1838581)) (Cert 0x11c9d49ef95bebdff968951c91d662c58287809d3223b7905825901ec7f5365b 0x905feceae73e2ebf9d692bb677b17e869978e283fd288b3d0279e96f683b991 0x689f285412f70159fcba3bb74130e4dd2d7b2b95b2d10e0844d893ccf5798d1 (-0x6cf3670712038dd779536afc40a36721775c8b7b9687cf804d0d7c13eee35ad));
  Dbl (Cert 0x2fe060d4865449a25fac15a720078957b977942b3bff4141526031369e808a6c (-0x68be5222c16ae474e9d9aea1a762beafedecf9feed575005486ca913fdcd2893) 0x2f5ddae17e0ace6fa7723c55e2e1445d2c7ad200867ca74e7ed3d1d9c440aa92 0x24106dc660982f60064b735e6e929a5ce2d985be48bb051732c0022b2c5d048d);
  Dbl (Cert 0x2e383c777447844b9e2c0b34be105f80aef2949e0210a404e8dfe6b4c9c29166 0x4802ef57225d7886143c8ae4c1bba1320d463a18aaa24dc294b8a0b10d422c34 0x2c25204918678d8c8ea917ea8a03c95f9c099c98e7c45013c049e7e7a397b0ac (-0x6146fba02f111996e94fe6b1a280124ea08b2baa6b8ec6dd0708df5aae4ea61));
  DblSub (Cert 0xe7fc255766a19c84f79327e0a31fd5d6f4c8f932706e2f08046f06b371f6af7 0xd4cf92705702ed1beeba1f213a51e6a02c13b82a5c3adb56f20f3816995af3c 0x4581c1531ffc6a3146a08bd3f5d8c97a7a23f3a344c9b2631e3da4ed47eac3b (-0x1c3b1584b3afcd2af7b80d940cb7e4ab045d71cc82d7871b153544d0782fcb3)) (Cert 0x140c80a69253446b5df63d5a0fb2f7a67ae9b0ccd288412e7f38365a44b23498 0x7d1cd56848822587b77989f326de939a594248533166df8021c0e15da71efcd 0x84e68356c36a6f1472036b7adf03d34d3bdc0490bb823423d19aab5b40dbe21 0x10ce9ce24c36ed3e41d56bd91411b5380928f35295a4ef1c058780e486d1387);
  Dbl (Cert 0x19397603d3d1410f35656d505cc8725316589a0815f24be7c86d725c8cc599df 0x1c0e94e8cae103d79048a31bc7445b60ee43b2757d9b99a08131a7dfbf56232c 0xd25fb1a6b94cc90f57b06fb3c3dae326d0b0fcc6f1a24b916bc34a25c75781f (-0x2c7dbee80ea8576aa88d5cf396a707a68ad78fa78040adad990b990935cc891));
  DblSub (Cert 0x24d0699538627119f8c26f42502361d8743a9dac3a26374e4161acc6fbd9d645 0x1632c0cf6fcf0c627c4fb98575a4cd5397a850bdbb6f407e16a53e5d77eea43e 0x1c01a0c9ce6d325a592ff2e77b020d9c604e8235ffb559b69bb16baa15b45697 0x104ce8305538f7cd72f8cc24210a08a6702c8e7fcd22b6c1f1d8281ceaf22eb7) (Cert 0xd52a7ab2cf1ba39f116e216ff9a69c1a6c80082dfe397703b0e77f8c5e73b31 0x115e3243b248d56015f982b76a0039c5d20d62331ee81726bdea31953b7bb5 0x3aafeea282862b9b70e4583c4c61c933766cc0e7501dc1f5954bd32be679ed5 (-0x84b94ed0d9e4601d48c5854166be00921ca71681c30eb8c01f5b78a9c0cc66));
  Dbl (Cert 0xb3467746d7953eba873ad4eb1ed8d3332bd82154b6901637aac7dc7de982faf 0x90af9b4ee7b52840eb73fc8fa22dc418a923043916f391cb3566af5ac885caf 0x2982766d6ee891a890caf7cebcf88557390bee56f93739f2c96f13e5739c139 (-0x1a8046a288b57128ed050d7ffdc8f150ed3382ec6f7653493377e31f75de6e8));
  DblAdd (Cert 0x1fef39b1c1507e4be9698e0bb88dfcf0c5b1204ed25c95ace2241ece5acc189c 0x27f21d9f9ff353e2a99081afed6d481dfda0c994d86f50464dc4f283fb2f0b44 0x1512f387d29bfa72ce39299af7fceceb5abfb0394e4739e3393c1e31225cfcca (-0xb73d1636168d5ba1c3e38044fd211084bfe54bed76bd18f5ff33acb01b89bbb)) (Cert 0x9beb4d3f1a0bc15bd147e91c7191c1f7ccc7a4b8e39758dcd777a361cf8ef79 0x55d37969f62c4009938ac5ef8089329e1ea32349378760c0d606ab23fc428a0 0x1f65fad502af12ac284e2e42356e9ada41f434be76781c2db79d06d98fda179 0x4c765b4f162339d044ef298427bfed19b787c7eade888a41d5a70f2444c4245);
  Dbl (Cert 0x116bb45e7dc83c430937a302145dd7769dc5eb0e5dd01b50db484199a85a2074 0xe736a02e5268425a20fb269fd0b8271ef65b858a73c3be6f4b8e0aa0c81a9bd 0x64576785bd1086923d344ef624a5f0b9a5d04f0adaed2f2206b6047db24fb15 (-0xc1f34320deab6490b828d7dc6ab117893d761a2bc2b80524b7d4462301805bf));
  Dbl (Cert 0x1538d182d1b9946b2bbe6c52b0b16d235c9c616d8d02180178e32a9cf1f3d840 (-0x431cd25090825d47e8e74b041ce8cd26ad6a3026abbd06b2a7e2775c52aff843) 0x94e87c381241b6db1e96c34aa8f4df7223a25a2c24609abe7ffade611f0ba01 0x975bd1f8a8827eb3e46967c3992e2a8c4449437652b448aa32c3ef2e3a549e8);
  Dbl (Cert 0x1bec8fcca4d6fd25e8411df8312caff62b1399c82fbbb68ebe093a833936414c 0x2956596d54e19e2a6ff33b96f7835001a7f0d35e79b500378b916f4788e11685 0x101d038636bb0c3816f659353717afc45b06176b8307bd944064ec8863a1ad05 (-0x6adf7201e7e242815dabaefe9a8faf020c53494b80ecde22a84631e1635a05d));
  Dbl (Cert 0x1f1a27d0d6d486be45b4d71dd939591367753b214e81dcfc76c9a14bbf968cf0 (-0x545707462d5804d7c42433c17c3fcdb59f45dd1b5c0d5c8e90a6b03eae1f383) 0x13fd666d56ea54b7df95bb1be777902b1a6bd63001e26ac2e8405bd115f5bf7f (-0x5f757db6b4468307d831ef9f02172fcbb8f144bd7872f6ce31a827503add0));
  Dbl (Cert 0x85ff8abaebca0154c9cf86441e8d02344bb8e000aa4a4de118afa5511abd8a0 (-0x234b11352a252cd11b6244a8fe9cc69b9d9e113f0de3102ef6fe71fc08f10d03) 0x1730b65c0e3f34c9f304642b9fe7a956d089dc6ab7923e73051f9733bbd5608 (-0x1f6178300834a46132d8eaf34a74823e3c7da293ee90f9f9b5f59902be9163b));
  DblAdd (Cert 0x55b407f5375473756ef1d205196b18d0435d7a39368539b682e5996495155c9 (-0x4ec131d533f811092bfa98f080827a795fad0181711169d6828a94c62e01d754) 0x97c865db0d2797e8cc8ebd75f32b68bddd6e3cbd41214f5af6b5d9d2dec51d 0x367364e45d99ad0238722bc718b4221b5007870a5f104a4ecfc939c8af89575) (Cert 0x2325f3bc6168b9fa50565fe62661b755795dafe08d5a156960592f3eb416989f 0x53c081ae02320ba6ed0f41a7842e4657d04ab6f2b5dac66dc745ccd17761f24 0x198772e171a3e418c6735e9eaf2f2c0fcd9bf2aad2533ae733f3afc59927d172 (-0x33957e75d6a6bc1dbab300d24133c62c8f1f9d5291404c1d54adecdfd8494f8));
  Dbl (Cert 0xc5bbfd89d7b9a07633cd1489246ce3e0370d543a9fd1b352e2cfe96288f12d4 0xa23f6d78bc8bdb4f3d515a532b49ade562861cb1d183ebefaa97854517be3bc 0x327f6e1396425cbe856ec78b936bda3d692a1469dc9ebbdf772fbe149b57e25 (-0x7b9668f689ce39278e2002bbc0679d8ec1eeb502c1d1c642db9b88293f5b0dc));
  DblSub (Cert 0x27403264265db5c4084c6526494a519854b9051da86f3820b33fa20595d3c2b (-0x6c764fbca972b0cfc97ce92c47f7931b89cae35ccc3fcc2e29b115b72002ceb1) 0x1fd62048960d8448938c2889c052d9c67e9332912acbb33ed76e5b0b453584 (-0x4ef4d2acbff9108a336ef9b9267ac82512eefd40fce308ea8a86856c676ade)) (Cert 0x108b151c41e6f90c2af022a5fef31077de7913b78298dd9a13e8c67eced66111 0x1066a2f1d16ff68fe479efc2a0b962897e62d7ed1d552043fc0b8208425bda2f 0x5a7cf8e804d852ee445bf99994aa124e2cf78a0742865767412e9543f412d65 0xad2f8f32ab5df401e62d81453c0809fb33ccb6ff7b88feb48c26302f67a85b2);
  Dbl (Cert 0x2ed438b1ba262d57697603048208e1572d2ff7c5a4f6396732fc789b471b56af 0x48ca75dce7bc4fc8b53df9f214adec92044d020faab3967d650157aff827db64 0x2d510eb042cf73b13305358e5989e08b70da0628c2bf6a41bee70a05f442dbf4 0x8762c27f191c253f0ac4bb1cc33b642d0b05a08c42b390551a21e75c9d2e3ce);
  Dbl (Cert 0x19c30b86b0094a6724c2f2bb95c4b65e96d155f71539737de8630a1c922527e1 0x2cfa1f2c9deb2962a666666b82c380d5045f96af9be2c67d21fda8cc9959ac0f 0xdb6f104677c4bbfa3230857cf97a9e270eaa98de31b99096dbd870cfdc1234d (-0x4adc95aef01ba1734c2b4cd5509adbe3d864eb810f5b39e8bbf6dafd876442c));
  Dbl (Cert 0x14c7819355208ff8db1418cf55b961395198cfac801613656d450d5f94b6ad59 0x53b94568e578372edfec733b510869a87b5160df5bde29fd22cd8b2debb7b68 0x8ec2e9306e911eb41174471e0b05ca20116dc4b1d6fde7260c59e45ee821479 (-0x1a23712fedb241630547c09e0184756cd53762c2f6b59f7141109d390ddb3ce));
  Dbl (Cert 0x13e96a9d335df59b69d1aeb62b47dab759047eb9af9b24adfab250a38f148f38 (-0x15ef9d665f6c5da72932627e0de4c9c1412fadbf500b39d58fc0207e5e43ad0) 0x8316f17b4896093b98979f8afe74015df06aa52826d35e1e52bfc203842c46f 0x2c34c629fef23913a05214091aad6ae4b97613950dd95e1b9e881cff00f7f7e);
  Dbl (Cert 0x1e5f4146c84dfadc5e7ba6531a3c70da5017c9da4c64e2604992d988db02cc19 0x2ec50645a98ed80d52c273a1647637a34e81d7dc0e380b64134fcd3a16732a4d 0x130ff8dd2acc44f157b74c080522a7199801a5b53c6c6ca02a10e134f0197df3 (-0x2ed0e140ba7ce7605fc6aa82973be93e3b52c8d0f8582301f5bd3e92b8fcce6));
  DblAdd (Cert 0x60f426b8aa97e79f8114715704ba9998194b25a6bbea71801406e4a08235371 (-0x11ecf5741998d7d4f691db4d9b037aed040e7cbc662078074b3b32f68bbcc5da) 0xc23f88431a486d600cfe91ac792d2a877da949d64d072c0889d73e6106b3e8 (-0x197407c95f2a7f257857e6aa154d1be959bd86629070c7f0a3b25ff9c916a87)) (Cert 0x2fb33a5c8bd2db68f3b32eae8ac6d96bb95372a011e3b23027ac34bab0b1022b 0x1e5fa78cc8b7f3112adeedea31e2908ac7427569a4f58a72ffd7e75c46a83b85 0x2f04ae404cddc5e0d72aaa6b7bb16164bfc73a1c3a18075bc2443e70cfd080fe (-0x4bc389ccc2485363152bf87795c7a8ce3782a2582fe0a6fa0581dfaefc3deaf));
  Dbl (Cert 0xfb65905b280889cad3c58604001c092c43422197a8ba22d3371b8ab93fb3929 (-0x3e66d827ca2d056634ebf1048bb97b9f97cabe038b2e1b55872ed7bc61f77553) 0x51a032a37ba57ee5edbaaeee2717b6da1a214c646e39794df1e2d51580154b0 (-0x31c68c842af64512a7344202270987ab3a25711d8b936845be2c676ac19bb98));
  DblSub (Cert 0x213c93a2242b73be0bba0cd3c7bc31ce5ec20a2a30970b58ce134835ee9ffb72 (-0x4ae74776b5d9d4cf60151000c74a091677288d983c03c06021aa96f140130edb) 0x16d3e35e7f277823742f0187c1a54ba41bed28854ecaa40d862b42fb080efa61 0x5e1d8658a1acb00121c7018dba6f28e5d144d5a01352d6482668f8374ef187a) (Cert 0x1364ae972701a0b95c160d3201b5adacba907a25884e561bd9dedfb157d3f7df 0xeae8369ee4dc8986527226d82af378cb91e81c96a7cf2a2f410b7af19018fa8 0x7c59fa69767297d66d350d22908d0dd2b2bdc8ffd2682ece29aac9b55962fce (-0x3b669855e81a43d3524bdf3b48009658f7dc0d086c6067d168c80f6c62c34d4));
  Dbl (Cert 0x83e8c0a0418543570961e15293169b092e7d9459c121091e54fb004c9a8827b (-0x729b2805248addf88e55cb756c6c485baf1b83f79db0d82c33a15783d895af03) 0x16790cabaef71049509724cf39639e3bc94c1a75ce5f5288fd8425f3964ae8b 0x42ff61930cb736b58a9e6675a6315c62672ef979e0095cb3c007b05b94c8c30);
  DblSub (Cert 0x65be273659fcfaef301376983571c4118ee2bf919c43d2110dfbe90e2811b18 (-0x129356cf74ee76d1de16a15390f550dac1d5e5e134aa95f464b0faf9d4e233e0) 0xd5e97cf0f1e861f5f0e36ca091f4c9252fa1d7be7c8bcf8797ff51815e9648 0x129d3930c76d084079ba406fb7bff96dac0482713cc4b53626fdd4dd794ca5c) (Cert 0x2959034a2c5c3df4d069395f86c2ac7d32e63a3d60bb78f6ecdbd3adb45650d1 0xaa6f67fc0ed4bbd6e697d540dff722e41af01e21d129e793276c3ab3c0665ae 0x235436d5efd5a6e70c0ee56a3bd0bfc266020dd81ae0e9a040ac8113a81219b9 (-0xd7850f381c113aab434909d995849bfd8d8037b3da422bc0b06a3b63df08378));
  Dbl (Cert 0x2a365f410ceb2da8c0bda08d7bdbe662e832004d87445916c6502e77f8a0b163 (-0x313152aa6dab5fc6ba73982cfb47586911cc79316797a7f8272818d2d91d0f0b) 0x24d271adf79d63accc038cda99ba872ce4cb88e0324f3de9fe76aefe4f97c66b 0xb35bb5de441fadd4769656ad8a3405499facf53d7bf20528c16bdc691c4050e);
  DblSub (Cert 0x12cab26b0935cc772980d1825d541fe8c81925686da46aee5f2496472878e91c (-0x87a6a422fb50746fb51042976f12bba175a496f7b3071dd9691259cdb59b998) 0x74c1defb29e3ee2723db60eb1155122c0123a3a06069e6362d2db8021edf00b 0x1b6d5baad3be6344611d6c9ca2a9bdde5a050c3409057725c249fb7a84f5a50) (Cert 0x12c3a87a92c977ed362e2649fb28dd7064efe894d2a6b01bd6cdb0fb8e8a5ff4 0x4409901ecee692b6d11f7cdfec8e94bbeadd362b82fa499070fb9d6b26bc12b 0x746a77b5103fe66c0a6c27461b8ebe49a3569e9d6e4b3f38ec0e8ad54c4f6ca (-0x43c9f709520955c5ed015e2203341e5e917c3e3422811f6f52867550c6aabc6));
  Dbl (Cert 0xee55adc753da33e6864ca6e343196a4b31f6e01e7bbef72a834a320347b69 (-0x1da55b3642e8925ab10af5e7f33641d9c423363b43a3d7812a9afd1190856d0e) 0x495d29f0262ae3c37cd43fe7a123738433267a75b6cc98e9c47e9e5347d 0xf75d266cc64609973a47d51bd862616aa3937198c2e318c7e61128cb3bc8);
  Dbl (Cert 0x17eb5c9cc02b6f0f062213468df27ba62dceadf3a54a2089ccd6ca7935720f02 (-0x71cd1df19c8d64a4b79a6c7933437371f3585cf7d4ccaf8279fcf9de5d22764) 0xbd2b08f3f2bf3adb7ded1a61623edf80c99b93247c14dc0536c530564f0cfca (-0x4572d521bc736e762b7f674e36d8b359000b52985123823ecbd31b0c4151f98));
  Dbl (Cert 0xd42f706a17586ac110cf01fbacaa33f42d43f40aa447ce3dbc4770c14ee531a (-0x183ed400009e5f399eba9b9034baaffc24682ea81e07c7e9747e2fc3668ee6f8) 0x3a260569d49c8eac692f053c17fbb26891088e1b527911cab8d9ef206290271 0x6917e075cdf9de87a64c38a0a2ac0dfe8d88ac8be61de1ab7cf4b4ea016afc4);
  DblAdd (Cert 0x2e85842501fb130ce5c095197299c0fb9b5015f4611480c04df90b002f266957 0x755a5bc137304a9aba493808144d488bd58c96d3697aa3673c3f3388398d28b 0x2cb93b01af88c63465d6545f64e3d2f71d5d5cff8d83789c041c9546c50a7e18 (-0x18cb6e449bb3ec5b88f82cecc16108eddaaebcca89683209b2bddb551163d23f)) (Cert 0x90b7bfe73ff65ade059b5efd723d412ad7ec225dac9a37202342f6883f67d9d 0x57cc6ebd41129ead2c6ccf7f6b82689057377c8745f90df4055a54950b014b4 0x1b0c8d914ab06d97ef6c9bfe72bfab13d46960b10b538dee456f4182d8f8a10 0x1bdc6bbc90789c30cd6c802e044d4a4009d43a4ca47788eecd98e5a672aa3bf);
  Dbl (Cert 0x5fd04f17c02b1cf2fdd5857255277679047943e9d66c6afadc1d0d615239f4c (-0xdcb0dd4a82ad05743fccbccdb00824ae04b40322d25da844c70e4b64814bb23) 0xbdb4fca6d581df6626aee15fe5ab21999aec9a9ef32a6ac864ddded3e13735 0x99ecc267b272db922f740afab043c0ad6fd3153541bccfd969ed2e7a7345b5);
  DblSub (Cert 0x20a17a5fcfa32732ff38e78f697f0f4d4472ac2334a3144c4a3c6441528d89d0 0x15387b3b087b98be8abb1a22fa5687a80e63a1b049e80bd7d9c66f077a6602fd 0x1600c77b0ca66a0b832158500a90be3d737b97039e729088a07efe7f16ca9629 (-0xcee9d0d349fab486bdd3efb986aabc2f432e6b129d255e908214dd2c18ff28d)) (Cert 0x28268e4951d1b935795b61649bf918ae4377eded60e1437789a463cfd2301ac4 0x1c8292f2a9d69b393bf6ecad2b02451f26afb3fce16734942b5e3a9429cae715 0x2150197632c1245141558172e4392dd95ba4c8b1c64256b0ed1aac93caa9626b (-0x1f7200c1752c0d67a06b958f38bd60d6326ffe2ba77b773a46ab863eec5889c));
  Dbl (Cert 0x163ef270a27f33951893405c781471b4a66cc5d8f036f8a42a3c2ba66d6f4acf (-0x425d36e057033529ded5d74fee6b7a07463628cfcae3f89f0e98fcf052cffacd) 0xa39fc99621149aa2e7d3d9e3f5cbc12de0f56ea25ee8a1a85dbf1a1210b13d7 (-0x4e9c1cfd45fdd5c8f75a133b9be7101b2e33ac9b6ba59846d7e51097082c39d));
  Dbl (Cert 0x2d6b951473841ab29fa792919c1cbf9fa1bed1e59db6b7a898eb3a76778f3344 (-0x838e732aff665f4a25084796b7445cdcf5c05c69dbe088007b9e27f6ca1d9608) 0x2aa1925df4220635f30aa2143477eaa5adba49e15eda7ba15b643993ac37efaf 0x161a662f4c82325e35675c03486a6c97c299f2d21c2f9125e534c4de8db69b6c);
  Dbl (Cert 0xe4e6ea97f995c4a515a5791ad19ac3d036b014dcbdf23ab0c0348729ff15f70 (-0x714483ece6b11fc5d7a2fc6211c4be9395b7381894f1ab58976a01f4a8f5c53) 0x43abf68804fe2857a9a82f969f6e9c52f5ffcfe5e7f3c527229101411f09579 0x3232a4a136293f7bd3f1fe882b1e15507e449f230147fa621dc83a59ab22605);
  DblSub (Cert 0x2d02118e0cc460e61bf239f1cb8564dc6893948059a316c18a463ab0234cfb6a 0x237b859d6d7970f329a7eaf5ee170a2cf2c87044897f6a71b022e97d0b06ca15 0x29dc66c0c1ccc5d035e824a1da07b58641dd345356285293a818078ed8f820ba (-0xb19361d6f7f66b609600fc6f9bd58323e225dae2877710381b84151edef0dcc)) (Cert 0x1e42bb20ed8157a9021c6daf00c92ccaa0f934926a2d4958b97a8f1682cbe519 0xfc074168b5f1a9537e35b6bf04ecf6ad0216cef6b936795e0d59ec01a467b5d 0x12ec3b9a9ad7d8e835be946473b009cff4095e3f079c3dfd7f7d2a42a513cffa (-0xde5d49984b94c236fc595076514375ddae0877f7846ecb531e9b2407c31f456));
  Dbl (Cert 0x15786ba9e064fdb516efd560226f113118e8901740e4dc04e62770f2102f9193 (-0x71c8dc45250d03bab414428c6cb70b4ea14df6bcc00a3dbb384d1ed761c4edc0) 0x986a43d7a72aaedf089a8d518ffe4ec68f26f04ba63975bd55ef3296e97497d 0x11888ac127e96261db1377c7b79f0ac8c5019eccf94c07d36a000855d5d59840);
  DblSub (Cert 0x1d61538dcaa5f8d6ae004f2ed641650c99c1db2b4a7b46ad74becd25a3b5f221 0x2effa94d86b1ed9fb7a5d4a58eb1dbdea2cc1a66d16f9fed5b19096977e01120 0x11d66e6b153cd4ec854ed34adfec6475fb9992369a8655a24e17e2ca35dbe424 (-0x3b61ca88a7cbcfcb10ae2c5982808beef6b216505cdab10b167c75776e98d5d)) (Cert 0x11f8882f89044336779baf8fea571e0b09e1e8ece47baf2c64c799b1fcc0e3de 0x533d743384dfc83da8a0867e43a9bf236922266fe091149ebc8c229b506fc8c 0x6ac751b93533ee817bb5e46cbdd7a529408a9080feaa5d1c50070d0dceef76c (-0xbc2f45a266d5f3dbf111e85ecad4b3bdd4eb6dcab7873a6e77c787932fe5dff));
  Dbl (Cert 0x2cb20b996be49d4b6e376b7ccacc54fe5087757f85115d1792a9b44e499966ed (-0x400a653851006fce1482db26032e3c004b85901fa5ef1226473828b9cead1842) 0x29481015e5e658e5c052ec0acefac906fba7d4a4ced2595b8baa7cceca19a341 0x1f8c60dfcfda311cd7efd144f7cde1e717cd3dfdb3e90e8b7682a42018ba6777);
  DblAdd (Cert 0x18903b02b9fb89a78cc5de8caeb06051c41be6c768af9e6908d5eed90320befb 0xbc9b14d2d75a4d453229b504a7b7c21d4eb22dc7cffc248cb76b66f9663c4 0xc77de4aac3f3aa37926a167995d6d925a3af709ce5451e2309febbb6ec9656a 0x47047b6bcf1d9ba020a64ceafb2dd4f64c980708212a9ced2f1cc39f5b221b1) (Cert 0xe79434d77bfe39dba6eeb39325e847ccbc56291a3de2d189d51de0aeef8fcc1 0xd4c799abed0b6ce45f660b1346ab129562d8c36acd63f31a7e6a063d0cc252 0x4543868247f444400f281a2788062a1366ec25b818768b28cb323cb1285cbc8 (-0xb4e1911292f53ff4411afcf069f73bc0d3b7bbd7d8ee8ac80a81ad8dce8866c));
  Dbl (Cert 0x2016ca70adbe8dc4a8fd5ddda60d3444f0da5af6bdba5db8f6fc8867d7ddbdad (-0x652c0d6f72bdc1977043f3202822a8b33cc5d29f1c41154c6c970799c1f421af) 0x15474c187e3b091f36982739492c98122beca2c2f2158942a9380992409a8459 0xe072cf11536a8174506373d177e8056f0eb6c293cd7e2dccf88a2c879d1f495);
  DblSub (Cert 0xcee1be0fe8c9381305c89ec2436f2c102cb7b0feb731c52e6e81c26f7b44667 (-0x13d8e6bba5417cabd64439bc3a7119368c9777f87e6d0865aba174c1f8671fec) 0x37472dae9d8060cf815adc3b9c10ac7c1b1a3e11cc9c904a031f57a816dbbe7 0x41a9c71c54c9d2f5a9533e15b278b965b24a262f1af10daa9aff4f4daaa7193) (Cert 0x10d9143940be63d50a0fa24dac4f46c4ed012f160e7b1397d8bbc82912ab4b65 0x16a14b6ed588cfa758b75366de34892c626598d4fb12a5889367848502c8db8 0x5dda13c4bd472459f616be676bb70b989c287c38f8c6b4a08b7d80d0d991f0e (-0x9dd7cd89bed147ad4b27773af70304e3790085cd460669844f63d52017abdc8));
  Dbl (Cert 0x2b4c0b755b1fb19b578b4f70b7139603f2201d7ed40ee4b3ffc2198deb792eaa 0x153dd4502f1382424a0c9378d22d7cce4a23be06bef0ed9d9888055d73a55f74 0x26bd191253d9c9eeece96108df61c3c82f61b84bd5ec5bf54b38fcf188aaa82f 0xd0bd42ac90bd257550dccc88aa16cf67cac7047ac8e74bfa711da332970142b);
  Dbl (Cert 0x29c52767f5d573c6c27b4eb23c1b5c55d3e756dd059a8251ada15387dc655caa 0x3a0b18eea0b76fb56d6f0dc51a6548023804599ef8668c59cc80c9f83edec45d 0x240df519966de4e3fb1c8a2e3f8885ab1e8defb4c2c08104fd9c75ba9bafc9fe 0xc8e61bac3b3468d98af77277141285ebd003332dce1c2bfbdb95becd3ce3ea2);
  Dbl (Cert 0x559fa05966782015626d67dea2c7ce42092014368e0e9d39dbea40c82f3ec8c 0x9693c54aa9fddb40d4be5502148bf0739c51390181cfb33b3061e2dae06e780 0x978028268a2c68a1d103f6c3296629357935f668af7bbd5828a5ae8525fe21 (-0x120536973255253f5b2e76faae07dc5d2c7bc03fd7313b727ca02384c0581c8));
  DblSub (Cert 0x8c57db55f0530c3fbc28dd581ce28ce3b20b91b85b2d6544956f2600da99c21 (-0x921e79956858eadc2de8a8eba4494385fd0d923b40f31a9f08fac7c2d94c5af) 0x19703e993e2879c79b0ef6929f55b96e32b4a9b8b373379e78d5af926448801 (-0x2b33a33cec298ae8e0596b8f6607862f25de903b008704386daf1df58d683d3)) (Cert 0x24cbb84174a72d72627cd325e2a769658770390cf94052ca29be0c16f0faecf 0x158ea3a69a3e5d4377ffb19a7af65b241bbdf55981b8fb691f066969a50761d 0x1bfa7d6c235007e37bbaa97194f87d831735be9815d3041380388c7993b76b 0x225e2fc8ae642384e80eb4cd9e1db284dc119a31edbc1e9b7f8042c82ebfad);
  Dbl (Cert 0xa570d3f82fc2fabe304fbd609345c8e6dfebae0f64586c502d7996fedb5c229 (-0x1fc3dcfeed0c768311b375baf8e3e1590449f4afb2c2c70daa3e07ee91dee8bf) 0x2359ac6536eb8284668f89ff42b38dfe40256bab46bcaa09f4fa375d5534acb (-0x79f19ad1ec860847b055d4e34c9320202e30ed111e0891fb0a250408ad186e));
  Dbl (Cert 0x4d3096d6b58e42ddd2eacd4ea922c2e8e8da2fe8cff920b905154a60e38a351 (-0x2d5562601e267f594a1237fb1b74c9ce51bba70ccc630118af958e97ae06074a) 0x7b201e5105ecb14b396a2daba2b6929e4602cd5d26c708d82feb1233989ee6 0x3a5a5faf3ec698986b4aecfa8746d64f2ac5941c78c1300ff7b3060050749a);
  Dbl (Cert 0x1f0d4dfa53bf3e331e7e21f88e30fcfc5c0ed7c24d94a7d328c5cc89e680ec0f (-0x19eef4abae90cf562abbb4d37db4f578465d565565c706c7df07280e9826366b) 0x13ece4fb0de23111edbe716b327dee9780605f2ae4e8b0d5dd6fe8be5f37742e 0x9a54d92f7e4b1820385b4e29bae4c03149888b0096c9e8446e50077bca1d6d0);
  Dbl (Cert 0x20ba5a2afa0cc18c44b8fb374f3dd2a0021c8a9430662c8dc0f997ac7a6e6b0f 0x3785ec4b67773ba4abbd433a5343b3ede8ac5e824c95c978810a2f2dcc7aee21 0x16225feac564fb23dbc6c6e529076a6fa63371ab0338ab9640753200d7698a63 (-0x1a53a9f6597b79bef9892d47540ab49b4c8ce340348a9d3c79703b8ee760f22));
  Dbl (Cert 0x14c2ff50bddb4c45e9386c1cfb8d4fdd522d9022715fe60fda054503fbba792 (-0x901721f1843d6600bf10a3521f75abbcc2ec672d6f2f1bbf8712a630282df74) 0x8e84fb8cf7bc020b349170286c1aa3f2c29408ecd9115052b71ef4df76b4b 0x571bd7c4ca40089165aacea8a8706cb2e4b62b87f416533f738fa0f6673570);
  DblAdd (Cert 0x2f24862b88a4c82f96cd07b6f066148015f40507d9c6187bc4bd3a600a23e5a5 0x853ee4bf5b52f3d023d34e4403f56574643868824f2129f836ac920eeb993f3 0x2decff12de75e431c85e007def04086a5a184d4a93fe18be956073981dcd83ec (-0x8c12b5e4594ae71946586080f502c76189d534b1a433ead6dea6a0387bd98b5)) (Cert 0x15a96c77d33116f9af70a791cade602c847ae9cc3d2f871b71b79e5ab3d4576b 0x41a70217a78d501246bcb5ef02549455e599d18117bf4a1d37aedc68a4ded96 0x9b25192ae878d74cdedd63da058fb9a1cc07ffea4e476942b1860383f1fbe95 (-0xb639fbeb83933b2a096b594356ad2f75faf155e506f2678b588b508a97e6c21));
  Dbl (Cert 0x1d33131c04cb6290aa6f9c38a372836dc45795c131da895a292d7a624888de01 (-0x14ae3e2ca482344485f344be37b36227c32351e440d3967f045fa0b4caa2bbe4) 0x119e713850accb5bcbb068feeeb045e59770c1e560a4140fb1bfac85c684ac21 (-0x33fbe0c2775ce8e2151945413d3f1f5edba067ecf7897303e9ad11577ce054e));
  DblSub (Cert 0x2077139c4fcab629b79eafba649dc428217d7e51fc1e6a63fa086e77793f4a7 (-0x616a4151069e7d47b57e0a75c22b572e1a4c071d0ad8b1a49eaa1a6cd235b210) 0x15c7bdd2d7d317e792f1a1ef6f0974c09378ca5757ab6c235fbaa1983ab384 0xf88a621e804771175b48fa02c1433adfe20d44797a17928a645544665b9b05) (Cert 0x12ed774a7e9e1dd2af1b1d61a55fbb84f532deb54f0b972da9e4ba89913b34ea 0x6962a91c6ae94575ab9dfb642aa2403407b47072ccd704b417fe705ca64bf44 0x76737caae4655d6586eedaa01a11ffa387b9959d8a512f583cc16a723b0c796 (-0x9b3edc7d0947bbd20e42e086805ac6cb945e1ab16954b410c528514a09b1bec));
  Dbl (Cert 0xfa8c8ef6eb4f341232b54a905a816a0de6171ef1190e3a242f812f4adcd2125 (-0x66ca4edcdfc3796d77fdd8e84f07b4906f0c710e26b9dc183a276564e5998ac4) 0x5113844cee82df9ef0318818bb21c3d139563a19b9e0ab9104935e1b9159486 0x5cac703e0da8900ca845903738712905d296eb8ab177a985b9d9073e3e5ee75);
  DblSub (Cert 0x18dbacddc5f44a1450bf0fa73f0f90e9764dc758e3516875d3989fc567c92f12 (-0x17d86bbd9945f9d84b2a350b4e68d49c76d7f08fd20b17bca60205725f1c2be3) 0xcc4eb1be9bbb8fa8034e65df0294c8403de22e408031ab30a3dbc5ab8315b87 0xc6539d2f679b1f5aa222aa05753c593c0fae2f623e2fb627e472d488b03f85) (Cert 0x25a3afec94b536c2798050577ed2fb880073359027127076d4114c28b83df45b 0x114c472dbe8208cb15ae4783c34c795b8e021b582e5423904a4bc9ae4a97cff9 0x1d46afa338cb54d9a2185e1122e5befa7b852ec293f84cef13f525d0481bff17 (-0x5e68710ea798b771c55ecb21b2f6abb8abb5c29839e6e63e609ebbb57cc7174));
  Dbl (Cert 0x1e3153eb06569a820de709291937f680bb034df908e27cbe8028a05ca8ecf182 (-0x2a4766fbcb76169330f0d17fa0cea3e839190bef0158e8729c9505e91ac5ca94) 0x12d67df1ab3663a049c96026feced670b453d939fe5c73e44a8fca837344fa44 0x6ee0182bf2eb11637e8fc8f9b9f1fb36108e64e6b046c9fc90b0e49f3469c20);
  DblAdd (Cert 0x2e7c5e7e2428bd30261b44382591ddf841b28c31a62642186e55cd6bf6a3e052 0x2374f911da2c7bb548547b567607ae30c0e0684d791147399f5ba302da60f668 0x2ca7a66f54fc4f13ebdde8e21493c039299db882ba9464e518e70b93fd3cfd85 (-0x5d19f969b2f83dc299317ca54ad1ae117a3565db72af34935fe49937417d497)) (Cert 0x10bfa584607f1c4fe045fb184d4310521338d17f566c1d5fe2db803b16a3ddfe 0x8933e7a87ba9f7ad694f634a146a2d593428b817d71fdaf59d06ed90d27be85 0x5cbf91a18751e0220271aa6150d5a6cd6c0bbfd037a7b98aaaa88330187a29c 0x83c9b355edd2d9bca697781a805e0bd97a6af1562a34d1e2e3d8f27bd5e59f9);
  Dbl (Cert 0x25cf75bf4e894858e8ee718333db70a1afb44a0f379e06d0d88152f71e02588d 0x3e797c0611abee3fdb85b0b54bf03f88cfcb7eaf44cd2b729c7354fa15422b8c 0x1d8aef1fa6313d272151c3ffaa1263b9b355ca79bd827c1a1b9650d6aa80811b (-0x154a0a147292a4084ac382cbd1d408f311df0ad52b276de4c50781d5b6255b44));
  DblAdd (Cert 0x285c57642e2618690ce66ec1ba049887b6b1321cffe7d151e575a9348d393b59 (-0xcd81cb1800aadca7c4f7d0e275e708e955c12cff721d32733c9ec7426a2f8ec) 0x21a995a55a5cf057cc462afe3ba1dea4df73e7dbb16429023216979f987ce79e 0xdf661b1abbdf1013cecac9d7cb2cb59e86f524ac26999225053c350c0aac90) (Cert 0x4263aa589b6d0ca5be092b5de2d3de3d0c370ff458a3767b5394622f7a89cd2 0x25496543aeedea6e4da7859f0aae143bf0c2460f8488047e58e64269dab90f9 0x5b148e60b32e31170fa19cab7ca1202a0d7be2240c6323f815f420d900a8a1 0x18a3523f7761622c19b0d71613f2e57f24ed67656081a76455c279ff99041cc);
  Dbl (Cert 0x11421e21325ace92c5a5f15123e3526ff5815a88375d49614a2abd24252cb178 0x62284d3bc5d59dfa102acbc6032b25145c94e512cb7e0f668d43cb9a834ae05 0x627a91061f13fc3e893eb7b4d1f03084646d27c4e3fbb0ced186d6a5c4b78bf (-0x852815a92cffca822e878f3ab50fa1d88594b06f56cc7a6aff18aa8afa9a2ea));
  DblAdd (Cert 0x21bac75af98d601e80d593f6bc50399e2ba525dc57da05abc9f7d0e353c6a80 (-0x406d9d602a6e2b2630cad1b5235d8858ae82e49b7c5d33a036572a6651e80dab) 0x178287e1dc7f79d65beec14fd2508451887e8d027fc9c76a439e6304cfff28 0x5b8d9e8c0cf3eaefe67bb9f4042e61ffe673869f4a92b804d501315c3ba65f) (Cert 0x2cfc21473b76653a8cb7a38ca619d86cab0cb1c677b81a5d67712fde44f4e434 0x16a1be7c2fd35ff435af2757d707307029604729e91d63f3e7165c7493123f1c 0x29d15b891d8ac07e324f0eb1eafd6d3fc57cc4c09195453f94bc0af40c8418a2 (-0xb7b30a0357f0334e4444f962bc0eb9f858a2cd9ed7a38db0e800d54604e1543));
  Dbl (Cert 0x2c47910815ac6b390c0f26ad6ed10a7489ca88c82fe065abf7a9ea607e15ff32 (-0x3ec6ff55ae109ed414551b4005fea8c16aff4f258b520ae18750ae4d0029315f) 0x28844971f8ce6f6048b97f1477df116ef97af035755fddb626f84360560b5fdd 0x1fc0a7217e61bf38db59a7eb9f2d4d4dc791cbc9cc0c2e8fcff016480a73831d);
  Dbl (Cert 0x21b2e04a84bb48d7f2047109dfd123c87b975fcb37fafe60e97e0feb862e6b28 0xa69e54dd16336f7a1615d1ac606db7adc6d0b2457eee545f0a653b33c8f1e5d 0x177784faa062d3a16e0686a84fb9c03937622ca0c61816480dcd211a929a5000 (-0x15299856416e493c4b98cb2bd38f6679fbbfbc75a94128636f2cf7b6181fae34));
  DblAdd (Cert 0x17b1c5e423b621ced6fc924fc12285a9c3d7f36a5de5d5b89b23696e8523bb4f (-0x1d3cd588f579757a26d255d813bcc14d1c5b265de64ac387b9120ea66abacb4c) 0xb9a06dce8fad083413e2dc03ad4c56c486ae89c95c6b3e4b50688ac387b06eb 0xb45c69c5274045d1f472e6fc7ad5fbc1584b1fd110bcf444eae6d7e08a03215) (Cert 0xd5729d29aa7db528f1b1c1784db4321e8cdb21538f1175928bb5c33144aff5e 0x294bd26b0febea9e98c26f11ad568e249a69297660c7339243c9a932b7b8333 0x3ad7ad733c35431004838eee35b374df9b9338fe846fdec3d36589370c912d5 (-0x6a1723ac5863afe82ccc4619c5b17d59a200f6758205c5f00c31d0dea0c4f4c));
  Dbl (Cert 0x1c2b5966fe8fad86a9b2e3b879e3d054e18b52af6703346ee73722db99fec090 (-0x2618a7a6b2a7fe7042cd0b467dbabae49e1847799797283ad5475b9be1298190) 0x1065cb3f8ffa717e473cac799e17e532a2745bcc83a21c348c90a28e482c8c23 0x12af9ae7610ae7d600365d1d6e618c2b26f555e1fd1e414419644851a45eadb2);
  Dbl (Cert 0x17e7dd557142cd09cf6f9fa7d1f4a3b9f87d74b134242b3bea9a5b01d4dc2347 0x6ae96214ef45d52e9031ea99261ede69fb20ee27dd49c578860f07e3bf7861b 0xbcf3bc40276fca1d2f84be1f03b880c8a202c245c11693c0329f25db5a93ca3 (-0xbd6167971309be2795a0ee3882e8d46659f38a4eaec4db9a1f54c8c507a6006));
  DblAdd (Cert 0x26bc501d732dac0d4279eaae40c0671fa19ab08e0b515b3ce89c60d5732dbe42 (-0x21491596edef01061548c1fac57529c718b535396d68c9e0ca5334804a2ca5d0) 0x1f01965218e5a9e5c0035f810f51e61d2dfb6ac32f563f74eee5c9522907d174 0x114e8372a1b5005aca8e6dabe130bca7074982bc5272ee5cd50c9ee033426c04) (Cert 0x2b4a65830ab02c2c5802c26de9da3ee0b20cf75765439b34e77e910eb74aa0cb 0x344a58058f56280027579ba9b402f451e80f93dd2610a0480204ca787a6891d 0x26ba2614c4ee62ac59195ec9fc92ca2fb5de6d5321649840d028686356d3c1d6 (-0x63115d5e47782a21bc4460da6b50278b83c8e4d927f896dcf61cdd95b8023a6));
  Dbl (Cert 0xa4da8c3be1d437e646ce0a1e58ef0dae015ecf6d7cbdcbe1efc758730537edf 0x2cd7f825819f02935b0c1343d3129d6e99755a1b898b33026d95fbef0d5210c 0x231990ca17aef28223c2c8b1bfdf51bbdec70ee19d7fdce5072a42ce41d4b0d 0x17290bf64f01f1c9d7b3711ffa5c7b31a834ce0cb65900123605360ed074350);
  DblSub (Cert 0x1a9a5f43a4e42c8163d7ff3471eb51e34332a7136f19d357db912d327263cb74 0x259c2f178af2c0470e6bbbafbefad325249842670912683e99a3d3d65a548050 0xe9ff28d1139fb7dabc6c11308ae065db8c79cabe9d9a1e62a4d4a60551e37ce (-0x81804e3876c00e182ab10c140f18e9d192edb9d97aec2325c375a4d14b674d5)) (Cert 0x1ae646deb0a2e20c0609f2d3cc8bd57eda824eec2bc8a40b830cf309222472d9 0xa48737ec8778dcc266e5cb68c0298016f87c362f0978c01cd17e91fedf70112 0xef3de5986458d5bdfc6223190f4c9ee3f72756f13b869f2868a7f546bbfd8ab (-0x3e2aea8526e75ba980f08c9303d26ef34df09a8ba4107844d528f45c2dc5aea));
  Dbl (Cert 0x1261a1b26f495d5282a38948c36927283b8b3e263b6b1fe54a4a284cbae4a55 (-0x2650c4f043ff80f73c503978d96b928811eb715a93407e67418e89b69c8089bf) 0x6fb68acd2ae5712228160e4f7bae87cfbc3e04871475631f9da0d5cb8bd36 (-0x3ae612344c98f9f25f4c8399222c72f22adb9b9c0d641ac763fe6ba622d2e5));
  DblSub (Cert 0x541a495495fdeb922e8f128ac3498867f534e9968646ce1ce43a3dfa91fb26a (-0x461f215fdebe44d175f2fd18a733d85d7f1b7ae7f047060a3065d6cca44ca1d7) 0x922a9cb9058c71f81dfb45dbc9c23c36d474cc957a77d45f68e19686d5e36e 0xa3a4fd9cfc162af57673e548b499431d0bd1e08b052b23f86822b87483ec27) (Cert 0x2d356f34225119c75117a581b7307222e663932ccb1278c6ee2c3627befa421e 0x1b5e43ce962ec25fcc145daf83417c5ac19c9fda185ee830de086488350e9468 0x2a3c29a0198dea8e036a74430bdfd9b8d0b54ad5a4789da6dd8d38d48dcd2695 (-0x9cc10b86d6e2c79792bb7ecffa982f4578812da2a39c13bd73aa98a9a0b3f8b));
  Dbl (Cert 0x196ff0abfc9b052882a12943b466c3054ef39dbafa421be7999f1338e33db387 (-0x5845558af0daaa00378b080b7d39a427a4fb14ac13a404ca625c166996b52afe) 0xd5f03f3ac2a26330aef9446f5d5c9eb0505de83818cf9962dcd148ee3d20a8a 0x115b62a5c23138ce132cbd2cb02dbbc5dad03d49d926a53cc6e32606064b8e62);
  DblAdd (Cert 0x169463e92c63a105df04f1cfad7ce8375c4ffd03cef4e0e38348697177b66ee1 0x17273d5626d92d628b828134b893f74c7e43eef1369048eecfd8df9ec3f6ccf1 0xa892214f1c0539ef63113659f036b9e7a05cea92309d38e40e878b6352c97ef (-0x10736394be6eed536d0b7ec2b4640b203b288536e914b1bfe6e4084eba10df3c)) (Cert 0x1abf77093817b23b63b102e1d011079df16eab71580a31966fd76eeb33596a3a 0x1739ae81f3f91c18c27ef8ba4b643391894c0429738e4024b0693cb6725a2a5d 0xec8d76e9137351d1b6905a9d4f39645756839c7bef4705860f918dfe4d73b17 0x118442d816be13685ae57f4d7667efb9a605e60bb47eef6ebb3d5e5363ce85eb);
  Dbl (Cert 0x2a028acf250a85a050f149a80dccc360d62ad15a0d7480143d8a148a4f2bac9a 0x3422f537fd19b0b6498701d110c5f2e231d6bb44d46b08e47b9a663be7d66800 0x24783cf35234aba36d3eec320ce51a5e5bbecc2e9e0af225dc6c201ac9161dea (-0x10613a0eaf56f414c13e31ff1a3e56c5150b4c97e9781d6f186845998273d31c));
  Dbl (Cert 0x2bc88105c71ac6b74a1fd4b172f5c9568dc966ecb6f92393ca68a846b1847a06 (-0x2080d23119535c19f0f5f5ba5d756c57a6eba7d12346e7e9d954ad46e77086cc) 0x279d0f6b67ffe8083c52b1fce8740e72142915b5d59996a4176090d8fcd81a88 (-0xe9d799fbbdc61c975a323a5a6a271d4703e98be9f67f569999863e7f2d8e436));
  Dbl (Cert 0x2d46a94982518c50d8d8adbdced8a6c0d6cfff91262ddcba474d8cffcc8022c9 (-0x3951c6d4c858a383879994f1ca479d1903699def0d2e3916427ddbdf4d7d074c) 0x2a5c5fc19965ffc5460073b1f8f18aefa4b880b81814808a95c38904fc813e23 0x14b2add7c2498076b91be61f62efb428415233ea8686dba7d146c88f87760c1e);
  DblAdd (Cert 0x8d2100adfd8120d15511b78ec71a7e481f630dbe3ae60a4253f1c37b67e359b (-0x1b5cadea6ac37fd16e291f9c4699ba3cbc777821604ada0e411d0fc305d76ec0) 0x19b95e1c184f5ec709c9586c9955d3ec32af876a4d8d2341995918d2c04bdba (-0x1f05d259d543199c0d9c83a126a33993cd365f6ac3215bafd26fc39fd8375f1)) (Cert 0x25401d3a6658aafea583da51cfeea12267cb1a9779e0735d5f603a5789ead649 0x1a11657664775a9a4e4a01346c2444c08aeb4fb0122b1e397c72c796719f8ec6 0x1cac96f08090a9e685f1ba0d60fd754e96c86e8b3de1d483d22441bfd5f909f2 (-0x30d4c018419950c7a1c6ef25f25ee9488417bce6a010b0182effafb92026c67));
  Dbl (Cert 0x6a3221496e65eda46df432944c9ec2832e0c1967ca317d33bffc5f33f870f43 (-0x5504b3b8dc910659092bf96574b2595403bd79a7f7d332099123a39b78512c81) 0xe90bf19be885125d06587d780d3240787826fcb5547f259bcddfdf06f024e4 (-0x8c7e7e1e26469ac7c36d702ee0a8da2438910c6ebae9d5c72a7256cfb71a4f));
  Dbl (Cert 0x192069b4b8489c267799af086663caef3312ce9939b193258010e55d608235b3 (-0x519b5f5eeeec38416893af09adb9f23e7014c46c76da3fe3f5836ed7ca435b7b) 0xd0beb2d8dcaa88ced9e1ee4916d03d00b9d9f050a3a115fe94b44e4cea380fa (-0xd74884a477e30368bbe4719a5542ccbb0d982fb9560cf1a7a60527a804735a));
  DblSub (Cert 0x345e47de4f83384b26e41c5e6444c4dca59aa7fd3a86e5ebd3a56036ca917f4 (-0x6e8f119473cd311865bfc90b445bf851f274c4753a8589afe56d3b43a8012e23) 0x38abe77a5aba1965ef75d4524044ba751f4e2027fb1da9bc98b9aa0a125583 0x28bbda40682fb590f4fcc01c4f1c3af9c315be450d6593f79a9fd6c8c777e32) (Cert 0x10d13e480b07b4127e41d793edbfea29fa1390a4d5ee6533ab5f250851b19a75 0x204dc41787d0efe7623901ae70c02de02cc38cff2f039c4602e42d3d4fb3358 0x5d82dbcd0582d2686bf6e5d3080564cc43fdc671c31e795feeeebc4c7534729 (-0x5483445c21c70aa8ada56a371328ac31df2c644deab2f2e00f6d08f32cef8));
  Dbl (Cert 0xd4ac2725386685bd317f356a3c7b662342e0497148536b54e0dec45a8e44370 0xa892bda0084629377d78614bb3bc40f7927a8f09c33e8c01e307aeb9eceb230 0x3a6a74485f2e83d4b0f9e261d7d0fec785ecb6e6c1c58000c7609c508c4220f (-0x28126c4b9984cc78fa7c5f5d963b6778c158be1b44a7330c96392a0d184efc7));
  Dbl (Cert 0x176e3fecbceb1b34d800f2ffb0663e7f5a081700960c4f58121ab1d911c663b2 0x163cd537c3dca06d52d894464b34e9675d470d5fec01a52b47863d193bb77175 0xb58456262a42f46c0d229b5167b84595433bc7e169e4a5ad1f995600ce464c2 (-0xd520df88ad5746cb6fa9bfce2824b305c883f240a60b28275fb3f06609a4eec));
  DblAdd (Cert 0x1a03ae2de2b5e0dca304eef6037d9759f1dad6fcfbd1e9618c5279bb45e02fe9 (-0x3c618fd621ac73d12071da56eb03350d7378c0199c60e8c0d28cc8f547b4ae58) 0xdfc18eae928ba0f1049b2571110b87454ce76ad6a527e5c87ed9ba4e0134b8e 0xd15bade50de1a31c59e1bed255a53f0d5968605a1535e5bf42217c18a3f2058) (Cert 0x2e31140ce60acd4fc682991b53b9078aa8f2475d21e4913bf8a39292d2e34afe 0x11550b7455d773244b98ef87fd7c179c8398d02ff59a902e2ce0e1ef39fb101f 0x2c1775039a122fb0bc2c4f1f3fb0361fa799d722834abf73b12fd2974a3d348b (-0x1ae93e9554c616bb05fb4e27fa20feadcdd83c3955a421dea114531118ebb65e));
  Dbl (Cert 0x273e465f0180fa6afe87277c580bca9ee57ccc873f0d59871d9dde326f4620f2 (-0x52084313e3afec05093a84169c571a640ff6cc51a4ac193e47edbb1e81c4cde7) 0x1fd302339ad6f7f220d17094ad9497f295cb5a921fdd9dfa52196661b672fbc3 0x10cfe83c0ecaf2167131282da3df226a9ce92e62ba489a01c80cb1c1cb3937a0);
  Dbl (Cert 0x1a84fc30ba10edfeb91512b33cb9df5b128b72e0dc4f5bc0801c6642e41c9fe8 (-0x82c152d2a100c143c4128b3d03a17e5b9db462baf0d67fa72bd6dff0c471943) 0xe88783f485cf516873e1c3859df8b0720272d4ef6d9da81065716010fb5d9fe (-0x7ef072f036ddbc5e9f87dd81a5f4c123e1d069fdefef564f606fddab6000c86));
  DblSub (Cert 0x1af1fc6c64ae9f7ff40d2b497f2b418325593e1391cd2b81650615ed0610c7fb (-0x43474217fd57de291c779f846392931058af5b594d71a856a7e1076e61f3d5fe) 0xf00e5ad806de83c782ac4849bbb6a6afc9725648bfde20c66b1b1599f626b3e 0xd5ee2737b18ba79eedf9f095b045dbe4a061d47e103eb751d93cff20e6e0ff0) (Cert 0x1330b132fd45a5e17ceddeb833ab399a0cac1a99c89aec44276ef22a73551afc 0x660c9dcc565e12da43b144af8a99f193bf217ab43d8d69c01fe7d730c4e711c 0x79c2be1e815daf30404cc70740589d4907c4bc619bbbd426b1b3d2212ccbe58 (-0xa9c32ff2ed1cedbcc9ab3e084089bed0fb60a798a8e1a69b8130b932b68aaa5));
  Dbl (Cert 0x15970b7ba1360e18d49964151c4c2dc8e0d59c0b6479f5285eec5c1949ef0873 (-0x570dbc9fbc83826d6a04e95ae86efead2aa835aed5ace31abc9d9717760f0a7a) 0x9a1e455474159395e07904405c671496abb0f29883d4f023e3dd62873751e9d 0xdc14040ac3141d152a5e1824d95e9234e6c77ab31c9a4d729469b5792553cd9);
  Dbl (Cert 0x19830a3afcd18b8cba4ab1d10ddc2437bd5342630eba8d8753a53755162344a (-0x82304267fcfde566d636f00c646915b36da5d63750359df81d6e1fd4a457598) 0xd731fe78f6418d761595ab8dc8b7daa678edaed6a94abdf25cfaea1b5a3df (-0x45b1e69ed113222b96761e75255308672cf3355836c75208667b27794c8da9));
  DblAdd (Cert 0x2395a6dac1182d936e6c8393cb027afffbc10b5b7c0c92c16af8f5070f2f936a (-0x15c98c7eb79e93f78f5a57d293e0f8b472e53ea2deb05883b5b4f6824bd43847) 0x1a2ab77ae1557caa960adf53fac1345af4b5fd696d63693808fa148d1274490d 0xd36aebd1b8cd368fd50dcdcf1fa45dd803f91496e56ae2ffe664ca6ff36d6d2) (Cert 0x27c0b78f869783d0757e383c96aae0e73646b928e95ca5ca1b008243957559d9 0x1e4222cf234345ea20c70345831079d8d9a466f078cecd128a8d422ba0c2fbb 0x20a7f21ba9c06416a3f47ea531f2dd294872885dbd2b7c105b0953701c0d8f32 (-0xbdbb760d52017c4a1c695edf60d277affb53d6b6125c0ada1f93a2cbc231ece));
  Dbl (Cert 0x127c1128dff779c5b61bd39e4d0c7ef4984520b41ac3933c3e2ab156e840c482 (-0x7794a18bdf7caa9e5c7af57d12eec0243eb63b21adbde66f4a613bae9884a4f) 0x70f8c48ea0b171fc190e72395357eb6b55f9de2efb6a3ecf7955a932670564f 0x42fb5efadbb1c35cf34aa6eefadd2721519e27d21e2fcd617dfba98175d93b7);
  DblAdd (Cert 0x285011ed3fa15ec3eff7591333f78fc908d737554bbee23f77f1e6e74580bbfe 0x2ce989a484c8c29efc994813f69ea9b9d14231732b40f58228668b1613d0fb65 0x2195208b5b4ca460dc1ad5ec17657bcd98f53cd1d4c6c43ea94b5410d48a8940 (-0xc836c65618f318ca8ae5ff6382605321aa7cc2b09d307720154b71242e8675e)) (Cert 0x3013cdabaca472b6c81d03ccbeb716c40610f8d5a03a66277bfe70bf726d5306 0x14a9e9f112119261569b24291715485d9b23b15de3b54234b79e0d383d18d7ce 0x2fc3d2d08d8de52cede8c32d6dea4882f3f505ea1ac61006b3468ede15bc364f 0x5f2e62594d1a4b023b21fa5ddb92cb6d33a9b5af3ce21fb4d74acbf7170d3d6);
  Dbl (Cert 0x28a37493e2672bdf0ca943d472f1276fb4cb07490f2638f389492de6c75cfad8 0x3d7300a750285d1116c1ec414e110cce76e9374d5c3cbed29fd2dd776899a274 0x22209dda764d9e7d12badaaa8ae223d1a67992dc63fcf29ee60eff8f926375c4 0xc686db0375f0fd8cfbc002d280eff1c3f6319984c9badba8392be5c3ee53198);
  DblAdd (Cert 0x1f9f7ebe2230c87b200a2d0fa91b6fceebfdb2a1985ca8372302bfa4e8ed1dd6 0x29bd00f672e84b24e2cfd59eba83e994ab044c6aea426ade442a0ae546d3b238 0x14aa3beba4e7e0782ef0571aea9f663d5cc60268a346e3364e1f363bcf512db9 (-0x8da11d7bc8a5155a37248d33813adb5afbaaeb1b7ffa25e5809f66b7627b7b7)) (Cert 0x25f456450a03936e61801742d6d9bbba0c2789f97e1267ecc5ef073fbc889889 0xaa6fd2f06796344bb81ea5122471a62304b17b9265f54b5a4f7f55d862f210b 0x1dc4abb636fd495e1898ba3e9cdf13fb6543bfb138744e43d9db98346f07663c (-0x18b05d0cab66ad3e8e1051eb54036ca1a1d2a760bc2f41558828e7b04f89637d));
  Dbl (Cert 0x1731bb6b0813beef7deae9916714ea07841c2ecdded9e3df86f41e5e8e343ad6 (-0x7068137c2304348e6ca33dc0c76b4f0006a35436d8641eabd69b8a8bbd2ed183) 0xb1df68b2589d4406c2a65838274b8a8f7f6978d0df74747e0025f7361eace7d 0xed88d7e46c65553e1aaf6ff1665bc180d051d497f3217e7482212a1d3fed55f);
  Dbl (Cert 0x114e8cd39797cc4940b0a54661a4a8011e143c8c2f9886c1dca9afebff8db1f8 (-0x8319ca60a6a2ba1c646245032d80a28b2429da1d3d9443a7b61d6c76285b4fb) 0x6308a632dbb173597b5cab54b8464088e3016e72face30edad2f7d46e7d4489 (-0x824837d382d36c224356967715b5a8bcc7e2b3a5aafb5b50d506e859690b549));
  DblAdd (Cert 0xd315928f33159d5955d5b06e4173faecad0c2f5f05df0ced9e11ed8cfe21bd4 (-0x4739fea12821c1f7aea93fa2ef9bb9f98228e41230dbed21b2f06fe13e93f55b) 0x398beee454fcfcf9545910f9b303d390c44f5113b5c56527f1577faa8554910 0x3702d92f44abea6c5d2ccc5bb03b35cec6a6b3eec80704ca551f51ee25ccb4) (Cert 0x262fc1a5159253ddd2f3da959a880596f70c6b0a9a262df9cb7399b92c3ae547 0x1c75a96b545d9186ccaee4bd979b13eb41fc3f5d485e098e7e9b95edec8b159b 0x1e2229b27c8bdd5cfb09934409fee87ae3675c5c2ef41ec65f696350bbdc4e69 0x8d50af74734124a4a5403f993edbd0861e50673a43b426a67d2bba0d36c4d);
  Dbl (Cert 0x83a00090f282f8816a807e75c826666d7eb47a7c8f42d36443852f1bed57042 (-0x47cc654876df5ed742498fad7f90fa26964f1e934e0e2e1ef39f17f451a3143b) 0x166049b0ceb3ba1533fefed7a1a6c49c14f4008e329bf7792c3a6ffcb13f655 (-0x1eb492e1c3543fd4707b0b1b5b32a3d1cc3ea6492312408628fc63ba1894228));
  DblSub (Cert 0xdcf02ed247e99b31ff33ca39bdf6f65c59d97597ab8bcf511313eab5e994098 (-0x7707620181c46d3bc1ed712211b400455d0f08b747db7389dbb24a46fd65499b) 0x3f0b7c4e8ec38911103500f7a1d6b08c5876eb2dcce0301d0e29e55958e4adb 0x5023c9dd143eba89fef6e0d326ec62c3d963ef00b2b7396d8f97f2eb4cec4c9) (Cert 0x27ec7eeb60421a3186399f1cd54d06596ee2fb6451c11414bf0da3fc0cfcd37c 0x188ce1d258fea6c7eddbe832bab4ff74de6a0f1a36ed67043f1819704265f553 0x20f006e73fa243812dda2e0294c51626bb5e562ad8974fabff6fdfcce6da61c2 (-0x3660b30f873b569ae4b2a69fd320bce21238a52fc9a9228199b8a566b483266));
  Dbl (Cert 0xa18964e20593184ffd57b6b07106f92c1a0dfaec79f95bbb33e9ebb7fbf5047 (-0x41ab3ebb49f273cd699784d113aa28db1ce16a0708257facba14039bb4586ace) 0x21b39b9d17666b9322daba858bf4c661264242835fd12bfa240158a765cfd67 (-0x2180b1b38376936ae82c7bbdf80c2164e030985a84cfc4fd63da8615bb16afa));
  DblAdd (Cert 0x84827f257ca39ba007197fb86bba01953ded5ac25d39ad61c4277c4b79083fd (-0x73b83acd0a9f8f87b5dc127168875fa71672b7f2e5d83398eed1764dbb1b382a) 0x16ad8de96527264d70bf2b1c7539fdc12b8d7e32eea1a91a307fb2e7fa4b328 0x1a42540f8ebce86905a24645c404ed052834798d63ba48a0a4fcdecfb04cde2) (Cert 0x29acf6a4e645cf71ec8a1144ebe03052241d05b3b94f766a4f6ab87f8c041678 0x1d8f61e36408563ca287c3221cabd73fc9c8c14c43333d31d978977f3f831836 0x23e43e70b915e9e6c179ce184496181df2317fb3879ea73a29cd78225ac98ae0 (-0x9eaa738d837d6bbb820cf8fe62dc1ee208a23e70bdef2baab44b03317c945a9));
  Dbl (Cert 0x77c5c868049610303a0cfb3c0e0a4c7bf7779eed6c8a8f36125fa8a99abd017 (-0x7a12f86829771763d0fc4db2676bb5c9639051b563954e0a2e9ef58976aafb12) 0x12871b49831e863dbc13d6c45aa56998420096044494ace93d021d591bd7a83 0x3bc2d2cbf635d5c3b3c0569c4bcaa1b6853c109eeba501c338a68470ce83d88);
  DblAdd (Cert 0x1fa5df893cc1df934fe98354c4ee0fa4530d273460d87b8ee359641052ef782a (-0xff9dd30a8bc30ef7bdd1594189fb07849d6584ecf3d919f380e387e78eb34a8) 0x14b292c0b088ec390baf89f0785e4adf15ccc2d447c7c80fe96dd0beb147d45c (-0x10848eae7bdc55bec6a983d8f8dfa36b0ee5b4a208f8f503e9a7488c7a5a0eb8)) (Cert 0x2eb6dfa2ec2ac0f617af8ceb70fc73f3f0dd539b1fea98988c35a3d09c723833 0x2d52929f4e12107370df260a69c22ae2c9b256b2a93cb3700dbffde221ae67ee 0x2d1853a53200ee8305e2992a6099ec1dd5a26b443c2b9ec77b28a593f4b713f5 0x25e6b3b1e396d748427698964da56b09de617c202086b7c4d7ef18ceda22c193);
  Dbl (Cert 0x16139d2f28bae8058f93881c41b7e9d80619c2424b9058fe2fcd37b68b0f045f (-0x747c9cddf2a0488a84f0211497b8ce437039ec6096a959267a1553c3e0dfed) 0xa124c2fc8ab6b527370ea9276f5031a02363e3766cc3458a40d7795efedf705 (-0x7d4fb6219f5b9bd92e601c38fb6c77bbb7843910d47377c4876ae3e38897b06));
  Dbl (Cert 0x2235095766d3b1b71ec2c7902969b0abbbf3a8514c8aa0e2719e47031d17dda0 (-0x16b2a7c0487c63ca8ace2e7629ea191a28f8141ceb64b482cae716e971e1980c) 0x182e2acd0f5182cbb8f88053f6aa4aa35396b49e362072f9ec076dfd3a7cd786 (-0x38c1b6a6d5929349f6b695dacab8bf04e7546b1d541542b3104f8d26b581671));
  Dbl (Cert 0x2b0e41aa0f482e737e0bcdc4ce13a923026050693dbd7b1d872d3230a1a1c2fe 0x443bf870b15f85834d6fe9b4945d3df83ffa873b8a6294e58bdc8ea108ad270 0x264ed7063f03e3a7f7c439c5a268270479a0eb31ba5ece7ebd12e8d92cdd524f 0xe83668d3414712a81e198bc10d89a5bf1633e9fb1ee147da26b34bf3bc8ad9);
  DblSub (Cert 0x268c25a8a420a9599482c379df17340c4a4fdc280e9a1d48b6888b7ddd2f0479 (-0x217ddc017735fcb8082b443d3a41b928763ca83fb806aa9f3586fc23db8f205b) 0x1eb4aa3fb7f3095a775d8cd719829d593eb1707ff33bd491353e7fccfc0b1abb (-0x75aa16462760f91ce995cd8c3c5a62c569307756dc2841345ea81416c59a42c)) (Cert 0x14e5917392e26795ca71f277388a766332646784c82227240ec9619214dfb8e7 0x1072544510ed828797c50130a795c4fd4211be16deb9a8c552402b1a75a14a0c 0x906126d5cb7c5b06c05725f03da5f290aaa8240153ebae74a05017170126747 (-0x2b70fecfcf8ff584495427604c3c314ad8f4d8b615969dc65b38ad985ea45be));
  Dbl (Cert 0x203fe29119446a34ea6555cb6ffb0effee589672c6b0d4e2038a069d2447ad42 (-0x5803789dec634f45c68dba0da35c912eff6bf5ffe7b7b474f1e32f1e6fb66d23) 0x157deef6764d3d80a8a700216c9c711d0b08a5cf830216cf43ad9caeacbb6995 0xc16d9a1c760e9ecbef9805912f3492756a37001f44a488da7527de9faabd97b);
  Dbl (Cert 0x2afa14dc76c5b83eeb93074a5027b719d00adaf39d999593f1b2cd28459b61c1 0x2064f2fd96551920dad86053b491774cd7507e04b44628714bef1379ba5ec88b 0x262af8de2a5efc12a9e16d1321dec2bc8841dd7233508fe3b4344286e6301c3a (-0x12c0a6c2c6b16fa03300565a644fdaf661610c2e64ddda9e8b9f8008a01c26be));
  Dbl (Cert 0x80dcc648c3d70b542121a2a41b029d586bc4320f2139dfa1d9f52ca0f9b6181 (-0x8332522aa551a0dbeb1340e79ad6f1bb95d47d69ab81f6763389165195ebcb65) 0x15725aef73533582a90d5bbcd3d419888966479c6a506931c37bb2e668091a1 0x7c2c588e0efd068447533243e1d263dc571f140508d2935cb713e81885d45b9);
  Dbl (Cert 0x223bf1149941ed9e43bffa8b90586df123475c7d8372087d65c7be51f2b5b189 0x164960e79cfa89540af50e72e6a6265f6b5ab50d6d3c9b5a3de5c88256ec764a 0x1837eef13fe67f89b56f8da043a900ba5594b2c348ab3bb50eda277751f571d0 (-0xf1495aedd8d4d24aaf538995adf2bf7867055b9f10f1dc2a4f630561b667b1d));
  DblAdd (Cert 0x239cd9c94c89352440c7d9096a2ed3b8d66b6cf8462294dd2ee6b31885f0d4f7 (-0x1cf34cf70744a9e075fa6c6c38b2468a738623b53089740ab538aee1d795d5c1) 0x1a354eec96d33018b2266b2c77ea9d9c041ef72080a8835413c39f2277e1c53c (-0x97c0616626daf16483f88537f2bfc1e63adfa3da55eb5dd8f109768c9b91709)) (Cert 0x1b76dfbcf9c52e70ef91fe9de172a81072fbb0e96d536fdcfb7c895202e663c1 0x13d1eca3e8ddb4ad503439f1a7408fbee421d6fd65482ab2ca0c1ae05a16b7fa 0xf964f7ae85a15fe94b67a97c6ff612d40046aaa6aeedeca1970959099fec778 0x712d04008634bb2337158fb4aa804bb9011fe238ed3898e310fdbd717ada83d);
  Dbl (Cert 0x6522596e9ad91e880aebbfe22aac12f303013ff7431246ae8df799ffaab8203 (-0x19eba2b345573356e25a3673a49d14a98c6dff665643427176ec24cecbb5861d) 0xd35c4c8c29188d64ab762e25e4d49a298ffe99e7d063eda9bd7bffc2f21f48 0x1d5140a66831946e14ea08ed6145d57bf9c0e86627fb5648aceb2496b22dab8);
  Dbl (Cert 0x1f1849fe4001c893758b8b7333233079f6f9977d3d85689119144f06e7fe9741 0x391dfe073888594f3550dc29b12fe7f8dfcebae9c0b6a7dc8c7b8f249c343617 0x13fb004a8aaf9b19ed8a17698becd2a7c6d61f106a96149bc6c17dbfa2d6840a (-0x181a96033995884cb84dd97c02167c1f3de4d21b7441086825a431eef79ad417));
  Dbl (Cert 0x1f0494ab05e6379f5f329f7c0362d57da02ae6801bd348b105c4e3209921572e (-0x56bf90f38be7baf537a4e305dd69a1bf29a3ed49bbfcc40f5abd22a5ef6221b3) 0x13e1b46bea959306aa8721a3ab039c7b175392b4ecbc818711f8a06c290ef2b9 0xfe7df3389a212646e604da47ab9fae8043404977c8eb5130f2a0a93c7870d57);
  Dbl (Cert 0x13831d905ecf1e4e6a4df37973516fc33935aa3af30bb6ef855a41e15f70d55e (-0xd22ba502f34a456391632ac09f0f9a704f3f8d26efa01a16e172bcc1ebcb0f7) 0x7de175760f109b354effaaaaae225d82d5b77ca1794df6936ce51d61b0404a6 (-0x96ad814dcb38d8b441c6570710ab20afd072da1771997706362d0ecf3468882));
  Dbl (Cert 0x3bbea1c1fda440f86583b8b3102cb4c7adc1f13a04761149587829d42d7cb71 (-0x78316a9636439684b6b24c8987bb74d1ca77b1bc6d06d93308fc8e6608dd9852) 0x49c2c9b8f3f454fea9b8d499df8976c19077476398c166c2745d75d11762f8 0x2a1ed6312fbb364464724636c2c39f11e33b62070b0767b6e4c043eb267bc4c);
  DblAdd (Cert 0x4a33edd6058ea8987616f2652888cd1a541f57c218cbc2bb9ea37423b7b9f62 0x9ee0fc135be6ea47f39ca53852270e976fcf50d180f2317dd2bcfdec32e19d 0x71c7e5c36aacbb6bb569117a630c1706b52137a7a5bbbd746c47d89bd83bb1 (-0xb80f97bb8415549cf3be5bc12dc8edaefb228576e80b42dfc5bbfdf8fd9a4e)) (Cert 0x64424c9efb215e589a961e3a1758bb65992e6a54d2f4b2b5e5fe2dd3a878994 0x2505bfd6c8df66bb49a90af93a6998d01e206c3c08adde32a0982af190d591e 0xcfb7dd9ff7f0ff7133313eabfc7f8ce6021281e5e8ef6999603434d3fe708c 0x46ce4d23b34e3140d867477fe7c207bf34b493b5c8a562ae82252f090be3d7);
  Dbl (Cert 0xeff196cf9b8d140a8fcc5e21c6538d48099c977aa5014d3eaca44d8701e6a93 0xa2e1795d3c7cad7f1163277d958dac541477d0a09da93519c3ca95561d056be 0x4a5b9b7c3a2accb4b535fd4ec272967326c61a1397c6aab815ccc86a00cd814 0x4c4d7f879d6599f244cfda4bf5fdc8d28b9c0b5a07d7d96da043ce8034122a3);
  Dbl (Cert 0x28a279341c23eed46b1ea59118a65207b196a504f42e7121364a6263c7604d66 0x2df7cab160ef2f1e8f7ea9c3cf682a9158fa194e866319fd803c65a723dd5209 0x221ef7acdc7694c21e18b1206f88de9767756af81dcdc6acbe7f8dc761814876 (-0x27181c43d98de4ceef09b64bb7ca40cb208c34c102e36b95e5b90d7df871a650));
  DblAdd (Cert 0x2aa2fe20e32bca8709f73796c41470ac57ad0018125530ca37e19b594c4f3aa8 (-0x849afcfc341d302ba5a377be9e2b19f51cc7b59a177f7a8539898fe7ad24bd20) 0x2590e59925c9ec218c934b72974f69721e557cbf233f2d38330536a9cfde3f00 0xab1e591bb71ad117e8dd909f698f01d9d1f15e4696b2f13f92531104016ce49) (Cert 0x21a4b5948f6d503ea3ef392526a315832845d73dfe4a8f2fd79886d57061200d 0x182b2d6e6686099abbf122a04eafc4d0e5c87ba431bdde9310f782995a512955 0x1763ce0b001a73a0a64ec3848f9b203dac6820d5158d20fa491c378bce366829 (-0x3cc5e4073f0043494a2bac51273e36c40f9447765ac5024a142974d2db43a04));
  Dbl (Cert 0xd7998f53bfd5d9d45a0222fa4dc24b3cb772296e0781cb73762088f271664b7 (-0x5eea51acd9389e3e33216daacdd4c7429ab7a932f8934acf8d3bc195d7d2a6c1) 0x3c08f9787040320239aebd3e2c8b43ceb629c0bd56410d1f084dd9af05430d7 0x3c168ea13b3516c6b34b393e73ec3877d2b0940767889c8334a99177aa2d2e0);
  DblSub (Cert 0x2ee4ac3230d80f952f9121c7c1a9ae3f65cb535ba34efe5ecb42e6959408131e (-0x608371b44afcb373fbc1284f645ec909ebc872d6d616753252f1435c23160e8) 0x2d70eb42c412088a9425c7eed314fcc252a66e6933c961e0c50567ebddb9c92d (-0x9896644e03c2fc5ee0da3a079defedd8e724fb79a7ebe73c59d24501c282e49)) (Cert 0x1046f949e8386a1947aa35d8f68e54efe249f88aa384fe5eec331019939de069 0xc4e015e159d8215e789c7e2a2df8cebdb704b6e075b5fc11c173db6a1d5a121 0x5799e268a9377fe009e6da12041005d51c0831a4ef86007ada67094f4c61344 0xe404d4cb281609ab3da2c23596b7ca3c0ca6bbe8679a60346e4782581bb9ab);
  Dbl (Cert 0x259da67820fc1a52337c467e3ffadc1764ab295653e1cad98cf9d2ecda40cc98 (-0x36032eedefc9c31375afb9b9be997571dd08db87ddab3613f05bcd2dd97c5db) 0x1d3d4c43f71349cedf35d81a4f27a10d77c3eb784084a46acbe5d4933e35b743 0xafc671b84956bd041d6ec7ec1e6c98638d0f854cd629ce3e2265ec485bea16a);
  Dbl (Cert 0x3ecbaa8a2b930112dd8fadb0432b7bfcc87526e8ad1a7e42287e98b16419c66 (-0x1591f6265d9dc4b9475f4e4a6f102f2703a174d19dc06673b43bc2c7753f1e1b) 0x517c900aed886632cc7e716b95172b94425da2986e574d8e58b8ed2236e4f5 (-0x1277977fac45248fc7e5f15cc9680041610a3db6f7eed627cca107c0c91c486));
  Dbl (Cert 0x2dfc31bdf16cf90e4cd8274686dbf6b9a2fc6138b1b3f03553f987d678d25d47 0x12bf835543f737d025ac5e01ef228d81bc78036b237411c7b994876299055749 0x2bb2b937180e390cdf0ae38ae04c8fd16fe3178234c919d8463b7d7e4393f184 (-0x9b04c8197c789a8deb7b6ad2e59598678b56570b91daabcfee533b17bc2431));
  Dbl (Cert 0x36b34e4c7507c12178ef15d150830b34007743679415505103df6e36abd717 (-0x4a3e0e65907f21ccaddbd8cd223c2081d7f46e8f4a97adb8d801921151cf3f5d) 0x3dd4d829a500cf99327a96c5b122b201922f126b3f31eadb26b0dbbf09a1 (-0xc507f863acadcbc8afee879212310031caa4fca357e1535b9d9adb0ecfd64));
  DblAdd (Cert 0xc7f753ed32f3c89168c14c57d8c59d8ac3a8547f3b84c55bd19105bd32015e9 (-0x7040ffb6a15f5c3cf6f0d32922d335d3419dc2ebb92c36471521ddcdc5c14518) 0x33a4e534df9e80218e6addebb184b73a0593c48e01c5c417ff02d54142125a1 0x8a2fc90a83da53824fa2dfe4e723bdc80830c2ddf3df810314347b4b0e689d9) (Cert 0x11a4380018f8f25f01786be61645a243e1963e6a6f42ac9bc157fc5f422ec88c 0x46b4aaf6e3a77cfff118dc3237944f8e5e00d9dbc7f583568099de5459f2bf5 0x66e68f6d7cdae210ab3eac7bc58a82d6a907e9eb4282bad86b0ce7cf174388e (-0x76ce2d5071ad72f82a96f22c03b83790018f218e6c6678ae2acf0771be56d34));
  Dbl (Cert 0x14f8c240b1e3afe041fd93623f0b88d7cae59a5ddccd663084470c4699a22a10 (-0x3378360eddaf2a12a5d80e9016aba66129fb448f59889c995396abb6b61444ab) 0x916acf7fa078a94740c89255cec04643a4c85b08af6379ba30c80d1acecefac 0xb8ea2fa7a09f66d0136cedfa4d7d4027b5ed5c56e13767c5f51ba79493b725);
  DblSub (Cert 0x1deed3236e0e331bb8b562a7d07fd70e16215a4029be49cdb84a0d3361dc7f46 (-0x3440e54c6ee6c7f11a89adf3b07f2ce0326f6c16dfb44c0d838d0a6f6ac9c044) 0x1283dd17b1b906524ff9d41c503e853831fd6b0d9a4fce0d5155ccea880c2925 0x32f130b180fe1ce25b4930c2e173e20abe195d2cb3bbf15013b28bcc71e75ec) (Cert 0x1150d72b35aa201769f36b12d5490cdc5c0cf9fb9a69e88cc27fe62f34e07b61 0x9300257c7d18bcf2c0c364447baebbf6f098d0d4135284c7848401b019c12ae 0x6322de4f41a13ac289208801992d15cb2e7729269608c508ce504ab1947a277 (-0x802b9078a205467cc25f5290fe1198a5a5a5a8f821d7a8565becb39fad771a4));
  Dbl (Cert 0x1c5519702959ea67bd74c150f7ee8b40e72a4b298faffcee6a2af9b84184cce7 (-0x7d505acfc6964c525ee7572c9581858335544ed14e2239414b6b6d564fff9d3e) 0x10968a7ad6a95ae0e936b2768538e6145e0c891beaa8bb6e2f19f18803b0f8ec 0x110226b1b89cb0eac7aef6484f1a9ae94e80ee7f58f94354bc6bba07e852cb4);
  Dbl (Cert 0xcecd35bfafd1ed4c3b61140b7235939ad2a70ee1934e45762b11100585630fe (-0x72245b5f4fb3bf40af591d0c17f06f008e8513c16c10c803af0531fa184a356b) 0x373c354ad07c4dccccd7fbb0702e2914d043bb5c9906b7ad36a3b6a97caecd6 0x856811d759ee2612935efd82b5ee18b9aa9bbf0f4642c38a8a4e056349ed1a7);
  DblSub (Cert 0xeff99599584f47395d606198b3d8f340d162f374228fdec85b129451dd9861d (-0x5342b594c807e30f0823d8f6e69baf523d616c4af4ca989aa762d5690eb1bf6) 0x4a609027a5bd9a501f64d2094198bf20d84b2b435d0951ceed5a9fcfe842df6 0x26154bc370d25c4d31cf502bdbd6ba8a3e34206b9a22ba37c62ddfc850fe05c) (Cert 0xb278153b8d9e7c0efe7a17a5e80d1d231cfece34552407bfab536b0b82a1766 0x1b1be5d63a99d26471883abc9c684fd544a399c40203f21c8eee6e90a108470 0x29231aeaaa831549580473eada5340868468955e074d74069423bdd24cb3114 (-0x537f487f5286b19c3b2ff8b7d0839210e207ac42a4ef6f5eeb35d96d817f939));
  Dbl (Cert 0x40a1aa8c3948de673e221800e725f10e925cef99b5c4803370bd3554fc4f2eb (-0x340b223b70b89e7d6db71285ab431e6f8846961172d6229631cfcdde16d27c2e) 0x56522effaa39434b9af66851ece33d275fd31bad972ab1fc49f58186dc452f (-0x15f41f4008052d45d21209574e1f875fa18f1c96a40d150736c39b9e99af3ed));
  Dbl (Cert 0x17eb46edfca4258c1691a717a87407563cf641bab8f9969d42521a88b4b0cde1 (-0x7113243f553bcad95c1565596f2e99b14bf0fb3245926064ae1c5ad36ea5fc2c) 0xbd29b1ff591193f49f28439a16d3414970e30b69c13e7aabcccb06683b2821c 0xd89f1cd4c437134ccfd7279109b40df2aad5bcb8e09af21919f7d7fde797dc4);
  DblSub (Cert 0x69a454295ab4c658320721c4970f1db074e2c203f25a54eab48e36d1059e597 (-0xb21546ef83ff29d120735a0d663ee9e4c0aac5129ff873071e1c319ac00262d) 0xe69f33893fe70372c6f3b72617428926ef3a275b803a488f1d60edd95d8132 (-0x3a3d9e1da3a6b162a57c648b525dae18087e4918a97dffb9573245d8c1cbd5c)) (Cert 0x2560d964eeff4f56bac8d556a8b533289fc9db11b020d520f206b90da6fb3c0a 0x234fad2a69076ac7d47004009807086efbc6ec854fb41b0e4392130fee51c121 0x1cdf12a3efb424772588acca8bc53ac67f85cc169b16ed535e4d32b17bbb59f3 0x217a34ce310cc667263a431bddf9a83227b64f4c4b48e7be425bd65737fb552a);
  Dbl (Cert 0x2d2929cb4dad143c1c41a3c5fe8267164263fec3c69c937780a2549bf58336a6 0x3d31426386c3494029773c95c849f1da4a3760a1082915d43a25bc5c2c43bb39 0x2a253f2fb3c3a240afe5e22352ffffc79425300888cad8e1ce9b503765320b6d (-0x2335bb4b1bb219f11c784b4b4ab3d61f0fb1677fdfd4bbdc42f20bf8344d4452));
  DblSub (Cert 0x37a280db25edf86f47e457d63fb32803c2ac4efeb2d81d091c2512a2edee235 (-0x610407306fa2a5952903df519a44c4f9c2a90ec47ff282c396da4ba81ce180ed) 0x3ff639477be378332b9ceb1ca1e6ea505f6a8e494557c832d057e16bf8c5b0 0x2b5ee0334a240d2762ac7de52f13f9bc9c8074a952b41c49ad1dd2a7ad1b061) (Cert 0x2020fb1f6f8eedc9de3069eaa26dcaa61d43fb2e1f2a0cdf122b5395b2b3bb84 0x194554d6296de7c3e3ce38d52a31369614a90b61aea1f52840e11c8d779340a 0x1554d1eba83342b0328cdeed03b41b6cd929f5a3845968b3f5d71bc9cedaf0aa (-0x13ba6f9fdfa25b6add0a532a2d564c81912b95df10bb2fd5033287ec7d7ce59b));
  Dbl (Cert 0x2d6c9cce5fcb1a9ae8fa56e66ea545a2ee576254da138a6d0706c2c614cde870 (-0x26b9b1f28043c59f7b4333039133cafcd957ca5c7ec2f08b49cb7aa94b42efac) 0x2aa38173cf3842298149d7c83f3f8056a8a5d7fe64f34c8e72307325b9102aa4 0xfc708da1bf2b6e6b635e345d0e827291c92dc6f244f0bff4afb50ae1910c3c2);
  Dbl (Cert 0x12935642a6a1ca31ff2ab6232d4c4bfbbfb733405923ffabeeca3db7ff744d82 0x13c19e6084828b22ddc3ce1a1a88863511204b4187ffcd0db5fc17e3e7a32b04 0x7215e718ecf03fb835ee7aa8ae1367d69d717fead82f29f8f6e9f9de6236b5d (-0xb32eb3d4e35dae944ce6fb10dd5d63e9db32aff18115ea7cf2f53faea474db8));
  Dbl (Cert 0x2e2f5422d63905a4b3c4c7771e02d95935289abfc979d7571727337a8459d86d (-0x546486e030f0eb93d628d4ca733d9a39bac0727529affc5ebbdd779de744ee69) 0x2c141dfa248a7f690fd89c7d3e51a669ea3f717c6d93c7b006bb61d1662d2e75 0x7f92e7431760237efa275541b8304e7af87e0f81488b709190c40505daf0c7d);
  DblAdd (Cert 0x1f107067bf1d3dab1139c02caf3dad6a82d55b7329a49958cf925e59f9323c50 (-0x1e2f728d05400b87c57714077e24e4bd4c5d53961a1de88b587c007173287c8c) 0x13f0eafbdeef214eacc7eea0d92c115c58ae2258cea353559894fe5928b63fed (-0x29c7b0d6fb66b055d033d42dc3c269ffe286360779a2e3ddd7641d3bef3c332)) (Cert 0xb8be8c684973b64050407593b6c8abeda106de3e5b91597643b735c143105fe 0x995e36a9b86557712de44a84ab0b6603eb90bce9c904034b57a3d5db4a83845 0x2c14b4b54137a48446a34479e7ba8e6201d352763f4fb76ff64ce4e3577ee70 0x2b6175f75a3eca40df90b92d09c950d6478eaeb3bf6f3962b5ecd696068da2);
  Dbl (Cert 0x2d585fd3dd2aa7ae18f35a6ced7f2b629ff0e32f50edca4ab607361617b13a41 (-0x51046341a34b84836b67e2e866889892af68de12eead8bd9f6ed9521ab68c716) 0x2a7d8b63ed4ba6d8f2cd652de5883ca98e20d9732ac0299e06d2de23c5b2924e 0x253ceb3ca96b4c553d032390714a78d92fd425fab9fcb218be49c08e64ae249);
  Dbl (Cert 0x2d118765be16529ade032de82d820b1add3defa9538956205e8b39ed243b93d5 (-0x14336e8a04fd20bac4da59b8e1df59480f5f7ba49795e043f82e83362163289d) 0x29f92de1df3a7bbb0286e469facd89dc0a74241e705454eb43c5c29ce3c16aab (-0x62022426e746980c10344906e75b806e9be26782b4aeb67ab1e0e7cd3a351f8));
  Dbl (Cert 0x28c448c0db4d824d9ef77814a22e247355e78110b1498ad8d2329bc22fac7a39 (-0x538cd912b2eb971adc7ac804aae21949a5eecc023ea1b3eae6622a12dfed4948) 0x2257d7723a49167f9b93c35e9c6bacc7f8160a55d235a6480d808ed8dff92996 0x1a9403cd2a526072f98ebbe6b978f2b229fac3e0480da84ad46e4d28f9b7b53f);
  Dbl (Cert 0x168256f7b4863fccfb6a71859529683b22633cc082b2e9b4b27181fe8c090349 0x992df8397964f04def8b5c65b5225d23c6352e9895f3d43a6be4dd9b7a6b349 0xa78508bb6a13b07c2277db461f39414beb9446f1f573e8988fad8d9e91790e8 (-0x50385e36711b024c5413222fbb7366593f4a078c6d17b15e1031a31b45ecae6));
  DblSub (Cert 0x28029f4b4fb5a1fe18b9482ee478132af98fb460918379233b100915b43de580 0x2b9d3036ef78aeb0a3606e2f356dec1f0ed407545e0f38f3cb86ff2db7c3b5c5 0x2114935e908bf8c3324aa12e359db5ac2a876359791b347cead030a46828c106 (-0x2dd04c3fce8f44697ba9f80c4eedc37e0b69d69db8ff0e1b6c5b3618e85b1ca)) (Cert 0x2312e1edfbec1e01aa39a55a00a6d29c5f062f52870020466f77922fe8706cdf 0x13066893843af2e23e7897ad3fc98bb80cf41f0b3c3a3025fdba86acbb7faa6b 0x196bc6d3cb10bd2abfedc58ddb6378fcf26b9b4c3fed9c82aff62ce2ae366588 0xdbdade09e96a69e686ce7082e6026a6e79b409b8996b51e6343d4267b69b7c6);
  Dbl (Cert 0xa84a7539c69eb2d9c82a6fd037135c2258c15c7370f092a4007431e65babe4c 0x4509c7686afc926a091befdfebfa68c3812508b31bb05c980ae5095b4199ab0 0x24942a0c0709eb4ac77beacba6c9dccdedca0e1804ff21d4074f6f2df198bb1 (-0xc4708908f33939c9bbdbddd28f69a9972d4c5a032c8f9286b9317d8c299d40));
  DblAdd (Cert 0x8f79e71845c3fe5f4fe42f5968a6fbe61787a21cf9d73e852d8ff400733695c 0x87299ae14ce1a9ffd2cc9ea51846cbb5c4430aaae48aaf1b273fc73c976598d 0x1a963ef18cc0e5cef8b25374905f8165b40d4fa814fbf0a6eea09f1b0b861c6 (-0x2e76c128f0b9acd4b31cf746da07f99afba7c3a9a301ef9eca12d0cc75d8210)) (Cert 0x2d072423b5efb27b6607ae75218167eb9d74b6b968fe665284c50aab81e8650a 0x18a695f8c060b6f1c45503a7dfad14c3b22d2530ce3928717cd8d75bb2fb76fe 0x29e5d6d991eba85cffae24b44d0c9c2ad4073b443e3fe4834ba960dcd106a13b (-0xaf603c9d396a3b9d75239c5f557cad36c7036387f7cacf960ce4ee946b8de4e));
  Dbl (Cert 0x5f8246a8b4c5634135b391d1730f68f5c4712af1b799a563f3bc1207dc39e58 (-0x52d4b1b7910ce21c3ff87b1ea64ddf4d6ea9ed9ef3c4928b62b985334481ff50) 0xbc807989d09e8a7bbfcc48afe23b3d8b8faa3865edd22eddbcff18a4e709bf 0x2648a7676eb282e56b73801a1b1689bb345f8b7c09b85615fc74b9036eecedb);
  Dbl (Cert 0x16881087f61d3155f7a26c4c2df3cb5712ec0ee56768a50579402dccecdcc094 0x53a9366bf8a9738b25a22040dfadaac68c1f30942af6dc95d5d4a31fc1dad05 0xa7da49e193ff08a6df4b03328fd001c9f658d741c527f0e9545946777283fa5 (-0x793e6b3634420b97d19a3a10c544f3b1fb1e00b55f3aa03d59a6b6623124b55));
  Dbl (Cert 0x2e0e5f2183f6ac411babee1fd3ed494dcd31acd65be37203c3c83e1bc57d4793 0x83b02b01aa88f9fefda36b3f0291c404cb8de1d2ee6ea13dd0304ec4c3f8289 0x2bd54bf6b2126f61f11358bbd27fd9aa473b6358839277bfdd2db3140214d9d6 (-0x5952d089df7198bc025f0417a95d90b7288ecc3de4cb1aa797ee6234e6a05e3));
  Dbl (Cert 0x171b2c4f7896ec3ad49245091ae5f68166d5116e187031a7cdaf3b166f19130c (-0x67c26839ad3309440b2631541ed4b76d9b6fd1258eca58a20d9ab19a6875f9ab) 0xb086106ad4d7dbd9c8dcd21aa68c980b72d093e1072b2faf91d0ed08325180f 0x5b0efbab1de6ed50df504adc1db934ab1cd59401fe404a2e86d53d951df422f);
  Dbl (Cert 0x305f2e6f6a8a4723c5dcdaca50c28ee12b32963f541af506a6c1ff5617e107d4 0x1733878cea200a64de497afc3c6bbe48a9e518b6270096369b532ebeeeb4713d 0x305a0ef6e796cad0b90c9a82c2098e2565ab53c454cb7592097feb5e5071ff3c 0x3f946da95b0aea59a618f39f6e7e6518bfb1a88a04672ba6c89da7609ff922d);
  DblSub (Cert 0x465d32a5b5e0ceaa83cb399131bc98d2daba6c273191a426f2dddd3ae79bd3a (-0x216e47bb33541a3e65e34e14ad7dbcde8cbffaf61c24e2f7dc8b686fe76dcce0) 0x66500fff7d9ff93ef6042526fda5a4f114a7b50af9984534f75e45ea35c048 0x21c48f0df2cc963a5982125515692cf7b3866b8416ba252a490c224ce5eee75) (Cert 0x9e6bf197702786f3f6b9a55dbc079fb2df1032dfb3870e039b46dfda08def9c 0x63684f434941934c8e507ad4cc8b570e69c90ce564dfdc974815aa477c4620 0x206a11f43eff816f2e71b94d99997c4055ac6307ee556caaf4e297de4a0d57f (-0x53f48482ce94d07ea154c518ca42d7df9de938e124c01686847fd019d6cf639));
  Dbl (Cert 0x572da1745b61bf513dba54ec2a578a3540b8539c297138e1fbcc78dcf2c7b93 (-0x28131e9a9981aa954476b5d56e54f96119dc4837e915d2da015b27047231fd1a) 0x9d0d62c09ccfff02231403769bbc0cc8dcc088bbc2e52e360fe43742124e4a 0xd53c3996a67410516c96b53c6e2c83bec08c3e3e5518b55fe979d43c4b9881);
  DblAdd (Cert 0x2d84aa3d8955f65f249bf734437943524e31f4a0de91103b73c00615acbc23e (-0x18931f931c6b8cd0a148ab2f25d10d598ac7a094be8a8c142795f3ba5cd0d907) 0x2ad0b515d8bfaa43d00e594882252b4ac73bd122914aeda6eaf5c9fa870762 0xcaa8d01bce853dd3e84a3c10b7d459fd89a6cd2ed516f814f18445108442c8) (Cert 0x23cab36606820730af30eb9a33fbf1d1e42d08dedc43f5bfe0d28f3a70ff1fc0 0x4f0af791bb76a5acb413f7c6dd39f0d83e75ed0696db737b3fafb6a573420db 0x1a78f658347b668b038c2c5427a48ce7208bc62f36a8b86586db61e18b7ecb6d (-0xf37d4513de73ee6af527f83203262777259d1c699d5c60bce63e7ea788c458e));
  Dbl (Cert 0x802f883f0d60eced70362bbc1f2c4c1466fdcd2c681672a85fc0bbaf405a4cf (-0x24e620b30f06eef2a58e18aaa9f37d87182926adf1255ba4260b07497adc20a6) 0x1538d7412eddca8b72fc898e605699b88081eeb27de4ce91892a5cfa0f7a468 0x19a5f0f85f836c6ecbbf5398f9cf194112251cb82c3bd4fe4b311344a176c13);
  DblAdd (Cert 0x17e373c475ad56d53bdb5f450f7fc0e86e29263c1d2134a7b367c3ed72203b42 0xc49f64889e66ed02e928855a1c67f5e567656aab7a1c829f00e252f33e6a361 0xbcae02620022921cbf7c45f57766462bc8baec8b51d97760b506bae552367c9 0x88aa62d1c87343fe0b11de2b7ff322946d92b9d417e8bd377e45d5a76499eba) (Cert 0x2035c26d488da60dc6922ec2877eb46e1f5cf16359968064c9dd6e9c5bdc6867 0x2ddb41fcbb911b8c7075f024ac1feeb58220997c9c289a6d2429162f34f4dd 0x15707224fa1d423d2245549920908e90daabda9a961597266b7d8f98205bfb2d (-0x1d2d8492f47798a821ea50f6a173f534d3a9de0cb339222e4fb7350f36cd899f));
  Dbl (Cert 0x2dfcfdbadace61b7200f6c55b990115b1cf9d1c9ba18e8d1b642e93fa1e85aa4 (-0x2b0779d55c7092402db7ede00050c84a15a0095103abae58434d69e1609a8284) 0x2bb43cea08785c7e3b50b4461e1b758632139ef103581531ae716fb1e96e7874 0x188e7bd47f9b8e38c81092b0f0bf1b39d675f45f7dc4a795082f9b1d8935e493);
  Dbl (Cert 0x1dd75165029c7de9bc142ab19147ce20efdaa2e0ad3a910657ca72f79bc384f4 0x17baf7976571d911eeb197735f6f923caa9e87cccf97b1e6329e60135c95b520 0x1266d3ec7137209fb32f4b536648d495eec708b555f8ecc2ca6ebb855e42bd7b (-0xa2ee876e52aa9b1ad07fd1653b4a297e92ef99a490f41543267d132b2035f2));
  DblAdd (Cert 0x29e6dce264661dbfc7c20add3dacd3b0608c9f1be78550474846624017e39fd7 0x27aa8e6ba46525c4475a6d1973970823078701a66db9e911f2e757fb7f163c11 0x24483de8fdc43b50dc70c1863fdb82d0bd6ce3c9c05b100cecb3313b8e954120 (-0x9fbee4ca67833136622e654fd8754739278120575cdca058811edcb3901e8a0)) (Cert 0x1e3ecaf47a37c6b4354a7446260c4489c10984c2a60b7e9efdd9bbf6c777c617 0x13448b5b57570216a93b89e6961c073506a825395e8ed4a65784e4b94158a8c6 0x12e74f0cc6b1be63b42ace061d8b4527274e8a65fd129ced76c2292085a4beeb 0x712ca51769366a6656ed1669f13f1f64df6d030875b529d2d95493b5cd8ef62);
  Dbl (Cert 0x2480675c50bc6a7a4893b75d115afb1fdefc1b752865012596e467b3fa09fb10 0x503d801530dec464277b46307c28ea1836ae0c85eb6b23596c1133e27bb3794 0x1b8869579295a86b11ff1486601ca05b17e13488f0ae3b03ec75a16b1e52087a (-0x138ac9e89927bb42e55d9cf81be354974d6f5e2f09e09464c1f5d8dea2f94f58));
  DblSub (Cert 0x16f8a2210ce7d611aa2d4cee9bd5de63322f8dfa55f88430fa429205413afb12 (-0x7608e4206a9f908de500017b020365c508c65a0178482d01a3a7c5cf41816b60) 0xae77dbe3370735deecf16a1d6bd6ee38819c438af2586898e30eb99b870520e 0xbf3ae3bc14f5572610a02b7ce49d3219d9750bda6bc7a41fdd0ad7e097d94aa) (Cert 0x315b6b34591d6a7efeb59cb46289d30c74cf4232b849e323849011099045092 0x14a4eaecc8d6914a73eb66d5799ca6c2004f17ea1b69ec0f2a875827642a19b 0x325775d6323cf3138f6909ed67c4f65899b44bca8c52fe0b892ec178c9c2ff (-0x1));
  Dbl (Cert 0x2d4e97bf9b9fc981c864ebeb3b58bb2c60e6f4254e34d25f0b98f48356fbaf6f 0x1b33a1db7ad999d475e9e4212fcc967e989084ebbd2991b9b5c20583fbc671c8 0x2a6b38822c402fccec08fb29e297e2f1f233b44ded3c872aded9223436c121dc 0x12f340a940daf94b288e9af67c919d155e036a138e246998399b0d4f564e4684)
].
