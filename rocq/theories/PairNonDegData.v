(** Data for PairNonDeg.v, as integers times 64^43 modulo q.  Generated; nothing here is trusted. *)
From Coq Require Import ZArith List.
Import ListNotations.
Local Open Scope Z_scope.
Definition w_one : Z := 0x7c5909386eddc93e16a48076063c052926242126eaa626a115482203dbf392d.
Definition w_inv : Z := 0x2fe500327f5ea9adbe152ebccef226fcac69188e4ef3936828798b23a2b07c83.
Definition w_gx : Z * Z := (0x4944420fbf6009c7e400db15b01bac444a98fb2550870afc1cdbf1659f6860a, 0x2397739a0a784d826f54fe3ac8ff65bbe98e0ad7f799988582b141dfc8b487b9).
Definition w_gy : Z * Z := (0x12c9105616e4279ed587986507e9eee3337b0aab9d250e39d21646319838b003, 0x62e35276ec3f1df9f9491424b52e97dd9de79f7618328605404e14443e45e71).
Definition w_c61 : Z * Z := (0x492567a83a5135e7761392f8db57589a2fb71ffd5c5fc385d9bd4136494b232, 0x87853949676ce91b2ab7e1466ff1fd1e1edae01ee8ce55e05b0d835f9322587).
Definition w_c62 : Z * Z := (0x8dead0364737f04571601bf53d1501130b5163f3423fb3d18e17df3c629369b, 0x0).
Definition w_xih : Z * Z := (0x3a8d7a1f06f02f79db675b8610d4482263f85d74b798b87de8dcfec1b63e0cf, 0x20ef94b173e71ab48b6a237b69776893583bb491a745e7c6d2fc4f4cf682e747).
Definition w_u1 : Z * Z := (0x271a25040d4daf88ba00370eab773608ff6b44bb345e7d609166d1e7386dfd01, 0xdf3f1c2232e377b6014b04ad7341ccc4a866e257bc0dd9c3165010a5ec2d4f).
Definition w_u2 : Z * Z := (0x1fc010dbf5d044917fcffbefcd4c47f9d46a123fc5a36ce611ea8c02d4948d7f, 0x0).
Definition w_g1 : Z * Z := (0xbcd35d4687ce9f046f7b57bc228821f29ac75ce1ebede2abe6e9a58cc51241c, 0x12390de7ecf4b51db86f88d2cdfdcc3da8ba9ffff105bae14c6a2c7658a7b881).
Definition w_g2 : Z * Z := (0x10a43d96eb615b98388049c6b4351063c3175851a2ce5da72a36001403e86fc8, 0x0).
Definition w_finv : (Z * Z) * (Z * Z) * (Z * Z) * ((Z * Z) * (Z * Z) * (Z * Z)) := (((0x2ed3a1d8bb7eec514f06699eae6699b2d1f5d48615b65478f62ad41065bf198c, 0x8342381000d62293f01ba7f446e00cc87147bf07c549984ba6008f485de464b), (0x204f25a3f4b2819db0307368a22e90c329b4783f0e0886c5c80350816fea71da, 0x2af2dea04c43b60839d08c45e9f8b8d8a906956702f073e4bf121eb876f690ef), (0x73ff4dc698ed298f8b48c7d3923741de86285c83e91371c11138d790dc27f54, 0x1b1c508e7d33c9ba8a07a95bc6cf3a00b71795ddaca695b963927f5e244ff2df)), ((0x1687f15a1b48d019930d1de2be90247ce49d50533d04bb22ad6807449fde0292, 0x24c42076c8116a0ec0465992c55a2961ba19f7825e53592515d3cfd877177ebd), (0x22d53053924fc17f3b1adb998a8a9c16bcf1b4e8a1b0f9517bf1e294d5b614ec, 0x2de35cfa7edb63d65664c5ac9e30e827a7418d3e46c021fce75ba34d57fca35c), (0x15d5f0db08c2a2be77812b4f96e1cfd53662ec3f3ebdfe304fcfda2c84454580, 0x303f8615060b4b6c6034318ddae69074b96786d0b66f4fb61b7f505236ec958e))).
Definition x_naf : list Z := [1; 0; 0; 0; 1; 0; 1; 0; 0; (-1); 0; 1; 0; 1; 0; (-1); 0; 0; 1; 0; 1; 0; (-1); 0; (-1); 0; (-1); 0; 1; 0; 0; 0; 1; 0; 0; 1; 0; 1; 0; 1; 0; (-1); 0; 1; 0; 0; 1; 0; 0; 0; 0; 1; 0; 1; 0; 0; 0; 0; (-1); 0; 0; 0; 1].
(** The value of the pairing at the generators, fqn.rs:149-243. *)
Definition w_e : (Z * Z) * (Z * Z) * (Z * Z) * ((Z * Z) * (Z * Z) * (Z * Z)) := (((11907634743161194408873982789085709415481729474237269548127631121923896024877, 21888110022982235614184170498313801301682053695284738443284537730030601181149), (13446781273489768982378020697653976390313206699534056728220863440363994408516, 5225671346139193650073143038340945481309615142940350253367130703357013617578), (2337185310805040056175945729288060228546917180905913781391209022215965614594, 1170225834527138994463140541343728690239482970354972395403956557771175376421)),
  ((13005993765593216869780403876756824465305160818367297892422489289504945409341, 18060210082162461157555954901311848658773028794832558005362478457248084142361), (14112169702077636003634898487210296158668399031042308341273259193633099383778, 16029616959200911474729222121634499271139342460274173853754982786459860598198), (10572992000397559885090848557372444016089343978790747311148213899436298093943, 13144528600163580732079215608140290662582770130165589790018993060158972080699))).
