(** 2^130 - 5, the modulus of Poly1305, is prime: a certificate for the criterion of NT_Prime.v.  Nothing here models
    code of /repo. *)
From Coq Require Import ZArith Znumtheory Lia List Bool.
From Verif Require Import NT_Prime NT_P256 Spec_Crypto.
Import ListNotations.
Open Scope Z_scope.

Lemma prime_p1305_lit : prime 1361129467683753853853498429727072845819.
Proof.
  assert (prime 4024685905107147541) by (certify 2 22247182620%positive (Node (Leaf 37003) (Leaf 4889)) [0x0; 0x0; 0x0; 0x0; 0x0; 0x125566; 0x3aaa21949b0e1af4; 0x6599ca6f411e482a;
    0x1205f4bd1e7cb8a0; 0x168c69358881635; 0x260210d5fc1c99d7; 0x323cacb5ab59d57a; 0xa42a13fa024ec87; 0xc3ec76a12ed7731; 0x351d0e25c7df7a3a; 0xc1b4f88826b837f; 0x8f55d2d378e365a;
    0x193e33e7e45; 0x6109036801df25; 0x19dca041a4e3c0e0; 0x107350b5afb53ea8; 0x294bc56d4c2126d4; 0x2b46013024bfbd8; 0x12103f674eda5b1d; 0x76b9a3643f3e7ab; 0xe38a81072094ebe;
    0x3399e7146f266404; 0x1e4b9a121cbedf64; 0xe255ceda0262c7a; 0x29e1740d0ce611e; 0x3a71ffe028e278ee; 0x1ff5d572a9823ea2; 0x3dca3492e25cddd; 0x89eae84aa2f53bf; 0x35b54c827cb9c7a6;
    0x3d6e726a7bed610; 0x2b9e3da3e7efb63d3f2daad0dd6a52e; 0x2fadd6a371abd8d7ce442b0dc6f4a3; 0x35a8a03f3fa4bc9d; 0x17f803f25fed6bb; 0x1f3ffc1b66857ff2;
    0x1e99457f3c35285de25d325429c9557; 0x82eb6766634a63ed5f422e2d342c578; 0x43e12d697e5bed4; 0x8a51b614c9f8026; 0x959f4cafcd06566256f98a3659c3586; 0xc3bfd6f5f50523c;
    0xba205c45f1dd5c; 0x1b9309475d4fdc78d6e2a66548504d; 0x160dedb69d4f1c04; 0xf22cdeffedc7652; 0x68b8d1d196f2659; 0x1364a5858c39acc5; 0x18523dc51020e241538a3541b77ddfa;
    0x4df8535318ae33; 0x41c17bc32de2d4; 0x291b2d921b2fdfec; 0x19858a7319437ea5af5b7eeaf8c7ca0; 0x233860a325c7b8; 0x57320aca3af0c7e0d07db9bcab5abfc; 0x10503cf2a23dbfad8a00fa4845de3;
    0x35b54c827cb9c7a6; 0x3d6e726a7bed610; 0x2b9e3da3e7efb63d3f2daad0dd6a52e; 0xdedab9b4c14387; 0x29353d0f7cec87c9; 0x3b82c2024136b9a; 0x2afd7cd08459b039;
    0x3ee94c8550db94e95fb36cd1e0c6d86; 0x4d84c48e3cce8; 0x14446ad4084acc3; 0x1a45ab394209b712; 0x205575356a0a25f8ff4450cf7ab0e30; 0x2fbb4ec3e54d936b;
    0x20ecf6f20f334e399fc53abd000a90; 0x28f9669c7e40d84a363e38cfb0f828d; 0x2984453ebb5b70d2; 0x997f02206a862b5; 0x89adfb097db17ce82b34f776ce3804a; 0x7dde6c77200633f416d7f4ec3aaefe;
    0x1c3242f488138b79; 0x329b93999c2e256c; 0x2b86b8d35a5bb48c; 0x72ecf837c8fe93c8a3e1ba6a254a7db; 0x906785f2f52fffc2fc5ebcc1e8e4525; 0xe4c8d339bbe6294; 0x24224fd18abf9685;
    0x5c0b6098931718f43498069a3163c3]).
  assert (prime 897064739519922787230182993783) by (certify 2 222890620702%positive (Leaf 4024685905107147541) [0x0; 0x0; 0x0; 0x0; 0x0; 0xb; 0x21ad672b47c4b5d56ebde5e7e;
    0x196f9ba830000000; 0x0; 0xb7588436; 0x12cc2c1da3b6a3763f889a24f0; 0x4aef4433687e09a0b516ceea2; 0x9d31fe42917a51e375ea07ae; 0x6c2eaf1f8dfb205e62ecf479;
    0x9c297395a6c9c9f936b69ae68; 0x8abde12ec2f8e7d347c59201a; 0x40636f24787151f1a4b6e7648; 0x5fd94911f15e4262de546321; 0xa75e02053c7026b5a46b243d; 0x86afa329b748dad086da72db5;
    0xce20e84151ca860c8f399ad3; 0x2d32ace49b9fed698edbc2110; 0x144f6eebc19ac23861dd0b818e; 0x7025e853ebf16ccbc1cdcd730; 0x14ecb586d0be0f7e65795ae679; 0x8dd59430a5f857a08cf9735e5;
    0xa0bb4564241431875307cc4b; 0x66d7b180ef0594b545bd12a98; 0xe908b8d10d04c1b2e484c792; 0x15ecd9d76607bbc86c710c1da; 0x9916d214edf64ff632b0dc05; 0x10be595c5b9b1382370076533;
    0x607aa2682dec5707abbfad190; 0xb55505b91a5b3ad2ab36a2a7f; 0x9349b6203e285ac183d79d2; 0xb7e6b8afecd8c5c3d95b1eafc; 0x2b29c494ba61c1ab3d23c8270;
    0x5bd823c67d4f042758062dc40f477c9bc432b4e2ddf6fc2b; 0xa0fd91d6876ffaa58c62f9601; 0xcd8e897f598c552f5396f79da35153a9d3607e2005cf97e6f;
    0x42ce309cdf0208b6b9e2a1cd0644f880e98f3606d569e2296; 0x806d320933424311194d8db6cab14621af6b6db3ef00da0b0; 0x5687b94e6333ddd8b4a261315b421cb79c64309c3133eb076;
    0x4c0e9e1ebd9c73790ebd08514bd95200475d6a7d401d0e6f5; 0x61be74942bc3b13fc2269367; 0xa0e69523c77dfe156befbbd885e266befe87520e991b4b3b2;
    0xf8f080b889fe2910846162b592348cea39ef5d5be997a0bfe; 0x429bbcfc7387a2820e32daafe; 0x42dfc68121a68c224443222505037d358ae40ba98ae4d1b; 0x53a0b1e9eee018781fd3ea84f;
    0x4b4f335646b3b10af86a4be28318e92836120e3e86330002d; 0x44977b5745c21f44265f501d; 0x1e2e24cd36860f28079a7d75b; 0x6a477e6cb50f6f5f9cff85afc;
    0x70b7f16f7868dff388afd5bf1b9cbbd377ed222c6c63ffd0; 0x3c301bca85c3822bda2fc1916cde93d91b08e6897639129ef; 0x5785b8f18969efe672fd64c98c0d05b32e947bfc3744ae4b;
    0x235c1ce124e346f6b5dfffbbe; 0x811470b6a362010b32bc5f2fcb9984b221319b9a8ea51e9db; 0x92c40f275104fd488007af4d3; 0x2d009a22aa666e4e1e0b6c263; 0x3726f9724ff97c65b14f382db;
    0x68124606001736c21b5d4463; 0x15725c1acd1ed730485cc1fc8; 0x6cca01a36dbf3d513da7d696e; 0x1af64f9a85d87eae766448290665b2cf88a8e96a6ea4517b8;
    0x9a822af837bd29168d0692e97bb5bf9a8358406a425363c1a; 0xe7f6ddd354901ae6a64c0ee68a093e211b518d3f5f2948c98; 0x12886e87676cabed348863ad; 0x99e11061408252b84792cc592;
    0x2163170515a5a79fa789742ee57f170820744d5ba2fb75994; 0x51f16fc0513927b4c32e64cb7; 0x72bf32409777f012b0719c1ffb3544302d0f7de4bd2ebd3d8; 0x29530ca6525b16f406effd6a0;
    0xb1bf97d04766d5fff54a8d97b; 0x3c2aef9a71a1265c372e2b396b300ab248e22007203c88f99; 0x11e7b01fbe970555cdad5c872e63118eaf285a697250bc0855; 0x1269a272a8505d27d5f4ad298;
    0x78b883ce834359319ba5d28337209c1a5f8a00e8e46ecf6b6; 0x15e594d350e7ccbcebbe11bffa24b91913dc8650c19989860; 0x5db1cb4ea2dc30cf2b005e6d02c77a8cdebd6410492c3df;
    0x9d1f3dda7ecd1e9bc41deb7d7; 0x42b8947dc5cd147d66ab7e590e613f2cb84c53f61fafa79; 0x10444da5bbc8648cf243b07b0fc8679265bf8130e0886f7d5f; 0x1ee81ac281e5940aae023ad91;
    0x712641df6ed97772e8bf1fb69afae3611fa36898c05bbae4f; 0x218db12d9bcb63a73084df982de9b454af8f0b98059a42664; 0x253b56de4821415f0910bd48b;
    0x65825de02f5f2a91be6bc160d25c205ec3393398e1d45f3c4; 0x4d6cf98e5f6bad360259fd6c27e48a23a0ceb8d02d5d563b1; 0x2f91b98c302fd915a848010fc; 0x39a741ae7cd5ad10cf9e08a4c;
    0x29ed200b53df6745400c61ba9; 0x1253543df4d41e7d3cd16ee18cc94988f4a0c12ba6cc5315e; 0x16db228b936f22c7789cd8fcb; 0xf271f5f9dcc15daa43df27ed43c7ef6df5741fabc898d807d;
    0x317f69a8a8681a0ffc255ee7f; 0x8d6115cc2492d73e5d2a365d17de0d861bb250aadb765b9]).
  certify 2 1517314646%positive (Leaf 897064739519922787230182993783) [0x0; 0x0; 0x0; 0x0; 0x0; 0x0; 0x4000000000000; 0x0; 0x4e2000000000000000000; 0x12a05f20000; 0x0;
    0x11efc659cf7; 0x2c30ae09d8cd824fb59a195598207768c; 0x2a94043d7d02a9a172bf9347e44f39892; 0x23396c2b564846c24cf8a3b76c5a060df; 0x68b5cfb68c08f6c0ee717ea939de928a9;
    0x4a0c57218dbba6f6f0e3bb79bcd4a5dab; 0x158ea8b20d5503238f0ccec1286f5da; 0x163ac02485ddb8bba621efc4f42e5eee; 0x402e8b0676fee2f233bf83fe300283bc;
    0x5cec30b6cc1a622d471412ca0b340b7d; 0xdc9d1b60ab47fc5403dc356ae2cc018e; 0x60c2393a5942e5f285d5f6a4662cd4d; 0x4219e77f32f3e70fbeeb7088069ef41c2;
    0x34caee068a59b1a5ff9aa108a4e0888c3; 0x15308d93de5432598056e225fc08c72de; 0x77e38f96abb2c8c5cb11394fab311ca8; 0x333b10ba8f020225881048b0c9766b8a;
    0xd6013777cf3c700d250a022da500f011; 0x197ba65c221599b45e864e015345604d2; 0x3c2dfb2bd8b98bc8ee949fcbb17fd31c3; 0xf5aa33b0467cb901967af033609c0e88b87990d59cc62d94f923d50b660acda;
    0x8bdbf67cd52e3036b584a113c939b6df2164b1c4fff9727f39d3406105ac3922a; 0x23db56846fb80feb3442a5091a1d4f1e0; 0x4c9e6f6c2555c97e5bbc3636a28a478cb2fee1af184038431550f03a94435d36d;
    0x2b26a27720a69d7c140d90f36a2cf6cf5; 0x248e0d490532aefdffcf6c6c2a605b872c3cd4b7609ac404422466efa557dfeb2; 0x138d34792df55ac9bd35c2db7d1140fc;
    0x2956496217993c80c807bc4d3158bdc19; 0x112a10808bbb8cbe8de10db24557e4e752d7c3ccbbb9b0150da21a926b5068a49; 0x156391423e33d49d64a0194b5a6fa446d;
    0xa1cbb717681f31085eadfe721f5ab29e3970f608fc35300bc5b9bbfbb4e7fa17d; 0x2ea1c2902af9f80d0c1f8d75bd2647138; 0x376aeace84d9f5f72b0e4c98957239db1;
    0x3e50a8cb445d13af6f3803f742d506063edd550ae5ce49938e18ad24eb2106d78; 0x40bf1a38453f1efd44a2e4140f51ef48; 0x1dfff8e86bbc9da11359f62e5acc505ce;
    0xd70e1780d2c5c408ea3f481baf936f6ed59e671e26fde3f9b39a7494a78c2ea8d; 0x1cb2b1c357ebd490e7d7e3ae215e212e0; 0x3d3825be09ba4d29063ef0ca47a141814ed147617cb573d6e1ac29d758242e1a5;
    0x677c472fe21f1aaedd3e8b5a118ae080; 0x1042c00d9f1fda3523c62a14c732f1bb; 0x143adb7e69f97cdc579d282f665960fda; 0x4960044924e707be6d17b349ea47a5ec57964c21c7eeebed1efa50f54a7b9991;
    0x8e6181700ddc27fde52b33c2251d02a02dce799935b5d1290927645408ddfe8f5; 0xdb33d94c4d65fe4d61313cf8d31bad0edf02f0ff6969ddc775711cd930e8a173a;
    0x73e02b47be97c7831d3c9e1bc981efab537d33daf8a639276b612b68e9f4a746a; 0x50474ebe29af25f7e2ee34a55833fbd526f52b01696cc59b6c2c6f398f1a956e6; 0x3656da9ef1152070dabdcfa1261e71794;
    0x2567117a64850510fb04a32e5a2a8d95b; 0x9ce389e2920b9ce6614a99c759008721; 0xde9104a80855c9345a93fe37ca691a3f84d9787b4a2a148b21270a834da54fe99;
    0x1231db97778bbbe5cd7e2aad73fa849ca430338c2f5e730ffac4b8cd2205f0; 0x3ccae3a957d358829dbfa5e98b4ff4154; 0xd7227c962935dc077e7328e338164f4; 0xa511e77e7c257cea0e8775a9f75cd1;
    0x373a2df2270b46356a4c86af1b76695ea84ceb93bb1dadae84afbcc3cb4bc0184; 0xf0d88be98abe4f0fca81147f90962905b233d2868362ec3fe14c1502d6b5c36e; 0x1d53b96c8a75c5da0c1fbaf37fa11b813;
    0x10b21a179e5370e75d5dcc262b6ca65a6; 0x193c191c508c7f308fa890a3d267e8814; 0x2fec20b0e9dcaa55d22259e4215c3d27e;
    0x8e6f913ff23ccb91b5b931fd7e752f1654acabc49f88261af3e0e0655beb968b; 0x8052519c5873673e7768f01538da68543f808c8511fa5d5e454dd6df901e68f8e;
    0x57502fa2eaf32ec44b9c98a5f2c1df3985bbffd626d111b74a277d64b4d09cef8; 0x2f53d45275d2f792519616b4b72ef7328; 0x8ef54f1ef85ad1e78d2b24bdb61da776405fe75f6d96698ba073d7debe4496b48;
    0x1699b1b6e9a15cefe4e1fc15fd6a4d00d; 0x181b93eb574056534667e5ab6e5026379a04297f038b2f1edce3d4557c08a1053; 0x2e540b67a25a6d59db0bafafd360d7bc;
    0x33c059d596107177e4b74e6c987011fa4c25dad4050006c10029f9bbc97acc910; 0xb6058b4ff014b0e819dd6797583c22ffd38a61f1bc855afe1a5b1d9f3e5c26a8;
    0x2a8778a4540541dd1e5946676710bcf4e8144442a835b423aa7a6945cfb1d14df; 0x342a11367579eabcfaf6f89f1c51067ad9eda01df9146d61264dd97aaa8664ab2;
    0x5669d8271d389bfe2e55ddadd88e856aaf979d00278a006e649167a6d61ab40ad; 0x9e5802e804e426b5bb6490d12a6743f52040e0491a6705ca1c151bdf11e3ef126;
    0x16ca49a3ad2333c490187d16a528a303cfe44ecbfcc228fec4b91b0ee911b9ce3; 0xc2552d5c397a87dd5326143139ea2e95f68ab30e20a298d4d3058ec50990d9df9;
    0x9c1b7a3633bb2280b70a27ed3357a2737ccc0ad2adcaa681040dfb23b4fb8b902; 0x2cdde9bebe0bef026820077036b566ca9; 0x2d6108a8300a15e93adc5f1ee7ae20f276514a32c48d4485a76fa78ccdf168945;
    0x106a8c8803c3eec95b89a356f0804d46; 0x4cfe2b3b552190135ec5d7f760e9b6485831a6496584938486f417df073bf44fe; 0x10325fa9a0957d9a56774efcdca5580d0;
    0x65f9b2476e47e0f00ff7cdd19d612395; 0xc616c1fac7d42fcee7c1d79369142c5b800473b4c4485016511e0549e34b96ef; 0x1e14089d72bdbcb55fc728d1766c433367dc757c4689644f7b3c2fde16f3df79;
    0xb9448217cb4cd23d64755d7f8b96e55dc26f8b46c4b41ed379d0fbcb57f6f8835; 0xaf55097754fc002bea2f51d9c1c69b1c3e5725b3c885d39c998f79368a380055e;
    0xce9a3e48e81a97675b1c82b5b3152566d45f9b68b6508c150a7281f759ea0d646; 0x2acacfa802ad2e09ab8e03e391bab18d4; 0x1668416e8b8ab20119a129feb49640c9ed64e136a1095d7b02b5fd6652339ad60;
    0x11283e9232cebb03693725b6a0e0c0e2ad2d137d65ecfa8804a3a2c34e8cdc4d9; 0x42d212399991357bff7959470d8f521; 0x46dd87a199c74ea442074e08195cc6170510bd2efae6e36c592bc27d14e5b5168;
    0xa22818dc1d953190e9fec97838be9942d9d124393d36acde566c9ed57a391716a; 0x65da0185f700f534fa88669aab9106f8b16682386dbcbc078bd0c826c250d6abd;
    0x455c6b4ae7fee86c1b9c74ac21118d0a22955633f4f4c727154fd721e72f90b6b; 0x390f607fa98d03a2023d0f5ff08ca6f31; 0x21e23483e188c5d901fc036d35fc7b94144c9f68227cc0b49770aeab21c3fa153;
    0x666eddf965efddec816a582fa38eb8b167324dd53e8691e7e9e7e277d911f728e; 0x19b987c6b918c1da536549e7eb229f0fa47cb5eb83b55b74a5d23a55307709a7a; 0x441b4c9beb4701137236876e7af626e6;
    0xb85e9b21c5b170815e60cc24ff70651d4f839d2783e5c65f7ed6f741d8e5eafe; 0x958cec75d5b7a809c90cad1f2528d42d111679e190843991f8f6613fbc60a728e;
    0x5ac8db9813c924340b0d294ae5be4a21fed52fab99006ee99ad6913bf1edc4570; 0xd44fdeeb52496369e3c31c481f0f12; 0x60926dcd2534c5e120f44b30c36cef30bf820beeec166f72a3a0ae96f87e04ba7;
    0x9942c4f2b8e10ce68b44727652656c3db70fdf730692e671812c0508c77184; 0xa488065da0e1560ace962fd05b356116eb256437a41db12ad323db76c798136b;
    0xcec74639e5b8051b768a891d13c8ff051bf0d3f93b2e92d1d7ca254db4d1393d8; 0x4a72212053dad72208eada6cdf5b014; 0x285a7eaa380804ad7b9f37d84f6145c047673829a9fc1619406c1d2c384bb7aad;
    0x20785ac526372a1dbb0450eebdf916822e4b9522741b96533c828b76726ca8a9a; 0xcfc955cd0ed30cefa95ab86d928488c42b743f8daab76f89634a5fbc9f264820a; 0x2d532899eea0aeeee832b311d66b3e94a;
    0x34264487c089e4339ffc937c57889ad46fd8c417a34c0402fe4b373fd2375e46b; 0xb2ddccdb26d5acf06833a402289e4cf7edf71d7a0e9702d652fe694b514e5aa7e;
    0xb4705b51044bf9ea78ef49a07d319fa6ebfca42cd362898127c36edad715619b1].
Qed.

Lemma prime_p1305 : prime P1305.
Proof. exact prime_p1305_lit. Qed.
