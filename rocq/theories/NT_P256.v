(** The P-256 field order and group order are prime: certificates for the criterion of NT_Prime.v.  Nothing here
    models code of /repo. *)
From Coq Require Import ZArith Znumtheory Lia List Bool.
From Verif Require Import NT_Prime Spec_P256.
Import ListNotations.
Open Scope Z_scope.

Fixpoint nodup_z (l : list Z) : bool :=
  match l with [] => true | x :: l => negb (existsb (Z.eqb x) l) && nodup_z l end.
Lemma nodup_z_spec l : nodup_z l = true -> NoDup l.
Proof.
  induction l as [|x l IH]; intros H; [constructor|]. cbn in H. apply andb_prop in H as [A B]. constructor; [|auto].
  intros I. apply negb_true_iff in A. assert (E : existsb (Z.eqb x) l = true).
  { apply existsb_exists. exists x. split; [exact I|apply Z.eqb_refl]. }
  congruence.
Qed.
Lemma pock N a R t hs : pock_check N a R t hs && nodup_z (leaves t) = true -> Forall prime (leaves t) -> prime N.
Proof.
  intros H P. apply andb_prop in H as [H D]. rewrite Forall_forall in P.
  apply (pock_check_spec N a R t hs); [exact H|apply nodup_z_spec; exact D|exact P].
Qed.
Ltac small := apply trial_spec; vm_compute; reflexivity.
Ltac certify a R t hs := apply (pock _ a R t hs);
  [vm_compute; reflexivity|cbn [leaves app]; repeat (apply Forall_cons; [first [assumption|small]|]); apply Forall_nil].

Definition hints_prime_p256_lit : list Z :=
  [0x0; 0x0; 0x0; 0x0; 0x0; 0x0; 0x0; 0x100000000fffffffffffffffefff; 0x1ffffbffe0200000201ffc0000400000002008001f8003fffefffffffedffbffd;
    0xf423ffff32ec00012c64000030e8000022500000f40bffffe513ffffd623fffe; 0x198f8051de89f85a1cd2224800299e9a04bb14162174db9dff35dddbfc9facede;
    0x333d8a413e0e3e70c41f06ec460ea354868b43581244a8ff5fccfeb0f723485; 0x7ff3e09e840dbb742c1f8334a6a75dea3247d17c9e38b4de2a9a9c77a19cc6aa;
    0x42fb2ce328880c3257b5a882cacf2325edc3f80066dd9b8ea480ab420052ee1d; 0x1073d4780777bf01e7d3d556d47272902230b24170d14556afe78521a944b0314;
    0x440b895dbbeb56a2b04dbcdc1a174519156abb9c0642131ddb19408b6c39f9f2; 0xa06734411ff17a158136f355a42a30de461becc85bd613d65d74b3193c44a73d;
    0x6ed7132dc956f6df8531b7ffd9e3f1ce7e0ce84616c0c2b61e58d825220be88; 0x173aa52d5408b48310230842b8cfbf07585b2a5973273852417e135eb6e3e89e;
    0x2f0a4a935ec5ab4a372623375309247e41916e3f120556c3ff1359bf8532c0a1; 0xb01b871abd22253665ee5206c5aa6b49e34cb36b8225dde4dab2510d7a019dd4;
    0x4d9343c58a4dceef81960d17d0f4525de788a0bac288e4642314914329927cf4; 0x12e69256c6d369d1c558016c52e38206e817cd549d8eb2f1ab2afd2814c9a9a;
    0x1b4de81a806970d2717a012b59b4d70d5fcb99e08d731e595c3a956ec779ca9d0; 0xd78f0a75be0b83c2c8ab103d2eedcfa6559c40ae2cffe5bf78908502c303022;
    0x3c4284c5f52b360875dc57bc586082f02a467eea864b4679c25c1aa4ec333c8; 0x4777c9637989a0fae9500b3437a5bfb823c45ea57df160f96ff284838c0a90bf;
    0xa9963f9810c692bb01975e908c3a5d6f8c7b383b81ce58ad529d297f6743ece; 0x72bbc51fcaa2f61c80299141f9b8d81dce046ddbc5333d834cc4390c925a2fee;
    0x406637a76b8b45d3b28caa8fed46c87f74bb27180d3ca48c97cf582ad49c8332; 0x269b825792668685831aba9a06c238e1f3b761a59611292cda2106a225c23b91;
    0xa8a3b4e8875a17903a3ef30bc71612708079a8745a99c09dc35136ed0ef08a81; 0x3f2e668e7de11dbdf1104a565bb2a70f08d1442c9c7dc8d09b6b03b1f7ea6ac;
    0xd4411cec4c676705d75e5260daf4fe2543a2421952192a7aacd12ea1030278c2; 0xdc006b9631794a0df4cfacd39d4403876ae42aa7895517ebad3a4292c71105b;
    0x35aba7b08d2f86a2d226a46e18af3aab5fd1f35f498b22d5d556a59932deb46c; 0x58bd36d671fecbe315bd545526989d020bdb361989e0d1e22e380973b0fd1e;
    0x10f12bbf9e208a7e03996307a58b79be817763cc9c678c6a8e89e3b3134ece; 0xf91d4716f8ae2bf31e4eecd9b9ed3a0b8b967f96457eb67d67812d65c6f3647;
    0xda9b372938e743b82fb487af3fac3f3d49fa3bc7fad2c3700864830898763ebc; 0x690fccb8a5b115c9fad94e78722299a7c3022387841d03764d6c3a839d83986;
    0xbe673bbe10926b615e64e8f5a3730f61e878765fa9ae4d72e17b42c169511891; 0x2d5930717a276cb6271df3da020c78ca19a57d02344ebb612d0bc3a55240cfed;
    0x5a3674260a91bc7b3806e6297c17946400020fca79ee0e61a81750ae31be25a; 0xc97d1bf61383718f12989f5820f5dbec065c0d9262f4df9d81232cd938a701;
    0x1882bae0dffecdfb8f97fb35d2d0eb2980c51b084fddba5521fa0e93a55ce3e5f; 0x548d59c7c36429a537ad97f9fd6675e3de0a16500ea6aad45b666afe7713bc06;
    0x91dfc4f6994ad745bb2cc8edcc98d852f2b57a085e94d295e7d6cf9d302659a1; 0x10555e19edb235f42c7dad6c24e0e487ab6675dab6ae3d366909634d4b13f7e30;
    0x6d6a9cf64a83646b8fc602a27bbdf0b2f5b4543e71aa2bf9ccb070b51aa5805; 0x1353a78b39ba9caee80d6f114a9730e20469da644c3779200a3969aaa189d273;
    0xbc68140c6224c161aca05700db61933189e017763f71f47c15b36f939937e1a; 0x8f542a69cf48fd41bac327a1d5c85c12106ab7e791eee4a333e2a739f81d11ba;
    0xfae1b94bbf5f210f0cc42a694ba50858e1874bf10f0b2e420cccb1bf313934a1; 0x4b9b6a24518e672b2f0f5c5f46aeba4880b760acdb68ed510b158a66794c29e3;
    0x4e6114de1d47bab452182086a0751b08b932daf05a33d4e0aa349d4ab0199b8a; 0x31276503638518eddcd97872956fd70fde574ef475156ef8da027e17ae519756;
    0x19985e2c5eda035cb139a96419ace2081a19a9b44517a2c2c06dce7ffeae3de00; 0x39d86a3c06e3622fc966cb2596957ab1e82e28b3c75ea6bbf75028c177822ca8;
    0x771afdd1cdc4cdb99402c57769064718097eff3f93a43617e717a8f94d4e528e; 0x105fae13ae32e43e6f9ba065e127da11bf833066768038e67cc9fdd21e4940217;
    0x324aeffcfc520dbe28695b9f0ac56b9f83730fd9eb1cf8243ce05fa4f82aa373; 0x1880597ab2e7a4e74e4bc4b40e6bb810d8820fe8f675a0ee30449be4c5866d137;
    0xf87b5e29dbf61b31ecb5b534fc78316a18bef765f7369842bf6eb29b1c281c63; 0x976767b35c9af50a4a679ea1e1ba1ba88f35bbec2beb2d93aede3b35a7cc386a;
    0x31b264bfc2c111d2dc7227b86519ddff3a724448ff46f8267e5b52549804b; 0xab983567372536e232a313b8023b0f546de81bac200dc3459920dd3171adb3ec;
    0x66a81889a92ccfa2a07ae7e2342c65b65b03499ad5bec661bdb7e0b38c23b0c9; 0xd3764ea68db89c7e2ea63a88409b291b921496070ac79c23295591c9008f2007;
    0xc646917ae18228988b1430fbbf05c1cfa472c135d83560d5152726d21f11bc90; 0x3d1ff03708e302949017cb10270e0c8767d39bd7b0cad1c6aedcdf4b3e0b7aa2;
    0xd2e408d979a365319d4c2848b59144251d3dd044a16d94e95cff27178beba374; 0x7c01b595f31e1110460765e6610ee9bc7f562e29af1ab76ace420173be42b5aa;
    0x4f2dccc2eb419c5d5cf9dd6dae16b22ec5fcbc2951cce254925f1f6e896457a; 0x1f8b532a85cfe28d15290536585f5390178a3a8b550260d3434388cff872fe67c;
    0x4e441b4b505a6e9197b7c405b563303213ff1261a6ea22aa3e965f0312f21e; 0x5d22d0dbf7df95bc06e6610b9cc1a08e5a6f315d847142146e6f3f7763429e7d;
    0x3d70b67efd8e04b8d3378bd91345365d4d98d3488563e3c44ed0ede1d0a24928; 0x1a0896d470b89d0cb794f5a35d8f2093a2cddeac03afc1032166574d21d7e71e0;
    0xfb1d232c702bf10f55714e319cac74122052ad9d1c746e8fae9afd4236439e24; 0x62c2c91e636416da7856b7d9f4e73b91ed6dd4ca69ce9c3bc1f7064abe213407;
    0x1a84d7a412c7b96b468ead57b39f0231c170e5480ab93d8e6936a082949eeaae; 0xe5d448f29c84d0c76e2cd812e66fca81bad56f57492e33bcd47b2fcf49ae0a2;
    0x3381964963b9c838930e20c9c225e49c7ae527369b6c7c81946c947a13dc9; 0x8cd874112645f2b5fe7e50aa192a81a4f8a443394389dc76be7b5a6435a2e9c8;
    0x1412ad8b8d3eab8441f3ac7c2f26533c708bd28c667f0a2dd4b25e2d0e3f69d8f; 0x797fd1ecec15af28dc5d7b527197cdf08e7d360be7291187640700213cc7bb;
    0x22c286acc28e1ff8c37d5ba9268e603540ec690ed177c4e491fa024c9e2a7a50; 0x14b2100ff2891af08ccd33930d80ab3fe889fd08bb79463f0e5ecccab9dc8977e;
    0xb37f01f2dd01c3429e5194876628bbf38b9057d0cbc151750bb2250a8c4b600; 0xd23bd7212465f1e5c9f6046de364d13ebb4fc7b37453cd515c0b5c7518e5b013;
    0x256d1c71c994529084f519df0b2ee3ca226fdf5bcc93f2dde9f691e97a9c597; 0x10bb08e15fa5a0c0ff6f49725563c84c54b30e94db8c03b91b63000960922d56b;
    0x14a4ddd10e6cc88f8f8499cffb6c34ee972acfc57e9bb36852529905a72cf406b; 0x20537f2c3d910d8005e4a969a4fdfb5e0819a7992ac991b31bde5855ed9d87da;
    0x62d52527580584eedb85101dfbc2c1089af049e3818a0eec50219511eb6845e1; 0x1019d5ffa8bb34cdcc8e676d12def52f92171c03a4311f5039455cfae831aee4e;
    0xbcf426bf3593c2c682db8ffe1ef3fe375c77962c81a3a227cef98fddabb7ee97; 0x34c04c3eba99cc16025c7b96285764bbcd7b7abf16096f4caccdbefd2f1c6dd2;
    0x261ba23f23653b28dd008f846fef8cf56eb4b787a250c51ea2a6c2af8bad1247; 0x1081e91b067a23d35cde8df9bd85dd063bf1054397518f6717f929375b432743;
    0xac1e81ed757aba207defd0f6307e9de8545eea03237f76a3ed4cdb229b113c90; 0xd8316e152aeab8d169c7da252c09df4cb979b9aa7dcb1daa6304bbe9c388f630;
    0x169668aeaf2622a6d87bb224061832f06937a4b54ed0f6d12385ec64afaaa8a7b; 0x1451555161327ed85390c9cb57565c612a40f5eb1a20d1188add306d353e75d58;
    0x1328077cd9ab0b263970ee904c1adc18225008a8c672a2f97abeee6c8c1b96dc; 0x8d7e619ace09888b220492a1c068edf83fa7179000d682fbdccf2a490edae896;
    0x3181a59d5a6f64362bdeb93ab8e6daabace4710b76ea4b05798a19e3111b3768; 0x17b868b54ddaf7080e5711f4351510a526fa0d37813f39ea6341bd650a0969e3c;
    0x5641a70e23be01e86943603e215d5324477ad2b529c7bb361223c274f83bf42f; 0x90895e8500524939f6c9ee12a63ac84428b5dec153cd8fedf52149aad19fa93c;
    0xd27b5df8dec5222775572be7ff5193549d52d72e1e4660bdb2dd9587625d0a41; 0x2933fc2b2003258b45d73d53fb0ea5aaa8050d881287fb1bc09f76dc15916642;
    0x7234cd9b4e052af0252f678904f17b86c2865acf65c817b586fafbbd8f0eddb5; 0x118566b668a00113a2266e1766a14bf36784dac275af3ae8f1844e6810a32bc52;
    0x751bb5a02bd14b4f773fd7d6c0cc0cd6912c2fe73737d5e80823f4ecbe47c928; 0xe7789ed4bf088e3a68e1493152a47ef7bd5bd47c609341a777436eaa2e644299;
    0x9fec8bff91841e0f2231419c0b51efa643300733ade2aab17904d57eac0a20d2; 0xb3b2884544f99e4d70dd43d6a0e8cf5e8989e21bb23b56ba393786b737a8a594;
    0xcbab12bc8b6b90344c5f271b98e36c9702e098f8f31a8cb8fcbbbb3118e31078; 0x1720ce84ca50804c56156eca29f5b8f5c5bb9ab6a9c744a3999be7e794f148ef9;
    0xfba37c13e11d391876e268c60d627b9b671aca3671ffbea62caa854ff7ebc833; 0xe92999a4a963b719a205b2a08bf6c50f9f6a6bff7bf952986874c1ca71ebb0d1;
    0x89490f7664a10a1113aa4da712176164f162c7d2d773bd631beab0894dfa0ad; 0x1886395979d9f2dc390717300680087d74da4c4091f5e35a21506c7020988f9ad;
    0x5525649387ef4e8a3fcc1b7c4d2814c94913d4f5cff2429fda4fef2672c6be51; 0x995900b56ce36ecb6dd29e4d0087aff0458b1e35c6c00bca88c6fe36c0a5cd11;
    0xcb0c80ce3559ecda508badcbf5034e67a87c48ef31a425e8abb0f1ef51c4afa7; 0x5da5de40b182a49bb12b6205f469f9e936ac3370b03d77fa3ba490ec3ea097c;
    0x3197d86d000e904dbd021a61d258d8c0152046c5d2fd31b46e87c47afb15a96c; 0x80c40b1f6a1b873aa0650f7ccf220ab0452b22c9fba914b1cec8f0135517220;
    0x1628f94e2550efb23f4d901ae13cdab2c482d64bb0bbd540c2cdcee188ec44a7e; 0xcbf66e5e6e6096a5d68df9237676e4a64c7079c34d68eae3a451b3306b813047;
    0x1353655018b20d181527e9dbf1e60a0d924e32095c36360d27506d826d29d331; 0x53db7a7a787b64c7c5c997ce7edfdf7a75aa4fad7cf2f8d513cf2efd7024fc8;
    0x6bccdc56af318fd7688eb0899953e1eb78bd54667872dfe83ce32437ab4add67; 0x61d1ad3ccb8c8c80511ad5b7dde3e35c257c7c00de04a4e3b099a0f96c485a12;
    0x7a7c5d52c0c8493933197fb149fdcbb253900dcdb833748025dae929a209ed2; 0xef2fb20958bae4906542bf00a9692a43e48b3e0e16a4b2caa356420799bdd2f2;
    0x5709812d8c4a9456b24a24d4cc5a7af1c385c927050f8860f0f5cf59cb4e9271; 0x629b2a8090e3ccc3873030e06e15427bdf0485deeed1b38e6825a94ff30d936b;
    0x76ca40116df9228dc8cd9e1e59884c71768e0e5c1bed13cdf100d28194bee2e7; 0x572f63b9408dbe53e3b5a890e9a27dc197a147ef7c398e95d88d24ca2edc885;
    0xb0b3e3232a3557fc2d654384193ca6e73fb3cb9f8190652d0d65dc957c6ff59d; 0xf9bf4f8916798434bf9122a48142680a70da7f714ca23c163716e1f9b4ff09e4;
    0x1b3fdf95ccd5cf5fb4b88165bea7a4b06ee84051b94170db2b11a3562abb80eb; 0xb28110ffd70e4b0936a45a4752627a07e2ae0556313e4546edaae6d333aef633;
    0x14949cc1372dc0e5269697451592dedd1e072b4ebe0a8bbcf1dd3ab3e4d468b48; 0x620e5e7a8644fa5a1028f355cfa07b4901cc2b33656a494717859fe0a31adb7b;
    0x360034c1a63333513fd6481360993e15dab35624836abaa08e0c675c3cd94643; 0x1877575049bab33703808c97cedfd56626e0c70974f577501faa0aec3d2bba081;
    0x3f5c7a03bec740d4f52f8c6cd9156a3f9a3622e4d3c75e3801ad69da8348b181; 0x1b042a73f5f854285928cff993214090eac2dac75c94d507aa3e21b89973076;
    0x1ee8274e626410d431141d8111b08ef2a5ddd74c3eea795ff2fd2dbd06b8d9c68; 0x28c76a479099d2749d0725fef72c2c62ead33390e5deb067d7b632564f97118c;
    0x32e762bcc00cda26c7b41f0e38a8f5d32ab4cbcfe26538ca6bd6ccc2f02f3669; 0x2d26dc4690b2aacf21146d2a252857fd321de5e978b985d606fa0260dfb6727e;
    0x79e7fd0d3c042e377b4feb7d7b92205dd6e048f394e549da404d1648f67748c0; 0x2135b6dde5710581f592e7e934573afcc381637a576570633948ceabba70ff21;
    0x16ce93e28801ae74f70cca808b8bff23c7d3ac0175bd779e944c8e49284b53720; 0x19c28472fb10b3b22c97eb849d1343d351429b62568cd29e1b39a91760eb45e64;
    0x3b16181fa5fedce0bdabca4fac9ae9467eb2f9e7f9e481e47d6aafeecbb379e3; 0x1fa9fc50ad517bf80bc2f1e69bd13c9c6c3f0c8d481b5bd87bfc5da064d567037;
    0x31e81b8c82e11b3ddabbfe0a253bed2fbf45c34ffd99ac966b6c6a06902aede3; 0x15c867b101c28d3db564b5a3b7ed20a6c1443447b8a38a508c31a490c6b1711ef;
    0xf43b83768e42ca092e868fe9ea701e7f91bab15387c58144def52e6a22f1a037; 0xec78df7aa67ecbd4911a0b6da1b8f052848ff9e5a4f66e018d73400b9244c83;
    0x18c696d9fd4d6d89090a8c06f481f629ea11de4cf09e49323cb30faa7667f4ae3; 0x10e97d9d3efdae395a793cfcc01f392421c714fae3733aa9e10683d66dbeaa3b3;
    0x1dc75352637072cb1d4a2a91795c90b3b7c7a1d9c12e7cc3e3a56962056c5b1b;
    0x70108411ba4b4c271d66c7982690f0bd8be4f53db9cc9393e4c68082d8fa2681caf13b2bbb0033872513a6795c668692a76a4cc1d0eff9ef34a480d140c1c8f5;
    0x2f151ac9b82c44e8cef7de26c578c54c80a8ec910d783a88b946e973099488efdb10fedf7818495ce31eef23d7f605da6a22562d8881735638b1b8eaa299c720;
    0x911d2c9e1ae9851c55a3bc5d7f49f29830359cb433f7fe308e9a77647fd4e7e04970d3d1d0f507ae44dbf7e5db2b1d3227f50ae71b780308d762fbe9dd3c8ee4;
    0xf33e9418c1752578497a9b01765ffabea9003d71094b0e6c1907905182c20f17; 0x20ff95e78e96aeabdef99f3f2a008e85eae38d73a9bdbcfc9d9ba8311697d35b;
    0xd7da5e28bd5aa5c662ca42a0c05f5b48de1ef9d869992a4c64e48a9bc025c36b; 0x458e554cf011f4a22c62c2ab90ddbeed7be3fe47faea7ea274a0163dbff198c8;
    0xe54d8e7f7e9aa78329667cc104f36343e91bfa94cbfba3b69ad2144a8f6c3ddef9f839202b0707ed25476e8d348012a09252db914bc3788fd6ce10c29e1cf59;
    0xb564fce89c0fddbe17c1ed0841773e084b514447ba9d6f0fb97c5f178f3d1a9a; 0x7ffcbabd90df59b698f932e6f59b09831670f41a18dcbfee02f7decd3e66ae1;
    0x9d53bb2e1d18d694061a34a2e4eae0864212fc44b381709f595b29436074a0e6;
    0xae411c6806dc470846c344886e1d96ab6740afb24451aa4ed8e995925f6843254b440481908047d16eeb0e2180f91db7572bf504abfbc5d01b290dcc9de1ab76;
    0xf3aa38446a1eeaaf40bca8eff67b196c9d11310215c4108ffc89f2654aba8278; 0x37bfc35f77337c9b5b3800ea82b9e39ea2e79a01a8b0423b7aadf7eaf3138ce4;
    0x2805ea986013cb48ba69d9f518c820acc894e5e7dcb058e3a88be754eccf; 0x13269140562132c0a7748b121d5b402861ad5f5a70671b6ee9d3f4903eee3ae4;
    0x94200cd3329485c8df84b220088e00c69709a7795d6aef15150fa739c0c64f5;
    0x6010174cf55ecf90181190583d0787d9c05fa7ad8a548a768e2cfa8140a031b5868886c309001ae2307ae94db0ab07fe8f77f1cf4a3bb95409be154b15fc41b;
    0x6005cb0529a895f30a0f1ed4f9331042eb83bec4be410364112ace78af399e9922c7cb976d3c9ba7f3ec678a7d6c47a013b61fb0f96754323009d4071761a50;
    0x14bb9ea17e890a209fcfcdf64df9751c5ee04cf28c6a3a65335a418fa12b9dd675021f5ab7b9370fa32805db905ce170bf5383f524108fa1969b7c7c4fdab80b;
    0xc77702fbdd87efa4f3df115e60cbff6b55e02f9d844df1df2f55d7db1c37fbe1; 0x61fbcc82792e3513f77dff91823682deefabf5433a33e9f331f55d052a58be1;
    0x3d0b7785cb8f1d57d89d18b6cfecc517456ef9d239387c49e9ad1e302c8b0bcc; 0x9c499e7d30d11324b79f180524e592352c9791fb84dfaaaaf612a10b7df1e5c0;
    0xace1ac4dbcc827ff40a593a9a8a60c7768e813cfebc31bfb128cd7fd20d47a76;
    0x7def469e5bdf54a44ed225b64b30cbb58bfbbeab541640ff97eb6ac1785e0907c8f77a10aee48e87992e6a47cdb6bf7f98613c47a0ce31e4e342954345c48659;
    0x4579b5882a710b1e6783e508d03e23c22e9db54e9a3151da3dea64a1d872ce37ef9507b608ca3c43bc92fdb1c9f29b77491fc001a00325e7e1153595199f087;
    0xadb782ca5a98d0b539efd6f5fb30087839d5e15fae649edf7cb93fabd2cf095d;
    0x9af7c433267b384faac014f33b6cc0646c369adb8e671870049dc1b4ff8d5693442e9c41d7e33f105abc2420f8a3b84ec44e402ada33d8abfcdf5e7ad18fb8bd;
    0x2dd607c25241fa5a811c6e5c50f003c47eae73d64133454a7ebca125dd8446f4c8ec6088dfdef6f4a5d8b63ee78833c5bf29e0e1b0f9ac2e38912281a4ac0656;
    0x8170c46a18a6028454cfea17408793fc229211d4e5334af7cffb5070859f59860d79b4209bb0b3b4fb7b3d1385ee2fa4a174232e90fe8d4323079190f0bfd8f3;
    0x22acc08f21cf20b80c3c6afd94d5666c66fccd5143de208f867944645f03a2a1;
    0x682c685345eca28c8de6e7f40c19913e5971e19c09698af3065beeecc94839694b52b0746b0beca347c7fcdb0ba89cf2f9daf332d01d0c701c4125d820a0e341;
    0xe27abca599c5ce007817efacf23e5e59bb83e4e6bb9fa6ad1e1a123a2f09e171; 0xf822daa0d62b749a62cbf8a91101e5fa205c2dc5b8ef64a47bf8213968796ab7;
    0x587a20fc11d658953c8d2d47aa20d90960d8a19514e2b3145869a288ddb676e;
    0xa4db0e589d0f244a92ffa344f0158eb3a9087a7f3afb4a88223fce8fd9f581e6ee3d55523530b2ffa4ed918e40148a12847b5f4adec7dc69647003b69f91e100;
    0x544e56bc9240448a0542aeecbaa296ad44760dfa589522b7741e8b79d76d9f23fdb3886c46dc306513190574bc621b5e42adf319f1aabeb9dda31f4ff17b3486;
    0x1a7b4a08b5dbd5811b4a2fa8163d7da2e13972cdf967531e60e0538742022b225efa6f068475d826d29ad2a62863fb4cb5afdb1d898281b1acb2b2a79083db68;
    0x89944dc92583fa6ad2029d1017870e93cbbc97e69aac5f47558eb8f16e2a1ce695c0a3c40abd4f5ad4ef02349db5837913d94b174aea3b5e7f85de06957b34d6;
    0xc56617568340f6481dfbfb1dcabad74b9d28ad403caca1ed149e26607b690ee;
    0x2ba0c1e5be3d1a99b105cbd31d1b10caa34c81493322e2cfa7369bbd7f7eaed739b6d87d449fb3571a0978fa8fce44d3050d71e323db9b4565a0ca6d60caad;
    0x339d2754caaa59997e941345da2caece6dc985f3443d5ab0b0ba68c65bcf28b5c8874e165545ec29b823499d3c82cb051bdb01b394af3db8299e323a2153ad82;
    0x64eaab356aae01b0e9ee8c842bb3fa05ff5c1ce18616ac1b33d0e6de8a1700a961a26a8d531c141eee19eb6aa611238b4b266ea2f68c60cbae6d93ad664cdbbe;
    0xbb431b15b8ae29ffecd2737372cace7f0c087fa67783c5fd680cf0b39c9441f7f312a083fa49a9edf74bac133aeb68a358d95f71ad6a031fe955b13926baa6f8;
    0x521b9dcb1203fd3f2a30f9a10bb5ecea6e67831e14e90decda38f94cd95c6b;
    0x16b2240001526a3a5e91c6a4a1354ded67b3e802222e7abc5a2d3918a276dfaa9751c28e88f19e22aba6345b5e04c67c0052ad207f63fb17367c409dc02a5211;
    0x52b33e3bc9921b3a9a628dc91dc788262809a9fa24f89f70dcd5f902df0529b9330aad9c70b944ee8edabc0965368ad736f6ee8a4febcb46d7ca996ef6720433;
    0xb763d4c76ecea23970ef83ce7c5501e2c6f15e9172376ea4735373b665baecbcd4e4e410e3ea242060c359ac3d79576d0d6ec450f8f628253dc28f50c49eb653;
    0xbce0158c270a2a4775c7e2fe2b1116a6a6e7f605ba23c66294c5a4ddcb55f9d5b32a908e15a9849a2aece8f2fdd4138420ac1bb54b73120bf57fef91e1af031;
    0x3e20461ee1cc8506ce5c143af0902804d1d493d851e7565e5e09b923e67d4877;
    0x42dba518ac855734347e2e8307a739855e3cad7dbcc0c40e0d11175be8e329613cdce0f000ba553035d53dd7a41de81ace5b2affb1c06b691ff6447bc7bb2040;
    0x2878c18dc31f1a658926bd22464afbc6a5aff37d8b8329c0c8263504f6c7a5a442b35d4a17dadc4de9414690973c4b26e4c2f797046a4aea66d7d27b061db02;
    0x60b72f1a0d7f139b9b02612de0d6ddedba506c2e3c9fdcba9aaaf0814452ff565be1272181c049f6900ebd62d714edd090a00c023cfc45580260b98c6271f02a;
    0x8d241fa4375a8ab78d43054be3a9ae6ebe96d54c62cb060fb6e1a798f2865f57052ff1735deacbe4cc4a1c71cf399ba9742b24c4fc957c52cefb02a291b66497;
    0x6c9ac12df258f96d2d021337d6d2783329ec832f65f27e1c810abc4ab9cc44;
    0x6c8d098bd1473e3b4d0e8a4ab57d683fb498ba5a544376e0aa055329421ef86266aac0dee09bdb57bebdd2101378d52f53a23f412589d0113845a1f5a1fe608;
    0x85e712ce15fa987ca796e3349653bce4bfb8fdcafc8ed27083671f53e018326ab0dfa9b022435855c3b4649435efd1ea509e43558de3204dba44e6edb6a0837e;
    0x6578b1b9da74e3e0535aff185f63b473ca80b3871db550e983d688f0b6f2733b35a4eded32bef79e8da9754c0517d6a1f0901b0208c2fc42eeb6e002ae00cac;
    0x2c6177ea8528be8850c45042a641a5335011f33d7a364e83b2a2c784124aaec90db846e232d997ca848350c79dafef3103a7afa4593778e3ab98542c8da808e3;
    0x317b7722b0aeec26c6a84283ca883a3c8f1f1170fa8ee82f23bbf28f95e55b9602e4a4bacc8605c05e6789931c378fee073a86b88a08be5d1d9c288ee27a3976;
    0x1ae4e51f276bfc40706cab2588860d8f7966e7f1bbe9c3edc18dfe0fa307d6470fa69ae368f57ca4bc4edef72777609805fe7555f2f3683b2a78898e021289d7;
    0x54444c5d231d5bae9cf1cfe2e12b0ec7be322bf22b177b527d8389919793e2de; 0xf9cc5502388ccec3d67845b6458ed116d06d3ac806ed98eb7c5923b6ff135541;
    0x3ed8ecec1000716963b8cc70873c7ec107fe05ceb655e32e8d7e8efbda40e04284f8c73ac3b58b740b28c9fb033f1538802eb316b1748b2d3f9252bcc26c627d;
    0x308adc1bbeaab1fb15a7ec9adf32f4574871f685884e7ac5f85b7c6a05e302962368e20e6a0a1699e704a8a29d1146d43c3818def6d485bd4a1af9610ac87d21;
    0xd4748c75567acdede71b9a41224c242ba7d6a065f620249c65cf726a390cc1f5; 0xe38c279598927b3947025590ccedef090c5094e99f796aeda6fa690b1e561980;
    0x3aebc252d1310389cbb43fe9ba7fb594041a4c4e4e3a9d091a9bd459bd2b08f5;
    0x2c45469eb740df223fa375eaf71cabe4ea23ee3f92a5f9979cf6c88cd88a7dbbdb5c99893b15007a4de733620e4e2e720f89d604167253a1420eea22d7c492e;
    0x27c4773f90b774ff84f6a6f23ad7464e2710294935190c3df0d58d1c0ca45e5a7462d3a28b2c8f6c87889bda29eff6fe3edc3632ee97bc05deac52ed0b26b6cc;
    0x1e2199637f691b533f7f46ff4cc7c4a5208fba69eb38a2311e1ca3c8f3b020e4779a524108431fc7b4777d39d0eb369a6f05ff0d1d50c82aff1bb1a1dac3c5d;
    0x3d1d0ddaf925723a5e0734b922c5ad1c7d0793eb3b93d0ae1b9798b89b84c11117f33c2c5a07719ed99098ef4662ca41088a392e5742c6b90fb36b9b471518d7;
    0x9a0b4a99408d05ac71af1edb82f0ebadcd2c3b496108b7d2db1a8c5e4297c4ba;
    0x2feb744dfafd012b33a32d81798ed4b23da4758ff489f6229bfb19ee02f0526fe11520e4f35dbdb3587f9b9cb1cfb59693a44fea213ac5818fc6c0b8ef05df49;
    0x2df65f4196171f0218a4f061675584daefb96c457624908b496a2884f6ea8b7fc94e070257654688b521d24063c6b5024e5e5e525658e58819668facefb9a0ac;
    0x1ad5ff6a891f597d258324377c72cd5cc53032d696431f4297432f6d77c430cb; 0xf4fa4635db3deffcd93a3934d1649073dea56c4358ee0a157e8631f009f41677;
    0x3e30c8190bcbacc18a8ec2e700d999faef534160bb2d4963da3b20662e5b64cb; 0x87f1ef2810ae81b15f14feb7c215086e97c77a0a95063684ccea7600db986a1f;
    0x7bcbcd0a1267134cbb8d04c7bc11584aad88f335c6f3dfc8308c01e3462a82f; 0x34b72c837dde4ab32252252bd8d7976f6936dc3886a232db844cc89a609f9979;
    0x619fdcc39ca72f42fff6d2fe870a668fffed139a18496a5893233303428ac9bdb6c04af5b7916494bf7f410a8d119c4412fc43a1de1b64601cb002bc5b6c8391;
    0x64eaab356aae01b0e9ee8c842bb3fa05ff5c1ce18616ac1b33d0e6de8a1700a961a26a8d531c141eee19eb6aa611238b4b266ea2f68c60cbae6d93ad664cdbbe;
    0xff649b112662bde46c82b4bd7b437a23f3f3539ed4b3faa7a80b836528137e93; 0x8604da4df0671dc86d180364d4968cf11ec5a45f861583ebe6cba5ba6a7557e;
    0xaf8f243034171ba8c3445250e0f8a94356646609e961bacc46dbf77429937dc545b8dd3c78df96492c0f3ac59cc34f53d88775c03042b10ba47fca83e641c28c;
    0x45942aea368e2a52ebd8bb0dd70bbd87c19fe193be6bcca2030b96d70668bae7637614bb60ffe2995bbc8c653397d45e2d5adae5bb22a866a5c3acd44e33596a;
    0x7de52e9e02a56196d2eaa14c722287ac49aa0fdd0fe4d0f99b8366df99536555; 0x203f10ec94369e47a0748068a29459f545492ad1211670d5868e6a8c7794012c;
    0x16752f01509423c1dadc571aff534ee88c53687b159f2302268f6bfbce8bfa68;
    0xea64928b7d0d7c66f443457a013e6145e48eb3caae10afd9c54512d52e1c65bc641329fe4b349b19146327d1c60fb746c6d4d60d495b5263b55b4e30a5;
    0x580c1e79cd81fa599ee5b25dc96010da65e0ab224c6aeb629a55fb7e9338c2dfe76cfbd1a5250414460ca0b28b4aa289129e2e93bcc516d9192f40f6874cc8;
    0x2a1b4ca4bc7e48c571324eef6c36823753e5fb236b0738e835c980c83ca2148d74181f29ff1eaaad7e3beea1542043ba12431d05c35b2c45f762e2bfcf251213;
    0x3f4fa61f02aca6b1e145d40e6709fb171916c8cc6b02162ceee61f9410778db73ab2e4e00d31c19ec24ad63e6827581709a5692eadaec64e044d9b98f75bc40;
    0xfbfaa82cdb0fa4a3e38b21f3e2f46eb06ba0e2d66747a28fd7c95138c24e22a;
    0x2d7d445bd23d0e577e5f15fbebbba34e44ce6448b2038a5f25f95d1a9f9d436cdb475fa52fcc6f629f3815824f466c8c660c22285d8ac6fe4894607ea992f5e8;
    0xa5c62aaa91e4273f5897541f79cc1dde238936898ab1aec7430603d8036155ece8ec0ea678f07c24c475fdc9164d70ad5bbbc8cc3bbbbb042001968e2683401;
    0x1484331fdc64b82f7b75cf5d236cad1c15f06abf1b2a5b332f92bde53792a74f; 0x1381b07dbd583f7a1be6be9470f19135903a55d1da3029c570be430f6f82a6ef;
    0x414dcb3d5150956eac3a58d5f687ab5f778d5fbc6f1f5049fe8bcfa503a8da3; 0x10a30ce0533782d425e75d3df137c6511494e0a87241a71d35231d844086879a;
    0x3e22645b94326d48e0265e7bf53abb65bc0cee1c3072d612a51bfd923a0504; 0x88c93d4ee1c954cb54838c49a34045cd952799f76cb79a268fb2030c66ac5630;
    0x13c87a1a17af60c4d53e1d8f3bc9fccb96196db0cd2e1778bd9d608243dbb4c13639a550a30d618e085cff44fcfebb0a5ea5df4de74aab825fc6dacd6f13cad4;
    0xef24baa12094760b8bf1d1d9199f0a91bfb2ab9dd55b7bff2cd4ddedf90d88602e2df368b717f6f8666b35f057547c3fddffea4cfecfdeb007805006a99972a3;
    0x8842e567fff68cda701257fcea8833708c86df82f414487da3494d0e7ab0b5c83064054b5dbfe55254d56a040cf49782c0e88fda041896a1d55126ce605bd2e7;
    0x90332e59f4adb9c9305bae559f27f5901a34391d254ae19cbea0945c450cea3b;
    0xe697d0fd8a7035048eb9833e9f843eabb79f2bb1db0c4e2159571100d06b80c02498131e3031c47dc05d461c98263b87b5fd562c3b7e5bc76c9dde1b1226b60;
    0xf0206f2cd21eb3312ddbd7e379332571d202a72072ebafaaccb12e29ec3818f7c41656c608f9fc0286e04294b6785feda7c8cf19936f7ac1c135c11ad9e4049;
    0x3035e6830d8715fda6433363d6d1467603349027868963e67f19d6d87d47731fe89e895f853279acba1213f14e5afd538d99d06c33a3e185c9fd3427f9505f29;
    0x2b59ae2bdb5a7fd94af43d6330ae14f4d3eae968faa81bdd2d1f10a8b1577014bcc3895ef0151737fb100f2071644e4eeedd44c2485dd703fcc2552aa1692977;
    0x262446ebf0414b8844e305031e2eb901661277fe888b6847b1a3200cbb94f449;
    0xf2987c0e25c891ae21af7ef770cf1fa750c8ef797162927de1e1271dad609c298db4a5dacefad8de36e56d1c05ca60b3ca03e0879d8e83e46e11128fb58b9af5;
    0xb47e243652b1431f9648319b84993040eaf1a095f3cedf285c65bd801011f56a4f4535a84408783b48d3cdcd4dc9995a11dbcab00c8d3a09fa6f2c52a2bbc60d;
    0x5be89abec0bb48d00ee97f13532bee69c12bde78eacac51a399425309ef15321a2ac8cbace86d611f4a56824188fe4d2ef0e8afd1f71e15ee76bad73fbf460cb;
    0x81146208342f6cdebcef04cddca9070eaece80629b91dba225ce213204f3364a53a4848acdeb18a5323d22a3a6232362e772cec766de451bcbb777cc2b059fb;
    0x62f2dd89f61caa63d53cd50db661e38cd9c930496e949836a29fcb955e93d7d2;
    0x8f6663121abb51882d82a1470c606605ebf69537b6411c67ee9fafb80d56d2e4cf5d85ca27269562a47a74dc4b0980208de437c7e5923064dd9fa32ddfcc261;
    0x1fc8a2f84aca247225511696e15eb7ecc6dd9073c06e21be6edd42b5d740dfb16822fbd35747502318f81f5e2eed9722e641463f1be944429a94968818d4f0f2;
    0xa59d62418ab25cfddb70fd284267bc7a7553b7c57adf2a135b3e9830464591b79b179b401fe98f75190e8a012a256231e6f837cfb94e6caf6b62e39367b722e;
    0x200c71df0a476c007bb007586c712dc803503eebf14ef5438a8e873265a92fba445f33a26a1e5872e8df6fd3f25702ce2a0fca5c1593612a33c8a6802345efb0;
    0xd408150a6731b9695d9509c32ca700d177e4e19ecae023677b5b60aa2f9344c617ca354ab0386567ee8bbe8cd12633e57975fb476112696e6f7bcfab90c0001;
    0x939732557faa5ff36f59a4c633d1e588cdd32dee6ae540f38f7d8ff7207e27d9;
    0x33dc93b993360b11683f3b51de03dbef8c5ecd12ca061037e3128025599d8a85f9046605d39851bdc42361912d4a896166175324a1a60b5d2b2169f2e22f69bd;
    0x2d8bc6ae2772ec79adc96e878a09ed99c4488789f0e1083e376d14bd97ef825bd7ff928a74fdf9dd3069150dad678663889e5540ef5dc75c105e37e755903f8a;
    0x7b1e077324322e8646b35319fb6d23da29fe1b09cf3ca65f3d9c016924d5eacde85ef255dab52e0a315963bb4047c360151206eae18b2da03e82885b041ee21c;
    0xa8c251b9e6e167b8d84f4b541059dfe06dad5c8a13df77a79c48e9eb4be7d7a1d27c707bc06705b53fc2e81171a69b1968646ea36debf55fb121a15f993f1d9;
    0x7c406b5b559f210485f63d4aa48c4e39cccb5c8b4640ce8dcd3856e41868f5c88ec54001016275d6c95ec3494f3aff3e6b07309c9e28c956ba347b57873cdf1c;
    0x5cf63ced91f89a9a1a22549b45781b2bcdd8a77efa3eeee9e024e40c437aa40b72561d23e5cda31d1a0ff058a82d0921be9b7c9f3c45d844331fddf15628cd08;
    0xc891036852a084dc2cd3917b349180b652a8a8d7916ef0eace29a131850c2fa;
    0x51e16cf2afe828168a512ea672dbc043e71b83954964b8787b78c267dbb7f0dae81e5c43da85b5f419fd776940a20c5f123c385a6e63525cecdf1d668e03f5;
    0x689ec50f59ae9621128b8dc9a26177755fce044c2c2f38d32f526c4e0ca62018; 0x842fbdcb3d5a1bd19ac123da9907b8cf615ace949c21d9ddf22713225006988a;
    0x279b256d72bb55b139de7e854362dc349fcaf679a2ccbe4169e82573ee4d3f6e75f6f02279b4cf6ae07f5abc544ec73749a9897cd4362d7060fa2335345dad1c;
    0x8602d01bae10210a48402be93a3f840383ef943c6c3941ba897965706d2fece6; 0xcf3d409a5948497da0c80fbb74d7118e8ef493385f0d5b9e330859bcb56b6b24;
    0x40bab45c7b63a6e096c006772d162ce0df6716ef217c47fd1b2ece4bd5229f3101ab1d8b9edf95a626a4c66ba820763ff37c6fd79fc44ca73dc6e3e520ba19dd;
    0x2e35ef5df2a40f5e525b52114f2b059ce88d26d18729c4f3464b496ce037833fb33b792a69b8b82cd325f4822d0f484f8ef12982df6901ff574e4df32d197e33;
    0x558330ce53cb7d320c3b9139749618df1128c24aba62dcc84b8d155834b0e55272cdb705528b5eab59909110d9218da776e02bc2d893bea2605ee664162cbc0;
    0x2a88b0b882874e928cda56b74ec3a16fb74ea720a4a17343cb3aa75ce00b63a0; 0x16cf74f5cac3f4205844242e3441e76b39b2e496b9cb97fe8d655ba851733e24;
    0x8c6cc77acd9024256498201bc730e0777063c6455f04c0530906bb972ac5df3caeafae205ce0924cc4656df68163597f5be6b3306090adc9d4f8de932e242c0e;
    0x9968e4a894dbc368528cbe5d63bd95aebc548b602b8acc54f8fb37605a9ad86; 0x42e6172d6958c38046750837535167e9c390291e200b91246203fb6031699a69;
    0x2053fb7c5a0a1957683d0252c2773d8aafc95bb4940e5e01b3501d751bb64d55;
    0x95d353ff68efa8fb7036e1591d8d3d36f176f9bb3dcf8e6846cb191a899e2e7bc64ab5c3fe4612b27cf7dff761389f0e15870cad4948fd33b7008268a13ce021;
    0xbea61e7761df8c3cfb115f54c144f79a46ce7ff2fd6b3641b56bade23518272866fcc46179c8fbeb0a93c69d9b0f0c77fed805924a88260632967eed0370ca04;
    0x10de8176bb941002963e4bb35cb9efa649015e41bb75d597b7cf679b94ae98d1371f856d0d2007ffe42e0d249f07d7b943943c6977fe95f07950ffd5a0d3e1c;
    0xe04381654bb00e6c5c5b79ec18dee8a557d31f701b9b2ce1ddc70d0fc1d7d6a1; 0x800fa07d028c6bc248276657bf91cccabf406214752bd6c4af9fbfa29125a14e;
    0xed1067fa23d8aa3c6fd526a4bd5cb06e14046010f593c6ebaa804a73e20a2382;
    0x27d757c16f4ea75bab9b58c38d78a4c16314ed29a30759b49d0bd87b165c4f3f197f4d81560b8046a8ba7a560aae5a88c3277517d7c1870f01811220311b057;
    0xa67befef6eb1aa38a0887b91fd5c6ba841118b3ae56a332d4745b4d7577b88d763d0731e901c3fcbcac88437d19139b1d0ff9c0c4ce32a94b4efac7a74599c9a;
    0x5277992278bc29b37edad3d7e916b8cac5fd3030f0ea4a470d894ecbd5cb77dacc93ddbaf02553866cde6c01dd4d61426dee959eeed0768c773c8795e0dcb674;
    0x1020f73a157bd103f115b1d746b65776ea5dd57dd230080a7207050f6e659b1d; 0xac6f6ab496b5553ca42db523cdea8301078b9f72bd92d7c721d9cb7c4b722ae4;
    0x726a2c24571c3bf7cdc9eddcd707a05c1869cecc671fcaf1377995d0e4e3d505f8c4f5533f49fdc598ffcbb36dd28a4eaf683e6625ea08b07682797e89a091e;
    0xa40fcc27bf40c58ff42bc35d0f043039926be3a4a44786967848dc246940dfb;
    0x42a98e0255b48facdb2aeaa8597df116c6adb7a22686bb5bbe7e87675660b3efd4f456de9693c5b1d0475907080631d4075c13ded2aeeeeb92358ea275ecb63c;
    0x28c39e75e40d3a0d90036b53b001479193c44da7b24be9b9c3ebb22f698f16bcd72c3a877acd32e31276305c6280de2b0f7f826dc3bab9f0be4f5a8be6564f06;
    0x6c4d34718c0c1d031dfca5579383564b6a04200a8ca052e43ad3ad66c0125497fdf806a87151b67210c88cc4c0ec06c5de9ea8245013e1fc588bfe2424944aef;
    0xe121647e1c8b3833e1672407787e62a5d037bb780b0c26799c16830076f8adbf42d8482a31946388f8def3256eca84f84beafc83c72e10bf96c037cf3c15c7a;
    0x7aed5c6b70ca8c00c724922f0aa4c48fa1757b01bfb6b41cf76bdd6e45e7224c7f169c1062369ea66266fe7388824409f322ff3d8e305f3a5301d439ffea29e9;
    0x64bb3bc25016d6bf5443f42178a60baa5e43fcf14d4b981b6a962b92fc701ad5;
    0x310289d9bff43ac4a2599626ede9a99deb086a6a6539d1fc0556183a2b5374cd00861795b7860dcf6a23ace8fb598a432d1d4878171b5bbd08c50aa717995bc8;
    0x4e17d80c07a1680976c73ab0b3fb58c37b52e0a95e4749cb8df3054cbc52c108; 0xc505179647a3bfd5667486c45f85e553b5f53d55f912f3650d0c17cd9c2957;
    0x23a523e26b452c75ecc0f73ed1b05c1779328c3bd1f46817e16cecc34ca11c8a; 0xadd7e6ef77f79a5716edb35ef454bc1e1747860e1d7cb40c425e97c2f3e656;
    0x4e4cabc10c8ad4cc8becd545256a46bfe2666a01b7331d6fffd41c197c74d283;
    0x3e22d7f614b554022468388ec1f5236d5d210a3e27b0cdb723c51b98f3eee047dd7256f1b0a8e93298914bfafc6c876b60a60937117d411944182ee036a38add;
    0x2617b606a9b4ed75b3b646b708f54da893ef653a6c289c2fbbe009b6bee851c4a4e9be8117e3796b824092ff86cdafbfb955f5ddac79cf297ddc38cc45a9bed;
    0x5d03112e14f6e63cc0b4a539296a05fb2fc4d9a0d1f0271787d2e7e03f2574c6311003be4eac376527f802aee97c5c74953e92698c9c5d96b0e2597f357ae9d3;
    0x5b33d570875e718b812e96e44715451986e67c1b0982dd2f45fae5b0131ad2c5; 0xb92a225ed4d01306025685b14edc7fb6c1d6dde916f4353320493371f413140;
    0xdba91b791b2021de9c7f763914325be8cf22255b620524dfa93b8f0d0b70322; 0x325e63086c1ad15ba8728779f6f9fda8f9e4bf31768471e8e1f88d5e395b8f29;
    0x278973cc8efdc83f2308389996a6f781e639e5d7f181f025209b27f8fd8cff01; 0x96f69b174445e83cdcef04f965633a76c18f07a715f0f92c4c5a946bc63b3ae6;
    0x18f2923a5092657316788fb63e561806d112bbbaeb66d1f97c9a1ad8e070d9fc8bfef633b77a6a3bb75815315c9aded7ca32a95c3c25bfc5e51d0b56f05e0936;
    0x386cefd5774e1bb6fdf2d76d6bf127336a04d06db3d747e9b7bf4465b8c76371;
    0x615390067fd8320c5d2ed62a9edfff770622bf16d04276f56ea9d51a29e5de83cc8661c54f3cfc655c7d98c134ecac287440610687b43c2639ab314047028d39;
    0x1a50b82826ebb14e06b899ad56fe6a54a60cb998e90bdad98aa337034505e217ede6b03392cdb4c4623df06125cca684a3ad963d6bdea67bffbeb0017fb58713;
    0x167dc986dab45567122b6013650b7a4057522f933d9cf38a1bf2844b2b4d3d516dd1e11ee2b850ed6a2eab328c6c602b129bbb4516ebe5f55a6384ed4efd8428;
    0x760f74779498b40de5e1b7892bdb2f08c0cf0d383d1ffc8dd596df9c7f3bb4aade89fee74dc872916afcc8484c024217d2bdb6d8430c568f017be7d887660dea;
    0x4200e21347db84c796521610a97c1f04f1f242de5bcbf0c513cbddbdd253ef3fea5a01450ed8e6c033320cf776d0723b838a16a4b13f4a33f6ab1130fc7bb56;
    0x3e0f7f8f02ebdb6e7158a23ae9c3a344d43d22a048e11e409066a0f3b9062511a24c6de58ae8e645e51545859efb28e6da723da140a8abb280e1efc91492eef5;
    0x16ee3de210409841fc1c624b88fa185a1e4b559a0c84659b15129f7fcba518a6;
    0x4a182999044eae1fae154701141d4c73a33c9b1d45be866d7fe30076f5a84b1c85808052084c1557941a96647e52536b6eea3468ff6835bd4c3f4b45529c792;
    0xe5ec53f1c36fd2f02ee9f613dc65931eb0c6c032915c8a82855982a54153bca3667e0361d42b96d48a8ab2e4f8516b965f980af8561ce83d43c5300bf73a6;
    0x978ae10749c81ef1466bcae5ad19ed88dcf8b1ad4ce09f9073f3ffb1dc1c8aae; 0xfd2b8d660bdff3bb7bcbb2e6328ea4cce5b4eae5e775d1f2579ec15e0f209167;
    0x11a65def872a14edfdec76cb010a42e4ff61277442da52aee937b403c0322; 0x16f1bf8b497daf97f1ed6491659ab53a2eeadcbf4bb519799751d25fd1c033db;
    0x81f30247261947da78c8edc268d7be38e911a30c5778592f62fd7e8277e5e853; 0x151d9fa701621b83c382af79a4d7cf710ad56d6f2b3be15dbc7198894a8edbb;
    0xa1f042b316dd19f6e3427d3d99a7e3d41998a7ea2f24ac9805d36701c25cf872; 0xafb8ab415a3b0b3c25879322acba26f96c3f9f13b58e31aba07a2e40686d6e8f;
    0x37a292e122bc804e218869bd668bfaeac052bce31c5d9bdb0390250ad09943d4; 0x3bc807d6cbe410dfa7ee4d4f1c50f5dfd9b3db857365901e295c11281f2c779e;
    0x7030f7a23f81532cac3eb2ef8ceebf2b0e84ab6e8c3813c1d19e02de494dea24; 0xcdb79fe18fd76b924b4f9d254d4d8561826a571bec57f4a09c33f06ee546109d;
    0x87d939884f00b98ac4b4a690ebd5ca6789c79413715825102abdccb72bc9852; 0x618771a1ab78fd4d5c5aeb1a2966fc77e672dd92b45b15689c7dc81a8a947610;
    0x4594b92e0e891e19dcb689af2ba92c50bc258c6ff4fc1ec14f4a5e935abe395f;
    0x7ab71f340c5947ce75e0807344419c4a912d37332add61cc8f4e6d117f76ce3fc61e6304e8710632e0521c677b326f16249dc2d84693bae70fd296b66b0934fb;
    0x386cefd5774e1bb6fdf2d76d6bf127336a04d06db3d747e9b7bf4465b8c76371; 0xcf4e755fd58a594eb53b5167f182b2573d0221b1c7d79780d5b1523b411dbcdf;
    0x238e5f9187467dc4784e6c16357de6c8930bb856e98d89bee735037545adf8a5; 0x3a8e71ce070d898f0a7c9d9f9baaed24f846a84c4d1cd72236d68625467fcb39;
    0xf0ed2b9ec5649c5a627e36839a080bf862c4f24bfecb06c4056196de8170d8a2; 0x23dabf659f75b04247f8d460ad3f3f5feadc3545019b2b35e1fab542cdfa9bb8;
    0x319b523dc0d8d95ecbaa757d5199621709e896f33a0ce138f42fad12e77628fa; 0x612d11e8e9760f2ee488256b778612ba93205d8ba7cf60c5bd75246b7aaf144f;
    0x4a81e1a079d63c5820c058496c2b00dede43456d7330f71ea99c82633efd33bb; 0xa171667579632fb1fc3c79723d49c26a4df1049237faa11a9c9a5f669179221;
    0xcfa4f22e786b5c06ba84f4ae9970d671d11ad54a77fa333c051da2d1e220f1fb; 0xd8798c65eb64570fc4fbb1bdd8756dd5449f8100f1f71d62c6a0860c0465366c;
    0x3b590b6ce77095179339effdf9d46d4546cc80da1c2141b66f12f49d7112f482; 0x6ff6c1cb032f4ab1cfe5819686218ce643b3b1b60ca141d99a85275462384057;
    0x84607593450bfdf9c845045e0eb7819834d4caa69eaf4d40b453a7fec9a92432;
    0x358556c718671ed4fa4e8fd445927c134c25677765ed6fd5a9f0783f2fbe71b88a444e7a68b538bcde4e709dbea4baabc7b7ba749b6b6e059e8604ad293b3686;
    0x4eee1dbbac0f4e952b8c066c490f2e9ec1baacdcaeda1201346a4e1641142c0c;
    0x149b60ec386eec9ad5735b78bb0a043addb74b652087bd8bcca86dbb040d417d846986699cd5835c71269725a28a5f96989d48f0f192886e32ad80ca162a598;
    0x44b40380575edf677897a1c60c00f6ed32f5af9f1e4836d7a767ec2cd377d3c519ee123479a00bf098721e660c48147e183bbe164f47c12263d324b8658ff957;
    0xa699f304aa408653dd40720db30c58c1cda0d395ff8275fc56c5b508c88d99c23dd7c53a302c347e854e6509dfb438b1890e9c2c16d2cf390efcede8d17a54;
    0x3238c883b1e674bf7f87e0d2279af10bbe4a34609e127b7a0a5b591004c227eef96eb1d78c86ec7d8a2d0d2b910e7a89e077feb99413beee61f0c5ed52cce46;
    0x2f3963146ae51a1a8f0e84fab6e797d9d27e811bb76889dac813793b272ad811030a989827436b4ffafb5aa4355cf7210eb4b8392517f7d8509e139d12152015;
    0x8734f379b06d0877fd6fa6f88500ad084713ae50bb93dcfa38c7c7f4342714daf6e6ddd54141312ee39dbcb9ce495579f7d1eff2a697b3c26d8e6a6b1ccb09c3;
    0xb19804b074ba21e8ed646f89c664877fa3017ba37a4ff27f7572d40be31f7c9b;
    0x430e771fc17895297f792f4d32e4e0ede95ff25884fba1e9c875f77594278ed517a218a9ba427e4688b738d063950ca1765a1882b8f39bc855399bc1ff42cf43;
    0x51896ffae4165dfa39950a5346ae43af3a2e176d8195ca756c56954fe1b3fd899e883b0569fb436ce5195348bba69b1f3ac63990d36c3ef4e551309661c14651;
    0x64bb3bc25016d6bf5443f42178a60baa5e43fcf14d4b981b6a962b92fc701ad5;
    0x310289d9bff43ac4a2599626ede9a99deb086a6a6539d1fc0556183a2b5374cd00861795b7860dcf6a23ace8fb598a432d1d4878171b5bbd08c50aa717995bc8;
    0x30fc83094d2421692260a4116549092ab6f496dbcd91ce87e187e073e9d16164b7104a0ee3646191aca6391cbaa8600ce89df6a1bfd1008e2cbf975d42380f81;
    0x17b025c95acf37eee07ae82d26e1bb3de3a0c1371c54d99f6a1e0e194465eae1c5b11dd40ca2ac8db1b4c732e76ff3844bb0e7f4968a8b960d00e4b1e4602929;
    0xad1f15972fa3bc0de9d540450bdc34be9a2eb2662b6254ae7809e2ad1fd37e305b3f27b049d15c0198f0dd8991b8ab7a5fabd59492365de3969ec5f4e27b5a4;
    0x43c32677583df584409153328acb6689b526daa449d6b6944127d5250babcc783108aca06c4c7634d0710919248eb4035666f750be56ad03a1e5f2fd91205d7a;
    0x4b4886bd3c87e690de9da630933efdc0597873919954413415453851d93908e4e00390b1df15a92ca726c6809d6db1d697fd8b59f56f2954a44c5f8315211b9a;
    0x80785031396cdbf07fa9558bd871b8d009df0ced130604fd7c618643b6e1d62;
    0x27c9a17305c4c058bbd90d560d6f2cdb2a61b3088a22e6f585b8b78ea7a9f8f622c63700237d80efeb31824a1f97fba094dee04cc0f4373bda8e80d8d9dd0cb2;
    0xa2d3531335ec30b9602a41bde1548cfdfdf5692471110f1f8f27be73fda10fa78adf29c2ba1a4c3db12ffb4d7a1e1008c81f661334fa95d8ba410d2eef52aae;
    0x89430a4872714915710846791ebfff8f717286517afc7f7dd9e610955b267e65; 0xb5d52b6da5872ce96c8f7a6f9ab39fda926cc243bba1846ec675f47f44db44;
    0x1c8c23c599e702fa09bcda5a5c2d12d03bbc067b587910483f9f3c1f91bf6088; 0x2d3f4996c2204cd0afcb05afc99a3d44a744cc322d957e66edbebad029eec4c;
    0x1fc57e598fce8c5078f52bfedd14622460c5d4accf2223e7c768136c0aaaec9f;
    0x4c16e2b47b7f100ef0f4a10df233911178956e6999f96257149400efb8a52ae7fd5e17174c989978e4f2f2341ae89e2f6f7ff8e2811cc76fd079f387f16e7d39;
    0x34375d9f90782b7fbe188d5b54ff6a862d6f93ce91cb236afc8509d3d02a34ed;
    0x46828d3e42fa4828aef24669f981494413621d323130ebbe4cd8d3b7745674bdc4139c4a4c9c5c8ddbe46176ea7a002648db7c867d237b4ae427261a2eef8969;
    0x58305ab7c150bcba22216927b383e6e73ef011e4eff27fe312b691803bc8dfd9b58f9e2f6f2237c5a9632942d0dac691b4b96094362dd0b7e745ade31f361a36;
    0x107c8beff3f71e370d402dbf43277fa9b0ab8d0ba0f2c9c227167aaab12e0855a14424f353d55ae36db82325b5c2ffece11c1e38f4221242f84d3e8406f6fd29;
    0x4e593e97beb700bc6b2948c3e0146b2c9ba717e768a669d63bbf6d564031f707ba9efe26822633df99b6719d7bd351cdf63126bc38b42c6de8952eb1ce20b8e8;
    0x5ee9ce9a45afcfa826cbc085eed1da060d53b049a5b274e31fe05e550e0d752b6ec64ca14f4ac968fbebbbebc0e138ee41191ef5b9094b986069790ee2a92764;
    0x3277de554440165ab3cd87c2d1fa9e6eb73f2e47217d8ef37f14cc086d73ae46c341475567f74710a0dc298a8236006498c0721ad4a219338afa52edb456d145;
    0xad484c3ce6cbdec0896408eea32c526b9f1ca9ae356d69345b3a69981a4a4354;
    0x764b2cd945ead485c431bd598adaa511fd21e315d6570ed993316a43d0ea56d87963254ab97ae608cb2e82211283a1f494e04b1a45a2484d7f413ee9587c4e32;
    0x62e60e3102865e6cc9124ed7823fafb0f5a9cd6e5aed89a60b4d5a3f69a44c681d0ce9b55249ceeb3beac87690da4cfba427042b0d46549ebbadb3c0fc9e4537;
    0xa29b83e927913d237b378563d35735f401d4e86045d44c111cb46636ef16e3c; 0x169c85389d509e1a6c8ad40aefe0f99987d315f9185e600a35a7860aa63f5c89;
    0xd1c35ff9be2165ae6c32467d10cb9a5c0ad39da6e697576098b6fe3109298450; 0x1d3ab2b801706fbed53988e7620f771087d6b1f4e11db8f4171587b0431e21b1;
    0x52120cfd1146a54b5374f52a025f3edf1ed37f7a50e119e53654b12b8a5a10a2; 0x4b18dc619e78849b6dd1049db638bdea4a69b452f4825f79f67729f8db277cdd;
    0x9737fc4ec7efbf7c3769c051c4f5866cdad069b0f753b830a89465f0f8c5fed1;
    0xbb17674029d8d4b6fb1a757b396e69a9cc6baf108c0c5f50bb8437bb3199f99a60b6c0f3cac9075ed0f85102340d33b477275bda99da56bf28101f9123aff2a;
    0xdaa76633b01c07001ab83c0f993bbceac55569d422afaf53c2bbcf2dfce165;
    0x238c53da358487bc7175e2793d111508d67090bb3a7e903eb4ecbafdd3588860e12e2ab93b6ef18ac7c02e051b7eff22d6685e494523ad2d222e31f62cdb15f;
    0x3af79956f7001e5bd0febfb94ea432736368d3ba14e633d9e8a294cc7f9ea587; 0xeebd20dc14dd13604ac74b9f2ed821311b881e3c990889dbed7f28899e50c036;
    0x328002ef741f4494d465cdf474f06eca1fd3a25c90ef2fd971dba53ff3f7e31; 0xbd0ab19ce1ddcaf353ee69378f50290cb557345b78f88744cdec4ecf3e0b26ff;
    0x1faa13238c29c05daae6e84fc9274c890b31b4f57b6f07d6e5ef296fe66ce37e; 0xe2a4c87a2bac3979216e0a149d74a128052e9914aa218f889881093a62463724;
    0xaa57a46c0972a8c7b6cf13076e2be12062d2208f02053bf67fd27aaea53666cb27c417a5c5d6f343552eabb75d38168e37453baedb4d052056dc8c06c6ae181;
    0xa29b83e927913d237b378563d35735f401d4e86045d44c111cb46636ef16e3c;
    0x48157617459bdd33380437531833fc7dc395a6ab493ce1ac371853d8681edcc869c987c7f664b14f08d1c6892b488c8cb6de3f04c1c31caf13aa6a489e69465;
    0x5f06aee96cf4ead14cedc0f2b1c8584906d1e9552821125aba09712ac68334e4; 0x29df8172dc81479d9232bea0726ea4d8a8cbc02506d78b81cb425474bfff8e9a;
    0x3d2009847271691d57dea2c9a732a88facd2caab7ef687f95220a9f89facbc4e; 0x9f11fda125570d5a4aa81cb1a2546e1a1898715434631fb43ca9b2892a92c64;
    0xa12c7bfbd2ab7c0b77f7cbbcd7c37a01e2dcacf6dbe78a4710f870fb220108e; 0x1b4ce22064726eb9d255cb6aa2492bca25b34337aed71712e00fc0e2b53d6e8b;
    0x7aa2e1e0502a69c04214708e8c3a28082509a9c9d6adadd4e49ac8205ebfd51edffcd9ce5f16907481c8cc47772d909e5a36c1a385016d318ccabd64b28b349;
    0x7eee55222781af15fa4b10c3f25ff3457cba5dd55d955423afb48bf68a779c27; 0x893a65e39eedd5189cc9b31630f735b867208b9096bfdc86993ce7c242d2353;
    0xde0f52f0c85ecc75f0d98cf08f4c686c69e9c3b5d9b5a620882c8cea12924880; 0x7dd78639fc1ada2d14d7ef561d296b085fbb06935f1145cff9a591daf0c8b29f;
    0x289c11b01efa27d6f1cbaea87cf1757932f86055272a1b8f559bddbd7f8cf6a6; 0x764dccbd9caae0022e0064d7862e177b9ca57708447c4782c430aac8bb6ac2ff;
    0xf0d4936d32864a308f160f2b312f4bffe5cd34ad29606c80f5b6a6acd5b5f22d;
    0x4c80b0e73c3ceb2ccae85f4d62f8dd120724c6663b33bf4b9dd3de0c183493e380846f658b1132e0be9d435ace63d5bb5be46863244a576faf89941652af97d].
Lemma prime_p256_lit : prime 115792089210356248762697446949407573530086143415290314195533631308867097853951.
Proof.
  assert (prime 6700417) by (certify 3 384%positive (Leaf 17449) [0x0; 0x0; 0x0; 0xa4a7; 0x2743; 0x60350; 0x2e8e1; 0x9ebf4; 0x4dd7a6; 0x1c7; 0x60f797; 0xc0f8cdf8502; 0x34e9af;
    0x4505; 0x34e3f6; 0x1aa932; 0x2db8b241730; 0x47580; 0x22f863958e1f; 0x52c49; 0x163b4c; 0x16790f21e43f]).
  assert (prime 490463) by (certify 2 742%positive (Leaf 661) [0x0; 0x0; 0x0; 0x11; 0x1480; 0x2ad59; 0x21e8; 0x2c6d5; 0x544b0; 0x604da; 0x1a500ad61; 0x31159; 0x15aaf; 0x14db8f94fc;
    0x79b; 0x1d0d12fc56; 0x43805; 0x792e8f85d]).
  certify 2 2131659857723768127039994381088088755807488164464550%positive (Node (Node (Leaf 6700417) (Leaf 490463)) (Node (Node (Leaf 65537) (Leaf 1531)) (Node (Leaf 641) (Leaf
    257)))) hints_prime_p256_lit.
Qed.

Lemma prime_p256 : prime p256.
Proof. exact prime_p256_lit. Qed.

(** the order of the base point *)
Definition n256 : Z := 115792089210356248762697446949407573529996955224135760342422259061068512044369.
Definition hints_prime_n256 : list Z :=
  [0x0; 0x0; 0x0; 0x0; 0x0; 0x0; 0x0; 0x800000007ffffffffffffff; 0x1e07ffffe08a007a700a9dd7b29d161aafed866dcfb194098460cb675a091ec0f;
    0x217ccc0c384d8ce377c8a87faecdf6263391b8c63981a3f6e1f82413c6ac498; 0x95919c3b6805edc45bbb43bb9f10a579ed3b98532fd0b52e33a16804a86af0f5;
    0x9f0c6582f77104aa373509c1cdadc84e35e279483528f1a6364b3e9be5c01d61; 0x55b6cb13c8965dea23cf134e53d8a0dd84a0a7d09c3b93bae87f388f74b2af0b;
    0x37628fcfe7690c25fdad9f4363644e017ac51b0b727e8ceead1f36c4663fdf16; 0xbeb60a7ea42f61022bbed2b43b1b8811a96cfa1d2c519181f94f9caa753ad954;
    0x2810ddffd76d9f1cbdd87171a91cd3612f7287030f706092e3f511b00c0a785; 0xc7c51125b22e752a1cfba451b1c288c4c2f04a426a2fbeefe01c1dd219e01214;
    0x1d6dcaa66a476c5f5e009fab278d83885f0e3b2b675257d644d33a53ac9a3db; 0x32b9e2685c5277de2243dfbf40539c416f617b749e9b2ddf772019951e9711e;
    0x1768d9022288fb97e2ebf6873fcdc9a722fc54a4b1d535a4a8f11c7a577c48e79; 0x3fef2df964c11a88d5cf8bdcb021fec9f32b471882dfe0046282e4cbb8e7564b;
    0x1cafe48093425660c78b62d2c79abefb3e601abbc8e0838e098d3d85921e952; 0xf5ff4c210021839adb2df5311b51d95f54cc94d9985e38c9b3451e11a65129d8;
    0x26acbd5bb30b7bdcdb70e2c9c9ad4b940587e49a4886131d4bcf406faac7139e; 0x1fdea4254eb2ea1019add9095ea925429707f380a2452f24b41cce031e43b0c23;
    0xda83d25765e12cd1cc0057a9f5d7e8a6f657142ff7cef6ac5be12005fc0d93c; 0x1c60fda24ea755c0870e9cf962ff6770061da976627f5da3d42bccac2a2c4fea6;
    0x5c8128a19ef6750c8b76138284d8e6cab6bad90366c0c5bfc59c69ccd8ad6568; 0x17a60d2ff4c1e6dfd24397700e36e40b63978b9ad2e689d284a9c1831a6479276;
    0x1f370bf2f5f979e3434d6fc35cdfc73dd77efca0ff90da9eb2c4f8577fe273a6a; 0x4c3d122b1c497504a995944fc9c78b2e0aa1885f34af340a428be93ab00327c2;
    0x8dc3b375498a291129231f83804aa4576fb0e588bcef344661a050d54c07922f; 0x1de27b6b18199e32bef559472c8dbb7c08b6bf697290b77feb6750a1e30a08dc9;
    0xcf6b39661efed1331438291e55bbb8abc7875509930faa4796cdd3b358a3a84e; 0x12f272288c55427fc5fbe0ed2d1e12a45b3b94d6c296f4ba0620db21a745a7b;
    0x3c6ecfc79996d2b5b6d6fd62a58e7f9f19eeb369ce998c3678643e579d9d5ce2; 0xf86b6b2d27de39919a7041d3779b4598c9556fccb8660e49937d5738d65dd2ce;
    0x1b58c0e27ddead65d4b58cc6e97cae4ba88492fbfa2905ef674fa91c290ec3bfe; 0x8f38e78968f2a53064ade922d4abe95839a79f58a5e07deb3f24ac28d6cf0c;
    0x6116224d82211104baae8d8e05aa993baf82a7cbc3711079f18b6629e5926e4b; 0x7c88278d72a44c14d8b02a475a7e109632741e51a604359146dd2ed9afe197a4;
    0x946486568577ebfc04ba9f937f1e52f0530dc7751a6f1b983bcda4217455ebe8; 0x386ba590b98f8a7d9efad3079645a1f48c4a8349d42c9af398eb0e76827f9558;
    0x6ad9ca66816ee5254ee82e89d755e985ffb88b346179d68779f7476cd4511cb; 0xb52ac32746372de42d409aca8e6843c51eb8bdf305fe88f746f05a688b373c0d;
    0x1e0ef4fb8cb9e2b3f3d2d81b71eb411408020a7176924d9d37557be7cfbd8b858; 0x3cfbb7d1c0d7da04cb30feda8376df38c29204dab6ac49bd9090bc9bc9b16c;
    0xe3efdae4c4dd0985134402df7ebd5caf853792a917a46bb3a54241880d64bddc; 0x151aa967b359c07fa2cea5280c8fd6bde6cdbf211812ebe95d575a65c9539c548;
    0xe4713f6489dff7b0a8f7ca3006798e4260cc1ef9db3b007f9145d21355132068; 0x883ea490ceff5253d7ad6abf5e4e4ab052d9d64eddf2ec7161fe8583b52a214f;
    0x14b35762fbfa497bc97098c72c0123d4e995ec02de7eeaea516daadc254b1cefd; 0x110df23915e355d709acaed6e82f5ab406f08c05383922cda1be1b4c9e5e0d21a;
    0x2769c09e8e1bf6cc3fe463d0a2afed5375a1401f9d22faadbca8b1c65e32938b; 0xc4f7898cb275daa196a06fe42b32a37bd89bc4c14eaa0ff06c160fb7f655d9f;
    0x1764a3b013a328029c30e0456a720a53eea258a85606fb0446b677f79d8ac650f; 0x54d19d6bc2c47350900616ac96aba718253f88667254611c9e7cec8059f095e;
    0x9bb5e2958a487ca0d2942c6a61927951e95e1e4244ddb9c9ae5e263d21574653; 0xa0f282f6bb5473647630b6f18b7b201b5168354eca57fb7a6e9e1f4d7e230aea;
    0xb1d57e2b9552e1ee68c34a40fd22afa7063c33ee9f046a6ae979fb501de9c381; 0x28e2c778408cab196004c5c3ed38f7c96c2ef0a0027cbf4ac3977e76b6654ec8;
    0x1a94cd9fee0f8d656eee7031fedf3d292ba4dab9fde7ac8b30503bcda2553e0fb; 0x1268c6a8799df670fe72c93b0ac8698008cd4d48ce5b163c4620b6aa8ad39245e;
    0x50761f15d838847cdf6b4ebb4d5e5ab294753ea5ffe25cb60773f3f43fb34a26; 0x12957f5907a41c109aac40ca5dba6710a11a64ebfe4bf0ad49798efcbf8aa70f1;
    0x12d85952d52257828c778a61891cc1474075a9be5fad66a1229a0ad817ff133b; 0x752daafe217d059d2bbcf011a154d691470f942cb06159bcc0bb0e1d6376139f;
    0x1146c83ab0a95355f45e086e88e381fe10926d7877606b42973d9478bce8dd965; 0x2ae35bd34f488ebf61855f90b341978281ab74e708061eae69cf7014336d84;
    0x14f97a2b25f65e2af3e22363b5f33f05685c7a11160366898fdb1846040d50bbb; 0x11500ddb0af8fcdcbe65f6f98f64dc510c8d15789bec0e539c54941cca81b447;
    0x6191b5fc6e8d595bbe4a359e7ee992dfe54f3da99657fe8572a8b1f6cb02d9c6; 0xeb844eb0e0db49e9415ab0b4267779c9e57cb7f4da899e0ec48d695796933d13;
    0x90435d0f1aaac6e3c6f976ed72dc6cc56e1ce8f48014555afeda14167ec69b; 0x8ae305d296cbbfcad2e9acfbcb84edb89a6715c5f0c8ff34524b3ef2afe613a;
    0xa922a4eaf48d4dc9445eb0fcb68150512863e4a352d50287b439ed343392c913; 0x9d91a4c6d80b6b510ed129bdc5a1c8b34e798dfa98e19813133f080674a754;
    0x13fed289f63af44c674a488399c216dfcb8f92d10b0a3c740051cbdc618e671e7; 0x6f2db8d66bced16fd9d1c016144b7be40daa0f4ede32c1d97a3ea892cfd8b9fd;
    0x190961ed1ec1016815a1dbc35b7c05e46fc7d3d7ba78228a5e3af3c16d98ada7f; 0x1aa4ea7d82a0e606c1a9e1da21e6ddcbea233b8564fa33d5bd29be500c5872307;
    0x722cccd7d001614b23291cb9e7ef7760bf422226a38f09875ad73f67ce3b9; 0x620ceaaed3406ad27b230293f2a15e82aa0c4ea7308a21125a0ece3dd055ee07;
    0x50b2edd6632a15b5f4fa57aa9c799c6e26aebb054e7d99faff73dc09babad072; 0x1a33f776d7261126b60c67395e5cbc0442cb2edebacf2b70f144cf0d76292d1a8;
    0x53f640a547f4d9998114adca7ad9dd1467fb8dbef9339d37238ddbbfee890052; 0x46070129f6975038e9ca2ecc2af778f74da8365ecb04b6df4dc19264f040d9;
    0x4c672b17480e1bc2159a482af5b9de1739e421f30384ea6b8a7844554e2f20; 0x23dba8fd9db44d58e9f3617db5a802cee891a748feba0a6debb8f2eacb0b4ca8;
    0x34674bd219ba61a322877241b3f8c02f8cb305393ded8163f4a8b0074db98c62; 0x14b9c4a5560305bd4e5d7c56e5ed18d944060608354f8866cfeb17f92da3e3a;
    0x53bba3a4bcf8d091c8afa13747975c81110613a8d2aca4b00cddf54f97a479c8; 0x1812ac9e843519ce8a80e106405ecc986ab4ce0a272b471f250df01ddac6fb9c;
    0x1240094a39c46cbc06363c1203f18b17237b1339255be785cb6570027d8f812fb; 0x2eb760bc5cad3d5f7d5c96fe899178505665edc2a0050fbe5caf6a90e3fd2b21;
    0x61e64fb731f126b1d8aeff3f798c8fb0e764a79c313c997fe95f1b006f8556; 0xe4608a4923cc457092d4406439fd59a52243b5b8a13b0ab33af09b4a3ad07a50;
    0x60a8a2ce8d6f3e56812a44ebba04f9fd8820470999d02c17ede113487cb76b6d; 0x1414109f4e8f207f802246aa55af83a82bc8c11210eff2349ec68ed3089c459ef;
    0x75ea2b765e7e2b972bbcdda5eb0e4b4f2039ee3dc51b68fc55876206a393d5cf; 0x298b5698b77e12cf81ffef4512a54e7dda8339267960b48f253c0b96556759f;
    0x43666417ca8b558f2539d10d2c472294e8155070bc2337c15154a41714d15ec0; 0x4d88fcd1c9d7b119246e14ac47d80d9e74fe072088321ad258a2ff3fd8aacf79;
    0x11ae5f6aa413c6b89a10748d4ade39342bd9a8be854a56c87c55204beaa91bbce; 0x5bbd13eb7d0359ffaedfc2bdc399c18c1f93f7f4ae62cfc67a4ea2155bbdd802;
    0x451a4b1a34bef303e40b403e9502787c5181d7a99e56b13f8066a1158de1b9fc; 0x5923e16f7aa82efe1ffc4cc20c822c1aa9237f297aadc04f1ba9bdfd908ace08;
    0x4995322ae71f730ab44de25b45e9c36b8e3320d3b6ae671c6286c83abb8b1432; 0x275c14449af1aa3d63b97dfdcaeb18be0ede7750eeb4f7fa8aed643e8fc27285;
    0x611c247922b06382cabf7d0bdc3aff6c883a17742ffe6331c06d4ba997be3133; 0xd869f4a4836eb72e16fcaf4734d167d2857ea313d8a8522f294c510c8791e34a;
    0x5d7d08ba058c69cf5d95313a55ffe68d457eafadc5cac1caec387300a4a44fb4; 0x1a1a2e4c000378654537debde7672a60caed477d122d1082d4c0ce7b2681f5c16;
    0x469881f361b67c07e8e388cee2c3ab01696ad5068cf4d240328e03f8695e800f; 0x16d473c870fbbe27373ce5c14aa7167773f0cd430219460c494743d1197c5b2f;
    0x9348c5534243849b075961b1185534baab5c773007090eb02c3716541c1edd28; 0xd61bbc976b07475d59ec246903e61763cbaa22d6df55cd4bd78fa6339f2ed34e;
    0xdcecf6f1fa5ab4365fc5d4c1db59b271cf69e32b3e84f8a5d04ef1a9fc3d1f3; 0xf114522ac9c7c4941e181d6e7184f652fd522a582158099118782bf89d7f98a5;
    0x7139150b49260f8a00036974f5c7dd2c4f756cef50243377e1d33bb7775af249; 0x1ace359aa1a9fa4af8ca1445e47522078bef00fb4159b33c3398279572f5f26;
    0xd136f715c11aec83b71628bfb15b21d6d323fa59a24bf97364f91529f93b7ef; 0xa1e148bf05dcc35c540e6bc9e0983e05d8ccf12d23b80072cf6289370dca80f6;
    0x18a01e00b580b9f1f6b238114d51764c963b867fea926305ec181b316e58917f8; 0x3cbc7cb39a03a322082b486bf15f4142cbf05fc231043ceb0d751df22647fb49;
    0x5170956b53997f24ccc3300c5ad4cca4a755e910d678d952504a357b38c92df6; 0x3d10b8f7df752a98d7b6f27bb819bf6ec376db0c44740f7b27ba74f269cb322f;
    0x42311a60beae724a44562a67e5292470aa683d70830b6f8703fae54f9b290e67; 0x9cacf55aa0e0e870591b5dd50594f6d99b1f442b2214c425039ca7e2bd7f9363;
    0x38f387e7f4e6b0c07a905b656d3b14781ef490c270eb804a2ba0d33530aa54c; 0x3c961f304b5be708e87ce9121b5b3008b4c70632be79615a81fadb702d07f75c;
    0x189dbb3a0edd6331f9c47a049a0e804682d096b42550a8f4c6b505df98e8c8c; 0x1a38d4ab8c94d3df5d0c72401ca954073dc1fc3103351a2ecb9d311f031e47e5b;
    0xc79b08b903b18a3abc130f1f3533f2ee19c2e5474c64e2257bd9458756fd7d62; 0x29ba6e63c703fdf542ef3d6f140e8615697056c223a6ebfa31ffe39dc479f7;
    0xdb5aeecb994e12b6222d560c1c9c7f14ff26927ad0b1bccd87ceffb28babb843; 0x1d92d2c4fb5c1e44e162f0c2f17f3510ba15e0ae2a5ae24966c66c7552b88096f;
    0x1f39bb7a43a711bb376b5bf5ca14346a5d91833ff0f0ba44972184e09d6e9ea98; 0x41a3bfe765524237f5aebebb835546992c8c5c190eec925c5724c967ef6d2b0d;
    0x5cc9ed3ce2defa1471e3b791ae5023fd44a9ed1383b59337245bf8f40484859d; 0x154ba16fe493c78d745e016a97478ae3dfdeed666bbe54998c11bfe9fd98ef8cb;
    0x589c983e823bf083a342acb35fee326e5bbef8d298f923cfb7e7e59b86ac15ad; 0x1683025e11b8128258f8f5d807e13154dace32a595fdd4e3fb84d0c387c6b29d;
    0x152f5daaa9c6b072b2562ac4b07cccb34c6206ba7078d9407e1677e6d50216534; 0x8fa106a29a6cae54761fe209c2002b04b9cda8cb54c4c0ebb1a5eed8394c531d;
    0x11aab4eb0f2f1b99f15a73bc5bd136f318cbfeaf800f3327eaedf99d167d18eb1; 0x6f75ab0955b306a18dee5a39d4aacad986179c21aa8ef4c4deaf5e0872925857;
    0x4abb5871707be87ef2a23ff1282bc186b1c5b1e7109d3f865317eca5897cf027; 0x1d42c55a9a1fa899524f4fc1efb78f7708bdfa69be1f651cce660d1c6598013a;
    0xcfef246ba33eea8248fc7e5745893746828f3cc8d2ec5280d6ba2af186239b3e; 0xa0c302f74574f6fb68478b37fcc0b856264de220ccf33f31ba1489b20df1591c;
    0xdccb8c541a52269921a71fdac612df72a424cea264f1c0e5bc9729f023583518; 0x13b33a7af1f2bed286a32ea3e2dc120151ea70de908eb01b32ad1a19e9b7ec94;
    0xb27737ee78918e42fc6bda57b7a4501c2082554935c773fdefe98e94f383ab4c; 0x1e33a083032a2e57800ef659e4c6711f71bb7095cc595e3d229da660b18347d15;
    0x9faf6bb1af4a8facb7370d2e333d70d036a08da5a964643cb4b21f6458391b06; 0x38c5b23dce779c25122c1a07c22660bffa1ad1c87a1865854a8d07cb0b21cfb0;
    0x21868a37ed0aed12087f3b8405b0f6769c53cd45e3f3d02ad4e893160cfb5384; 0x6ed2cceb0f8ff973f4b9a9caec37ae9b76763b246ef59c3a018c800862a7453d;
    0x15102b86e62aac3887bba9755f89d73e764e4ae85855180f3e7489ba0a70d1c618c5cb81ae9c23937c5cf237d8243bb24fe22bf95447c2db8510e637ff72a854;
    0x3ec1a7fb7d7b46400390856c6f73f34a4deb8dd100386f2b72b607554077ad6; 0xdb4d7790a6eaed17e2b35993b4314dd6add831938b184472791ee35dabfe49f;
    0x4785f7b670c0c5aafee5b44a589a165cb1bd760b70fd510c92927b1e481f105499acfa511b1638db037b4ccf2674622b711ce194c4eb69015c50478b243b;
    0x3d592c812c48cf9c75828fb80459747f4afc4757dcd44ee141c47fb5aca86a0cf5ec759858ce321b10fbfeb8f02951f7710219c9f50cb1c1ea9245e0e22af;
    0x6dcd8fa6abc3e7484d8fd730516dd7701e4c6f8c9a7b40f3a1c8cda0a319ba4f99e88123e663f98b81d2a0337903cb64402103e1a9cae2f27818dae187e1bc10;
    0x4d696e7e49c6791c663abfae72a66639f8d8074d152ff06cff966b043870b5b6;
    0x215217602dc96947774abd35a4f7e8378ed417a91915311f937ab93b0575e985ce5ad252091c96ad12fd8c7e89a24aff7bed5e42f6c026eced8130aa113ff81e;
    0x2a4719cfe81fea7a0dcc7f81a3e64f595a4ecc03b4ce6f2c19a780f39ec9e783f4a08f809bdc811127e1de55379dc4468f2d053ab33725944f8ccf006e2686c5;
    0x50e7ceda93876a1856f5a50a49faecfbf8aa326579cea7c539d3b3f7ce72dc57; 0x11cde2efa09d757a39a2efa0aad8855e2604fb9dd7d2706af025e903e6060950;
    0x1837d35d53666f53d4d669cacec9ccd3d7740f517f8d6877d92cc17feb2bb706369bac3daef80c61e5464f2057639fd8cfc5ae84b9341e8fca877b670c65d8b9;
    0x620b733e5ecdfe6429e8f8a59fa1db85dac9672de9618269272726a8c4f20c4a0c87a97056d186624b2248136e13d057081a838f5b1a4cdc5762e0f1c83fb729;
    0xcd561721fb39f84ffa84a5f4e4db93686491afa171929c8de9947b6b461831f6; 0x96d070c62c3e64750dcc0ab1f8ae0984da6bd939c9473973ee42c52ae02df3d8;
    0x14d1672a128335cc7f650ff2e7d5fbe3d8f02dd5b603e0f98f9807df91e43a65a961da3c703040c507c212164ea580014da206a5b80c63f0b9564066b95050;
    0x53b0d9b55518498e59bff4c870e5e8ad6a8830e0fa9890cbf93997f35e35142cca6ee3fc31d59e10dce41dfc8c914399d71342e5479c86ad8c134fb1e559c28;
    0x90ec2e3ee823d6c558f6eeaadd6760dcd5e790f7a934e9d36cf5cfd72a7129f1;
    0x46767bd9f9fd825e50d0e502650839e229155b70a78861382cef1eeff0e44986e4b8b464d00e74c103c2fa438d79a84c7011df684ced547d95ca68bf64e0f015;
    0xde6f71ae259cadb65e19d391e869eb869d5ee7ba07c8aa04c705df23085e4b9f9170eb5465c3f2d2c65015ea025c5620c8525d72f7674c073c6da41380fff0f;
    0x330a0a762b4f3c38f1a321f39b9759b5db31ea2ec1970f5626660b0066c5af96;
    0x180cfd01f2b3a85f1d7fb50924733ff41380104a9e873bb9c96cc519f536403fd21d6f460765b3f84cd03e4245550df462a3e94174f3efd448d9fc4b05492314;
    0x61d4c4393a1b912713809cf04d605d40f00bdf3c582aceae7ad64ae469bfaffa8130ca9525fb343cb6d5f377878e63b6db9d266ed6fe9d842ff92b7efa1b07ca;
    0x5031ff7fd2f29e9aa7b51121609074753edd4ef9a0a646a6ec1f5bdad5961db8b8514aa086da8a593f30fffc2123bd441cf550f0d8002c8dd55eb91abd0cc1bd;
    0x347bdc4dad9fe5931dd4e5c94cc03b815af0699f1f93de4cb69c073354e139e5; 0xd25ae6124d6fc76a4a971cc9f4f18122eb4ce52ed3008cc27dca1804e1b1161e;
    0x2620e04428366ebcf638d26d4df4138f19e4c9be1f4674186dd66b903140fc3954bb802b060925e1eeb3dde416751a49ffa7cc0988e981f572099d1bc9685b18;
    0x266a0b45a9ab48ef0650e391b4454e1b61e63796a63248bde835cc4effcb0c25; 0xebcedc0b9f5ab73194f4090d90d7e85976b1440c6c932939e456f713fe805fac;
    0x9409442e47a5f247915f208083fa896762ebebac6fbe0cd8876837eff0bbf2dd;
    0x2aaf0cfef5a0a82bf400f2df981198c9a5c2f3c4074f8a173407b8fd5819052ed64745a034cee6562df5a08b5446c380d611eca6a06fdd36fb638931f1e3a148;
    0x219cc53c846b7f84cf029cc04b7fb33471ac4a07a14dadba95b34cec4ed80464;
    0x15b173d35c83e3143b3a091d45d9014780e3c9ed9bf6f093d3fa45709ff1bb722dad36f06fa45036edcc1792e29805671aa66282df78bf78b3f36ba95dc19148;
    0x66ebc6b223d73033a6a23e0f925e0734ed75eba35192378dd7ce84e5b732330f296400bad2774822fd3d9c3f4145d115b983f72007a0f068e5016908bb84bf6;
    0x3203e82c33709006995f50abfcc693968432905c3e16a4e7ccee3824090cc591; 0x16ba936fefad89a0c97dddba4d1bcc717dc9344c85e808a02b4ee6b37ceae058;
    0x5a62753a1cfd3d5870b53aa9ef735f6ac89a68be2e95cf59d7e9c3868cd9a406ed58e5e94cf944a7a6524d6c5b1d732a256b55f3b96512cde47f9f89bc5994ac;
    0x5294a3f139a78cc71307990241857416638ccfd1d010a801acf9a65e53b2f8a8d916a0589e0920c8f9f326f1cca220e02fbec30de4fd74cae0d7d17709b610;
    0xf1a57c60254466be2c5fffd10ca985e7f04003d84308b937cc5b4bfa9f86b3d; 0x6bbb7badb63e31b647e537fd966d20d068dcb341cdd75f0b9f179ff55920075;
    0x2e764fc2717b8fd7c805432eb1122e50aa7ddcd26bc2339991c4e2221ba9847;
    0x6c629806a3bb8c7aa75bcf2c513059cd3ff27e6775603ed54d7a2d920180ee7ef6fd8db578bc1b369dcbad2bd7b2d0e6f02e0ea77cf83281dc14965e0fe766;
    0x8fe0b7865de76091cb386c9207f7ad231ab9ce739f23006b0566520c5abd45d33b0fd619e75fc59eff84b2a6918283beb6068ad3aa44ba45a4c055a4e949ae4;
    0x66520358cfb5669efed200b6b0b45c6b9d0d0d89f7b4ff6d9ca63da64b9bd5fd8395a9df8c431575ad11bbcec8fe8d9f63abb4bfac8b22457c48cc47b7df64a7;
    0x173e8627cfed3d6cba75ecaaef40b7ff97c8e8799e6b390ca3913d796c55164d655558182ba698adfab80b695141d80cdedf7f232a5bce2d193f694390675cf5;
    0xf7102160d202b74b97c9f25ebb6adaf3dbc22e63f7f555d25f57fdf49376619;
    0x5476f0c95cf96fa81e89dea62a8730273148c67450d37ff2475999ef04db878aed13ce31291e2203fcb30094a56591bd45f8fb769165e13e6b9927d9816aa6;
    0xa3478ebd219eb9b7ef7c6487e3419655fd00adc8418139e026cfc951a6246b1e; 0xb0b93083fb1a403484d4907778eb1082099e339e0db8d6b61f34049eec5567e4;
    0x7c442e0032c47d457de13ee178b4422569daabc9df1b034d52d3dcd69f8152a4;
    0x1d427cd87701d8e398a77438d894c430fb09c05519d56724b3c62fe2b28333fa8e5ea55a0bbc989ec22dfd4b4188ff9101ccb0cd5ba720ed4bcdc90b5bf3d10;
    0x30ecc543b28f0797b91661103f76b2d9f0e1ae7e289655afa46a1965dc7338ffa5af5df66acdd27f40d6d636f19e35e9546e3115ed49cef611c10f86904b5e1c;
    0x2edc27a73eb7da37b49971dfe33c65a00258f7262c8d561159ca3f580888777174eae1bd334eb66a3e35ea335a3fc2e502d9f2b37f8ddaf2b215ad772dda4146;
    0xa9aedb2f227f9d1a6501c0276e6b1591c91f5d53804c1483a4e7416b5cef15f9;
    0x45fc95f25364c970ef7147bc85659ad6a1b821863cb97031c3ff223235e1564ca5abc8b74c22911e4366fd25f9e06b4f4434210c35ca02390f121bcf70f96c92;
    0x4e6f1ae00d3958c6265bd04fd9024271a8e9f5b2ec73ba7a2e0845098c78e7e678aae4a63a46608dff31aee6cd998d1422506e1fc91bd264733069a0aa2ed6a7;
    0x47e384402a66ceb0adad1d00fd42c1db38c60db70262a99b62969ae201ee202c6a202230170ac15d5cea3ee85640d86f0d0893c736162642c26c281ceeb35fa3;
    0x7d20cb95c22c502689ef28a2b92a0c4adcfc95ef3541bc80f831f47b7fd428b874fe754666b6540fc91e2d8115e525e4ec7236686a36d6cbea3a27279f346087;
    0x4c6788631b7f18dd20205769d082911a36019917c86561caa28041d9762642fc;
    0x4a1cb5de571e88189b54d558a6ed2fdba8768b232b8fbb8b2f86161487819c70b49b971e7d87f93331b72caf62228a608bf2a90c86fe176c7c77ec30648b0422;
    0xc7c10200e16294e2647f3b95636b5f8e952cde87d6e23ac8ce7ed98542d9fe3; 0xa501086e871fa3b26d3344fdc91ef1e97a8e1c63f12ef80ddfd7de4b1ff320a8;
    0x2e2bb727d3608316aa2b189e134932415d4bd70568e86cfc4e66bb24cc9a6cd47cea00224155b70d90aee8a8a71ef9d3c22f32f42aa2bcc1bc35105ec10619e7;
    0x12d6849ac238c3b7ffe909c84ec0f774c469ebcf3a5636b7100969e5171b665;
    0x345f733e3ccf8b37df800913f6c4e29631d5d18e5ae27c939ca5a02aba156a9bc491ce1e3b4fe9e6510c19463ee9787a52a0c0d1f9abbb68744f3ba6c387f33e;
    0xb92ac4e2811e824ddcc0d6ec45d4c72c63e9eb9ebb1b1a1da039fa701b097;
    0x4801c9eb3c9e0c53c1a4d37c185a094fde8750e214eb500cbd709784e6021f980ec5609ed72a67c25c267b5cdb6d827d59a9305f4a41dc46ee26821b143b4a33;
    0x417ef50e3fc393609ecf128fad4de9438624c3626fb495e12ef7ddbd84bb199c919ba9de5bdff9b7b750bf8860ed18b1d65a4feea259d15bd13603f1cda714ee;
    0x6c90c5e84940964b0f8dcef0c9b46f330df1d92ae4c34655928024a8af112c9233ee5b3d238db758720245df90ca662f8d3a023d5a40ef9c58ecf30063bd077c;
    0x4a079b3c1bd2149b98bb78ff9cfe25a303ebe177183392f96b87edd79d18f7ea0b78efb0f0f924866d375ebde09718fbd1ec9e8f29ed003b497d1267f74c89f1;
    0x2ec08ae62ab7276fd4d148663a785bc53ea4675a95a54d243d64852e9b742a6977a30fd532789fbfb194792d5b120dfd6417cd507f5f2a42e53c4359e7068761;
    0xd0c61b4960f5ba4f9881ff0ef77f1dd26632d3ebf4f48304a8ca7ca916a1ceb3;
    0x53425343503eb9f55e3a734f605557d2113fad65353e625c657d62fcd968d6e89567b79a93c56a9162c1ff911b74c7b68bfc5478ea0e569ace26543d3be7e8ca;
    0x89b93e0eb938c5ea9342c366ff1897ea0084f70fe5b9e9be13dd2f3451027af70b3853d8a87eb3847d1d5b8f9eb1d7d7ac216d645c3145871f156e614769895e;
    0x5d7346a3f690c7932c839c77164ab80217360bdd61e5edf8a34a975cc76355c;
    0x15a481cb7198aa0a84247bbcb694f1609c808fad18ecbf5b060f4cc806f3a882277b17f47a6da2b50b57c3af61e552d524949522127781a79ac5b16d14f2f18d;
    0x713fb53ec77378bd5f196dc6f60974a4a6a7d2d54be51bebb16772f5ab2f000; 0xcfe72d7fc11150b313395350eef84e0fe91b4c693044dac7e9f9860aa260eb3;
    0x4b8d43f4e2e385030919a93c080417ef683690e1230b6eaf6555a95292d060ca; 0xa32354ff2aa7c6c22689c65ee1632af8c2fecb169bf052700d260b32e159350;
    0x24776cfe2c6a873a7066ce0e763a62ea8fadf8dbe40ddcf53f4624f9fb156ac; 0x90116277ec6dae3869ce3d70151222014bcd05cc1c23e18fc7074c53909bcf4f;
    0x2858cfff5b73e2d1ab59a289d6121faa5ea5430bcb3f41bc6f396cb87376e0743c664f7132dbf00a0343a759619478f4ccfccb14903c32aa1cea3f58c6205b37;
    0x11fef9889b2c03b16b68d25884e2b2f6dd4b26cd3c826618bedddecd435423d94f64a94a7664fd788b4b3fde6c376e5d24de88f97ebda7417d1b1fe480f9078a;
    0x55b48a8cf07ca15b767493bc3c878078ff7f0edc0cbed3921adf91e7ce3b0eb4c07d5dd2bb9d07e7b9555eeea113a4b37504a8da06a5cc511ea0e638e4b2d278;
    0x6f39723ff54314f6bd7acb71102b06fab5e0028745fcbaeacc93a12e2bb1490b2037e75e9c8ada9235788588461939fe151e0d703bdb40e81c2bad7fa5a68f5;
    0x47d4ea9ed7964499d8efa7ac8197c55642ccb2c11c4b3e19fa5574aeee1b746ef17f4efbdb5c3983e3ead4b9753e5ef45bc6e517037e0103acae99171dea502f;
    0x3f411c6814d1aca3d5548f7440db8bf2a1a4055abd83b2c6802c617b6bad98ee9188c2ec222f320d8befca6f5be75e236ca41be08ee274da1fd22808fa3a62b9;
    0x2560b63f5048336d43ede8eaffb1d8ea25bd74669a6f713aa8ee425ca95fb7ad; 0x7c4bd27444eed97e9ea11d603bd6435b669e33803bcd32cbe67659033ce412b2;
    0x5adc7b41848e342aa95910fb220483bf20e43f6776a2d432aa3b6318d2bc276afe9168627613a5062807e9ef3568705a5c629546228963e3f5d4674d504696;
    0x62e5d762fdbb3f367383af365fc2f4a2b000a08b8a6a612aaed508e9fb015ccc;
    0x657ee856a525801f619d7c6e309800a5c5dfc60c9ad1a8303398b9f302dc9e81a7bb68318594e95d2e630495e43fb7046e932e5df4f54bea1e527294beef376;
    0x8e6278a194604f6381d1200ef28ba3e0e30ced146a92bdeb3b99f105344c85f855954d44df2b7a358abc5250276308c8eb4daa3570eeb45405a6a750d9a0801a;
    0x2f9c9a631239ac40c27940d9aeef7eca9e3a17060667414a1c838946a5d4cfe9150bc50325a5cc5204ebc9dfe9ff0ea54535381918870f1cf030961cf9286a28;
    0x15102b86e62aac3887bba9755f89d73e764e4ae85855180f3e7489ba0a70d1c618c5cb81ae9c23937c5cf237d8243bb24fe22bf95447c2db8510e637ff72a854;
    0x1b4b92a893da0e5caef31865469a3546093b2ad66126c17a933df137958a8347e545701593cb80e63fbfa087ad949cb8a321ce4238f7521ecfc79304dea5acc;
    0x3bae23f789247da68efc323fd8903de4d7b8b9e38a22b51705d22a09ca5dd6ec;
    0x31773e5657f10b3feccf3a6edbf750435fb45551c29442ca19ff08cd420221c5cd02e85e178ffa542290c16646b8e6317711bf9d954f6aa781a63c35c9c5e6;
    0x27ff369f0d3460eadb2c858476b361772931e4242930f8a6ed40af8a39d512f1; 0x2b663c2ff15f13f60ad524c00f1c675d65aeb12fe0982cd9fb3697a61fa0391c;
    0x1fa4112afbc624ec7918ef38478d664a643c01b57d4aef6e88ecb73b392736f55f977deffce1111a3dab6715de3929c0af4ca3b94660db0df6863568594a5c9d;
    0x8f939b4143d4368bb3f8f23fdf2082c94cfd3e325e1ab3883ebe9b90b48e0bce;
    0x14b0a52bcc8234ccf03248511cdb0d14f3f426c1f76e21a7a27d1d32e0865d761ee47f67f8bada3b5406506594cd677d0adad69c67609caa712a28057b973f6b;
    0x18b7e1aa1a12b8b777a16fbf11257edbf73fe3dc21e6a39caa05d432fa2eca94;
    0x2046660af9c8ac0fe0f4557a8400a9b9661a87ddc078dbefdac80f02d91ba478c03c12721fe3bff13c0d0e9b68efaa2c95e119280b2909d438235e1a1e7e16;
    0x570df349bdbc78dc2f859422802ece91e87e4554189c76a562df4f4188b391ce8e29a22deff657f1aad58e2a1b28192e24a6e159b913e98b8c814e9d380c5920;
    0x1294ae73c7310c6e8123247f879559e88915229b88bbfbee91df5a1d558702314426817613115aedbe0b7078b439d6c2a6dd6fcd6187bb241110e889dd6a27fa;
    0x42d898bda16c4d075118458b638d33006114650ef1425e48e6177e4ff2dba19550f600fedb3913d20ebeb00567be1f880bee524110c2860f5fbe414a798441ba;
    0x18dcf2a0070be52907bb2ac06fe609d8d4125f2075989b97877970802ee90543b058587ca2145167276479e32b5797e0d82c59eda9d15383359d34bc45447367;
    0xa5e9c410b6a154e83c78ff52dc875106bd0d4af5de709b21ebe3e0cf34a267a5;
    0x948c65c15784223ac84bb71e61afa893bb9007544e94a998f2d49570dc1503cfe2b6d5b907522635cbe0b4ccae151372be02b72f6a6be1a480e5505440c1965;
    0x27a8c8a2a9d30efa2652754a81035190691b3548ab3e2f10789131e9f49782de32a6e97284e3ba956b1256f7f18c810da0aec78e33d8bd585d2b45e819ede9aa;
    0x151495d347657e30862a0275b227ad672755a9a603686f52ebdcf2aed4a7eb32;
    0x1f60ef66531c8c888b4a3c2b37d071269e3c4f8ce79208af28223896cfaa87431486eadd7901a227eac7b93a155ec99230c1c6656fdff30a8321e7f2f71824d7;
    0x3690eccf4d589c5451332600361de9f134071437b8cba1b2ee4e6bd865b6bc1a; 0xf723327a9bd361b2322a9840ba83c7c9ddc6eb04d2ec1854d0955136f57a7d9b;
    0xe05407fd4a6ba8b46a2bf1592c45e88c5aa4aaf2de1654520fe4a6fe2242624; 0x1eefd9c0861865bcf512e4509903f674ca3fba10a1cab124cc7afcd9319667ab;
    0x3f90d18b9b8d19162a3cfef00d9f22d49d185d431bef6f2c946151e8086059bd; 0xc76bd336419da4ddae4d42c507c0dd29425bce6985bf5804d41aacdb4098422c;
    0x470b7a02d27dc5a25f9804eb33d0e12acad2236aa341290e346f069963d5e7b26c29c5fe1b4224beac7f96be1f9ad309fe911eeb98edf8bf04ca1a804695e2f4;
    0xa612c6c4c42a0496be716312338103e7c4bbbb1e8fdc4c53eb51259adc65efb7d8c236a463fa305dfbd3e2c297d760d88c4927a19da3604ebf27d67ef940b6a;
    0x6543ddfb1e61ff5bf31e2a63bc7c5cfbe9e79bb69cef25ceea706ee5a97a62cbd260af1cd3a50f6b293478eefb05937eebe1a153df5807ef640d4cc3c2b051ca;
    0x17c85fad102edf10ca6bae19d7976c1da54c834ac05aedb81c9f160d14a771ae608ed752c207f840e7aa9d55a830fe14b4970287e7b59e70b3d01957f8cde1f2;
    0xf1a0455f8b12873e566e320b5963da6b796aedb8ab3c3f73c9bdd6a1a2e752e0b3ede658f4eac1db29f9fe1f694907e22047e9c2ed36c10c84fec036aea87c;
    0x3e67db6d401f6025b4a5bb0694ac35590ba5898222618b513cada8a3e39ade7526406e83a520682faf0cd1ae21e189d8c975abc5eeb476ba33f4a80956c454eb;
    0xf682ea46335d8537156709ab57de549bb091d2ceffed73bcd370bb7bdd82e625; 0xde1cde7509817250960add9c51431268dd6fbdb6a8da0d18ac512517128d97b;
    0x189d61e8f67e515a6ccd943e9bc7068401e56f24e696b10f39500d65b32929060be0f37c07622f128ea4558b8e16d2a0ccfe1d18dd6053113894b9b9c20cf4c;
    0x1c66bdd36afd753eb16e065ec02cd3d1d496908820da4b7b5a0c590cf2f5a319;
    0x1d44a00b190f0aeb98e963b2323f6fa20692c37af0c247e77cfbfcd6829e8ff4a73e6976267500fd03a0bc177628700b9acd6b9fbd86442c74acc22019095c8c;
    0x43bb07781c35e67cf0cfb1ab1b9b4ae3f31535c00a9adb4d9324a573d668b69506aa9be91086a10fd9cfbbe177c059137859c6da2651bd1931dd322a9310b7c1;
    0x902b4cc49c0ffb6e9d8df12abeb891434f938026eff2ec705ebc5200fb03e5f534f74dd3c416f2482bb9000e906e47ace77b34d51884b3dc47613e91191909b;
    0xb72ea7b35b3349574cda86e3780dfafc88cf56c81f276bb922f75d08251b5a9;
    0x18d2b091d0abe16b758a29010f59517ff3d22fb5762ffe34e1f0087594cd2efca154f47755588810c78a847d77095af6e10a924eb783a0d3cf20e8d1424e6630;
    0xe9917fe8f18189b0c7c963fc452083dc8423a8ffdd69cb819eefcd10374102e1d307c611584a072521d8701d40b59d3e9fe8e5d9eb843349777df4d57dc69;
    0x305f85730a0c89908173406772d5a0b6c9cdc0b4bc36a937c8965dd364bbcbd; 0x893833c2b2e6c1833f7bf6cb70e8a0826944f504ba87fd91202a9658af4cf40e;
    0xca583556890e0a17705e01ee7c26168ae4d1c677926267d2bfbc4cef87c55116ae4ee32ad63ac34d8a3d6c092384c1e99a1882b9d2d2caf290a8a6336a0c7b6;
    0x5bdfef74069f567492132834badff8dd95dd501ca51e40470a6caf37e04ef2a0; 0x60c86de0ab9be02b1f06473aeed80645ac54a91319395b3455ba49a66d6287b4;
    0x2483156787a3a3cc29f901d417134022a366ad99ad0c3835ce167061180c32ecec631899b02139fe532a3b16cae5cb2838394c35bcdd0d272b6b58b0b71148b2;
    0xcdf20b77c6df98c3bc159ca4d2ef013fe815be39c40b83323a164d050e47cfa0;
    0x1130cf6969bf1839333db788b012fa04c2da2cf31b0d5886959ea571ce365fa35ae5c66e0fcbba0d68f0f88506094d13544094f7d11f052d782d300218a7f81b;
    0xe90e8c4d79a5ebbb199c1eb35f9c5ed30cb16f060f28b7ae5d637eaf52cefcca91c22a16710b2589c328d864b1df7759e1edeb0c95dc53a30219eb367ea5305;
    0xe66f45de110471918fe7c3b05363ba1b07effbc578ee2e5f103e11524970d086;
    0x33be824e8661a187646dfb9ea1c480b0a4cb0fba98f470d8e747eb2107febf0fecd6aea9c6e075c6fcbf2f213f63c2d62cac97b57c0b8d17ca42f844cc573227;
    0x7c51da3d7e3fa8c7b0bcd94ec5aeddcf953a60272f9a4bb37a23b816725efc7d55be065c3f82e8f7fbaf3dccb93ed81a044dddf0a303817de30000ba028d6db;
    0x48da0722be6223368c7b593739102b331376c4d0287b5edf5679c4e3dc50c50a; 0x27a4d0e8f28b05d08e7872d75576923725a14fad64610fa077f234f52b9ef202;
    0x94ff0864e2f7d1043a452634dff71e686f0b2a64f5fae30694a346721a948ca;
    0x6629f844824cd294bf97cf24588b5bd1fec173b75b3854f75d81fa646c74834a2d1082b33eeff5bbc3e629a155995a91e934223721e8865607ec3eb15e619a4;
    0x3de745325ec80fb308475f7b22b6ccb943e4a95f71ccbc3f0052a1d483a85f527e31ea3577542ad49cf140042a720f3c11aa5fad24fd1dc441b219932c7184;
    0x51a3306339389c8f461ee0c5bd9b63c42d5f996c7e9a91d6f1e039870b8c5b202fd8ee2c8565f233c1e5387fe021c14c6fd1eb31e9abb2e4d3bae75ba76a855;
    0x51ef7378152597af7412fd6507b3bacb27461b857b35cbc986f1727f808328d9;
    0xb2a12874991b8c9c897d48646e331238026c019d9b0e860e625fc02ea35724e98fc0dfb93b8a3d50e88dad207b35d9868b54e651c795d9764da6a7e3d01402;
    0xd5cb281d5a48438f4ce349c9cf4c8a6e4e1c44632c20a1486015e9d5e6d90715033f62429db0f93763938bf7a7270eef2dacb2ae8cddb50acf0f557190222a;
    0xb47aef7fea8ec19033d2e5638445e6047a216652b7572660aa6bba16fbe4a65815c444ca8405f86370a053ca3496430a53c564f326e61f1dbdce634b8f364a0;
    0x4f4ef7eeeb70f9cb13d8b43f8a44cbf9b9296d39977dc386665e4321c0e91053;
    0x2b0191117ef9de1d3ac88de8aae3c386594cf1757ae78bf47bfde1c09d7a126197787e2b3ba72028793bc5125b08de52e305a0262a3769f732e358c1871ffdf0;
    0x99f2c44022777f8ef6b0ed88fd4cbfffca7706947be1632d043c3359835cd539; 0x88a0b520f964b721a8a8b9ef86839ac27c61fa4e3c915ef63348560286794ed9;
    0x814b9936842454284cdd182c1b576863aa7e67594e40947c6fa2cbc310282bb5527dd24375cb8776d29480c611d48f82f3acf98b9769841d0b7807c6ae308266;
    0x76ef3242a73149f77da565309b0fbded5d5ded2c349eb8f3caf80738856172b0;
    0x41e8d5e4abf44c32cc5baf9c58644657cbae3f88154ae8be3430a7c5cf3493e37de81f14c4b7dc76b77937e77d07096ca5cc1ee1903ebb478f81522226acf7c9;
    0xf2ed601dc9a82207b950d764360dc502bd513bc9b0697f54e70f1c546c1d71f; 0x1476e62614c228a1e00e9a181f40b909d81f204003072361696ddfbce21a6d;
    0xa4519a87f2bc589ad7fa985236e05a07879995551b1612c676e281b9c6289b32;
    0x311593af8322b4f7848f78d59df8e1b015467da53cb1c0ecf46dde5ae0e22b19a0d076f8ebff3059b83a339c7f203ad413fa2303d8ae89f7af16d4f02a1eb1b2;
    0xab49233a9664869e5a363cffdcc8e65240c85d94e8091118e827c400127603fc2e6b6a631bb23ee956f45a8f529858c5f5458f8d0f0928344cd9a77a86ff7841;
    0xa45cc56ab828c8aaa113d43282903bff5dee1aa0ef11c82a65a64e2f20c14cbe;
    0x6e8cefe45efa113b89a2c11c08cff6a2d3f6ad94053f458921fa33ae9553181bd15e0a97fc068692e0e28635da8a90b00e55637d236de9967d857aa7bda21e6;
    0x7571059be53c3b5133e802f693b9fb3546851a2649672fb4a5c197697575e62a; 0x2d601f6a9eb8bacd5403dba0e396b295f4a867fa43e81cb1ea57d5cfc45d6ac0;
    0x7bbe80b4d4e892160725bbe29f8046b7bda9ea21b1d0936a8a9a755efd22a74daf6293232eea50889793975bd9a2227c2bb6f65524a06fa9fb9a966e4cac10fa;
    0x8e9e8eae53d32d08dd1947b0d2a7d8cf377f7e3001c76e72a794b82102d03dd843f168e6ac0f5ad4be7fd7abb1a273d4556ab81c144a5957b45decf35e985ed0;
    0xad736caeafadfe8c858d772e3fbc3d3cb55df8af942196f95f9d0b5e9c4e88707774a2f60db55ad2d54f8d0e00dc7ba3a721dfddfc31a7010a00cfb30367b25;
    0xde7cc54f21c90c6b7365760d90dbe49f0b204bed0ac301a396ae24a073dbc291;
    0xd77ebb2b52aad0888149700420b9b75ac9e32de28c5bf1dd9987e6a4ed58572157386cf9bb9098a21003f21ac1e8a7aa82124b8dafffa9ceefc18db62ac28;
    0x10ca41b1598eef0c9f52decd97160238ac636be725ff2e8e4ab51c6ca8da8672a7a3b319b42bf5588a78e03c9d65b55e10f5a90f26b5228f991013732ffb6f3;
    0x847241a92473002df35d18fe210ff9f522aecdf644149ff0965bd58b8d20fcc4;
    0x427619ca2573b9e4b6f035c5a1370852b23dfe5f73b1a302428a19b28654d00d46d472bcd25e101795536881a799bc722d90994111a109885837bd824c65907;
    0x325c0d898912a058ea2fae347c9306625a728d484be3bd525178ec4cea6b40f24d752b5ddd24d9831e43f479e9f900c5129e396534a46061944f4358bcebf1a0;
    0x1a20568e6e6fb0b0fdd945775fd3a2513b9c808e7bc234202d8b92037e7eff15cfc762fc9b3e1ab866aacef0814ad0f7e2ab67a8b61f8dbba1125c5d61dad50b;
    0x2d3e006052c475b4c53613d533e32fae4ee43e0881ee810271b8f226c8431a387fc81ef09c02e796cb5b9680d9fdd89877cc69d477720f16830072034495c094;
    0x67e3258a9873c761d43061d77e5c462aa54020fcb1a5671eb5d9c823143174bd;
    0x1880f721f73669bbc90ab5b3c4de8b6e8a0574fe230825db93df3cb050165a7c0bbc4652d0db0b48f4857b348efc6ade5e58baec345b3cca6300b85ebcb55fd5;
    0x30d9ed6e073827bee76af2f52c87a5952899c0a5238aef6f80dd9e8cbe1400861de31a33fe3ca3bb730666f0062a9367363b5a45018c22467483700fb3dfafbb;
    0x25d6ba94208ffc6f04159c5ce33b74309bf658f3f36b59150a24573f7c10cb654638d8a52da7123482d20b760cd5c6338f0d3cee6a0139583ce2e1f523986fe0;
    0xb72ea7b35b3349574cda86e3780dfafc88cf56c81f276bb922f75d08251b5a9; 0x75612e3d5b8f9629f51270ff3ebb032270b219a8c3c81655b87bb6b1497d0a3b;
    0x1a7545c8cce7d148e1b86c9630fa2317fb853eca33119699615da1d03a5fa9e9b483ecd48fdcac6daac0bac0019d512e48f8071dc6ee68d2a079a05071d44dd7;
    0x4585998100643ea39082870b12985dc1ebac374404007947ad0081c7aaff6f6d;
    0x30869baf59786c32115349063fea03d1723a4cf9aff59d2bb1bfe8fc8683079c80ea05c987c2a4d4dcc5457107c60c56bd4303e00a17303e6ba1b9a9432bb312;
    0x20d81151b284966c11019a717e19dcfde2fb1277c99ff3ad2620d64a10007e9a; 0x28bad57a4a92973985f769f2911cc5e7991f06a631c57ef72ecb86a71e97bc80;
    0x75a328ff0a5e41aebf62d6b05f4d7e5fa294ee61c47bd794a0383db481b2209c;
    0x8ef1819db857294145214d6ed06df48f594a7ee4dc5a618c956ce8a7958fcb86759a34ee2bd6c6a2ea483fc48374def50793fbb393eabc57f11c2c2ab26a6e;
    0x3776383a9250fd6d06bc058eddd1269e7f169570d32d5782a19dca14f5efbc0a6a98aa748cafbb4b2eda2761fbe50c43097bdb8b0ffa191f70169e562bdf5b3;
    0xc0402baa0296e78f76cacd42e80f7e748faf1d1700fecbfcb090814a8b4413d5;
    0x28850597a1d6cf178089407c511d2a55277945880795926798af3dd051d2fd1aa5e67b56cd0d08783cd2eeda1eeeb3fe7b9592b25da2bcbf61695938c9016f30;
    0xca32deb280f1117ac611862a1b205531292d5b56a7332fb760deaa192849c520; 0x41b5d18940ba2110c5c7a1b057229133aa7110dda5133cced39c30de66d699f6;
    0x1e986ebbf071013cf48d12e0b7af7ab7080eb2835b39755cf4365f1bdb5c82587f5925c01d85f77c7270a46dcb46a6f40c129ddc434b1d6132620ab94b381ad;
    0x26fc5baa1c802c2a48e260f6b2b7d3ba9ef2dac86ade4ebba70aa593b444c2509a8f7410206dbe5bef767cb6b9eda23a9e0138e977ed5e8ea223977083504c23;
    0x33be301d4ba415db2eb80eb31417b70283c53b661050f5366858fab05918f5a00da9ba14d6daae4af17d23012e408689f5c183e13512ebb822d8f9eef5b2a494;
    0xa5c936c29c0709aced27b648bda5945ec7730d78d3945a193ec8660237f6acc2;
    0x3253e9b7c282ba27be539f1a22e50d389e7d0bed6afc4609d1e206270bf3cd36c548cde1af89fcfae7cbfbb6a0aad1bbcd873fa0924b82a6d8c233fd16c86ffc;
    0x3289e17e5ddfaabafabba3bdeba0187bd9a368cf6f895ede4b7a0147a35b8a93d5849fe6e8100b83f566bc461dfaf246ee176eedb41f7eb60e7a5ce47215f7db;
    0x1a0be21d31c66fb62b978c90c67877846108c6064516574a9b7477c881defe6;
    0x1e61063b13693414f252b29cb927130d9068405a784cae93f9583d5acc610dcfdfa58458dc5b67759fec47dcc5ee9622c7447e0ab9d85b573d66b7fc526cf96;
    0x24e513e812c0ce5e3117a65dabe4d40b3293aec86e03932f716f70eebfcd6ab30507bb1841b99dd0db497439e6510f8bd3c1b8517e11779ada7557fe5d6df652;
    0x19fa270b69b4e158224ee7a575f753da7b89803001370ef1d40c5ee6841377745b91f085879100962912b072f344ba4331b84b52ee4f6ee9fec7629feceaddbe;
    0x738e3e60bde2f71e93cc7066b72c26fd4134630d056ffeb23e440be0a7acfdd036e779373f7bee535bdf5fd48356a9443c758eb6279c184c1d8bd39f981827e;
    0x539f0cb05eb3886459cc151f4545153f2d58fd6b93121b3fef88cd6d1fe78f68;
    0xa003b67307e27ba6d035b08bbafa23ac7f98cb45cdd192c4e434e3f2ecf24247e36f1b9cdc39f53d607e4de2b1d4f57f008bf5392fad7427dd78fdca8fa9e4;
    0x32b9f2f174a8f5b7c40dede3334f45d8fd7d83559b15ff2a6c4450d143781d129940c2ecbc3e56fed4641a50058ce1bb8c572dcf66467b34b8f578c82706432;
    0x279c0f8dda650d4f40ceed7d608aa7409a64a7152c593156ce000a50386ef626f36131522639a9ae9749cecbf7eb935c07d908d5abcddacd786791828bb961ac;
    0x7cb38df1d730d4cdf711c6e85d136076b921cff13b6aa3d6036193e908626239;
    0x3b3e01bf0740fd2cad0a81fb1aa82b98c7eacbfa6735ade4b4b7583ac75e6dc0c764f77675344257d5ad00d108715451ccdfa3d179c0031c7df7bed4ab9a8f5;
    0x2f8d530aa4cf593fdfa458ace1c1e4ac161470b06c6c545fec510071a8f70f8a763a645008c54e7266e40d8371f2be184f7965a1090a3451734d7b91b572160f;
    0x3bbde26a8321b615990719d2122f61316707a0655ff270d1a18a74dda21bf0ea; 0xe3f69b6fcfe8d773172bbafb20063825fbe29488cad22dfaed8f4d9b026e2f60;
    0x70a06c93d00b0974aa8089be7fa57fdfa48ed8bf43e68dd883463256e973e61e4c38cd33faa5f1775225c0aa373c30a895b28d498201e273c701e2c2364146e4;
    0x199c1bd631a759c111b61f76c025e53d5e043b7cfa1f22904144f92ef6462a5e; 0xb65a59f69e419ab063500a8282ad9c98f9d27a71704e443c50728a82514034;
    0x40e697ffb6af54688fbd215814a686bd6cf0cd77f23b2391205e14fcd7219274af49dd39bf6060f97628d87bf1365a8fa14ee7fbf84b7075193ead5d51b31a78;
    0xb4093b43c074da145d5eace3662bbe3c2ed842ac03a2d75bbaea1d71d856c46;
    0xada90aa2452df261e6d84c0729dded16295fea87bea30ed14cfe295864f64baac943cae4c3e8813fae1d5496d49078c89f42bb6c3ef1a898d9c44409a9af98fa;
    0x207c8c2ccae1428c12e497e0695651cf75e4925100c10f1289af11e32bfe3bf7f066962b4d2bf32fbad84616f52675b676b465898cd7332372f4dd6c9957c15b;
    0xad7d3e81dcfc5de96e651e782d6a0daee2d36974a3f721a0a958629882fe6d63;
    0xaaa1fccb934acab8d035aeffb4fc82469c1e3128c433442271efef5b43df70deaa65433a2a036a4074c20432b630523d6ea553f1bba9b495598dac97c5172228;
    0xaab8197df743e490174c714fe06a8c7c1c1fde93f18fb83063863a32991966765a7e0627a4f937e91e0c97fc8d6acbb5d5034fa24444df4880d69361a6347ad6;
    0x812dc1ad348c934e3dbfb17bef45a0ba8ffaacffe90e56e6c5265be09de2d6ee; 0xabc94cbba3e7c23a4be4238ff2f5690d12015adfeeb70ebb640e326ddcc47ba;
    0x3e75c5fd0f71def67b04ac92d19214ef3597de47ecd0dda1a9ee1c47242fec5;
    0x53da9822fd9dd29f92a70832ba49c0d8631cdd04327c471eaf21b082697196a75447f124d0eca29d8a913bc0529b5e3c10e0c57527c2c5e09105faaed05db10f;
    0x1f7f102538343d63bc9b620d1bf1250fc6821b86688a71821cf2dfcc16461bc4094886d425b67fdf83e8f9ae9d8ff78731db1a9a9e1d93a887a0c7bb2605659;
    0xa6f0c631743145f6e43a62069cd580ffcf5b5b9612c7a6acbabaf76693eb556290cda1a9ba73b47a60f3c645587fea200b0989836c60a55ef42d43b4f45d458f;
    0x9b1e402c24bacafcbcefe839fce46b3170264f35e9b18656b313ab442c0a66;
    0x4509ad31163495ef5380df753c3816a98fc5527170419c8c5d25103edea2296f5b9b3311380d0f57bb6a13cf86ca58db05cba41574743f46a0877be4e85fac1f;
    0x37c85535c3c1651f0b8c5536bb22c0f0558ec47fd7f77c22039d3ccaaa4276effdbaad325901652b087778b3e511af7c16b77def43f06f8c6df690ecc227bc4;
    0x72068b507bb08bd00544247a27498591cb08d7649be0c1b38625ef9b066d4963907132e7abc01adf89082c7f8d0345ef8c9f8d25bce630be004118dccfc89f53;
    0x274f537201ae12074a73c5c31f49c15e2bb417e7c5ada27e566c7eaba73d4f5c;
    0x25aa43370dacf295688527cad05ad9d49079b126864829fe8bffdb9d39a89fe5974fc9ae2f9bce0a839cccb33712b45446682184c7ed9cbd724ae07f217a867].
Lemma prime_n256 : prime n256.
Proof.
  assert (prime 104471) by (certify 2 310%positive (Leaf 337) [0x0; 0x0; 0x0; 0x5; 0x23; 0x1dea6; 0x45a5; 0x102c2; 0x4123; 0xc1bb583f; 0x17b7c; 0x440c72; 0x13db; 0x4ee2; 0x8c46; 0x1e1cdad]).
  assert (prime 3969899) by (certify 2 38%positive (Leaf 104471) [0x0; 0x0; 0x0; 0x0; 0x10e78; 0x21f4a8fef04; 0x102cc; 0x2d18f2; 0x59aaa2551b5; 0x38e3d9ec43; 0x27544f; 0x265dfe;
    0x1bed5e; 0xa5fb; 0x3ee80; 0x3207c4; 0x17ab84e1b81; 0x3f; 0x512d2b84e4e; 0x282fd8e1d46; 0x445bc8420dd]).
  assert (prime 1002328039319) by (certify 2 252482%positive (Leaf 3969899) [0x0; 0x0; 0x0; 0x0; 0x231a47; 0x44df0829cf; 0xa9db850af; 0x52c663c2c; 0x6a2ad8fa84; 0x8e916f053a;
    0x85a350552c; 0xb63031c9e; 0x6c87db848e; 0xb5bdb85028; 0xcd0108f62e; 0xa30bd1fc6c; 0xd98591c2e3; 0x24e7b548f916e5a9db9; 0x1f8c858ac0fef4ea407; 0x19483425b3498143d;
    0x623c2cfb26; 0xab80b2424d; 0x782503c2769ca915633; 0x407fe66fb1; 0xa39204a69; 0x2e6378ec14b1f33e878e; 0x7b7d448d; 0xda007be530; 0x414068cbe6437c3b908; 0x15326231f1a9a9ee55;
    0x23e951b91a; 0x3c6e3451b5184a460bb; 0x20f31934d65b2d01152a; 0x99cd6bc06d; 0x25cfb727d494cc06e8de; 0x91e5276cc; 0x1c952642ca6f353e1cbd; 0x8a00a2bc165e88361e]).
  assert (prime 311245691) by (certify 2 34510%positive (Node (Leaf 311) (Leaf 29)) [0x0; 0x0; 0x0; 0x0; 0x1b; 0xd4b1dc3; 0x352c5ea; 0x1b30e24; 0x88fcc; 0x11bcc57; 0x43c09b4;
    0xbcac9cc; 0x28315dd; 0x957649; 0x6bf5ae4; 0x1329645f57c88a3; 0xaa4d54e38ff514; 0xa358f3f; 0x153d1c83cf51ee; 0x2ec58fb; 0x1192412f; 0xe383bac4bc7c1; 0xd51fc5c90e47; 0x2094da1;
    0xd5099f4feadd0; 0x1167fc26fcff40; 0x4f7f6302898d4d; 0x112ce9ff; 0x48b3180; 0x27c9c2614cf114; 0x6925de67ac7754; 0x8ff1534; 0x1221354327184dc; 0xd681bce7d9cdf8; 0x139b333ff587d;
    0x1418b1eddb9b6e; 0x9a853d03ab17f; 0x50868ce; 0x4167c4065b32f9]).
  assert (prime 622491383) by (certify 2 2%positive (Leaf 311245691) [0x0; 0x0; 0x0; 0x0; 0x6e; 0x1711db5f; 0x9dd3221; 0x3ef08f4; 0xc0eae22; 0x22bbc18a; 0x1d72cbb; 0x3b203cc;
    0x41e088b7; 0x18f7228f; 0x293eaad; 0x3ae4e1df; 0x47bdd1; 0x127b949d; 0x1f6aa2; 0x50dfb8c1; 0x69b2f37e; 0x2eec8d7; 0x7834b4fa; 0x51cb10c2; 0x6a40113d; 0x4417216f; 0x166c23f1;
    0x447f740c; 0x251a76f9]).
  assert (prime 9350987) by (certify 2 7786%positive (Leaf 1201) [0x0; 0x0; 0x0; 0x72; 0x617c7e; 0x6b5564; 0x10885; 0x3688e6; 0xecd885; 0x3ab16c; 0x42ce18; 0x8c1a8c; 0x7d3c16;
    0x7e1353; 0x1f2d2013ee42; 0x6d35bc; 0x4613e155db3; 0x27a0e6383eb1; 0x13485b; 0x4358; 0x56d3c6; 0x2c1a53dd681d]).
  assert (prime 187019741) by (certify 2 20%positive (Leaf 9350987) [0x0; 0x0; 0x0; 0x0; 0x16f7; 0x299044; 0x10fa9e4; 0x6610f272cfec; 0x3949f9d8aa0; 0x407b97d5; 0x68b8926;
    0xaf69044eec53; 0x5cb9719; 0x388b33992f1e; 0xba040c; 0x1298e77e193c; 0xd1c8c119dc0; 0xcaf923a3a75; 0x4eb3a74170f5; 0xd6e40b; 0x24ebe080347; 0xb4b12e; 0x6ff6fd4; 0x25bb89d6644b;
    0x20ddd; 0xa0a8ad35040b; 0x434bc33fd18b]).
  certify 2 992311935624261483443438881192021214769354631824%positive (Node (Leaf 1002328039319) (Node (Leaf 622491383) (Leaf 187019741))) hints_prime_n256.
Qed.

