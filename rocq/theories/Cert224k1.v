(** Certificates for the curve secp224k1: its two primes, n G = O and the absence
    of points of order two.  Written by a
    script; the numbers are checked by the functions of
    Pock, EcOrder and EcRoot. *)
From Coq Require Import ZArith Znumtheory List Lia.
From Verif Require Import FastMul Pock EcOrder EcRoot EcSpec EcpSpec EcCurvesSpec EcCurves.
Import ListNotations.
Open Scope Z_scope.

Definition mp (k : Z) : Z := Z.shiftl k 224 - Z.shiftl k 32 - k * 6803.
Lemma mp_ok k : mp k = k * 0xfffffffffffffffffffffffffffffffffffffffffffffffeffffe56d.
Proof. unfold mp. rewrite ?zmul_ok, ?Z.shiftl_mul_pow2 by lia. ring. Qed.
Lemma prime_21347 : prime 21347.
Proof. apply (trial_prime _ (Z.to_nat 151)); [reflexivity|vm_compute; reflexivity]. Qed.
Lemma prime_7599533 : prime 0x73f5ad.
Proof.
  apply (check_ok 0x73f5ad (fun k => zmul k 0x73f5ad) (fun k => zmul_ok k _) 0x5363 1 0x164 2
    [0; 0; 0; 0; 0x235297; 0x4a6492; 0x65ab23; 0x66ccee]
    [0x26ce07; 0x22f1d8; 0xa8caa; 0x319aef; 0x3721e1; 0x424edf; 0x2e2766; 0x8a217; 0x100d12; 0x68379a; 0x2271eb; 0xda5a; 0x6bd0; 0x3c2402; 0x221e6; 0x2d48cc; 0x5fe00; 0x1552e1; 0x3bb9d8; 0x1e2e19; 0x1192a8]
    0x2d8b49 0x1a58ad 0); [vm_compute; reflexivity|exact prime_21347].
Qed.
Lemma prime_156976040219402488243 : prime 0x8827aece284eac9b3.
Proof.
  apply (check_ok 0x8827aece284eac9b3 (fun k => zmul k 0x8827aece284eac9b3) (fun k => zmul_ok k _) 0x73f5ad 1 0x12c95a38b2ba 2
    [0; 0; 0; 0; 0; 0xf0; 0x3c8cbf31a090609b0; 0x15523a8aff4ece51; 0xd8e7d9944a158a74; 0x79a72b1358fa526aa; 0x8640cb451a0a00815; 0x4c43dcec0b175e294; 0x5fb55f56dd8cd762; 0x6f71cd42d2bb873dc; 0x6d610eeda5d9fa4a6; 0x262933896fbc1; 0x16be9968f12a3bb0c; 0x8225aa1ffe93b1e13; 0x7b86f93cfa13ee7fb; 0xe196709637274594; 0xd771911b1b87de9a; 0x364062c3acdb4df27; 0x7175059e62c1852ff; 0x1047d46e4c04b8c192; 0xaa7d037d97b503bb; 0x4225b0e8d860fa7b7; 0xb4f78d05bc7721c6; 0x30525b6a462680214; 0x12764a96540332b6c; 0x56861b55132dc7848; 0x61e927999b8c297d7; 0x67b5a4373698f498; 0x2c95682be2a9d3343; 0x6a7fb67e90e5b70f3; 0x366c241cbd6b49; 0x45c770ae488b4141a; 0xf938b8600d1c3f75b; 0x8676bc0edff33ee2; 0xe2bb5eb988759cb4; 0x2830504ae6fb371e; 0xdf541c66ecf9306; 0x6c0106a57681737; 0x2f327426922821bd3; 0x71b0a2c22e752c4de]
    [0x7d83f0203376ae9d6; 0x462c515a7c88ac740; 0x45ccc847fbe489c1b; 0x66eabd23c207720fa; 0x86155558511257e69; 0x11b3d4059b24747ad; 0xf1417a0427b2c11; 0x66d3c6a0670b935f1; 0x5131054c9e38080; 0x41606437b620f6564; 0x696b48b2e5acbfd2c; 0x773b1eceaed3d04f; 0x29992a8b70f443529; 0x2e3c2a31ec2c76031; 0x65407579e049444f; 0x19ed6460d34364987; 0x8528af89347f4d96; 0x16516d153937e8f89; 0x9f09702076d6560; 0x367f2599d2f92c20e; 0x816caa3e329b530a6; 0x10e17f46463c6ce4; 0x1965da954258838ef; 0x4b75b1138e01af4fa; 0x130f0df1cb51158; 0x627816cad9ae2daf5; 0x387dbdc65a84e22c1; 0x1857e7dce4d154aec; 0x6b058884fc96b845d; 0x385376c580388828; 0x9bdfcffefbbe854a; 0x71db65fed8e533f23; 0x87ec12cc51117e1a3; 0x130aa513ab51d8465; 0x42f2dd0575e67722f; 0xf2cfb8c7f3adfa; 0x2bd7c71672966ad1f]
    0x18709a63548474ea4 0x17772cbd0a996388d 0x1d67b4); [vm_compute; reflexivity|exact prime_7599533].
Qed.
Lemma prime_9743875111334057846550285755748171501325144788037 : prime 0x6aac278ab3a495bc36e01f97b17877c28c2d38c45.
Proof.
  apply (check_ok 0x6aac278ab3a495bc36e01f97b17877c28c2d38c45 (fun k => zmul k 0x6aac278ab3a495bc36e01f97b17877c28c2d38c45) (fun k => zmul_ok k _) 0x8827aece284eac9b3 1 0xc8910ffaa44f1ed94d07d8ac 2
    [0; 0; 0; 0; 0; 0; 0x2665dd4adc; 0x219588b8600aaa7b3aedcc3bbc4553947d86198d; 0x4ef281b8ec6db401925e0022ef683515d58d122df; 0x3937825c6dd54cff52cfedc216887a70d3a2cad2a; 0x2b8b7473fa191dd59871da1f7bdb1a38a6ebc2679; 0x13e595bb20dd5de8340dcd70bd9cbb5c6442a4c12; 0x7b70e5cdae181539c40f0ea8c2974637445d6300; 0xa90366dded0a6c04b92dce4a9612b3bcc6be138b; 0x782360424734ae9c111d24a58040584868d246c8f; 0x38fe5f5f04e497123c93e27978f2d710192eb0bff; 0xc574f0a4b36616d07e33005aa34b52e5b8194581; 0x49779861dd247385044cd80c3dc594ce9495b0c4f; 0x2af7301b037cd633091268d205a3d0effd1652f85; 0x42d30df5ca116e6660091e9264f1b1e9f8d88d8; 0x11c21fa7d1ed8e941cfca85fcbf5185dd08ced5e; 0xba2a8c83edb6f126276c2ffad0676f0fbf1ce21c; 0x8978e06d9adaae2960fc723c7da60b94ed43f8; 0xc5eca05f1cb5ce27aae021d3ed6f09c9b4d35fcd9; 0x14c3afbc7bb5714c52ee5e09081e5791efaa36b57; 0x6af22bac319715d35d66ac3f6ff45fe30c1da69c1; 0xcccf910793985b14a838b265e8cf7faaa39ea71; 0x36a3384b147792143f2287a6e7cc2e100ec71b22; 0x11d2560ca3202434881e32b701cd0dfddb7ce91b4; 0x5d678b20d0807b9b2483de1bac042129c2a7caf2; 0x32c39efefda78a1a2632a82fed61d5f0c416eb6b5; 0x1ae848240094952693e12168036ad6a0f34c1ede; 0x142afed3a0ad4d4391edfd81a1635be1872cfd81; 0x36a895b117126230df16a54577c5c91b51d93a279; 0x51b45f5fdde56c47be09a008d89086265aa086a34; 0x1dd26df1ced0d9744b10e41b2da8f18d41ac42966; 0x52c6d9a05bc20e1bb6e492aa1e48de785e1b8cbc5; 0x4b5c1f1c8766993e881feb5bfd92da16ca598e507; 0x3b9c9ede9ebb9d98bd02f74be13c8d291775ab26; 0x1065ecf9c72c87786a95909d30365580115c441; 0x3337b4c752298f3d1c04c55cb450f1d2bca6b592a; 0x2bbf6fa99b0acbce4f8c84fbb215e0f76b3bcb96; 0x173269f67b054919e4ce4721af2b5fcb1ec563cf6; 0x38287fadc1c97f75ec694836829c2dbc5291a93; 0x27a4cd985bf3c7266c9c2c9a24aedcf66d452ad23; 0x6ec654bff31c06173b80515e61a3e07972be6ccc9; 0x6da08f40872a88f73ccedef3750b4a7f08df4fd5; 0x2098ee0e75af78523e1576c3d81df87c36b169870; 0xee2e0e7b2976b940ba4cd64f64906a678e5a4231; 0x2ccab2d666ebf60fd3833bc6fdf66d83c1b925317; 0x2804bfc1dd2e1a593a9f86929326dae0c3566aa17; 0x23c2f8cc11832a33a75070191c32b8a2ef0f28d94; 0x820bde3a4fac8028e3333135caf784bdcbb841f; 0x271b6c02270a5d138c8dd2d60df936ca8ef255257; 0x4b7b837287757478e15649f29bb7537dbadd3a529; 0x68cff76d0c834857481ff9e1186925ec1635afb2e; 0x72c163e4f9a88b889b0607215876923b9de50e; 0x191b3b6739c9f0fd94c8221a88219727bec7f85e; 0x4cda348c384bf263208582e845b3a62bba885a33e; 0x5ef37b13ebdd158c96cf5c9f3fb6fc3213e24e323; 0x6538156fa4ba4bb306ba7b057e9f0127f12a98094; 0xe21193051c5db8ad7d48332ccf81aaf3db655; 0xa8a3eba00edb4c3ee48f13e7566316fe871933cc; 0x1e3d0312b9510d1a02950c9459eaca3442df3c96e; 0x1d8312552e534cfafdaa7021042f7607b2b8d2264; 0x52777c2ab0f81673418ce14d5f7d6fcc4fbec6a1a; 0x44b5c03cb941e2c02e8fd412b863848a619566bbe; 0x7a29ecef841727235862b44e92796209acd9010b; 0xe74cabcb0b430c861af551f66ef06a2e2657ce9; 0x18428c0071df07451f3866ffc8b8c18dad1f46b40; 0x117d535e6ad3f0bd224b343c7e11fe96241fe84a; 0x2c50b57fe7076d1f711e8b68316df35e7ca55e4b; 0x36a9b15ee9a41e781bf2e07a4e72719b7414c47c; 0xa1d3da06d57b718c09feda868ae8b713ce911134; 0x28eb6b4400c02b8b4ea0b72850424d2f56d7c7acf; 0x5a4f2473b8ff9f1c7ce7fed17606c7c8a68df9ce5; 0x491910b344b6d916ffa2db61e4fd719284bab37b0; 0xd53ccac9b442cdd96c4b068183749bc8caa1bb7c9; 0x1cb03e31d0b82be5df9e3c1b52a605648a2373111; 0x67ed8d76ca149d487f28b2c94957407548ec4200c; 0x249536512b8ea6ef913c4245b1528615a08261c76; 0x15c788fc19bb6d39a1c6350539cded4be3670d018; 0xbc09e966c127a6e2b1e55f60a95a0022c992f551d; 0xe6ca90831682c4865c97f330633ef7bcc8b8884e; 0x38b7e1fc6fe8584a2312a006eba6c89e13d242d87; 0x358557f076e0757de8b7041321ab150dd9b2f0d2; 0x24a7b4fef0863fa881b47bc950ac93ea4ccf2935; 0x6b9a7684a6cbb555d389ecb4bc720db0b4b202294; 0x20fe50cfee072c8951cd1e983c5f391147ca32c4b; 0xbc223e956822fd89d564049605833453f48ace85; 0x87c2de4c83ddce4530beab0e7d608e1999879d4e; 0xc8027527627ca69bb82bf94cb13df4e4e97fdde64; 0x3a9ed8add4b8277cb65f452c8b2fc757682a87236; 0xf339c54e9482632e798ab9f3023286667639f29a; 0xd755d724eaf74aaa32caa400ca06534351e92]
    [0x7e780903023a7757721b3c1805df74ff638b3539; 0xb90c1db26ba3eae35461c7a77b53efeb70d019b; 0x3f5317f17c50784ed98323e879d06ac25074d15ba; 0xb463c151296ea5d2dd37944bd1ed326f5fe88819; 0x120d0eaaf04b396721e2d3d88571a8c5e400e5b43; 0x33756433f74e52726ff119bfd102421409b89a1e5; 0xfdc2ae815e79c0225d8eb0ea3af15617bcdbb2c; 0x9157ca6b0a6d9138ee6bf10e7fe83bdf40632195; 0xba29550835fa654c81fd2318c264ee3bbf4a91d3; 0x40f40b193703066a92f239b58c0c96cc989d5af7e; 0x59431c871265127c29701cd74b1ecc3f2111a47b0; 0xb7564b114aaff84691f3a37863cb1019cf22ae6a; 0xb46050b1b6248bae0b310b5a7a76f0855ed7f92c; 0x272f99ec2d95150730206a8fa02bc87641e54; 0x5ec44ca56efe61400f336c2fa9d43a7be5733bd48; 0x10d5dd1abbe9673f99b0fe7b5faf43dfbf6e30ace; 0x4f094f97d6ab1318a5054c32d9a68959cc312ef4e; 0x57f5b938775b04a351d7c204ba244682b5088465; 0x2cbe52817f9d98a9990c580af0e2c01782f1cc71; 0xafa0d7e33d72426f72202a8e7a4836227a3f0f13; 0x52477568581232b5b6b0e391e6bdc4454c5c980a4; 0xfa136d403da7c9f86f1e4d1e468bfa1e0854f3a7; 0x2e99d138d7014abd780d062a5ab32aff7f6255c9; 0x3f77afe0a7aaf16ad8179af823eba6a4f1c7a85f5; 0x56e0705896ace3a4214451d48ff4f3b236ea0019; 0x2303bbf756902a18cb32a46f7988ca5a62b3330d6; 0x5293aed5690e98b8572512fc3a9f12c0f5f65073e; 0x68d5897e2a89e509646b04203035a4ebfcc0976; 0xc1d615edc49292881d79e6284a46d57b960abcf5; 0x1cc6328bab3e64169641b8099f3210b0eaf56f1a2; 0xaf02f516df8bae01cf587ec29f1dc3d4a21b9136; 0x1aad5d0be15c0b06b6eab579dcde2ede19343f248; 0x1362f905a96eaeb392291406bcc72a312bdd2051; 0x681f14f81d25bc8feca7aa12db0e96c9c9e90e170; 0x1ab4febe84e7517a4a637f87fcc98bf24ee978f66; 0x293b57579a58807de8d1249b73955375402357f1; 0x6daada09179259356110357e2bd6dd6c2091d586; 0x45fca5f0d3190aac03e7b341523cddb7fac27c725; 0x1a2a8e57e6ab661f62c53e4347585d3adc65dac5; 0x392e73c8ee8732740cfed6f80c0a0eb4bb6d52fcc; 0x5b9ef7915ec2a0efb197f1700a6b12f90c4e6d92; 0x14925906c02581426cba5ab7f061689649d60878f; 0x1053645a9d2aa1a804a5d45d7caad0773a8333e83; 0x2c066d3ab18316252f25a61df7d7909c89ee203eb; 0x7a72fee16df80639ee198d7529cf647beb9937c5; 0x18c4f50c36f777a00b532debcc7a00e6bc8409650; 0x1d8598cde6cb01d8be36e0ab2606bff94b9e24807; 0xe8566cd29812a3494a18cf361cd166737f2c3ee4; 0x487fd895d96bc1873cecc2403e01817938c2fdc5a; 0x9cce0d7b8cfacc4b3fd766fbaafd7eb5628d5a8f; 0x4d7f2223f9b9179a7630e69f6755f335bd78a86a9; 0x196563eb9e881d5ee3baf432c4cd33d4a3cc91800; 0xbfdbd5d3a94e6c4a7dbdeb4fb380dbd202b78fac; 0x39583377f71b82fc0b290688530dba93f4a4dfed4; 0x39fcaafda537dace4f35d79bb72008f5aba48233; 0x2c21eb71278ac175d158e140af37f4d5a2aff847; 0x4c032c824a7b149615cee48de17ad09b2abc43e7f; 0x443c40c5a8adbccf7714d673630f806c22671763b; 0x139da2de0e69898273b8e1d040208fc173b5e79e1; 0x45f450b463c6e4b76634425b8bb9c38be3663e44b; 0x5d1eae37225d8a9b6cc8c75830fbd5786d9197368; 0x5f120f94e1a2b0ff19443e9c650c3d4d07c7; 0x7e446a9901d0a546f04b8c6550e8d879bb0d4f1e; 0x30e2cbb0a438d838a923e49d6d6eb793c54bd576e; 0x101613240d63ebaa3eb06f793589bfab22fa4f51d; 0xc8c50a871b8daf24679e5d1cef9ca17846cc3738; 0x369ecab43f5a2a110a5b611b573c7f9b0c98f8f9; 0x5a18af76cb0721753357edab2df28168056f49930; 0x13ace7121d4fbf46cf9ba7b3a0b664cc60265c5a; 0x1294cb33a56055f78f1b0c13bda51e8016e241621; 0x1e82bdf59295f9cad81add6a570d6e662529849c; 0xce0733c5041220d845a72a4d4fc3cff96330a3a0; 0x1afd12c156ae322b2efbf68cbcecf03ca72eb7a16; 0x53639e1fe27b9f9c6d5e8577f9f035f0e58bfb7af; 0x1dfa05dc077649572c298241742d88712e3b16752; 0x1b911a704a4258823de3ff6cba07b870878e9f49b; 0x68433eba7bd0ca982879990dd1aa5661f6c55a800; 0x1282e299fd461f153a5ae3017fa064f347508ab1c; 0x437777dd4d053127f984d0ee929338c22c51acd; 0x1fadad6d8139f365f5ac3d9ce51e562674cce29c; 0x108420b594627b4016cf18929da59c75aa65f84d9; 0xfd1afdc6379b2da4dab4d979d7b3f43dc37eade1; 0x1bf31a5ae4b245e23cb4882ef3ef6e7ddb43a37c6; 0x60387a4d21ad0c42bdf20716f92c22ec8fcf5aadf; 0x1558c21299411f2b6a59219f759a3b39454fc29f0; 0x4084265d04efc4476f7de613beb2a403feeaa05d; 0x47aba639227512dee1694865af0a759d0babe8046; 0xead0aa9d8961452b384621d222fe942fda32e62a; 0x10d0b06173c7818ed7ee101f912eb201258243331; 0x165f4650cd109bcd7a5a410093661d7e3851e99f8; 0x20132237864b74838d44004c5c3633c752beffc6; 0x1cf5174398dba752861e3b0b193c5663c4f36c846; 0xa04739d9113a9b9cc3fc6642c4b039d84bb925e8; 0x53dc04795d12a0566dbaae70a7a2694cf3ab73f8; 0x13676fc94c37cab9e857ef1a99ad07f37321fe6d9; 0x34ee2a6fe00e3dccd9e3ca2a37565552fdb3c15; 0x1b8d3fff21c75cb400db5399fc5dabdf4907bf949; 0x5b20597f6edef6a139c6de701dbb147d06a46aa3b; 0x1bc73b40e467af139f765082f9694154cf2dd50b7]
    0x4d9691b10d3247e7b757842d1618207f0ad59200 0x151ecf4a3f96c7a4628f136063f415d728245373 0x4fa5e49aca4d9860d); [vm_compute; reflexivity|exact prime_156976040219402488243].
Qed.
Lemma prime_26959946667150639794667015087019630673637144422540572481099315275117 : prime 0xfffffffffffffffffffffffffffffffffffffffffffffffeffffe56d.
Proof.
  apply (check_ok 0xfffffffffffffffffffffffffffffffffffffffffffffffeffffe56d mp mp_ok 0x6aac278ab3a495bc36e01f97b17877c28c2d38c45 1 0x2665dd4adc19647c 2
    [0; 0; 0; 0; 0; 0; 0; 0x800000000000000000000; 0x40; 0xb08c2c939b9753b0c4b8b11000000000000000000006a4c1b9; 0x45ac0f077936c6f05f9681fcd96736d629f98c4b44d56354c5baeaa9; 0x231dc81ed6ec26c7fc5fba06f4a6972804753a9b2d762b1f646818; 0x6994e2ff25d5927faade02f8bfe4cfc87b68674ee4d9120e19cbd9; 0x156521b2dd6b042e4abc4115c712342ad1208d89c8d8a15897ea4bfd5; 0x11e497aafa54bd5ce3aa8ba0af3df276d8c6bf5da88c500deddf466ca; 0x38efaf044077d0e5648aa1f1be564bfd7806708881eaf4870dedf3c8; 0x604dea615c2c57a67fa0b60e54000a729e24da2bd05ed3613147b18b; 0x1049fb83f02b09d983ddacb7e2a4128bab01927401e7a3376bd7abfe; 0x6b5bad5746629c41b59e6b9817e6d6a70e0072bb844eb8b442e6f0c; 0x3d18a8a47f5fe5cc2a5246ad0a75d3b41b64e2cd749ba0e95804797d; 0x1f54d46e7cb41ffcdc809300290a2c854ec3953df909202d37dd32a93; 0x1cc22cdf019cefbf90817747483850e8ba4b525fb6a69ba3bba3448; 0x14887979fedd79470348bcee319aea66afb7dfd319900e6ace3e2ad58; 0x66805daf08f119cb837f9933607f8b19e5da3435c7e1eb8e21b0703b; 0x67ff969322efbbe958fc0daff2b075ea913f6ec6ac27c7d86f685e6b; 0x16ab9e3583849188fae988b599255be4bacdfbe8bdceb14011cd69e1a; 0x115ef72431b1f3a36c8e4927e38b73855a0c76985e96e864eb8b0018; 0x6da6b40de5a89407b4a2fd430f93d7b39b8f7cdddc20e585ce8218a5; 0x1af24771dfcf9007e9ab63554ca3f0c474d6a6dfed82b783a831001a; 0x1fbbee8a421fd93f0785f892a0b5d6d43d14899f917bf09370e; 0x2dffa841249d17b11cb5e9c47e8d937457b9c79baf1ca595c708d654; 0x1349bd5600b9fe5bfad0366ef85cfad80f2738679d798e0adeeceae5; 0x1e8fe85a9c0f2cb1861953b7680e7d046450a56e85f6e3dc670c6d; 0x11da5381ccbb08bf0da3cc6e2ca883f91e95f59b6d9096f8ae3bdf9a1; 0x6daed5bbabd0f49c2251505f843a990db10d79f92800355b5154737; 0x18cc4c07f7ea8c75ca4227c1c407fedaab699d6bc0f11d78b2763305; 0x86aa9bbe1119d5dacc22df28a06bc652f37611a56b6d7b819fe27da7; 0x9fe3f43f112c76ab4eab87a6282824105c0b82fe122b8582c043085; 0xecc1a6b5eb0c194d994de615dc69ce9ab8c355314181f6d84322e846; 0x2dee992a73febed1554c735b3c5a0c92b1d234196352727b85954aa4; 0x1facd27f9a71a074bca4608f4b47134378476e60f5847c8e34ea26ccb; 0x17772add187c91252aebfc16557b2554d75b46e42a9f46ad81cb0b2e6; 0x82044a4b1041475d6da38bf6a69e8b33d356da3ef1d0aa272981deb4; 0x47be23c7d301b903a4dbaae5989a0e98ee695b3c77891e230648fb76; 0x1a29d4286a874be7d5911e7bdf034fba98423e484ff92688dedb657f5; 0x46bf168e75c4ab034345380cf343c1ddefd1b5fda3648c41bdaf58bd; 0x53675f7085f7049d51c144cc9410480579ef3fafd43d3482664ea24b; 0x21707c9dc6bf8ac7f2494ed9772333d99e2a0831299c1c5179bb041; 0x3efca07543f50b563552f4a646193119d5d8345ec885803f275dde5; 0x38c0c50a5fc8110ffb6399fb0429ad886122c026832d0aaee4beead1; 0x890231e9fb722770a990209e0cccd3c1f70ea2e827eb3484c839d9a5; 0xe484e265dbe88e09925e6f35b16a3eeea3ee2f3ceee8cde0398ab51; 0x1dec5abd2b757bac253114df1fe929cf1297f01a0b095fd5ffe3dec2; 0x1de5ec2f3567a5550b5cc0ffc14b1b4acec82d5250ccb2e14f4a18; 0x69fa4490a036a1db7b26a14e5e3181291cd5d44afa65af82b7ebac86; 0xf5b57916bb47ab74f803f6543a0de636981370332469da8172702a0e; 0xd6f948971aedf223160f88fda3b9ed045fb03843f840b0d856692a5; 0x192e3a52b8502367a67ef689b51618b78111a359669f7fb650f0001; 0x188fa0f0eb5b67e30c47e08f3350836089089bd96ba7857e65b51c32f; 0x20aa8e8e9b31d2fee21700dca787e3c18893cf57066dd6bb09ed3a78; 0x4d2f7ccc0c2ae0ab73d8a80ff52dc2a988723580a020fcfb4dc2dd5c]
    [0x33825a495501ec651574712906b9b6be2152352547eae96b6b434e94; 0x9b8c99eb0bf43b4bb37146c358c5202a0b7c49d2eba6f9d89ebe6a2; 0xc6a12938dc4e184cbe3f4cc1601db58dc7e8d43028e6e42fc8f16cbc; 0x12ca1f7fab2c7dcd420671c424702f90b20d196a2184acf1903bfd93; 0x67c4f6cc02c4b17c89ddd033cabfa4586c941efd9c89cc69de686b01; 0x60ace9d431a63d5f8fcfb33f8c5f62ad27b7adca101d7f7a9d9aa56; 0xa40cfe3204c24d986d3443b1b9682aa259494b90d7c96f3eaa8e460c; 0x497482139f7d1909fc3536a190d52fd90d7a67215fcfb2fbfc2ba9e4; 0x597659e95710fc151c9e1a8fc24a9888b8dbf05bef15ead78b60013; 0xc64c68793e7de4df737c83bd2e08774738675d37b57747096c2dd42; 0x2da5973b64e53e342f585439aac5f148bf3be661a45b822c08700082; 0x9af5698f65c04fa6ac450e3abe8aa6f77c54112c3d701c623118ef7; 0x727ec93fb0ebb9f07ad725991744feda9d8b42d3bb31995a35ad829; 0x2de20062bf9ca8fa208169c84fad1a82d43223fb939bb1982e5f05b5; 0x27b072c614ad7934dd5184272098405ed1295044de63b913a9c2dca2; 0xbb9e338fba545c07228be6dac3443ecbbe1f7a0486fa3a3f833e8ed8; 0x398ece259fbb6889ee1ffd1dffaf9442c8df097f69a7f34858fe7fe6; 0xb93b9e6e2c6fabf472e6a841122bd086abcca7cf21fc71bbe50d6cd; 0x5a073830f8ee1e427383348bcfc6b5e7b4f05f178ce494c4afbcaf04; 0x1d05f1d58674b526e9ab071586b5e46b673eb6f0e89e90e437361dd; 0x181c9e64e85479e4e3351953cc579382ea03470e307281b3103c6832; 0x6e42df8f64ab9058a0713d71cddcb7bdb587b19f7ef902fcc89ada51; 0x8c6ec237f4aabbcc3455efe612b44692ced27ac918734bc9d09b0a93; 0x29e6f987e402b9d8c9e4078a011414ece65afb0c958a9d92b4999e13; 0x76127c1aa85a4d96dece8a25a11800b8f7171add90b8e23569fd032; 0x69126f15d3ce79123119298dee74f2b74bd39ce82c99760f62e98b9; 0xdbebb49f2b9531941b59622dec23473a8699e72ba08c0bdac08011fa; 0x2d53fda394a1788fa96359d68d33624b91255f763406595b42a1a4e7; 0x314887572e03adb501335cf3e6c893574858f3b6db10f49114681565; 0x3202e338828d86a7b8cabbae856d4d25fec23c5564703e329051ee95; 0x49e3488b44c17105919a31dd3953451fb6e7fdc2db6594efa380c3d9; 0xff9f3b400426196a276740c2fcda47cd27e4f27702f5f617442cbaa; 0x9f36633644adc44070b89274feab1f47382c400a96305b2242d3c38; 0x79b6a2271401c0b31ac53865f15a2887126259437a1821aac0fbdc1f; 0x328756a309e2c23ab165395bcabc5d7200c43ce17b1bc995c1bd769a; 0x11086d3598f56edd812aaec2983ba3de0f830c6d05f4fea69ef7954c; 0x404786c2db65c07ee37d95d406f26df7d2d562be5377d3baaf5adbe8; 0x63a71e52c1cd38cee2b7b824ef48e293cf4ada9ff6f40e52dbe5aec7; 0x76e80b8e8a095703947d2e9ca2c103d849b653e1896fb33a112253b7; 0x6eafbee3890bd46c791d1395aa0fe7ddf11f58c8bf7dea796e5528b7; 0xa1f01d99945f0806d1daa06063f07d5edb5b7d6750beff6c981c79c7; 0x59a5ffd11ef1cb684184465fb489540e2410df3cd781f56424832bca; 0xfde13d802a1c5ba1a36957343063c34647fdd6a4e3244396b69b8e; 0x82eb20931c9ef4d09bfaab1581623eaf51ef70e76618266d60801135; 0x381ac668a90a6949af417b53b5e019fa29a2ef0e0e2e3f5310ef7c0; 0x371d7071199e519106f10551c802a5433ef4b2014a8a0dc72808c69d; 0xf8ed74db44ccf1730cd06db65679fd4481301ce984706cf198964604; 0xafeeb015d4b4286c500fbafdedeb2c33d5bd06180010459eb495bcdb; 0x4294da80d3f7d52f81410b9d7e87f9e354586eecc4aab6ec70a89b0e; 0xe63c0515758fa957b193e4bdc07fdeeae11ad547b7656170365a7861; 0x25cac90b5a03d93f8312b1dd7228532ca6d857a6e4f873939cd7aa8c; 0x65bb9940469fa1383bbc15bfd6e4eaad21f87b090df2157282b61ba; 0x1cab1843de4955e88054a17496a73ff0eeb5e957c5112540202edfb6; 0x91ba646025dc8812c0c58cb84f43d9e0f04f5e0d9284830b92e63a7d; 0x39b6032d3e62b8b9b6306af64b772ac0ac0faef4a7da78281f33ce42; 0x3599639a5f23f7b0c2402fe7924c27c88e82f1a9992e8a94b04b658f; 0x45755559a1dea35dfea667a71e1758e6caf98fb604ed07265bc57b7e; 0xa4afffbd53189200ff28408fe3838df2a4b9211a5cea2947820a9b58; 0x389c572afa7bb199ffe4f297a9bebdf001e60bfee1ff0d12edcd9231; 0xd942cc73c356c341a09d0b62b086c59f8f58ff65dd05c2db55e717a; 0x14a81aee390117b5126b7ef98b76fb0945b9f5d203b20ab1dfa59d0f; 0x508be3fc4e7988206f27a6783307c80001cf842b84389446313d506b; 0xf086b5abde74e6c6ef942ae36f597b744f161cf5ec5a05d92af4fc6; 0x1a0e9e5ae6eb1e4d11313f3a05dd540ba432e0eca1efe3c89c939a08; 0x900141bf9ddaff2deeb7a8c0c68a7cf59c18c51a711e4d3ea01dde2c; 0x65cd61d2c60cad94f314116e8cff0135e8357c82375cc45a86435b8e; 0x432d3d72b395589abccf776d9e5cb990153e49bd8cc406bcb683ba96; 0x6d50a726eb6db5b16e7b39e6f189467750388ed98359bb4f85015a20; 0x81357da4a98c6823eadfc6cf24c03dc58125af794f2c82a3b2c3bdb4; 0x5baa36bd216d39bf75c2d46d303423de3b55ab1b0a785c42e9ac3bee; 0x66be612c033771eabc98e4510875a133cec9d4170b386f51172cb67b; 0x26f8dc2ad6371e929b84342e0f79198134c17a80e8de45289f7dbba2; 0x151b8426b536209c7ca941a49cb89acd04bd02d44f3d3c261894ef; 0xb310b17625071c9f3cbe189432b01c1692cb85c1dbd1652a973684c; 0x5ee4fc1886b027e6d190b8c357db214e23539394ccb85101bcd609a2; 0x356e6c4344e973b9dff740687627ec36a3955b5cbf2042df4d3b875c; 0xcf06faffd792f6b73015a687f4a45769995d4910b5a2443cd3c50d3; 0xf6ddb559760c360175a8826a40a25361ef6c56dcfe0aa3a3a8626fde; 0x3828f91af5f7ae494a0cf0d7f143d9e9e05e98266a698e5fa715b9d; 0x2667c47cd05233b86c5e402afc3bbef6d55333572e43a955ac9e609f; 0xbb8daed55494149325f8d2b3185c7c94a5422f2f504c38248f2b0b5b; 0x679870d3352724eecd9867f80d08648a2d05857a902bc756db16ce62; 0x694ab3631bb16b94bdb191990651804e25bdf930e3d14c29843a63a8; 0xc1c93ae76ee1a7394c93a1f102ad1ff558f3d26e4c5ed21a42fd7427; 0x2736c5c4b0e256e8427a69a3a22bcb489a7a8d3d34b4f445904083d4; 0x622a2f4c2cd3c2e849487b333e3bfe271cc72bd1851061f1017d04d7; 0x12d07a19c115a58990e9d93af007329614bc96bf9ab4d50216c7a49c; 0x3da056a8131a89178ba4e6136d7c174fe067535cfda6b8493a7c2c5b; 0x3b6a1dcf2f7a03e2fd0300d820f6d7e99476296843d6dc13344462d9; 0xb0c619ca334d05eb18bdf1507798558eecf3586f6a1b2ab62b0297; 0x65952a486222baab8e7194c25273bf9399a16acd126a5aa889bffbc0; 0x22d582ef2962d28687e94bc9ecb717029161e7c436d403cd363c5059; 0x3615e7126e1c9609bd7ab917ddae95c4947e8148931e43d75db0db7b; 0x97313ca9ffd68b78ce54062c4313656d5da03ee58cf16ca0cbb39b84; 0x205ec5baff25a01d2ee5b4109e2d5118c4448bf8a53caaaf9e5a2a73; 0xa5edc432d6980510e14cef9645a62db077fd964e0d7e050422f7f3a7; 0x13b7233482a50c33330d36aa7883e55100b52b68355c92d1470a9acd; 0xa8e436c2cba475fd1c43e863b5e636d031e7540f32e0da7a75599b27; 0x5b4d170cb3c9e64874e92391aced4a3bd58ea47fbbff76063fb4ca1f; 0xcbdee9b4c52b4f233d12258c53a27c8ba5823a02aa44568ec856205; 0x3966718e9809ebe724932bf4b90b8efe88dfb741205e95c22fd119c7; 0x1cf4eccd8277f419cb6ca49a3c85decf41395e952dce9f61b7ffb805; 0xbf3be289e2f5ffe54a1146eca98755684c921a08268d43c05dd9c60c; 0x22c9e782e92623209e63f1f989a804e14b7dfca41e5c66bdbedcc109; 0x91235b3a435297051f4258d1e3fda27a688f1520086e6ac668d266d0; 0x2bf56f8397c0f3558bcfdd75e267820b5c6b15a24a8c6c27c7fdd8a; 0x39be7add4b7743e3594fc10a05a0cf4c1f700d179d20599e7b53e5d0; 0x440b8e85d3e739cd6cb63a39f31193abe2d27fdc6fff69f7ace5acad; 0x5b6f37a9d49c354c3eb45ad54334145bf87e9ba5429a3f7a526d7a6b; 0x78da1073cf4d0b24ae0440cea1ef2eff7a35af2c050ee1e383044835; 0x2c9f9415535d276cb771642fd19307038765e15855a93d351c261c8a; 0x3d8e3e6642247d4fc565db3a27f37619480c24027cf967d555cc8d19; 0x2645c68b9071a90d000f70f188026b4b63372cd491f35644f743c07; 0x2450d0eb9d5bc09fe6b540670b060b8c44010cfe91c5113c66f43dbc; 0xbbf47745c7bc2e67442f212346c5cea1c49719d961f17f91c1d1ba71; 0x2c7830cfde69d045cabb749cf03b010406f3cb59a28c8430b20b025f; 0x1734f3cfb92f763af73c086c2e500ca67a0beb572cdb79f649b15fcc; 0x8b6ff60a569fb8561cbb003fde51ac0c177cd799e4586b3cf52d3cd; 0x2f625c5b2f4bb68fc1dca58da90061225abd1d1ab2258a23c8bbe602; 0xbbfd0d07b9971a41261bbaa9f0cea7f0aae42df4cd6bb628f017fe86; 0x5882952cc942f9c1eb7cb178b37463af2a37be01ad42b95957daaaf7; 0x552ddf9e56e83a666bf36d4594ee192812d6952c6ec10c672cd0e5df; 0x4bfa8523a770663c40f746bf624ae5240d5fd12b04ec1635783525bb; 0x962f4edd38724d0fc1292c30cfbf8bb7dcf1267c4db307a5a3f137d9; 0x57c09b5d718f6c15269f9da7e608c7d3990bc58a9c03c91bcfadc5e0; 0x12034a4f2567eab9d4402abeb23fc16826b0d5cffa949dc3fcc35e5; 0x5f65ff13b6a076f6ac6b485edc62c479dc09fa03177d93a44d9a71e3; 0x2d85623e07d63a8cd7b081eba9861469ab001452ab7232f51c3b550; 0x3ab79901fdaf489ff12b3d88ed305b1a0754bd7dfc26f5c80ba8a85b; 0xd50ea79a3f36c5772bb2310fc308040dae353fd229ee5bbfe6ff0324; 0x64ae8a8470e5f43959ed07c432ff03c662059efa4c40dcc3b9072921; 0x8cd9bca88a199eca265c822537ca772463815c0bcffffb64432ea82c; 0x26fd98f192c1d1f6e550ecb8af364d694b2b6c9ac54707a51cc30a; 0xaa2a99ffc424937950a555adaed113ff2786becb01db730d8f972611; 0x1d7ae62472c3d3b70ecd356c20cafc0ef752656ac9f8f8012fe6aee0; 0x4532ba0b4993855769d28fa3cc1b76ddbb23e1865b57ffa0936fc680; 0x5d9592946d5103a2b298120756be9e28d5d3ed8e5292048543689; 0x50fb8a6709aec0fdd089cb5f16eb277b7d25d9cf63b033004dc359ac; 0xb12e68bec8ec6436fda7f3e00e9d26d4161131c8a557a83e0822940b; 0x120117920f2e43b4ee931da57709ffa4efc2aa7d11a4fb4c02b3d191; 0xdf3432fc63346c296cf4434b8b99c09483738d94490f6a1b0c3a4d33; 0x42a22f0d695154deea16f88747de5829e5f6605d2f566dd50de0f969; 0x345db28739bb4eed793765d276159d65f17eae713c0af35345bab70d; 0x1c6ecc90ab6030982d07379266936ef957f27e06fb6e06cf987654a3; 0x11dd06fecd55eb6519198b3bcdee233c5a7f4a8c94207bc1c57e1eb2; 0x2bd2c29940c8642f3ab43ccab8d284929d23ce5313765c77e749e4; 0x651dcaa88d06b4a4b03c58a8c453518d171bd51ca782f26d5d7022b9; 0x4806c659b6c6424689565727356ed8678bbe826f185fb6ac6c5ab54a; 0x6281d54af841eaafbf70a4e5bc98e448d15b18c4847b20a65dce5dd9; 0xcd787402126e743b1cfc5a95656dfc5afb76ceb4e9dde0880d6de4c1; 0x5977a3e1cc10aec5d63d033c3392b8a03c39a1613dfb69aada915351; 0x158cf653edc1018f98e3cec9b6b10ec1ce8650ddbd690c15b9b88cbb; 0x92caf340cd426435201f778cb6844a6a891ce20701a4e98f1cc31cba; 0x1d3fcb1370421540b57fe2d1d31c8758edb03f6e89cf577e2e782243; 0x5afadf022d90973ea77d0a88b2130fdbbde04c3918e110bfffc7a8a1; 0x49aad130f3a823c81844e13782136141056d2e729c283d2148200ba1; 0x157c5b16cde36d459ba90984640a49dd5b90f5486bfd25398f0b6d4c; 0xf5202c89689c3fb798c39be14500ec5afd14c0a21cc5d13342bc8f89; 0x5eaa21e09023aa575220fdfa1ec10eb716267ba0955173296b8e4793; 0x7849f1ff0ca8e5d516fc200344bd6f119df03d4b3dee922de77ec52; 0x56026ba8c4a8401e70facfbc21fce6124c76395287ed75963d601abf; 0xfba2fb48fac8e64e62dd30e24e4d73c3967be5e54582beea72862c6a; 0x1afe28ecd0f449e56a4750c6158f2c4104d9ac6765151f2a598ebc31; 0x8f101aa0932a1624d0a15e54d606e8208f88f91a6f49c6337cb6d75d; 0x960b15cf29c20e224e5c10d63bdf0a4ad43aa1368845bcb52276a94c; 0xaf24a00aba9e9b108b48df38fea282b33c470dd087f4c58c26490b4; 0x40bec5404a0df590fc65ce7ec7a1d9ae875e3cbef82aa2934df2a91a; 0xd4ce82dbd08ec015c4b46b14eab26695831979b10c84be39943d380e; 0x364861ca53c7bd406000c3a26e33812269df4fae55456c467647aa6a; 0x2943ed787ea535f2169f83e87d904e5c16e15f81fb89bdf028a4726; 0x7198ded5014a54391377bf23ca0973cd6e9ff7b6a7378348fbce86cb; 0x5da942d17e753d3768c4bc2df651b016f1e16d812f097022ad792952; 0x35a5e4d33b46462dbcc82f135a5933f74f47a64f9f03b34b0ad8cdcd; 0x2013fc07c08b7e536fa5e1968bb3b7029e39e02c4b60380dfdc35e; 0x7dc994c488bcfd1d2283d73a0212033cc58f9a3299e16dab8df804dc; 0x3ba87f3522953b697971eca740858dbff51c40946087e7bf87a74c21; 0x50f7d292057977f29f81431f802c49275758719a2c637d0025ea822; 0x437b908465a2734fb144f943a885af2582f6d858d27a3c1caf897de8; 0x902ea452f37faa08a7f1d8b9b0fcaf9d8cb2ea4206798da348c12409; 0x62bac7c5d6aa78369bf14f7455d23376295224512e48d47cf3f00263; 0x14bb07401ad83d6d02f9cc414e901ecadc9ccb29629af9153ec6263; 0x6d2435746681f32d3c2d7ae05f57fe474d687f8bae00bd71b034a243; 0x150590c1bec58641732333e2e8297c62b974b8e2cf03a10aab69150b; 0x27bea0a27a043f6efa82cfecafc60a45506c159dd95290943e2a83af; 0xcdfa4b873701a05931f395e2662ede39441d8b0e6a1b4c5931cf762; 0x39b13b77322f5527625406fcf5d79fa4fb5242b9d0bf59719b6784ff; 0xb21d13f1dffec74518a606b7145c7470d2b5c325bd78bac4f9f1f4cd; 0x6c687695fc1a5f34686b7e4fa02eda47ef205ccac35cb53f0f0c0b; 0xc558139f9c3834e763aabdf927f98d36052f35291d8fc42de905391; 0x5c7e533d288086031b8bf6983c4feaab53e93a90585d85bd66c99447; 0xd9dfbb3239a7c02597d14276c34965242a8e6cf4d37ecada06abe39; 0xafc8cc7bff96314252c8b5e4f51694f8a1ff7c31b9517848717570c9; 0xc82430b9fa519ecfa709a3e6df7d4f46f395464289e08e36adf35d7; 0x273101db3c6b544171b15911625099487570639cf8f6138036ce233e; 0x4a592586e7d74356867b9bca286df21e4a207449374d94e212f10624; 0x120e7f0697d9f9878d1832c37e56ddba394c46ca8bdfc0872459a5b; 0x679541a83e8c210015931bcef04104d827e74126ac407b94a5a6619f; 0x673c00d47bf44c21b552a439bfbe9ba4cbcfae7b1b7dc0e87bbfcb5c; 0xb072040951d4c6b45ed9dfc056fd764bc73f4adfefa54b63056e4a04; 0x34a16c2c4adea577d28cde4bfa4c18c1826ef13949adaf472c08f9ea; 0x2c4a487dc74a4934b1008373673e6fb7fd9fdd2391b88a9070350770; 0x35df073859bcd1ca5e4a67d75f69a69e1eca19a0c9d18f175e4239; 0xffa39e13ac40a5224a35cae2479ea609524134d6b81db6d64ec8f450; 0x3c8308e5542f844ebd6d6c59052a858d85f24013c0a92d2384cd37; 0x684c5b3b90df8806840f631d226bd5560b80ccaa53e0fdb079d0134d; 0x356cfe3b570e22c8e6a5b47b33889edb8890303aed3d38165a2e6173; 0x49012b9f7cfa2a548a4cc22bbfa675e1a0834287b724a13275ec46b; 0x7c6344c6396e0b77df9d0e761206ee27128c58b632a82d5e8ab30832; 0x4f7e7830201f9b65c61a4020262480786668b5b5260c781e10a8a198; 0x9a8174e861e7da885ea9a0cefdf70e227dedf53ae57c7f38b4faf655; 0x1d6d425419c782e738d71c907eaa76cfb1abad7ced809651b7b4606d; 0xdc6542715cb919056b338b2e6415bfc6ac6e67295d66f6e05c1585ca; 0x2470ae7bfa7003b9eef495955625b2978ae6337672a0ba116d95f7e; 0x28a3f40abc0b59d3f0d0f3a157ce3305b95d5e8ae802a20e178ef5c5; 0x53e3bf419e9b9900974fe9e5b13123be00bc3e765f090373fb7bbd13; 0xd14271e9e8b42c084157cf3f389f5c8db991a72e1bd417583348e005; 0xa58d6cea09a49af17df7253115e5051a246e216fbc9fb65d792f009e; 0x2a07a8ba667336475b7ee62d6bb88f978fd151b3c28c7830026e2540; 0x6dd7e09a6d961af067cc660ebdea545ba77b1ce656e99dc1baf07d3; 0x143873b570481523d91e0b84f2c5d81e739295b83c303441a0784897; 0xba6f5a568f2c5100f851bfac31aad8655d533acdc9e6e26dabd5; 0x474758583513e0811fd05b0ffe74f86a45b2b7e9c3693cd44a19531d; 0x36cb2fc03b54f16c745ae776ad7e98b2e7179f52641b296a7b9af45; 0xaf21e5eee60c63b0bd0d75d79dd9e214e00b484d7634b5d87eb05fd8; 0xfcf5ad93ffaf064960a0fab98b77973aa2bbec5dc49a5d685377ce4f; 0x343a78b6eccec83dcd4d25783aed4843c03f0cac715e88adcef1e49; 0x461ec05a395211279c22b3d37bb09dcbf7185bcf93752e373602ca38; 0x3108e45a442559440cee5deb0c702e6fb19d00fa6c9064795ee53d; 0x4a2465145ce4271a277246603c26994929b73527cfa0f10eb20471ff; 0xebce2df5b6aea2d32732b76d207c50caecb61f6ee652cce404d8081; 0x36c99b8fcba24107cb007e9720656c4d91e147d8b135b4df88f7c34b; 0xe2e1520be19998f063e60fb243ef6f00ad7e6319b0b24515d70fd3cf; 0x9ec6fef9ce637d77c07bf44efd95b49ca0b1b90396da565aba79ebc; 0x3df5c96c9ea8d8e673b19d481e16cda44b1d6d92e996430088e8e76e; 0xbf499a796d6f42e44c5d4d32573e4094f9743647e7c76c591a8f5947; 0x7c9dbd76d1bf3325e9518188eb1971fa7701afaed4f428f37b875da6; 0x8b4bb6d411fcda61e07d29c8d1595e5b92f02ec9fbf763bebd72ef7b; 0x11490e5cde65120e57828f507bf26916839a0fd2e674d63413be46f7; 0x51ae80cc0e5c2870b80a9962d18ee1f9b714a0c09d49eb19cd513670; 0x449bb8a117987c33b0089cb835a9b3a805a250db2b23220ed001c; 0x9d491aa211752692c784176e1df4f7e04fdb2dbd75502e633b375bcd; 0x225473f77dc0ff099129171ec73022b58a956438f2e56c201c2dcd3a]
    0xb52dd641fc8001a4bab35d43920865fd3871795a73d00c0f3bf91f7a 0x51451fec07912ddaa8aee10dfaca3ca90490c70d3a09e5099e89a463 0); [vm_compute; reflexivity|exact prime_9743875111334057846550285755748171501325144788037].
Qed.
Lemma prime_367 : prime 367.
Proof. apply (trial_prime _ (Z.to_nat 24)); [reflexivity|vm_compute; reflexivity]. Qed.
Lemma prime_2218883 : prime 0x21db83.
Proof.
  apply (check_ok 0x21db83 (fun k => zmul k 0x21db83) (fun k => zmul_ok k _) 0x16f 1 0x179e 2
    [0; 0; 0; 3; 0x2941a0; 0xc9771; 0xb37e0; 0x193d85; 0x1e0a15; 0x50b3e; 0x27dc7c; 0x103f3]
    [0x1888b3; 0xc0d41; 0x18a9b5; 0x54e1; 0x107753; 0x6f; 0x8e369; 0x14e5c0; 0x949e; 0x1a08ad; 0xd73b6; 0x10012a; 0x10f984; 0x13a40e]
    0x136a1c 0x1086cd 0xad); [vm_compute; reflexivity|exact prime_367].
Qed.
Lemma prime_4437767 : prime 0x43b707.
Proof.
  apply (check_ok 0x43b707 (fun k => zmul k 0x43b707) (fun k => zmul_ok k _) 0x21db83 1 2 2
    [0]
    [0; 0; 0; 0x3c7; 0x2db90e; 0; 0x9de8b; 1; 0x125783; 0; 0x243e04; 0x2c2f41; 2; 0x3e53ba; 3; 0x2478bf; 0x2d596; 3; 0x1bd59; 0; 0x2b8715; 3; 0x2cfcec; 0x13d1b0; 0x2e4b8; 0x18c; 0x270b6a; 0x4041d8; 0; 0x10edc2; 1]
    0x169258 1 0); [vm_compute; reflexivity|exact prime_2218883].
Qed.
Lemma prime_58597812472881879287 : prime 0x32d353ffac51418f7.
Proof.
  apply (check_ok 0x32d353ffac51418f7 (fun k => zmul k 0x32d353ffac51418f7) (fun k => zmul_ok k _) 0x43b707 1 0xc02605f9bda 2
    [0; 0; 0; 0; 0; 0x5096e751; 0x102f543aa7ce6af53; 0x79ef18b70bf7977f; 0x123e457c18bbf6bea; 0x1d535792f9d8351; 0x7a4dd696ed9d7572; 0x4dddfcd655976e88; 0xa7b42adc9303988f; 0x15c9839d5d1d1d124; 0xc9cbcc05430c; 0x558891860c1f24f; 0xc98bfc26ee3e0d05; 0x79a8bf4e25dce8df; 0x246fb61f0b74959a6; 0x25f2fc9fb72c9b5f9; 0x4f0f956b1f7a46005; 0x54f7707b539e729c; 0x3367df7863ec49c68; 0x2b3717f4f962aa059; 0x173b27e483002631d; 0x1914797979a0600b0; 0x50da1743bc528cb17; 0x267075c6207d55d3c; 0x8032b8335343611; 0x7c8bb9eccae1c28; 0xd74d75608ec620bc; 0x1c4bece5b0a7494f1; 0x240ba292bef63a114; 0x1592d6f96d32022a1; 0x13c23dac354f0ecf; 0x6c59378655f039a6; 0x17ad69834a8e738fb; 0x8542393a5e2a9da7; 0xeb9726afd5a624; 0x27c108cbc52a3f1a6; 0x25ae6bae30429f4ae; 0x58ec878861239e0d7; 0x2da1df5d164e19077]
    [0x30c45057ca0272615; 0x2e1938cb0e31f4cf4; 0x18d4e97ec0a570460; 0x1407319535b666ace; 0x8464f99d301feab3; 0x15fc2350e2da42bf4; 0x16c3332e8d0560c2; 0x4f78fc297325f2b0; 0x1684b0848640ede2a; 0x186a4c0046b1da079; 0x1572ae089f466a15e; 0x114b88f0f0cfd993; 0x1ed074e9e89ab4643; 0x126381a369554e476; 0x1e19aef64137dac58; 0xe146d55b704f25f9; 0x4141451e098a1e; 0x2aafce637d37b0f8a; 0x1622204be7e75d161; 0x3aff6d02a7295707; 0x47c18c4157e4801; 0x1ce56bd0ede15a58a; 0x16f42655e5ec996dc; 0x885e3089124ea5ae; 0x30cbdee9f33823d04; 0x1e2f9c8f35199785a; 0x396e0f407f6f05c; 0xbae6d01b900d795c; 0x163499c8a54ac98a2; 0x9b0e4937441e8e; 0x25a9956a97fc586cc; 0x2b27f516f3c8cab40; 0x169cabc4684196339]
    0x153269f66983aa4a9 0x14c361ab4b7dcd19a 0x1563ed); [vm_compute; reflexivity|exact prime_4437767].
Qed.
Lemma prime_2514514399252200308862687893991356095647329471 : prime 0x70c135adaf44f6d0e8bfa2afce15026c2e2cbf.
Proof.
  apply (check_ok 0x70c135adaf44f6d0e8bfa2afce15026c2e2cbf (fun k => zmul k 0x70c135adaf44f6d0e8bfa2afce15026c2e2cbf) (fun k => zmul_ok k _) 0x32d353ffac51418f7 1 0x237ed7ddfebcbcdbb677b2 2
    [0; 0; 0; 0; 0; 0; 0; 0x1229cf3f7ca9ed74d07fffffffffde29bd; 0x8de4e2b247ad4cd472946720abffcf54742cac; 0x8bff0b0f104f2c89c14b929b2e8ff75cffa11a; 0xbf27b767cc92f33e67b105013328ffada8548e; 0x488b2fa937288d8391fd2d241422c7a9195870; 0xf62b3855289dd3941b61fdadaa8c164120413; 0x3ebf16e99119ee613e38bc6135ed1a7fd292d4; 0xe07528c166a26988b037e0a5a9756327e0c4f4; 0x2249b7a6ffce0742969d2081be5b33ec8277a; 0x10b5fee7e1970955cb958812d0bbda92f330a5; 0x59cccd3c5c8793363e1e6a06d8d6208027c697; 0x171e787e5630ab0c8af09f63242ed4ca2f03a1; 0xa2c9af81da9586fcf0914ba2ae3b52570a3404; 0x56be93043fbb7a8573e40fa453788d243fb547; 0xcf49858a19d504536523a9e364ebcf4a91bd47; 0xc344183e3e283af11a0200eac9407bce2e68ff; 0x16918f126e3ad856b3f6a98d4ca351b32ededa; 0x6515febe4b65b9a4a71909650dcad8b73664cd; 0x14fe24363f87fba83fd33224fbeaeedd076ca4; 0xd9cbc08e34aca8819718a3eafdf0c01d259546; 0x514fffbb9a9890dd7b5e5246e78f4dd8b9f590; 0x1345f537a4d6c3bcf0ba7e256628af15ba42; 0x29bc670ea41bd79dc7dc01b2b74e7c9068c181; 0x3fcc056c2a5fa8a15a39e714f9a4b9acbea545; 0x10689ccb60c626e8eded41b398121d72f72da5; 0x8592e41287bd70d984a4749b150871187d1eeb; 0x1ada032a488d247c7edeb0896d864191169fae; 0x35cc9be1b649f38a3cef38a2dfc9d9db3eceed; 0x1065f64a4c2913befb246e505c10a30c179e64; 0x4905b7a54ff59c3f1f782454e95922673f4325; 0x217a851323efcb37271d7edc4e2932a0233ff; 0x5d9860fe896e813c3b1b1584f91d405960d53; 0xb4aee012fe3ab97511f5842a8c16e5a9306437; 0x65ba75ec6d2db87651723eb6e9920cc38e9937; 0x8ba9071359fb39b213602a0f0af5fa4988d6e; 0x92c2dd78b3d607fd8e0b1a2fbd6cd1ce4284fa; 0x17bf322ace6b82cba7bd41b15887d7caadef3c; 0x452bebcc80c09d3481dcfd0ff1f49dd704227e; 0x921cd13163098aab3339aa0c7f69bfd2ce273f; 0x59fcecfcafe2b7c623c727c18b4944d97dda18; 0xbdcc83fa63714f90706c9a7d73fa113f0340; 0x2cb4984447fc0767bbbf1c7e5d9d79a9d4a7c9; 0x63f5af52dad4f65403bc5520ae723e094fd64; 0x7074d80de2d675ca1a13252cba818e568759b0; 0x605bf2ebf872f217b7e5ff15a38defae70e70c; 0x2f97447c22995c761f0d76b4a308f2aaa83609; 0x3a0805b1ce6b22ae57f528851a76c237e310f1; 0x19b74fb4ae404643d456c6db3dc33225d9158c; 0x14be7da361e06939aebda5b268e4aee15ed00d; 0x4fa0014934ac3589b503449ad67baf414eb45b; 0x90433e26b847beeb0e519329df56dbc389cad9; 0x17392cdd112024f8a16925d30db573c1ab374b; 0x1c2b1535164d55a462e5adad3eae7016233853; 0xbb4f24e2a39bf0f90b51ab5020e65602d4a661; 0x301d5b5afc06b14cd287b51ed500aadc7ed072; 0x3b183849e28467d8e70642f12aef2607eee51; 0x412c61487dce3bfdf9ddae9de7dcd3c42de925; 0x3426555b2db3d9ced54dd39fa3ef8d8396b227; 0x1393971a68b049fdcda6d6ea3ba706d68e1d34; 0x9d0241dc0ade9b2498e5a38a1d36b9ba4c4ade; 0x1968f5211050b4d84147179cd505652237abfd; 0x2d8d802c402b6331c3bd72206ebd9be2f1d48; 0x2bb33322179b0576a01b8f27dc4d770139ed5f; 0x2508914c4da291bfc35714aa1ac93b05545360; 0xa9361b4f7c6d58daa9c959983042151556ddef; 0x6df80185e14944688bf0503ca8476ed9468843; 0x5005a327445ada9e50279e4cf906528beb94ea; 0xb2f1c28c4a12095b426d5da99e906438d0ad03; 0x7ff5106bd696c90c5810f4dc3ac6264e41f3f9; 0x35333bc1de329ae9873fdf0eda67a43ee3e3dd; 0xbd6aff595114e52966fdb13d96966bdd828aa2; 0xc931d35b17fe8b2faff28be2b06561ac9255c; 0x94aec6d6f053a7e6c617418ae53968a8d38850; 0x9b2302799070226aab95d0b34b9a3ff14626f8; 0x4fb7798013cba95eda74a28745e3b7afde3f; 0xc3013a1c1c358c065bbbafd63b817dd663719; 0x77d3dddbe83a4189d8963f852433e9fc9cbbbc; 0x2e215d14fb3c75dfcd78703e5d05ea282ee5a]
    [0x1308a0bac33d94ce6cf8b5fd88044df81fe58; 0x530ec67c2c5a60e4c108657e8e4e6a45ad521; 0x42114843a5dbbf0df43b15ff6fc2ab6d46b89b; 0x47557ef75b3fe965470732145fe6af0b234f6e; 0x57991ea86bcc3c143dbffa586949e959dfe0d; 0x1e83e51144efc5ce89844e1c17c24653069ba; 0xb4d7fc71479126ad0d4ddcdd63f5b9848eaf2; 0x1c5f0fe7f161d8344f980d8175bf5a64c2ffe3; 0x93160d6f3f93de57c92106555df717ec9ee56; 0x15fcdb7101d8472f6c2d080de73eaee60d4869; 0xb8f5948994045072c72d177481858fc05b365; 0xd6b028f69a5aaf7b2abd1974b3157763887c8; 0xb69700d5d3ed071d714cc7b57e3caf93062; 0x519b1a80f69de7269943907b2158fe89fbde1; 0x20121ccdca8fab9217b9781c579de0d8966927; 0x61e482a25d4af8f7de2bccaede160766e9b467; 0xc53d6168b48746c3ff8026e08deb9ddda5f48; 0x800176ed99e43b32c15aebf1a8cbf7436191c; 0x7073d7fd227898c04f900da3926c1585930032; 0x3ad6b949f75903db7ef2399d5938e16d927e3; 0x4e3cdaeb65431c6eb4cab377ec47da4c85a9a3; 0x22691a08b496836b23d354da4c4a36e8609671; 0x1b5e6f2635c5ffdb1c1dc2efa1372fdb7ed2f; 0x292a987a57c021bdcd543d581bfbf96177980c; 0xa12d68bdd2f598fc46415d5b36b639b21a7df; 0x86e1aef0d21ae23ea942faeffbcba2fd7ec50; 0x2d47aae35a095e475d2208a876ca7798074627; 0x1a549db1b61ff121ad8de907b743bb5f47d61; 0x7bd009e90ee52e6b0690db0ef05cac0e7ab; 0xa8305ccb04631b4697e0ce1e72e9494fc4ff1; 0x6a9e63d49fe4f95f90fc0a4be5a4505056633c; 0x740dbf43dd04e7cd25acd942cbc4c24d06e36; 0x7eb7d69fc806eed5067bbca6001de33f1aafe; 0x529b23fc93b28264883dd803a5a82a0cae15d; 0xcb1a54522e1c18b318af8dae33d53b2c04e4f; 0x6e9873cf1927fc8be096ec3160a766138cebe; 0x2643127ad4e4d0a44a47e4f72a4c63852f8ba4; 0xa04cb640db3eb5ecb6291d71813052cabb3e7; 0x1469372cdd4be183fb6a901bf3d4d1b13d8fdf; 0x7aa6216f44a925045134342b18600a34915e9; 0xa81d1dd156b0c98e0d39200c76a219501e288; 0x70383918e22a77afbc751c2f77cae7c909aab; 0x3a4062d3d754b0f911ce00970e5c6564d2f167; 0x4f8cb528c3110e0ae77794a4d266b7161fd0e; 0xcb075e8e810252f79a20b9a6fa45f095ac8bb; 0x302a0ab9aa9b043a4137aa23ae1248b729612; 0x447cbff407302af7004d5dcad245edc3a574b5; 0x172fab0e48e1406e590aacebcb4cff0b32e5f; 0x1f7a2a9022a33ad71fa303d8b48dff3d4e5c0a; 0x8809380a17c2521c1fabb8767bcc5a23f7e9e; 0x520de6f4e090dff0e0a26e37e35c7a5f282618; 0x222e56c343b995383c331627f941fa04ddc8de; 0xb270d7667a1d25bc259a224d783c3c3ce06b; 0x34c06b483fdd13cfb342e78ff920939b79345a; 0xde902d22c8753b98ae3f6ad4bb15697eb4dd9; 0x6729b760f681603a51a64acbf0643308c8e0c; 0x12cfc6412712353616750f85dcec534c9a347a; 0x5822ccd50dd32f5e0bb0e314b22da6ebc94eb; 0x473292d3e4a162c3c394146eee82fa9741c42; 0xdb02aa5ca4c08d194ec0a74e79cd78531b22; 0x222d4051605cd640ef2f86862b4d8f99f7d5; 0x664f97c39b50de83ff93acb1b0153a9afce1eb; 0xaa574fd56537275fa62fc75df325fecc799bf; 0x2cfd2947956a982fbfb15509dbba83f780b; 0xd824ff519e9535367926b088907b54a79542a; 0xefce513b9eab78e7abe0a83bd99a67d4a8fc; 0xbde5737925180f92f1514c1bd0177f7d08a9; 0x74a20025b1a632465e5f58e145ef6e093dfe8; 0x3a88011ae83434e1fe81973bfcc1d62603d8; 0x23fef81f909f270b62ebbb80bfb17fd95f11; 0x601135c78580c20cdea708717867af387c600; 0x550a1f46dcec8880b89f0ca046a2701bfb0650; 0x20466931680a0a93fef9ba26ec60aa72695fbb; 0x76a58299fdf9c5c177d22de40ec32192d852; 0x691898781dde9c1c82275d1ba0645744dd3a56; 0x3bc111491632ef6af1858288526bdb491e0a05; 0x1a0d2f71ed642cb29b29c2e516b12734e89067; 0x7884b253652f0278f6c521f390fa73702ecf6; 0x16d03fbb031c3a92d5fea843c0feb95e3f7ffd; 0x2cad60ec08f309609e9c6a3c37557f4427088a; 0x1e87228fdbce2c6b68c0343a6a90c69371b18; 0x48ecfb352cbe7cdf9326bd6195177af325a50; 0x9ec9da8714d540cb312823a9efbd8dc5056bd; 0x1112bc9b2cc625638c98626e229a24d5b2dee; 0x4c04a36105eda271bf88d20b6986e2230f96a7; 0x511c9b8537dce1e9d3edf6ac95b954e6ed1a0a; 0x39d8d3b7d1572897d62e1efb68a775b7ca4c5; 0x26f4fa696349796c5ae2066b13b84a7f7999d; 0x4925e71027770e3f8785d2b45e9aca22e9625a; 0x6b25d29846901841ca2f627794045a9377eae; 0x2c02f1f061e8b3f0e1fdadba2dbe493be43eda; 0x8a341aacb7f94bb5e92c13cff67ae4af676eb; 0x55207781e9399d4bba9e775e7665b54290442; 0xa1ae7a0acd18306211b1705e637e9e39f96f5; 0x5053ed67c88d5c350c02b089205f64885bf5e; 0x5fa50569346283c0f77e0b95a2b96d436b169d; 0x1955e7f7ace031d6a1370928efb0b15822617; 0xfecc25860bc9b1d283a631aa1583dbba28cad; 0xa4e2e79cf8a52da9e26a1c9bb917838fe1d16; 0x2771d5f776bf423c4ccb508ba9be75348a2a70; 0x6e89fc0e21566da37c993a4bd55a99f22c139]
    0x4a95748df74aeea2aa09f29831d6ea8012f638 0x7a92fa27afb9c129e3d0ae3fddaf8328559c9 0x2b67a6dec3e9511b8); [vm_compute; reflexivity|exact prime_58597812472881879287].
Qed.
Lemma prime_4493324444525106632444502514503273391085054513853345758165826444713 : prime 0x2aaaaaaaaaaaaaaaaaaaaaaaaaaafa26cdd21040cc7d7192e91a9da9.
Proof.
  apply (check_ok 0x2aaaaaaaaaaaaaaaaaaaaaaaaaaafa26cdd21040cc7d7192e91a9da9 (fun k => zmul k 0x2aaaaaaaaaaaaaaaaaaaaaaaaaaafa26cdd21040cc7d7192e91a9da9) (fun k => zmul_ok k _) 0x70c135adaf44f6d0e8bfa2afce15026c2e2cbf 1 0x60defbfd438a47c458 2
    [0; 0; 0; 0; 0; 0; 0; 0x2fffffffffffffffffffffffffffa6945873adb719; 0x2667733d00e7fe99ecad3a26f52a9cad2999840972c274d22f3d18a9; 0x925bf95bd4373831a6adc7ba146b72fa2cee76aa997031cbe38f14a; 0x76df0d83dc261cadb45706672ef26587ce1f3b4cffccefbefc6c0f; 0xf9933ccb1f7a3de7f332b674865a73b389ccff321a56baefac1cc80; 0x1224666300c7ea5a2c0ba2a81f4b34aaa1bf2a8b39a4708d81965bc; 0x13a3a13d3af6c67b318471e4074cf6bb788fdedaa888f775d88adf3b; 0xe21cded85224ded96d052ded946b03ca5e78ba37cdf92d57e92ec1c; 0x168e36d4b22342ccb27dae93c1cdb874752dff5de93b5cf10b4ba6c2; 0x2c489af9e788cc2142207f1442801b3abdfa395d1c612cc83baba8e7; 0x195fbe7681a7e76a59afc4dbaeface81dd2b8b33d256ea1e43752d; 0x2a8bf262316fb40446b106258027ec1a3e4735c41df832a275565081; 0x1bee4d0d683590806abba2f9ff23780d6587827d651459c5f54387a2; 0x1dd6f18df742821bac62a23c6efd34a762368a55550f37022d1b1d20; 0xe7e417a25827b550a0d068063956cbc437e1316260c3754c59470ea; 0x22c76e0c83b260e3010e3344b50571837baa7b28e4163757d0ef61a6; 0xbe120197a90e610b3780cb92197c2d222a7cc806f5f684ed76b08c0; 0x23b31b9164a1c97ac47a59852519eac4f6e0505b8c81081816de6885; 0x3d777a09ba56a2c16578e44541237cd1a611fec0c14f0336eee8475c; 0x1be72fee4fc605fe1a48eb2a8c74a3f43dbb95372f8c8e9d901c4e91; 0x686cc9a4b67747c66f9ec71e8ddf880f1903dbbb05e719f0356d159; 0x17b7cfed6d601a17e402f6a3b2d7861f7bb6e283614db8d1965fbd08; 0x178f25133e893c7e3308f6d773b61d87216177dd48fb1a975c0611f8; 0x9eb0233b80590ce05b2c87e304be91f14098505fb86349dd0af2d; 0x5389e9baf2406cf2985b8a7f8bd917f57b6a665438a49e484cbb0287; 0x5d0b88befb6c4f68b32c97eadd1e731f539ed72c61e4681bb055217; 0x6025cff200f798555fe375b73e24dfa78e592ea02686d2bdf969472; 0xb8129793155e0f85eaf04701f1b6de9e65d81281f632edfc811d373; 0x66f35cbdb52eabd16cb3a1cc17b9cdf0a6947fdd55442020e371ae; 0x2074083b0775ccb4f5ea8f27e65316ae14588222da85d98c0785143d; 0x1c728a889b5cd00c7860342c529dc4bd20200f40dff10c9756bb041b; 0xa6eabbd2cc0271b8f564a2b822c4b21b941b166d31eb93e6992d9b; 0x1cc410861b903acf4f23190dedf40ab936a4d21be71a460f38d92e66; 0x2aaa23a6cbbdcadaca3b298ee13ffb0b386aa2648226158856ca1272; 0x24e63a8302fd2ae2072f2172ec4c56465f65c422d6b3effd92654251; 0xb3dcfb097c23e46e3642213987e1ef2a85d0ce7f17079a9e171ec19; 0x222a334d874c33aca94c5596dca2785a636b5a329fc467015123a697; 0x3d2e8856cc9705b2089922cd2c1241ca566aa037f2776dc1a42ad15c; 0xabc843f91128a1facd87c8151d7f83cdfb36b67074f6e540f0ceb5e; 0x13c85d44b69b12494ed314dcc0aac0c5da0a6f0692c4ec03dc3074d0; 0x149d2a278b71d07501566d7fa63671ddee52e6eadb4760adeb3217dc; 0x184aa4ae87fbaa662f991b063f980cf0061652501d942ea64a27daf; 0xc6470c930cee85e51aabef83cce651bb448acdc84c840a724e317f2; 0x1898401c385c698d5fc120beed79301afa99226d91fea1d6c309ed53; 0x5369191b990247f8f94a140390241191abb178b84a7be8cb8f498c6a; 0xa095e7e16782823afec9e42693e3bd5abd7cced42faa9bc56f75e1d; 0x23d366715390c033b06f55ffe88eb455bf9e72868e2a1816e67ce7e6; 0x30b3c1e6ec98d19c0a3cab6c0ae16d5e4e1a5ad9a2deb04a27142708; 0x28395536e5c6551a1e8253061816aeafa80f700c3d311c28191b0677; 0x49d1aa0d1d8906a04c0ef1b12b5102c75039fb6b4ff9ad96238058e; 0xb77d6305c8fe67db47dfe49aeef94daacf6aa16041f8b91399b4a19; 0x100393374326ad357f4c81cf250e814bbf0c8eb3e05f3698ee362376; 0x85b64ccd13df242a21ff18a9f2879780b42f72a2ec12da391e17ad8; 0x14babed8109cec1b4aa0540c73f16be565c9a9ce49cf6ac47edb93d6; 0x1e3069da281d8eb38c0a0dd5210883b8fd2c6005a93ca6d6fb23ce2f; 0x365b69532b871c9bec05a4a166b0d6161556eb1ab7d506469438303; 0x2a8918ce538099a08e6b600a9ca0ea49b29d49ef96d32991b17af0e9; 0xba98dd64b029d25df29f1e5878d69a7dfafd588a3e38317313aa05; 0x199192e7709e4a7446793fa9487cc0796d9ed06c5c606e4d557489b9; 0x26abf8a6ee2d917f44175a118570dc330962bc23d37a41e78b08f6c3; 0xf4f8afef4b897c6edeeb325750bdd6cfcd095d34e98259e74e569cc; 0x27cc579f7e975ae5d5a88f43429ca76da1df9159eb95a4f51c8ec0e0; 0x2a71c0d078cfa3ad5004457846dbbe4f8bad84576eef0564a16ac4c3]
    [0xc9bd11d40d1898ffd27201872ee1fa6ed19ebfaa6be83563943213e; 0x9ec483d1e08cf6e2414fd8b0c4dcaf6b48a75dead39c817399ebdfc; 0x1134b3656d8f741fb3bad936583f8507dd6c4c027327b25bf451a404; 0x1434747c85318868115958f1518ec8826dc22272082e7e3b2e4051ff; 0x3c1b57ace6fe9886674c10c6756c7e5c3717647bd2cb09202ae2e8d; 0x8bff681fa8cf6acede33a7a360e3142ab79cf7957f933b7a65adf42; 0xc5f87c6339655bd878f41ec060c95ef9f963b10ecb3499c9cd5840e; 0x263923472b31db7f0450cae8261eb281456ecfec80439d37075dcc1; 0x139ffd3ee4159bf090df8a478f177325641bc28cec26efcb00fd6c69; 0xb0fd68e62bf63fc412aeb21edccbdc85dc03b44ac3b4200cbe7fce3; 0x18d641fc33ce7e4960b7c484fbd3e743f48d9751060efee318e8e0c9; 0x10a9813f4466702283400bf661d1228de5e51ad2d26ae2b2c8e608f5; 0xe87fb7a80d624833597b4e19f3d341fc98a2d8c7558f0f947d516ba; 0xf20c000faacbb30d83ec6f9acdb7694b7fb9e4996cd6fb7fdd5760; 0xcfb693bce022141221280c98a95fb1519dbeb48ba41d119b977b51; 0x4a1efa574924f4b830ec61165d8510a237c6298e1087a60a4be1cce; 0x1ec7ae7bb6c86230df951ec4b2b390186a8d91fefd540d916c8fd121; 0x27059749ad38307fbc8aa2810dc2e4b8f62b4d5de3535c2493957d7a; 0x3a0d7accd46264135480b316696d43a8aafe9cc7c962a559ce9045; 0x1ad8d92e07f8c039d8ebbf5b33c603b2bf5921b3a012be37fdf25442; 0x10fbd8246afc32e8b56ae184e52b4d83b55284e8ceb284eca2bc3e92; 0x62a0b5ec5ebdca3992e64cdc8ae44f40e63cdb285cceaf030f43732; 0xc5065402944f6d246a2dcf74f5371ac62e11c349e0b45fe943807fb; 0x21085beeb3563e469933f6d2d4359fb14f193d4955b2d6a4b394a454; 0x120329cec0ba06f08d0b960430b20e7ae9be3807cd39c159d125008d; 0xfcccdb8218a3f849aa8e3d7227da949d78c97fcd7e7433b67eb3930; 0x103da788e1d53ff854d38d878f931829b2f29f3ef36cf73f5e9fde4c; 0x6951450fdd8cd55b5eefe5a21035a39212f77b94c29dc6386036e52; 0x11b18b584c1615b7ced1447ec3bb998097f4938443bc3250e3ef0331; 0x2349c67c16c402457dba1e7c9bddf72439282e7f96787801be7de; 0x15d7103a8f96af522a7fe0078f9b75fc362d24d34b99b73006027040; 0xa8ed86638e749661d834c915cbba476abb2b40ebbab5d54f6176a6a; 0x1527a79142ff11f92adc47ef5bc93b1dffeaeed94f9c1186ad6f93cf; 0x10a70439606b08df26385bda1d983ad47a2fd72cccd2aca835c309ee; 0xda45374453b430862daa98fba8f24a23f8e58fcb46b6f2e9e685a1; 0x29cffd6eb68ee6fdbd089b01d961ddf82efecd372cc3c3aafbdd8da; 0x2278441f3721daa163c1ffc45ec92958e30fa5cba3f3a5990ce01727; 0x6286592725ea0a0ef7f7b0b6b91e7c0d2733f79f4dcc6a3a6087d41; 0xc2843a5301a614780ee6b5b42c1c78ba72d6088a2ff738500d2cbf0; 0xd2e5829d81597b82b98b3e21b0f806bb1fbabbe3ea7a8e83f1debc8; 0xc49572a2faa610b048bb0f4c5383259b933dd88bf6dbd4f506de3f6; 0x245d56f905fb04a7d0983a324348886e1f3c1b433a8177307aebf801; 0x1e6ab5cb30b2918134bc5bf1a4bd0cfeefd1070cc02b0541775c1e25; 0x6021c01f923dcdbe2fb53694ec9ff74690709884aff93dacf3413aa; 0x2320be6284823604f728925a9eb35260b7ecd7cad76af5bf982dd05; 0x21782f3ff84f0e5942acbe7f93ebc392fb0c69f4136c64f9d1af2a8; 0xe03198634a1b3bd65f1c10710b1e15d7bd78fe6958a66b28618042e; 0x1df2819d45b7fcf3a92c8059e88d1394d892257f666df9830d114367; 0xddb8807e774739d5b8059bcc9be98ec23250a4c4f82d591f14a5696; 0x1ffd727a1a6553cb0c6d8694a4ab421c4a2818ee4132c163168d4e11; 0x15084331cdfa69bceb992d21c8ccfa4e23e382213eda0fe4ef1f9ba; 0x49d1555f1d27c07888d5500b1b114d9c96feba129ac7cfc9813bcc; 0x21d47413bd702a520540dd88a20e146152dbf944b5f789cbcb797d1; 0x74bf8fe4f1d146cb617442639555824ab426e5f2b85e6a8d6b16573; 0x11f3e784317d46d5a28b08210759a4417f89a9318d59144fd4da072c; 0x1eb77317a59dec4ab052deae158267302d4b00a549a96331e1e7c6a; 0xaaf7e64630e3d94d9c321d708f16f108cd0cd305d82b8456133414d; 0x7e655a67c31ebd82150b9242fc676d5d92c7ccc43529c91b48f606e; 0x266b42e6c166cf008500b16fc0167e650f899c9986ecbfabd9dd299d; 0x705b77be207439e926771603b0631e086b00a1a601f492fe1c036db; 0x1294a9327da1610faaccc15f1d62fbd8539e35c7546fb66712499f2f; 0x34a2e6bd14d3b5fef174339454885cffaf5de85fc0199c353d92347; 0x15c53c326370df13b27e0e27d36825173daddd709212d8a7686e; 0x1f7372698bf3fde38b7bb3163036623819719fb61bc2e9b5b008a1df; 0xed00ece392e7c62faef1b5ad62324a81dfeeab88734b8b350b1bca4; 0x179bbf2c52bc9939edcae10b88b7ca18f4470200f37d531bcbf5527; 0x12965c4bc557bbac6c0b391325214ce1ee07ecfeeff4fd8449238315; 0x34d878113e0ae2ac1415b6ecc3980a7e81db5b13d17f04954a5006b; 0x10369cb1ba544471ebb3b89b73f5a0c06c7373d4687a28c1c06a682e; 0x192945113b2c104f1796cf9b193c3666be6f4e5c3740f578936d430; 0x163caccf086120d91d7c4370f08d0a1aa0fb2def5efac9b819ed9e89; 0x1e6b5175679a8ba1288c996886f8b22328f28111e0c1c6670f232f1; 0x7b77f47168198ff299443c187e52b94df1b24273830bd181ac4064; 0xf94cc15a7b5404c658cf44d3f981c48c5efb8495111277f25d559d3; 0x176a998d3b3ec36a3bd960af24a8bfc177d6a071f23e7805b9577a77; 0x1246c43f850a5b2f68b8c33ad019d1e50e6c219575faf39e7da90a27; 0x1cd459471b31e48f67bc8a52f2b54cc2945840c912f2f5bc6dabb565; 0x29b7fba7d8b488cdfb435493b09d10a0b306780b44d8592a680c070a; 0x4adab87245c03161371c1c268f99362a3d5ecd06f4dece58699995e; 0x3423983566a7987fce10fe957cc879639ab5b1438599a050c871f3c; 0xa7cc89ca5d3f65c1202a0528aaa2b52137b34a5b857d4bb997e2c27; 0x107acb8ff1870c1db3eed2a21ebf7d5e047ecf93882700595ff0a168; 0x23c6015882f969b09c3da4632a7ccb630fc86b28c7916f5b2fe70ea8; 0x3a01396d0320daaa46687d99cb7dd2316d84ea1d1746ec04197b0b4; 0x157db45ea7861d3cae14149db845bccd821901df2d1f3925387907de; 0x1abeb0a3ef8bcbeee4d7d038ad7ecc2e126906df7332801331807be; 0x2148f071b5aa5f192ceaec2abc28ec873f7901d4d2ba9ce73e2a1916; 0xa72272823624095f6389f4bc60782664162144a2fa6226a65a8ba3c; 0x11fa2044ee5366632a4ca9ba26039bdd580ef4f59cd08aab7cb325d; 0x125dde7d5ecfa3dc6428f52d9c1ce5acacb91453c584d5bf11c57bf; 0xb2d00ef8f0dd6e1bb4db162b99c080906406bb4d2630d58b206de9; 0x1931ecd2b0d06857b026c9e525719ff104ec551d99642b36e47d0872; 0x5a1ec89e328b2839b81ec7c717c91e4b7311fdbb92122d43f87f1ac; 0x28b3875f11fb5a683092670bc3a9ed5c0e0995577ae6a23d99464008; 0xafd8ed58ee3dd6784c1a407267f1288e757ce5f614e1fc7e687a55d; 0x17d81411275a89db6a40e03f4a3fd23df51c37504a8671078fb301eb; 0xe52bee5763db337c9995eb3647b458c662aecec682816a8d41e8ace; 0x3a454fe4f268683b380d602cd2cce1d61732b9ce37743ad97351e64; 0xace2b688e343f1650662321a25a68a6ea1c454635e656f3f84c1366; 0x1aeeabd833a92c6614259d2ccffdd901e2c0e3f64cb1cb8c9e267fac; 0x460232f1f7c6ab57b195ecfae6352252d0c1de5f37199eb9058b813; 0xae2052dc81a16a131fbbf3323256ca84eef48b57389985a0c14d89; 0xeef5687ed83a7e9de4a2db84d63fe8c37b1ef2c8402578e5dd90458; 0x3da459375b8810e87525da0a5f32a5d14967dc9dc7975ccd855c0dd; 0x3e424b8e9b1b67aaa4d5f882581cffe9cd885289c5805adf100b83; 0x4cb991739a5ca9653863803f7a1c17a371525f8c322f460de2c2d50; 0x2aab2f54970a8705aff9797c7db96ac6d47c4f043b6b5adb9c4e75a; 0x4022e343d7b2d6e29f69defba0dd27b2b488f981696edc71e92140f; 0x6629889f7c35c54b1ff128c1292fe4d761f57a658c0fa1602afefaa; 0x7438ab03615184b6c84354bacb81b014ddb625e232ba0864034956; 0x8176edc9dcae8f82a962db62a99d99af0d583c5ad04b6c528e707ef; 0x89f7cc7a1424fed209b9b22c88b0324e50932d62004b385dca72b07; 0xf301401291bb0d43ce320cd90544d8c26a7d0ec8e81339d40e71c6; 0x15846193c46e280b1ea0be5fd517c8a94932b10eb4a130d94af1ec72; 0x24b853045062410a104f86b8a743f75c1048a9f7c5ab5ff352faa163; 0xea3bdd354310df5d9ef32292e621adac9a5b69746e10ec9118235ea; 0x5d22cc1e6df09f74c64d5666cae453a5c2c6e6bdf1314671e6f6a54; 0x77a89030e75eb732d4e8f49e17e2c5e20aaff59686f3ba5828dbcab; 0x25001b9b5bd810e06455501afb4b558afe1f872ae53acc43af67e6bb; 0xc46492d48e5105173242d8c51784f7c4eaae91515b5950a6e533051; 0xa1f1b72475d5035465a7750aea36fcd8fc8402f53a8b4c52810bbf; 0x114b453be4f62bec52b6c72f65a195d19921d59200f7a9c21a89dc6b; 0x1763b7e9bfe064eb2fc6613deefd0628a8b10d38a4fcf1428ff510; 0x24bff0efc00fc6024bdee1f00359c42b633e5b156a91d059e9f4b555; 0x7b96e3f630999f5fc455cffa4b2d462e6003b13005676a9ebf848d; 0x1423734897f47aad7ce640a2eaa7ecb99c427802eb7ba717d6c56de9; 0xf9f1978de6ace99a254ce67e48a79f33b9e174d0bc0b6e05fc2acb2; 0x281419981b09efc439819853473aed3a5099d3572236521781f6d0; 0x32ab85305fc957254a1775ec439f76eebaefa58efc475bf167f6fe7; 0xe064c44c6fe3fa606d9ced5c82b41cb012e42deafb896cf6e9e74a8; 0x97bee0237161623397161ac583dcc2768370da9077aa005c803; 0x26d74f00e8e9ac36cea54a602e906d0231c0589269355c9184297a2d; 0x169d80285821599b7133131b4c1b9e8400b281f38d830588ee263388; 0x10854cf26233c6b8d72a915368857d9cc10beb5c333452271641ba7; 0x1bbf2b4857db579550019bf0c5727367a1b4dba7b3b9df31588d6010; 0x16e7b94ee70fcc9d8c74f3a49cc4f45ef46516ae44dac6bd7436f2c9; 0x286d71c140237117e4e74ee56b699741293338aff1e346abf4c74d07; 0x1d70f26f66ef0e450bea1f88bba6a9c4b3f0c6109f37ee9a6de927b9; 0x42b2845c1e7d0e2cafb199a954d41abc361a5ef4d44fa6eecfcea94; 0x1673904a09a45dce4b58b29c07e52d831391439bd9e8521fa20bf539; 0xe30fd033c1e26c6d9bd186144fd4435668ac535e7940004f08d0616; 0x1b7711eb2ba007759568dba55d1bff5e8930b5101a10f2c3694454f8; 0x15196f2deac4dd64f9092eb5c37d484e614c82924dc9ca46e8a1970d; 0x159f052172727275b1ca10eacbd1e90f6b5f0b8239327bc2736220de; 0x1bfcd1ea68e84c6ac40eb136ed439405d8265096ee4a2f69def3d0d; 0xa7fb9dcf813aaf132a9fce18df09f24dc2878daf85bd96a4d6d8a32; 0xf5674234b5a031671b770ab088133112a3bc8e1733fbd9c9da4ece7; 0x15986d15c088644dc8b98c4a59eb72855c3a7dcbf2076b2783ebb7; 0x16ca27cb0b90e40ba18665df5b3699e114ca5002c0f2afbdd44e2077; 0x27fbb1bd2a77bcc5f77b046b46f775e895d2fc801e80581c9cbc599; 0xf8ef485b3f5a5b72177aeeb49583719cb1feb9feb457aa127461f; 0x1caf88add9ccb699fedd2dfd9fe3a597c335e1e3928d6d80ffb244c4; 0x121beb2415926e90f22e9bf314f1eb8671d668137340522e85cb599b; 0xb3df90cb68ccdd8fc851dda12673c1e15723318c39e65c4aa6bdd; 0x8d4edaf9479d7d5ea89b3314a588c4ab6d78da3d8d5070b49019ea9; 0x13f64d90227757bc12b1015281f1705a5e4b2b510fb39ba6cd7defb6; 0xe56d4a1171ffbeba452a891b157a03f3d4c8e44c351c2d4e36bbd33; 0x1f6c023fb553ab09ef57aa40ed37bb1fe2519616a3368449fd3c9d1; 0xf730a44c732f807b7fbafab98ca0252f2a142a77128308ab7b6b531; 0x19c7784765a54d7031732fc602bed84225613f68f162d15c1ebde912; 0x17c746931d3ca935110934ad69200f6fcc04fdadd314b2d51ecf6802; 0xde36245b069584635a76e64d3d8ec42acf59dfb3d1c60e8cab08e91; 0x1390216cf4f8b2dade64822c55680aaf4c893e35cb013d491bffd0ca; 0x25a802fe523b750086405010fc72b149812fff05575f86ded2fea23; 0x24449c497525ec91f4719c2819426d131ed218cb9070e74d19b0880c; 0x4b71f06c1c6adbc1eba82a9c65636eba1ef2d1519e0bd0ecf3cd4d9; 0xd721cabb03dd089cf82a95846708403267461b5cf25af3c542ffd94; 0x4b2f2e0a396211cd88e9f4960b1875a8c1face18c8ff51cf00f8e88; 0xbdffb8553e7f6e418f8aa2740e63ad5998fe5e6350990377f18cfbe; 0xe38644ac2c18da164d62f1b542fa76c89e337470d9dde03f31454a6; 0x2a209779dadba0c71d8f83fda11d9e253380771aec236d9ad77ff976; 0x9a079ae520c403ec623defabbf7eaef6cf924a78c27564c709b6fb6; 0xfde6238503050604e28cd36c92e9f78e8569424a0b6e1dcbec16db; 0x18108b6b5ffdcada515d1cad80fd0c348d69c21c83e33b1eb405edd9; 0x33116bfdad4c9a5233c054b94405ca1a7924ba49b19af511b76084e; 0xdbbb0dcb7c67ed7fd62f28a7e32dfdaa4ce246469fd22533161394; 0xe4633e0108a66f685aafdd9d12b91da3773d985060413b322fad6be; 0x9982f02a0731c8e9958c4b33550d1540cf873a8d37c7ca7629c2d5a; 0x17d3dfa24ea37614457774cb18e6c4f7b46c0322f509a2df2cf3777; 0x238a5967d782aca792b156e9b0bae702136ce7d7f8e73f57c934b567; 0x3cd3a247eed1ff1205fd2a090a53b39a20a05f314da9581b05027f7; 0x83d5f8f708e8745b017822913a25973a40064b2ba21ef6b7a30507c; 0x1266e72f3c9437f51ca6a877f8b1ecabb2c32febc17cbaefa98b5dcb; 0x96d643d05f1dc16665fdcf69b390131a7951d6cbbe3604306605f6f; 0x1f3b8502b463ebf374dadee468c8fedcb0b9af9df0788d81530ff1a5; 0xcf7841aa41e9a4ac69986535a7b3e5f9c4dd633fa76030b32f59fee; 0x58c1f46d5eb93c96428e61a726f9e0d0b052bcea8eb8a2f6b5348c7; 0xe39e5fb77112ac6d5becf7a0f16ffc49855103b1aaa60aa2e0e3b9e; 0x6111bb191cfb5bc0bb19ff14db80dda956dbcf12f5f27e2c83f78f6; 0x769e27cc0ed8c9609de193f3b9bac11ccaf070acd2b79dd90aaa6ad; 0x1e3f208b88f6e24adc9663da537e1a1362cae041c33a6bda787a7f44; 0x168aed2a3d7f527b219df62e30daef3b9148c127be5f5f2a0f1d239; 0x584bad2d15ce0405e7f63218f59febcf0d5d76ad4c64c4480939b3a; 0x103860dcfaa80bf876cc43116845edfbd4abd7fd85889ed3173169b4; 0x754c2b9785bc2324f8bfbc363fc790f852b3e100892a53dd8f0fb52; 0x97ccde0f24c0277bd3c5715deea492459273d19ee57e61b6e236dbf; 0xe3b97af1f7acfd14f325922c6e2a0a31c4930e1d66d15e78d120659; 0x188a1d08426656feee00205ad4e3d8312c20729da2a202aa22f5fb16; 0x14c87c24fd8fd1183ca90945f3a32ffee2eb8d0ed6b3d8977762b763; 0x2ca06c674fcbc2ea01c0796c94c510847320e4ed9beb97f200ce2da; 0x1160b03d8e8b02a8bfb4428d9418b8282b8fdf382fef6d0ae88e0f59; 0xd92de48bab01da7750c584808dcbd7b336812368419174806c140e9; 0x2530b286fbdfec9b6b4f0d8dc64e66cb4da9c6e3dc554af11f7630db; 0xccd6a5231893af8f055b7368568db7cb6c1fd022a42259476f5630; 0x71f9fd5d4b144f111970e973cc9f382cee104769a73f815050df3a2; 0x16453694c584679c5dfc1b1cc9005f9e1b543e6b009a1a13ef6a27ac; 0x2bb065587074d89bb75c53ed7e5f96d6c55f526cf890d24208f4ca7; 0x27fb767776eb9c3cb5a56b8aade61d98f68789acc97c50f72304c292; 0x3ff5f3a16e4a50fe05646b3a924db79c8b9ed806807ad7aa3ac033d; 0x8495d96a934f7437af1dade7999103c311ae626c2ffceafc4478d94; 0x430738ea4877296f658f9b8b9d2001929e2b97ad5558ddc5f94dbf2; 0x1f0da3e940ab657f6c0bd0e57222598d2b867592f6b79493052689c; 0x6bc74a80765f3875dbf073c2a878564483be88480bea0fefee1f7df; 0x91cd176d7bee22f65e898c91cb4cb157d706eb87d322e81ef108650; 0x60630448120119f07d6f7403c633052427f877471fcece7d56a0e89; 0x8fc770cf21789f419d806a31fb3ead89f197afc019d56fa3c964b9; 0x17f639046a0971d0986815c2b01b3612f6cbc859a63f2227035c1594; 0x1349c972714bd4843e37c6c15bc13f49476516bbb6b586ab092083e9; 0x6df015ae4d13a4b9cc3e7a2d92b0421962a8954b2306c0c42c5d75; 0x1492390fd93f2eec167509b19db65102e7c0e9007321ca00aef4b273; 0x18fdcffb39b5584ffd59a31aa9a2da1cbf690ac3b3a48d025f32822d; 0x63416a14c109aa10281d61ae1956d9747401c58a1e41a8a7f049a23; 0x1e4838ba0eb31c973e2d854568193302000161123e287b72eb7357f0; 0xb8deec99c9523a07f1ae94fd65682d5c286d2086dd43480c1ba4a53; 0x11867f7e2e05fd84decc6fa9ca8ae6b8b3fd895f9813eb9a11776a1f; 0x62946e23cc59d8337b37e6e69d69b0b619b5c44b8f0ec87dc734a92; 0x15210e09ed26c19f31ab8fd52ac8f83250b6a6ff6d6b244d07635e32; 0x964a7e2c05610084f75261e19891ab9901e4fa363f3779c502881b3]
    0x220b40baa983978c19e70c7dfdf1bae70ce1ef99cc5b8ce6188327d2 0x1281ba48d1f394cefd4ecf357a2117626ab3a5cb79fbe3f37ded8dd1 0); [vm_compute; reflexivity|exact prime_2514514399252200308862687893991356095647329471].
Qed.
Lemma prime_26959946667150639794667015087019640346510327083120074548994958668279 : prime 0x10000000000000000000000000001dce8d2ec6184caf0a971769fb1f7.
Proof.
  apply (check_ok 0x10000000000000000000000000001dce8d2ec6184caf0a971769fb1f7 (fun k => zmul k 0x10000000000000000000000000001dce8d2ec6184caf0a971769fb1f7) (fun k => zmul_ok k _) 0x2aaaaaaaaaaaaaaaaaaaaaaaaaaafa26cdd21040cc7d7192e91a9da9 1 6 2
    [0; 0]
    [0; 0; 0; 0; 0; 0; 0xfffffff; 0xffffffffffffffffffffc462e5a450b8398e4c569f9525d6b4a49134; 0x28; 0x5bbd856dd8b67c6a84a94c5f710f3ee769652d5830ee21902d0f063; 0xb6daf7307a94b20214e30dcfddda78d3e7954fa2f96499d5b54e06d5; 0x21; 0x1753f3dd73cbbae71704af8a77ed774fa50fc4c44bb0b764a1219ca6; 0xf406b6042e0acfcd1223246226f68e8558febc95258b0ec544023c5d; 1; 0xda576102523534efca817e16fcf2b11ad1b949671d73afda2201eae4; 0xb0ea5a8118b9fac47eda7741bf60e63b57df23dce1bb1bfb93b5e7; 3; 0x3c08ad1cf0bb7cb111ae896d3c8e0f03d0b4a4d7518b4f6b015d92f6; 0xea2ca6a43eb4f7ff028381c55d5d745ad6d136591b3e75b45fe85722; 0x33; 0x14ff695dda33f2b0cffc8bf1c89a734469d80a0c308965a2c4b428e0; 0x207c4cc97bfac4a0779cee1b1e9ffad239d79e3b761ec1bdcd1d0ec; 0x17; 0x73a00d01bb93484744ce8d3d73607aa34f93285026665b4cd6902d8a; 0xa61a11426154632868c0e028ebd839ec6793da6e6b3fe931c4deb49d; 0x2a; 0x4c2203fe36ddae8138ff21324757cc0c270a0ba93234721a75b11fba; 0x16954f400538db03b0ebefe49bd4caab2be9a555c72e01be1bf06647; 0x28; 0xf91a1aeb772d05ef633caec0084ade438d9dc0b3e0022974e79847cb; 0xf598857b826424adcb69b7bad6c8bfbf889f6941486628c04206c26; 0x3d; 0xb20f5d17202666148f17ddb0cbeb33b2ed839ffd6cb4fda116fef37e; 0x2d2c2435a0e3256de5047a1e830b32144d5ee46f51ab4a982e46dae; 0x20; 0x139af729df3f144804857fb82ded3a3cf6567c1ad3b26d363e722aec; 0x5c83b901eee20ef913f00d9cc8c1d1860151e4c0b2365061e7470e14; 1; 0x3c4a1dd8d47582bc48718787ba3da570d4640c81b28ed37da519a4ac; 0xfb7a4e428dce0335bcce2164c0c92622554aba68c6845cef2d4a09eb; 0x36; 0x1ebe6e83797b3ba1dffa0654a38b0250cceb544f768b272636d8c9ab; 0xadfb6e866c3531a0b872976de6cc9c96ae55edf69880f5b03e6998ad; 0x27; 0x10683edb369f9317e872fbcfbda5d89898f526ed3adcbeec766429ef; 0xc22c57eb386ee7018529187e08e21446b9788f9ca1cd7f3e284e8ec; 0x37; 0x4025a23c6c1317104a4e005dc6f6d7d62fdd86f1f1166d3473f4fe6f; 0xb2b4ab59faf1611337e22333d28094d59c8f8ba0eff2ce2d1e921fa8; 0xe; 0x30af0cfec374a60209ee77791b60cc239b63a50d7f5f1345c22ad22; 0x5ebdff7517b1c0a2c0d691f53ca407938b40ef5ea503cd5dce87d729; 0x11; 0x1051a1ea5ae4f3f2fd3e28c84cb7ff33c2899216ff94a910aa79693d; 0x165238911fffe634355df393888c88a16c3efd6eaea767bbf7e397a6; 0x26; 0xd3bf2f14be6f205a43cd3df186f706e26fd2df6436c220cba367fbf; 0x4c147616f3158e9855439694efea7d9c3e7d9d436a5676c6d96e59; 0x1b; 0xd1707d17a59bf5199b901e23a9a6f22e6124489710dcb9943318f763; 0x1d04d275ad7c19fb2ca8de444e62dc15efaf3ed4e58c9fee1c0ee5b7; 0x1a; 0xa691f4e3ed24f3772cda473668f1f7d08b8c2206076d813d8f248baf; 0x746a1f8044c86380fb0e814e86add9ede59a921b3cb6eeaeef14666; 5; 0x3664a3690a5fde42a12eecc132e709fc00c81b0084856b53b1412744; 0x8bd62763490c6532e07f535a1f4e6b7b08aba57a22f5e62bb8fdf246; 0x22; 0x1e61cc9530a5698549a573683d55a3ac0350785b323c9a19b4a12f3; 0x2798900c33b259be4d27ebc4098d021588fd83b921f2eb203fc7b72a; 0x26; 0x29e1132f0ea61f61f88ab73ad9e5522fabc08228e5cdbfabaf74e89c; 0x97a32dcd1e8eddbe0f1ce3ed3467f01ced8c5b6c98e5706b1d263a8; 0x2e; 0x24c44497af7845a9b042eacf7aea560bca921a6341e914b5daf41396; 0x2c23c00fd57c7bea6c80459978efcabc561a3aa8e8ac6ddbd70ad81; 0x33; 0x7d03d035578b3b926a2576059aa6a503cee1e4b0f3c9be36ce734faa; 0xa5682273c7826ee69196b249038f10c0246dc7a4537bce55327439b; 0x32; 0x4a19d5b15f57eeb02dd4e0dfcf246391ee368028329f8872bd271bce; 0x6f7fd413b6163d848e2546ec8d5766db12b10473b971faf4bb50e15d; 0xd; 0x74d473462a38428ca572ecddd4fce1bbb2ecdd3cc19d463fc8685411; 0x1dc527bdf35507d82982caa619d7ef386ab6c7bf4703d9cfeb257197; 0x2b; 0x52a252a177300a68d06318bc6f03c013817714e7a4a6fdf9d9ebb963; 0x5f86741e6584ac267bb7d83a1a442e23ada0a722ada01d7951853676; 0x35; 0x1cc1e4eb7ec78cf09d1b7e349333ae2e6217bee583e6a6e344ce1cad; 0x144cab2599a04e776299627df050578f92509365ff353217e1ddb0; 1; 0x41b40d2fcb5298a949ba8a6f80593985c91b451bd10cdfb3e2f8b057; 0x43969d62a7751ecc6cc4c7c7d61b50757ac916c78ff46b00b3add2f9; 6; 0x86c2817dd4a000e2b3c2b7cb90e1e51817f733ca20f2c2bf5575e1c3; 0xfa864de7aab7bca1949cda26f1307e6af1f22da186712ab7d16dcae6; 0xd; 0x163cb5ead59f08467ff61cf6651c4b6a810d90ec6a73e368deb0f5b0; 0x6690069dce84dd8b9a9de9d225fad5e189beeac7b4eb50a0ccf1c71; 0x2d; 0x98a4a54ae24c3591671a2ae359c082498224c3f636a6c2772e15824f; 0xf64d7a091429f35f4c595bb1d759003d046e55d52686f3c1e08f97e2; 0xb; 0x4f7e24369c19b3443647b441baa527436d675a5ad7f74a0a5ae8f93; 0xd7a6d2972f0de407d661c887b690ae0eed57d4d7aabe52003c0e8ea; 0x22; 0x28079eba65fdff43f53a2ffcdeb64a3fdd7ecfdd042afea5c846b1f; 0x7b40eeb4ae5573f737a8b5203367c240a9f7eb937846aabe5ae170df; 6; 0xe0245bfd58e23f493d296c0268ed64df84e4728a57322e7c753c5f35; 0xc3a27ea5d6a762cffbe32466cd73d689587742853c00d02e091b2958; 6; 0x4f40c7366e190896020a822b8e9401833c97e9049b462349793f0c5d; 0xb9e139d90fba4b37cdde2c21562715a885b0838739bbe94784a94b28; 0x17; 0x3c1bc9378962a71b66675d212a7b57c7fca8d9d8828f3fd40d72d69d; 0x260ffbcf6f2dbb3658294aff8a176ee99f1b47ddf600cff476a4f7ee; 0x21; 0x2fae27836d1fc783d1d8ff3c9ee95e06dfc92539204d6d6b72cd476f; 0x12b0e687606b8a9d7c303a6d93ef11f526884223d18a4d6225f71e1; 0x26; 0x48f2306cf6e8cc1fce62edb2e594a010548ad9952bcd7b8403072b8d; 0x39d6f16ca7094bb4ed6b01dac3ab7b3c20314d2d715e0e3e28dc059; 0x2a; 0x3718946e1293cd86762f542af8152b3e36ab6a7de4d689ba809e1529; 0x21722dda39f9ee0c1b16f980d6a264140c64b581311c4e1e8f252077; 0x21; 0x388b640d69e6fcf288b44ad9a395de61a0f1c52f0345ed4d160e83b1; 0x2265333312e25ac4b4013b4d9125e1e05ee9bf8bb2d86af504d5263d; 0x3b; 0x7e367dbd5e059a6e1ea5360a8b0c74c68df986bfbefbeca04879608c; 0xf231ad6084f72755905231262b1e4372b3a08d0f6f86d348adebcc0c; 0xa; 0x125432c817394c2737f79526da2d4408aeeea086cbe712f7255a9ba; 0x1d44ffd976bd66b15d1dbd533fe66b5c72f30cec3bf77f9eadc944f; 0x32; 0x230b16eccd8cb284ea29e4c7abf09328dcdd8f1a5c534515b4c8544; 0x18d20f938a190ea7ff330959a71b20f2acfdf7a4c094f7acca70bc14; 0x15; 0xd469700b38ed7ce4fd590b9e046b9d850ad4dce8a5f245bc33088819; 0x312f6e2b5f0269ad46792ffbd9f60f572ae10d710a6c0c7d3a031c7e; 0xa; 0xf8b03ddec317bd010ff7e0ad0dd42d814ab21a430b88c46b37e4d4c5; 0x19fb3b79eec02b1a6279eb8053bbcd1b1ffe7d8f24d47c36706ecd1b; 6; 0x1a028fe85a4d1b9d43fdf8746b614989432aeef4d2f82715970db8b9; 0x2cb54f65551c091ab312e84b0477d69a352b26d7b4071a4ebfaa9f8; 0x31; 0xcfb4446b450529fd10936129cd3563ab43688c33f0c86f7020b082c; 0x1a18450af773c0059eccfeb5e340c9acef107fde943812cff37cdb75; 0x10; 0xa8a8c83f656401b42265debc863be7c447d2ddfb44dc6ea18f6f6a4; 0x26371f06fb12e52fbce7165f74f48908a3a8e3d9b7cf87fcb0d7d63f; 0x11; 0xc9aef8c345f5f26ad150499f2b06c29c20432d8df46a4f01e4d39087; 0x6d92c6f8034f2821e5b5a8dbce65ef0da383afcaecc607f2f3091e46; 1; 0x1da248a078a400a3aec1f0f98f5e9f9075e922e7fa791aee94dca623; 0x1c0497189bc3979a9a7e177af8791cd8971efc41f61710507f2159fc; 0x18; 0xce79216750a5866fc833ab8ccc4d1128c5b22b1557b0147452c48080; 0x8babb2202833d8441dec30aeaa756058193bc896fbdcd87de638a5; 0x13; 0xe9b0eaa3b7b801024eb0be329bacdefb5c06349b4bfc4f0e4aa1f89; 0x3a; 0x1823d3d658343f094c49afeec6c8e5db848ebe3b0e6d1f746345575a; 0xc; 0x372337a91459eea860280cdf99ba923fdb923857c58b018c81a110a; 0x1e; 0x825bf59b2e5d5a34568bff1602606cd658ef153445ef68a2706a538b; 0x19; 0x1cb9dcb473bb28989821c5963ba711773d4882a680ad199885404f92; 0x2ac59bfac275ba9be1c89aa4c99637f293498760292f9a4079bcc353; 0x3f; 0x4e730dd99e90428333ca24d34714ff9c4043836d9dc009ec5192a0e2; 0xafe761d3d75e7787275be44cd3909433fd97702ff411b151c8eec876; 0xe3ae6d6fe8f55fd53803fe3aa507a99311c51c9fb0122bbf63fe5841; 0x7242eb72111ae2681a328b7ac3b4089500ecaa3a22e0f90ef59ec6; 0x35; 0x36c0fc74c427598e40e7173c17e3a474bc680fa08f6b2b7553681cb7; 0x1af1baea653dc7bd718fd989f7dda1c46c8b9862bc127769fa78e32f; 0x2cb7923f4c5ac5ef7c746b80ce52e19cdf8d7d19ab52bdcfb378b4b2; 0x16; 0xa25f37f7018d3241c9662d72b1a47b739a0d5ac606b4f1a30a36b6cd; 0x1d; 0x401dea0010e62e5f0f28d7f036ed47760c2cbcfd43337f4935d07dc; 0x19c2dbe0fe885425e9c69f0c90ad7e5148dc65a3e648abb5b6e58c27; 0x3a; 0x7b31d4de26965c7edbc41664b7824ac1e1b163558221aa992c5acadd; 0x19; 0x3e713610ca5a15fe2d47617e0e7b8677a6a0c3fab953759b666cd; 0x4e062d8dc5a72c37eb6da4fb0397863d3ac015a397cc7acb32ba5bc4; 0x8681fee33d3be639b5d548226f7d8cd1208cc1a2b94e259b8c368c8c; 0x2b; 0x2c5c42704aedc8697ddc65d53fc59de59a71e258f7af519d099f4003; 0x21; 0x7f5b92e15acd5dda1ea890cf3b5437a28f31dee3077ee9151172b94; 0x7268303908e72b0546d1013a510583bc47de077e0a947fe7bf83868a; 0x35; 0x6b1733e1dd053745b8a5839b91e873876c9de31ee1a6a1953d5167ad; 0x10; 0x8f905888aa0cae66cd8ec1aedbf2c22468a41ef73a31dccfdcc84dc; 0; 0x33161e02377432d1c32ce934b8f7d8d1953536282497e8cbda043bd; 0x39bf95a2b8402c80a3a9fa393c73a7e775bfd4d891864ad0dace33ad; 0x28; 0x39b5a3810b7c3d041dedbddb38650584bd561a99295a9642281f62; 0x489533bee047d326f53e6f0678cc444a26a1a93841ca15ad8a65986; 0xf32d8e00072c45298641e5fd21d3b0692e2204546075c91db5eca51b; 8; 0xb32c755bc04837099dca9a3953842b02737b1dd57e7a0cb5b19da736; 0x2c8be37a9e0582813fe9cd5dc36173f50ecc42154a7f3e2a4f8fcbcf; 0x19a93d5412df0b210d6a7902c4990720b4c003f6191bc3764f140988; 0xf3bbb984e2b7bb7337033e4c78025bf757c59f669a28b0c2d314273; 0x281614e4c62c2c6a7382ab0b5ff78299de3710e5b29a53b4a72f2339; 5; 0x70d61201be782e28aee64893dd297da77d1e8e4a9b5d15e9c0b37a68; 0x385a94950d64318cdfe042c0c40ebe3b0f3a743614368cb473e68038; 0x72cfd06ad97901a97c201cb0b110eeb7d0f50c807f6c8e75b4eda6c0; 0x5df0cf3c62f1bff8922e70856e0a19d833ab54bffd6d00db6608002a; 0xf4f29f41bbdee0beb7ef7285289cfe3b076430747b92cfacb6f4fe77; 0xca1ee71fe3d3d5cef76c3f529566c4a551601ea47062e55d3acd33c; 0xb; 0x430eee5b84b770719faef453e2c4043dd92233f21e8643e289d1ad5; 0x3dcbfb0ad4f9484d4e84c623e228cdb5c091661825ffa89ca823c3c; 0x901046ada7bd36b438c5e6314e57de9077a2bd2048a5e2532fe8daf7; 0xf348a9703cef53e2a958584e9c90ad2c1375f6b4ef33462828a53c; 0x581a18967e4a2f5bd89e70a8cef81b8b46497171e0751947806dc9a; 0x5f5f967026d0dc1e9f86c0ba71dd3ad6dde0827eb406343d896c60bc; 0x5a76d559b2f0d6657968e5f9ff070d5faf68c1be7caabb9e67fd285; 0x14; 0x132c82bdae0db0ff736e87186d76c0ac63b2db2894f1f7fd4e35f98a; 0x23; 0x9b2d3a83612acafe0b57c647dba76bab4eb02cd7eed11d17e5697abf; 0x2be6bbbe44884b3fbe9284d219acc9872275ea74f9eb5208cc8b52c3; 0xf1de4183103886fcc3f54abe14645cb888eb34f33a50439fe945ca; 8; 0x62a779eec9a7983fa472bd26e65c07601352a553bfb458ec57efbcf6; 9; 0xccc4b38b2fb589259288728e13c886f1efdebba889164254623e13d1; 0x2af06253589b780ec23cee99d3b28be8086597082af1fa24fe48ac89; 0x501d70e8a1024e0ad38c10dff67d7435014ffc13a6f9507a5d366913; 0xcdd102fd2bcffd79c30215ddcf39c25933cb065260b12a981e9e1b2a; 0x20; 0x55edc78dd522ca10243fbbcfee31e0da3c744dbc61034938326d4a0f; 0x26; 0x11fb9bcf44a019ca20eb36a7f347c7b9cc28773196ffae74fb07fcf1; 6; 0x31ffb9a5d021916ca919fa1d3e4696494a335e13c69b1fb29054763; 0x3a; 0x3ace308c8152891a243092d0239f7d77430e96ef1d3444deaa0adbd2; 0x28; 0x1d5d4a382a786d30ac7270d38db742979e3c800fbba16420fef0fb12; 0x3b14a8b6f8d6d5edf7a5364e86f429d219d53cd3ebd140cc36c175e2; 0x14; 0x5471fb4b75d890804bfb30b19d8e6c44580c41a46bb2f134cdf6ea2; 0x2cafc44967bddaa614874725f3105596b5010666134b043c157867; 0x3e; 0xe39acc9e33309e1217dfaa9da4bb1ee96f5c88bf4acd8fffc1fb4de8; 0x29; 0x241ed40b7a3c05ff0d860d1e3120f130d1102ed1a9d3ae5ce51e5b69; 0x34; 0x47b62394ce006d857a57b48d6e193e0f77c0d491431ace92ac204b37; 0x748019511c23ed94c56d9f7cca3a1cf6b523479f57fdd5122b5a57; 0x4ef38825fdd872f9dc4a6e72574d953928412e6656a78a6812209d32; 0x67c6a5eace1dfd531a83640ef7b522ce03a86e0d28425926f6494cc7; 4; 0x4b29ce9399b6a495e66e2a7c98d0a036dcf8681bae69d763d346911d; 0x11; 0x43359c36a58ad2645c657bdc2e8d0ef5ba45e245528698687068944f; 0x283377228482c5be831ae336dc123f79237f087529fc6ac596a93ed3; 0xa1b0d89dd6b5b309dcf228c008f69564effc51aad67f70caeaf0f92e; 0xc; 0x7a793c9d46ec71a8b091e7a9e940d6fcaea1e9b4837ab5affccd7200; 0x8af45dcfeb0d83bc8cf762bc9a8fffb9c1db4e44b7d65033d61ff2b9; 0x3ab8085735b4f390bbb066a2247c5d8c8baf2f68677c636801cba720; 1; 0x4af112ff481e951656071ef64f9ad137d8c51308287f6e39637fcd5; 0x3b2b8cd5879eb758c1b4b610d0cee0c8131329433b0d014790dda15c; 0x3d; 0x625fd03dd3390b7827b966cb09f93c6eb1c14e7827670c60217c955; 0x22; 0x276e3a367b32f7fd1391158f2528e2511b4c6fbc92970bef19129d2d; 0x3e; 0xc5b42139783f463615c26987701c5e49237423d13957b048526398a7; 0x76338018627c793e8bd8015d420ada00fcd6919675e9a3d34b33860e; 0x14; 0x8f40ab5bea97c29cef7cf9d196ff2d53525941c6239656d21d06339; 0x2c5879bcb24201241645b0b71c968a4f8449872d2e4b99cce42d17ce; 0xabe509aa3fab212095f04f0496c5875ecb9bfee6fab735f3c451c87; 0x30; 0xa28f5083cd9467d81c5e7df9eabf96a7c80e8a80bd5ec56394652647; 0x16089a3c3b780c420bf1e88144f7689cc79def4096aa9f2fc163e9; 0xf2cd92e55bd9e43852bb4d70c7cbb0fd2375fdf95236347d75967e1f; 0x4bdef89e0259eb8b2419760db8758aa10ce888522855a8a3209f75b; 0x25; 0x7431373e654e8992b0066bcf0fd529b516f6abebe3cc422599ba0ec; 0x27; 0xdc7c0a2754e23d467877d7e5ef05ece2d04b6ab9e48741fda293bf3e; 0x16bd52a321c19d2b0889fad0a2e136032bdfe8381b8b3863df20dc20; 0x39; 0xc535d4fd09deb6e8671b16cfbea388e193d1085de80cc20edd9c1ce0; 0xc24c3d238c53ad93f34a7c4cad28e45f9f534591276e4bce07fa4ed8; 4; 0xb489c3ab68623ac26b8d3e894d02d12aa2fc43c5de74e0ef4b076b4; 0x91086d46c7b48eaa5a779b754f45d9fd0f64309aefe0e125fe6b3acf; 0x746f546a8fa81c09349691b48ed9f7963c80b95765e0030bf5d351b4; 0x1c; 0x1163d57d6d21d598c50742b3a898c05fde81108878bcd80b18053fc; 0x11; 0x1aa454fe6ef53fd6696eeb27af80520f7782233839688a6ba5f19d; 0x2f; 0x58e62f82412666dca7b8ef33cc0e4ad7cf4786924b0281b6cfce055b; 0x1582f3fee30ec17d032a024851d8f3e0cea8811b6aa20fe401c2d641; 0x16; 0xe8316d81e591cc11fe59252c1fb285574100b26a39fde29cdecc34ce; 0x36; 0x13052afb2b50d48e96a91056c88d50006003b932eb9d44733649446; 0x7b0b188d6f793f26c66ee846306b290f8f47ef7fa21ba97f6d7a484; 0x3f; 0xb9cd0b0dd8654803807f4b1900abac11d290dd5f6d8a4b62d614700; 0x1782c0a82dc1ee5d33af155b3201cd4f12f1156d35824d9c322f3a27; 7; 0xabef1eb8f315099ea11382d9761aea94c23d7ed16e11e3b99bde56d; 0xb732cc057a5a1efc8ba390909ee4ca4ba681265f939071c1445ed43; 0x4000000000000000000000000000773a34bb186132bc2a5c5da7ec7; 0x39]
    0x820820820820820820820820820912bf67127aad19dfd408decb051 2 0); [vm_compute; reflexivity|exact prime_4493324444525106632444502514503273391085054513853345758165826444713].
Qed.
Lemma good : good_curve (cp secp224k1) (ca secp224k1) (cb secp224k1).
Proof. split; [exact prime_26959946667150639794667015087019630673637144422540572481099315275117|]. split; [reflexivity|]. vm_compute. discriminate. Qed.
Lemma order : ec_mul (cp secp224k1) (ca secp224k1) (cn secp224k1) (cg secp224k1) = None.
Proof.
  apply (order_ok 0xfffffffffffffffffffffffffffffffffffffffffffffffeffffe56d 0 5 mp mp_ok good (0xa1455b334df099df30fc28a169a467e9e47075a90f7e650eb6b7a45c, 0x7e089fed7fba344282cafbd6f7e319f7c0b0bd59e2ca4bdb556d61a5)) with (l := [
Minus (0, 0, 0, 0);
Dbl (0x5da0f5c28fcdefd0706c264a79449c4103e0f81db8b84ae9c2556511, -0xd4982d8bea1625062ff116a2edb989ef70152be133a1a8b1db62409e, 0x223e57c37b9d5cc7a82741b0307bbfe504848689c59f2412b2ea638d, 0x9b2cd7c7c96dd4955cacd4cb8298fc8a11589f65538b67f67b56a51);
Dbl (0x434b98557e62f825c412d04d897687875643c849607af11fc80b0507, -0x896de6b59d1e74734a75803794f0e84177912dbb1c5490df15906164, 0x11b0a80f5ce57e83dd8df08149b2d208cffbea1e989e19eac645e903, -0x2cbefda4656da7e4fad35ea25e287cc32b8faf85658a6fea6e64d6b);
Dbl (0x9be506fb7d12ada01f8865b74bc1369f083103dca41df737be1190b1, -0x623106b7bc3efd308086cc9eb3b4e37a7f24627616512d68fe3b926, 0x5eef235a07932295e686cd9568f6fe14fd7d1bede4fd7b6449aa31fb, -0x229430f4a8851e0fd184ba2d807e57bb26f34306b3a0013ffb7f25c1);
Minus (0x6bbb9f5b92f05788926cff414b5107f8659e02f5efe707d53e5eee90, 0x1136bf56a40f1ee7b684c5dd5fa0d2d63ac5c0bdb78ca932a7a48117, 0x2d5660b8bfd0759463ddef1501ef54ec8ebc814aa68865b7ac566cb2, 0x3448fe4657202760a5f9fca86c8a8e74810d99e96ccd70025dcce0b6);
Dbl (0x907980915d548a79f0946ab392dec628ebc4aa3cba0ccec15b017b80, -0x121df988d01574475c3b3f37d34de1d52f296b80439dacb377e00367c, 0x5188ea4e52fb05937c31bb9599895032526cd9ee079ba1e4a7b73ab4, -0xb862fb4274677defa9cfc8e94d78c6833fe061ec3b1c5f16a5e174a);
Dbl (0x85e7017c7dc2d2f535f31e41ac24a4683661dcf1fd35bd6a497a9b7f, -0x1511a451d2bb9b21c205f00f65c80c86ee00f0cd052aa5eaacbbd3150, 0x4609d7ff09599a5118c01870e150f755335ad331d4cbd1d0d2d74dc5, 0x4f7673d13ca4d2f78196dac2f76cd997904d164e19ffabda4525831);
Dbl (0x8b17082b2bbc3fd3dd545c397f031dbd7e8a9ec7f50c88b45de5e352, -0x18c3786876b0baa54247e391395704b8a8dffa300d241ba2c404c5e84, 0x4b9204f159830327071ed82f9dce2944df4bc9cb03624e61c5fbf5f6, 0x426bd15c2c1bc54d039d556bca25cb952ff3630c7d34f2116d3e0325);
Dbl (0xf7d7ed0bbd22b88d072185b122d654719984a301bcb0676d55415d4c, 0x1354dd726d689032ce701e348ecd6f1418be4a285be14f09074812da4, 0xeff2618cac2f6d2e3711eed2d635feeeff9fe1dffff9bfc9fed10fd8, 0x3c3e4e82666139dbcda32d30ce93cf88ff6f11ecba0ae276c5cc6365);
Dbl (0x7c2bf74fca33a224c84cd05da79d6788a483fd3538eb820857b65862, 0x3f7ed8080630c0974017aaa064ce764329c3a4d6ad216613c018d9bc, 0x3c3a9f224f9b037a28dc472ca0c7b8a5541524a2d191f077c16ff334, -0x11877db6def7259ab17450e018b0ac1b56bf350ca1b9b39351a68166);
Dbl (0x4db3cc045ae6086db454935dcdc4c31945d2c8b5aa69d2ae5ea5af27, 0x6023f869589a4fe9525e3450c4ac9c9f076b1a018cdda5b84534510a, 0x1795a7018f5c6fb35ccab66138aac34527ed4e3ae509c1ed4ceccb43, -0x32997ed29790b975cd5dbf2e177dd5caba8955e9e517e5ee5b766d45);
Plus (0, 0, 0, 0);
Dbl (0x887bc7d4621fff6857c5c6a519b7c13c550db72bd6bd32d6b80f51ee, -0x1c03ae3bb4bdfd4aa2af4a9fc044a6cd4b38ff3ff222e4dabb8874d8c, 0x48c3c02b4a542adeb5363beee5a95ab2054f65984b7d7cb8412c0605, 0x1b83143367139baf1d4ba3e549a99adaabe02cc2fdb870946f596cf8);
Dbl (0x523e44fe71b5134629fd88450bed1ed0a600d91e33ca6b87d4b410d2, -0x142b065d25afcc42b7cc3d7c92a91c5b3e95a4b39bef6693249d1cc97, 0x1a6bf3587eaf3d5c50f3a2bc74517638803f1a809d81ebd93719f657, 0x29c35c678c9c4f56fea0e5881b0854d5d105592c0788dc072302c2ca);
Dbl (0xd205b56d17f7d3e2c983e43f45dd3fc7e8cb0848e5dd86bb5145720f, 0x16652c19e2f303874618e2946f1fce848285cafe67a5bbca56cb6e609, 0xac4d5dc79228f9b0365fd9b0235fbe9278bb709913ec1b7bcdf3e4b5, -0xccc1268925ee4d3040983e00103d9a96f312cc3c1bc799d6f253474);
Minus (0xb1b4a4e798e41ac54a9e999838f405cc67ea60b6830bf1688079214b, 0x13bdd6ec959cd05f73abfee3192089cb2643ef4aa0a606b182dee144, 0x7b5b4b809153fb33ffe5021e56abacf6bec733d073fbbb1781ad40a7, 0x1903f61b0191e403d2bfdefa1c30d602a22f15ab105757007ba22e7c);
Dbl (0x6ca07a66203ddcf41c0249006e2f3b2b865ae296d924ecc05e7503de, 0x7b8a7243b39d6ed1023ee4024603b43e413e0ba578bb66b0dc7cb4e8, 0x2e17cbdf6561ff3ad4b933dc2ef28e93bc71fb05d12893763f71fa3d, -0x23e396582315fdb26064bc76c887feb2824b75a524d8716b4aaa788d);
Dbl (0x52b374370745039c79c593646ea02eb9fdc670ae05e36c3633bbf009, -0xce2f6bd66923da1d5d18d2b07c7ef72420023a963158c93897a8f69f, 0x1ab7743efa5e4b3df5f7111d56d928696835654efefb30614ad32995, -0x1cbbcf65bd806e9e5d6c1a9c532db4775ced2f54ae02b3a0d88798f3);
Minus (0x2559e8415163b4874ad1fd1164c580470f360824748c399361db46d3, 0x22b9986b6e320af0e3ee9560b252a0f2bb4a658150f11498cb151bb1, 0x5731cb631a7ddb1c769dc8c53d67b28e90a7e1d4d57102ed66e18ac, -0x1b5f3099afcba30aba9f8418b65378000c45d7703a51d848aa116d75);
Dbl (0xed7110fe800fec9877e8293722d89ee5bbdfe9bf5a64d875a2199de2, -0x1e55c4755c3876b3d58f77ebcc80e65b797764cfa320f7ea9c59ceaac, 0xdc3a8b673aeb572589da32657b7a35847d8b70b293cfbb6962da0a9e, 0x93c12e12bfb7b7dfcba60457ed1d8b15244b940ecc5c2c343da35ea8);
Dbl (0x2414afd4155188167a0f9d8786687b831dd7e750a4e000b8cf54d674, -0x3a4df432c9e3c476efe5324ad8648b50d80df6c462328559826cfbfc, 0x515d31f97e5e7dc5eb6112554ce46ad5add5e563acbd394354c644a, -0x13a0f2a98f3eb0ee7b69af14172ecda3314a38c3bf85e9c9f15bf9b0);
Dbl (0x784cedbabfdb1f0609e9771eb91d1161fd687bc747342b6d15809fb1, -0x1b6e5936db00c7f95a37599b2f774db786822910560192ff7ab7ef024, 0x388835fd1782a6a72683b945507af0afa92478e7e5d0a2741ec53ac7, 0x426c5f72e3aa9e471250f0c98c8828381662c2cd8a18d23a47a7d1ae);
Dbl (0x11f5a03912a00a8104560f74a8a1870b21be9e221694c45c95ccf95d, -0x3e2f37c834c3bdc672710a3c7f75ff518c97a0241a44e9b28b04bf30, 0x1428af3a5fe4bba9746932ddba4c8f4c812f40d79613044ca2390eb, -0xb38d2efc2002fa94bcdbb91cfa635eb8376cb64b1ccdbb2819d9174);
Dbl (0x81da537ebe515253425642eca38b36be9ba9fcdbd8b503e572338afa, -0x271edf38d29bdbd7f658858d40f4081ad1eb57720b277f852aa8d8a34, 0x41ddc2580ae585a0bf93c15e7dc9a0c38c8da40f87f5f235cd2b825b, 0x20a3a5a0a0f5d82af7824faa711c3f7fb7b5d2738f69fd23b11ad7d6);
Dbl (0xc43acff70fcdf89cfa0eaf14e9692ea01a1ea00303e4a9c065796b32, -0xe9743b993a9b5c9822d2c7135c163c40cfb46bf8aeb5ef3a6f4e6077, 0x966a1bf5351808039e852ee8248337a7cf205885351a8e961ce6261c, 0x1705f128d816cbcdaeafa1b7d2d8ce326558759a31ed792d5546b74e);
Dbl (0x776bb910ba2ca07256ace2649aab3755e864622767c2de3aad7afffe, -0x79154c061b67437ddcade7f459e4637cf35a2fb1b3f46d121c62cd4, 0x37b55361c6da4ca4b9075f7d2e86508258e4a2d90a043468307fe41b, -0x1d5656d3b611d3b4a8a47441fb39d9ea723fa6ed5ee350a8b2286f61);
Plus (0x9f061fa19f9c2800da69ddc2d12abd9d1006912622b8ba702aed5bdc, -0xfc60f3848635284d1715760608a389ac471553e28591443b4ab4241, 0x62c89b7043bfffb4e6f79d58986cf9fd83dad080ef0ffd55b7089507, 0x610047cab07e97a79bf30f563700ddf64760f70672b7d802464639c);
Dbl (0xa1b30e56e05f51166d04a0e446d5d095c02f8b94f81e73fb35fde2a6, -0x1cd036e64eb6a3db85978a9a4e9c1e031df979e06966b7d8648510cf3, 0x6622b5465483474f8c0c273a6825466fc60ae28f10683f03934b8cd7, -0x1623aec7f1ff1cadb5528ad5f1c9e65ce73ffa1a7ee60ae93946890d);
Dbl (0xb2218202c34e42955d42934653fec69c9828e91653c543c29c95f902, -0x23cf304a946b0fc90415e600a66cec320ba2aca2813bc68aedd13945f, 0x7bf29d2e9e55fd27fe0bae6107f74a73f1e4b8fd2bd97cbd55168ada, 0x8c1ec1ab4f76e8b2ed5d422e261d0aa062592b722f039beca9e858c1);
Plus (0x4e81c8560298d913e0181652835d1f94b6f09d03246fc2e873ed8b73, -0x37ccc4b7f2e3f0697a28613756399ad2b7cfa46acf8c7e612ad0bdbf, 0x181357dfed0a4347747e2c07c9724031e0e3634ad07ceabf73585adb, -0x8d5ca9edc8510f215a8bb64a2861d6be6184893130ee90518305dd5);
Dbl (0x4c3bb24a11ad542acab0c0bc1aae0f8a843452d9e987ba3956291e25, 0x2855ba1c9dd807c6fccf1948f31f3aea24cc7fd06f65f4deac641542, 0x16b37fc7a4ce25e1768b050c0d2e2ff77d52e3fb9480dde49da3a6d6, -0x365a088fae3392822101e806555f0d479739ed312a34a4aaf50fb14);
Dbl (0x5e5af7e1e7549bf42ac5933b5e1d76cb574c908d80b5225e00282ac7, 0x48c0d41f7e9df39c3725f6d491fc12a45829335622c9fb7ce8bf809, 0x22c6ee5d20be7dc2afcc4630ecb363f7b8fbb98a2d7a9254600c078a, -0xbe473590323ea8302449fbcb02726ca0750e07b4d214098c6802116);
Minus (0xa1a18521b8840870386dd8fa09f457369ac17540f132d6ad9643f8b8, -0x426620d973b73a48f3198ae613d477215da6bbec7226c695a361a32b, 0x660c8f5d23bc36da0bedfce01feae7be4f3a70825ffab81578db4949, -0x1e9390078752bfcd10c7daada446f1d8d4d3567b33035d5127bb67e5);
Dbl (0xf4edd1a7da7f862c6b160d43e48c5d338e26d4c8ee6e64161afd6422, 0x149cc97eca8d7cec8132db4f6786b660e3046f47b37e655e8931a4f91, 0xea563495d50128b6205354f5c0953d99149de67ab3215f5f5861497a, -0x95c6ded44d9cd25d5de2c8a1de1dc1bbda70a3de5a190a001f3bfa48);
Dbl (0x85b5c38d14b72e9a1fffa31c21e99459b07191863b0e71c7df423d1a, -0x29dd0ae679c346c3d368f56fc19da38bc4999b18a5213a92930575148, 0x45d65e3eb265dcc2efa623da50f0a25a252acd56a64b00722dae7f41, 0x5cbb50c2018bfcc60255b6e48c40d164f96cf4809f87472dc612a36b);
Minus (0x39397e838552a59562952bc8719b2c9bfc2b131b176c1c7f4ae19831, -0x2706ea73e952fae507a43c88684eb7795af748c8cefc6e2940ba4285, 0xccaa7402675e759556fd29634d9df3edcfa978971441998767c6a0a, 0x140f6dd88e273d4195f0e5a2b6e8a34a618f6079eee6799a45856420);
Dbl (0x79fbcbba94e0456cbac2993f621978120e2f06c1f3d038b67017a9fe, 0xb0b0c2f24e6de7a2e7bb701f17ce5e59dc1e163d386384debf6f441d, 0x3a1ffe3f82bd618146559565b7e347b9f1a553b6046d1b73e89fa4b1, -0x175a0cb730fe177af604d8da33deafc5faf0c83cfdd33c6905bc3367);
Dbl (0x462a1f51001f88afa21c230344639e08669ed9b9f99c85f79257b085, -0x63a86dab6de9cc40dc7ffdf7181fad2a386ea12bd94523125fdb15bb, 0x133b100e967a00c19d57a0ab1046354b434e1c05fcfb184c37141222, 0x112eaf44eb947b9f0738b6faeb6d6f10bbcf3da322ca006375c4a6dd);
Dbl (0x57b4c9f5f008c0b03e0ccc48b9597e0a9015498ea910aff5ad9c1487, 0x27d90f5346c17eadde974fa8d56f1dbc582883bb0e7fc6d5a6d06fdf, 0x1e0c60f1ca539e79d269f136a1ed66036d247bef6852af02d38035be, -0x9867c85ae8ca38bb7fed996c4d852ffe3bdc4f17f167b55e58f4e3);
Dbl (0x8ae8613d1b72e7a2919c7ba5e30c25ac812074f4c180d65ea5141a4d, 0x85c0b759f27df560da22040b19d63bdb0acd7f5dfd74a993e97f7465, 0x4b5f5bc64548ff6246e1a73058d2bd37cddeff2c0facfe01fd70696c, -0x3fbcc8ecf1ae3b898fab70e877a621d54dd0175a20289cb81af59961);
Minus (0x3f88d794f44c52ad04f079a860010297939feec09cc10befc4e25f11, 0x5213122b60f3fc415e54331665d2897a25ca5c6a21a441c7005aacf, 0xfc4a341140caacc94836616c7649f14fd42c8f848b4ebfbdd922e09, 0x1bf62ebe1062fb0927878dc9896c3cb5a9a2b1f00e33879605ce9f3e);
Dbl (0x6bfc9ed6422c90be2c44d67a337524c8cd608d00829481c99c382d75, -0x13b859157fbe6d4d70410a0b6478b62503c5b06afb9b2c037e5fa6025, 0x2d8d261033b0b5bda5b071cb8577dc86d3ee13ef921e9d2791c5d3b1, 0x86daf9a161c93c7c9afb2542a5142333b7cb76d80d2662796989a0f);
Dbl (0x687bcb8f7495a091ef3b2197826aeb497c63c0249e4ed35ed53cadbf, -0x7520b9cfb8806dc239db78a7f3f44d9fa61a1152318b2c9276d9ef0e, 0x2aa4d141cc706d879f84b386fc48d184455f9810d33ca856fef19916, 0x36ddd899645e0f45eb8cc1856ae005defefcb73e201cc8c5f235c3f0);
Plus (0x32a982e7baee2fdd10049a95ede0618e7b5b79e6a851b7e128c0fa53, -0x2ee6073e6baaf17ea30ebe6048ab0558cac4671ea820205a3051a010, 0xa06a7609dea04ca5716d2d883725c7f4a7a41660c5baaab8518bf95, 0x28f4c70b1eef2ab0dd5f52a1ee24000fcc266f3056b59a492ee0da8a);
Dbl (0xf7da2c4252f7d637c297c92e54ed9c28821562250eed36695407b16a, 0x6ad7303295f902d45d4c4aef0dcdb55888d3b3558c9ef393df394bd1, 0xeff6bb5764b66b2c84c9a58959bad45c7381aac54ad629003c985635, -0x9619b7670cbd0c9b5b6990a67d88aad40e3308e0f1db9387d9a9d23d);
Dbl (0x30d5079c5f80aabfff1c26012eb38ac87feefdc9acfc51f05b9a4d91, -0x12de4237ff58be7cdfe0ba236c1367c1d54cf2e1885a66f2c35b2d64d, 0x95094204e4118e1b4f06c6fd516fbf9cc91f15d5c3dbfed6b3a69ec, 0x11febc8b25710a64a0e890787f7f4000dc1602e5a3215e2827398f5e);
Dbl (0xf72eb0a4b554dcfbbbe68596117db7a1a2e57be6e1c83cbacdc42c88, -0x313de2fa8dbaa294069e713845f7ccdf49c08159567aa087b3538e67, 0xeeab2161cafdd03ab414be230a614c8740c49fe34e876c7ab86a8d1d, -0xa5aabebd0d1b5be269a54897b517f232e1dce5f5c63ea13b3856be46);
Minus (0xbfc1f7b6e0945077acd708b787f4701a729592245d0370dfb3a66bb2, 0x9e327a1241d6d1b41a4a2015615fa4a32b72d345055b7e6aacd1e110, 0x8fa3029a548e57b63388b7ac484f77034aedd30f7ffb24fed7ffb38c, -0x7467e64c0836635602495253ffdac1104cb22d01b0019c2a1a60c9e2);
Dbl (0x4a8bb5e4c3314e1b1c5393ff4ef5401de1f7ac958956bf0ea5b0ae6b, -0x23117eb18adec1b90c73eb86ff0d85341639a3b12d74aafcc8a47b595, 0x15b511674881c1227aeab1274068df67dd9412afebdfc34ff5598fa8, -0x7dbc92fd74acfb8b247926ac1c0a1a8eb06113329214e8574fc017);
Dbl (0x51da7daa7d1a774826e7c8c907a9628b904b4cbdf2a741ff5430264e, -0x26e1643b385329c7aa59b5074b7c914a289986832a1cf419038b76b47, 0x1a2bfe002737c0450c46acdc1b5fa2fc3d7b0363d2b76588eb0b83e5, 0x4ee3b433f950a6dc3bb3ab41da586bef8c0dc13c1e71f21625ed5ac);
Dbl (0xe54fb4edeb841168991ebbe2bf55b1a1f32ed12c5ee5b157ec9a6199, -0xad425eeec29d944dee76933821ab1aa5713d735b2000ee23a1299673, 0xcd67b282d21112f7842e8c32598b894d0c1ba75d8c70179e09e79851, 0x619cae2f034d9d2d45c1665dce5ba31f5d67e2f48da722e3b6c3bcfe);
Minus (0x1c423668d658b8483c857a84762151e85552c6ae7048c3e4c99e0d50, -0x762e96e33abab2dcdbd1a18efaf07cb3113fe9869689ea342b644f0, 0x31e8d070882536b1bc90eb19dc8508ac229c21a9016d20a051e3bab, -0x7433457f8bebdae7cc3fe626a20c8b194057f2c3f567bfffcfb3d07);
Dbl (0x7aae4e17692fec947d5a27a3d71c5ee4de2b3ccead255eaabf2b1f1b, 0x15ffa0f908c4468f13b7ef73bbf35531f3e8e6ef989dc3bbf4e4ca8e, 0x3aca991c8fe6f0e06753ac720a1684676f1f14036e42e2b48537edb2, -0x39ebe7cad569a551c353af8424cd113611a84472d13b026a0455b71);
Dbl (0xafc1f1808b9a93de4ac38808ed1f8f018224a291becbdeac3c69cfd, -0xb78c245cd2b342c943b20ecafe6fac7f7017d68385322cf7d4003599, 0x78aabb1bc6831ca1d081afc7dd5ada57e671891a626a7c83eff534, 0x4a7fd5b6227946ab337251174098b2e381764dd779e3a1b3b240f73);
Plus (0xa7e07c1b2ee1579388bc99aac4ce334e9dc71f75a0d13722117d0d1c, -0xe0bb58a860653e959bf04df9bc84ea8b84d7bdc68aa4243d816c396, 0x6e16a6c4e2e662e8f78a81f358b3072d9f9c69f0d0e1f40b6848d9c8, -0xb94d87630b36276f23f1191f46f2efdb91bd73c8c58f4122580e9c9);
Dbl (0xe9de0c80bac8e2e0053cc65823387761f19884651e074a67d474468b, 0x1b55fdd144054aec5406721f9793debafc3c55cdf3c408a1f34f9b2e5, 0xd5a5f35c03e1f3a36c821e482f0d472650de726ccb095ea4d8b553a9, -0xc3c95c27eaa0c3e8b3c1c2afcf92befe1352886f6edd892d6676f19f);
Dbl (0x139df5a4ff2cbe36c4bc8e4ba617d7a36a068b69ab7e686c62adfc44, -0x277f7e60800c7e73d94f079d8b126ab1d765bef7de39756ab70dc2d1c, 0x180d3edb5f6dbe1042401e5c97cfc224a52460d565f7c52dfebb3a2, 0xefcd0b3f2381ecddca5b92801e2b6b5528e7dd1a969113f3c3e17);
Plus (0x3a51b9b82b5667feb251d81a1627edac8ac237209621c8c92f3da74f, 0x27bf0f4658fa2ed31b26528effb0040d1f18d57d46718c4a6852a476, 0xd49223e80ea46ee6dd3adaacbceb4f64c74e1684e472f12c41a6d64, -0x1d39031d2ad390f4b8e822497f188882652687ec693973d6c648f4ed);
Dbl (0xfbbb375e28a60441f195e6d9f962bafdfdc3296a1c950602b6cb1904, -0x1d0f2e6e216ad39c4465484c2b46285d5b5b9790e1b0098c3472bf694, 0xf788a77c933e86fcbe46a6e8a5d7693b9177c94758518f5ff4af16f7, 0xc47b5e011e9d09afc25409eaaa76bc2f2f7198a61a8aad1b27ad66b6);
Dbl (0x2bf63eb372fa53222ab598b0550bbd260ca9d03dce71e045467d2d36, -0x1888bffbfa6a5da10d522aa876b0a5910c58c0b1e6b67c0637d84f3, 0x78ca5ecd8dc7a807dfbcb954722a6cf4feddff3962909305def11e2, -0x19039d993811140b1ebb605cea991d32cffa5faf54e3aecb5244787b);
Plus (0xe9b55cf3c7bf275566dc6632bc31e2a308fcf0f0052beaaee618f4df, -0x74362dc89dbb290db9515df7f141a6d05890834a4e0b343fe4a23ba, 0xd55ba3b05412899d490571a30b94ae44619ea73c8b95b0116af7a7d1, 0xa68ad729e2680b42e7ac7a5ba2c531330ef71f1ab93af33468dc1acb);
Dbl (0xc441c065f4c7744a81f8e156325451eb026e22ead7b90c3d91f47c30, -0x11c2def4aa7cd8d03f2e543a9a0738418a6c791ea7802dd5c7521b440, 0x9674bf7f6330cf2162b9704253a5dfb73c812c398bebe6e1ad8f57c0, -0x1630ca9abde4c6574c6a1b8cf23605b4858a4affe2e0094dffdc44d);
Dbl (0x51d368bdeb3af3b4d7898bd422f8154d4a1296ede00ad1dcf06ab630, -0x148b478caf966eb7d1ef60b119c941a9a187930c8ed7a835168c3ada0, 0x1a2776de02c7ed6b3fb468601a30780cfc931d74c876dbcffeb67a50, 0x32783005ca26681e847a6dac037d6babfa0a39aec065cb9f7a1f1334);
Plus (0xccdf81f5003005ef8159a762be41e5674dadaaa9d5f94c434c1e0ce3, 0xeb5f4ab88ded9602d3602a3181a2d6a9249775c41907e2b9c8c913e, 0xa3f4fa42231bb1c9cf5102c327801fe7ed6c892ce1e61af7326e3552, -0x7c03d04f3f37ff96a030a6c181349e0f12d748095eeaad7511d61bda);
Dbl (0x1d574563c5de650228b381937a2e512c40d250856f20d47a13ca3e0c, 0x1c5a63b5b46671f5413f0bffdd402989cd9461f74d1d85ee5d9814c8, 0x35ce378d773cf97aa15a7a264d8d2b0adb084b25d3cc653497c7d53, -0x96fd76f2f89599addc97a6fb8b1dbac40effd8dedc50646f6ff1242);
Dbl (0x8293e387f38cf571d7b212f6910f1a79b161a60b0e0c947bd7d1a671, -0xe182c877e4d2c602b7e035259b6918ca1b8726252bde03810bcb679, 0x429a88852bb73f4841763beefd4247c995193b87a83806283d855d4b, -0x215ced3f1b2a3299ced35a9e5c2633f61e899b7803cb96a7a71a5cd2);
Dbl (0xc97abc09f25aea97460c8586d80266f29bfc37052d675e7a93c9a7e9, -0x7c6336421fe4510fc5c4231194e29f2f8bbfb37b11639cb71d3901a8, 0x9e91f61f622c5f619c911ef21e7eeb653ccd9ae0cbb982a968e86c17, 0x6bb484d0c569e69cfa3319b10b6a4ac204365ab0322b9ea3af43a83);
Dbl (0xa363f990531157424443adb9fc9c1a85976320a8e1414ff92be7b2d3, -0x70aea8c1ebea7164640d3486712a11d02c0a324229a67495fd47eea, 0x684876d8c2b2677d2a644ead566e78576effd2c12a63930038d8975d, 0x167257c68db40d0d3b5d4061dc30450d383d5de90eb5b10b8acd567e);
Dbl (0x579bfc1236929947be0923d110141a029b1e30575a59a7468eee5281, -0x917a43ebe1eee1d79f073bd825fdf020a0085d01cddb466267c49536, 0x1dfb645f97599670b60f4e3fa5ab35de0ad14bbebcd621426a2a6e21, 0x279adb5f0c900de0363084203005758417c5ab0c24efe83fba0e17ef);
Minus (0x1494193a7ed3d7ca956820751f081f3d5699f78f5be2d63e9f6e9762, -0x137535e71219d4f8d7a48d10eceba1029987049b15296e9c2375c81c, 0x1a7799e51f038cc408d962ab6b56c452be3cca52b48aaba22d1190a, 0x529c5bac79dd0945025144a171fe1e84ddb9fb75df843a2ca8b84a0);
Dbl (0x997a793bd763b7d1541bcb2aae25054b585654c9a2dd2dac58b0b908, 0xc416fbbc947761e323ef61744ae37c20a5670cd080e265c89db7150, 0x5c039f814de81c5cab00a4eefedee8136078ee6693febd64dbfc7708, -0x22a98364d193f1738c93524bd26f2a4b771739d43375dc617e8d6590);
Dbl (0x620b9596d6afa1a8e7f7eb595a80a12f58438394549ed27fda387514, -0x30048dee851494e75de0efbdf27aa9977d40977f571f0b899d1b3f60, 0x258cdf0daebdd9a5f227ea39e04b982a2918b40c3fcc55098128b825, -0x44ebd6542434a044dd935df751f921ad3dea40d3c537a8a1830c2353);
Dbl (0xdb3f60a8e5a7f3ca5a91a3ab833a00bc0729cb705d0cf3fdb9cbe58e, -0x1c39f45e3906235ac6120daea0a9ac169f95dee3de9166fd910968c3b, 0xbbc57f11b08d7f7265db67921b0bc80dba9e9f851834c8295981b003, 0xcd628a4dd2d844ea4fd9c0daac696a6b4904cacbaf5219f1fa34cf9a);
Dbl (0x37e93115c768272a29e20e7a44be02759ba3a761fa297ecb15e3c95f, 0x2e8930d541f6c201a24dddc5dcfbc049b9a36c18bafb67f1179e52b, 0xc360781bebd149b9a2707edb2194f3186ba8238fe1b8940af34c4df, -0x2c95b5ee6b6804ffe546f4aca2e5d4f1a4a30761821a625379cca2d);
Minus (0x361502ba21a3f78e9af46ca1eb27c71b910362a4b9197aa0b8f55478, -0x234db2af7a4474e743a65fc89dd7b581324d39581aad4a56cd3b7523, 0xb6cdedff8c221323d522e6b11969534a402a3f4d015ca86bb694242, 0x1890db9b5cdb8c963778f5e001b5c220445a5213a5bed3c3107eefb6);
Dbl (0x78725f387d8c8d3db5e87249a4b9b20d003198ddf5b1f1defd468363, 0xbde02b749e28500b7d77156b4d0ae67cc90a1bd4015729016fcb209a, 0x38ab6c5de76e8f3d21641545fb9a73e3d27dd5851ba5e6e0c7205b7c, -0x4ecf9b01a7edec00915f9945fce7b7418c62f490869698bd2ad3efce);
Dbl (0xc0834786d760b9b70048cf7197272568babdab33139da80271f10f97, -0xb87d4e741a249cf4f71005ec622bfcb81952ed5b9dd144d2ce6ac31f, 0x90c52e9c8b0d960e67310be892ba1b365a06d3e6857586069b7f6e91, 0x2b072da1df73a327f44ca01fd6029952ebc85e3b81b8b05cf7a55a0c);
Minus (0x8709bdf895f584347a7ed73557d59869210e67dc715ff81420837a15, 0x1f5d8a69e7fee0958d7a80012d38d779945680d2787f13911fac44af, 0x473b46bb169c7b820d9fbdcd6b39752ff99061849122fa5a7fa1b61b, 0x26a0d9e5de1cf1f5fa6280c4a28bd1e6c265b26107a99d4485da7407);
Dbl (0xecfa4f2d8d12246c4607d597201ff8e2b94633f7aaf92251a844b771, -0x6db11117219a19965df6563009c10eada2e7fe020ac84793522476da, 0xdb5e76bab98e1fc2dd2fd7cdac872a2907bf793d78b39f843a83c4a1, 0x6325153263a402dcac734d9e9d43e2cb1bf515e55bd046950f644067);
Dbl (0x7d2b557969470b04eecc98da062c5bf946320a2a4adf4cc66f06fad9, 0x374e6b2ca05c03baf985f8698e627220f4b81505c7ffc93dc0b985b4, 0x3d3358ce6422981e62a111ff074862692b95501d28bd2454f8642cee, -0x29c223bfce22540e3c67ee039c619406b564dbbae40b698529a4ca05);
Plus (0x30a62d0f5b55a735c5dae4101f04ef3a81759a7187a2bfcb775513de, -0x94ebe882f3b3977e06cb5b6243424314cbf19693abbffe759e99183, 0x93ebcc43a18f8d0f5572ecaa5f4add592f6c97725990ddca7c50da4, 0x14dbea62c85c60e497363b9e3f5dced741076949a51afb59d7c808ce);
Dbl (0x237852c664148000d89a413b360e3a2d86196becc38f3103ccee8d2c, -0x6c53c9d16c2d7ed96c6fd4c5e2164c2f6f280f83360d85daf20b4c37, 0x4ea1f2ff41f201454dbd02a220c9b23249b446cfd099dfe81b11873, 0xad5d7eeb5fe6a20a2b58a588bc7a977c698b464627a5512ad651cd);
Dbl (0x4c712c33cfc2aaa45af8f445fe0e2543555e2f06070ac8091e45c5d3, 0x93d85756f0103350f6df239b0faf88cb5f946e03fea7f0da6144963, 0x16d36446d0bad91395f1018fe5c34087b53d21e48c3df89788d2e3f2, 0x1fc9414607e0e437598916cd0265e37cf73261947ae4403bb583553);
Minus (0xcc5f96c5346deccdf268f1e0bda0785fa8f9b7d3501afc1eb9137b84, 0x4f658630b2216468b52939ac4cd7c15db11562539e33d02825cfc8a3, 0xa3287bfb8ab7cc58889dcfd2f0e38b4e9855c2fd2af3e3524062b440, -0x72eb6e7afb73d302292ed08243085dd20ac006776c425c5a4c1e308b);
Dbl (0x8ccb05199ee072ff60dfe20b8d417d6ea154242844ade0d73366c222, 0x61ec982f1c1c6658bde4545a343891718dd9bd9e4cd6709274f5931, 0x4d6eae951c817882e1e6c4b3798694af722c087c3d69f2485b892628, 0x52cd91efe3134ca5e44e764a6cff835cf6c40d7bbb1bc03835229a1);
Dbl (0xe08ce2a115f23ee407fe14ab89604de01c400dc775f5a7ff2ac7f783, 0x5b0d2f9ab8682c4b5deb01f5774ef6883dff2c05ee629474115c173a, 0xc4f6da228f38bf202b04be8dd5fdb2aebae1f43082aabbd9f090d09b, -0x64dcf71660ab50a25d12708e4cc1355b2626aa2b0622dbe23a60d355);
Plus (0x6f0d467b8feb7f0833d4ecabee7180ca0c3338c6c26c8e8eec8ca8ab, 0x4329918da9f1ce42482b0eb0a7aee5e56eba31a1845d6d8f8195052e, 0x302c83cf62c2a46c6a7567a5044645d6a1446440e714e0942c6f1ba0, 0xf0844e33fa5b9068ebef5f6ca73caf5b64c54bbe33eb58b9553cae1);
Dbl (0xce57345bcc6987bee9900f6a3df392f5719d1dcb43d879647dc2395c, -0x1b6a16348371471885cbc407cdd85874176d259d637038a579bada39c, 0xa65075f85e143227590b052eef6c5437539dc5954d5591fbd4993dc1, -0x924763558f61bd06564f085c3aa3404dea5f5df6f9ac118ebf784fc);
Dbl (0x9cf4b91da497157bd40f1451d7675886a50f5eeec8f1d915a36e3375, -0x17586886ce6d6b867746f2096ca929d54ac66a2fd30d852cfae22b88f, 0x603b2b8d86f5bd80ef9860bf52e67d45c9367def6ce54ce8405771be, 0x208d5ce91b6fbe97fcca0813ea6571b440a18de5cd1a042ce1ea0474);
Plus (0x254dab1f7200d81862f4aa80d2bd6fc8e6ebf61965a5adc9066a988d, 0x1586b48cbbd15b806f22715b1d76b4e67955f9876067f9e038977882, 0x56f8b077a41d922faefeb090ffdfe2bbe5ce5f2c0e0cfcaa5ba3988, -0x18e13a8a3907ed4725d046dd8d4729924a531fcfddfd9038558ce0e);
Dbl (0x86514875a51d3d1f6fa4d55ef0dd265782c2d8e4a0f885f34b7f833d, -0x5680064ec936d2eafe9bf42e5f38554cc264314afeaf35895e3e1a3b, 0x467931aa17cf7b6e605f77589c8e25cff245ec6159e030e3d82fc980, 0x28b7c026bae050b7df30cabad307344872108c47619ddf46da9b74b8);
Dbl (0xc50245d48a7fe6bd3c8a062bde22b0101f6d343f348ae4aeb7fdb370, -0x4a750323a9fb32dac5b88de541ba7f133ba6e500f44b40bd75e925af, 0x979c7f7e4787463d7b47b0610d7e2e2e0d33953a9feae1f2f4169530, -0x1a615ef9149a573f7d3650d16be0c909be30b495ebe051a65bbb766e);
Dbl (0x3db9dddfcb5b8b26a4bf6c243723e29f2548681cce0523643046cfae, -0x953251c6a4e7fc8937523e2dac9423b5d1dfa0cd3a86c6a816e87d14, 0xee21aaf14a9b35f81a4cb6497376c7eeb0f5923f71b9a100cf1ef8f, -0x17895f4ff12323d92213087fb693f99dc76122243f7c371de093ef84);
Dbl (0x718df63592f3666d7727e9dfbf95a0282759731e33daf3df14419841, -0x17aa8365260211f027ac00deb9f2ce53cfbd39babd6b44a41653e1ccf, 0x325ea2146f89c22d6dc3d103ac51235a75d7c401036dc61ba822be71, 0x51546a65c2fd9699bf0c2b6e99f62bfd0fa889e896d3bdda4b0c071f);
Dbl (0x6a47e839ac84ac39f78abd6660944307b6dd47b5d1c029750c61d27, -0x93dd5133ffdeb9c6dd1ea87e4db47ed8d33142e48f55343059eec04, 0x2c1fa082658425e648a682797e1de7baca3c4402dfb5a684050365, -0x49e7d4761b170e4570792675f323853152b8e0feee2a60598451872);
Minus (0xab5ad297853e2e3c2da4bdc50150f6fc84c3406df9886979d9e52346, 0x2db5461e15e090d895c2b67a08cf00dfcea8f03fbdcf3fca9d0462f2, 0x72b2758f2bc7b1c55fd91e5fb2e322faa5fdb277db4077ab402ff6d9, -0x302a06b4a5c7d75a636691d18f3abe478de6afa4a066adbc883f7b35);
Dbl (0x5d1fe8ecf9bc2660e841f030658abec915801c827555e0996d8669ff, -0x198478a09d21ed4765f40334673e2bb247dccc064dff1b53161560ec0, 0x21e033366ac58f76204e1d0ffa5047388405a525d6913bcd898e9199, 0x25b3c879f693efe0ff4e09e755bce1f7af5a66f01d402c198d63fec2);
Dbl (0x78fe6ad2d7d6cd8450fa8a4e1b8b6fb941128aed04d014cb28637ec, -0x8ae543171b5427111d652a6738e4ad25dda13c4af06a9573fc82eda0, 0x392f80fdd150f7509310d468809e5da7543ebff0ea8dee8e77a4ed, -0x17ebf89af644eed8edc7a45e76123a3efa8f153e3b2732afe0d985c);
Plus (0xbe7d956a444062df061effe0905c4771af93c3ab2c7a33306d222db6, 0x62f372fde20f6d12c80c0bc65be702fa0b750becb643dedc1d9c32c7, 0x8dbea764fe4b1933257dc0a070104c982042b0e0580f38ba285f6b37, -0xcce7f5ae392029ae42ba563ce3851c634a0654b8fbe85e549780364);
Dbl (0x59f99c5005d57c0b4a950dbd70149a15d3734e6aea8333841c7baff, -0x12a7055ecc29c25e4a8c98635f1daa2f24b9f84b0c92d493df34da8c3, 0x1f9f8211172b69aafc900c56d028b1883b9cf010f05aa9f7f8f462, -0xca767dccb0fce37435e3b7a62e82332ededf3ee5b96b1ea5847bcb);
Dbl (0xe82868943fddef1561175d9d415e103bb75dcffdcdd4b1ebc40870e0, -0x12c793262ed109baffb5a81070788506d240b673809545641675e779f, 0xd28943ed8ccf006fb1757ca8b6aefd3f0c197ba828f8217796d38566, -0x99bb3398db75afb54143d15c5f623253367e4c4bc0b7941b5ae045f);
Dbl (0xfe2ce4e155f401816cb2cb2c4061b5af95f650c8fc354c1aa0b83d86, -0x1855bb208983d2a0537753757120c39de204f49938f4fd8d9962ee70, 0xfc5d1e0ea0a7e6502ea549540410309ce85c870e0bbb9020bdccb86f, 0x3e9bd99bb51c98aaaff3d364ec69c32bd7f9d60e13c931bc79b997f1);
Dbl (0xb8b7b00ba670edc27cecb6b647b02278545577bac14e135dfcc7bc28, -0x98b684eaff5692836f032b9efbb9dca5b14d7e8b8a158ff1b2119bdf, 0x854890dde8fa509e807961b8983c00bebc4b984f5c37d7c0e2c73fa9, 0x45a636e3be82ea0e59e58aabffe3084a8de6767f3e88df795e07830f);
Minus (0x37b09a541d2b3f29b3ae160b026d722fa0152e33aef6b10f8bf18ad2, -0x24e9c8a6868c0ad670007d74d55dd9fb12758628affad6a2b74a569f, 0xc1d5c24b539ff55f43e5000213f6e675e7273656f83eaae94ba80fb, 0x1f7c158a8675c08b9767e826370016add183a3f3df7847121b48e78d);
Dbl (0xf8d3937cd8714586904feb004d8ff760674fd8fd2f57e4d9e173d093, 0x1989c479fb785e50abfaca89392970abbfca5cc5dc97f92d10af569e9, 0xf1da9c9e5820dee1cdfff6971548df9f7d7ef8131e5196c2af28edef, -0x314e86a89e7e905932b137c21a4a3415812c050f13bfef5c0040e392);
Dbl (0xd7bc3a02509bb64fe9047b49b5da12fae158d98aa3812849c97449fc, 0x8a00e2ef1fd5559ca39de631c1679de103699e01a4f68b44dbd09608, 0xb5cdb3d523f0fd79e9308528c7e3687a5014c26e8526b7c670e3f0d7, 0x479c4d55d79eb7dc014706b23c1b0833610e9176ad74718bcf47d4a8);
Plus (0x5050bbda2e1aa3c9cfe28b0cc6b13387a01cd95fde491c749de641ea, -0x9df24c23c65d1be4f37b9555d55a42bc11c9a3375556144d07a00cc, 0x19328ede4f05f051f904e38c1da2accdad8acfbbf3edacf4e782e7ff, -0x1eae3b7373f2f6dd76a3b1dcfd6b97a613c73b661df021a6ea2057e7);
Dbl (0xdd37898408809d60ae8acb0db2c40eb9fd1df3ee24fc854fd1506bc, 0x10ea5baee59de1b651f499f23b86508fb09b20d6134ef456641f53c1, 0xbf28ef7a57484c2efa42b3313f56533729e9ce8a23e876a4eec3d3, -0xa693f3421d87bdeaabf4f332335568bb29f48f36ab7bd42e1fe7ff7);
Dbl (0xd4ea2dba568dd69daf467d23cbc3599796bb59d0411cc5adc38929bb, -0x1ec7aba9b762747d1a16cc210b31e40bdaa26eca6f31f82877bbfd697, 0xb114b1f4402c30d1436413a998baed0dd427d4fab15c257def15a54d, 0x6d86f79125ef6e046873bc79a98f333c1bff4537f1c0c59a17669d49);
Dbl (0x2fded71bd81165f850c4e7a38bcf831eca92e4f1a1e66ab07adda656, 0x1acdec6f9a3ce6d48dc26fca42274c455cb39e64f4fc948e340a36ec, 0x8f394f60260e9928ba459dd4f7f21057936e7d4feed079177831ef4, -0x80df27c564de72b91e26089dda1acc2950d5c7e75e2e834978b4581);
Minus (0x333561aea1e43f3c93b35cadb831e1cbdeacd57b4bc1606499f1abfb, 0x8fdd671ac6ad538088f027f001e81482afdf135925a4ed9503bbbd5, 0xa3e500d2c15c783c281608330ad57725a15c38ef5ba76609137e2a7, -0x19c25b151befb9456553413be1c89d672268e05cf0ca8f39408d18d0);
Dbl (0x56ea0f92df89ac1f087f8519b7319732f2cf8d2c7daac00f271649a1, -0x34e0f5940e97d99fc5fe94ff8325cb7c468e4437bc8a2167449433e2, 0x1d82187727a3b1c960d650d8fae4069915433f93c9f3d8f716dfa160, 0x16386d7f45d23d2e6bb4e07d2461acf77f3f343de31f722ce75b036f);
Dbl (0x51f4f4e40c0a050ff2b1287ccdfd1e615ce0081029f09bc911eb7f3, -0x18926cb6c172c3d5625560dc9446bd1ba9c1c699e71af43bee94d249, 0x1a3ced5c0c98cc664a0b193c0d1a10d112a16312975fa3f2d6db85, -0x22d18aa9a52d3cce49cdea1fe520af5017828ee23593d4b9a1fc9fd);
Minus (0xeffb787f910bf5ef340d3f7788b7bf6f1c60cf12f703ea7ac65a25a3, -0x25faa78dc3a866b21ee14ee617dda16161919713f04d0694945f7f5b, 0xe0f78203b3b29a3558dd9fc5be1b6cb538991953c137bc1ba73bdadc, 0xa742df9f4d22873c917910dfe2ae0f5528f762fb61b4fbca7ce6fdfd);
Dbl (0xbd1fb82e7098f39b505452c754e5e0d7b3fb7299ab1319aece47fca7, -0x343c3f42711e0cae60f315d57d53383d65fd3bed76d6fb34a086218e, 0x8bb7d9e2b203e706dae6f67a8b77aca315472c22c268ec6e6645b780, 0x38adbe341871407d385ebf12d8007a90c12a0c5c83466b96769a0156);
Dbl (0x74dfe88f06f742112281b096c16f89026e8145540faec5409645fdd, -0x4a3b0a0f746ee11a3096d2ca35d1d0ec65d4129a759c659bf65c73bf, 0x355bae989ac1c32d914b09933ea21cfb76398911e9327b2313c258, -0x4e471e9d4ebc7fd6afebd7b99fe0ab0fa65e54e3dfe11ec5f18510);
Dbl (0xb9399f6ffd989a4bd4ed2c4f033868391e4b500884060c8a0aa4f01f, 0xd51dffd9d78837e6d4fd1c1261eda1a39d6b6a99514261f854a664dd, 0x860455683fb1caf7c4ba97daaa767e226b2bb0a61ec8c84bcfcae515, 0x32eaab84e893fad2782633c48749f211b97af5cd58499afa91c58eb1);
Dbl (0x47821ca71a70808fb77ce6c8dd5c18068a0e8e5b486cdb749230268a, 0x9ccad3f85b3138fb1fd2e9ab68130e31634dfc6f32d8d9ba268ce14, 0x13f96e05cd963c6e675fda1075d0e5af1f2ff697d2ce6d2a8ce03933, -0x29cb113d68361677e4f69cec3443a70597900d9d4a200c68eef89a04);
Minus (0x6269ac5e6bdededa1f2f300d044533135a10be96df29f82a8a564481, 0x3a1b85fb160ada23705f67d9a2c3e2c33d73e0ce40a3c414d378e0ce, 0x25d51397241a2338af6287e74b89d31c05ee57846125dcac81663c74, -0x7bb3978d93bd58ad782c4a625a1ee64c3a6e81d693ed14c1f7b1cff);
Dbl (0xe467bfa402e275954a8a3cc56f9e2489739148efae2fd367b90d1357, -0x141a5e57930e7e1bf35a0e4b686d61b85f400f196509dcaa3218f26c3, 0xcbc8f767ea93d90e288bf62884418e13d21caacf57e9d992057cf069, -0x409dd49640b967980d12ccff93be4adf1d3d6c2a3b1caf543a3c72d0);
Dbl (0x3f6d7e0aa882d65a8f0aee51e0f3d08fb02bd6a808eab475f3251040, -0x267367a9f0e147b3c77c3017f52810ac1d561bb05e61c24b1021c0adc, 0xfb712ddd212633d7fab10b27117ef3093e17b5d950eeeed87ab05d1, 0x1528374788c89db789e24bd038a0e7e357ff99d790225142110d4ebf);
Plus (0x4dc1f32f1f2bf67fb119470d705eccc6b73c84780475e3ae7abc7b3d, 0x59ce8aa00f822e6a3e296d05ea595194c5a44a36d941f2c3a582f31, 0x179e3f3aeccff06c68f8d733e52b56246f4c21403fd4ebb572d34495, 0xaea99cb12531489a0454524095dcdf38eb23f4c197e534cb5267932);
Dbl (0xd60461a683edd6fd9dcc3881cb3eac268aeffcf39a81cfebc3914669, -0x1300b502a6467799d68e333aeb3af2a298b5a1873ef9d309759461563, 0xb2eb535597055f28551aa6578128f32710f350793cb9ea2727477dd1, 0x7ed7e0787a12b785a068581a1fa940e30cdbdfe041ea1a4f9a0fb559);
Dbl (0x3ecb83cc956bb7408e4e05fbcf492cf5dcf08beff8297dc6191fb727, 0x69e9f83aa021fa344c9ea4b4a1853f25defefcaa19daa640c6ff6d78, 0xf6735a162b02a029dbe2bcdf5069336c80a4d6b847e46314a6d17c0, -0x65402b00c93150310129c20628ce1b29413a7f781e37d8660725ed);
Plus (0x4d30684b58d05cb63633868d4d4ab4f52894f6d77c01f8ed92bd5cbb, -0x1cda87fc7bbb7471f6cc73af992c9b8dda5b95e35d38b4ac09e71129, 0x174627e49a2bf43ed5299a6523ee8b594359aa61b371d00a9e8fbe15, -0x1e705e4611c4f802df001ed0f74a7da8141de6839f10da2febdd82b1);
Dbl (0x60a14d250fd07319550939fe86e43970979075b2fced147126c14dc1, 0x6bb8b6f6799a02bbce2c9eb38deebb55da393bd4e5952c652cafcd1d, 0x24795f7debb98b64be1c7acc2dbfbf8f0d62650b12e79b727740196e, -0x29a736a8ead3bcbfae66df38b99e2735aa7f50451adcaabb01e610f6);
Dbl (0x63dcfe0416c062b7145f713f1937e71b2d7e94f847e14275883dd978, -0x2af108748d2390f2372591df675691c9a9b957c3f1aa64414dceedef, 0x26f4ab3cbcac0439c058d95329d8f9ffe001f447f836898b285cd939, -0xe96c685e828ec1e37caeb8925b3b5ed62eb34f37f9fdc85e1e0b47f);
Minus (0xc05e27f22b8e287780a01ba0180fed9642607c6a6cf5cd2c89878eca, 0x56f301f04721a32393d6dead40306e1a43ea46d71105aa2a6e81575e, 0x908d5e8c9d68e774a9349aad74f69cf78236b363ef216ca54486be62, -0x55fddb7cbc7a420b6e6451f0112fcf05ebd7c4810d7c6ae40a9e9a4);
Dbl (0x4537817403c8ce4471af21cda58f2f97d631c08e52fae1f7e63bd8b8, -0xc6bb4ed7fe96b47642030478a605a94f8e1059ac78f62f8cdbb6caef, 0x12b6f7d16b59ffdd549b7c6b74322c18b9900cd6cfbdbf83826fb14a, 0x1bfc319d2161b98927c2a6bf0a43cee28b636d2c707c4ce7f4ea08d9);
Dbl (0x728f9d7cb14955bf7c83c9da975534358e997b77ab2844f4b0364067, 0x5d3d79dda01649a0c386e21bf77bc5d713bfd0c352e590fa18c41e30, 0x334438d460158e7c83d0e8d1445a9545149ab3131d46e9362a9c9f9e, 0xabb30b80cb146a79a3432a0a137b34b9affa226e29ecd178e859cb7);
Plus (0x347462c5e85932f65b382a9841a70e9bc037d301da20e8cd9836ca4b, -0x2423eea926f9b5195a0286ad47b8f3ee6d8e7abeeb7368c56ee1337c, 0xabf7d0a0fdaec6dfb8054a6d87be0e46b7b5cb15998c582b6f57772, 0x5e51640612de097ae67dd7a2fa632fcf5df10a77ef9be75bd3bdb22);
Dbl (0xd791b390522cd2b39872428e6fb0e2b28ca3960d68d4ae73cf6a8c63, 0x393ab850d22dfc6254f8083b8901d37ac3ba0c63b52529327ecdd211, 0xb5860e89517784f794f78d4a1764719bdac92b64aeb3ee02acee571f, -0x58a7d1ea6c1598f432e15382f42011cb4469275c491bad13a24e3c47);
Dbl (0xa1f4bbd96a3d32b7ff7037a3eacd155e2308742caebe69152c9fb180, 0x3a0f358282952a17b8f081bf978074f085b07486ce2f5825cab86100, 0x6675be3e17ead84ecdf99ba4d09a66521a053a8ca1bdb68eba9c04ac, 0x38e37e42c9c1828fee57c4f80e270f2a779612a10e0a14e2ab652113);
Dbl (0x869c31b5614eebace455ccc39351ea605c3cede8da1788d030b37a58, 0xed6a73f9ac191b3deeab6abb9f2bf2c868f0729d89cc00526bbafa00, 0x46c7e356809426ab2e8e73bf81a6c1945543852fa86640ff365fd746, -0x28cfb849e00734b7a2692faa3416eb3ed6c6b48c81842b1c4ea48261);
Plus (0x99d6e4739cc83a7c851cb19619b8de1d057258a6074500ea926cd417, -0x20d50263e338e4828de20dd2e3782c987e675faeb8fdf579a391ac53, 0x5c729174ee8f98258361d51c37f48365141f6945a360d4ac34dec4b1, 0x1996766102a010b48cfbe4d248dfa31724e96a965c574011d498380);
Dbl (0x9ca965acd7f75f9534197f51aa06d2d395971946bb9b2559c29dba3e, -0xa849ccd159cb7a53cf3cbc57a54fea4da14505a5c9733c303e87682c, 0x5fdee4020dcc783626837a05f4e1c4898d26a77651559486664cad58, 0xddad3d20b98d971c12a3fe171549d1153cf8b5a84d866ab531739eb);
Dbl (0x1820c791174019b70df9e7ec1cd3083e0a47ba32efa544deb0fc37c4, -0x5ef0e03506c486eac869a0ff3d8652a7320576b6288ec0a6b03901d8, 0x246299db434b939c116a7ba5eb7bcd69de52acfeaf069aeb1cee491, -0xce2929aa8f3d656d43ae9c35dff47aac93819e506ccc874ba261f6c);
Minus (0x5e6ae764ef9eec8fe597556ea03a4c4bf2f68c2cc87c3ecbe9bd48e5, 0x4561f073fe0aa28d6560772b38d66496114a0a5c96138a8ef4b6b423, 0x22d2ae9290b675927723e53002997c68aec712a804c9182a149198c8, -0x1b3e0ca1f2c34327083a6cbc274816895d83162ac806cb823cd54977);
Dbl (0xc7e0c53f6cfc81cb7caa0e6a21c1aa3f1cb3dfaf4db63976d8bf68df, -0x1e6d3df195483be0117c50915fe95948e3db1e1a913bdce5acf2651ad, 0x9c0f38026269f920f25ba29acbb43a20fcc5abf80e0d4dd4239f4d44, 0x8bde639130463b345fa4a5c7a88cdd7e63b257bb2142919982cbb293);
Dbl (0xf7b3c5e826e654cf1ec2219530a5bc1db3a8cf1d102a21dd5b49bbba, 0x85be4276f9c67bd87bec2505fbe941f731b44bbae29413e0f5e42b99, 0xefac662456b5fc274ce94d715f73ce9c6c56920150ab0f5829992296, -0xe9a56fc244420a4ca38e79ecdde42f7bd74abf0c6b5a8f66696df88);
Dbl (0xa528326b6b7acbffc04337b1c45342f6bf0ac2acb11c9fb239e73475, 0x51145e1dce14cd46c724307efb169c173d47e3708af7122b87ab6050, 0x6a8cd74e440c04666b390b20659db8ac83506f3b73ebc5b6e236f018, -0x30bc273a2806b98b15030524639d4f03c563ec80135573eda9dd076b);
Plus (0x8d0000aa009700d95ea6e2b172ad7cd5fd94a35dcfbc8dcc600d256, -0xe8be47d68dfec76c09ec0a5dabb95d927ba9cb619d444ce1ea2f6d, 0x4da900bb44a6c7d43ad14f7b2e6690a10f001cece5e35f1117f94c, -0x4649ea886948b61cd3052fd3addec5f93b2f4bf8e7246ee6244427);
Dbl (0xd1f75771c041c6befcfb0ac8faabe99fca76d1d7830c1d6bfb6054f6, -0x7d7a8c508927736f5bd0bc10390e1c8ea6d1422488f562fe702b70b7, 0xac35cbc1974ae8a95d28139df2d5907ba4e0d1d47cd9b8a69ef7dcaf, 0x281553de29e03f493cdbcb693cc3ba033655f19d66a52c04b27300a9);
Dbl (0xb49879f1103e354fbcabaf97239746dc691c6da6400847ce2aea5aa, -0x6ab6ed016afa426996852c391dfdecf1320c327b5a9b07f6b3415e1b, 0x7f66c64c07308931d48f11106a136f9122bc497f49e07974d6a5d2, -0x4ed7466407910f47abaca72afe2eb0d667bce8b0ff47c30df99a40c);
Minus (0x5f1f345d841f7286982656824651ac687095dbaf19ac9a934afef83, 0x20ef5b1a794ba4d08ad58837c7ea459ad2d81ea60c3f127e411a6af, 0x23582cab216b7673ab15a30f7f79f5ba9de9940427740926591b4b, 0x15db23a06e5cdd013bba8a13741fb40be899a898203f29f212d7ffe);
Dbl (0x2a9eb3a11bfdc21ba18a3de9e83c490a18948924a27458ec266c0c64, -0x1c313a685942ab52a0429016afa308fe22c86c0475b5c76c39e4baaa8, 0x718755316188375c0cd1018c143c57a98bf8fd5d0f693382ac9f23d, 0x2684ef1e8dad86efee393121bf5090b1d123f2cae46a70374168356);
Dbl (0x62205859bae6c9ef6fc300c23d84c44c788989a9155bf1143dcd9777, -0x17a73f0f44d182f53baae401acae7b811c4feb308863b3db6c80a70f9, 0x259cc7bae8053c3ff52e702615b325c7612f161e08e02eecbc88af8b, 0x18cdbec416d3fb8e72ea52a7a10235f56f158fdd9ed76a34b5cbed41);
Dbl (0xe009e4b58c9d85ee096c789d6d73f8e6196db6c436a038dc6173f4e8, -0x2940aeae3abdad180b4978bd0b1101465201185747f35e7348d82480, 0xc411509f972b70acb5c68b806b2f0565e2315b97a5bdb90b7a983938, -0x4a41c7ef9b5e731ad09b6392ffdef2b9df55c58955bc7bc213c4af18);
Minus (0xf54e65b808bc455db5becc988b9ff0ff1fb1412487041b0bd47848c, 0x92bdbc0330dd0ddd1523b9817394ce8f5f2b5e994f3e032ad758c63, 0xeb0f26b465486ab0c0a5eaca47b6358088eda40aa717bfcd67de4c, -0x4c7806fe0202bcad69a55c14d5d455f8e254cd3d27f97bad6c29337);
Dbl (0x1dcaf4f68cb09c09f9c46a15266f98743d7e3345493dc7ec3913ed12, -0x1f9527c675a15fb7507f03901b58f58ec0f76744a9d2ad16a3624f80c, 0x3779c675b5cf3b3dc8535cc79cc8d756a5e08fa9610a15149b54f57, 0xf72bd7f8062b6953cceb4073681c75274e61b45bb51e2f4c3417da8);
Dbl (0x652c15a61a03e4c9e2204d5ab049e8002c51421a84b94144d3de5213, -0x2639561629ae6e5774af224743131bdcbea5c6c9d2e2c67fcfbf6c09, 0x27fbd0ac8374afe8550dd796dffe3377471f7585f3b04a2be1ed49d4, -0x10113cb002a52442fcc134c7347d0160c722e5e3149be85e85f53275);
Dbl (0x3ae6449aa8391fe9564f0e394b406702ef9f3bc63681867a3f9fb881, -0x50678b4ba952bc45404c7dd7981b399a22639619bc2013442a10061b, 0xd8d26356c82afe83e9c49b6d6e27cc414cb3c68b0e5cddc30558bcc, 0x3c6d536ec9a036c466f28f7e90d2e857a5c867aa9fb4a45f92c5e43);
Dbl (0x3d99345028921e16a97b0f5a89b9e25d9243947c5b40a6234ff6acdd, -0x700f169d365401d2faf9cb8818ed7b7fe1c56abca1b3699218697b31, 0xed25e9dc5d6ca9381d53a3ad55aad7efaf3477997e580bff42b0989, 0x18b1f468632ae9390f0c7a6a9ee0e990c69dea887d7c21fa999183a0);
Plus (0xb051c15e481e520ee3ba3888db90782b7a4c13a0315ba3d5118763fa, -0x79dfd9b9133f20f49308fd473d1e46d6efd0ac22ff2b8dbd144ece92, 0x797083fd92e29f7b28dbf1a1b065206c21b42a434d351191515b1d9a, 0x7ee956523dfb6e1a6744ff05f952b5fc3bc0202295a69f46b4d118cf);
Dbl (0x85697197d5e9b3fb538920b4e78d9d523510761731ea4322fd49c5b2, 0x2c1b0f9307218ff0d4b01e236e9b5ac7f73ec0351e11e10c2676131c, 0x4586bb762539b39f264bef8dbead0f0fe70946d2b428fa8d900e1a3f, -0x6f6adc75fc0294a0fdd4d3fcdee2478e40eec0504628eaa5529842da);
Dbl (0x1eb773cf47749776d48c9227648955e35bc691ff252f7b5dca8d180d, -0x2074c82ee9da9502cd6834e4844a206211cdaa0ba02ddfe19ac329e3b, 0x3af829b5b7b5e37c8486979bdb9aaded1c488856bb4b6d2cbfbe642, 0xf5b647ea7d38c2db24f09d31308fef576e70c2605cdc455f12e074);
Dbl (0xf626c859ffcb32b5cc4e3d794ee48f449b5332a94c4ee390e8861336, -0x888311703383bbe154c064ba198fcb05b5d0e06ae61f6cb96df2a88f, 0xecae8eed0f1f3519ccbac75155786046a0ea6099fdbedefa4cf769a4, 0x58515ea978ec6d4b5883b6700e80c990169bd30cf0a2b2bd3681fc27);
Dbl (0x2fe735d112480956a1abcdcb0f8cd42b0a186563f96165492ac0fac4, -0x4fec406e455e9f8f9a868dc4933e7a72ae6e22884b3deda61ca739f4, 0x8f6b694ef55adbf58802d9881b62e51d1961270013e340b96c8eda4, 0xf326cf4d4587d1cd395a967c0442e7a4b3ab6676a6852e4692988e5);
Dbl (0xbefe31663583783b197bfca128e8566e5b6b39da72b1719402f41369, 0xb0a4a7079b3efd2b99e3322e2fb59253b8ccb6bb5a613d42d066fe3c, 0x8e7e4db9c7c9a0a55314bf2f0b89f0752352bf2ffe665717cb063496, -0x59d8266f801a1ead22a2079eb6d884aa37644ab31100b74a2680eff9);
Dbl (0xdeadcb0f255aae0d22d21671c2a7ca080743227c6540841494a92e91, 0x6e91fa554ca8d068167b79a0eefa4091a1c79278f17d5394e9d21b01, 0xc1b1e22a5852c8913c4200118b36376eb45b6deaf607b03f34c51780, 0x4cee343e33e7ed2501aef98b345b7aac78f8d0abf423a4b7420c4277);
Dbl (0xe8c827c5da1886f041388ad13987299fca89369fea18690936ea64b5, 0x12ae5c67b65033d65fa986899bc588c7af5bc495cb8b49805290f2e6b, 0xd3ab6494c69f1c432a470dc27dc130f44aa3f8c74debd9a76d91e18c, 0x115e6112b985118fa2b68f8771b7d6d95658542f7cec0234c27723d5);
Dbl (0x52349a364999da7df617ceacb4ef1e79e672d3ba08168333861686f5, 0x70eb175b1c2dbeb460007ad12905e5c26ffad655c2ca153476e63d95, 0x1a65bd99ca19d289b1c40e5dcc2a2ca4d42314672a1ba42ee95476a0, 0x54f96f74355d5d4304a1229f2aa9563a70c0708524ff1dfbd2c7591);
Dbl (0xed5a244ce57e95a44088415e6897a14703efc0fc936c1f0f2379ca33, 0x1619c5ec13a6e964e0f799488a3edc40bbeac2f40b0782a7d3c6719f, 0xdc1006f3ec2375b801f46ad2e7ef90483d9ab6e42b719b7b7cf1343b, -0x1f773c14da5ab946d40c33b17b6a163b64df40465e10210c554e05ee);
Dbl (0x9b21a45cdcb6f8e3478073847534103013dac53ebe877df7d33e9159, 0xc23ef6767112619a3391a1c15a037c09a8874f6c4e98be391940fccc, 0x5e01c1743cbd950933df10859e6f95e601f7679cf8a1cf5f924af6b2, 0x130e86d7bc0340c0dc199b291dcbe390b4c9c0c1d5fb3e151d947efd);
Dbl (0x2d218bf6b594bc917c7d7942b892a9a10f2cd5a8c57b42bdf9352f53, -0xc46ed2c1f72edfb035802bfad2a9de37b3000a445d990935506bbab, 0x7f4cf9a1df6f194c2b242d68812062f73da89c6ed7e462e29f202a9, -0x17a33e30b0f1569f2d091cc71d1ccda09c0bcfa0681dedbcf7c550f8);
Dbl (0xe84553bef469971ccecc53c2dfff4afb6899d708fd6533a8b87b8f03, 0x4d1fd5bc4912ad4755cbdaad898ab224fded68ef42949c970ef360fa, 0xd2bdba905b5483bbda6c426e0bb24c854219a2cf6254e57c0c17720c, 0x2321b51f7f170fd4e0f8cfc0475820b7f7380a20c74544f9703c6678);
Dbl (0x9086cac77c6b59ad641f57d53362c40630992ff096367af5a160d6cf, -0x18bd404f5055adf9926dabfe4a4d27410b78db659687a1eb2c389a83, 0x5197eb19556e7111070b4d16fbb1fed228a5d36b169f3aa837696985, 0x16e73e9e1cb48201fc9fa764dc0a6710b08d2dd4c0a33551881a04b2);
Dbl (0x3ddf45c968e7e4a9e4b4e3b2a9863fa4c0f68e6d0bf3d1b1f18c9955, -0x2b8d68a50823daf1fbd42ad36faaf9e14cf24085a4162df3053629ea, 0xef429fca3e977fc3f608b92fd85f7be07050766ee155fcb34f0e905, -0x5965fc96624e03bad2448f9b56a67a3a0392561d226c72f3ee10d1d);
Dbl (0xc391ad8c32b91375fd0754f2c51794a27a7305fb8a68117df26b70ec, 0xbb3ddd6ac205cfd85933015891b496b2869a568848f16545f36ece80, 0x95674149a3be32a373e96027f4f384c74c8d5c0aed0156a42f47743b, -0x4ec955401d6e93e03d2fd24cd589077de50fb80ecb99d3b75db7fd6d);
Dbl (0xf47058420600c237899da160b8a0020bbfc543afd050dc5b7b3bf882, -0x1147a641c28ace11b7cca5508a5fab782a72ce2f9b06bc154195b3da3, 0xe966598b33a4280b6cfb41e81697e0e540b47ecc2000a2c6120f84d4, -0x2ef50002f1e31f128e880477c234b3d9160c8f86fb2cbb874be5d38);
Dbl (0x5ac01852201295e4afaa5efba28fab6b5d63f1aa1be9ed597c8e0895, -0x23dad865f7d40c798ec6fb638cfcc8907bb43ddc134b3cd86e0722ac6, 0x202ba13e3c0cada1ae92d89a7a8c3031a97f8fe2bdb9965027b1dfea, 0x435a57ee6f707e48678a781f1f3fd05b5d93c48d415b42e2d1c1e748);
Dbl (0x623cba1f9d53bad6899d40d8301a77a1133d712977a1f9710c2f6aed, 0x59ebd7156f16f91ec80afd58137d7f27c1566c527aba01c99bf87a31, 0x25b28ce7fa97ced0fc63b5d794bf3b8598c6ffa4bf8fcbcf3c2eabaa, 0xc37b38f2990562ef053476cb70a325a78f3412fdca6b43b80ad7f45);
Dbl (0x6634c82c800f8bc34fbeb5e98c65766d1c5035bb7e8c7f944a89fa4f, 0x5f989d255deee8307bbc511259509e432809450386b25bf1ed3b7f2f, 0x28ce1a6564a5f984faad22e2657d131c677e8a1207685652afbd3b50, -0x409b525585ac9f0e7d76f729df0b7be2f27e4b1c8b2475a38b3fbc0c);
Dbl (0x19ae966d75053743f9b737ea9dc2901deab7d50c6207e1c61646ced9, -0x11cbe019f17fe55c2f9da2e7c1484e7923b875ba216468ce7ee9e193d, 0x2939072360a8bd15fdfbb20882284ea1ff6c5dfe234e9fe718daae3, -0x19c18cfc0ab7c2705759d195d0d3c03ad4c3f4a9810c39d2d0035f3);
Dbl (0x8fdadafc0cd6ddc6b5e97fad42bd147259d9323db31a7b6f592fcc03, -0xea7dd76f80cce7351e4b80bae5fd79eac761c44496b1a756511f971a, 0x50d63bbf46f027bcef08947afe321050bf08a4fc8f2c79f035963165, 0x446c4ac6f2fb395c78303a3e250e1dd6fc7acaaecd712fea56eba978);
Dbl (0x4a08447b0ab1bb9cd472e3f2bddb496ce9af6c3f4625bbcc46fe1ea9, 0x6031463bf6d910962877ac81b9012f98d7013add47fc25137046d096, 0x1568c7db7c3104641787aa94fd63e3681f7b09a0bd95f3f341cf9a42, -0x247a25ea9847d6b14214ffd7be09261276be81a712eac9615c635d07);
Dbl (0x169dd51be32016cf9542d883af44468d813c704d620e9259b3bc6a21, -0x1686fe4a81878ad15c4f8364d13c02c2b0df37e1e718841ceca8064ad, 0x1ff81efe0a58444c080bbd8c4abb5f751abd11a498b7aadb8242a24, -0x2bdf6f9c025a4acfd08b98a6797f1120fc067510ca5d45110354728);
Dbl (0xc9689f24b189dc35dffabbd17b06234c81022195291934a7e8f4339f, -0xd4943b13ea7143624c70c5595930c0c076229dab74819ad6aefd647d, 0x9e7574a94f89559b2eee7ec7f005b889313de297d4cd84ee872ac17e, 0x67839ec7a34c0d2061eeef2669c3c8f2878e68158d3cee453e704b2c);
Dbl (0xccac5b4639214eae95c014f8499738d932b874a8b3c9faee06ca6bbf, -0xfb26cbece894a50f08074c7dd40c2522cfa08980e505567b38e2aad, 0xa3a32582b1f4da08f22a5ad776c0e1153c14e9d28da63c640c6b8ce6, 0x41d99b9f84ca678563c7b5cc3c9cf004c06b2202fbe0012420280041);
Dbl (0x9446fcd3fba91ab92c5a7d473b2d16280c40773df16e2cae71360d7c, 0x62a6973624adebee80a99aa0fdb1d0db895616724c417f56af91b681, 0x55e22804589b2e5e755089038b6f62495603ea433a5a6d94511168d2, -0x8a4968b5c03661dd05847f5161817e20f661967852e7f449c3985fa7);
Dbl (0xfb5dcd0465ffb89fcceeb27faa3094051954f2b9b5ba26f0e290f1ec, -0x18f41bf2272ae1a60a18463dae7dafa6e7e71c652a3edd4c8b2a127a8, 0xf6d1126539659b44664871c82507aad455bbb2455b066c8a4f23687c, 0xafbdc64700c1b8492806eb08b28df908b52b098a63aa11bd43be21d8);
Dbl (0xceae06ab283381b01627fe45dec0754626ad9fe5991346d52b1a7905, -0x28496e2323c83e244d92c7d95177de95286e1f102f9b1efffbe5726e, 0xa6dc8908858a030cd43a20c18799c4fcd8d5ccbb0ae6c694909518b9, -0x68025772e357aa457f6470666078122fbbba3cc288c07b0e9fef6ae6);
Dbl (0x2956f91b35b77d592f4d79c3f90b0a6968e87de6813539545e4306c9, -0x1a404b5d2a8635be9f5cbd89e1e90e2a794c56c729bd5fa18423f1bae, 0x6acf95707e2ced21ae4054ea71fb30195d46a91bb73f6448ad3dd41, -0x27b1ddee4cad6df97c76d0eade84fd92bd7cd4bf370b6dbb8ae3989);
Dbl (0x9280b3a53863fa90a7045ea725cb6d4b44bc12016d8473f88e49b0df, -0x13356dc71992efe21edbd3bdca774e8878fd9e19cd7be5f6bd6273b30, 0x53d70d9c979ae5451cdb2d07c0738523894d4655b618f9d4c0a8091b, 0x2adef3ad49dc396448be9690e5317042d4b54fd5d004a247adfbd7ad);
Dbl (0x7230d1b298e4d1ea9929d8841ea7688de994184bfb4c630a23d179f9, -0xbb1bb7078fb8fdf0255cdedd10c618ae8374b7fb834bc1a35ad0809a, 0x32ef84125eea3b0240a832a75a74d266d22c977e8cec0ad222256eff, 0x2f290e7dc689b37f3eb4be6bb1822cb246e7f5d4915a8939a24f1027);
Dbl (0x6621339691a8add383888cc6bd87471e9017afdfed791561f9f7daef, 0xa00ac435e2591901f732f776145a5de8c6d96fb763d2e7d52bc5d284, 0x28be796a53494e99972737b76d05b3313e0f404895cf54d8da95c431, -0x3bdb18f14ef6e5ef2fa21bf0b2105bb7d4286c858363b5d4bb54a6a2);
Dbl (0x6f302f738fd0384f9e93d71bf11c44d999de647bad7dd8e905a0ed1d, -0xcc26e10fb7b9540868b601bb93da5539692e44a346fcde25164fb620, 0x304ad2380ad821e323e9c802284e3ca43a1183063b0fcedf4dd1143a, 0x43f296bd0ae73751e8edb1aa964f1f61ab6ce788251cbb54c9f16ff6);
Dbl (0x3604bb0509069041d82eaac04aa6323526ab550ea3bb4bb7f3ddfda0, 0x61f058d3e065e2449da00995b201b6edfa88954c977a3d2f83bc5361, 0xb65fefc809768593a95bc34ca5b99473a6e1b67eb8b3a1bf6f4e869, -0x1b3645139507d1510387e905cd253a2082e5fc08304fb0f2fb9190f4);
Dbl (0xcf4aaf18f20d9f2c1b68f568128fd561b15680118e06f6739db9cc1, -0xf35047fa232049fe993ad48d1eef5828ee53482f13185b0982294085, 0xa7d9dcf409a114a640dd7cf3c2a6ad66f97cbf8da0936c8d3c8e84, 0x75146aa792c6e994a0c6725e32a63f0df8cdeb71b062eb0f3253c4f);
Dbl (0x2ecc285ac8056e6e2d0990adade764a61d2e11d0241995500cc9b1b0, 0x59c46c6f33781bf246162ffda0cdc3ed507da0e9ba86c13c97286e79, 0x88e0150f6ed3b0a8a63c7714d8be3f8ac5e09f8713418a706dc2803, -0x1e8e47a2c8cde1bcdedfb073a822f9caf542295ddaff328ee63b498d);
Dbl (0xd931af3951af609d584e0f5f31b786499b4939db392c07febadbfe55, -0xcbad16bab4077da024baf4b318b729bbb03d2f267199a9cf2bc33659, 0xb84544b3b85c0170fc30bc061df7abaa7a1a2382ae63570e616e1959, 0x621146ab3c85684835c82b7cb2ea3f8bec08b7dd65f2d9edcb6221d2);
Dbl (0x43e5d0c9fa4420e1284941a3af8157520c69ebecab3e46fa03d2e5dc, -0x123f584110f4e197fb86f60500daf155beb679af7477c862c8ad657c, 0x12021998eca23d2256fb10cca8ee4c8fab8d3c58b6ce8bb5fdd6b01a, 0x36fbc6370845476949b34921929939475de7e44d38df2b24afb3ee0);
Dbl (0x8504c8723a9145df4c467d939f30e0b84daf4bd3f8fb808065c61ec5, 0x125dea4e9f6a9b427ca146e3772ae70cf22e4355cc522f7f76b33f64, 0x451df85d915f759f6830e8d6cb9abde1cbb973f60b0fb5da785ede9c, -0x413bb2b5fabac3d42d6688272bcbf4a350d8f9d5bebb7212c9e29c95);
Dbl (0xdc6527a9b6b9c521adf700c28582131f7613c265bf11a78032e9b00f, -0xc423fb2575320d6220d1ab58c3743ef3138ea7a9fb883d373774a6cb, 0xbdbe0424041e9f96cd5702c84724ad43376139648c24e3d76ed60e18, 0x721ae97daf21b085b7e1250895dfc3adf0e50a226eea6f17bb95d58);
Dbl (0x7b83a2e83e5d1e1c896f686c7066a643cdfe692eae794dacc1f83174, -0x6cb495d34dca598823cf2a393da9f8776d06bff658bbfd22cc4aaedf, 0x3b97c23b4d480fdb2f59a47be3ecb48bd1ae8a7bef13a35a6805fdd8, 0x3e0c0cdf1601d6536a02bb96446c1f841379dd0bd2dc2b921a76a695);
Dbl (0x7922135e2af2f73ff5f79892931f86a42d2fc14d4128794386832a5a, 0x7800e0cc20f4c73f694ef1d2b6065f7287ec91a85ee27f704205c790, 0x39513ad82b143347c5d71533d8eb71ed0176ae04a5cfccaef7c918de, -0x57344e1e2966efbbf8c02c389f9c4c8dacd9b0523bf7c1fa4cfd577e);
Dbl (0xef8b853c52edecd3555dc90ddc649488c9f6e78953886ef031fa139b, -0x168a04bf6932cb71b3176dc67936ba618b73c059e67142111e3de3602, 0xe025ced097b20af3f95bb3db6a82405e6bbefedf5e0f8c5e69e93dd7, 0xad4d49c0768886e84b8f1292c4788a3870f0b30e6ec8b34a5e2dcacb);
Dbl (0x3dd27d2d13fb3a70d7559d683c7b5589ee90a7705ceec6d4c143dcb0, 0x151a0079296a2db57b3e767afa1b823e720443268465098f6a35dba4, 0xeedfcb916af8f7906b414a7a23b6d61d59fe4c56529d443c6804dfb, -0x30e264a10c54ab1f02f69fd495c0894a833547965f170d1ddb021a0c);
Dbl (0xdf3903868712dbfddab818f3bf186fe7855eda8cdff024a04e9fb894, -0x19df3d5b8eaee769170d1541410a167d3ffe52a50b8271676f3ec4c97, 0xc2a460d6f1476f865a4347be7634bda36aec47930c8f38bfbaa633cf, 0xac292330e2c2f95757a6fc602330b6cc91e6bcd579f052c759b14efc);
Dbl (0xcfae6c811d4c3dfe298c6b467cdeb338f60f13cdfc2abe96d88a2b8e, 0x173c2364da96f93afe4b4d855d5c5f17a32bbbb6a983f81321e1ed81, 0xa87b8a507ae251bc2b30da529f1f12c88daae52410a9e332bc09b94e, -0x5f5899cc551fd9979384d0cd02941c02e08916a46341e5cedc80f53f);
Dbl (0xcabb60e930ca6868fb1175fc612a1aded8658d245693a6e0443e24bf, -0xd2b2b52c00cf518448790fa0b956ca9f9f8988c294a925925a5c1546, 0xa08c3e16ba5c6d7bdda3ac4b14baaf0b5cddbe2087ba481fdb15a67a, 0x477f65aa48ef75d0618060788e75ff2da980a99e87a92693ddc3d34f);
Dbl (0xe2198316c6adee2426d4e46879cf134dc59c7ec8eb2e8b4440862006, 0xe18ded4d106c61e7c7263bfab727f5c4152bbcffe87e693047b5545d, 0xc7b10dff145e37cd196ee95d4848a1830f892a7d6f0e37765ea6d121, -0x5c19c2f2cb5f187b58d89f493b0cb6e42e0ac0f97c5fee729b524ef7);
Dbl (0x31623c4f8db65b09698aca045897ac511a9cb8ed1cc88e8852a0a0d0, -0xe080620266830c599a9291096bb6489ee0223cdc95aa36b0be03327f, 0x986c0c8af5db19d8d46eb0e779d418e0b54390aa48d23e11c121003, 0x452493ba760d94db9887c46d96b5112a1cf99ea99b62313eeeb62a9);
Dbl (0xcdb80ac00dc6b327761d47238dc123710fcb12434c6fd8960cd532f1, 0x8d29279a2c472e6a58beed651b35a04f140a2602df2679c77b8c25fb, 0xa55045870a9799b6ecae46dc4a0678938a973859269a871708aba080, 0x44551e823d54df55b90a7a2b59c0427fadb87d8fc3acb8f36204e515);
Dbl (0xcdddcd1da669ce7c1fd33498131d7448e30f97a7bf054cfddc6de00a, -0x52b57c14b9040506a01f14d7225e235bbccf54f04f62a7c004f421f, 0xa58cfaad460f4755e2202b7fd6e7a90621267e03520886b8f0b13aed, -0x8598dd1ad7a4506ed95b8db6dc0e0763db2c8ebf568a12783cfc7fd7);
Dbl (0x2e89958b9f4e45bd60c071492da86dc099dc519743716e8e15939483, -0x216acdc237882cdd6a2124f852e46a504961877acd5755dd8b6054511, 0x875bbaf940c766e32c73786722b3e920131e6a694db71071ccca232, 0x1064f22df5a0cb2fec85f882e0f5f6af9c37de368ac286998734a550);
Dbl (0xc835b51a492aa93abc288f5b4c60458141f3af6121f345e0c554ed01, -0x310ecf69797c527ea19ef617d58906c05ada7ce09defb38b49b58039, 0x9c93f63d8f53223f1d3212690c8bbdfad9e006ddd12a4f56b98db3f8, -0x961ce3289c294a758d9d639a8f9c4c384b99f1cdd0264284e82ff5c);
Dbl (0x60cc681e00deb6c7d8f78418298ee1b1bca420081644de3087bf3a6f, -0x8403b238248c66fe0d4955b6befdb2bb30f1827e9fee0dd5412f35e5, 0x2499f14c9ad0d04259f1666e20210e36e8097736d44e3b4ea4c0d1b3, -0x124d99a2cb29fbb12698c404912c3ba7e903644c97e81ae30c8637a6);
Dbl (0xe539d1b4d7283439fd4e5e1157ad87a619c4098c069af3b0da80a409, -0x113049414a9b0bc9b514584b5ea08391166ed63f7e65e7265737f2698, 0xcd407e3c973e8465eba5b060daa2800b5a05f75dc17099d67b9789b0, 0x3228c6767b1a6acff534df529229333ee5a956ec8d743202c7c4fe58);
Dbl (0xd15563143d24b489254126f07a524f0ece3c4b14f600aad9c61a577, -0xda6a49fec7996469a904cb50b81191d6dec6c248476c9c91bc74c955, 0xab2c8841fd9f320bd1dfea635b5c60ab846c94853634c06bbc20f9, -0x5343e6fc47350fd617dfe2ef9a820bb623a66d4fefd099db4b9c65);
Dbl (0x9bfd84c7665c74378d40ebbfaefedca934c25b81451ee95ebcbe67c1, -0x2b53c44be31509bf764fb6a2864f64232b7b09eb08ab8a6ef2b0fb9e, 0x5f0cf9d92cf284589f5d95d4a6145a04f6d3a69154984e6483c7c903, -0x257babe958b9596dc4796c2b5b17d396416980e487c3b09fb89095c5);
Dbl (0xf9799d556c89f4dfbf2ba60b154861daafd1f288910aad0e9e11a1b3, -0x8f2e84cacbedd7f479ce2c0e471615aff8741f9d169797d6081a6320, 0xf31dcdd64896dc6735615e49cd898109b7fc40454060a73fa124e97f, 0x84140fd219b69f43e85f9924ebb6036b39868d351f0422a91352d198);
Dbl (0x72516a5e3636bc5f50bd0676e8b7ac4e36b51eb02471f67a424684e5, 0x9ff3017d877812b8b82a7452dc63a76b7ed3699fc6bf52f4c9a8f7f8, 0x330c9ca0641935f947e5d9680b9002473f63088981016bf75b107b43, -0x11d2a002228909b56916efa3cb6064dc426e9b465f2c63059c501f47);
Dbl (0x80abfc6f5194551fdc352805e1b853b2ab0ca0954ffaccbacb063487, 0x101cb5eb13a1312d4608a9923a2877c3b81f5410593eb30f6622e2b2, 0x40ac6ffa8736aa4d74fd1603a8f6966b7ce01c61a63fa8a795179384, -0x350dbac000f6bf1e3c56947dccf3be9ffd165532a22f42f3545baef6);
Dbl (0xfd335435afc0d88bee2470cd81550e1522913aa256ee294b008ba9f3, -0x1068d010f3028e24edaf2cad412cf83c30a68683a66c2d79ccd4b6807, 0xfa6e7ebcc67a7973a913a1088148aeece3bde05fe2308a508c3872cd, 0x9cbbe8dfb9bf8a6d6776fce8ffc6f608a2edff607dafd6d6b34d5d55);
Dbl (0xd169bc697b09c25885048a7f926cee4ba2bc72e27f1e4b480c058386, 0x107ba4ed0a43f2fbe7cfce4781975e507658dea35623396c99527e854, 0xab4dd1505417f582746458fa0076f5c802f10580b97f31042569f1e4, -0x24d19f209b9d8266ce8bd3debef87e97f9a7724d08876b95fa7c8b8f);
Dbl (0x450e27d8bd8a964e333b342f5e5d239699721202c6f44a5da8aee842, -0x3d5ef2f58cd82fb0d116ecba31a219a7ee6056065bf1c90a97641534, 0x12a0a2433815316f382ae923980f68dd89176df885009b7d9813cd67, -0x22e36a123420de2ab7b813cea5cff4f0410372ac84a851a07dc598c6);
Dbl (0x307b9fde8717603f0719eeb552e37f02b1071d58400c49e1f910f0a0, -0x24cd5a875186cc25eb73c8bc4f41a5c7139f676d2d464d3941d56ddef, 0x92e97a67654c1cbbc9d6e36d1d22af37d4d2656a690cc6334a25383, 0x1008438c9ccd2f484a51c5ca176c35897e72de9e23bb5abce5ae5df1);
Dbl (0x29cdd5bd3907e20470a6584969c664b2150a9bae018d7d952d6dbeb0, -0xc1fc56d5021446896cf20d22fabfae1cedad21f325c76fe4f692729f, 0x6d393f69fc649c9c7a553982bf18dcb92389ae70b3602245f0b1f92, -0x107de2df18c3042877601cbbe4959547cc2aa5f48b4f8f36398d2902);
Dbl (0x121decdb3556e0501e2d54fbbf9bd38c20f7670f0a1df7181432ec70, -0x2c34eb8252e4b036f9a8ac6771ede13098f7befb1812ff11a8a59acc0, 0x14838ce584f334691b9cd4c851a3c96502027f89d28a7c3ba7f4fc6, 0x4ca9cd5cd0b4d0cc27b15689e917c2656965485f3c430f6235390ac);
Dbl (0xe4697bdcbecabd6eeb95098025f5dadc47623cbb31198746264fcfb6, 0x3c3c5efc0c94c4398c2b8970e28573973a72564bb85e14db281a0b94, 0xcbcc10180adb816c454e77f452f08377fa349335af77a5863230690f, -0x3d26308bc834c538e6332f9735259fe088df2efa2726c9e2ab41242d);
Dbl (0xadccd7523e54823bba4503ef5a5a159f794a0414f9b1e742b415e748, -0x21d17bbdc8aa75fe59c2e8584c59ea5b9a4ffb9c9a8970a0314ca4737, 0x75fe7eed086ccdd23902f16dae14b235324d41606272b81337e71542, 0x16e344bdab68b2d7ea509bb4b01ae2152da71361e7c9d7d7441c4f16);
Dbl (0xd3eb8f782c5b6e0a21c0be114017fe65c40739a2db53152c59100e19, -0x1838e3da0697dee5b1ec34ca36ecd7e42195ac7f6c68c6c747d6e3aea, 0xaf6e2740d027a1387c93badd4277a4f50dd2bdbbb172b6629a854c70, 0x88fbcc010f7a4a6e4645dce8d0d1b0d974532fe58ac60067005f5c85);
Dbl (0x31cddb627bf15a6c6d5615fcd2916b288a26d3073318989d2c01441c, 0xbb9090ade725535b0c226cb37752ea39d9bfffb685aabace69125e9, 0x9b07384cb2e8b1a65029ece90334dc477a4762fa2103d298bf287e3, -0x17fb6dcc284edff031e737358ae79f819c76ed629f0555028916540f);
Dbl (0x17db5404b1783632b18d00de880857d5a99b6f3abeea4c373a105fdf, -0x157cefc92d9437a2c316221e95e888a2fb8263217df2141eb32f193bf, 0x2392501b37e51f6c0fd86e682ad2a9e4142a65e4d114e51d1da3c09, -0x4cd65ce3ba85ed2bc72c252f8b2ba3501ccde82a6d972fed127c180);
Dbl (0x6ae9b4b0a61092808a97742703b4509b163f20d2d0999e924ca5e1d0, -0x21b796767f689e0e4d5633cb9fb712a6b5aa6c204f640f0fdc2b5e4dc, 0x2ca65efcb29ce6e931496696a151400692aa4bc490aad4026b14c549, -0x2135c6e556618179eb92840096dccaf4e6e82eac1cb58290c1da645);
Dbl (0x4a8cba9fd9356fe1722de7ad44c69c94a32692a7d090839e6ba45c62, -0x1e16e85ae6ab4bb07d1f190580f635248568c1b40f7098716a9676887, 0x15b5a94110752291e3d7a2efd2c3fe409e00d729ac05ffb60d167f7c, 0x3914af76d252d17d6a49a65309f0a086938e5af4d5c5e1c1f7e23d23);
Dbl (0x6c0a4601ba8ff39753d2eb2fb121b90b9ad7dcf443185d4d5d149df5, 0x6c2d4ffd298c559799a4271d726eb182247c734591a24c42e9b49dc6, 0x2d98ab7b00b0fad06cd8aada8e18fbfc88715972d06f2a8466040b3a, -0x5199941ed694476643da8d40f98181acbd0b1e2d1a3ef9fd720762c0);
Dbl (0x2bab853cd6531589db35da8ee7fa0b2dc0b6ff39d127f3dbf4df3653, -0x21f14fb5f4ead323b3844c7456dda72398c0714e7ad4bbcf169ffa59b, 0x77311adb49e816294914abc26e0ee58b064bb02a6767f32a3e38c0f, 0x2f73bc155bfe21de7d12ca522058d8cb6f47f523e1d466d9ec77492);
Dbl (0xd77c64c36c78c48f8fdc45188977a82447d97afe6008c86c0d7379d8, -0xe03ab443624e3e300d2e549a8fed53750ff6a91b10edb1f7b195a0d0, 0xb5622db2052d31145639135d651d74b78933d35b135255e2d6f02f5e, 0x11b6a531a6f7f7a5c0b4ebe7272dbb6d0b0cb93dfc9e2ec3ec941c3f);
Dbl (0xbf7486681a8365d9e630377bcbc8156cc60ddfc2158dff1a93f4d699, -0xa8d538208ff15e51699b2f44f79ac44023d3f7c586d9dd13646ad0cc, 0x8f2f15996c793f268f1660a42bd0f4eec9b316c081da70e59fee837c, 0x5b898687b98ee205e6093c5f8d74400c067ab18e587a46a5abe503cd);
Dbl (0xa1a6a1a9a911d38fd8b456a5a231a3ea595d69d4fbd117b15a5f5a31, 0x3e4d994e7abfe534c0f535b6eec97050a895dd48f173cd26de4b8951, 0x661303cd74c68652626cabed5bf6d7a737ee50c2502164ba90704e99, -0x378a47da19815852c352f768fa7cc8a74292733f396c3080f955be1e);
Dbl (0xa580ee0352aa54d772a1a7699c38bf2c51dc98c65bdff6b4c76e715b, -0x110540362febfc19474d5a58de05d6a51243a957796506c379a9902c6, 0x6aff73bf292c697251a729559fc1909f4fb3d3b68f8f37827be0c9b4, -0x1fdff10b63fe3458c7de41a55a305759abdce86b3e8deb3aa66e1e38);
Dbl (0xebaef9699ab414bf212dad1c14599afd666e41e5258302741cf784b5, -0x73ce2ec736e53eb9f60dca1b5f3f16bfdffe8269725b793ed4029913, 0xd8fab57fe0938565b04cf0e01420d55dcd01ae5388ae1e0acc9ff1e8, 0x745b22ac4a9c62a82ead22cc4c8be302c129cada0c7938c63b5dbd46);
Dbl (0x1e95b2e0155fb9dc4d2140f261422381bca416c3ee8cc8db998da30a, -0x21b83b2cc1ba351e32206991ca5cd728c4d3daf97895618f0b349917, 0x3a76d763ad7b2dc844a09013e8c471e9a76992cbc81673f411f3d56, 0x2f3b9140cdf424563c06b08a192f8369540058f6bf8d4c24f702300);
Dbl (0x59a857b18cffedcaab70c5a89f15cd75aad2b5a23f2d729944f704fc, 0x6410e69ef53a765c2b7a49ed3be2b77ab16f6fc433c5bfd260f02f80, 0x1f667bacab1d2c394064ec2ba65da9824bb19238e47820841945d9c7, -0xb4e98cbdf6c78a63c78d5c5bea88e97360387f8a5e2063809faaa5);
Dbl (0xbdf8c7a5ccf6091d376485676e838728e58aec88a29c3e05e1df4f19, 0x16f34eb4dc46e15ad63d8e159b2bb3c7862b7872c9f71d132a7567bb, 0x8cf9488e3d93962f27d1f680f550d49518e78a321332a41200261838, -0x11fd781e576483e5d56942975c18389c13bc06ca7dc25561c099aea6);
Dbl (0xc9b8802a8806b3d900768fa50136ec6e36f2bfb904488277315ef4bb, 0x7b035da5a8283988febf6563d3a41301c90d62686ad30f99947b28b3, 0x9ef33e3b46e89f24e8fdfaedcca94e59e612df40b4124537537e6e8e, -0x7687c1e66474fb372b81f3db77ce568d2572d63f69fca57908f7b335);
Dbl (0xc3cecc9535067bdabbdfe1d25f17ae3210efe1e20a964b6fd286dad6, -0x1869529d1769f14aacfc4e010cae8ea520540529d19041ed0fa3ade37, 0x95c4b2b932675a97a829e5d409eab15a64fb221010ddd6e62492091d, 0xac547586d217b5c1e9a0e5cac42b4c23102163ca3bfa4919121a7bc2);
Dbl (0xd947d089f6ff4300646ed31b5b2d606736b3ffd48dcda698121b08d2, 0x13d7cc866fd2931d91eaa14a31e607f1e1a8221f0254a864b409d1a49, 0xb86ad3af3b243ce6ece184485cc02f1f14d85738f0b95eddea929822, -0x7210ba33f519c6eed96833872393b96d3bbfaf65e1d9457a8c4faf06);
Dbl (0x116068c0f49881a4cd5339107c1b629c69ab2a781a8debe4f162d9a1, -0xcc5140b58d0b75628befeb82e386e1b968aa2d9b50e67255f96b27fc, 0x12df2385c110bc4d6aa7c02f4cdadd3eb84afa1b4ac7aa22300abd8, 0x8ff1c07454c4d9c86a409ec0767492d2b241d4d7abe584ebd1d0e94);
Dbl (0x94adf3b8fda9e02f9f3830e9a50499691c23b56c9f1ce092d83363d7, 0xe149fc5bcacf27dd325a55a6edd33042458def376412d5030edcebc7, 0x56599801355bfa0e2f9c0d11b420e119665c0b83a7a3d02f7660fc73, 0x2269d4d4739287be355207fa1b87b0e40324198b2e0570aa68adbb3);
Dbl (0xcebe3893e56644a2b582041f216878d2997fd7d79bd230c7ae2bc118, 0x1e7c6f3bc022d1464ad03a7feb48442f6b1d64a947212c1fbcd6db50, 0xa6f6b0660d3a2411bcaccd8b69e22ab6a07ee292a5d8443223d7a406, -0x419175e2dc770715ddbdca98cfc702e090250b547128768d4a4f4d75);
Dbl (0x68bb8be870cb538515df230875a1c7d04aabc8da3edf86e3a08a7a03, 0x624411e2a152b809f8a382ba3465c04bdab9484bf879a37416512b00, 0x2ad8eb128db03a71951fb1fe05dd7bad6df7637e5d92ba1d71442c7c, -0x22a3ab8c054c3f6a9bd9c1ab269da34fcac5b2dc91710a3b0d22d1a5);
Dbl (0xb054c53f4a0776b3da7ef0b4a5908d05763f638b14259f9c96a60995, -0x118481026dd49aa2c8c9b5b07dc9565b2fe509726c473feba531866eb, 0x7974ab490f4d4fb2343b79eaf2558a5febdcc8bb784fbba864ba4716, 0x3ee636c148c69bc07b03886b709095fb0ab147aaf59cefec11867089);
Dbl (0x61501bf382f322eb2d66f4e254514136c1fddec7fe711bacc7a5cead, 0x1c54f0884bd64586847a3e3e1ed295c4ab7126c5d66a068d72eb5be3, 0x24fdce40047b5dad3152225aa3cefbeff6aca6480e7e3bcc039613c0, -0x1106365d6485cc7b69045a0da99f4f59c139a4e5f5365964186c95ef);
Dbl (0xb38d4f1cfe4805028ab1dae8fff6dc2a3d94af42eb67c627cf5c8169, -0xaa72ba86c578169971683da534e7526cb140707366094b5e3574da27, 0x7deeeaa2c9fbba90222d2868f360eaa6d9fe9716d5609a917dd887bf, -0x3e902bc7c3d3a6e75acb024653a6c11684284fc5426e8045eb17886d);
Dbl (0x7da2520498fa781dae72b03c2ec59c67bf099d8d168552a2a246262c, -0x1e55c00926c1d02067d48f14811dd5d19b56f9003b1591f50c4e708e0, 0x3da7eb04657d28629a1df1a2cfd0fcf38166fdc7172e55d15193a8e7, 0x3832446d516aca1a7e2b90f79fb81311cf0dc03d5059ec5c4365b478);
Dbl (0xabe126ad1f0dd35a79cd2050ef9a5bef6f6d0290f26ed90c1c88172f, -0x603caf5107bf386ed6f799909050736ed4ff8ade0b09110e5a87fbd7, 0x73668fb049a4e8f37af5021f82616a18075c3e78a459c806efe42152, -0x3becc93b342a6bf21415cfd6c1d70c4e7078f79d76a09716a59bba52);
Dbl (0x770c953b059fb2ef49a841d248084709034d0ab4a4df34cb76565869, -0xb88a14ce79e53d6854c6e88f6eb273697c4060c3fecd430c73d48573, 0x375cb35b33c0c17abaeffb9e960b45447355af2921c02f6aa20008ba, -0x1490bda0be33bc9a185e87986c4cdceaf96f03ad3d87e1cdcc3de5e1);
Dbl (0x6f839c027a823acdd9881e8f83fddbbb7f10592c23390f0a07085c5c, -0x20e2556d7e296a755c6bb79711dfab6f3599f31fc4700be5e1c9a554f, 0x309364f32fd9559b8da4da71009f34ee8c1a32f38838c82576ef3ab5, 0x46a1dd893ede7d5a6605c96dd0051e937d0717b60b2a32dbb8bdca95);
Dbl (0xe0b0a9457519544b078827c12ccb07c0c2c052992ae410118eaf6f8f, 0x10243cfb391d1ee65a74dff93799c19f6e65f6cbe43802b1f72aff691, 0xc535a222bc5a1dcafadb4abab32e9fdf4e4e27f28bfad6477f02cc91, 0x37699a4ad991af9f11bec5a655c554fb386a0b958891725be8daaf5d);
Dbl (0xb8a213e4b81fcd57cd4b71feadeed6a87563909fe49a20262b32649b, 0xa5d09eb6f2366c24de93049f941d3ad057197444721f7e771df66904, 0x85296335f7b27f1b4fcacf5ad8c03b5cd36fcc498604bb304dd86101, -0x2575a22f1de93c172c2115fdc277bb08d94ce02d4534631254d7b477);
Dbl (0x65af0a44bdc33e27def8e37765267319c4f2ebf232e73ebe83a3d031, 0x2dd22e4ce45c8b9a80e848523c1ac7ce7f2cef1314b43c3380fbcd4a, 0x286395c94820f1430db13d0bb81b51f78384b9c2b9303b3734443ace, -0x144afc992b307b7331ec2c208cb711e492c5e4b74f357c2f51f134eb);
Dbl (0x9994afcf72f4969a2cc4afd55c5a915ddfff3adb19e193cf9f88a11, -0x7dfe3e319be53f3517254cf795366463ef3e9285589f72ee361ea309, 0x5c231081b8028e17ecd7f3f263eea6a30efe001e287b7459200dc7, 0x1c75b1cfd5ccca51bfe6f17a6b55cd38c3c35188d2dc205ccb2dfb1);
Dbl (0x3f60332407b045d6cbd44411f9b153a0bfe15ea631f8f769b4259781, 0x376d88134a85d381e5d648887cc22d092e84665d16b4cfda8d6b487e, 0xfb07d522105e6b67f0daf85a6be3863226f4048b147d2a32f5e220c, 0x88ee8e30225c87ba818b6b4173c1665fd87796855daea114b8813c1);
Dbl (0x830b3c4075e5d7b7cecf9dc93a3d26d2b4a3530c63896ae3600f71a2, 0x63d45b51895ac30be6d52ac395234b4a7d1fce7928686d0dc4f89605, 0x431480283461a4058dca2bb5e252d5eb0bed51c720a571ce3a3ffe54, -0x63fe3edef218a7df79939bc2e8ad6c3fe2b0f7f2eda930091c3660ff);
Dbl (0xea484da9529fcb68063d3ecc408fd112c23103686ba3725a694e9b32, -0x120fedf25bc61f64d551c7c3ab33726bc045c08e6b9327524eb9d4624, 0xd668426551d9e56ee7ed5e66be642418b5cc5fe9842dfc78a910cdf1, 0x78d613c52ec5a73284c10689f134ddc02844a8269fbe5a64d95cd9f3);
Dbl (0x99b5c0df8b962bacfae2bb2bf0c125fefcad56a6948fb85a43fdf5ff, 0xc6155e50890bd6b74c783a273a7050584a9b0e67dc3f122cf1349e0f, 0x5c4ac1958244f72443bdc38d70491a58fe72f1d885434de7993a5500, 0x50ed7ea6f8acdb09cffba971581d191146ba843c0839031ffdd6d8b);
Dbl (0x55e5c450bdd14d78ae55aa081d1f7d195a0b4e044dae27c5290da31, -0x48bde471f5c66c3f5ffd15332b5202a1898cca15457f1232f920fd07, 0x1cd262966d0c52066bdcb60f7faaabc61bf480d158d9251d907c2c, -0x126132b0270d7eb930dd9f25743bcd5bc4508df2a4ef5db1e6eff30);
Dbl (0x6185376a401f0860b4d7505a2cb7513903e649ac626847350bb10cc1, -0xd3a67515303e930c0615860c0cc9cc8eeec47003a1c5425ed61e2bc7, 0x2526395124fcf83e7ce3185b7c885013895c358769f24ed0a312fc2e, 0x13b5c5ab1f1ae86ef147da553ba0de46acd6e520b66a18ad4d71b4a0);
Dbl (0x7dc47f5ae0d976aff4eee47a9081323239d9ae101c9e6f36b2f4fcf4, 0x668673bda1da702c0d40d9e0fb747e4919ad670bca2b09c6b5094be9, 0x3dc97b320217f64034c7aa19256badfa8c4cfc23d8f26091954f4890, -0x2847141095ba7fb93eca3f58a579c2122b952965f864a4b2aabd9ef0);
Dbl (0x73cc4bedee74f7e7dfe6f2e31e59de4266c7df2958a7d91b7187c7ab, -0xc54a3f7da9d9b217c485543b03fd4d87b660413e265175cb43537b58, 0x34612f40ddf6680158a8e935c9b18238a65f30de542ad4e37952f2f3, -0x18d7cea6eebc7bb60d88e3870151d838c3d877c71fd93c5ff58fb45b);
Dbl (0xaee2f95f6438ff14980d5fa0cf37e8916db050a41701bd388544492a, -0x1013a091a228952d76181006095b4fa6cf2ea1afe25d9d2716892e4b8, 0x7779543aeb9523e4c8ce9aa6fd88ac7318f26298c63a04e135076f16, 0x83385e749e2c56e8eeab0836b53aabcde1df49cedc0f2ee0fa340531);
Dbl (0x17233f26c4db3bd601841f84c90ac3575a5beb415f8f41cf804adab8, 0xf71b17a049a5969262687a32d47c027ea6c7d3adf27a3bbb032dcc4, 0x2175a334b8d5375c0b3af7115a0de54c7ecdc72c05cecd2e42c43f2, -0x116c1e783b5bb22eac86764ca77c9494fd7a70ebae9c1be248f3858);
Plus (0xb8131546ff17d3c3462679ded976d837db62715d569cf3dac06bbdb2, 0x1c329e1f16d070f662226629b42e7882829d97e9222625cda872aa4b, 0x845b70023900d77c8bca0b49debb104c0a21669ebc76c474113e73d1, -0x68570e5e0d469dab731587dc48e5d6f228fb1ed3a2b894774d9ce518)]).
  - vm_compute. repeat split; discriminate.
  - vm_compute. reflexivity.
Qed.
Lemma domain : ecdsa_domain (cp secp224k1) (ca secp224k1) (cb secp224k1) (cg secp224k1) (cn secp224k1).
Proof. split; [exact good|]. split; [vm_compute; repeat split; discriminate|]. split; [discriminate|]. split; [exact prime_26959946667150639794667015087019640346510327083120074548994958668279|]. split; [reflexivity|exact order]. Qed.
Lemma no_root x : ~ (cp secp224k1 | x * x * x + ca secp224k1 * x + cb secp224k1).
Proof.
  intro D. apply (cube_ok 0xfffffffffffffffffffffffffffffffffffffffffffffffeffffe56d 5 mp mp_ok prime_26959946667150639794667015087019630673637144422540572481099315275117
    [0; -1; 0xfffffffffffffffffffffffffffffffffffffffffffffffeffffcd03; -1; 0xfffffffffffffffffffffffffffffffffffffffffffc9ca265238783; -1; 0xffffffada39aadcf2971d03cfbaeb5cbb8afb0774dc2d06b98658b7d; -0x1e526fd0d0fdb3532e9e1fee699db6baaf6cf5eede600949033b3b0d; 0x8fb2b46b847a26b565da857d5bd82ec2bf688fb38f610ebe84863510; -0x14c7e00f2851d2433723fe23ffa48a1069cda6b41a615f5585a748bc0; 0x538cd39cfc20d84ad397eb8daa872414c1d0958076c70469e8777027; -0x15bef811e8d71d0ee631d84b45c252921f0577043bf640ae912ecd53c; 0x2ac21543c91dce70f7311a6a01541ffd12d7106ce8917ac607aa43c7; -0x3419c5677b1d1bf562322a67f2eb864ea24ea2fdbbafebee85f5ed122; 0xfa28cdd9450fd44b4f67b308527214e7e947533b212db5ce17a8703b; -0x23ed31f7a8cd6ba3e583ad9218be00ec6f1576e2cdd99c18997c11c0f; 0xf2b27944a6a7498c2481e9b17a5f5c51b11167ac6ec4c9bd71fcd31; -0xfc37235ac610440e13dbc77d62507c88c82818799cbfdabea4af16ee; 0x93afa068cfbbbf5f0a364a6be7811fdb473090c149272fdccf402265; -0x76682cd63b2c87d33a935a083e4657210fb299915cbf94c63bbad6ef; 0x7f823eef2de4d197053c386808162ea78d5ead4c7d869726ff4ddd53; -0x28baf84edc4cf34c395ee6fc514f55078886ca33db0b3ab4abf922c12; 0xb5316517e2cd6a03757704fdc9b62528a5415bb5570cf739159a01b; -0x1b00c4c0aade143befe7f11194289b18e023cbba7b451fb71de71893a; 0x8e56c29b9848459caf35dfeae3c75137c67760b92b18d7789da6a7fe; -0x355348a29d9b921c2485903203f8c8068b4e087950d00924261aaf24; 0x6b8cae76078c4e7e915294ecec4b09bb81de5045319e99868eeb7b78; -0x1a4929cb84ceeff34c4fd7244a39c09f5e757441223fa33e78cc606; 0x45d6859f68bcf557ddf11320cc116e98c036872b8b4a3947a6b37061; -0x3b2bbba1cc3fe1b44874016216bc2e001d7b58359e5631d8003d0cef0; 0x45a38660642173ed787d0dd236a6508320090771fdbcf95ddf270b93; -0x4b7c7598c7eae74a78eb8b2f8bd37e715886a1b9c4d241c1376ae5ad; 0x58032bf1e5a617076f94eca85d4e85295a1085010baff26375873593; -0x706fb4646f87cf8a59b40400bcf56ed25b73a6583892803e36cafa1; 0x32369650272b8066f3e83447329c4dbb74196a5f126dba43a5565539; -0x12f4f2021e8600414b87bcbfb99e30d000840fe26e383a32cc670ec; 0x61acf718e36c85a75ec659bc2a83e83ed2b1c264e14f7a9a5258c5b; -0x11eb5523702a58926a5104d4f694773ce9731454d7560f46e112c785b; 0xce4bed6a39fddc5a76cb81ae92409c798a3b3d3ea0c9434e794fa296; -0x41185b8255ac43169bf6c2f59c8b7dc41b8002606da97fc493afced02; 0x6c5d920b1ae55a41c8ce5f980262c13bd02c448f70bf2e1843fd39c3; -0x796061c7efc3492ff134758065e9f35dd9414e8d05cd3fa84b24f15; 0xd2c9e8cce9302a9d436dca82d00f58187c9a2c45eeb6de2babee72e0; -0x35b0909e3e1e2c2a9aa7f4a925b3de554fc18213107a9f6dea9f63e0c; 0xedabed9ee1d89502e3c8826308cea3a97bfa01ffd29048242989fede; -0x302370acb1f074c1a33a3cce3fffe9b29828ca6ac23ed4064414a895; 0x12caaf378418f72e848a56cbfbc010f17be0f9c486a9037abb43a22; -0xf51b121de0404a342086160d187b82a16f5c649bf24f9ef8596eeb52; 0x392e4f3bfb28e72a165db64239fcd9db84e6ca07ffc28872b068978d; -0x3c6e050e26a8db5740c287dac35922e5415ef3840e3f4cb4ce7368eab; 0x84ad8059c37a4e744e5ae4b54673651d7afdb062c487bd4d68e881b9; -0x39a4b2ec91034f0b95cd56030fec722d3246b0796eedf3a054bcbe470; 0x27dcca8828810c32738292eef259af0aa04ac6ad2709bea5106d11f2; -0x255755691496103072e43f3838bc2cd4c0ed5a8890cd219a7cbc3f0c5; 0x8da45410bc8bf6736813d265f5af69c66371e46ef4e41105d5ef2d; -0x2de535daf36587f8ebe87ffda83974bb3bbd6f7a89f08b003ede13463; 0x65fa4954978c49e739c3171e3387e32957e5b118afd9878b5fac5391; -0x21a13c2326c641155b0e40794d994237712e92a022652fe5f3797fe69; 0xe0f3b0646535e1a32b22ec139dde9d5a86056221629857c54be6d65; -0x36cddc5ca296493c06d5e56023df0950dd17c936d0102771b4081f76d; 0xdf1a5247c650296495a4bd65cd6b97e5fc9f871c5d360aa95d1c4e22; -0x662a167057c03277f2dcb499d053fb0ab3f32bbe6f0afc5c4a1ebb71; 0xb4a28c3ee0acb218e7038285de7f2aa01d5868a4d5e64983aebf1470; -0x33f160c7eed372cd87c72c14b9458ef12d2ecc24212c0971c69eb1c2e; 0xce85437043e3c64da8c47ce5e4ed4b5701946c6126db8b7b70ce1700; -0x1a3437096c5d214f158a8fefbf11f254178e0b121a9c5f6d5ba3694a1; 0x5d66a59296325d5ce14356ef42e56fa0dcf44aafeac490eaff171506; -0x4ccbd6407b63dd142ffcc3bb1b108926f4342e5378353669f1948941f; 0x2de31622e70ce443504f4a705ee6e007c541e4ca2681bd0ad0d7f18b; -0x1b3faf404aad13ff5dc9f6b3a4db8fe0b1cbd74a3ed9e0a061915f2b; 0xd8a6666df5f8c6fd72f87a6c0eed517db18f3675e783127eb7dbc8c8; -0x403fabf76e2f3fae9471506a6ef88f2f16c70927bf3ded53cf522b888; 0x8e106549891738dc90b82440d77025d9c034836b6e4a8187a712cb5e; -0x4a2a09e59f395f47e85e854e0748ab20820a50e405a4fc4b974d9134; 0xebc9cca7be7a5dbaab0f5649afd29f9aae491af8a6f3f854483ecfe; -0x25a36213d7bf268ee9319bd1339195b3a1ebea795027944c4f563685e; 0x39de099e500048b245f3a210c23f0ab4ca8e8435231f1637ce711489; -0x15450d672eef4959ef3941add90c3657f0f8da6ef1657520063e70996; 0x3a0bd9f2e087f310d52f8e85861d8f47c865c6e2c3911066ee62ec87; -0x162153c88a08b1e89b1589ed9ca12c07cd646a9a09d60adc4e35b5aa4; 0x18c26a8af9acaaeb781916aa45ecd8afe66eb8142e0c046b66618102; -0x75655bd5be9526e80e746f759346ffff7c145425dea412f7622f7042; 0xeecf84e48870d380586369b0c7df6db1134e12faead352f50ed2b542; -0x3885e4b6151301853270db03ae5b84ddca9c77b569bfb1827f202a6d; 0xb38e7821db0c2687d247d7f209d5a7f964b130b5868a6e3ee2838980; -0x1827078c3fe260802d55e82424c6814fa664aa3b0a3cf25022e92b1ca; 0x100de4f0fde1e8c966dbab5e56b2ef827b727de5e07074162146cb72; -0x426c9e4abe4976e74353aba7bc309765727b3baf0005a8a1558677c92; 0xf5cbb97a7a8ae4c4de3534e166ed3f7d5966a202f4cb468eddb230f5; -0x12d266a7eae3da088a773fdaa938ebd12bd816895edefeba3820ff9e; 0x683205eeebe87194e217929cfbe1911c30154369d31d9cc190dfa197; -0x2c12ca238055a22ef35738ca4cd3864808b9d82aafc835394c8b532f4; 0x9bdd2690e612b1b46e3cbb80fce862e6bb3fc6be7546296e55c57; -0xdcbdc0395ef480aafc9016fad3d55518e35fc9e387fd53c937892fa; 0x11c6d6997bed84aadd8c819440e46dbe7659d759de184a75e50a755; -0x4bb91614a98a0ce355d33750b2d14ae10419376ec54e1e2608c2b0001; 0x31538d63fb257139fce1ec1938098d0f5116b158f1fe0c43fe9559a7; -0x291063a26e62b33c7aa7b5dea7b48e3d2ce01d0f4c91d3ed08028c37a; 0xb86d8381d4b9f0facee2f1b6ac62679a7a4fe4d7e6943af05157166; -0x2dd4acb1ecdd2e096a76443c975ab3663cc8c462e1daa8f4e18f4a30f; 0x2635e2011b78fedb4a3d9af8b0c00da84fe94b08022240917179abc; -0x8dda743f437695bd676546dfb3b683a9641b5f3b79ac42ea1f2c3f14; 0x659932b578c74b691f3934543a6f79662be1cf9ec8b2afb4b5ede8d; -0x1bf01e00148c32e5ea39deab449056ed8699d9844120e383d5a432b56; 0x33ae0ad6ee619827df2f860da36d3ccb7c74b3e47c1cd62edad4e78e; -0x189d62ec961de8a20d47d4f63c0d506398731ba6cd7d70403d9676e9; 0x199c428f2139b19dd881efb4e910d3db375f55e3a0128742944ff0; -0x1904fd6f7768091cbbda9b8ec75789365ad2abf5a915541a0655cacb7; 0x52f61790fe2f18689a94cc1a8c444915b54ecec3f898de85d9b36882; -0xdd58288b024357f5705ea204e9110d1e24178aa9231841b7dd5699f9; 0xade318d5eeac112c4b4fb9ccab35aa49059379762ff4b61fdfbd1bdd; -0x21c8ceafe27e896371041d7661b0655c58a45c6956a42ef70f6c210e7; 0x183e7399b750b53bc191f13d01002770ff1f9094da5f3c733edb0b06; -0x84c94a6d9560e5622da347810ecd1a9e184002b4e81f3fd7740afddd; 0x8a60091923699875c1d89c79164816c7cc82ef6819a885120ac9eb63; -0x43cadf4b179ed8d42080d815c8e603704c261eac6583cbbf13b8f9993; 0x656e9719f3aa46708d11cc1d4dc6fbfc6d142e68915761768f86b; -0x3dc2e9c75e2f13aeba682dd11ad3390d9ed1bd0dfea9bcc252e69d61e; 0x6c1cfb18ac533677cf74f09655aa2847ba8e773017a9583a11ab4e28; -0x2c7dd44db631a189e53bdbdc7851f509fb753792b9ee88757096d002; 0x55a5c869abadd32c6ae10d84361aee20aa87d8bbd419d426219d79ce; -0x404c53bda85b966c53eeecfed24070072289f19097abb4d646300a7ba; 0x4d9f291a5f56893189acef5366be44cb128a94718658a8aa818d526e; -0x14cdbda922fa4ad11d2c4c82dfec14c68a0a253b8f0d71977ab29d9ec; 0x2586bc9927337fb11c6af08fb466d53edb70f3ee72d5e2dbde5053de; -0x26921deadf55ad1dc27e21418136e37d034f7d73aa31a2380a1c287a0; 0x3e6c5d29de21e48b643c2b22ebd571ef61a9050449c5cbe5311df6d; -0x1331bd7451b83423272cbc6e8a0c26dd880e0e3657df5727844e5594; 0x2befca4a1123c1d0cd926f91e1e02f8b86462a6dad996e682ee1ca95; -0x4f9fd8d81dd257eb184101eb082fd81676a81df5ee07f075be263ece8; 0x271693a96e1710177a19a44b267bb7b63efcd8ed7527fef3c47c2d9f; -0x2aaa790a8fdaa704a955ad420bee4ec51c3d8e710c725d879a7e84504; 0x264b80fb1302793ab14c838cd8dc3329cfa4d01562dd9242958489ad; -0x19db8444f667892228892cbe4d0d55ade72c3ab260986e13cbbb74a7; 0xb96509e4ccd0589eee5532539ea4181af020ac7700aa9e00e49f13; -0x1eeb327467262ea9858aa7f397a8183c3d307033f1b1a452e554811e0; 0x1b981c84538652b1aec614162d257858bf0f605055264c72c66450c5; -0x112daa9b2d5b3f495ab1797d31d06e590f8fde0beb2ef5b5be7bffd6b; 0x4461ab37ff2bd914441cebdef9a8a9559b16e3c0a287289d6422b777; -0x620af3c18ba5f931f11bcb9bf937ae1a6bbc427e631a088aec81dd6a; 0xde3cc4b685f8cdee1d0ef30eed96800e0e74c49a78c91f8fd7c75b0d; -0x173974c91c7c200ec1e9495f56cfda87bbd436655e6a68d758029125e; 0x3f3937f7854db5576d594b44f00b3364b007b56ecb649aeb95094e98; -0x1ac51a95eb394f52a399cd628b5fbb045a04e8140aebe7c01cb92e5; 0x50ab02477a03bf6530aa1b5a2771077bb2b9742d4e570f700045d7ae; -0x3c0831f78af666a287ac99eab0771cf2abeed0fbcced5cd0a0b014031; 0x66b03c8d1fbd4481d4dd8f2e35308d49967ca5c8f87a306f6629f72a; -0x1f5b15642fc2fa1d12f7970e3ae28f395abb0b502fa02761dff66a33e; 0x62770156f2a58fc362941a7a358c709ede7752a305a6c23f888b638; -0xbfe569f53a75b252816d98fc02a5ce38b1433263a2f30c275ddc0801; 0x2dd00afad46ba3436fc28f4cdc609bf3ab1a74a8c83f5d979964747d; -0x105591e350421fd3a8f9dd3a0eed2f8bb9375d02a342bf6e26c5751b8; 0xf8aa8ab1bf0fafc8955dce1ab2087b81595995e94675aa952a0d546a; -0x3990f4f04174c5060e4ec9c525c28fd69dc472493927d27be18aeb09e; 0x421c80a97c84fe98399bc79fa219b5124687fd43c58bd649fd6e0; -0xfaf62098804cb0e5e59b974b21ac55a01fb7b45ddc8ccd8f1f932d9; 0x8ef83db68fc154f4df2959ea84eb13b06f7ba3c76d8c65f7d5ea602; -0x8cb686fe6efc27aa788fe82c7ecab3f0502376488444bb42b3ee2c37; 0x2d1e6f249f4a6d84e52152a6ff2c478c4def31d61282123792eccb; -0x1da07f7db1bb5e326c5cc10050b758c20ebfd8cf239f3be9af1867f59; 0x3e99943584be03ee40160b510d29e591b57c63e5652e7e6dcd2f34; -0x39417e7d375f22096d69a0d6249694fb65655d0ec80548304a4db9a5; 0xaab7c494f51096995776ef8dc4c26a6a3af87c234050f0f10d1ff4e; -0x8d03d58178141bf80b58a680806621727f4c29fab1d64de940aad82e; 0x5ac4839b958acd30d8de97555b52b2c04258982018e87f749440b058; -0x495a76f81c0bf651f41b287e2764f120a8f92d1218d0550f5b2ad416; 0x87500d1faeaa2d2ce8b9658d2873321506a6c754cb9e5904ca2c330b; -0x75d30d374f2962e5186e2bc0dbc4ae3c344ac3f1ba35dc50778c68; 0x954834decd2ff638dbe5bae74b61609d7b5f260e2129e3c1fe1a57f; -0x1119b39be3c64d859593a165866c2f6508a4690b3f43f90ecf3144fdd; 0x498d083f7071730f2833bc6de6fb8d12b2fbd2bf717cc5e5838709; -0x2c0d9e380c57c897bcd6bf5163cc3658f826656958765f70fbbc686c1; 0xa2b72cc824323fc5c44cd3a476fa4f70844397af49e29a6833469404; -0x315d1050ed156ffc92323bc4eaaaa6c91f3bbd1a132ce14ea8afa667; 0x2b5bb53052c561cee0065cb99d34ecc82b9da2c74da03e98cdc420a9; -0x1cea7443c9f000b930cadaca9c0bd81eb124d3bfa501329384915eca4; 0xbc59f467be589c14e712f4e294d59c07cf115826b37ed0618dabe8d; -0x3d9c27140279165fc8ed6c6f0996f71c7b889abc69b0006765ab6cc5b; 0xc8e8a04e9fce1f1ba155b7568516a66d8c308c71330c08766b5a65; -0x47144165b372b1aa8907f871aeebc56bf2bb29e5943214fb6311e720d; 0x966217f577ddc4e6527c37d1b7debd759e57f4b3aac638e7c9de3abe; -0x3031519dbaff4b89f24a387c7485a324219730c33a691d945913cb961; 0x462c38d909cb1b7e04051e2fed1c460e32d913cd93b1f6a48744f31e; -0x3ccf9c09230d11a8de98d9d945fb46e0542896a1041e6286127ef6b0; 0x1cee86cdfb57fd7f77cf965d70068be3d448ca17554f5f2c0dad5ef7; -0x3231d5556c0208f6f503a319c4f3035b792359fe801ca25ea2d6ea6c7; 0x81bee7384790af70bb681fa73807d936b32810128d41eae75e675d0e; -0x1e7336b0d14e26f96205e836936b319a240534a7678a8fcae18602fab; 0x64407d72262de39a96b0e19e2a4b12fa0bb52060f2332453899f; 0xcec90d0f6afb82313b1e6b00d9f9ace1e98f31f4f174ad8cae36221; -0x36908b360f9fc51740840b500b856b78a90d6565067dbd52f8e316396; -0x1b888060b54a8e195948730ab1697b5cf4fdd1512540f513b5ccbca64; -0x94361e784dfb3da38112b25b1d2687562d2480c6532cbee0374e4190; -0x695de87ab0f704556df607266c2f72adb825cd97182648f5d798d7f5; -0x4dcfb6f1137379b825a9c7d5a36652bad9fc1a76aceef295d00c36044; -0x4837a8fbe34de78f9ee6fc0881e06ae97d92684e7ad4e4727834415b0; -0x198537468b834c3c1d03a4653972e114347347fbe7f50cb12bba6b47d; -0x108f6b2576ff194f181656abc8f9e6dfe2b9d59c858e8181cb161932c; -0x2c3a072f2c961913e5f1dfda248d114e5c236370b9d27fde60f1ff0b9; -0x81bd5222997a70e2e4b98bed3ee7e9407c491943c7c23d271cd77a90; -0x42b7016249ce70d46c79b315cd86137a926a9cff3e6d4bf5672cbfd8a; -0x29826b694224f802685f8b9e7e46a07653ec59453c81397aa31916544; -0xc373feeb22238763babd269ce05ab2e69667a8fe34bc6a59357462e; -0x22c5d21f28ae4234fac64636facce61d7241efdb98bf9919932f8c2a0; -0x1dc24bc9271ac49cf1e422d28740d0afa0b708b2ac1594eb9d2ff3999; -0x2d3a443c9f89f43180d9270f1f82f4c837cdb1e174b316860a9ac8701; -0x12b9f9c37c6fac50cfedf326fb81fd88d5804a4243ac879d259fedf; -0x3566d06d14629dddf1c5431633f7ef8a5c6f2694a454e4aa3715785af; -0x63ab178a67f2b7722ff5b359d67a7c29963d8aeeb00e159f668d4d5c; -0x482e8c7618a92b5bff563e667351b21e540b80317a2356209e4fa90; 0xa838c6fdb83eb181a9a3e4933e1826dd9dcbf72e18b6cd33bea69c71; -0x14755e97a8b6e91cfbc368959d619ed101b8a0b975a6de26ed37e99c5; -0x3a49bb9383f452ddb58a8eacb025a7798ef0c8f3dc5ef3b6ece52f395; -0x2fc61c33c5222db407dd78a76fdd87e03522ddf3f62e9c6b96ead64bc; 0xa3bf05b94fcbde3fa0674650a70c6f9047d012031e102b58dc8e557a; 0x3aad1267b02c1f7128b299a060a1dd6f7dac0bf8d3b4ac1f0ebef356; -0x404e200e1b851984362f6a699cb818978bebb8f91eba77e284df9ff4; 0x1d40835ff4677d565a7bed90fb1555ac47942432c3d314151aaf; 0x7a0b7ad117be0afcb85d01f0c4b96d3a973296d621ab047350d28ed5; -0x113bb2b2f6a09591e227e36bfd10ff2e39f67391f35dcc6f84d0cfcbd; 0xf375080f7bc3056fb1a3ead5cb62be116b0a1579ddfdb49f95b5d7; 0x3c6b709ce22d577be11d2d6c19b2423f2eff6fe327742a532ca49] x); [vm_compute; reflexivity|].
  replace (x * x * x + ca secp224k1 * x + cb secp224k1) with (x * x * x + 5) in D by (cbn [ca cb secp224k1]; ring). exact D.
Qed.
Lemma points P : on_curve (cp secp224k1) (ca secp224k1) (cb secp224k1) P -> no_order2 (cp secp224k1) (ca secp224k1) P.
Proof. exact (no_root_no_order2 _ _ _ P good no_root). Qed.
