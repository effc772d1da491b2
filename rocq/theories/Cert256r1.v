(** Certificates for the curve secp256r1: its two primes, n G = O and the absence
    of points of order two.  Written by a
    script; the numbers are checked by the functions of
    Pock, EcOrder and EcRoot. *)
From Coq Require Import ZArith Znumtheory List Lia.
From Verif Require Import FastMul Pock EcOrder EcRoot EcSpec EcpSpec EcCurvesSpec EcCurves.
Import ListNotations.
Open Scope Z_scope.

Definition mp (k : Z) : Z := Z.shiftl k 256 - Z.shiftl k 224 + Z.shiftl k 192 + Z.shiftl k 96 - k.
Lemma mp_ok k : mp k = k * 0xffffffff00000001000000000000000000000000ffffffffffffffffffffffff.
Proof. unfold mp. rewrite ?zmul_ok, ?Z.shiftl_mul_pow2 by lia. ring. Qed.
Lemma prime_5 : prime 5.
Proof. apply (trial_prime _ (Z.to_nat 7)); [reflexivity|vm_compute; reflexivity]. Qed.
Lemma prime_704251 : prime 0xabefb.
Proof.
  apply (check_ok 0xabefb (fun k => zmul k 0xabefb) (fun k => zmul_ok k _) 5 3 0x1602 2
    [0; 0; 0; 0; 0x5f4a; 0x2f887; 0xc6ef8; 0x13a3a2; 0x16d49; 0x1b335; 0x730ee; 0xa0f7; 0x18a77; 0x99773; 0x8b8ba; 0xfe6; 0x84d7]
    [0x728a3; 0xf315; 0xeeaa]
    0x4ad94 0x3d175 0); [vm_compute; reflexivity|exact prime_5].
Qed.
Lemma prime_46076956964474543 : prime 0xa3b2bf8c32ceaf.
Proof.
  apply (check_ok 0xa3b2bf8c32ceaf (fun k => zmul k 0xa3b2bf8c32ceaf) (fun k => zmul_ok k _) 0xabefb 1 0xf3bbf34aa 2
    [0; 0; 0; 0; 0x19; 0x274951c4e0cc; 0xaf124b8f11192; 0xab5f839175dad; 0x7e365e76fe2383; 0x9f53980cc78e57; 0x1320b185544d91a; 0x6611bd4ee95160; 0x58197bc2634a76; 0xe9c8ce1947d7e; 0x1009ad8cb8c0c70; 0xf06b3c2dcf8; 0x69f2ae6c80075; 0x4a03facb6ba0e0; 0xff1a33039d52fb; 0x27a22fc21372a; 0x9629c4af952a; 0xa1763812b3bce9; 0x12c37829b7bb1; 0x1c7fa841e1cb6e; 0x5f6dd33de59965; 0x1d6f9d97e50ef3; 0x1594fcd6690648; 0x450c8f8668e12; 0xc7811545721ea; 0x2960dc44e7c37; 0x4b151c5518b775; 0x114212cc2e9f79c; 0x1823877ff93ae9; 0xcc24a4490a03ec; 0x4443c7c9be8d]
    [0x112c98e0690a93; 0x79018dd5669dfe; 0x8d52257c91c6; 0x3f60d736c79e22; 0x8912afdf2795cf; 0x127c755ae1f042; 0xf915ada11528f; 0x9c7afc28dcc148; 0x13ea28c55b4b39; 0x145b10380011; 0x2f3f15da8aa076; 0x5a4bb2b70a1a8; 0x92914549f973a; 0x86c7ef4f80f7; 0x1b3f3a240ea6d0; 0x3151fa61ca9d7b; 0x306ee02f81d8cd; 0x21fe517293704; 0x6a336d4287a48b; 0x14080c269e1e32; 0x99e4b4ff8eedf; 0x31237dd7464f66; 0x90269da6a0b61; 0x3490b8b24a482a; 0x8fcdbf017584dd; 0x2fe026be9c5; 0x398feb9b31a316; 0x155067c64c8edf; 0x78593d92c89532; 0x91903f1a2e56b; 0x29f4dd28f8c7c4; 0x5a3ebc0fd1970; 0x21cbbb54196a01]
    0x3382d1c86f8bb8 0x10af4396bffab1 0x8b127); [vm_compute; reflexivity|exact prime_704251].
Qed.
Lemma prime_774023187263532362759620327192479577272145303 : prime 0x22b559b5c816ae00f2378e18df38c5410ed597.
Proof.
  apply (check_ok 0x22b559b5c816ae00f2378e18df38c5410ed597 (fun k => zmul k 0x22b559b5c816ae00f2378e18df38c5410ed597) (fun k => zmul_ok k _) 0xa3b2bf8c32ceaf 1 0x3647621a0c85b1150ad0194a 2
    [0; 0; 0; 0; 0; 0; 0xec0607bb0a0607b93; 0x879522c6fd230f1d504a63b0387ef075be6f; 0x94e11380938b80a8b7c158255192a84f7454a; 0xd923e00ce00e15fec8d4cf5bf18496af8b934; 0x1791266e7478cbdace3d1dac7d53c3d78a9e2; 0x311cb593713a94f3cfd24cee6ba18cb37d1167; 0x129930afadcd92e29397b843772a0fa8710196; 0xfff0575f1f0e191761500f374571c06af8b; 0x25947b4332f63171000c2ce98f13417d5de252; 0x748ff8ac458eba797d27a06b9ed2e77ff8ee6; 0x9eba230231e30c76b350fec049fd5132a3b2; 0x1d7e8bc0c61e0ea5b908769c1d873636aba7bb; 0xf091cc7bd3ae2eef2f135ecd8107e14f4f2; 0x16bedbd29d70cfb8148446dd78b008016bc61; 0x8e0c525fdc47734f1a4c82a09eb130067a831; 0xdc0a678246ed73dd38d9ce9ded0e69a237874; 0x150d2d45fd443c5d5a69c31b0ef378358f3; 0x5cb3db9bf1989778aced24be8a3e84f895bb2; 0x1c9ac5e949f729b264629ff54e3734b139609c; 0x132ea4d3ef47980422529282a0a712d85b8936; 0x2a2c0fcee137a2bf0b18350f6eb3f05f40010; 0x200549b0274f8766d65432bdd87f9c58d77730; 0x7ebf2734713c94c36577d658bd52edbc249; 0x3354dd1b89d6307665ea07fa9b5a4a731654; 0x59ebb38ff33d43237be75b9ebf366d57eeb2; 0x3575f6118cd8564b01ba976e1cdb0269fce53; 0x794eca5ce63ebd6786c6e40d8374b08b17ede; 0x28453e2725211b178d63390bdea3716cd5cf90; 0x2375071f7a1253d0f3552d467174e016ad423; 0x1c8c77fab56263a0ad5f456902065678697266; 0xda3fe27cbd34ce566481c7aeb87836e51d7d2; 0x48bd91786bfb131c5a2bc49482a711d0cc353; 0x11606df82f8a2b51405f70c3e411a698b5622b; 0x13c4262b4b1bd60d676c59f08c3f315055db36; 0x7596bdde19907588c27fc987c62291f5d9e3; 0xf9533d9ea88e8cd3d5fd1079b71dc62a45df7; 0x16773922ef684596fb8269a24c3ba3f1cd731b; 0x566efc9f9ae2fce4d04f00d0a3c9fb06c13dc; 0x131c585444a7d58d025b634c5f57dd55eb95fc; 0x680e1a6a3155e24299aed58f147b5b1b9f5cb; 0xf0fa1401a2a4c391c28b1659b26df72567844; 0x154f3d9509c835d600f8ef2d81f2d3fdca719c; 0x16f16ce4d9b9f365f9a7ee965c3f2452075968; 0x13c066dc609671bfffd07b01fb0c8173e2bf5c; 0xa86d57b5028e86cbd325b9fc8a5d2c845e0ba; 0x1495b8e82cbd4797af096c820c16e309951c35; 0x14b8f3b389dabec251f2b6f4e55fcb950b6fed; 0x112541b1dd349171544f364568e0c7d8431eae; 0x1bc7be3d1bfb795786d37e8a016f60790b9a01; 0x35cd72cf2813d359e9eb27fab15c8b5b1701a; 0xbe3dd43e9e8cd693a4237bea283b8b891624; 0x4b891b006faef5682a7b2a2acc823eeb50c66; 0xeaf7da4eaef3dde68b47f6cb6c62f563c0820; 0x361d47fd87e72758b4ee788ea199f8087ebc9; 0xee791247bb090e5432094f53ce5bbdb6e849e; 0xce5c5d8b206d1f6b00c618dc14c1714bddb9; 0x4ca62ee36a81163cdbd314d1dd7df9b0cba91; 0x1664c33821dec032bdbb6e9f3d1c4462fd72; 0x527599ef6d167d12f6895538e51102aacfb70; 0x12a1afdb66bd1409db6ccd85d041e565ae1970; 0x6e15a51ca0236f3089191fb3e4facf9c20bd; 0x34d753599366fef623f6d601ac39b1e92eac2d; 0x21fa062761b56014aea2ec612a535f5ade0bf; 0x2f651d1c43d79bfe2c7f7020cb989f16a162cc; 0xa49560fce7aff7fa174ffe10b13481016795d; 0xc005792a91f45cd7f101cea39de5f496844a6; 0x2b763bf8b6147f20e380e08acdfd40814a1bad; 0x447bd322acfb918a5823646646996865c8b4; 0x63e8119c2f23d829ef557e4dc45b34307f85b; 0x4aa2312a40369aca1dac62e815b1b6f84fcab; 0x53dddbb740e61607de3efc2eb510d9182a974; 0x695f175da6748990e252ce08b0a7bad596373; 0xab919f535bdb1aa56ce90782eb5ba7a09b017; 0x405c27e06c8fb9be6c5234f63df4ff91886b3; 0x30201f2a4bcd7d72ddb20cdf8a7713916e57db; 0xe997680a2560447566ae6627dfb99a0a966c0; 0x1edd01f2559661d105fa176f1155c3a88390; 0x255051c3aa544dbc75077fd12244dc4f10fdb; 0x795084a2596e33750f0f1cbaf0bda645f8d05; 0x85d168025463826793096c239f9251f6a52ed; 0x81de00ee0894b75fed427b62d004d174b9198; 0xb9044ea40e8910f9969c54774b62a1ed0ea6d; 0x6b86adbbc532d2f50420e885a71a7f37772d; 0x15dedc66a0f0e421afd6bd4b21492742392599; 0x6b56ac48aa2298db7a2c5fc5a08a844b2501f; 0x3e54205412469a673c665c530b246cf9053fd7; 0x3cb1fb8360314768e791abb76ec2823543269]
    [0x3559338c550d9ba1953c2700799735064e30c; 0x1e4ffcecb69129ced5da906e2074b237ca4c5; 0x3613e0865fd5a26173e0865f42f688b8806f0; 0xf43ed5814858105eaa60c6a94e6fa65e1d72b; 0x9205dea1e3810236c1c87a8f668b91ffce51b; 0xfafdeffc21d59ae7cb6850ca23d440ae89a7; 0x94f14b96178260662f59d4795c0f34e6c805a; 0x6825e88364d1a81c5ace894490778a773bf9c; 0x1072b6a84b9f725474263ad67d33da907f0a08; 0x64252f7e4ac21c9d95c89031e391752bd6e27; 0x27cb9076ff4b5e8db96bb66d11800c9b295; 0x680181032c76eefe3af55098ed3b55a9046c5; 0x6a2be0a1efa4421ff0d6c6b7fcb36bc0f0539; 0x13250b07dbd4f2bf54fad664eb99cd238cdc0; 0x2ee7bdafa1372278c84c7c7f7d516cc596181; 0x363bf26e6b0461f6e51620d496ed36c36c12c; 0x2c6684f1deb2beac45db0301f11d615ec5ac8; 0xb5f6d0b416d9afb651198c40a2afa501c273; 0x4cbd98b44336c08feb6a69f054b284d685503; 0x169e040dd50ddbe996461875560fafdc278046; 0x739896f05269520e04c23f09cceeef57d7e15; 0x3e791dcfb4ff863afec76f8d42b45ca89113c; 0xacefa3f10d9621f7cf63ee4086fb7f023ef0; 0x939b8d3066eed231c36f063ce3c29e09065c4; 0x65e5c52ab2942722782579d293ba3d463; 0x1ac55a7b8b5f8c3e5d556612d6fb040961f033; 0xc491f4c87ad4585c640478b19befe79ea0af; 0xe4ff1fb54b74974569a02eb953b28642b975; 0x2521c7c57068c5c6d4e64433745b328d37f6f; 0x9a433cfb3475b2b9c96a6d895f83ddf0564f6; 0x26be71561ff7cccba2401765b030022cd5177; 0x1b15a6361b877cb1da9d5a624e72f81df43; 0x59b3a11f7285f04ca8481990728871c71b6ef; 0x1e2246591c2c061dfcad2b7e5601ae4b51c1; 0xbcffa8b2d4d3d4af5a1b4b5e65cad10dd912; 0x4d5bd47af0606388eec97d3e13ca4127872b; 0x8ce2657e11216077170ff91ef359656f069c7; 0x1805d0cd3c8f7d951f7752e325500ced75de23; 0x73bdbb5492845a10bf7e941316f66864c215b; 0x7b94f28549f4a6f3ec0f3b67da4b9caea0fa1; 0xf6fff92a8b6c37bb78fc5a7f6ba7341546f02; 0x684fd8d8c722b598437ba0b4341151465fe9; 0x3f0a4a44d4cc81a838897a2ecd8016b956b76; 0x432373daf24426d4416d35cbe418a6f03e17a; 0xc117593891e9ee4d43afe623d8a7450fd33a; 0x96b0478decbb29f7c57e998fc9d767b85d730; 0x40a9d9ba9638fd28055c6925aac83a7eafa75; 0x207536f67f80f4c5efa908307e42823c2d056e; 0x4e56087ef4b54c8e84aa2044e4cb25212d193; 0x14dd0589367d9976150b4cd6379e6c1f7974eb; 0xbd10676fc0682ec58d16aa5e2d849ee83cb30; 0x9008c5ea05934be6f5f1797e8739a78fa3a6b; 0x18857e56c1f63156d2a3177f50918daa5acfc; 0x166af51b3dee7eeaf64e14d3a809bef39faec; 0x4de1c3db0065a46902a6356aefeba0332f; 0x1f9f0868d4d1acaea91b49de1eea069414a63c; 0x29bcd4324cc2a3dbf0d78ce4487f2555295ed; 0x88049625d56e105bdba152a5cb27fddaa7595; 0xab5c3dc92fac67ba56577732a81e30cdb922; 0xaa34feadc6e2b2225b5ba28d74d11ef035d34; 0x1b60804b1c51c2272a16456f549eddf0a2275; 0x326058198e22cb5c41600e006e9be91b912; 0x4458f4a9f7955760e09157e5b4d0015cec368; 0x1dd744f14375c6e32e5c598616fcce0030f3e; 0x26a31d76c271649d0613b622aabff1c4492; 0x157b4da305b5c0f1382fc86b8e1456d14873cf; 0xb08276f2d4ea51ef785dc13a57c3fb7b2329; 0x3677c50a85f789d91d0678b39f65f9caa55dd; 0x29f19dbb1f2fc2876c508edd4da5266fe0727; 0x9b6dbcd62112ec150239aa11ecb0963aa7e80; 0xa68d81bb2f610456f1181b87a4f6c2dddf63a; 0x336a5b2b418ea19d7d016b02034025424d2a; 0x42f4fa18e80dc08c1ce2beaf82bcfe4d25817; 0x80d97dac1685bc1799ab15d6980ddcc670236; 0xc70c1148b97802903aff6e6b8855734de3eb; 0xb578e43d2347c6cb21961b90b6234b1275e93; 0x5da46c5b03501906947504ce0e2a3a6d5a08d; 0xcb3e87f88db8f55152575570e22547c95ec42; 0x228bb1437433b392b2f479b47a7d7586d11da8; 0xa252cdb787684816c494507cd2c84a5320aea; 0x8ef86dfef2617e644d0bb5f2e6750276e505; 0x61c132711282e093edb1809cc67dabffbebd7; 0x81dbeaa54033726c10ce921bae192bf0dd97a; 0xc1fdf09cb7b81f5f20a43206f658fbe97bb8; 0xe64c4b0bdc4786e4054c5356248d73b69d32; 0xa6fcad16a0db555814ac1f49cc2c0256fd58d]
    0x1c57608cca63bd0dec0bb61f90d77cc342f96e 0x8c8c32ecd9e78f5a7b15ea29193120df46efb 0x4a3592a2008fc8); [vm_compute; reflexivity|exact prime_46076956964474543].
Qed.
Lemma prime_835945042244614951780389953367877943453916927241 : prime 0x926d1276e41fae13fdda5f78edb7802a76951509.
Proof.
  apply (check_ok 0x926d1276e41fae13fdda5f78edb7802a76951509 (fun k => zmul k 0x926d1276e41fae13fdda5f78edb7802a76951509) (fun k => zmul_ok k _) 0x22b559b5c816ae00f2378e18df38c5410ed597 1 0x438 2
    [0; 0; 0; 0; 0; 0; 0; 0x6fe4849cefe4849c101b7b62a036; 0x88105dd341037d77d72f9ecc2975840f4666add4; 0x153dae2a357a1aec4e4fed836d930f365974f0e]
    [0x78bc14a2c651318eab04e3530c54ea14d6cfcea0; 0x57ce071634e61f945ade563176736e7b08f643e5; 0x4dc06609e8fbd756c25af536be8a67b99b6baca7; 0x27f88754752aed654b9df28e0dd6753c460adcb8; 0x5ede14315f05143eb7e54c1ffb6e58e4b06c0b5a; 0x14edeaf8abcb1a803f3888b4ae2537d28ad2ac96; 0xfea0f9e91b59bcde0845ca1dc5139ee877afbe9; 0x29f88696f02e5881bd55904c37a24e83123d8e73; 0x7391faca8059141a045018e6bf5b9c3d9e471b5; 0x56199f5a2348b92e0247ea8614dfb0db297905d6; 0x5a3bafb304ba18a48cd58685c02d8e80c25e3134; 0x69899fe4c316ecbf674ac68a008d581e8ab993e; 0x537464c720082cb1412309f7fded9c1875948880; 0x5cda24036ce06b76518921302e20843f5a2f6897; 0x9abdfd21487d480c5d980ad2e752850d3101ee8; 0x3d0f6618c37f728b241e6c922f3d63f661a1ee4b; 0xad769d86939d961a5eca7e003884698788299d0; 0xf3cc95121ba4b8547b690b2cd6ac5720d9a172; 0x361067959a4ff3441b3460ab8ba21e1f5f7ed5c3; 0x13a6db1bedd9ad7b74c82078c93fe06b7e6d3054; 0x943eea28236e38fb320f294c9c1d10735f2e57; 0x50cc654724eec5c3b6f717637d86437acf3389e3; 0xa1bb40c42ad6ab8e511608fa52fb8b4d9c43; 0xd260133fa24396a30b3859580f77738abc33b58; 0x191e2845f42d6d2c97ac21f8df5dc3159b773f00; 0x1a18b436cd4a83859a24299a1414d3260ea36598; 0x1a178206ea27c9e7098f5a729d0ef3382e563374; 0x1a886a3512ff5acf00565ac322283ccc38bd7ce0; 0x7ba3e69997df113d84083f446f4cec958709e0c2; 0x104eedb7d30aa5b5c7dcf52bdf86c693e17e86c3; 0x8f6dab40c162790228fb8c1aa11bcb2591c15a4; 0x42c29dfba759729a7943c97bedcd83f4ce538041; 0x6c0158454f603b544d5bc86c6242990ea4dd0fbe; 0x9227e5c43eeed00cf413f266497987f9dab6b78a; 0x83869c99a64c5a08fc3ced37a1720e67da7d2280; 0x6bcf2f7ecaa26d394cc6bc7843e80e945fc06e1d; 0x75014dd951fbe23a1339b48b6b6d4bd34b501dd0; 0x1baf4fe57c9a42056c8eff336fdcead1185f2da4; 0x145b39933095a34983ae805cff8044aacc987537; 0xfb43484c692ab196cd036ff938232025076ed8b; 0x61cd411dc9fc1aa1222deb6dbeabcd66914c46f3; 0x8f9bf1bbf4cbf95a8ec3cd240cbd32d4c2fbe420; 0x4e29c58b7a197396e0dcf2a261b8e1fcde226f0e; 0x4ecf7eb795fb96163f77964ae86cd4151911e05f; 0x44fe98a17cde2cf6f7327fdc8c0b0d45739390d5; 0x2e0e6c40dbfb6f3fd1d01736da5b6445ed58be13; 0x71ddc3ae3d69f5690a46e98f81dfed1dd83bf29e; 0x5aafbed2b101e94b57faecf8556a529f02e812d5; 0x758bf3998e486e3263bcf151f78cff91314c8b2e; 0x2d5b9e5711a1057fd40c26e07383544bc87d5915; 0xbc4a49df85fd9a8719de39d238960b141c57e0b; 0x3d225f3b52f92aaaa5247dd3b2fa9d948bd4cdf6; 0x7d02ee07b4f29d85362d0df6c1712110b3f4985; 0x245f81d4a7a4523f07dc37c6980cef41464c601; 0x670b046bbae0c77266d46791c0c5f3403f88656; 0xec9c53bf28bcd8917a1319a3164b91dd105bec4; 0x739c03e5192f9cba085ed20abdb0ede38558fe19; 0x51c2d9ea4ac8ec1d822ff74d7111d562aaadfb14; 0x23869b98f06cfd05f992845845d0c38fcd565460; 0x4c1f6e778e6b21e69ff6acea0acdb034c64c7c7b; 0xc02b990057a18e1551b88c9f39ee2955505c478; 0x6a622dd387516156e7fcf8c83fe03f5a4ed1; 0x3644e33027ba9ea479349e220f64b47d08f5e578; 0x20fec80d9dc5acbd7761df2d87e9f28af1a33df3; 0x1e5ed6f312f3303c7c47d5d4f41ddd02885002c6; 0x47d1d11072e09091cb58df41185b1f79fc5a1f4f; 0x370c51c2d4a13535d157eefac38f89eda18c96; 0xc30fa2633ca34666daac04be422c4e6366546bf; 0x6e2adbd0f8e9981453f4e7ac6889d377878ddf5; 0x5eb2a7ad3d97b44d0606430d442339144c7f8a6a; 0x92fd7f48e5e446459c6fba7194bf83fb55c2c1d; 0x3735686c6c198df150f2f0c6e1e089792ed9cd68; 0x5b563ee77a27617e5b41656fa54bf1b6bf854fcf; 0x2ad4c8ccb0d7aa92167451f993f41803fc7f5a66; 0x35957e52da56a7d30dbee9816e9849c4ad9d6431; 0x7372b34a5b4ce2486d20a242d7f0487e806708f; 0x24d580d70d8f1f40ea30d65b455694bbb940ab2a; 0x2fa127ebc3a2c6c9a0f1d2d6e4b2187f534fc948; 0x33d5ae6b1b3de6914c7ac4502ef35ae81c9eeac1; 0x670ed73475ca40c3c1717611347e6d56dd2a728e; 0x5371d1b7e506ba60b652108f5d4df480a230dd9c; 0x8558e148ee4fb3d866cce6a30ad632ba9aa8c85; 0x192f9cc89bef35484ebff63116198fae709168bd; 0x6f2fa2c39c376aad3ac21a6c00684ade0a1cf652; 0x184ea2fbb4b918ba5d13d4cce10267d51ab866f8; 0x7f853ff0099c6d5b6496c66e96cde2c4d4149e5; 0x2ceaff193861899320ed0b9b0a4d53590f4b4e0f; 0x8a49d8196a7bd40632ad29980abed2badd31ed6; 0xc1ad31c17c5a43c1db5920c45402757fc7b345b; 0x2498da8ed89e69178621080c97e400577a4f64f2; 0x1d34dd688c2f9e16d3c2edd9948421e8f4b0287f; 0x1b87520e00b84c791279e8fd467e5c966dabd19; 0x7af54ab0f5ed90393e5881ffbf5378411e71172d; 0x86bf67d064ed6f49573b16888a5dd471aeb9544b; 0x5ada99eb10684b4e766611f5ad9e6968cfd4b07; 0x29231e3be29717a048b4a2b8056094f11d1aabf1; 0x3c0d751b846d21520162bb2225a4eafdcb13f594; 0x37e103b5110ade7ada76138a1511771325e3fe42; 0x5e4f67fd469f6db9f564bd5fab321c00dc428e90; 0x29be8d8c4b5680d11a31fb0c261fe22a3ac43a6d; 0x19880d686938cdfb532839218ac5b304f0b485; 0x1ecb2433ae3893943c1b934f5af29b5dff166743; 0xb66ce4bdac1898eea16334b0f41638fae96581; 0x2d31b91161e14bc7fca71335ce712a39ffd734c7; 0x8e8b65ac6dc156fe6146fa89c493e5f182d47813; 0xb40db1f130167b2d215f43cc0334eb41e2d5fad; 0x71d1e5283a8a1beba9b3afaf515df685aa3cc4c9; 0x519c5c6c36d04f06cd6f3020422da66334fa8fdc; 0x20f860f67962988223d35ab1a79290df49f94ca6; 0x3e01d26216ff8f7b6e9297b754fc4b202465097c; 0x2d97bdbf2a97df74dc4caf20a7a21b758b4ac3fe; 0x37a7838b05bc956a76adcc37675465dd084e884b; 0x33d343924e7a0cf71f721dbbd2f6e8eab98d71d7; 0x7fcaaf0e3c97a576edfb9e4accddf363ef31ff46; 0x3b3d7a985f293075f1b49c31ee8bff98d3867573; 0x19b6ceb3af7a777fb1ec870e4a85480c76815f5; 0x148fb4e079793b4c3327e0fe6787cb7dfb3ce80; 0x7ae437f2d1a1c2a78717ab16d94569d7f12154b3; 0x4c8f75cc481f2b6d6a07d7c9b6db95e9489b14cd; 0xe328e08dd6dc0df61195033750a8b192a7635dd; 0x913644d425d6567469ac58e1941146cc45e51c4; 0xc35c4b7c02941d8191b36052d44f1a371a3a1b4; 0xbc1d3a96c204bafa818f68c0451a72b65f57827; 0x519ac7cc3e1eaa22e03377b832579be055bacc59; 0x2684045a3defcb6e658e75423ebf6185418c9848; 0x4616365dbe6c8d8f359da26ace6916a22c099b28; 0x7c4541dd508773363fbf909f3d263efb6bb32c03; 0xa0dee305e4a788279cc6b73be794981a4c5e6df; 0x5c042284255cf43c3d44abea1888b46de75131c; 0x28d906a1c8d2c79c036437e8e750c0acf89cd7e3; 0x476aef8f9f505dd6709b675889714a3a0f590ceb; 0x1a03861237ad6d63b1b0056b3cd17d23ec613c7c; 0x41f16aef64b9521fbd2625295508ca3f9a52562; 0x69502af31f7c081d420b1856088c4f1e3d37be88; 0x262b6a323d67528de2076f328869fe8de8227dcc; 0x4cca0d3228c1cf612a611a785c15fe074e37c89; 0x25781ba700a965b21e1774358b542a082f6d432c; 0x7b1b8ca4380102d9e213788f0354a6e07c621b55; 0x1412c0f298aff8becfcc938b2a46c53d8e6a2df4; 0x206cf5687deb98f159d0133271124fc4494a3d9; 0x4be68877c39618f479f154c0a51b34695a1bcefc; 0x2911f6ed7898e9311cc4415fb63e888abdecdf4e; 0x3539ea10e559333863654f30e97e72ff9a8a428d; 0x4dccb68670dd9ca127c8fe2c8d9804259e94450c; 0x8a01e89cb54db88d86b05d919255f969866f7b2c; 0x3e9602f4fa4a973164ee29d224e4e65322e241e3; 0x1d83c246d0e66d0e2eea36462a46ae78ed17ce55; 0x35878824acf5f2c79ebf20798145aaf324dbff68; 0x330c3f7f64af8c0ec8ae4170c316cc958be561f2; 0x82fb5b0c2eef04b784ca8ab57c6e396fc94facfb; 0x12925e8e3ff6a5c7838be15585687255c5eb2257; 0x6bb90d22e10f4c21ede9d82ecac7bd0af6f6647; 0x6727479444a61f90b2dbc4549bb5b3657744832e; 0xe88613dcb2b9e4d27b052f20ed92b4353334bd2; 0x144c8d35a19afcdf7642ad63deef62a174d582c7; 0x214cc9c3f2b9faf2e60941641293851c5b285ca9; 0x34218230686e87076d920dd9d8f3f3442930c040; 0x43ea38dd08f8512032e58ab242b0915d8112e409; 0x1af2397d44963a4937e12b8302c50801a9219b9; 0x82f947855a3ecac01c8af210924a2b76ccbf587; 0x51a7c2968b6c33c5070a39f8f284b2e3d0d1c959; 0x6ceda236e5a7186732b98a31de375f910397756e; 0x7cb67622e2226874683449ab0482c70d072c33c9; 0x3ba28168a4fbf628b8f2076d48324d2bb12b029; 0x3592a8b188ae9359e29ffee2b9a0eff9263521c1; 0x1d55ab0ef6f49d59050b17586e0b490d73357f64; 0x435d915f0768e390d8b41cbee048ef67c9b6d04; 0x2d2571ef6678801ce71f1b60a9231fed6c7c8510; 0x3b659b9b49594bea2f7570bd836d7cd68e88cbf1; 0x450b72103ee944d674eb84c540039923335bd500; 0x20242ab5923f4a4bd95db4ce65983cff9fd9cfb; 0x5d3a6afd81c8167b796e203d82056bc90f886635; 0x17b6594bbe519c84bd5ada72031f909e608ba36f; 0x2f92b807cb21ae7ace3a85762a5e7f27285cdc76; 0x725f4fd2c421b81bdd81d06beca2b2974d15ab3c; 0x267122f10ca228da3ba49bbb2c4bbd3f7478911b; 0x1e6f8c87069afdd596f11bb35f45fdb824fc2de8; 0x47276d327083c09f9fb1bce278e19d8968a9c643; 0x211e131abbcf3bb6672653cf9c51bef01e9c2d52; 0xbb20eeae106b9b2b93e5dcf78f891eadd268295; 0x2f9df022a2d8700a3d46d8bbbdccc1c3b19eb980; 0x1921653ccfd4b232b4fe8b03d820af4696d87c24; 0xb6a2c2a5c53cb40c74d322c46a3ce23d5415355; 0x556fc5ae2d23a40462809b5f38e11d44334fa656; 0x3a30b5139c564081a35f583753e0cc9cd90fa39a; 0x2ddea9a6e597677fef4891dc99c4daa023fbc4a4; 0x710f87855f604ddc6067d4f45c4537161279a1; 0x22f2bfdc6de0488f8546257a0646d371fc054ba6; 0x4c83939d9e92c3b32155788bd83989e6eab3afce; 0xb64bb35c2c3e0866e25fb9916c6b18b72951185; 0x58b643b23770661e2db277ef6e378bfa8efe42d8; 0x703ddec1896283359c9bdf2acf2a0ed3efebfde; 0x25d9db1a3434e1354910ad106b74455b865ea99b; 0x4ce9bc6bc5951b03329ed923a74ec2207fe2a040; 0x566ae24a9bbc3834d1cced3f77d49c8355d855; 0x165cf4eaaaf79eaf2c8b70d74d4c574bd5540f1d; 0x3be79552d28ea43b6c4bfb2770f20b7cf4a2fa5f; 0xe158811df4c4eb6c6f5b52c4850527d37ef620a; 0x67d429c1df22b9347d5f72e9c284ebb25c4a3680; 0x1a76230558e0ae10196b2a81215747aba52041f; 0x758b6c9fbcdf2e0c085c4ea7bcd308d30945106b; 0x685e599945f756abc3f2970863d0cd5e5ff7c35; 0x23feea2d17b975da066307f859c33a4f58f515f3; 0x2763f35409bc1ca38f156c9c60d863a5bee27f81; 0x1322b80d198ccda4badde7cafd037fdba0c3cff1; 0x1a3929579e89a53cf41d932e3b84561901908; 0x6e3c92ce8addf3b35788b47e9a5ccf02d8422a76; 0x3cea3967270adbae08685cdb4e0ee79de73ea89f; 0x788843537d7502e9e8f3079413c91bb96e7cc1cf; 0x47cd2d621dd34f75936a9c221f9050a1e8babfa7; 0x330d02d034e29c4a4f73583a04c11569ca90f1d; 0xbe3c37c09468036a8eac05125d8b213d85bd1f; 0x7dff6de65df0f723ea0a7327a81e0f6c3b5d6afa; 0x13c555f55f95c89c8a67ec45cfe15111ad07bede; 0x7aa385324c7f8e2f069a9e84469101717ebe58cc; 0x81ca9fac13b6a6d6fa25d0b317510f07265b61b4; 0x853cf5be90b4de5dcac2441c5d760a3cd845b58; 0x668efdcb24f0e8e869935cb309c8a5ac9b2a76b2; 0x4cee5e169c5cdc752c46ba90a228611809f23440; 0x4efd7bb3b1731d1498f5d614acc9b5ee6f3468f]
    0x915a3c97e1f064769fa3c1c13714e947fde75b95 0x83fc873b067687e40e33c93e9edf628ae4e9ad74 0); [vm_compute; reflexivity|exact prime_774023187263532362759620327192479577272145303].
Qed.
Lemma prime_115792089210356248762697446949407573530086143415290314195533631308867097853951 : prime 0xffffffff00000001000000000000000000000000ffffffffffffffffffffffff.
Proof.
  apply (check_ok 0xffffffff00000001000000000000000000000000ffffffffffffffffffffffff mp mp_ok 0x926d1276e41fae13fdda5f78edb7802a76951509 1 0x1bf921271fffffffe406ded8e 2
    [0; 0; 0; 0; 0; 0; 0; 0x800000007fffffffffffffff7fffffff7fffffff7fffffff; 0x7fffffff8000000380000002000000058000000b0000000a000000017ffffff3; 0x3fffffe8c000020bc0000300000003a0c00000fcfffff9fbfffff39b3ffff2f1; 0xffffe33700cf9a10f9724f1c03c5e05e1c3894133fb5395e5a07db3a3deab4b; 0xc250ed7020337f5fa83e7f45ed34fba1d6b39ce9e8b396aa893d65c073e5a99f; 0xa9a2a23a45486a396101626d322aa8e52f35ddc0ff046239a1a38d7e8953162a; 0xb7a02cc38220efa69ce8ade4a8cc57fc551f8a28bf1d214646d8f792783a; 0x1750df5cac70c94498a7a6e1ce8d51b6511d45d325e87f3fcd219648e66a7322d; 0xe0f8783f1c609b50cfce736f505a4fb4a0460ffb6166998e5e0b893611a0942c; 0x2ac76d84f586fd6e4955c0e714f0a6417fd82621437b1ef431e726b03838a696; 0x771cdddc0382e4e12ed1dbd123e33630f6d66a4e41695d7b67977db5dfb95770; 0x2e0e5ac759c63e8bd10d713bc34a2acf446f4ccb57d8d86e5baf4dcc88e4f01; 0xf08281159feeb5aa0fe232b9904b435f312c9281fdbb86844b580e28719ba4bb; 0x5cca002254ddcae8fcf6727b6b54174328e30ec935c90cfa5685044a606300dc; 0x611708e86e6f67a788ba6e765f4867169e244f577c02e2f1305c14cdd65e4380; 0xce0fa04ef0021f74d565489db55148135e48afc9297b2d5052ff00c2b3129e1a; 0x3ab55ef3240dc8496ec67bb9fb9511d327736abd6c289e811b5d456fab5887d; 0x4e5a84056aef2c2b3662b8ec77b162bcef0938bb35b7e4c6f9071300c2f6e5b5; 0x37febbad807e927a7c6a4d2da8c314e06be08b4d63bb6818b3751ca66f24b43; 0x1d1b246c4a19f0d0387ed46217c21aeff3a00e537ccc75e20b09b847458052; 0x151e86cae1cd994558f4101ea909c8f4dad42a136f8d9fabf70f80b77d49ca96b; 0x1aa94b71f36e9ca52f884665e67419150edf750a31b36b806c9ebbed0102751a; 0x358553d6356ae530ef8d4eb9bcc2da8431a39604ec498de05fca29678c682f51; 0x1bfa6285582783a32c583922c30934781ea951eaba78e4b69b8208c016a8cb16; 0x5f39cab4471fea4ae1cd998ff89ebf084a5e057dd0eb3291992ffcc7048c57; 0x6b5487bff9ae43a38640dc5bfcce20636c601a996ef2ebea9a2fa320eaf224d; 0x5ce12058ce5ab7987dd1d514e820ce1b0ef99bfc7ac693050050b4c54e2c7ec8; 0x144e32424a4dec73cc2f2b5467438fb92df3776f65412b3f404348c79eb35ce24; 0x1c63c67b3e21c2c9b2491576f1992796f6d0007480f67a6a5f41b27c4e5eb9820; 0x4938b5f14361a2dd5752b12d2e94ae3f84adb75bffbb4fcd322076040574f5a8; 0xbc801423e8b08ad720daffa7e77baf63ba0ffeca644ede3d211029bbdf701612; 0x40d89f32cac027254e18f7b3ed8878e96ce590991f4d934968bc0cfa85fb1d3d; 0x5c308a9f16acbdd296113e0da4f56722758221b74990509abc2cf22276d63; 0x306dfdb1413e56e0709b5fc82d6bcef2598765777703183571fe2ac8bf233170; 0xb7dc056d7d9fd6669c6ba85c2d268c17b3c5a062fb0b326d420b2f02949a4c61; 0x15fc85390e8fc3bf43cb6edf6ac8b8fe1c7229ba3f183feec1102fec8800e3f16; 0x7abfb164fbf61a509ae8540525ba89b9e43a88a3e2a1011d952162fc2d895b5; 0xbb460d18d18a1d507d6e7271f16f80b0cf2e946afaad85ca92dc4b4ef63c25ab; 0x434b5c1c30a7cea9d54d2e45916881bbbfb2b4be75713b58d020747edcd094ac; 0x78c46fc4fc7b3bb953f7aee746528c58d428c1bcd31c18661f9b99b1dce8627c; 0x2efea53e3c5167cb0eff78a400b3b080b6cd30de98122c3f0810797bba8cdaa2; 0x3bbdfd2c49df4d4d30008f09eca79dee97fc7638ccf9a22cc5002bc7d51cf486; 0x5da1253d32450f0e8d07d4fbb00eeca213206bad3f1b2158179de7027f18657; 0x716ba45f9b69a19576fa6d26721e06b4070ebcb02b72d17c2e792e4f97ade48a; 0x155e96d45c0fea3a441e77fb08444dcbfd85860518721dc71a8adb720d37aeb49; 0x1924e209d3f1bdd7fa6bb5af840332145412a5bc85f5b77818745329a0f916c74; 0x1d2d0045b4b557a51e50a62f6f874f94934a0ae20e4dbcb46cf6c02ad4fc630b; 0xdaaf6168dc50f99ce336958d02b23a84e42e331b82b3db23988ea33553bb2dca; 0xdca9b20741fe7f07308b9169567fb280c00d9971eb9c6c7fd7eb6e4f36a655e1; 0x68168fb3e8aed21bb183bd7872dbd14e79cd004a743e64431d6d0286549b6c2; 0x1dbe46251db6340a0b042db2de63155558d35ef34e05f9468df557f65113f5c21; 0xae8397f648c697d8d7f2c947df1cc674134f3952b8b273026376e77f0866a3c4; 0x2f0a2f83e0019859d332930a922d0523d8facd78d6d8da59ff4efef45fb92c38; 0xd13edb8c6bdc4fad615c6f3e4e90c216a8fc6e6f139e88ae08ee7e971bc00a52; 0xdfb935e876689e285793d2cae345b2898855545c28d89b014af3547306aee60; 0x8ed76aff0ff3da9d7ee8b3600ae1e6d9d781ac5fbf4c9eb6ac79f4fcaf2fb3d; 0x243533fa95178a2b739b06ca32841e485c54957cb7b6759a06130cd4aad20d1d; 0x668fb655cc85e23b12725a74ed30017e293e28ee1778bbd30ae4def0883642b; 0x5a5e5a3d114ceb7654c9e57de369a2c07178689e9b14ec4bad98e389923ae890; 0x4db49af31cf1808d01791a022c26384b292cb5baac86ed3a828b10d3d33ea8f; 0xd0b4cbe18a5c8c565161c300ec7dc633638bb37d8802fc7a885f847880d8e264; 0x410ecc8ea808519928577cadfb70952c6b45ab6237f1781910582d640fcb567; 0x83823aaf81294c2f612eb4f836144e3cc5877b493ffc2cbaaf55c9c09023aac; 0x4953aab48502e6d9dc371525c8d8e54a71681a0814b4d723288b627a8b853f50; 0x166bad5710ff61e25555a8fb2007a89acc4c313eb4edcf1be621bada179c95b0; 0x1abf601a30306c8388acdc02090ccf4b90c17aa5477adbcf3b1e631b323b655d; 0x14ef95a65935a3bbc8b531595352302f06909ba6c67a01f9e53d8bc19884657; 0x393b0fa10a84fa7982b269b90ede5bf30bfb1e615836645ae2209e0e4ad1d2; 0x4e79d79b717abd77682ae1d8d117a8235e93df38a38acb229be20bc24b232421; 0x1f6e24a4bb74eca2fbedea77f57c4f49ac2e7e02237d0f9de1e3bfe91eff5b13; 0xc4bd8fc9e1ff7b3fe9cfcfdc9c7e666e3dd979462c45b7431fdecd0bff6699d; 0xd880b4eb896acd0afd327cf826d82dea4683e2e03f4099ffebd3fd69c3707744; 0x19a5e0a5b941c1472730de00e2f57709b504d6ce14528043b02b289e79911d70c; 0x6e74062977f48a0bafe7f5128f9108fa9985ec28f4ce131b4e15f1f4fbc6594; 0x1b7b235b9369ee08d91b7f08f06abb533b4c218566a210d6e6445b2d5268b3ee3; 0x1c342ad6b0dbc1f60c9c4d0e246692b803b1234b968cd138a585b6d75f3a6c0f7; 0x16130a9757639c06963301b8f875af83e86a2ae6372745dbac2e56604562465; 0x10e28933b36d3270cbdad53c5f78dd1509a9fef0b975a09e4c50122601094f100; 0x1f84258a22adaba35f152ff159480caea4da5df6c831d8568729d1cb22e52cea9; 0x2f16fe27b6c8b75e42a0090dbf37fb21e211fe64465a1bf7c72aadefef398b02; 0x1921d27f11282dc172d226d612abc655d6d78a017131c33487df769d9400f6d7; 0x40009bb3a2dc31b0ff913d9f80ab2646a2f521e93283400662b8bacc119dd281; 0x77fa19736c38b2cdc2b40f359382243247053ab36fec2a97f2138a7a4ac577ee; 0x11c412029567ecd6851c1f4b0fca7813bfbd7a010bb5bbf9b580fee4ea50ea0c; 0x9d5d266c847f5251f364aa9a44adad0471f2e873818f7e0e4c2498b9f58d; 0xea39f6cfffb6cb2db04f2ceb4b16b834848a649663b795cacc0e77ceaf325f4c; 0x3891b3f2430a42f80368ac1f53babc9e98e7cd7450bc844fa718bda212b30dca; 0x10aec70f3107d390a40b4453d5fd3b473066788c127cda63dca32359efe9e8d3c; 0x11535cd44c2464f346ba0d2f12ad13471a3a4410645dcc4a8303294de4b3f3e]
    [0x2f6b7657e03d15766855d162d1bdc06c7e8890002f3275d2fcbada906a78c38f; 0xa58a978829c10ad340589b2f0bcdc85a2a8151ab47c48abb8f47d046a6ff34fc; 0xef85e3508b2f19088d059a9693e05f77a932fb61213d936da095c7a018306358; 0x500d52f38701cf683bf0692edc452fe1fd772d14e4a85dc5fcc67f8fa13c331f; 0x51a268f79c4cdc472e23335965bb1e0f2a45268eb22d8bd8b12855b2f6333d7; 0x47d599e6d4d8b57164d90447d8c13bd2833321b7d7f521b6535896987e9fb5e3; 0xbd939ae9e219d5aa8ddcdfc5599fc46b5abe89e87e243ac22bd3b6a1df833417; 0x642afb8e8ed07add914b8a281905217eea7aa264be2b19d629fb7425b19eb7de; 0xa393cfb0602016dd366bf1a6e4f1089e58763a3ec46ce9c4b1e6859aaca977a5; 0x14f90a0da1123769aa569352ccd040035a2c19d7f36ac863b455aa1ee9508f8a; 0x5be3d7db5f71860a4f06ffe6604b03e7b2bb28f3d82262d711fb991ddf3ae954; 0xe02e03af793ed28907c9772fe390fb2c0a439ef5329d838c50e087fd2ea1b9d; 0xbdd6c5345ca798d5b558b6eb46b00979f0fc474bd2d4ca9cc61eb59a43438479; 0x1e85d4b18581250078367f58c5c723f2e13e0ba387242990561641202e5c3a0c; 0x15a980ba8526249b49b5e9e1d8a9fbeeaf07d77e9e94f02e4fa449e8dc0fb7f7; 0x9b384174a0a90c1b7d8eeca6c60f2ba07b13f3c45baf9f63a3c1e7bc800609d0; 0x659106210ecad21a7430b159789f9b596358aa982ea45df2570d80850a505237; 0x6762591b051a0cc75d1b10e56853d4143983188bf20e93e5da37c6d83596b773; 0x13f48cc70586c0246a1dd91c5f86914fe360693a30ca3ff74265ecdd5c69498c; 0x74cc6656f928b164da6b4da1ac2d7fe5737ec8fca63fe7a3cd8ec45981faaeba; 0x4f52468ec98210a20613bc2eb057dd1399a1baf60b5291ca5d8fa8ba2e1d60c6; 0x10feffe3e35bf2242f98876d642ecc8b2b5924d3349c891e3bb645ac3b6e6c8; 0x527f6bd2cc2185e33ad9afb7f08f1d6648c5006a2c9237bcf8c195f83f412a08; 0x496352378588bcba705ff7dcb39586dd8ac94d78118099b45d451798f0895fb5; 0x224999a3c242e85acaea9fa39006d927830f37cc99e8503a3b5b0115d29e71a; 0x16e57724f4e7bdd670c660d69e4524f7341d31b7e97537edde6c8f9408ee5a5e; 0x4b638146ab216ad3b844f952aafe14b010c78c137d5d92d1d6beb38c6f4f5e59; 0x765130fbfadb36d88310a5b1d636ccbc7a4754ed011519944e505b9ad12f1e75; 0xaa2af91e9f7527665353e5cd52e1417adb86173943108ae5a2cc90f348300b37; 0x8e00020381252fbbb4422fd399abe2cf63778d2c568bcb5772d0c71fbfa5949e; 0x17f3d2e3f96fad7f5c678fd66bacc69400f8bafe1200c1209f5bbd7184399d42; 0x4452a2bfdda9bd86f509089e831d1c1d92a9caf836e5837139f4a244a107e3f4; 0x18bd1d246c2c8e2538b561052e50956ceaf7739cddc847389a7fa979d53ab868; 0x8ad1212cef01f5f1681b1ca6df3a4dcce248e17cccf23d3aaef70ab48b8a26b3; 0x2b0aac22bfe7876cc81b7ba26f4859284088643818e8606d97209002a3d8208d; 0x1651b1a98d9962b29b44eaa261b02826cd77a1c053d5b11886d107b6cb398fc; 0xbeb155c64d9c0aeccb9a1849b6499e443046585adac5768818a0306382dc7a2; 0x2d0a6e08a521f98a35a919c2632b10cd558e6f4b81046bcb41090e67349ee17; 0x28594abfb086529cf9aab587014aed5c45b157fc8c39d57ae31304573501c745; 0x37728e4603f7f391bec7c386e893bf768923199d26e4fc4c257b97c56f07852e; 0x46bdf23ae1cf5704260b9506a52d1fc49028814378341bbbe01d0147d97c691; 0x5bc6bc4ff3bc67e20a44c94ec92e8f2fcfdc011c623c99b784aab8450e758e4a; 0xa02bb1c65d09424f45f6e1d05211a0459bf4e49968439e3de95059a8df6f2be3; 0x4a3798c41725f9cfe59c528fae3a8d804ba208a233ffbbfbc636cb9111ccf353; 0xb809191859d7f7afe132f58b2bbbab9c4cea11bfed00fd367c8ce506f67b8fc; 0x1cea961ccfdd0e592c403a6b6af9c9a815f6e50e0b37f1415c6ede364f4977f; 0x59d2d1606b4222564046d4ead6ea5b40f193b71ab51d99e9a93a9829d1e5dbb6; 0x6a7b6bb9f1b805158d5a75fef010231990d2773b28ef744f4e364e0887e2703a; 0x25031b0538cf129bf29e3962e171f375719aafc9016fdb146c267df452cffdea; 0x5691fc3dc72a2c09e5340136bf2c71cbf8d856be40b0f3c948fe1d1a9e8b9dfd; 0x6af522ba8d0195498314feaf16ae63bc7cd0ffe20a8c2631c4432f087b1270f5; 0x403359c0ae1d18537094ef63cd60698327e8785de3fd37490940a9767201fe0c; 0x796e49fe29b601a5bb17a3e2414b07841d5e96498c5f5d521ae0f8eeefc27369; 0xc3591d0a7034050c7cf371978fcfe104eaee23a76cf25ff903f7ab280850b92; 0x3659123654cd3cce851f768094dfe00219b8a104a07e894a37574a6c065b370f; 0x41fab174e6b59afcae85d52939110bdd6b78d888c07a5b3b01280c573ed039e; 0x276ccd1dcb127c56176bdd4b0ed950e37e69561f229c3795725fbcd24dd3eee6; 0xc93bd58fd639c53411c552ad72bf847275587a0b42519a6b41cff921d20f16; 0xf230064adcf070cb9dfdba6263ac123c8503c3e22e240aa2a91465254e1bad7; 0x7f1e667cfa8ef7ab7c3b64e626aa7b9a85f200e4d283fea533077f2871dc13b0; 0xa033003faab7d6cd849bf87c3f8948ef6db0505f1eec3d32f811ab1564b1158; 0x8f40cf0c662f79c1a8b2a0a63ad70a765062077f63a373760792f7a0a40cc3f; 0x3f2adf57a64f5e9f5835de4dadbeca63c511841ab0d24196fc31eeaffa313f7f; 0x3fd70a681e83dc2a93da91bf78a08f3dbc13d12fec1a1958dff08764dcb957f6; 0xb9711df32c038611bb34f68191fdde9476ad957111edd93aaf88526f865423; 0x2e94090a52395febf217799d838ca5c74ec4ef64ed012b940962bec268efccb; 0x5476e680597944b03998a1d6e6afed103a6f7fbfbb2f523369a71b0f6becf195; 0x310096470dd5601889c34a227617fdb23bfe5138a9515cc336faf8cec2be9954; 0x1bf091ffa5754f7cc070240925f3e1075efed4ba9dfc19ff5d658aaf770a43d; 0x57bcd78012b096ed515338ab474108aa93d3e25c308e407891f3b94ee97de229; 0x72243228d167324d3492e960b0e320705776ddf0adf122a1dcce01b8b7a67a2b; 0x641f3e31f1e2752fb0e767e0297233db400f54b806688f7bb3a9bccffcbef579; 0x60ca9b786cb0180089ba4dd34398f951c2d2ab6dca3a3ce4be0157faf4139ac0; 0xc81289972ac4dde782041e2c08da6f0fb2f9bf6b4210c7442064ecf612104cb; 0x982c5a5a42cbcae2e1a261ce08c8af598473d2a4761fc347c570da19fd9bf77; 0xd5f0141dde0642dfc27074363b272085e349c9ca47ff07a2f959ac35b84597d0; 0x8d67ae7f3c2c51515ba7e30ddf41eaf757230ba4ac573c53968f2262c1124045; 0x2c3b00a6bc5b0924dabc6232bd68849b52534f82acf6ebae1bb916446c607635; 0x1c7c9051b7b3abd57a2d5c90290e6f0da865c90d057ea94dc3dc53aee82eeac; 0x3d65317446f22e7187f7d5f9f9223877e1997f0768de008c77262a09fd431558; 0xc5b17affb042cc7f8485db59d93103f96aa28b41a2d81958a054fa915185f7eb; 0x67225941b8d7c61173d946182cca43056566b5ce1edc34f3f5a0938f0a7e877c; 0x5a5ec6cf4ca8e7f1ab50c1ef27ae76c2a1dd5f9ee5b216f1487ed3b026d7deb; 0x36c14c02b991395462659fa952f0dd8495ca50837fa33e32ad653200eec14bac; 0x1c5a5d58c57d5902f313a764a676dd61aaeecfe0c0dd55dce6c489a4b579c6dc; 0x206c9913e2deae556c6cf1e5ed446ea60360d8be0562fec21522bb2879d7cc67; 0x6e1d9b5afea1ec4ba9da5ba93828fdbec3efaa78770024356d17f71f40f0edce; 0x3a09b9b74842ab20fb33a9fa8f7ab3849b354acfbb0dc243a6e82ca3314f7a02; 0x428668cd73b327685d959cc7d7e4c6846e02350f7cfd9616b74ee7dc9b0fad1d; 0xd1b72dd5e725cbf528edd9bb8229b1ab735beab15135b4c2c531eac9f60c57c4; 0x9ca21b877e3cb3d548bbbaa7b465a6845c38393d696c5af694388d0afa0dd9f3; 0x1f4f5f5b915adc63af0db9136f57bfa8c25b0f524eafeeb349f6b1a7785a79ec; 0x50ff9b57ba9d6b5e6e378db851f815c41aa7777343746ccf079daf28e00986b9; 0x2e4008f37565aded35f336c74a2654ff17eda27edb102625ae1895e3ed728c4e; 0x2ae9af2d7825e569394b2c6fdb533b23d4244e4dc7c15fc76cab0210a8e924e; 0x4aa2dc39fe7f512d321e31cb2ca662a83ec3969875fa578b581d2a2410638093; 0x8aab25d980483500df632d03a3211598731442dbf59ad143463c6086e561474; 0x6a1b753e1edd3fa7955bd13c14f8a6c1c5267d313b70e9ec590d3409d0bda383; 0x64ec0faebf431825132267d54a0955f634f8bd817d0eb3f95b7b4bf8a91d9e44; 0x14ef0df5578ed93c984c1a844e04e564f6f0a61f68c61181b215802fbbb6f0f9; 0x2fd3955143e6ed27b0f1df28199cf139ae7e237a88d6da64db46e04d0c6495; 0x6235f798adf962440ac834d1c2f71181131a55757fb9488dffacb139f32286bd; 0xa966bad5dad615276237630afda8bf951ddbd94abb307955ab2fae2f698e408; 0x11c52e60314fd7b3323f69d26cd50925ad25f7cd23bccecdc61488383e8ace86; 0xe22032077b6989a402dd9ffc7922a74b206ac1e45389d41ddeb5fb9d110b74c; 0x46027e283b93b9cde396106503d0226de16992a7c353316210a1762f59f713a0; 0x1746d2f8cc43df6d21eea8ad6052456060e65b2ee10561d91cbbd33cef4e58d4; 0x12318f305800bc5a211de233dcaf64cac70608561c4ce2bae4162a91be79dc9; 0x6c0a5c3c752c5ff0ef5faaa53cf979cd18406bc4edb9cbc0c2018fc2a70d8b7b; 0x7e97438fbf50ba1803759973404405ab7739e1a592521f659eec1e103584c29; 0x68694e813c1bda11323bff93f7bc79663f2f8490abf9720f6bb74cd1ad7e98e; 0x74a7b56730ef122c288ae04f710d368c0289005b4e4b864950b58f7d4e8a0a0c; 0x87dfc2f451e3aa2a30cc65b4bb825fafcdab1ecb25e8d3c41bbf1c1f6660375; 0x27dd2bd22c4e872e1d6d6cc8395afbd01569cd89ebb7692ca016a76a554c51d3; 0xe7cb677dfd31386f328a075508dec48df01dfd599e412d7d4866915369b43cb; 0x7797afc1d637d184c6e36af8998b6dd3fded628c03629d51455053cffb16aa5; 0x38a0e7e16c7fc43e249f379837309fd77157c5887467aa7ad1a5487ed3d25245; 0x6715a561ff05358a761f3ffa1bf9fdee09a23dbd20d6b1d311cfa43f5b84cd28; 0x499139c66bd1d2d8e95bf0aef4fd380a3fb4b94da0b4180e41f9a36588aa3e0b; 0x38ee1919a54c1f416dcd6ebee83831fc3a21cdd957ffb8992ba197fd7637af04; 0x429b9861c96a17fe8a0647fb93b2c03fd43cd86462330a5eec40d5ec13f828e0; 0xedf7b4797c4a823e7d73c09a6ffd7383100c7795f1e9a791372ecb698da46b3d; 0xd526d096b38a35cdbf4ad53da7b2bfb8a6deb1dffbde795d6d77936410dbdc58; 0x74e232ec065530701de7083c7d3d129d6993f7f862df211de13bee722f2e3f26; 0x6203ba919d142ad04dc4903821c3f3e8828f4711bdd1e81a35ca99eab78d0129; 0x90ea580ff0a2fa6a3f528de1d6cc4da29332caa9c3199c6a73c9c22e1c3adff5; 0x33f8cf42971c2a20deb6dd9135bb42c6915f02f37ba0157896750f41ceb6513b; 0x1b0ff38f8fef69b1930c77285343266eb33e864ff7b575813fa92dcc7bc67aca; 0x5e7666b6be927499380a3bb26a1e2c203d184bfcbac7b38fc3f732fe27d73cb; 0x297aa48b8977b1cc4e63e8709e18921553f79adbe18903fbe08b6bf675ed7dd0; 0x4ddb59eceaa3f7ad8e870cb77e25b5ae13ab649bca8b2094b12a80f7501cf76a; 0x2b4a346b7f5af9c59d78a60da042c5ccf3ae274026cc126d4f769d6a8cef5106; 0x7e817fcd49c6b9a3f5315d18eecb6a483b9d643e1f337dc47c9c5e31a9ef249f; 0x53e7603ecf111f5f7e2b207b07ab69069ae34311a1cd4b1fcb1dc4b029a8f4dc; 0x8a9c66c4674ecd2d7c83d09e34d1a43e8e293e6b5d471d768a4dd37c06252303; 0x7b37039d6dd256a0831d6be11ca289abc463cf7962374ea56f84a4e4337f4d3; 0xeedd5f7212ce9075bdb54e2663a3cde1ff6ad4663c9e7592d2bbcf7eed6fbc46; 0x85af0c946b9b017f51264532f47c70fa76df85e1a53124943365077e65d9a56; 0x4f81ef99d838bf6213c26457eef3319ef6ccea45506b1637198387bd783dc78e; 0x74f462f0516bb911b94e26a591ed40510853b54537a93ac9172fad13834d64f6; 0x2cffff58968cf3d3dc8489f8f99b41c97b581de0c1a88e5c4520c2e8817d91fa; 0xa92dd113017a0b374f58254270ee6ca126158d6e5b403a3ee9269d81d4c8e4eb; 0x43aa3d67c4292fc5973782495dd88ae987c346a8486257271f062807689808e1; 0x75e4c9471f204f58d0a79eecff47e6db9fb2bd3562713fc50e54269357b2efa3; 0x27b2eed7feb839b1f047d148bb94231b8dc4457316b51b121489f9fadbb8fa24; 0x39745379c8c4984d1451590efa83977f2afa8d3ca802d079daa40e59d9fabcb9; 0x35941e49251dc61fd13e3dd590246a4a134bf375291b5dc91bb561450773c40; 0x190c9ef7ad2289b7ef303de7da67af79afe624245ae6e6914f9b6c7dac97ba5f; 0xb920b2c167e5382bdc0ddcd254fd7f0a0166a72464887babfe6d004fb07d886e; 0x231d911ef404ce5201e500ce4f7d58d9913e608919e71d069972d5a6cbe6b6a3; 0x1d2820164b3040cde27a48e140e9145c0198a91099d423fa12bd59e641560518; 0x9d6b00464fcedfdf9d4a913c93b619597ea923adce09995886075cc7e72f5a2; 0xb4c7947ea999f13113acc464e8c39378d0212482892f9e0e2876ed9d8b35977f; 0x2f2f96a86954d1c47bb36c53e22f4c4cce59ac1a8dcd715fe8ba805c7ed11077; 0x93f306d16f129797b2802c3075205dda797e02bc46e22414edd89cb06be7867d; 0x4cf9175b16a7d22eb084ba041602c263506bab3469f58f4e3d8b24b24dc0cf8c; 0x138aa7c26747aaa22289a8649b9f32f9c32bea42b7d3c4e84e1940e9d9ceae08; 0x6294ad7dd8eec2625c3fe62fe6e639b059ce860e39c2687f2826a72de9eb4373; 0xafea785bbf956aae0cefd90a427f8400c7c62207d10a9bd96414f2295e37211; 0xbf8b4f15f8acab81e74668577895a47b0a7ded3eb0250092bc148065655f46ec; 0x5a5f469ce5ade3ab5caf05712f9589d9f73720978759394baabc9735aa9437eb; 0x366bd4d8b2e679088e867516f4e67bc0d767386893cf5ce0e41d152a5b4bfb2e; 0x2da9784f1f00ba9fe5f67109130f4fc96074ab2c56531568b569015fa5f47f; 0x2ca612c4d35624c082bf88fb292bd5ac037ac6f4d3b0bad1816cfdc3a932da34; 0x20d41397eba8dcdb2682aad8570c92b8791d3c79e3d576a8e207abacdc443bd8; 0x1e738de61215b4d88008b3cdfadf495e62439277663af9b58d6f35cb1b6a7d68; 0x55fb581a2def8225bc09376762dffc93c9e8fad7466153284d91351990c69bed; 0xfa4c7448fa7c2121c8138503086efba9dd51409ad9ffec5793ec822c4d5b6a0d; 0x36f052682228c3a5ca58a38ee59c978bb3462dd10605aed55479e258258b5d29; 0xc33a80b27e8ab5781b755797cdb6d77945fd56207e49e2af0f53dc44cecd7cdc; 0xbb1a4dc12f05aace8834e20e399c4b5d83af313afea37b473a6eb267a2a98dc6; 0x46dfc70ba1ea3e1c8b7fd5b227955ffad61c731ef84984d193a7b1fde17b0e94; 0x8afc18229ce177cdbba2861fdd69fcd31d95326886b42a97e3971ec407c401ce; 0x1725b20930b2849fedcd2af5994d83e743fc450af9ff480cfc37aeca227ff798; 0x9ae9df7c17275ef646c3fddf83f33a5e71eddd7a282789784285487a7f219ac1; 0x3ddc62466788b77d228157ff30f4fc2c2e124df567da7c02a8ab6ef5ee27b3d0; 0x213cd2f0a76beeac13d6f14ac39ddc3ccd86b5b345e66ec97b0f0743aa98b320; 0x3b4dfbe2f56447f8604ed3c0100c9bdd8ffe5ea49a347b659965c7f2175997fb; 0x1f9e023cfc8b41990aec693e86b8c3882264e87f5448dc1663699d0d891d8171; 0xb529e496924717456baf432a9ead93b3e417377536760b1020ecf4e8678bb8c6; 0x966b67bc7109dd1acfac5bf133595e400bf9252553ad795b76948c28b23a8af4; 0xc5bd5f1d27461a557efa8a4bc2edd7e7f1de9fa90f28e9ddfd95aec6b7aaf4f0; 0x6022c8116cffba75ffdbc0527e9dda8bc316fe329f9fc5e56e4ed3535b18579c; 0x81031ba7f70307571faa3f98ce4cbb008ff71facc03cd907ebc916205dc45b9; 0xe924cf8671770c7c27b5d607b150a3583ee13efa151b5700b34a2dbb8e15cd0f; 0x9f938f4b5163c9c267c27b702dd8e3ba9d7c8b0b24085963c29d5f9b73929ad0; 0x54993db3b4c02f2980044d1cb3af3caa4311d8eb26b771cfa996e39e3c2ff8e; 0xb08b6e813c93384f30d289e090da4a15d3b4d37342c0c25f75c6a7194bf8ad23; 0x2d802ff86ce0c613fadaf4e7737c041456575bee20d1616a5b2b67eb428516f1; 0xad170fb0ab2ef9e108c5714cbb5820b8a84f3734dfdd169ef1c1244534535b39; 0x2a5c5491f9e9159e56fcbd5d639b1b100420edfe068d26d5aae46f9f3affde40; 0x5f3170cddec26a245e8ccc31e8f503887be62320d56dd2034aa51fe863931fe7; 0x1ef31d0ddc6c9a2a740b4b75dad3c82a9133fb98e85e69bf70a1d31ac9a53664; 0x8d35633d728dd75d0cbc6d5a3236b1d5563927286242063c2f926eafc6bf2369; 0x6d4cdbdce1f3008c7b3c5918edb7ac855f91c3987a7ad8a1699bb53376ba4bbb; 0x3661656531274682e1cb2c2e8fd8926ed898fcbb95c97d06155dd0075cf323fc; 0x4aa7bfb9de1037889e09762e4c39a08aa1367c2e92786c029db5cd7188afc2b; 0x372674bc0aea00cd1f6fce8d9e8fc56f5bcc467919cfcc6a27aa55f6838f7578; 0x313c144ddae1fcb860c5678058a0113844a8da9cc94d012f88b8151b233433c0; 0x62a9b35b1bcc3988263d1d72c8c5b164f70d9471404ab784622c699d23c52aa6; 0x663201378bf56f808428e53bb202a7dcb6358587e5460057bcdded75f5cd76af; 0xad97f2a4124d2462a5c1a6cc97911ef99e7e023f191421801ba357a2c357e4a8; 0x51e82f3c6692266cbc40569c2747f47028fb6cc852243ed24b8131f7187635eb; 0xf21b8b1c02650b4c48a91286ae4839924a42ec61248e71a2b4a5ca6080019f6; 0xdec8697925cd56e77e305746542b2a5b20911a261a178aceedc33abf48bd3fe; 0x54b4e043cfc023ac3bb0117fff93a0a5c34a48150c56430ddcb44f7f31c30a51; 0x5d07e504289a8892912984abaa5ffae38c1fa6e904c2fd0c9d265e69d5cc70; 0x46b98482eacfaedbf4d16ed384e0ae1bc967fa9f409a511005af9c9c8691911c; 0x5b5fb95092e0031c45e26bbc7a7f59fda6b5e449fb34df5c2ed1b080d8450d11; 0x3d84f5ce25863f81eedc94115c0d539faf195842cc4e9de743392a4c955ac2aa; 0x61478ee31594e323ec06017c1822f5d416f41e5490aceceeba4cce77d41bd365; 0x96cf357f61c3e8eb134ba90fa8efd820939a656d6bb813079ab2c9a8aa8b46b7; 0x31a5243af6debc6553a0e6fb8f4c8a7c3730031dde62cf552267b2402063e3da; 0x394a646b7206c7a5287c7f2ac7cd7af796d99aafa6327fac8b5564b6f123b176; 0x47f27323bf7e549dfd5015f8cb8b90455723d351453c556dea4c87f26c28949b; 0x1170950aaa64ce7b887377ab73212e581851331e5fa06e19ec933d4b250de806; 0x58e8a8d4c46d2ed17b4116d5a0f454ba74c3979b6544b20db947aa97de27ee; 0x1fd5e85d8fcbb89abbd48dc3388c5adddca84fae89ba74882691b9ea34ee121e; 0x23f56f636badb10ec1a70d0e1df8441023227885790120fafbae3cfe13124591; 0x83c033c84b31ab72adb3c21deddbd4a2b854901048321c5278fff6650176532e; 0x16d7632c127cd4021e5eba19ebe26d8c26eac41e139d6d5b1faf8641b4206b7e; 0xf1fb64a1652a4902ff25df87e9c8f1a67578af1ce74bcc5feb3146782b076411; 0x12b95e524270b202ee3719959c8cb39675e19da539edab636bc14160a93999e5; 0x2d9db34d6c93f55f27849c433d7b3f225a4c67641e982533984a20df223f19; 0xfae130ef9e20b1735161fce9f7bcef4d57cbb8206357bb49425ac6c2999310; 0x1db23b24b9711ea599f263c68189319a21d32d05aad71f82df47a0662b2472ec; 0x896fc952862a6c6133a370c4cee308d56a5e15cb179e63e6fbdc6afb30d71e1f; 0x5a72decb27893764bfa6d6670b8dc669c784113ffc0e8037e1ae2d43e9a8d98; 0x440aed96d7d0b9fe41f8e8ea4b5dac87747a5a418cc6e4baad3800bd33206c2; 0x390abf8e2c5472fa205e6616526013bd7b14281ddb7ba8d6c86afc02912e711c; 0x32a33d58d94e1f9376ba8c4748c57ab7ceb187e312e0a288daa6a3d7ab1ab0da; 0x4696d3572cef5aa8990312b1b3f4f82daa1847045a8ae64f5e3ba247f4033371; 0x794b95ba5676416856bb3b91e245d16de438220a5dd517389721e9b3e26af16; 0x3008e755e8e7da436003ecaec41b4a7ffd0fcd6c13deddf74df2d92979a44a0; 0xb94b89763a1484780433658e53fff4f8cd55a65e723da58a7d3f9eff99f8bc2c; 0x71bda0252fc0f66e7a235e1263795dcd8b8d4245b6c9138dd63d6c3689b5079e; 0xbc938dc71fd9de78ae453dc1b741d6877b3780d28cbb811ec0d4c834c3058114; 0x17fb28ce05f99d93358e2f1d141bf0a774c7ee74e2c5959a48ef3958697656d6; 0x19aa3b3eac182f24faacd71cb8ef4562976ad35f62ceb42dda47f292e7fe53ef; 0x4125b7e3ae66bb1a644102abeeece581d8b31fc94772646700eca0f560fdfa; 0x6cd1bb8a4a44fa748c0f5481e98e513741b9335737d7ce6ab52b4e5c06b8d930; 0x4109e16385057b44ebbb3a7f79578b0bee4062a5a5dcd6fcfa40e91c67f31cc3]
    0x4f5b418eca523fb75369a24772ba6e620c00261d7f768df08143595c559af3ce 0x22276f3b6051c72a50251baf7be7d0e405575a296daf2bd8e083a1a94f06090b 0); [vm_compute; reflexivity|exact prime_835945042244614951780389953367877943453916927241].
Qed.
Lemma prime_43 : prime 43.
Proof. apply (trial_prime _ (Z.to_nat 11)); [reflexivity|vm_compute; reflexivity]. Qed.
Lemma prime_155317 : prime 0x25eb5.
Proof.
  apply (check_ok 0x25eb5 (fun k => zmul k 0x25eb5) (fun k => zmul_ok k _) 0x2b 2 0x54 2
    [0; 0; 0; 0x6c0; 0x392d; 0x167; 0xa3a4; 0x32ce1; 0x1630; 0x4298; 0xa740]
    [0xe0b; 0x11eea; 0x4c92; 0x2b2; 0x166c1; 0x6fd; 0x11c3; 0x283]
    0x2426a 0x5801 0); [vm_compute; reflexivity|exact prime_43].
Qed.
Lemma prime_191039911 : prime 0xb6309a7.
Proof.
  apply (check_ok 0xb6309a7 (fun k => zmul k 0xb6309a7) (fun k => zmul_ok k _) 0x25eb5 1 0x4ce 2
    [0; 0; 0; 0; 0x59e; 0x83d83a8; 0x28b00a8; 0xe230710; 0x63454be; 0x5984005]
    [0x1d04c45; 0x215b2a; 0x4b6102; 0x44c02b6; 0x1ab36f4; 0x85b4780; 0x3307bd8; 0x5e1930; 0x30bdb41; 0x7b77ea0; 0x3af6e4d; 0x4992f3; 0x1516a79; 0xbf1124; 0x4503a25; 0x12fae; 0x2f18986; 0xab96a; 0x4638578; 0x7684dc4; 0x24d3248; 0x33cba11; 0x1d07d77; 0x20f9615; 0x12dc0d0; 0x1b7a7; 0x29ee5c2]
    0x424d3b6 0x1a75ee9 0); [vm_compute; reflexivity|exact prime_155317].
Qed.
Lemma prime_208150935158385979 : prime 0x2e3802c35c7ed3b.
Proof.
  apply (check_ok 0x2e3802c35c7ed3b (fun k => zmul k 0x2e3802c35c7ed3b) (fun k => zmul_ok k _) 0xb6309a7 1 0x40f17c36 2
    [0; 0; 0; 0; 0; 0x58; 0x23c215e606b2b69; 0x38c05c522e455b; 0x1e7d955bd0dea4b; 0x3a03ed8ad9da6da; 0x406ddb99b0b2e; 0x10d30b72ee2f037; 0x36966282953fa; 0xda9872ae7755a2; 0x36a220c789b4b7; 0x30402ca; 0x17c66aa3465e7a; 0x23069e4f1d3296d; 0x56188a0250c93e7; 0x345f774bea19d6; 0x3bf152ab29c4a2; 0xab93811e789b0c; 0x3b5d61d63bcb15; 0x76ee41f40bc8ee; 0x22c96c6fa2deaae; 0x148e4e37d06bbe8; 0x2093a02a1d6e814; 0x28cc41cab4177a5; 0x52dd79763043cf5; 0x2013dd73154875]
    [0x895bc9f0908a82; 0x23b63d03fe6c967; 0x68bc57f6b9bd06; 0x2ccb4bb606689e; 0x6dbd3d0a3f2186; 0x36cf12a6cfbc90; 0x2bf3b8bf40a3c90; 0x14452f2fd63db2; 0x15d03a2f82f8b0; 0x7ef22701ab792; 0x156e6a8bfbd4e8b; 0x1f82c301a38c124; 0x1148de35c68954e; 0x23baef242e65cba; 0x18bef79f7b0966; 0x2077f3ccaaa6ca0; 0x829f3da44f3992; 0x526661412cdc3; 0x425d9a8d56fcc9; 0x10a5b6b0d6793; 0x204ecfa027c861b; 0x12d69dc707c8ba5; 0xca21a4610e5cd1; 0x2d104487c868149; 0x298588ab081e84a; 0x1d41df64c758ef0; 0x9b03285c6a53f4; 0x125f004a7ab8b41; 0x1c3e3ea12dc2d8; 0x374a87ad537efb; 0xf1c6fc4ce7c8ad; 0xdfc84f9861e80; 0x1fd2f3cec105312; 0x2dbc1fb75120c; 0x16b7db23b676193; 0xdcbf79214b2d7; 0x1b29ceeca80bf7f; 0x11104b11027f94d; 0xca9fe2a0b2dde; 0x12d434182e5e717]
    0x1db8cf470f45437 0xccf4175e547302 0x8024bf2); [vm_compute; reflexivity|exact prime_191039911].
Qed.
Lemma prime_2624747550333869278416773953 : prime 0x87b23e9d09d3e637b2aa341.
Proof.
  apply (check_ok 0x87b23e9d09d3e637b2aa341 (fun k => zmul k 0x87b23e9d09d3e637b2aa341) (fun k => zmul_ok k _) 0x2e3802c35c7ed3b 1 0x2ef9ab5c0 2
    [0; 0; 0; 0; 0; 3; 0xa238738cb353ec29d89927b; 0xefa4dceb9ed7930d1e2483a; 0xccd2ae2b03cf2492f47d0d; 0x3d413dd74caec338c2f6b3d; 0x1e1708aa5eaa378ac52de2d; 0x97204b0d276f6297d044f; 0x37eea4f987bb5e0b2cb7285; 0x29015b011c83a90edfaff18; 0x584529a1139055b73bccfb; 0xc2486afea1125e0d2525831; 0x46e530f3c924173bf0bdce9; 0xa040e6bf2eb89c3e165499e; 0x1ee16d7b63399fa5df60481; 0x2116db8411b9d811ff135fe; 0x10c35315468a352262445eef; 0x305c91b701e5256c0439d; 0x104d7c356bba4b44a3dba15; 0x13687af23082691efae888c; 0x34f282eb8e413413a52bab4; 0x1a97003b51a405e04546915; 0x17425525f1e798d90c4bf4f; 0x8abff2f342e942977e3156; 0x1b70135ee9af3d137531ee; 0x33847a5fc70ee295604ddcf; 0x724adfcdd2c301c25839968; 0x6a5e6550866380de9f838c8; 0xedb4c584cb4929ca8a9f07]
    [0x6f05de70755868e7c12; 0x1f951c195f16c8d8aab64ff; 0x6ba4faac50bf53cdceb6e; 0x6389d49901121f4f4f74c4b; 0x5199a0fe15e71b54528c5; 0x83c000c8a2e27538135a8c9; 0x63647a697d2a76db2d608; 0x1ca0d008b97006e6160506f; 0x64ba52484075007a23ca464; 0x871330cbf72a60cb27fb467; 0x66ad52a9fdb675f556f5bc; 0x4962bba628d09edf27481; 0x4a8b5542d3bde96e1f73eac; 0x1eb0b69b1ff46dae76d4a; 0x409f873f107dbf29c9b579d; 0x1002921d83ca04b52a02b; 0x39ab207834678892b3aabb9; 0x30a3a88a1ad16e485f7f8b; 0x3f9a5d411985dd1cfc99fab; 0x2ecc3bccc002331362fdda5; 0x16fc8d70a520624aec9808; 0x4822b2587793f79327bd6; 0x4ec593e1b9bb13d5b41d47; 0x3c890053ea9e90ad7bbba4; 0x55fa1e3e918fd02963cfb75; 0x6f7429b29e9918104ce8f4; 0x36d88f51180b62961185f; 0xf452412b299e5b1d572a9; 0x27d99b04c2b7415e05decae; 0x2ed88c65ed0b24a134e5f; 0x37e2665f597aa22613dd38d; 0x39dfc67548eab3546632c; 0x46b80208e25e09ff2aba23; 0x14a2a5eebf4062ae1ba7b93; 0x1ec49a1144a7815bc0d7a6c; 0x30388d29e9a1c34f591fe; 0x1e74dbea2ed1d447b2f0bf4; 0x5527c18cfb06c442172c; 0x609392ed871b300ad0ea0ca; 0x40cc1d4a37a87309b0b8c; 0x14b7f3dded4245200ae770d; 0x156558b3152a7b5329b012; 0x543c0cfad6c0a4438a4d8; 0x11e1dc85c955346b3c700; 0x4d3c3e4ab88dcfe58688167; 0x4604677a574b834937f3e; 0x41a15c9c430741ba6bd8499; 0x42f55e6827d9ee75b1312; 0x11adf9ed6d39a74b21a4a5; 0x3db70a0d4adcdd0167503; 0x4f480a30d9091b6a4f83e30; 0x1af176321a094d7384ceb80; 0x280d8fadabc04b351efb36e; 0x1990e0100cb5c8099a3810; 0x3b85acd1ceb95ac7ca878; 0x19a6aaf571d9d9211f3446f; 0x129579e516d114c518813; 0x1c640cb35093965e0321ce8; 0x4885ab790ae227dcc6058; 0x4a8fefd8ec5366ab30d6141; 0x7850566779f3460660705; 0x194be04e2015314736b2bea; 0x6a422f82b501b9d62727b; 0x4136bc37abbb8a7f269657a; 0xef624f15afc7fcd0b4c8; 0x603e5cb4ea54191017b481c; 0x3696a516b0c9134acfd345d; 0x676e65ab4cb84c82984e2; 0x477043fd63d9cdb25b807ab; 0x17fb8e4814b60b5464704; 0xd0ec47420ac1a4312cdb62; 0x4c9703691c610787da49c68; 0x367978af37c2753a8dd6a; 0xf39c6fd816374aa9f3639e; 0x5a459ec493c763c98a8eeb; 0x12ac04e7f139bc0836b8d13; 0x13c6856d3810672c4377a; 0x4a9b5e01ef3e66d746a805e; 0x6771fbfe57c8871eb8dbf; 0x9de41dc5069607b8962dd7; 0x73a99f02d92f3ad1d9af5; 0x45a67bc2474660bfdd0bd0d; 0x20f3ac99644ae7bdeee8985; 0x76f2ab84982e0e00c0db3; 0x4bc76e3b1b985a327c4caf7; 0x3b0abfda54d611842a280]
    0x693de961c10a589c336a85a 0x5f31bbe910222ca6acd6f 0); [vm_compute; reflexivity|exact prime_208150935158385979].
Qed.
Lemma prime_115792089210356248762697446949407573529996955224135760342422259061068512044369 : prime 0xffffffff00000000ffffffffffffffffbce6faada7179e84f3b9cac2fc632551.
Proof.
  apply (check_ok 0xffffffff00000000ffffffffffffffffbce6faada7179e84f3b9cac2fc632551 (fun k => zmul k 0xffffffff00000000ffffffffffffffffbce6faada7179e84f3b9cac2fc632551) (fun k => zmul_ok k _) 0x87b23e9d09d3e637b2aa341 1 0x1e2f6018e5d57b5f98bbc79dc38587fb30a494e150 2
    [0; 0; 0; 0; 0; 0; 0; 0x400000003fffffffffffffffbfffffffd0c64154b7c69b08404bff617; 0x112a3ec111522d67170f106a367cbb0af79d0ff9db7f6c539fcbd321e6c414c33; 0xbb8bb92c2d4d5d5fc923ff2711990e7f8dc86e6c0288bcdebc9eff3e474fd04c; 0x5220dea5b4f7e9cc45046f29e012373063275978e56128fbc238bd6ff9e6ea70; 0x24b4e2b7988a25f0bdf04e48f68a3fe2c14b049bb9390e47ae7761eea4505281; 0xba9edc705abdbbb16878baea1d6af2775934ab215f6da970b41762b78fa67f45; 0x200fddb8fee36977b2219359d9df677960fbd09174e07de34023f301fa1ff542; 0xdbad241bf8f61feab0fcad20ab7d7e3a4199cc6f8c1fb63a646fc66121c79718; 0xb46c458a7b7ae0d1b05fad5de59ffeebb7e1cd0ba78f894c07ca91141dcd8f; 0x978ec6c819a1eca64fd2f167f977003c797148f6e404c27a34ada87b72c47925; 0x933ff9de5a10ae24e91bb5fc9b0a9d34a62702fda8e4913bb7d82be7e6e86; 0x8077b46dfb905a0a6fcb2a2c14e5fc2d568211a82ba46e6ab0e7d1ec623f203b; 0x14824949b1dc0e2e4ee817af614a2ece0b538dd19e0baf36f40dd94c58a20662; 0x183dc9573483d4dc658346b01edded3848c0ba3dabfefcb329731e86832c3ee; 0x2f5b41a06632d075f57da2fac57bbe40af65d989b231de9b9d68955a9fe63b99; 0x2406f0e072b551f945ecec9d55aa992d4cdd0538125aef613c59266f61f077d2; 0x40654009b0895984eece943f9f4ef7209830b38229973ae97c6ec924ddca01d5; 0x189dfe72318009e89f8e468c990161df1813ce8a4499289291f3f685c2e1ede8b; 0x56fc819dab5964602e6b3ced8a1f07ff64bc1a4e636fc690578b267c4ffa2f21; 0x7fd6888794bb02d1c1bd52aa9b46baf29d599bddccaa59cf110de33c3bc8d084; 0x361cd6b76dfa8d3fc60dcdcecf3e34df3bd31ab8911fc9195ab22120255ba89a; 0x14f35b72bd90196388e9fb85f0980e9e6c0f05ba4cd0bf0f92fcafffdd8d779a; 0x1707629392c840386a8d5f7c3bf2fd5294ae1d50f6ff8a883474a8c10e6de3bc3; 0x1650cc913dc24f0a8a4b9e572363b0d32cc8db63d90cf31e5bed8889d69b16d46; 0x265885c85a90245dba22a362e633ca4ba1e19afec910e1b24f92012891f9ba; 0xd0564c7735761769789f6f144fc4ba5af597cd414988a689333dfcb9e22c3de; 0x25e54f16fac7c756b2da7bb7d7a67b5c813d444baaee5287d2bd44dd37f30754; 0x1b9227ae16fe4445243759aadda68b48b5597840056ea5922db3534be494e084; 0x17802b6709e91e1e1276f05b972846a91f8d9e5afdd055e477a9d165280ba5d5f; 0x4c6d92549f876d900de65751c92014018a715de86d0ab97ee647c73d241f4; 0x15e49208ad24985bf808550668c2c6c764159298401cb2951baf7b2469eba7689; 0x10f1688e58599ed7f55997a9aa82c0441c3bccac201354e4a89f479a7218e89b; 0x28e73253149ec4670398753799c6b6c8c1134dd5868f02faa9e206f668ea7472; 0x4403786b7af1090ce944e8ed26de07b6794ed218fa9371c8b596b27312d24102; 0x12f10974bc99da2044be0cd9c8103067facc402c5908bf5390815bef0d76304fe; 0x9fc64abe3cdaa3064cccab20625e308ec4822a0c58864b2da3f38ceb4514ffa5; 0x858174f24b3cae00f96ca0979e23087b571a024fd3a5cab1bab3b6ccfaf81dab; 0x6b150e4638698df77ef4abf98f32e9418036d7224ef66308bad2bbd1f7cf3bf0; 0x76a40f76c2ca21c79d17a012a930da119f9838ec957fe185d8fc197650c8db62; 0x4ba4f01c12d5d0ecc59926cdcd44f603f25bfcc2de17ca2046d1f1a54d0a9f; 0x12387028a781e2acebcfacb2288f6d6b6c635c363bbec7d4009eec884f00cbc4; 0x15604674e73fb264c9bdb98cd2cc6c499bedd84f3505fa4be7947a92941a47e61; 0x1f865f594412672b3632e93176f7d7a24d942e832eb6c5a4c1c3900bc43a4541; 0xcd8830f9a2092755ee2ad76bdffec74f76bdba6d619166b1c71492a0d4550d1b; 0x25570a8fc203801613720edb16c39ede778802e89d88d6fb51d858af95d917d3; 0xb0bf42a1875c4f7f2f8d4259d58fa4b796ca6d75d04f843c706d0cdc122c3c3d; 0x974580a0bcc7d1f6c576a042e6ba2dc70e4d801d7c84839694dc926298ea9ac6; 0x5e8633fc77af7803c08cb2ee3f0b0d4ded4f4202e72005c693eac085667746c0; 0x962251787ab1b09747b39d98176e6e21a2eea1811a34df25e22bc247f38d99; 0xb2fdca476c973ad7a054c857f2a3ce04583d7d7992c33ad685e4395ad8deebb9; 0x93b5ec76c298d4a9ea77df7e383655c2029bd56b18ba7f235348f897a168408e; 0x42c4f6ba3e046e1e19e207b95f938e49ea79261c138db41921daa7d0541b7f2e; 0x2a7964fe904b19a7323755c21b4100f8cfb411a8e85db055172b3e1d34a939b2; 0x104224e7bef976e5ad07846f07723a4392882f6b02fc9471777a1304b6a652ae2; 0xf221ca73dd311172ceceea21b81d7b82ed1e8aafb7b490ba1e16ab37830b6aa5; 0xcae75cfbe2c1eb234d6c0779dd683de68370aba366021774943f5fdfad6cda77; 0x1123993a01bfc6ae31154e6b619c66ee72b01531f1ade76d4185e195642b2c318; 0xa61e786c015ef832554e79e650eb5b358905514d70477655065614d1d4f3e78c; 0x4177bdd6d4e0aa5348ced207dcd29620c129365d02b0ac2ff25dfa01213878d3; 0x485da5397b0da5b48917a575ef7c2cb914536ab2275bff716156ff71a79b7443; 0x1521df8b75fcc619d3e3ec6b7025a750942e69ba29d5a729d4aa3d98eb301504; 0x6379e3d7c667daeaf688f755ec4390a9aa70ac0db251abaf56eeb1fb3e2f1ddb; 0x2cab1837ee5cd4be5b7cb117595ec4f7ba8fa72ab5d37d604fb96e6125da2898; 0x92fb2c8cfd90aa22e457c139feef0080d5fe4ca4f1d0cac8d02ec80dba9f53bb; 0x19f934bb36f1f6a61de8c787ccc665351a5d0807e2dc02149b056c3302331531a; 0x2fc07027c1a5dc07e20fbe421156ecd0d22c4a39087713798560d246f20eb16e; 0x90c6fc47504e0aff6f5419befd552c7bbe38f5e97eef3ed6771c7d0e254351c0; 0xdd6adf8ac24fb9b3fd837ab5e6d48f1e8b8ff066f04f56dc52ffdf14cbeb0a8c; 0x15e0a451aebb9cbfc8c3d372674f7db7e4ad35296357b5a94a7c7ccfea0b6f4ea; 0xa3e70dec9246195e46123ab59d44875fbc68fd5414725359005ec4ec89ffb79f; 0x78462fa41075d6d6a4814b0c98167b80fcc513c29c7286b2603920bc8e341392; 0x5c5e65e6b9863ff0e2defd23ae0675ffe26bb131f6b335c35c0cdc322a5c82e0; 0xa300191a30792b4a3aa814f0ec4343580c79459ea429cc178fcac152bb33475; 0x75483f6bac50e25174349665132d7752d4b133fa087cf9bf05a73085f6234956; 0xdc9a305b13fa4dbb09fb84ef3ee3dcd2a0585c72ddb62fec9c516a4a07d3a4d7; 0x9edee8f25cbcabac6755d7814fec64e91c65cea3764027dae9cd8d308d5a6a; 0x156898fcf4921f6a75779dada21228f2cd72fd521246bffc1321e885d4e01d677; 0xe1ad9e662281937fb5a536274f06280e91151b8b80528adbcb9bad9a3ac2113d; 0x20e20c66f03d8dc8b5526bc2359998ab98fdb698dcf6c09a5827ad11d9e7228; 0x2404110bd8f0482b6d2ff034a4f35578bf7402172fcb8c1f0e8caef2def8b50; 0x7917eff931aaf932d3edc3ff898694e60af13ecb68adb26a92f69e8dc1dcf842; 0x1cc410ee84e46a722ff1fbed65f78f2bdb18da9936213a858f48c7df0d464c162; 0x3c01f5ede2b5145ab03132957cf247fe35f94aafafcd7c900dd8f1695639fc87; 0xea35f0987e0e880c1d5a00cc2c66117284fffa948f5d10dfb774452a41d0523a; 0x159ad70dd9021f9a1827f27129028bb38b4c16ee5c227a8187dbe004aed4c3f95; 0x1574d9342278497571f5729aca7d1a137d07edad62ace186f0a693af14e56470e; 0x1e04dd38d1844fd77a135cb7c8aaa904e2cbddfd79a4bdb8b2da2263d10dd4326; 0x2a4589a42175e8f193654467f26c0d7b95cb20e0b04a3af2f1112adcfe98074; 0xca3655e0b189675839d1fe11485126c412264cf90d7008bda17acf3b5a16685e; 0x79df97bf65b6e28f9a971f071fa4c23a08acb5a0b48d99e8d0a72310490371c0; 0x75131affb9ae97fff750c0ea06261fd8cb3acbf770d7ee921d2ec096eef89358; 0xdadc12a5b850d99dea01304d6b019408a525748a8bdcf1b4e6f844de25005cca; 0x57ff0c27f0c1e1118be368b2f09f326076ad2016b63f8151d59c742c7bdc1222; 0x30ae211732cb53cfef1f8609cb73eb45fbcbdddd96b6cd56841139f76b554fdd; 0x8d6f199e7ea802059cff72e28cf45b422d35af41193370d10b9d0a34f80d664; 0x2e0a15f85288be12fc40ef114bdc076fad30061b28c3f63959ea9ed270529cd1; 0x174ca25d5a8daaa3faf496ddf2eabd0903f4204648ea7972e1ccfcd19b2686; 0x417bd204dd4cd3b83c399073d6c18bfa98f7c02320a2992528a8c9f699244c0e; 0xa2e497239843d079f90181672e55d8e2dc5e17456642ca2f67c81458d92d4d36; 0x38b8f6386d493f5630c63811c25276ffe6c52a2d16f588481701b887f6da8ed1; 0x114d142c36c7ca11e304fdadde16bfb23d612f1682d40489568fe40ff7e77a2a7; 0x653bcee81a3df0476f4fa9daf62ace4148bdbe94eb2244235cb59f8dceb59bce; 0xbd653deeea0fe353a229d13626d35f1c7cc06b33839576fd7224ae9d5bfa676e; 0xceeeb622cf84d47d6ff8c2f9afb18cb6d0f3515cee205e26c8434ad2617aad41; 0x1a292d7c7a2c8690f7169d82bbe7484a21e1d0b0e0edbaeb1c68b9143f11c137; 0x91c8d11e2756d40ef0a2c28bcff85cf4ac25fbb78d2f3ab1d0c471287f53fe8; 0x10d6c2d2cc2b395516e682b1daa3c0418fcc767d3fed68841857065d2af0beee; 0x629b96b26ad7dbbcaa9945ae86cca927864ae5c6cc38505de608f3d4dd453e22; 0x24d40b60f56e424841faa84384554c79e015e131aa8226a123f732e276e26284; 0x1c0dd583f16eaa3508b7ceac4c55d6089ecdf1664d5a74a1d994ca8ac50eed37; 0x747d20d464e7c4157e51d812b2d8d9a88aa01d4d85bf0aba2913ca051a69c646; 0x1b6320821fc5c7a7230d9eebf9258cb5e64a48fe8d5e9091bcd0240ba8b71e095; 0x8bd9c29cd2f63aad89e8d4af2654cf2a56197d11144cb04ab71bf2ef13db6; 0x9f5d86c427617bc1723453559e9e66d77dc93725e90ff98e785bcaeba69a20d7; 0x8264d6d56ab40d2be1a0457fc461a75fa82ac6cbcdfc51bbcbdd190264f491b0; 0xed230058baf0c0e28c9c9b0dde1ec43987928f4cfa53dc5ee2f791a68738b49; 0x6834fc7a87bcfadc8756650f16601132ebe1a4e08a40ce3164aa92dacc4c77; 0xc37ae33f4e713d83e2bdb0a695b8a7675cc86f9701e793c657621f887a7fc7f5; 0x643844dbbee6ce9f02964257de1126fa13aaaec61954f940afed586413210e5a; 0x1e8e2dbbb565f3fd51a0790ca45bb9e4906e723cc4180dcd97150c1069820af; 0x41d7610612dc61e0bbbe3ee21139f5945896b3ec1c8f6a02896bee2e65d88003; 0x2486595045be6f2ce5977ee2e186c87085c7d1d94fcb33a33d21da821fb27c06; 0xd010b946a052a3c48401ac0db1850da609eef1503826f257ff50a3ea90eed452; 0x76050735babd051c9eb922739c21753ecd2eef9d0f7f0614c19dac963838a82b; 0x112a231abac01514c53bf3cbccd06f764dea23150407110f811abf8f5ec9d25; 0x427a7cf16df789afd53d1cc262a275a6d847528a8938d41fd5e370bc12192487; 0x6b750625ce0d9b192c06a92f6422611cb1ee84a8ea44f00370014d216b44c317; 0x1dd09d8548fa23e74596620ac6740b1cfb1a0168f7648e4686f9103b3b3a750b9; 0x9badbbdd37162fb7bfba7c91e47f53b4c7de0a6f04e09deaf715b88cbad50bd; 0x5124c0703cf5885756a60f69c4aec2bae0cc713b46aec392bfa1f208b16bed64; 0x799e1b554057d75da37e07de312b7f9b2176775cab221858d3aa75bc83697f8; 0x10cdd619348892d95f4d4ffdbc4ad02bc596a0d8b8064791abdf3e4b77bdf46c; 0x15d37ca4d74abc74574cdc53a766c2a5a94f2ab34d89ed3892d7a625ddeb395a; 0xcc90b4064a06111a9a2972e349583a6e6b641919dec30ab285f7fcb11b83de47; 0xa26a73bacaf0f37cde3b81d36fde3ce970f061aa73b8f1af7d7e292e29602263; 0xe123e6571481ab8e991a6e65322dcba92df8cee0cf2bbb32659f5987b921e865; 0xda1b5f8a937105474c9ca634ef7290ca8e1da964742a91357c5a1ee0047d3883; 0x358d0f066d47061fe46eea74bd267a47cc178545c54b24ad809bd5ff9305fb94; 0x1158bbcac2c1442ba2ab7e51fbb1aadf2e64afd02d364c014313b42f16fb55395; 0x9d6008a6ab0d554f8d61e3ba893b965d60a8c707453212e89f1b85ac3ade7b14; 0x7195d96782a7078e50e4535f6c8532e0898aef8bf368e43ad1b2ebd00d77ba1e; 0x4e5195ddc3b1702dd23ab85f327e30e305493952d6272b7b19268e52f172850c; 0x40b575c65dd40daef8ffe1e11f2be9aa3e7f911cdaf26a7358d3cdec2ebc298; 0xa3d68dc6d801ce8a26e243c8160057a07b4f3dc62a404eba3ca9488f96326910; 0x1c62667e6823d543e757e873d901c23021b4acff3a4ab5cd749f8802f65d470f; 0x462aba330d208e3ed46b21e0cc659b3d67b3d5741215fa4e63adb00f563b408; 0x8bcbb833ded7baa2d12d5e2aacb86db53a7cfcf10a9d500f6e6da8495358b559; 0xd7351e66abea9a383a49fab8dbf644d88b6335f62ad4ef398411614ab0821c94; 0xd22e88a5adcbd9c2aff60eefee6568fbaa6a24e12542203fecf1fe01e87424f6; 0x683747ffdab5513b08fb1178d8d83b205ea12648b32d9e31d8ec5b0aa95de3a0; 0xd13d6449d09108f67a3245e13eb27de3d3ccfb3b215cba86b0e82db6c057e8b8; 0xf8397d7f3b4e9b6ba305dbccca294a77fd4fbc9fd1182117b90ffed6f6afbfeb; 0xaa4857175aa6490e50d77e7c5f49c1dc785c090f30d36891e2c1b3ec75c38c2; 0x3cde73f86584b2ee693878a82ecd1ae0a74e2b4a00ac9c848819228472aa5fe1; 0x336413a2434c30805e6a83c8fc89394d6e4815ed571e48ddc3f66591c8a4256; 0x4eabb02c1995974c03c1f5163a44d6d424539bdaef269ebb5ae50b606cc49c0d; 0x69eadda19692bc62380c568504e3bd28316a92f69ec8a1fccf0dde91d8fc5e11]
    [0x90da5385ee58259f3390d485047059b429c010db4a36cba21ca13d4838baa8e8; 0x5425f6ab116ed06cc125f5760464eb18d1a722f8dc46dec80d83ce28aaaae698; 0xadcc41752f4d6b46b1d4d6f9f0359268ed368095fbfb3dcaf39fcddcdbd1e7c8; 0x4567a223eda66007276a4399e310498068910d3cf18a4921ed25c0111cb999e; 0x9a25c0595d1a818395890a65db6c76db3039fb07f9b78391934e0930eff51e7; 0x29e1537974150d99fa52a710c4b40d1849de77b4625ef3cbe69f6b35c5bb9637; 0x2a2538e3378872aef74b328f55553ff20c86a0cfdc33be1c39c5941137640a9a; 0x8edb62a202b7ef6916d8f35fe7ceb9947392e36218277f732fe994eb77afbb05; 0xbe53b79bd811832dfc8ca2b0b804315c21b5cf88f16ac238371713b9381a638; 0x7e7109791162ce8b0630eb3a2f3d264d3ea4c1066e120038910bd9afede1e3c4; 0x6f3d6e9a5943468efedea19268eaf235c4a67152debad6daf5c26b6acd2f8b01; 0x12dd5de9c75b9882b4d12f50c21bc277fb54117bc0fed4138624d0ac2e6af03d; 0x2e7a659957ec385e75d7dc4c0c65bb8f08135ef99e20ccdd78474c6ce7b78ac8; 0xa6b43aef385d434a31080fd70d2fb20ff5d8c207fdd4aa7916705961a78d3d; 0x6bc03bc41fefe27d371b412be323007a2781580cda29d813b88654bdcd2797a2; 0x61d2e37a1acea1314c934bc6714263c177bd5363278b709bcb3437f3119356d5; 0x30c4e97929f203b69561d24b7f3687608c719d62a8fb6ef861d983e84fa7ad6d; 0x11b190ba52b12b24e85becd3748f2a3b99a4f8454c359d003056c65cf9e6fad1; 0xe54e25e7b38a456d485b6b5b221fbf7c98d742f0666e9b5958e4f6f633eb636b; 0x6c27019536d856b450a0470ebaca214b0ed1909b43e623276cc3b1156e50f27f; 0x848f5f81e2e2398e81be6a5cc3387acc3cbdf2cfea7c42bfcd1430f686de0208; 0x561e46b390d46e0f8ba643a69917153ead45934b9e0c3f02e243fe64b24242; 0x21ad78e75f07ab7687dae9e204d118aa6a2d08fe136682582ff8a46c95d70d8e; 0x85987e222659645da981c4604c4784510dc3ced1b4ff4dc81081363f5fb60ebf; 0x90d0457e594d133166065f8cc0cd106726394f4800b0ae261d28c177044a649; 0x41f73f37db94864a2518c4dce55811514eae431b35987bb60dce1dbabadf9e15; 0x18be97ff6fa5e9eff12a247852f6e90ea80499c9b301aa68944dcad7beb57fbe; 0x2182f713e0a9b6c6e1e42851d7918451040e38ece27ffef95acf17208ccb049b; 0xb216fb627fd30c93c0f153507191a1bb1743b75368c9d5ef64e97bd29d69afe; 0x990b8150ee6416065042f8a4bce0b5015655ff301e49435c7230b45370f7c1cd; 0x1b2536ac3372ac4f2eba943ae4ee8cf9dea9b2375f21397a11aee6c3798230a; 0x47f161001c29387bfb6e1d0eb2312a8bb5a3304bfcefd2131dda76bc39a69020; 0x61ae2ff2c13773e1ea84cfbb1adc7804f5ee8ee2296a2bd8921bb130350b43; 0x2ee157ad88f5010238df2e9e33a7f631ee9b4cc9e2151a0260c97d406cdda067; 0x6ad30aaab5dc846b96a1e1bcb4e9e8058bd70c6af2f2aa11cf6e32bda19bad85; 0x6c1fbc726292f23cadf2e58b1a77e5da126f3e447dfc6e015dfd1de1d1152989; 0x7f922ea34f6cd0023914fb0d5c8a520b6eb10b982b13a8bbaac53d42f7b76f95; 0x52fdf6de3b66cc6448abb406425dcd41d8f9600aa8c321e692669b4020edc95; 0xa2cfbee65208f7f57afeed228d930d48d3a53747cc6c9bd9e2ed946a26ee94c; 0x1df11496d181c098588ee92176ceccf7096f6d8dac18c3e9a4fe637d999edd3; 0xab4939fb02ff658ebc43b946450e446207c2187abe6cf546b2b3f206fb5d2ace; 0x20028ce04365191c5cd0948e464a62d7baf070a3021c51df950422c5601b47f8; 0x3ac36ee9471678f09349e4391761b7aadacd14e992d8206f9795f6535ed4aff0; 0xd17c2b84dce58889a665548cfdb296c23c19ef81c03b28b2dd94960fb97b2427; 0x3abf04249ac1ea4896ab3cae922b18a9528e9f5e87273cdacecc613f4be08984; 0x1df08288a69112547db62c2d95476e78737eedd5c1fd9f3fade5bdd75c698892; 0xd1a0ad1a4c48045a831705bb3963bfccf33b922afe8901924d03f5bf4ad46f5b; 0x85e6ce7f81cfdbfd3a44bfb2eeb5e67d017d32a453e86e1b112fcbdcc99b0e0d; 0x1181250cd50b243c6377aa82b0734163b3a727a26aa9fa64b16ba91c2e7997ef; 0x5144dba07e7242ab1593db9ffa7edbcfdce0b89d6540d6c0fdc67a428ea7a42; 0x465965f140ec398e3bac23cf6168812aea1965d017921605d6d94ed74e60a565; 0x47dacf18337a0c83ce09ba0b16b07ef852dc4a0d09d79e34e77e2d362ef9ba82; 0xb3d4c0942c21a6eafebd3de84c784bfe4996fa80f5692daad88343633e2a0b4; 0x49868c751f115986eeca7a1d9b874e6dcf3693c31026a9a8667f9463050c55dc; 0xcd1e51525426499173909aaac06a90d44eadca35170cd227ec51b7bbd2640bd; 0x27e41aa4569f1f5bdb53c148ec34b6f5e41115040ea46ab54e7b1b2555831d40; 0x127ec113b27cfad69e163447d9524c0121ca90d9febb16fc06683e8571cba586; 0x52678053fa18f14c81e96b1197a219cea1766301d4220c90d6b6525d3ca499c3; 0x5883b141b6d95737f124439455d5fa0a9d4057117795ab29597d959510f6a7a4; 0xb4ad72f40c202e83cdf244e6430b78ba1f53698f649f885f9334bbaee05ef76c; 0x5334020af57183ff8953d55f5b5d14d2c06cf30e404c959eaab10ef102f727f3; 0x4e2ebdd857c7a39e498778a6f879af3a138d0d02df6a666253b614af0f656417; 0x70681d2c19012ea140b2c6bf1abcd3c9ef20c70cfba617e9606ba1f8d1a0d04; 0x5c0007230d66e90b5100d83eb3253f9bbbb1d9408d57db7c1424f9dea0554ee9; 0x149691ed1f079de75dbd96603f5375bb693c11476a1326780b62d315db20ff90; 0x2d4c9b1c7b9791dc8b1e30fd15fd2941f32217c337a81ff7f90cf2721797cf8f; 0x96041c9c1dbaacf37873afe7a6d6c101dc8a87a2057bdee1bc35c0bffe3c744e; 0x665c288b341dabdb2e98ebd9e9647277a4fd5cd8df5811130c81c581ed3aa0; 0x6d373b18de99069d5df1db14df6b1ae16df1b1c26bc7253664562e4eb655e6d1; 0xc936abd8f4fef8210e56fe32d2ce4e3abe7a1031b1bdcf0aaae0e080c909ce64; 0x9a0d008526c399915b8dcc7dced263a6e7e8286076c0a6f5ba8206a9251cf10b; 0xfab66c243970274c320be2e5ce4c270810e833f448168dde7cfae4b3d4917cd1; 0x7e6c396f9e7aa6232871acec1cd18e5c7ea7bda74352ac32a8d1fdbe4f675074; 0xebce3848f91aa081793eacb397ade054b6612e4517e9bb0d22e1653ee7bcfcab; 0x28bbafee14239ffba40ecae9e1dfd050a38103a0528ab8fb848500205f495115; 0xa61d7eba293dd3a55fb3f3d971d88455dc18f9b9e5a06e619cde2fbde82c7630; 0x39543070b3c613c159a4a37888fa9aeaac3fc2c9c7d7a379f7209ab6da0b3130; 0x687aac09ee015807c699ae9aecb02374afed08c3bfa77504721ffc63e5ed3150; 0x6d43b17bf75325411aa5432020eeb5aca226cea359005c669228f09e937ea83; 0xcfc9dabd9b5f91a9addaf9915f1372fe46421e65282cb25b92f252859c998ac0; 0xb8d1fed8008c0b3fe9eecab2233422b4ae722f164c0d521c16342f391e7da658; 0x86d3f3610a1bc039b3bf1ce4fde69df50ca18322bec1ecfa0bd18cad3e3dc214; 0xa3e1afc767c9bdc1d74227fea6ee1e6ffb842ef466d66bed2c3e874fd3528e92; 0x2740e767a38829dcb07680b0394f47d8d77a35255d0a5750008b23bbda955bc8; 0x1a09757daa94bbe5f760520d3ba6bacd33d51214a270eb32bbce1276f40892e0; 0x78854ef502937f3727df68accac60ef253f02902fa58fb121aacfebd25d4e4ce; 0x14d1e5a5f0cc51319486585a2d5d1190276393f21554375adf0ef000c53547b; 0xb248424fbc58a1235a9dc5fb124d2c6f9763a313685b3b5365034352b6332c6d; 0xf897a04788f78b401e560eb3474308f8b1b79f836802bdd567ed797d5b09b507; 0x9fda3f550ea15de0133fae4ac15ec9c25301190d9bd2cc8323d2cd0ea5ff7100; 0x188981d678c22d35f679ad47802f6c18d870105ce5bef5695fca0d038a281a7; 0x4c3976a3314272c26ee4d40bfb83f809f4df8ba751c8b39fc9178e89727413; 0x58f21a960209cd7be1f114eeaebf5fd45f32eaf9756864fad54ecd8a518377c8; 0x5b6bd9f6ebaa91085e89c3d9356981dc5f01cfd4f96f6a981614ac62f138f243; 0x248935e6c02bfe0fe0ca7749aaca279327ffc38a6cd547cbc7cf1b14e78679f6; 0x54ef29e73e6c0862ce95315fd990fc9678ede851afad4d8fd3aa9e91b7cbcf28; 0x29e0ac6550b635517afc74a17bf22e10dc3249dea13f237848e23b731b96e80a; 0x5be86f42cfedec2929af2421a4fb7b4119834b219bf7286108639f79da1b44d7; 0x940f9620e50016df9c47f1b5f3ec16dc06e1ab0de7cb106cf9c2be865003774b; 0xacd1252c97c4f38183950fab6c82c80902cde26daac01c72b86e8d0b5fbad3fa; 0x23923b85ba361ff9d4a1789cc710d62488db4bbdd4727b3b4a733c6bf9bc07da; 0x4856eb9af54e475621dd2b0eaf37772217de02975f64bfb353bc3647a02cdef6; 0x8e146e401798a662e6e8e71f90841b685f8d8f9a01c320d451938dfdff2e079; 0x43f7b52b7ab085cf67ca4397ce0474e38626dd9d490e2550bb6b31ae2444f241; 0x23d13cd4f5a98da1ef7e6eb8752962380cf801b4707337cc1b2af46a1b0a4a62; 0xfc0236f0834a5d908104aacd35eed9f335123352cd1b82c98c70a5c81b808ffc; 0x37add32b9c41704a0b52dfbe051b7b2ffc6351a532627b446b725767050e9949; 0x55b38ee0b127003f992a28f29f3cd1fa6bdafa06b1ced28b8cf1c77a8ae8a3c4; 0x27e61da21cd9b7ea3f8002a0e97357312e6e7a4a2ac39596217a17efbe18d59b; 0xb4caddf5602f7e6fb4e988b7017d6f419aaa3c37551c1b13ed60ff87ce2e008b; 0x3185fdaa9229bb65b167d7f84c7a66ce515c954e6a8e88a93c03fe9c2d9412c1; 0x124d3b0544e2e22f33ccb96a0739024615ec21466bc7780d48c2ab006ed7c305; 0x63544e590875eb61517f0e7109de739d87b5ce4b454baa754f33b50feec67e5f; 0x89345fbbb28ce88f076679e2ae2639f14392ae75569fc118ce369cc5697fabb1; 0x29f3a2e09a8126d1cc3f1ac9072bba980d08960a8c9fe57aca383652e04129de; 0x2431f4da9da8dbbb20384a27b895711016750c59325848c9e16f167594c2b3f; 0x3c1fcc6e59dcc337d6d61f0140bb32e0ff4251974973918abe83e137823ab973; 0x1693706a19628efa5e729cb8f14d4f0df66ecc48eb48ce24665b10223a3d3134; 0x31230e8fcb60a93686a5850428c7aa3001cec675514969ac66a0548b82be7f39; 0x5263fec40d9c8af862ee715784ed72d12e9b344ee0bb3767e27a264b12ad616a; 0x47df89d1d92b16b91597d2629d3b51e5592fbeec4b3cbee001cee8ce4cbb5b50; 0xe6141a22103fa6303a5a6cf0d7f917f82038e78fe7bfe369b26281731e498502; 0x354dfa0ea14ac14655b604c9aa74dc2e5a4b14b369d84a3fe973527c3c653e63; 0x2aae5e5af3cf5c98a4030a629c09f24b9034ab1eae5861d5bc98102eebbf92b5; 0xa8fd346041c35d811583d71604c19d7169e4c9d0c94232cb8464b7c68deb37e4; 0x4cc6252ef89d9a5c243a28a46d3c4b09922b92a180255f3586cf811068ccccb9; 0x99888988a21caa4b1879af513e1ad1cfcd4ad0b4e5f0a4148b6801463d5642b2; 0x6d77412d5e8e20ddaf2d01cc925c91228de55d63889f3498c373064fdb09bba; 0x656861f57ed2f9752f482ffc4da43bddf8245e27ee68b6a4a74d59da801048f; 0x7d8bdc82cd51e67877444ef4ffa88e905eeb4994e54861d8e5ba933dc863ffcb; 0x2d60303dbdffc2bb6edcae56d1bf1f5b589ebdfeaa6b84670f19c3a3713e0d41; 0xbeea7cf7ba33a01a12f0e74140c2cc4b6a2612666acb011e0e4f1eb5ab45e363; 0x51d0cb001eb7063d4b708e906ba5dc82b78d7502971f88dc08a31052ea5367ca; 0x171c0634e7dea48830cc145ab16c7df836dc374a681ff8f6aa68b8691e98b5c9; 0x7ccd02b72b1c068930f8bd1e151899463a1db690cbabfa6e42390f3d2af3e2df; 0xca00af8edb447fb3dbf49f60c049ee73555aaa7335f25753815dce8302f0ff03; 0x65b6428077db378987a59adff32fb92d41f902a1b395b5f93a485aa69398f55e]
    0x72ca5f0d48545c9059c0d962203775545c6248bf5ec7809bba828ec3264e8033 0x5658f27af704b48f20df8130d6d5e1616f124512bc9c2ac4ada8778ea6a3dfd9 0x599ca035ce0842b9f8aeb2e); [vm_compute; reflexivity|exact prime_2624747550333869278416773953].
Qed.
Lemma good : good_curve (cp secp256r1) (ca secp256r1) (cb secp256r1).
Proof. split; [exact prime_115792089210356248762697446949407573530086143415290314195533631308867097853951|]. split; [reflexivity|]. vm_compute. discriminate. Qed.
Lemma order : ec_mul (cp secp256r1) (ca secp256r1) (cn secp256r1) (cg secp256r1) = None.
Proof.
  apply (order_ok 0xffffffff00000001000000000000000000000000ffffffffffffffffffffffff (-3) 0x5ac635d8aa3a93e7b3ebbd55769886bc651d06b0cc53b0f63bce3c3e27d2604b mp mp_ok good (0x6b17d1f2e12c4247f8bce6e563a440f277037d812deb33a0f4a13945d898c296, 0x4fe342e2fe1a7f9b8ee7eb4a7c0f9e162bce33576b315ececbb6406837bf51f5)) with (l := [
Plus (0, 0, 0, 0);
Dbl (0xa249bcb3191802d3cb56fc75a8731f848e7b2caf080f3477a4e4d904a671af9d, -0x211d1d206a8228ca3f068bcb77b6c66e965b291a72799fab76713dc1b6ea6cd9, 0x66e168103bdfa57cdd53063189a61e37915827bb44d670bd3c287263db86185b, -0xb51838d2fa990fc8a24a572b59edda8bd8fcf1612aa22bdac765f9f95e4f3a0);
Dbl (0xc2489a9eef61dfa06d3741ff3b405300988bd0db42a937859069b9cefb576e35, -0xab9e4db4a865c5d9faa5ffc347a001265457740d67c4105697320488b09397cd, 0x93721ef0cd0cb79b4714ba2c81dc32cce646a0350aa32bf6c06d0cf8f458a449, -0x4cf01d696fc77cd660b950563834767fc99586c7873df1c1e82cf2a1c41e1447);
Dbl (0x3d3f7094389059fb29d62c12aea203c23c53ca0f84ba9265d34346d498d0ce10, -0x1eca2fe1da414cb8c30bba9b799e871ee53e653d6a1b8f5b127328ed415e611f7, 0xea74b5f4c11f49cfb1c996f4a267a7e24e2dd3ab6a3c80073e4f8c831980337, 0x1e7f9e38231db0eee368954cb73a3bc7d5c1732370720bc48adfeac55cc17054);
Dbl (0x6fa44fab12ab52ac931dd31283af3f747d8609c5f053383c43a73240f7256e8a, 0x24b19cd6409ad7a8ebf18fff6c25c94178f926d878f3778198f0f15f5f193f60, 0x30afe68cb6db6b97ca1f5fec553bcc02a797798ddba823867b1c154428680130, -0x8a3d4dd3b7c308abc6f84be9e7fcff6ab59e76fc341a3ff029059d44362b964);
Plus (0xa7674e3692f8a900c693b2eb37f6e3cd5f3154b3dc8ede53833adf4fbebe1958, 0x7909263aaf4e47d60634339ab3183f54984959b4f77068de3d379fcf44704db, 0x6d77f1bba907ef841988d3b3d7b617d59e70e30acd300c88512d8e98bfd69802, 0x174c04e01e63e63750368e07d02afd47925ffecde890a00776d6148bb2ac5091);
Dbl (0xe9a817f547273aa32a7361a18e9620f2b838a409be826cf083fed49b3c858688, 0x9072ff97b17d926efd9a117ef0d8ae7b4f0ecd4d765e7f5492462ccaa1695cc9, 0xd54369fcc4f434003a84dfa5183e460e8f6f496e9acf7845786ce5801ccb217d, 0x4beeb28d63c707a6226617c59b06682f99879cc3ea2738df382a7261a99d32da);
Dbl (0xcbf7b81fbdea68d4221b26a8e5a24b1cb5e9aaad01ecd82899cd638e1942f764, 0x63667132eeb77e71179e7c472d6d34ad329e9a3b76bb38d3c3a824970cff1a30, 0xa282cdb7cb62af3e62ab0b0f60a0815501e6755e9efbf52aba87d78b076a6a37, 0x1445a261b4a1c21718a610860c418f6412ceb13f2f9714fe5876d96ef4418384);
Plus (0xb26a86c85cf4125b521dcfc4cce19d5ec9d591ed4f9f08833a6d33abe31edae6, -0x2ad23cf334e3cc854c877082f02495f40b33869c2e08aeeb29f8ce0f225e95e4, 0x7c584fc3027f11899a4cd5f07a32c65a83806a17a96d21fe716cef1cbbd6b891, -0x64d827fe747d5e87e12781aa813ef7f6c1811150b1e178b4431e0e38fcb1ff0e);
Dbl (0xfc4b4bd92566c2ad98242459501cf92d7207904e764ab66789942b0325b9a3e8, 0xa6c3755500406e7e237b7b435de8475864606c2be7f28b72dde0f29d1a78b5a8, 0xf8a4537a01fb810f82541949a153c7bcedee185b4b9be615a5e78c13ba5151c0, -0xa1d8a2441f341a36c2620d1247c52b6619e2669cefa737076b8e1420acc87683);
Dbl (0x93fe002b120dc226d15b0f98b056d3392bfd56b35499e60a5f7ad1ff70675535, -0x143696e79a7ef9e40e7801bd80655d07cfe16fa02ccfe0c3f120e21c080577935, 0x558db03621c157bab78ed535f8874a47304ba1887fac3cc89e14c9f052b7910e, 0x464d9e9c571c4273e719dbbdc7be32f1381b29d60ff5195c10cc369bf7be9842);
Plus (0x1b8b78d1f1ce012135369b841fdf3e00b8f7450ef6b093931cbeb040372ff7f0, -0x119850045ebd6617f59effab966719766b1ca5b5c72702c0ba5d62694df94388, 0x2f6b778b8fa4048c91f54ed3cf24f2d8144504c06ff967a083dcc7417cc67c7, 0xb3f8f51b01701545e533783c57226f8c4c3ba1316dfaf3c26017f2e025df9a);
Dbl (0x59faa582c6b4f84cf05a7f0a2f866f67a3845d45e19ba871c83298597acc6389, 0x65908b9a3d1a9b07610a61685c64e2854fbbe295aa1c4b5f48a1134ce93b2f9c, 0x1fa03c7cbc38018ac417ee21214f84cee8d97dcb7399a72c4b143e1267d4e1c3, 0x10d323c1b3aee442cfe42a551d5028ab6f95e6d86f33dbfbed88d1ad5be0e537);
Dbl (0xd2b8741587a7b2e52655fc308e92e0b0e32ee6e6b41d84eb93aab4a3a4141961, 0x503a09c7e604a3d55063903b049886adf07f07cfb7648f4371921e06776e07dd, 0xad73235b1398caab05f72588eb25d26703e6a3828205bc9730748d628b34e502, -0xea97ebc0edb4326aa8a00eaafa5cfc3a6a02cbeb18eccfb632229e6033aebba);
Plus (0xfc3bb996f4dc74fcba2b78b81b1ec875fab129ba4b69425050afcf29988d5523, -0xb84bd9fc39b0171cfae6abba0166dbf96d10f6afd8e7055b9aa4d5cc2964ac9c, 0xf885a3513cb80e2a3cd92aa52486a152bbea3df27e3d3ea74c333b5b34b308fc, 0x31b968b3ca95f389a9b7174e140cd90662c1d569a37d56759cd85e8ae69daaec);
Dbl (0x1c063129ba7b4a48b2e70f43844011c46be00e0e9073b990aa60efa9cee08d40, 0x2cbd762e0947a61fa906d84efe5140ae03e46df472ba31019a3f52bc94621b10, 0x3115ae77b42111f5080a77b2e9351ca09138db161589532dfa8fb2eb99249ce, -0x10ce58fcfde67a4a5aa57d97892fbc31cf231643a3301d16c369c94c380a182d);
Dbl (0xa2e3cb03c0248e9badcbbcc1c7028566de6e61b104009831a5104754ca52749d, -0xcd37cb1ea242b11d96ed647d47ab030f8010f2b0c8cbeb3a00ffc6e060c2d47b, 0x67a517a2d0790fbc641d22b8b337805d6fcb19b64c8962109aa6a6482a0f3a76, -0x22fc9224dd2488d3091e2e9445c9193eb8ec805304d66ca31476d4d8966c8fe0);
Dbl (0x960ff72703b0a682d458e8c237f82e7c160c43f0388887300239f5caf2144511, -0x2336b7459faa25fd0f83fb582dbfed133da58a5cbbc63c38bc1dc425d805a5142, 0x57f6b6a0f578778672dfa381132a42abb4a59d2232166005d75530dd78b1f810, 0x5280a4ba101cb7d983c31efcf888a972b6c5070aa629f95cb810d09b1db48968);
Plus (0x2e568392639143b2ae90926279571b74b7c393defecd35b713813fbcb98f46e9, -0xc74f22ca9ae8ecab9599fe6af72986c311172fc3e02626c26d87f0f8d84caf6, 0x86334854e25740f5c3f4088d3eaf6744bb104ab467cc80625666ce82667c7b6, -0xd490f508b53f7df5ba6e772fb1972b358f3431f0c23a61effd4d9b221980552);
Dbl (0x928ac84a888eeece1f740cddb2fe2c3ad23b782d364f2f64e69fb00ff124a44a, -0x5713610958e9e3f4583845a3c1c4b1c117ea2048936106ad2ef6e9e577f907c4, 0x53e297b1e4b56540b3896331de0ed520d07847ebce361e956017652825540b01, -0x17872691f90e705a2f625594bceaec7166c74971ef0823f505efd9d1437a812);
Dbl (0x2f62106edd7774f71f1f577bb87c80a69291fa99d469a7d590bb7efe497f0e98, -0x17a3dc62f4ec84c74bf1ea64ae80d7d3905552af8b3004a80c7b476e81ae7490, 0x8c5279954069fb396c1ae2bf3fc995a8cc023436bd812bad5edb022fe72b37a, -0x3d6859cb7acb7b3b01ecf19a5f845c127ce3c0e3408c2aec0a4219bf023544a);
Dbl (0xdff9619f1fed418640882fc607fbef4ab0b4bb2ee9eb5ea61d7f347eaadfeb72, 0xc2a96182651d979e206c51b5e940679f94753b0edbfa3ea47d7eef7dabd348e1, 0xc3f46b030a59d7ce1a56ac5f457a9c7ed24726a05da772c420f83fa09ef6a478, -0x28a2f6b3ade52d7eb779a5c3272d3d66bbef1b91501b5807062832fb0a9bf435);
Minus (0, 0, 0, 0);
Dbl (0x2bb34155d1c3e85258cd7587c389773ca8761dc07d32d1bc095f476c05a7c13e, -0xdef22b29aba6d16e375c64c9e3b736be571eb0e46380508255f85fea3c9ada93, 0x775b5774a9d8ec444189d24746dca7919240786a18512196badefd508424db1, -0x7bfb289d33fd3bcaa2b3b76ebe54885f5ffc8a9c3e4dacd8fd046eec3b63b13);
Dbl (0xedfc2e37fb69a62e021b6261a99df3018dc9eee2e4229d1cbff1ba56b4f8e3d6, -0xf5eac62cfdc4cf587801d1e328a12d3e390db731752e691b25a6825c6549bcdc, 0xdd3ce5ff8b4da646fe91e258ac771e471ada910b1526c40f5adb4d3c290e1a90, 0xb0bcebe17d2916d3c9a9767c3e8743eaa4003690e8661a4094f82f340c2f8f67);
Plus (0xad7e4f085c663d3cca5da8bdff0eba9e96b7ffd205efee9318556df4ba2fbc2b, -0x9330a42675adc7b970658d0f571774f591a4ea417c45e62d4833913929425244, 0x7593f523a71741d8a4661482e39a377a782225d2ef6f9a45ddd06d7cbda967a0, 0x8b6e48b74b3bd9272faebbea1f91662c330a4f2466b4d63013a329eab119d8c);
Dbl (0xb79e006a59b12e979226f397f11da4e07f4c0c6e00d804571e0be779c48ea25c, 0x161ef4cddc14e2ce01abb6211836a8e23f33758069122089ac7f7183f6451d539, 0x83b3461d1335799d2bb58e63e4b9d26b1b5d1ce271ff7979aa9c35ad1d7e3edf, -0x27f9a056bec5df3ec2abcfdfe4c13a70aee551998cd92aa26d98c9972d60417e);
Dbl (0x45fc98da6728684cf421d291dbdaa5438a2bbde9eedf856c54e1d2577a0d15a, -0x3a1468484932f950ce1775d6d72ef897becaa0704fba2eefa955a49ad4288ca8, 0x132223a317fd183dae3461fa6889f24718e5825010dbea853e2a396e6bafc3, 0xf661bed25ee7f9da3ff32cd506975bfbf40978cf61e118f9e0b2c284996434);
Dbl (0x3f71d35f5943c9d82c6297d4739ca141ce18dd97535b82f9b6cbf6a3a3bc338f, 0x67941f48b67d92be821d28a5d82d65395c41d147ce833c1105aa19884e9c9378, 0xfb938a5465bb47eeb7c8d854c33dc581266f0bf9c8fb28e1a3ba2b2b3242dca, -0xe0c94472a4b8f443996465f674ac348e87bff443059e25a0e0b010ed10c4d4d);
Minus (0x2f9837014774ff14daaf91e491511bbdfe29c3fe43b9cfd8e3435ae5439454cd, -0x107a35687394f04e610eea79039c890454d4ceca46360a5be52365d72bb790f2, 0x8d93eb3de6c9c024f1a94747de3ca928aea895cefc2cf917c2cf19b56395884, -0x7da1726de361bd2ad410dc5843acf11c49faf95c87cb46b191b67f8e41d9914);
Dbl (0xb063b021ea8c4d521a86be70cefe8cfca350e9ba8c166c8838fe6446dfaba3e7, 0x35317331d9849565678255cd667c24320bb16855e2d6713c06ab7c7b2097cfe, 0x79893900cf7432d4414661c8b7ee5534d786819ee9c7c8a9f724d6b9820e12af, 0xc8f1be052c39c4846eb4ab824c53d3080ab493f86f8abbb6c178acd3b51b324);
Dbl (0xc96ce208d5d84115b06c8101fbdfc996fc19127fb826057aa9a56a342393343f, 0xd50a77261ce7488f608fc333eba4d0a040c5a957e7bece75c03775055276364d, 0x9e7c2941fd51c7cc3b3ccc82cc66d02323ba41142465213be7845669ebda5433, -0x8487b22d2c4435f670ccff0b26aa6fb5b78c9ef8f52591da88a14c6b554bb1b0);
Plus (0xba55f6ad24df518af6b54200a3db975daa33552c807dbdc8d037fa0146467119, 0x170662873fd55b7158085f516496bb3b28cf6092b91adcff93eec7568144ff0, 0x87a10751dde13e1376e248bc66d3681dd54cfba41e9ab890276cc1c6b365d09f, 0x11666116eda643f37cbe2d5bb2968a720ed4ecf80592ca328b84cecaa1245767);
Dbl (0x58cc0685f3b5bd459e0a56513cc139f2ef4c79222658880c7b9e910437232a37, -0x2382f9fac72dbb47c39d4f117176c2a7ce89d31bc0ded77236fc3f00b3544d113, 0x1ecce7169c00d05fa887593084f6aca48a6cddf700942fc50490a22075f44164, -0x976a538aee2d92ca7efb581a274fe1c3de5c4b334875e6981b62de6639d9743);
Dbl (0xc714a5ff1e67f35e138db56e27766a8f370df7a9aac6afe2a684adb2f9318a34, -0x171638b443366d5748839ada38fb2125459bd4fae74f931c0e0e3b192cd856d48, 0x9ad11bbd979653c6dc49381e4917471331ed7be7464c7e2ab5139bad18f36e20, 0x445403599a1cffb403d07d9a0b6dccf0b5b09a9015093cc1167c31703e559dde);
Dbl (0x244464508464873517783cc6e016573c75cc1d40a0821ca2006ccaba14e5ae68, -0x112389e7d4aabe7daccb8baa99aa0bfe2a76bc6c1cfa514854f52f546b672c417, 0x5234e7c1c74eaac670db395c6fed70e57cebb72f8af8def5520896638b74c1a, -0xcfd4240d197ba8d8fa295bce01978bf7ebe517928e3dd76b40887bef71ac0ee);
Minus (0x6fe110338cae031ddd7c1e1a90339f5a3d3ed6502450746d3501c26886f1f69d, 0x160cfe28dc627fb388a52bd77c93830af5a1f8b6dfb474cb0213e8cdeb8e5c3c, 0x30e4f1ea60879e76ab3b661ae88be38153d0df54f1e6502b583dd12cd3a34d61, 0x15710be5b1e381651bcdd09daad8c6d24fa92a20deada723fdd0fd15837274cf);
Dbl (0x19942949a63311386dd5eb50ae3bd81d89fda56a29528618285086a145bbc75c, -0x2e317eedea5aff61483d4af8744db5575fe7700bc9f1d7672f23c72de42258a27, 0x28e45d028d516a5a583c205897598091e7a34583b7719a6603aa5fd4feb7f0f, 0x15964d2506ca53483de871659f945cedb9bcef2db5f82ce7c073e032cd8afbfb);
Dbl (0x89fcec8c449f2a8727481510ba958d286a3ed95b2b77e593d4a8e3bc100d5f1f, 0xd55a57acea55fb9eaecf1f08f05464ba3efb40a1bc04401f0e5f04d36b84db72, 0x4a60af10fa8d0f51a931828394c773fe0d914249649aa0b862751b01d666e402, -0x2709cccabbb7f9715144b0d436b06367fe895df309f55034b0fa5a0e68de592e);
Dbl (0xf6c406113ca7142ab7578bbd87c1fcac561785320d44621ae23c0bec57db9931, 0xc62c6fadd304e266e14ca5cf8adc5f2d8a883c4d496e47342f94def90c77d0fa, 0xeddd51c358f81c5c566135fb03fa2f4d6d5570e6b685e0527af1dfa7e09de423, -0x606d6d2d594df43af5a33bfeefd180f277ac12b5c3928c92ed36959a69967eed);
Dbl (0x1c544e23cefcf6bdc7e2661841017cf1352b6cdad766837a00109b5b701a002a, -0x1f549bfdac8ff4c76db517f68e91f8e02a8698ff84f909da274aaf68b39e83363, 0x3228cdb37c38ffb0bc8eacae16a343d2b0a53cfbacd85d931f2c1d27976bf0e, 0x3ac75f7409f1e3e3723bddf8633421b77fcc07ef2481a743c373e1296578ac1);
Dbl (0xe7af93b02913d49f7ff08817eb8b2a9186ce83f590aacc4a439598e38234c827, -0xb30c3862e647040d3409305c3f83e008b1b111a71b0a7508aa2d6fc7773035d3, 0xd1ae54f3fbdc102cfd2d9f90bb61f072afd1b970742226aa28de79fce7f3251e, 0x279f39745ad948485869df41efc490bedd923718b05ac8b3fe5e5fc7feed7020);
Dbl (0xe353b7ead6b8630cc720fc9e590a4b3bfde6404ec154ad7d5f0e3fc795fe64a8, 0x3e893e1af9533182d80ed46f1d930a481b2fcdc0b4429deaa04200a586d5b648, 0xc9dd938c0911652cfd6b937aac04a9990403076b561a4283fd04263ca3d4e9a9, 0x3d81c1a3b355aada23c8f009119e4d7019ff8fdce8b59474d78f765b719222c);
Minus (0xaf9a5643e8b40859f41eecf662e272fb179c1e6fe063472782a209acfe514943, -0x11685e49c1c81a428394c890420a5073c71d74108d4c8ab8bdee201d757a7007, 0x78745efd37602d5e5e476868732a77f0ffdc6c0eade83ba74c50fe4ca043828b, -0x2fd1f91333adced1254bb0e5cc47033bbbbf94e01c1e06181418938980fad0e8);
Dbl (0xf2d190fa895945fdbce834e76fc615314f8d12fd6ab74e11a875fdfc3ccd5a36, 0xf5c64b39cd9f2b5ae6fe0993c5daaa48e20b0631249326179244c1f953d0562c, 0xe650e1a89d2cbd74b31c271d89f2c2566beb03b7430d812fabbdd0d90cf127e4, 0x1cdad854fa970ffa3e9525e0563cd2e47ac9ff7e73d9060d5a19ce532d84be9a);
Dbl (0x6f2111875b10a1209c249e454abeae22f7965e57dba5f3791ea5b985b656d33e, -0x2ae7b9ddde1482934315b763e4d35144ff912dc5e625f30e91d6d7d269d3fd3b, 0x303db179174ed9261a3643212bb9c0cef4bc4d1fb48af380ca348b2b238b41c4, 0x6aa48b04150b0bc7cc5654ffdef4805a96f005773cc55dd79069e31a7b86a95);
Plus (0x29668f8399f2921b01e78c8550410cf7d81d64184071e35c44454c85bdc864ee, -0x12628393b007c4129f020bf4ce5b39351ffea2e1a0f10e539cd8bcb9685eafc6, 0x6b2030edb54accbd2d3e5851e1ff3925c32a94e9904a5c59e99f42bf7cfae4c, -0x8cb713a56e35d65f0b5a9daaaa5eba71b291810e1df89a5b7b11da00e567057);
Dbl (0x5dfcaeb945eed013f0dc90070b1796fc1836e63f83e756c35d1d0c0d796c7d4c, 0x4e205b94eb2e4d229efb82decbf09551bfcf656f9f6c8111dfdb527b641d7e3d, 0x2281905b335322d9fe32788fb76935cfe2efac4ccad1b10112f515ac12c7a684, 0x158c2f31d2b678006e7834055d7019c62a55818983b43061e6278b13157cb949);
Dbl (0xbe3d2e335ff7468d6bd8fb93fe862c8e0e6a23e82b010d3065ee7d872d83ac05, 0x130efae48ab99ef41ead5831eb41128b7239e26522587a86fbb365f2c155dbd77, 0x8d5edf33dca42891189b2885ef8daf008409a68e0783768c27227baf11a91944, -0x3ceadf582243ae1169c14e91ed87774b8f053861f9dd57fc9ca57cf0279574b1);
Dbl (0xdcdf4ad2644a2a52ace81d4008703d620b99ddaa19a8e43afe378ed8f316169f, 0xe7bcb22cf4a48c73c222f1a69468df36698df89bd56975116ded8eeddc3a562e, 0xbe908b5dcb590c34736ff1a69fc00ce6af6334413ca3b2ff1ff0df612a56e2b7, -0x2b578604c9ad555f54d7a56fef33f7bf9fd791070e2945daa3e38987e49bff98);
Dbl (0xd541d97c1e7434ca4879279fc56ab5beea2eea4739c34965dbfd94fc16ffd007, -0x115794a2bb18ae4fabd3f7a50b8e8b316d8877afa4b696d6cf0a2fb25e991b55b, 0xb1a6a4d9661f2382a57c6c1222bf3b02a84541d86d23b50a57d6aae3e2a472d0, -0x25d72b9e4f374cdb68b35d58218de711456526ad1c3d2dcf4e11b4846977c48d);
Minus (0xe09bc6713f5333b0d2f105db40d47cbe63dc5e8fe4ea4b02b75a486abf565b89, -0x133c06222e79bcb34eeea762a5d344f758c7487ce9c0e388eb125e75fd584816, 0xc510fa10dad8a353ca201a425cfd7dbd345af16193c153c06162a978bea60956, 0x228f7f32a0d927714b8782d16d5cdc20326876697fc8e8c1326bb560c029f359);
Dbl (0x528674b2e6ac31b598ad18e8d07fc41d1b9cf19cc5b0b1a36e4bee972e1793ca, -0x1d60f6114d4cc47a3dcbdcdec46f795b93fa3436bb921b630892e96ad2d505788, 0x1a9a696116dcd38f0088b3637644d68d7826cb7a9e6956a768724097d32a1ee4, 0x3d6af59572d8dbeb3e3e4a0d6e8d33ad5a655dd7e9fabd610511746034266f9f);
Dbl (0xbe3eb98c294b97f8ef31e7fb4ea068b560b0394730a372737b1664be3b94f07b, 0x1ef83d84caf1c683dd17f2ad95aaa73c53da13e44b5f9fcae34b687348736d33, 0x8d612acb010d416a064b56204e3ef821ae66529593c6f37a4716fcb401f5c4a0, -0x3dd7ba265996dd4a584f57fb731b7c536eef0f87e2f63a79093f63041ce4aca);
Minus (0x7b6a884e8a53b5c223e20e80b1b757fc393c1ca29bb45510facd883a6a7f7546, -0x50ebe2a9074cecfeba9e6b329f79fc7d5e1d123c1058a06fe25eedad70b38127, 0x3b7f8b50de0a145d3caaddf2c4c2cd66146128f02fa770ccaece1c22651bb726, -0xd66d947b9ea74417f5813bab6e8827367b67d39387f56cba8313c16a646dc4a);
Dbl (0x1a4fe06c68f0b4432fccfa2556384fa002a2562842b472c92467450bbae7e75f, 0x240d7eea77891e5fc761429737e0bc3cb410b5c9215cb478fcf1c37a81c355d8, 0x2b452824fabe13d25b6d32ced0cb7ae618774dc111df4babd3789efa48b958d, -0xbcd5951e9f4eb895692d66422908beb7540144957e12d368521917a6b99beab);
Dbl (0x62fa001767cd781a9d2fd3e7ec992c971b637a1677ac44bb25b8332f1f328a1d, -0x156d2e1fbb01ba08d20dfab4e9177d17ac78b9a77d44497f8c30e921963cb84b, 0x26445c363f746b9cde863f654d3e7a02e1104080a2aa806606216ed08e2a997f, -0x19838b715be5663258a4053c50219c6b5912ca81d7abcfa175c4fecb66559cdd);
Minus (0x4042ae598839b83c685e9052055c9d0bb8537196c71936faefc5f9d529a63c4e, -0x3b94477d801ee06ddff1a0b60d98f02d29e8500d3357b8acc42d740ca577b82, 0x1021688b312656eacb6b9fefe3900b59fec9a066930026b7882f4b6dacd56c2d, -0x4543d64b63a2ae781155afb8e628a617ee2b556c51b14d9c40587804cadf6cf);
Dbl (0xa61d0186d8bf3158c94229adbbd5c4f18d62deb67d2a553c60bf4b70fa43ae1a, -0xd0166f93a691f8b4d5892ac08c95c1b872e96c3a4abb009254bcd307d64c267f, 0x6bc9a144a571054daad457a97b8f2c71b0064b367e4ea8c3361ff27724b92169, 0x1c9675e86cd956e55fca5c422c7479cb15d3c061e16d8a3bf97b5d19f89476c3);
Dbl (0xa358ae4d1d2d1559cf903bb807955ed8242bdfd114b140dfab90d867071eea1c, -0x5a9479d6c5ee5766815e5bac6eae01bb7a70906f1c897e2f6cf2844454e63058, 0x683a0caee7126fc16460ef3dafcf85c4afaafdf10f32b96eb343417ac7eb043c, 0x2032dc318bfbe07f5af468aefce9b8c904fdd69272ce9242ff91751c3929ff0a);
Plus (0xfaf41231635ab8fe0d38b45ad07dfa80bd5178a29361f28a1f00d94fe0c287b9, -0x9138f4be05e4a3809b752d97ebffa39c1c93cb09b6934682adb00ba99f969656, 0xf6019c3c1b7f2dfbece75c711d56d2707ca2bff0fc35bcd1231c8ad1ddc16420, 0x83485729372e6805fcd2ff3a51b531aba62b69fd1145c6f48a87440765f5092e);
Dbl (0x44a9e887ace2e81779b6d576792b60e61bc31655486153ad4735e7464767e021, -0x2348864c5eb6c7187ff4c5b18a49ef3083cd73cae3cb2756d5eb6b37b8d35707, 0x126ab44cfc9bb472e295db4e95ec3098e0e78fd0c9db5ee03aa86b0bdeadc7a2, -0x2e051bb99f1a199fd0ffcfc6a090b470d6b605c9c353d75beae290421297f15);
Dbl (0x3d2ba9c25242b9c848025e13f8e099197cfd9e127322e91d526031e6ace4351a, -0x1e8c302d0c6f7f0bcb918dab235788ede0e8632604bbb781242436d76970b878, 0xe9dd65921ab6969cf81b7bab12da1d98601de0c8ead871e853f29a95d1bb61c, 0xf500990fb3a8cf57562ede9684f0662dfb67fd3be444ba32888d538348113a7);
Minus (0xc5db689bce2671e437f4a7e95449ffcc2a76304b80233304d605ea5c65382066, -0x8b1662e18147550011e3c8fa30c991a5ffd5709db311d05d9f1674f2179b8c69, 0x98eb6b0c8984426e90485b4a42debbe6d5e0cc85028d4d6e6252fb901395e97f, 0xae440a85fe4d1253203aabbba37818daa5badca9ce9f9f30bd831fff534f228f);
Dbl (0xec023d3a9661ac96c6dbc95cba3f761ad0a6e2e73eeb9637678a0ddd09e0adc6, 0x16fe272002b638c5a725b6758422d1d954aaa99ed59f2a719df400dfac3491065, 0xd99420e9e26789b8c2ac6a1cc65170762cf314809179920918e264e190ef63e6, -0x27b0630cdd3906a29f260189796b9f6d935f0999204c4a92dc6b229e678906cd);
Dbl (0xe62135dfb5ca7a34ae42eefbd686412a45a2994c887c07eef7d68b30d6cb931e, -0x36552c48ea4a9bfc8348a9147305ed843532368369477852703f00b79279df37, 0xcedfb11db88ac7ab22d2f21e7023403bb49807224fb6d537f17e40dfc696fc8c, -0x707f5e0c03244e30d2b44c916a9e99676a188c2bad7d7aae288bc3fcb3708c57);
Dbl (0xd619ba80f511570a3e3ed4d04647ae2b6eb9264ad8aac5fa6d32ab6bdf78697f, -0x1d72ace0cc451d418f034620fdff7f89459bf4d241a6d64ed98d92bd444b24d39, 0xb30f066641d78660dd45d28435c7d220f5bfab8d90144e87c27c1871d263dd22, 0x7366ba62594eb30f2af704d0e25f4fa94e8fbe50659b6c4bff9133881c5039d);
Plus (0x2ef9ce6edb542413d83c1103b3d42dd45053df394df04974f088092b93cbd992, 0x10e153820af3c3e539ebb184c0c8ddddfbb2b507035cef1393090accf769b0e3, 0x89eb9f3198e39950387bd087ce06e2725c831d16693a2077685b78cd2bf0a30, -0x17bec92245e97bda345f9fa1b12b7e873f600e21b3fc39c40d8afa2842dfbf5d);
Dbl (0xffba15c48dae93bb6b7b3fcd35fd12dd25cd8fcdf93f1637105ff77b76307fa5, -0x15ad1f90316a495f152e253304b531a5d09a96ae9495e0298e6e350867baa843e, 0xff743ea2352dc0c72829f6c0e45ad8dc6e5bcf6822a404803a196bb6b8b64bf0, -0x2df54dfd3f78b32d752fb195817461470f98352cf961d6ccec8bdc1530652e13);
Dbl (0x4771f4203b36744f55f580ef5d06095e26d9707e0b0758533cee034caba468d1, -0x2f108684263c8c05d946d5b2022003c587231eba501462657e2740bb1a08a45e4, 0x13f06823620a57a8a6d874a930cf862f2d17456e913d90a0d073fe88eae2abc6, 0xed8a6dc96beb0541bdcf084a93c91e3c60fec737862ecdf598a74ca9350bcea);
Minus (0x87ae318a4ddfb4fbdb23c9d628688afcf8cddf4cc88c5d4346e8e32c860219cf, 0x68e2cc64de0d511a4221a1470b8afb254fe0dbe2321e402babb8f57b4598c5e0, 0x47e92ec787a3384a975f8cd193e18f4c8fba88ae14f21942dd43117d20d3fd56, -0x3a386b407dcd32b93de2cff8ea3414c14012c0ccd0198bb58444f06bc93c3762);
Dbl (0xd789f8898ebd00255511f6639f2a8eea2a15e29c1b6ff8fcedf3e8269f86fcb5, -0x13313a161068ea42e3f96af8d7f560014ac2a42254c74c9bd5b33549e0767aa8c, 0xb57909d3b7c014d42548f88ff59d05a6f13ae660169c07d3cb24ca08c97f610c, 0x61e1952f43ffbcb15bddb1bea271a88ae11f04ce5f63d472676be91a9afcc4f9);
Dbl (0xfe73522c164abdfb06af1c83a0695ea24c334e788d8251561706989665d6f816, -0x1c162f8ed1cd051b58a60bd488f0349647ff8843178d69453d03dac2fe2c9294, 0xfce90b036721a906c85b28f833856a90ec5cd3476ee3b37604590322fe329347, 0x2aa6ffd31b8f82f96c8a1bf39299c6c6be522dfc285d06002abfbea730a0a2fb);
Dbl (0x1cebd9c97cd5d590c6b74870095510a5178ded2a80f7e9ac7823793acf59a7aa, 0x205ea85184c959b438ff933010fad90c75e56f9d8487d0be361955e5edccb1f0, 0x34470eda7c59c73307ebf9922a9086fb6ac7cfc83fac7c6648064bf67f15ee9, -0x131025eab46908fea5d5a4e9797cddd9b2a8fd1103e1cbc55530b9ad8db59ee6);
Minus (0xb752fc10594c38997ac2f770d265d975397f16fc024c7a64c0ba5f02bd00bbeb, 0x45e7f98d8d4ba6a886942b04f7a3671d593f1a0439e5cbb4bf5c3e5e384b2cfc, 0x8347bf46559c1ddeda45142de4425e4f6397112991135da6f9d009f57ed1fdd3, 0x18ae07bd251a8768032cfca660ce5a23f27bf4c9583fbe02d89baddb9bdab354);
Dbl (0x78dcfe4e3af4fa9d145e4091dd5fea89aa125b4033372535c8abe3358fb6e9cb, -0x195017c7c2a7d2cc0db2677309aa06d3d3657a3d54c2644829eeb71edcc782a68, 0x390fed2fa36a4217879a0b90edffb37a1003af929ac8ab93a4b923b1eac45536, 0x63b1f77eb892eba8464eac4bce2780ac372bc5ddd8a067d8bf7b08ac72abcd8);
Dbl (0xe022f3ccc925f51b2e88befaa3bbd50ec11bfdac0ed8e16681963206ae9f07aa, -0x1fd6436369b067632b98d9eb5a747bd2e56e37920a301a0df8654a8cce0a8d08, 0xc43d2f6cced3741ff91acd6bbb7ef7b7167fc094573171a59cd9089e24b4d6a4, 0x24969c3848c877475e443990a9bf268a48db59b2592895c563ae0d315d4d6c);
Dbl (0xad76aeab07632ba0897563291c07533a53904c8917d4cce1df331c0fea875697, -0xaac2b3268477b123a8851d1a5fb2f14a48a3c093e93652be39aa7a6ee2b5b5ef, 0x75899f191a5d67c9849c3f0e26c2fe9814f7fa7ff4dbfc43d22e30e4f548b814, -0x79bc359cafa7752142cd22866c606e196d2b880db8fecf5b5fece4fb021528b);
Dbl (0x8d208cba001b885a9d1cd9bf54e51d2637ac63861474a0fba0cf6a9ae7ffc87, -0x1f5312b4558a5d77fb8f570482db02b99ce9e78230c238b486f55979287aa75f8, 0x4dccdf28adc731808cd8a3e4fa3e47c1338450684234625fdbd88744efd1d2, 0x4dba76298686db0d7847794528ef00cab3ff7ec58d307b1a6f6407160db5977);
Plus (0xe04cc7513c0a4601f106f267a58e8b55583227dc1747eb042ccb0eeae4d4f7c7, -0x9c1915207282b1ec5a60b3beafedbda44d47ffe0c94578b74cbe9144325487d4, 0xc48673d5e103799118dc6d3e4ea6631ec2e15cebd84206e859aba76822a62956, 0x4a19cd2c9837580a6a1b2a95cd2d1d5a233a71ecb71ad5d4db39693b05c1fb11);
Dbl (0x96791e6e5c53bddc2e330cdff59b2760a5d1e82daae727ccebf22ba376b64789, 0x3b5bbfa84f0f3ec28125b9bc104c6aab6c24e187bc5e57897280e33544e977ca, 0x587228f774959fd5b62e061d76cd7311cdb6a2af8987dbfa3135a0aa9d928998, -0x51e1f1eb80584512ad1e91f798ee8209becd2510c62702b2552ce0f2c60404b5);
Dbl (0xeeb3323449c404260d45d0c90e1b08bc54f7142b776ce23e8f1eac75e7a54b77, -0xe2cbca80edfcaf38669fcca734d0aaf027a6db185a0cc79e792347116ab0046c, 0xde91aec956b1c61ba4866442d50b51705e1db8a72cd4885ec4747fbf1afbbf85, 0x9f28a6d17329383aa8949ac669ad3b205fd25733660695a4f65dc1c71cc05d31);
Minus (0x37a8ee6c35fbdc8d042b47ff3d6c6194ce6c5238639940cf15a58209020e3ce2, -0x939d27211989dbf9d8f15a5ff25123dc8513d28581fb5500d1947b1c6a229f2, 0xc1a05ec57607b604221130ab2cbe2f0a6fe0401c7776214efaee5bb7e0f3d31, 0xe85f5bf01318214f5279932386686fd956e7872ee45d6e690ef62ec699cd860);
Dbl (0xc2bf87d6b97bd496e25685665a1b00bf3f668e0d1d0ede73a3ceb3f0f4fd4a0e, 0x5314a747db28e6fb57fe262c016a09ceb45daf5d1ff4976cbb6b140fd05c17dd, 0x9426d92dffc379e48f70442274f9f1916ff9035a7765f1824476a02fb3f3dd48, -0x205933b0da3fc78406c426022432c3221a631a22244611c1c88f50480cc3b4e2);
Dbl (0xd980c91e98419256b33ca70642e8086bf8045da5fc4da6a69f1a9b3081a24d28, 0x10872a36a53045d0526a2d4fe7807ac84e9058d43bebddbbb6dc1b4c2319f7ccd, 0xb8cb95c053841027ef00ea9118322833049eedd2cfc0affed04f478d6a71ede6, -0x422d9cd96e534ff6f4d24858974f2d120d50de76c36e170c7c329b08fc1573ca);
Dbl (0x3f00b53d7b742f827adf650878828da4901e79f385673c8ac0efa2ea3783308, -0x11a84f097cf05b0888b4ee0c04d0cbedb36b40ef82426783d69fb4a4253fea5b7, 0xf815934d29487ed57a322c39cd62e280f145226191651f58a8755c3d8150f, 0x1c4c59c358086b327c6d6e75f6ffbf9956115adb4a9ef3bd9453beff63cc7e6);
Dbl (0xd10a30165e44a72575956d5eda085e58a090d0349a5b7ec05bab13ee18158af5, 0x1490e089887232cc528a4a457406a83e40d78e1bb94b31b0179a6bb92bce4edc, 0xaab1a2ecfb657e829ed04b8808e9f662066b625fbadea9d4f1f0803c122222d0, 0x1522a1abdb1f7b5b728874ce9ed99a0a7eb0beea5c81a5afca0d1a3c769ba7ad);
Plus (0xd92ad10ff4d79c6bd2b1c5d51e295cc08ee545573dfaaef48593e689e3156f1b, -0x7b5dee604c56364376ac9e485ff9c774dbbf094681af99a0b1b43deb5bedaaf9, 0xb8399d9709468a4b18778adae26e8d84c248a08c33eee755a0ce7f3dd7dcbdf7, 0x3c969bf494877ef04acbf0ab1e1cf7d8634bb9cf3ba16b2f3d86d9f040e9629b);
Dbl (0x29324dd7745424c70017bf17b618e2f391ed41979e1c82dcb50a3c2fb80bc258, 0x3ae848a9336aae7c9f2c5cc348c64374446ee075a73e7f37d2bf02388f3f3e08, 0x6a126d189b8dcc6d72d33be7bd8d63bde222f5f0d03b468607d4beaf56f903b, 0x205255f26bc41b9a5e7253b35c215ac936e64bfbfef2d22b08dfc3afea05314);
Dbl (0xdba0e74da82774f5d0740b49ac31b538d6f8336356feef5f2c4879ed5cabc501, 0xe9a1e1167ff6482bcac02611d3c71dc2308a8da56b93f5a8b13d1c00787fa7ee, 0xbc6cb0e18c2fa15560f1d67a4991c187eef5bc60c1f44928b390bd2719d9488b, -0x8caf653a4b865e373adad83688864d5f786a4816dc762ec25775a2be495f0fad);
Plus (0x6b44b330e6c69937f31fc5d7b1387681081fd26bc74ba0cdd6b51c1d876d397b, 0x2071548c007109acec298e7c2531c68835abde1befff01379a5abdac9a7609df, 0x2cf2803abd4489e1d00eea45fd38a5a65e854a416e158db4b6f7e7ee342b2505, 0x163c1dd321c43586c408fc225cea85c3b133d200bfe59f911c0dbd0f23312e6);
Dbl (0x3fba9142cf9b09f82a69707ca2d04b2c28ed80f3b48196ca23f69ed53b8c1abb, -0x12eff14c872ac20d61ac92f9a351dc3efafa36f56568ddad23040d9af03a840dd, 0xfdd5b76598e184640c69f6a6bc016aa6f4c1a0a56cee5d4d80b77079b06642b, 0x229feae8917e781236f68cafc0125d30a2d7b3a81b8a7e063aa2045b785527f4);
Dbl (0x753104d2fc9c3c75b4ef6a5abba9162535cf4ddd8a5fd009d2e8386cab58a6f9, 0x1cd197801e6191f38b909c678ee9c52c0df522cd0de8ff3e452d8f7623ca334b, 0x35a5d7cbe968a0a6bbafb8de469c10048f10d273885cf8df4c7b47fe91d7d056, -0x19f8fb164c8c0b5eca1da1bc7ac818e3f38900714ce5feece5fbfe2fca629f87);
Dbl (0x3dabc691917a2ea5620f8c27a2799e637b8d554a0bd646d4af7650150eec6760, -0x2febd2a420102a30284bff77161247d791bf0182e5d4d86dbe9ae514caf56530, 0xedb4fe44ead632880bacb054c0f6db79bb1cf0af19f78f7c3cac70fc23c715e, 0xce4628f4c0bdee19bc7d5c42a005988cb6f4abdf4957b41a72880d89eb9f1fe);
Dbl (0xa2c62e1c76621ddd9e90dab925ebdf8caf145b2e46a7e58e91d6292942092618, 0xd612a4c755253d4a122497e6f54b9d6a6a1cef98dcd05b043f9724194f9c0f0d, 0x677f6bc7c9a8f70f709aeec63ef86ff5d816bea784d594ad496f92ec909f673a, -0x4e04a8ffdb24ece2d5dcdadb0a5b402cee9b1ec95c7f10d33f40278dffe2d10f);
Dbl (0xedad044c65261d5af330654524135fbcbf9390aae52cd419885d1b5e0f8b9b19, 0xbeda87f0e8bbc7e207648d1c63ddee54620447eeaec803b0dfd5334d8ab03b51, 0xdca9cee51f4590b7bd536b2de874e3c68c6e257097bec2f03fee4ec02e392146, 0x2969bea8f557adf66ac7c69770cf3ab52415be9a3a66285b251812b2eed82d49);
Plus (0xe4cecadc5baf9c0b62dda83020d96a25278d21bdff47e521c40f6622fc9adfd4, 0x1487b23f339e4212691c2046ca7f0ff093000f225f1c6be2239fac6e3ef14ea6, 0xcc8100646b35db55e20f4840682f38110ced18e54842cedaf4dc7ff4cd065ecb, -0x3f9fd6690fa8e3ca2e322b39aefe9e0a5283db567ceb819301bdf51bcd2ed01d);
Dbl (0x429efa4b1ff1915e962e01b19f4c61cc73d045853c64e8175e7f002437d62505, -0x215be185a46d41d72328957dfe2daa182dbb63346fec403a9269ce2f0dc23a00, 0x11565bc8b741295c6790372326f92bcc5e14c23c399651c34c24c9ef50e7301e, 0x14d8a34853313f76c18e8775bcf460ce98affe2201defd16af259659311173f3);
Dbl (0x84f13e9eead977e5ecaa6a33b553777d9fc91dedd22924ee4b72d6c6dee592ee, 0xc4d31f8c6a4b8b9865a7c9f72ae67fb3c445ab6fa168bbefa83fe30ff8c82204, 0x4509abeb1dc1796bc5a4ca416ea34274b6c3c67a0ee3cdc0629fff3a0d789cb0, -0x2a8faf570272d1943b08c54f12344032f58e898e1a5cf1cc9645730694ef70c2);
Minus (0x1b6a0d160c0d74dd67e2ff830a815bc87b60763773f171c04afca4d0ed49c9d, 0xaa5955b46f4cd2e53cc760b64d5c4f06669a0d823ef38fba68452a951c8535, 0x2ef8ab180679b9c697bd110e45aa62c34690b50f76270caf3ca2f7854b3fc, -0xfddfec1e6c42686b0fcb13cef404863bdf54bddda4674f6b0340d7afb4d76e);
Dbl (0xbb6aad7061c969e4a76a865e39f1180ed95b0f4970c4d641edb138d52921280f, -0x80fe3f62993aeb2ce220b0b54037a357e5f3039b4b8e2e2ef07c240a8ac254d9, 0x893505d6cea356d5f214889344ab4ff7eb3b69b9d2a156535f2de6daaed28638, -0x117a6046e3605e0432840b27f9b1145609baa9fa577df10b7509aa92a45d46b1);
Dbl (0x939a30e72a652164becdc44bbcc70ba1bd0abcb08ac9874f81024082a6c29a32, -0x4e7c51102a99e7814e0a23969c145b748f31c994a2e87867509657393d84db44, 0x551a7108af4117b1b089e7ee149e6227dea12019d904c86c5c8d11c57cf5f119, -0x30f082445a8fd83cce945033f97acb89c553dcd845f51e7c5993fb1b7c8f7594);
Dbl (0x74076d2d468e60d0e0f299cfbb8d00eecb0d07a011d521cfa279f96f16b445ec, -0x155a9b131931248f520fc3d6f8963e99c4354ab897eb7ceb7609dcb2142089700, 0x3496bb28639134c5e634b765a1981250b3184fa3aa0eedd71f4b41d01f9613b5, 0x3cc43bf6bf0bfc401f5914458ae300b839dd518257ffadc0e02664b3cdcb712d);
Dbl (0xd6011b593a3fa7cf0134011b23ab04ef786b369c800195a19d7be1dd416fce75, 0x5a8258f6a0a4c0a75ca154cb78098e1398a6df3eb3b40c502cbbd1453f2b2ce0, 0xb2e5d9bb19e6ac2ac78b06beb04eef9cd2fbbc5243d2e589372210f027ed1640, -0x2da74453c77767adf735c2764d87a4fa128982c36d3f81b3c729e2544a0252fe);
Plus (0x37dcb23d42cf83a38d2b10e19b7b043d0a8addd99d83ab9852bcf1188ad3d2c1, -0x3b970e204b9ece45b5a74ee3f4b24e8b410ea26e51dbafb697004fa29f8b8ce, 0xc3092d93449d1a52b40366990818f11da33c5cc9b38886957cf92972eb8801c, 0x186d8b7750b122fbbe1967b33de542e4cfcb4a9f6c522a2e4f1b2ceb10242599);
Dbl (0x524efb3f3a34cd13260690a846fa7b4fc7554d8cc78d07cbf445d22431a5451f, -0x6342e13cbd86a694291014ba99a5edc0e8c7ab89bd43bf5892ee9aeec585e52c, 0x1a76b152acdd08a10bca2bc88b2021580f9078c53dc2f754ad5cfa4d92582a0a, 0x18ad734649ffb1464cb7437cf02f5a2f784aef321eb697f582c5deaf5fc57431);
Dbl (0x7b39eb93c9d76ec892fc312340d90ce59e8416bb8b11f7282dbd30f5884300b8, 0x21e1403c5003fa9553b63870943dee8247f04438c74450b672baf87ad89bd678, 0x3b50b57affde45c1c90ed54296b30e52c6e19495ed165944957c2f19b86b1be9, -0x3f5679de84a778954db81987fc5b09ec7ab538192d3661e05b0efecac7fae247);
Minus (0xe3e017eb8dbbebd8a774d6d2cac38b80269997d3b2110d892d3511e7b52a3701, 0x1f7d2ca810d907d42ee87bfd623cc48960a78f8e2df08fe5165cb0db4c0b4ea1, 0xcad72e9666a6a7e9d9ca345eb6fc479f3867f26dd9c95f432332f712dd093e58, 0x290562e5da20218f1b8f244f9d82d3d219346007df5d5f79efcc48e742487f5d);
Dbl (0x4b8a6e723533e7d3d8612077e43af208fcc6193b3ce83e99345da4a80725b05, -0x1b69bbb3c04d48193330483f22aa01f0b00c70437d5b0b36bb58cdd4dc01946a8, 0x164a6792443e860a47a55f595abbd389793f9ca4023710616c46c18e508131, 0x191ea6c20cafae8e844bfc7f094a07371cc118d39eb98f4b969ec19787eff54);
Dbl (0xe7dab0f8fcc0ae3e5c394ae291922949b7c5a1f54ecb2aeac075237d21871d65, -0x2f6b03177d4ee7483a42b4fc0ddf02369d8966d7149b0a0372c0664d1543d329, 0xd1fc66340c85e68425a136ba955d98b7e01cff2e5b158b9ff8d627265ea57063, -0x1db7cbd8c6601d31d35d51cec7e1753c5a359b85b921d207e2dea68b10b36fe6);
Dbl (0xefdf4a31f9cae53c9ad6188f15dab087c937ec1355a56737682e9b533ba614ec, -0xabd4a5f1a8d135c8c5b001ab5e48e62c927e493ac66d9853240cfad72823e1db, 0xe0c2af4c89bda4f9119b95fbfe3aca09e2eff3e1355ce18ff0cf8233e245a686, -0x3db48be2206fc35c6ceef619ce04b4f3c5464e93f07826756478ffbe81879cbc);
Dbl (0x79836e79fee4a540a9f84fd1c56da539d7aa05f06ee8dc07f050bc7f4b3813c8, -0x11d87eed73a41ed91938899d50701fbd51762142e594f9241f96d25251382b5c7, 0x39ad81e9cd299551444910529ce8d581f0a8779f4d99230207647791bda7ba9e, 0x252129e429da73fd93bb4d224666d17703df018b7106adc31605dec9446de36b);
Minus (0xfe32802aa36b0aac3402defa9154753fdb870f1592a2a545193d909afb985e0a, 0x10a814dfe9f9ea461f77fba69a032d223da779f9f87440f535dd23dc5f5aee80, 0xfc68404be98329cde1b21df77100179ddb357966795dd80530c90cfc1bd8de74, -0x3e16e07d0d3fa6195bd5d8e0ac0e0adb6b9a7948aaff8343cb73e829849474db);
Dbl (0xa3dd7cd24e9aa562c028da0ecbe9bf7b1f237d0b100445d69f51a8c8e9504e0b, 0x46393aa77d2caecb66ecf2b0b6fb803ab55920c0d5c74243ab5d79dca924317d, 0x68e3cc94f8f4db1cbb56751d809df310dd2af8524da6225d1a59e0634c7f588b, -0x4fa267c6f125411def4a51a24c4d8b4bf81a09f23298d07421dab44e251f232b);
Dbl (0xee60bda620cddeeffda566bf8827f5ec78e87dbab807b60366aee635c1865883, -0x27cfe9b1ceaa3e53f7a5fc30000dc4950de22c6dc3446b10d9a01571c4e36df99, 0xddf805308c0e225ba8137d5246f8871f3b268a5a5aefe08d330107b57c63abfe, 0x9afe6e6d12edda3793bb1c92674e0d003eb724f4a96dc1e77d44208cf295cf0e);
Plus (0x735134de65baf941bdc1ffc813c5228a6adb46ccadb99d686bad76c21077adba, 0x135c7ae9dd019e634d679e19a8d542d688a60bc88db2a574e9851bbde73b4a70, 0x33f20f4282ff860da91bebb5b6d0b23b8052f2d6b96d0874253a77f26ae9248c, 0x13f5400f5a838534d02be7d7760287a5121c0342589be182837d5e4cfe6906f1);
Dbl (0x76e9bdb98b0531e25004cdb7856270d30bc0d94a955bfb20e0e76452d1903806, 0x622c6b9dd5efe32b0d99b4b6d16f04b5dd25d78c41dac96e205c81597b1ad610, 0x373c50522bbfa78348e6551a42554b4597916a07b571ab1e30b8618241dd2016, -0xa62be13cdf3cfec7077b6c900245fa745517260a49686a3f3f724abd7a6da10);
Dbl (0x4603a1c4e11a2d2b7add077dd09f55a84150118f53ddade3918edb8fccb88328, -0x84d978f210e2e27306884a4b25644d1aaefd1188cefa7898f9301a100a54d4f3, 0x1325fc84ef16ce6214fb7455e994323c9c1b79b14035c8c974c5c73bf3dde76d, -0xda9e26250f973642b95f1f9269b402cba8e9b047800e61ca3ede097e526dbd9);
Dbl (0xd8e5e0ff655697c13b3cd835bd4c448bdb221a734ee9e30a83fe18fc466ea614, -0xfc36c7164a72de38e88d1c0dba0229778f3c5e21fcc5d9eb5b065cc6fd1a2f60, 0xb7c4ba1c0172173f7189f08035c952ebd02025f5aa0b8b8ceb72f618b3d6c76a, -0x394f8f6274b6de0c46bd1236b469cce0421ae671f427ea253826200bc1ab8c5a);
Minus (0x9439337bf97818bfde23e4fe1cee9b3c8e6146016e0f3fec4c9890aada8010a6, 0x1e33e80d46d863a361e8dcde041b82a4dec8a6e417427b8e1be060c8c32e75e6, 0x55d2304fa5d4c5d7b4ac15a81195ffd75969ffd7bca95e4f49d0e0fc959a96c9, 0x2987eeac51b01896d862153d2ec6c725d2300081e0ae3cc3a8c141e800d09784);
Dbl (0x87d31f0f3334bc4e9d888d7f0a92a977b8b42f082e30677ea40e0fc53853aca8, -0x20d0082e2c084f410f92f1aa3138d8f243f0c6e4be29272418dba048838791113, 0x481058de86e50fb56299946dfdc3f20a075a0d7010e4b22e56296fca1a115c80, 0x41344c443c63b93c2fe7f0c5215f829b7f8be387da0a6a67be121a5f67d01d8c);
Dbl (0xd9486ea131e9deb91764e2eef47a6705d1a8f870f1c953b801581685c538aec5, 0x9a10ef8bc13360290f845d2b991f53afc76159165104ffbf2ccfb1bbbebb13e7, 0xb86be00c69855b93902c3ed411197455603bc7652668699a3c0e82a3d80e8618, -0x61a5d1ba65e365768f1664bd3d7aaa80b5fbd4896e0e50ff54db6a534aad2f2a);
Dbl (0xff96fde5e45d6d4aeb53be3abfd9e88fafb24648712d8c09f882d32e476517cd, -0x12340b3ae7d4a18d9a1c30a8ff043c1ce7be368b65fe89f290cad64ad817993f4, 0xff2e26df815817e8dba8b617e5750b2cd4dfdae77984b274a8f54e8c381a4e0f, 0x2b3bb813b86b1cc2ad81c0004d74c9564fbfe87773df60cd1f5a3c9303d7c0c);
Plus (0x1dccb0691890d0cb1c9f25fe32d6101efbde8524adde355e2a1e6148bbd67d6, 0x19395e4cc8fdf963ef02e5cc2745cf8f9963eac828e77b2f9735ba48b55382e, 0x37803a17418a6a88110565124909eb8d08dcbcafc44b118932458140ec91e, -0x61d77501f48fd366d32b76ae5a98c4febea2b2b5128fefeee3ecc35442556a);
Dbl (0x561b900375d1f12fbc43817d3b1b6ec08e24a4dca93957e6d11e37d55ad82a30, -0x2279e46f8ae1166b21aec60f6bd58648c9b1e823b3207aee3503724da74694eb7, 0x1cf687ba21de54a71ff1cbb622b84ca3a9ae77222b5d722fc1b19d2e88912324, -0x8cb2d1000a1cda89cf0c66dd95b0b9db315598c38f881639ebbb32d17a10e96);
Dbl (0x1f8c174e9b2c1a8e970cf284b20774c34967aa64c2e0dc8bd93b8e7abe8a7f57, -0x2817ffc8e567f4f9613acdefcda262df36dc5f5c63e42aebd162f8f1b9a9f2251, 0x3e33a4e8d90d8fef7ec355ffcc263e473ae51706270d85a34cf2d0a38884eaa, 0x16cb822f47d15d2f9506e60e837286213501c748f98758bbeec91b26c92c4855);
Plus (0x8998fbefa7c98cce8432f892f792604776bcad973f4bf1ca44adab1171771f12, 0x2dcfc8384ec1ec66397d1e4b832558bea3bb17cecced2bb0a5e7f1727d7ef22, 0x49f51912f011e47ed742cb3b078683092a49b5321ef3babe5b1ff7db2773618f, -0x61f6cd3b3226538674ab5743fe5f445ffd25e39c51cdd4fe34faaba58b4eb314);
Dbl (0x2fd440ecc71c28fe10f61da3480411b80cb9376f63ff222b2a2ddc3a6a4e33d, -0x26ca62e6fee30654e0553321fec0135e1b6f49036479cd4d6b7eefbbbe19adbe, 0x8ef9fd292acfc11840b3a804d5a06196fa02db175a676a7074613ca6924ae, -0x2129c3dac17d277e77d910c2b6e981a52cc3fd20cd61293ad441d2fc17f5890);
Dbl (0xe506afbffec23eb1d1eda46bc1a47f39ad9e7a88a616523424b3cf25dc4d9df3, -0x174c6ec01005b551896bbed98fdccd3095231e4ee9abe66bfd4e1b3f846b6cbb2, 0xcce4f69b00547a2afa6f3502906f215ab0b3a613cf43ce2f487e9f057d5c30d8, 0x80def6733e0c6a0f2a9459566f789ecfd322c5acf90181ca4b14111fff1f7544);
Minus (0xa69d0d307049eef954a705db753d208115b21205475119ca2b7000005262da66, -0x7d65fbfac0340e00fa6b215eaa30fab0d947a2064acd86cddd13cb1bd283120, 0x6c700d746c279ea04691b82eae36a1818fdf96bd8023aa7dd2f87294d1102334, 0xf7369523c0db3dc5fd3129ee3d3c49eec8fc615d2237f3808d007e6050cadd);
Dbl (0xff2ca1583f1a35de8b26a39f61ef7b330ac3d5d89557063f7a336c86fa946b5e, 0x298223e19fe1fd8a83edaa6342a25d1e5e7bc8ab2229ea1926dca4d4ac07a5dc, 0xfe59f136a815f753f0c7b295d5fca33bccc83464e84ca3e4c0c20c7dc0820b88, 0x122d0af0778c017f29074df774d46f953ce36c155dfa62e747b81df988c843e9);
Dbl (0x83cd584275b774459901c763b674c8ef7e681d397f33ab009fc63e628a4240df, 0xb1441790145d52f4b30b7c19b89057b7aa32609f19885313296569db09f5c0c9, 0x43dbcd0ac133d808f80feabac574b29cbf209f02d905c307d439126dba45591d, -0x43095b93076a918849fbe82025b82e4291a7c97c82af56713b5253a699d6202d);
Minus (0x7f411cd80ba4f55ed8888ed2593f22e098ea68918714282a1c23169675dd9be9, 0x32692a5437d36c078d14b9a4ead829be9948ed10df433a4f59099257f18a76d4, 0x3f41ab2e43c53946761767f226af04a8d685d500a6c1011c2efd906fcc784b84, -0xf05bd39c10b79524eb6b267176ee635bde69d4434950247e285ba2f5395be56);
Dbl (0x2afff269aa3c2d6f8e4dbf20d491b5279a99e2d2819310bd60bded08c4ee63e8, -0x1a8fd69eb2404b076c7b65cdb526286aff8257fcd061b7602ebe539d2640affa7, 0x738fb6f8721cfb17b4ffee6b3d0b2ac3393754a35b19d6a8ad5afde60f54898, 0x1f5f74ac81aea6d80998d25b71e386f3f52a16bfc7769a85c4f6afdb70ee150c);
Dbl (0xee2d9657220818c3b91736103e17884fdada03fd2604b20df6c8f927da3bc8fb, 0xeffaedcf6319af8aaf8e27ad7c77e66b224440a5f6b6cc7d97acf2cca7f7343f, 0xdd98cba913cc0a167a35d1e12880297a67dafab5b0e9bcbf8bda4662585e1e02, -0x8109fffec2b2a13e06ca559b4bc16ad2648b12bfc6ec31183933f0d86fa30364);
Dbl (0x10a7bdf60fc7a31a8b3fb42f776a4b05d3646917d4a0931b2bbfd132a5a926b2, -0x109c1fd0dc4ecd5b6f85ae72738e04d20f589e800c3b535c0891c8103ae9c0ed0, 0x11565a8270c30515f7c17b80348233d18ce94445d15c054f4d0c64d6a83f912, 0x72459fa12f1ab082de78c651812e11323371d5ab41809bd1b5128dcb5039cda);
Minus (0x99ba681e757eef9f2c7c07b34845f45a6616eab2dbbd11c3736a1d5db161d68a, -0x340b80aca30a4a6d3e42a5249164c56f64a2ad5aaf1100c736abb1635d25b5a5, 0x5c5058303b5d922737e4e2d1ec672e4cf18d080eb1aa4345f756aa3575af12b3, -0x2efa31a466d1c93fb0c6a721d5603e787355f09f61c10d3a7d899895e035e1bc);
Dbl (0x38d2b631c04e00f91ef32f55963a230646c512bd81d0a25de987edb96d284c5e, 0x27b2c3948a85650b1253f396f5da31bc1b357d08dcfd5fbd0539d8f7fe71b35, 0xc9cdd253c0944a5dd6143c9a21e4bd4985c6b27d2f05f659337c6dea2d0abea, -0x2482474ed87cefe9a5ce9c9b98a1e664c04dfc742782beb0870b49bf4440b9f6);
Dbl (0x61d5fec6a5fba22816b5b808623c7fe559ae4dac7dbe66723fc25a2336884f1a, -0x1b823ddc35d79ff5698af7c3cbce7a749cddd2ccfbcbe336a172161c804b58197, 0x2563ddf4a34b8f173877ea6ff674877029c55fb9892b1944f28629310bd6dca5, -0x74b19009c6d0ca3a3344bb1d8df0eb097f68b27c2456cf45f1ad85fbc6199f1);
Minus (0xafd13d53b04714fd3ced8173fa925d445f0d2d2216933d5510e79ff429da4556, 0xcd1961731f4b5e5bdf57acccf66eba0ea3266afb08abaa464b2287c8c607182, 0x78bfbcde1517bcfdc29c4ec12921f0a5448255970b5ada5c1d69f16889709e32, 0x4de9b3f27dc32cd3f7bbf9e71e30f62726e0cfbfeb8cc78b02e54136d896d030);
Dbl (0xca831e8e9847bd1e1fb03c68dfda133d25b2dfa512396511e10a6cf15a3d70ac, -0x1432942f421fa117184b22498728b40d1daf3d3375e1199314814a5d17c3e2f20, 0xa0332f61f219fa5e833b7a369372b20769260f5d9cee42cabcfcd470ac01252f, 0x32b7eb3f9c8b6c63cb78a1b867e19819c5df34beca128f011c76ea31327d1c4a);
Dbl (0x7ed58e109a5779007f144cd1ec6bc382ee1a6accc9547d475a7413d53779aebe, -0x89aff97e9d6f9f93469fceecf5e9a2358337be4001983ab25639a9a8d106dd94, 0x3ed6e9fe4d3c46f69889d8e13d89d2923073d315bd866241209d37b7624c6ba6, 0x136c37121d1acc54f3cc2ce72d3f57709db79b4c3b16bbef038674e1e30858f7);
Minus (0x9322c4663d92455d064eaab31fdc1340b4ede57d295852580ee3aa739215a045, 0x108c91e81a089027d4300378d0039d1d3f4a4598c05d7a3df711eb5d99ae1b11, 0x5490f246811bffe68813d2fa171d4d736bb0c185987e2eca96e21023ef77042d, -0x16d7462425a8fdb88702b161cb0b263aa851f96c0d6d2e1c587dbe9606965c68);
Dbl (0xa73d3dacbdb7a692790dc1af3c9f0f014e2061b0bfc6face899384549908b31f, 0x28b8198d3dfa101a6830f2ccb82ca80b1dca3b343ddb6bc0c79eda9416587025, 0x6d40f51e3ff4c0ef4f33c1490f2cda8ba993150573684d5b56a08da86bde5f0e, 0x4ed57f373d150259af732ecabc97bec4bc2b00cdad80f20e0c5ea17e6353a72f);
Dbl (0xdea2f4a1c5ccc5e5856f2b3bb3c4b9a98cd11a940c4e5e3ac3545ff714a80470, 0x1a462b98e55ae5e75a242a6216e37f3ddcd49ee4ce3be98df34c52f4d94a037e0, 0xc19f0803db314db0611f32c7c7a99ab771853c54d52483f12a4e525bacd4ab7c, -0x61380c4c21a72ab05a238c171fe867f520e63b8a9ccd63c805198cab70b01d3);
Minus (0x4b6b97fd8dbf767d0248d4596e4222722863fb6ecb8d207d0b1114140266acbc, -0x24b7fd013626bb8ea749b2695501f9428b9053ae4ede39a6af9f9c9b3c9e40f8, 0x163838470f77fe1a9dca7ea1a009c2926480c7c6e3b5e788125f3340eca8e3c0, -0x5ccbaa28f4e8e62291bc638909c5cf5a17252725906fe76f66d6be246ef618e);
Dbl (0xe02f7f2832e406672922adbf40400fdbe0a73bf43d2bf2a29572259c2c257d88, 0x12e6eb8e068e4671a0b01db7d2da0aa691c49183ed34695590cee5a6c7fcae359, 0xc45327570d4dcb135a92a72fc1246e0a98a06a5a5aa575520443047da5a46d2e, -0x30b08f00668137dcb030e4fb9ccb9f41f7940be73e851c50d986f7b91d80e78f);
Dbl (0x6b8cbcbd6ea41e144a5f9ee91f4013a07b5c6db728814cb6c503423abdd3eb91, 0x81376520fa6dee477523e89972d7b911f728d877e1a0c6f015b492e8f31bbb4d, 0x2d2ef3258203ee78cb85ed0238a501435c8bf3830a80650dd4deea27de2f6196, 0x16ea1a5dae247c8850ebeb2bce088742d7ea96a37148b6d8fffa6e4a8f748b01);
Dbl (0xd9392ce2837cddf6341cacd0d31e2a8cfde54f090d312892adf3bb6a5572fac7, 0x15d3a3d9da9aa004b1e08ee504ca7abfc3ca36b97940dbaf279502fadbee1dbfc, 0xb851faddbff8de629bf045f375324fd0c8d32e36b1ba5301a79da704be66345a, -0x64d4b7a4a097f360bda4efb518ed7a7c3d68f97143447c431e6330653efbcec4);
Dbl (0x5e6c9a0f45f0b4f7a6cdd869db2cad66e0836dd7cc4a2c3d439798e5655a1f70, -0xc5238ca3176ef232db07142742b6f0395a69f27b9c5f0491346831af68b0fef8, 0x22d3ef35b3ca1842ff74df4026a026e40f926f47507c8d45720b11bb3b1f1eeb, 0x27100be7f801fb99f67280fc90bf2c5917f700a553e3c2e23c58d53d8e8e0f93);
Dbl (0xbeef0951e81fc2bfdcf83cf6b7f2e0649f0b2f79374803aaab9916e52b114dad, 0xdee8b25f22bd450cb249eca8bde5adb05e7f9b3b7d5cd889fe30ba70798f23ca, 0x8e67b1088a3d1df15c58cec8a85467ccc61f81331a0aa511178b6502dcc5afbe, -0x44d26a7899774287ce8fc6a733bb2708fa7440961fee1a18a40a76d087226854);
Dbl (0x985452175e7b133371e382a137a936a0d1965a0ed0cbaf618841965fa3204c60, -0x576af533dce0ec6b03196a35acab19a8ab0e250faa07c084ebe07b8b49009538, 0x5aa43d42147f5f7c60251020ea9f1afc08cd565c939a3ea6648fbf41299b93fe, 0x32b6bf8741d4c018bb3d5d43e474e0ceaf1b441cf502da93c2231b29638e2170);
Minus (0x47fc821f40c5b76cc6e57542eb906ef2cdda5986ff823c2b156b9a6f97ab822a, -0x22ab69ad566149d798e6ee0954318df23eb214fb8837b29c0b7fd069526546b8, 0x143e093dd9d6fbd6c8a42826542af604cdf3c95913c8b0e27c90b0ca78279ae9, -0x1a8cf9bc1fd24570a88b7c2f30df873c759244aba52c4104683fc89d459fc5fe);
Dbl (0xa45affba2808882a40c0a65b07ac92ea34a612da87944158e651251b6ead6046, 0x1338ed08b97e7a96b2b49405a046e847574dc81136d3fe3165940c3f86f9ef9b9, 0x6984b7ffbb282f94643c896a25931cc6ed5b0c60b0cf76eb2f2676b674a6c14b, -0x5ade4cb82913e3f7a4e998029523e990777beee626887c73b384a93a3b5e8000);
Dbl (0x7f90096f549fef2356ce34b939d2bd454aec6c7a1dd5c9eb304f118091a497da, -0x166f57ac5df00c178671f07291c9be8ba16c47cbc398f486fa019db27c9da9a7c, 0x3f903a67531f21f6e8ec5d74925446c33a0d5e646ddefb9f83aa9bd6467a8674, -0x1ae60c8f319e55d30f485391a48e7eee4f1b36c1e9c9349ada0aee78d1e777ac);
Dbl (0xc77d2546657cf94c022d48cdbe20751f455fa5881bb05fc40fba9c417fcd890, -0x260f17c2f2c903af0cb2c278ebdfff7d15d31d993f03a7a2fd5a8086d2e8cf0b7, 0x9b73cd217968a172463583a4793d1792cee51cdca07a1c0dc9e1311203641f, 0xa7f8388ec57fd792ae27784f7dffe2ec556348ea1bbd5428d494479a3a249b3);
Plus (0x3dd07ebe3893aa5a40635e4d8a9f4d6a99d378c45d346a594e1c692877a80506, -0x358f8c7828b21138e0fb5282fd33fb757837e289eb9b09521615334d49e97cb3, 0xeed0634e9bf2262138cbda551608149f60a61aa589af16944230d4ee356dacc, 0xe2d8b7de7ef1c7c02df6bd895cb7cea9f0930b71d71da69ea673fcd46583f9f);
Dbl (0x86137b79fd460d9ee30ffd72e14c0b4168aad29a9032a362177851f18be53afd, 0xc9e5ba3810679fc1fdee8664f8c36e9e09d08e3220ea5369bd0cf61373a52c30, 0x463866bf8b07c8ea57fcec5a32f378fa69f5cddcc824e82b047b5b6669d7045a, -0x1f926d12f9d0d351a5f31bbc72a07484659c2520c2543ef1636345700aecfe52);
Dbl (0x4b4f844d0143a25296621b2df080380ab2386020e7e1f94e05508c3889de979e, -0x181b01390d41d380d24afd3a18a9ff8cb844230bf9288191724b4f5f1d9531e8, 0x1627b03820cb998a1fd09fb256aa6c51685120c75cac9432f48e436be820ca94, -0x349974a7e083d12c79b23c6ea769355a45353d8f3758af32f43d95622ac59a4);
Minus (0x92bb94cd2b8fae9ca885fc0138fda1f87dcb5b4da1c9ccc1969b147a124c3bdb, -0x5f502784904fbfa1c2e8f8235aa444e0544c1511c43bfe4dff98aaa85683ee6a, 0x541a7f2d1405e50d766ecc1dede51780f8c68ba7574c0cc8caefadd74ea424ea, 0x7fb3b032e94794066699199c24e3f10cb678b8072d1c2001d2b7610bd4ec7d1d);
Dbl (0xb365fa38e25b3fc5b284cb3d24386781b7ddb57526257713fac6e05284aabdff, 0x741997e762bb6deb53394dcc53329658b4d94a2c3d758744b4b50f6e40dbbef5, 0x7db7c48b6fb92277c4453335202023467c7ddeecb739c93f5f3afce9ba5f7001, -0x5d937fef2bc57008264a59769ac675a114c26b9a1877e3717793b05279f3ef08);
Dbl (0xc56e236cb8e7a661d0adee1089a2c97d350d26433db369b1c7e2350d34412957, -0x12e165b0fd9d138a4789e1fbefb9f9cde39349ae54c09fef207afcc0b34791a63, 0x9842b1e8632d07c932a64e20c8011c0adb6639b9bbb94312fbe5e05fe9a2402c, -0x2c3031fc8e6b283f15b55c60f7ee6379c8e26245620ee8364f3ee524622801e);
Dbl (0xc0323c3ff0b59f4e337ae5aa41da4bc064f209265d442f72bfdfd4747ebafba, -0x23536c7c87b54be314d19295e8cd2c530411875a4d0cf17231d7b1e793cf7a49c, 0x904b643c1083e2f086630f61c98aa6403f6f9becd8e8432f075b9c8a6cd5de, -0x551331464756d38c0c624210146e3880dde65380080db2bbe07ee1f550cb42);
Plus (0x2aa25373631cefc7982ca9e916647660e711a9f4c710e31b0e0f4987f151940f, 0x8c08218f974a683a37ff5364ae0260f183d76def773ffeea4d92254f40154f5, 0x719aa4f9cdc9fe382287494cde50d8ef4ad1347797f049de864d91525ba5774, 0x2f806d3b496e68a1c8b9eb8cf116497b2121386aec760de319ffc73e0f9c0e3);
Dbl (0x335a827590f28af19ea4dea8ebda096a6622e98b9612da0ceb247a2faf30d6a0, -0x23b94749ade434a4da54c16955be521b0dbd6b43c2318fe13c3be39642077c443, 0xa4d2ffadf335b14f0e18fd331f6cd0720f019f5b9adefc8ff74d00e693f0681, 0x5f7e5b5addb4d6e97eb7e5ab1edcc16884f86e9c7f75b7361aecb4c0aa45947);
Dbl (0x5d4a7b8292d0281bb6ece7f76b5c03c75449103e913581c224fd46969d60ed3d, -0x1bf6630b935a14673de3e368247111e470038d962db56162daafeb135a1d901c4, 0x21ff3368a3be0c914ad22f96c59a8d233c06edaa33933cf47680577a9203cb59, 0x6f4e212e226507c06a39ccb0e25e7f2e8e185c04231dd4c86cd39e71ad89a53);
Minus (0xfe72dc184e8cfca1ebb0ed4050a5be0452aaadc4de7a54ed60e60747bca20471, 0x96f0f5e1404bcbd34dda230740ccd37c2386f9debe912f30704753f0084b1ecf, 0xfce82049fba7a47c7368679da40d4b004e50cfb552e282303d06d08bf8d9f0ca, -0x26afe4f2ac5c4b5e3b8c87f9218ea1bfb17b900aefc811154fad31a7c36a781);
Dbl (0x8402d15488a2480e9a2fc71a562f9ac1b56f65d30b4258c19e6d7b24e3c5467, -0x1762135d55199c2ffbc4b59e4b22c9082545d1f55ac16068e75b72aa5043b5597, 0x4412e7e7617787c239b442b31a90f4dd6bea06c885f4ee419eaafd83da8122, 0x2b85a13763d55ab2823c11cfb9d477853974a411b3d2a3d9ee89c46c6e5fdc9);
Dbl (0xbcec95630e11053fd18643c46f0d90db12da63a1e42973a63ecc9466b5f2dd32, 0x70948f2cfe2e9f6f3dfcee753a81064cb90df92b68ce5ea27b5eb2e5a2243d00, 0x8b6c560dcde3b9d85deb1dd70b8b364dbacc6e928eb9035a9633db7e242ab4b1, -0x60f81e20adce4c8957ba8281d436606bdb2ba241b7b1cb79038e3f4a0ee5ffbf);
Dbl (0x189cadb9c3e6eb55225446aae811598f9c679441df3defb1e35ce2ca7d463adb, -0x25bb125776e6de9782bfa7c94405d6b60331e05891ffe7a38513a327099f60372, 0x25dc077076467989ef31758b04962c8e4c2801ccde924e6f44996802ebe087b, 0x1191a5865ea406c16614b635243d8ee8f6c2c35e8432003c23e149310e9482af);
Dbl (0x9213e703f312aeac61e4acafda19ef8e5f1381eec13e78203644a292b1f3e545, 0x104b6b74b590013687e743ef0133f2c311e27e2e885fa80c5bd3bc567fadb5ea3, 0x535ab50cefaa39ca7a068b5505825b81163cd2886832622f6554b2c5748d071a, -0x65bae60cb840feaf86636102660001f1707dbf5655867d2b7455a38cd40c3cd);
Minus (0xcbdc6c66fa8fdac3a55ef31c5e6bf614c7414c8b4105fcc465c17c1efa5b49ec, 0x13c560ba1cf4aa647a4c15c47ef16b0895a2a62235b0a5affad7cdd25fc6f7de, 0xa25751b6729d2abe19435954a27358c2d834379b15e1187c162df2d919efcfbe, 0x61a23cb0e17dc83da171614b9b96cab419fe07d97b6cbb49aaa86d6fe53d89);
Dbl (0x421ba08db1d328fd8d1e2b0cf284f264e5a201063430c014b77d12a00ff09317, 0x443944d4b2657abe963e7084fc6b3f9381a9e67b00cf0ce698127e6a8a1cb92e, 0x111241c46358122705e2e780c308b446c1d9e85b2d83cfaab04670e3bc5d68d1, -0x2d80c3cbc10530f5f9617c669e5a6e227282a04db998136d3e1a11f0bf627ab);
Dbl (0x542b952fc288536206f1249660b042005354ac1a34d2a317162b49c4b677b4b1, 0x4a959085f40ef29f06295f803e66add8cc36c66159170949cf85f2214d229aa7, 0x1baca152e8521332d713a7f16fb1c8be21d1e34ea8a1b5b6bc7775e8bce9a7cc, -0x552b1c7cc827c26a029dcfabd2284fe2478f52dedff51b1e95e1d470e266fa);
Dbl (0xedc9c1dccc9c3028c4e2ba2fa2d17542f568dd145f50f77b28e4a9b163f31637, 0x1d264cf0e68ceb9739c274009dfef7a246c67bbb568e8ea824beda2f4e1b2dcc, 0xdcdf2ff5af405957bf8bad22998546949bf7e693349f2a14881d80a511276197, -0x57380a8ec4d65cd04d595422b0762647902d19f1008a38ed9a538f2f6867db34);
Dbl (0x187ec219d8f10ef2c5dfd4ed5a16e35fde54cb0ddd79d6699a2a9ef6d91eb7a7, -0x11b273ea93fd6eb77aa5690982877b3c467c8346a8da1005ffabfc4f570a209f1, 0x25803287fa1f2aa2af33b4c7e2b4f5106b1920d9ac3ff0fb44de5f1d569bcd7, 0xba8139132e29bde1630cbcf6c80e02d0d90c81bd7822276884bed57b653c5f5);
Dbl (0xc671f9e210c1412e46fec8b5171a80eec01d94d4d5a9296e68a5c6a3b74e8296, 0x909a7a04bebef1f777f6958e442f9482e9cc7a97c48545e62a4f6b57975a110d, 0x99d48148d93bc8f0e72fe8e77b1999284e95b4158827725ca4a4207dfd682c78, -0x4052d6c3bb0b95bbc0e34cb37c23e4a354d9542b68abbdbbd1568c4b599ae4f5);
Dbl (0x688f1e5d18840881da851fa505c17fbc49f913ec5fc369d2f1727164ace2b165, -0x40b0daf955a3cba05d5a979453819857426a5dce028cac92608f39ed47b66db1, 0x2ab498aebe3b36b35a6a8bb5228754f4db062921dd884554ef02a986033a51e5, -0x868ffd312f08f2885fe1425b7d5800243e71c5612972fcfcf074958f0a3a4f7);
Dbl (0xd21ecf9b7d7162c7df440032f0fbe6d2c6e094282974d2bc869935d4d20d32bc, -0xa5303fbb893275488bd97f0bc0380b8f6744a7a9b45afb1bdcdf712c3478ed77, 0xac7690511712d041fe44e9fc65c3a0145a65be8fe4b155f646b9e2dcfb503498, -0x13254e6cc5494cf27096284e40ca64db0b601fe470af9ae7725cab471838e064);
Dbl (0x1e71a885315e859a7ec86a1838bf9a9f5fda7f8edaf4d3a16b9d0ca545e2534, -0x14779e8b5839c65473c43a36eff4511407f8f457583d8ada934fe71d7d2ebb013, 0x39ed5f56fb5a8cff948a3a02f77bc9eb90a8088b46fa9049da5b5b97aadcc, 0x10c54a3205b2e8f0b252a82887022b8784a9094fd25bfe9bc1a554729bbb062);
Dbl (0xdb4dd8140120fc49f927051c70cad79f7c6dc805939c85f07cd07ab6ad68e195, 0x5ae379d853129e702fdf5e2617eeb7440adc36a6ea0ffa44be19a512588f6569, 0xbbde475ea837285418070b6691b1e47b56d9f8cd4f1b11fe6cd2a2183ed788bd, -0xc4862fc0cc09fb66a29eb5726515a0119fd502ec667e449cad869acf1a58b2b0);
Dbl (0x79d68e1f51dd20edf90c6e1cb37960e840093a6d484f07e28c4b2cea11b5a6e, -0x2f2c1d159e8756a4b78d89764bcd053c92af3ab3744cb3d32eebcdff26ee2d527, 0x39fc862bc0a32fa5c834721dd316c9ae30922b3827475bec9778ecfe8d3faf, 0x42afadb28cc8e93d02588e7211083ec37aeb55c8fe071f43627a43866555fe6);
Dbl (0x51bb280751d6112dfa1284a5b15fb28746bf79a8c89baee6ecba7ac1b95aae26, -0x896bc6f5586359949abd23e0456052d1d7899dc72531874028de9bd3e67a4a80, 0x1a17f8283cd5478ccd64d6ec7d9b3b04ab4edf840461fcc106c18be19442efa2, 0x148c08b6716d638f2a2ef0c449f8cb4248a00267e41f791137dbd0836cfcc30);
Dbl (0xb884fbb29bb51bff545529ed396dc9731341937ec607986d86273f859bbebe21, 0xd0f36b0caaf081d28a9530850706f5b76310207c1cf1f10e56c0622e34fa68f1, 0x84ff6ee5cc7c13db3b7c7785bf13269e74ec52463a02d84d006b8159203d0660, -0x493f807c374d251738240896b98a45a64b2a2f8390a65cb0477fb2c94a163933);
Dbl (0xf1826fcfb66067e7fdc1dd614592fbd8d4993e9eef803ec581799a3cf00f2e70, -0x13917cd8d0102db0c2dc4eb8b0c8ce43eb967bf01ca78541f8800906250a0dea0, 0xe3d6d8fbb9035f373481b137e9c08fb4ff445d4a949d9a9dd7813b0efbd1506c, 0x1b29cd850b25ef79beff2d844923afb85c51acec07dc0c06b4cb7c510aac24bc);
Dbl (0xd555015037bb7c9d327c8bf8f3b8a26f702923731f2614012ca37d9cd5a3bff1, -0x57dc0db969e2cb37115e50fc5443cbb4a736982bd7302af33c0e1004c9f02e53, 0xb1c6906a0dcb49da0ab4b69092bde0a8b017a33117938ca48b0034d4909a7b6f, 0x16faefa2b4fe82fab0f2c08c435930dfcca583a74e6ec48a8733b776af03a993);
Dbl (0xfe659a56c00e3fd1c500adb7d4f65d198964ded633b97908c4d985365042be15, -0xb20901f3a572037360a6ec1f6881c0a7a8ec965ccd6e7a114f172266447df411, 0xfccdc698476a14f0a77fbc151d8df1846e25129dbfefb4e9f2385d9051778807, -0x609306b666117e6f5cda7194169e3102205858b6553260d01399dd646831f5fa);
Dbl (0x8158c1718a474b191e504867adc02c685a2ba52a05d4f98d36000e44fb4683be, -0x2a465b41272c917f0baf9c986d9c8527c8d57400811468e36ecc3c03a9bf65927, 0x415a91ba3ef1e147cc462c6b7468c4586be47d25551dfa9e82e01076edd63800, 0x19352d63be2750d9119321530e9fa668cdf716cc09bd5b920d5f84382241ac2a);
Dbl (0xd45b7ab81f0f83a103de4fcf9fbfee6ab63382bea0a5b0b978d0f6e6963fe847, -0x423063c636d1d940646f18e91eb48ba67091d72eb460d9c62f38c6a49c5cf1cd, 0xb027a3f21d536d0323942f44c79350eb7b2975ae3c77104de6fa1ac1efaf24b2, 0x34f2d32a5c69191262e70096c786c94cc3f1ecf961e5a19014a595a74d9d918a);
Dbl (0xf19b1758472c9ea63182b65fde4125c273719b2f880e5987aa085acdc733be01, 0x4916f33586c37cb1492bc1cf7bc744db56aafbb853359e6b32b6b418077a19cc, 0xe4055fea610e8de18a79f48f2384e59b67e439cc7e69c5b27537826ce0925c62, -0x65a48ee887ec34a9a00c40678339f0d9f28e760518838d83ca259fd6014ab74f);
Dbl (0x1e64c6f99ca4a21bcacf3a5d4a497432b29e3d7f00a83b0d010ada65fe91c9f0, -0x29d1ae2476fb3cdc2e6007cc6d34c937ce3d194392ade0591822f47070210daa8, 0x39bc64e91fbce9c7a7e731c6da555d9e792c0fb7b4284717ce4698993c4b713, 0xfa50331f6fe3983614b594eec261b2f78318c5e99fa210bfa531f862f95b8c0);
Dbl (0xfa3aa86d30db23ba052b6438191f10f2195e002605204ee00e6cdb11aac3ef3c, 0x6d8392e7f7b20c8fb150cae863eb25478f775f629ccff1e71fae5b2d928f1e88, 0xf4969e66f84c422bc8ec37590cca7f7fd7c5e1a6ee71382fbc54cb31aaeaf449, 0x44a812d7f9d50a13ebe6fff149d533eeeece7ef12d56a23808f6c07618842b71);
Dbl (0xd46ddb4ab2f0299b2c9e7eddc5996d803ae869349f6db130d79200e82e417b81, 0x12ff4a85e5cf35cdbf7d16035a558e20805b9db3f90260caeaac8987605ce82fc, 0xb0462258e2192bb778f7f1acbb731437bc3e5127e5826e8c29a1725ac1c0a140, -0x4e5849d7606c0cce29b66b8aed40d63b5ce8320d86c00e3491e75249ce394d0a);
Dbl (0x20a6022815bae731183b32a6ea666a48277ead8fa81ef841eea1859403e0bfa3, -0xcfefa695df26cfb3fb718ebeff95ff04cb950e6e59533d5a0bc3c2f0a0ef2c88, 0x429ec30d5997afea306fe5889e41a0abb5986e6052db564c69f9c09ae64da97, 0xe862403d524093b58f107d6bb19b72c44f6c95508e3c7778580a6afb7f4c7b);
Dbl (0xb83644d02dbcf9cb5edc43a48807c76a754a71eccc90430d400c2d1b60cb3865, -0xa17e93b7325358d0393466f44a78d6673e2c137376054e3dd347ab6a6c9c41d3, 0x848e0e6ce0a042d0d630cabd822c70e2459f1ee732c413796b5d77c318138502, 0x339d4a3cf64603c1c51bdc6826129be5ed1a241a6bc81e2e371d4ea956b8db6);
Dbl (0x3d08860575e43ee1f27528f715604e38453a9f8e323cae51866b0c0736eef4a9, -0x4e5f1f985a42c0053da71f3eb1225ccbc9ae1da94c0a8b26527ac40e4533863e, 0xe8d10274f3cebeb9f64443d58c808a4be9f8191c0f2f9917107fea4e0ae2011, -0x16fdfdb6913a9c548f68aaf6e38ad6bf32a5810b2ad6011fe49a164ed732fee4);
Dbl (0x897ab3601a533d4234c0435ea0add15315e8c903ee555597af847bc9d01b1436, -0x1ad37e1fc8a09a6d79fc1ef724be9a24b10b9ebb7eaa864306d5b72dcf3912af3, 0x49d48ecc9b4a4697b9d35215456af77d576eddbd695f6a8bf92975851a0f78a9, -0x35eb8f37ad8311880edb7c30f05a998049edcda7401e0737023848fb54f8f56);
Dbl (0x40484e52b74c0c08e56c754d0181221060e8a5e9985f4cacdc689b0a529b807b, -0x24a7e2ce63d62f29c38aab4b59b3c6f652aa963e713fb0bbbadbdeda6a81f4ce0, 0x10243b959247decd0125dc2cd9bf9735e701a689c1cb6a11dc615631de0989c7, 0x35d7c48182a177ead6cc0babf4e5274018e680b940a810f99ada57baabf4198e);
Dbl (0x95b278f457d982f66428d3fb1c1ccb580222fe0d7f59796d4d6f0fed8ad96461, 0x8fcb6d88272c9cdcc043cf91e6d407672fe079e2a6fede4d9f4ab896405dde1b, 0x57893d3932bc95b949fc5b7124849ba9d2b1acaf2702ca844ac040c82fee64e2, -0x6d7daea3039e02144aa8030f41621ca549b6f9ae35fa9960fb29fc4a789da7);
Dbl (0xce2d7a8ea55c573c89eb97198aff82fc2974702fd12f5776d93c9673c775dc8f, 0x110a0b9e5dc2d14306bb5b2b5905caba4be81fdf6005dc1bccc11148944b61fb2, 0xa60d395289003d45dc994c53f6ae22ac4eb9ec8f2de4d2e6a18593048948c5a3, -0x682dde2a2bc5e1bbb2a9656b7f6770990f2a69cb6425896d3db1d4a1d3626751);
Dbl (0xeb3f05b3f694ce40135333500a2f97b60a7c3d70a329d4715cd3975591e792fa, -0x90ee8c409814ada85675faaac11d45b64b7fde6f646c94a5f9c77b11329d33b, 0xd82cc3fd0d95da07ee169a71a05974a7695a8ccea64222c41d58cbf7800bbfd0, 0x40991385ea9b10007123fca4c3e41f3c1cf717e46a7595ac0cc3313f5abcefed);
Dbl (0xd9c8693b805141095e5caa30ae30acb61b74fb72671ea7f6fcf180d2b6d48c2c, 0x26975e6a6ebe1a2df1499010a77875fdf04bd075f68369ebf0d8a4a52287559d, 0xb9455f4c31097b9a057faa2b60f763d75f63b71d9aca68990ba80c43e828692a, 0x364d2b5066d6930c31f4827a1f82975bb6099bb35751d6458ed1943a59657680);
Dbl (0xf84af0663d7a3bbd78165cd013aa09d1cba704dc3954de2c6d7e3c94237f4ab3, 0x168cab6b06474424a4bb2eb64b4cfaccc28e2e2640ddc3950f1f2a06eb709941, 0xf0d147b6e4c98239d25b523ea590bb27f0cfa3ed337de86985ddc6a3a69a12e8, -0x743776e0b527d928df1c2229eed75c1efdaa68dae45c720f1c4b6601e9d8a612);
Dbl (0x452b9d929f8e62dfd6c7c746ba40ba106038ed5410fcbca88269b978507bd960, -0x4cb876d9317f10d1b3a73be93eda68360c2384400594c53e1527a783d6aa7828, 0x12b08a5f6cf21130425ce21fd12ee76e80e250e3b3d39b61f656a1bd4e2cd6fd, 0xaa97fe0c7e5a103b0c2f437c59330d246ef6b4baaf5f3f26bc29ac6db415ba3);
Dbl (0xd8c76bb063a89e7f3fdbb2da85bb04be0edbb69a4d606fa54490b8e737468fc7, 0x9944528446afb629ab5435a8f86d5c5f24735294de6ca80db52b2fbd524bf7ec, 0xb7912112f94589878a7095d5acb43415d0dc1d519ad016ab027a80a18e60fac9, -0x3e1c02491d6bc30699865bf51cde2c9394456fac45e8bd8d292c23d4aa3c3040);
Dbl (0x50e6a30a0bec6ba71d881741e2f52fa3ca4567bf450354e5500856ad43315338, -0x13eaf49b383836da41ad0a2173f9e108a20a5b0ee7521e23ff0a4490983e318e3, 0x1990f5afbee7f15d88327f0163b498d7a3724b38ed281345813c5e0f2d79e3d2, 0x9063a0d00e7bb44e3ccf8ed00d2783973e37db19ef0219669a660c38c7f7c36);
Dbl (0x802f39f19fa37fda5f0e7f35677cbcdc147ed45dd60db73cd2fa1232b57ea362, -0xdbe29fd9d2efc146ae97ff3ca7a3bda0d3b01636246fc3f135f52085d2858d73, 0x402f42a833a8ddb009097a48b26e16f53a6ab16adb14e02c2dfde68a20ffec06, 0x1ddcdf7dabfb96dcbc829b888356dbddf5046c1b3993324c5ad22136a4e5f992);
Dbl (0x644063d783acf2895ee48406263675e60472375900489ec1d76471b192ba77bc, 0x3843239ffe4e5ad5b31163705bec3a6be64721cf3a143fe998ccec565f3411c1, 0x27425e3298d3b76d3c3369d2fbbd40ed256bdcdaabbb41a5730b628017ccc157, -0x2ec086c8313ae3e467cdf8e39b8fe2e0042479db23c3991fba40cef52f46541a);
Dbl (0x3d343e5001c1648153b3ff5c2d1c32fa43934d42619d65e7e78139ac1d012eb, -0x1c4c139de273c9dfafad8b8f410665f3aaac8929e6885630865ca11b189262132, 0xea1f05b8f23aaacbc800d640d9b4e0cfce7cdaaaaa3bbcdae1a356c1bb1c1, 0x3a3ac5ebb483f3037a3e46a44839a645f75c20eec3a9def4b3a3517633dcdb);
Dbl (0x579db08d73af3821b876d20f4285c616f5ae2babf14c9930689c90ec3ef5167b, -0x1227f0e7a39c83779011749bf079def2a69cf72c150d97bb2cf8b4b0c72220989, 0x1dfc8f2249e0596d8119e5f3e70429d826e0c1521204be7f3cebdeda644a400c, 0x33dd91b6f440fbf84c74c627a89534264849b4ee2b7342ef3d765f0c4e07481);
Dbl (0x8390b6f7da6e0b61b2ff69f8c2a0821a48e642599d95ce7f4639e44840b1bbe2, -0xe5378c409e996cca9fe906f48e7e1b5130607771d3e154af3be8f64fce953e5c, 0x439d6d1046c5230e812af784ca4f9f992b1d3e5a9f9cdbb0987d73ea3b731301, 0x183580c50ac182a6f7871c3fce1b9749ef556f26643454c1dbacfe7219f95770);
Dbl (0x23788111088d98bca0fa9614b12095f692e2b46cb600146f553cc74a03bcd574, -0x93d970f05ca4c4cb925ddb55345fdd77b446f4a1097b29185ebff032c92d87f0, 0x4ea2c03ee4b14478541e361444e177b2532a9a382268b983be18f7d6d719044, -0x6c31f5782a128b278a81922c5c3f12f4ab87741296e35327663f4823cb910cb);
Dbl (0x44f6e4e4f7cfee9c51c47cffb1bdce2745be1a1800679c3926b5f97e49c4fba8, -0xe10b0bf6a98a6d827aa1b37d2822f159455224b32c8554c23a2558280a299b97, 0x129417b66aef784cb383480b640cc68f1add18b38d742804de339a46f702def5, -0xb9a4892f741fce4fa37cd46b838b3134216bc79e79f568ef13c39b777d56487);
Dbl (0x3f83fd12833d44f0d567074833c35475633a1c4a2ba002d62a048d551cf92263, -0x1badf4c792151f421e95304f692c66d72ea51da278289a72636d97d5479fc21ea, 0xfc23a9c277a4bfd0164a94be5e92fbd6439c675ed138c4e8ddd4ea22218292e, 0x8c01cb075d6ba2b1a090843c3e016a569f24695baa99af7a817ace3a6fdf808);
Dbl (0x8f5fbcd1e7e0736db266adcc49139d5269bfb2ef6694b3b5185fec29de628438, -0xb36e749b65036305587a9aa47763ab961a27afc2186e44d247e11bd57629dde8, 0x504c18c08067eaf880e15cd57ea0a9b26d6fa3a80a2135ad323cd13c853c740e, 0x966b46e684161b95040376792249304043395bd13c79a2c96063ea126a17cdb);
Dbl (0xb07de4f0e535ba356ccb0d61e83caae152d2a5b7a264131c2bfd64135cd7a620, -0x13dc5760a288c97efbf920b9fd6f4a3a9c34ca8389c844dbe8605619649b1d553, 0x79ad58b514d50a2c2e909a88ad6f4312b0b5674f6730b9e26928e36ed96c232c, 0x5750d17514d4759151c7cde7fa3b3f217a51a41a0ddeab51e25f7c6e3a148f3d);
Dbl (0xa607402a83caf83e505fccabfb97ca583cd6ad4665156f954c05943c5fbcf2b7, 0x5f19cf4ef05d647ab676dcd472be79c4b1d3aee3f2cb82569f8dfb6b4fdc95fb, 0x6bad676c21011f6b178a5249f150a35c73915410c833812e0780c4790cdd3e29, -0x3771ed8536c13500ad90dec48a475b2b8f13954ab4a2dc0d354f7cb5ae5bcba9);
Dbl (0x39fb2702b5fe5b53249a08339ea7959a1cf53be57fc533fb4abba6c2fec4b866, -0xa10b6eb2e4d0872f2094b74a7c62f88dcd8cf3a2707f67d756d80d96be0c2eff, 0xd21cdc4c76fc6b1aed2c2f0657d3ce9c5b1441d58dd8bada066bbc28f30499f, 0xc8588ce1fdaecf2d6acd2b29ff07a4ac53003af8729a235df8df07d2a5c3780);
Dbl (0xda4a6bec8eebc6ba58bd866653e79a260170639285735caaa9e1685fcbebd4b6, 0x8c8bca8fe85a864e5346110b40141e2be1935d08b140e849ec4104de57a0f530, 0xba22d5722fce9e46a32a76aba80a1999ae2f462c70288c4bc140a038687698a4, -0x61ee1eb6db059dfc0c9ccd687ae6d8fa5f2bb09ce3bbfc20bdf4178ec347cf5);
Dbl (0x3862bf9599ab8ba66e3f2686179a9f7ae383ef67d6c09339b75171c12f9f9f58, -0x16152fa302c1449dbd19490640c80cd875d8b6fa80bb15d8c6025cb5a1d5e6c7, 0xc6b59e8bd90a112a51eb87d6dd7ab3856e02470fccdedc03a82eb2132ab1494, -0x8b318c439078dced2a1f3546fad17ba1b76cbd5007caaabe50ef7a547de08ea);
Dbl (0x452563836074385d50f62b06e9c8cd4b8249f7e5395d164e6c1297f906b6a63a, -0x928dcc0cb7273edcecd7f2cad0ddf5be48050c78367a69d18bb0fd67c7dfdcd7, 0x12ad2d1acf54951b1426bd82cdc251ce24d9283679854af78a2b4122171b74d2, 0x1dea805226d3b1407c947952cfcea43ce4dc3bbdb428cb824eeb01d02c8479d3);
Dbl (0xf0ca17296ed80271eb343429e26ceec597ee8d0c669fd578b1fee98d491c4be2, 0x11046b3a9e670d8d1f4dbea71a1f4e298c73474fb7e876d87480edc72c9881431, 0xe27b8af721cbf50f35b91367ad0ead583017ef67758d0e0bc8b84af553074ce3, -0x19b1b916287e20cd6293ce55b9f03f9bf61a99e615172aa1cd0aa40d59006612);
Dbl (0xfc0d607372d2f4d11b89f9ad5ffd0539ef51cfd49cc40cbee3f7cd0199bfc1f7, 0x1ea43b604f240b1cbbb42843a6603c18901c08e781e23934e3478a5a17457c174, 0xf82a5697324a1c2d5a398d8ddf75052825a6617a583e6781ef04eb4db62796fa, -0x2d562b209774b8d007914764cde45c91cb856fd63112a195408514e7ee2cc8a5);
Dbl (0x6e650d5cfd29581fb98a138815e31607a43d3462f5e14383356325ad977f66fb, 0x4c19e8456548a742c5c2f154c77cea3ed4ffa2ab21e75b82c7c97d3fbd9b35de, 0x2f9aff5fa53cdd3765223c158a89d357843965bbc3d7570e3d201a4e3e3188bc, 0x5323f87e6e737848bc87a3289bbaaeb011ca25bb0ed27f50958e2370d9d7cb7);
Dbl (0x77a1a3d126b9f88075b5f67c07b9c568fb7f54604f03b4d342ffa934b034163e, -0x9874c45e701069151bdd1905a2a241d11cce9c2612c3bbdfafd36ae4b649640, 0x37e7ac5c1fcf497efae1ebaf5b16c26f01fe83c5e15ec50ab34c31313af8f656, 0x1bf4b40c67ea27a89f764703f688019fbfd8e4b04bf50af5341a72b2f86156c3);
Dbl (0xa2f4f19154e53398febc797af2d04c9da1ec41ddb4e0ca8c23a8e0255f140257, 0xc57871fde29e9ccd6e11a7f9230ec89e99845c247d0a245e31266b5de25c82bb, 0x67baec19b829caaa216cb998c67645440dadb457c2e7cfb5eb9829fca1275306, -0x3676786c3894f6eb0d04f60a5e2cc61ca30badcc8c3bed69683c65e9e19f14e6);
Dbl (0x18f7aa6b3dc3a00933742be417e35df4735e2f6d3ac79db14aea143884eb2417, -0x4a94f6c1ebd8d4912907046d8844131c1be203b740b2ea9ab673f57c94880624, 0x26f5f8e6a67d803745a5aa562901df072a5b0c2c9bd3da159c431b5effa8ceb, 0x7a4a3c0ff52766482aceae73b30952708d874d6e5cee9c22679f8a16c61f6d3);
Dbl (0x236af9e75e55c824a4ac8d78a82f5f220a4c28a3eccce94063ef42fb5e549998, 0x3244f71d94fa3c1dc422e8996707c51fc2b9eae3811bfb33a9b430dd1ef9349, 0x4e66d09303fe76b2fa29e286da451ede6b54907291a6fc7cea73d29576906f6, -0x1364de8449bc0e0cefc2897b3ec292743eee99cd34b0612e911c2b8e1c91c2e6);
Dbl (0xeb9d1dd88798835e36684209d149f36a658b2a2543c7dad4047b03047cbaff95, 0x9df1633608871ade09463aff09cb9f041815bdb4e9e930ae07c4224c44591add, 0xd8d9d53a00dced56e86879f4fd65d00363f778f1106ec3aa82e264f7025a2ec2, -0x4c1786c8d2526e7485d420d0bde1af6b35d2a7a38a3daf39d3f26f0a8a0ae9ea);
Dbl (0x1ab41b2238fd148b31802644e95d5b1f148c7371a31e11e3055d92126c2c8a2a, -0x267727f91fd5e13f4e2909e2eef89c22295ccc4989a0787f029b9e3dc214736fc, 0x2c91439215cdce2da9df13e3a1add221c67d7ecc41d883a294db96cd605f0dd, 0x539dea2d9026b521ceaf369dcabcde9a707abd7d5699956ad1c75568d05c416);
Dbl (0x17f395ec8bcae6fb1f942427ad235a51c0480a62a6f0a142abbb650ed4b3df1f, -0x196dc0c771e446a6fd5ed854a7b54df9d818ff472c429afbb0367e254b8dc993a, 0x23dacb67a3abab653b7c9265225da9bcc7cc3e912a500fb39ff9d24cdf4cfa4, -0x17ecfcbfb73be30703f415c4b11b40430b4ec6df63148d6e8eac0958a433ebd);
Dbl (0xcc9f6e8935835507eae61b26266b1b78ff240bc520dc4649465f8d42b522de, -0x1e290b836a213eafd7e08b3b17f3e0186c59945a7a01e64d464aa53969516b7e0, 0xa38e7b75cf0277a4987bf635e351b4387f1d775ccd6af8d532fb54b22473, 0x348371a13b917ea853927a2c6b2a62d5d7742478152a7ccdf16fbb4b180b8f);
Dbl (0x15b3a6001a02f06e6892bba476ff857147349a0fd28844934687812dbb7a6564, -0xb8d91142317cbb4c65da59560fe0eca15f0465d35d8109789d2150979379c588, 0x1d6f74d95e3f497be0f15c2e7cf64d13c4a5c5b3cf33170df06bf7365045844, 0x5aef36134d30c9915287000b1f995b63c426217121daa9b03f79c8f25fbd4be);
Dbl (0x8519e369450a5feaec70fccfd73d29ed8d1e44001144ecd4d4b7835024719ad6, 0x8cbd8fd294a60ba533809901321e09943a1039c42b580d7309d35954bd28035, 0x4533e8e9db840854871b9a529c9cb7e2e1e4885663640b1c1eb4d96f780b00e1, 0x210c7195e05bd9af98bcc6e6ed3108f413220be8a5079768c2abb7eafcd64d5d);
Dbl (0x3059b465485b77d4c243f987b5b0f25cf27575a8684cfcd4eb2d4a18401d21b4, 0x109c646f2b7b5421ad539f01e9f2244846466fdbaeefd66da4e762ba875bf6e0, 0x921c314f1cef570d09916593a7263873e832153b3c4defff37a2797c345f3a2, -0x2d43ff0de8c2413c38f04235ae26c911205f5338d8cf3280e84ec71c643d5105);
Dbl (0x88b155ad3cfcf2b31efa16b8973b10e0c4c17e39f8aef64aab321415487a23e0, -0x23df617432abb736a2149b37d69ea07c1ddecfe3f270bc485de6f33ea1c867e43, 0x48fce5dff0047d410934a9b5437ab2e26beb8732d46ce464dfdc463ca1700db0, 0x99050c75ba4d1915965ce6c8808fcf6c7f0d87ee28e6c8cbb2ed5195b48039a);
Dbl (0x57108fff714057bdfa5981395d5b47677c72789648ca2ebb1628af75d580dfa1, -0x24a329c1c84479e7d17e0ec2d7b7edf34c823da44d3a5c2495272c9d7a20c8501, 0x1d9c42f20d838608ba1e4be641fae05c74e9cc7134b869d593ca59efe059241d, 0x4815c597f70d4892d5bed3c4bbb8ca3e902701719f67bf4745f308a37feeaea9);
Dbl (0x66c0742f9f4125548c61f263ba9244d4f16692fa29e5e0a620d39bc9810f901, 0x25e6fbfafcf4a8bcc736077bb3bb8ba30f41c8648ed24a857d04bfeb1917d51, 0x293ded44984fe9eab494edf07aed514f7bf0170f1a4a5a0afce8ae9f4bc039, -0x3c589de08de5cd2de78329fd21cfedd8790228bc63afa5fea7d6f5c0ee42530);
Plus (0x5a811232863540c335949cb44f2686009aa80f37b4e232e597b252c40d36daef, 0x2946458d585fff278941684fcfd2a4c28835a316c7f101adf364f4c645e0e31, 0x1fff01defe92d9eb9540e0ab5d71669636ebd7a1759eb1613e738d7749a1f7c6, 0x35686877c6b81a0b6e9612d214e2c529b895d76936597069f82fcb0c8698fbe4);
Dbl (0xd85bb1aa5db1427283a00d9dcdb6a5012cfd96195e6427abe01bfbcb03f55d46, -0x9785109bdd62e7d11c3c691a1da1b5440d94302be54b97335003e1276d760267, 0xb6dadca7ff619fbd73a74cf7b83bfbe0d7013953482a6c77568ad8236deb1d60, 0x57b9ea730cd301b9ae1eae488ca1660aff6d7e247867cd2f7886db7e962d14c9);
Dbl (0xeedaad9e9f12cebbfd8e54114006e13eaa4ae14c143e7235126a4501179ce4f5, -0x1e4060f1c1b66d9a56aa994ea7aea962d12068ddb4a712a27b9ed81c7e7e741d, 0xdedb559ff688ff54e4c7c75ac6553ef1122a37d79951fd48735fd772ab53e613, -0xa1becf1a893b9be50029d649bc780f98b1bb65877d811b20aa45bc26ac505312);
Dbl (0x361a6ae61ce718ed263e6a9b1853971703ba9809072a41c3e3763bc2ed6f3cf9, -0x28d8c5a4a157a53f4cba805ee149733086e9ff764247bd9ac9852ee2f8bb42d65, 0xb6f27d30301e40f670961c1c101b0118a07934bedd3b2a731b313ae9789fb17, 0x114f712a96279426bdff1463aedfd680cc1da10df41930592983b2bc9cfb4257);
Dbl (0x5b2c65076da1f36fbb3d2ee497e9f7413302bc6cc93b9a6ac853186f33543af2, -0x714a1433360af211bd1838ef2962c29c0007d1d46185f54ffed7daf729d3aa0b, 0x207897864ad646fc3fc855705b587826140dfa066cba721245b2a04be58e7ad9, -0x64b3e10550d0c2272b6f9970d4d282be50fae924ecb08684fae744e2109e863);
Dbl (0xcbe44174be4629b2fcc87a8126ee32b5c5b50d23aeebb783ad5c02ca9578c329, 0x1c48c6ab8ffafa42df0190005767b3e2f4c49833556efa4edd3046e247b44d46, 0xa263cb5470d67c4c9059d00e9119b0e045c15712136c09d8c5d6aa35ae8840a5, -0x693a874bea37f3013fbd59e213412d759788ff6db132d56b648e424e44bd612);
Dbl (0x1d4caf106ac42c7a425fc3159924cf2b08989016019fa200be1a5e427c3d5ef7, -0x14ae940835f29844f24a4be51f12569cc6ced64fe2b247eca6be4a617a425cd47, 0x35a76a22501c035f72425d3263ec5e043e0e3fa48bf3018ae6dd9a6da788ab4, 0x3d37dea1d604dbf577cc9af710e159ac6fedd9ab6e303f804be5f00af29cd42);
Dbl (0x3b64a0fada3c548581e69a352e54611b8bbc1df0e1ea0cf9d2f7a8bfb6d6c71f, -0xa457b5a685cc3ebf025f5889388765b0b1e9a1352558bc87225583c5a177f53e, 0xdc789c1d7945e73bd81613bf5b548d92ae0a696a3fef773a492b41d8172c3c3, 0xc8c052251439b49a3507f8d5de8b57f90edb3ed2efa73f078d9df2fd9ced4ee);
Dbl (0x2578b17af2230a95b9afad191f9001ffedbe02357f929855a1eb8708311d8a1, -0x6359be624c374166b267daa7076c3cda74b212c7af3d306e66479398aacd0f23, 0x57c1c346dc87bfdbf66a2cdbd8a0b5d4c10c19f3e7d7a712d82aa4c7def41, 0x7b1fc253666842617f269ad716c21e7f33d37b94438541a65caea00ef05f01);
Dbl (0x841a25f768da73ba64f60e0c064199c0edcc6f799e68114adf08f14ddee4308f, 0x693513da604b6f64efc2499c2a356f53778e834018a81d1c73ffcc0a8db0ec17, 0x442af9d3242f00f53fefb2e80f510fbda861479067b375a3f6e9b32af5c2d122, -0x5c972d4862cb5279d719fa01e767cd8557c3b41beae8d64c775ecc78a8357ee7);
Dbl (0x588fe0db8a3643f7a2a727e25a01edf60fed78079be7a25fc0dc30a5f5207e8, -0x235838593d454907d8bbbf43b50983630a5a4acb200d5d06b2f5e0969d7158b20, 0x1ea33b74086de0f2d2ad7ac580ac3a90b2e3075f2251059d22253f8232a83b, 0x1a2c37302214d03cf4454d825cb45c5a2635f03100ecc28f633eb2ec94ba143);
Dbl (0x686734db8bd3dba5c57503c8383e0a2e9e2117921863e750aecf77a67a796ff5, -0x4ec1f41603e803f35c2917f20f52ceccb55936f6ca4d5f8f8abab41c011d6958, 0x2a94048e1fc49895ff1970f4cc07ee284bf1cdefa87f0481a4751bb3c6caf3e3, -0x263a4e55909e479e8a85c986372f00591f3b0d26025f868a5d6672bb2bbceb2c);
Dbl (0x21a65d75381e6a2602f2072d8e3a3ccc31c632facc77c087f7042bca91248cde, -0x28d0223421cc40bfda26695410f088052c4d839a2e9abd0fcb33a332001dddaeb, 0x46c503593074f7775e32ded294312966d28d223d779279fb396c3457ceba071, 0x5709186c2386b8f0c1ec71e71d6b9e3cb3424d23bacf13587d6e02feb121b7e);
Dbl (0x49eae1ff96d1cd7fa2e389bbfba4f0d302e682c659a3e40cfdae85465e8440c1, -0x19e6b5f9f8a33c36ee85624c5b84d96e485f55471fc813340b5c972d9f481b232, 0x1557cc65c81e716ec50e7aeb39c540a6efdee4d29ad7e67d2fb24681e32cec98, 0x24b61763e801a68f7d0529034b2d5062b374ad2fc36a552f2f5978e01b7ada55);
Dbl (0xd6146596f2ee79137611e17d1ea396e756164cec359e33e3c1928d4d8535eb67, -0x1806636a00ff7fa8faf86aee07f8017849e749c67ff17d384c75ead639b04ba4, 0xb3061b79191337d99c046d2f8b4536a4baf164b41d56d7a41c3e46e61e74ca96, 0x2d91dad74b16a12a5c7fa745882afc23faac3b33305a3f4f6d5e640d05863976);
Dbl (0xc819eb8218f019e4b66875ab119a7ced44952e267ed06bd9842915ae1c2662b5, 0xc7673663ce02baa73e8adfc33c91df13657e2c919af3b79b6724f62f59940e3c, 0x9c68829bbb70a5dbb08914bab7cae83032187ac4e13a3f10fb24148e3671435a, -0xb0e4f7de0230264998e39cdcdc372f831b776e655f26a74eea369c1eca320dd6);
Dbl (0x562aed95a88976eb58a0eaedbbb352fa3cbb48047e678a18f27123f184affaea, -0x21bf596b2df251cecd83271d20e32660f21276c9b0016ebac17ae001c270accc0, 0x1d00ded37bd6f960a8c433267eced1475ed60eb5fbd8c821d94f0ee9b427f2bd, 0x3444f23b17f6051801b34e75415e42629d1625449bcd50a12567099c3c200afb);
Dbl (0x6ccc8d2186ae7e49d66ff6b8f29f2ef7d0787fd4a0cd6d6cbb0151b93f8c4185, -0xc05385a86ef43bfbd2632eb77b8f033b9486e5b0ead82473b4026458fa97596, 0x2e3d3a85b31d0ded4e71166ab49bd7a2778c5ffaa310dc24df63cb912643b2fa, 0x899050bff5bb57a2c073c391f59686de4d6d5ead4117b3814c4cb8e29a4fd04);
Dbl (0xa5dc14339dbba5eb6348153a2a2ffc8e4900f2a8e4b4fb6dd824bcf0561420a6, -0x474161c5f541dba94dfb3b2dd98b963c232c2236e6c33107976e68b0fb6136c, 0x6b756f3daf1888b16a113f108c8f5befa2a8f12a6c37f5024bb75f9bdd16c63a, -0x3e825736da3ec15f81e26895d2e329f56c5489f8e7505ea9550f13bc5cf006ac);
Dbl (0x2584ba8fa4a53169391714867d8337132b16f6d96475908e1615c722700c4063, -0x1317e7a0ff772ed8b10b469e780219c48486a9725aee2b6a8ebecc03b7807c845, 0x57fa2be772e393b36f04ea3a8aa6c6f2a461829ba090d52c14fa2373d1fc84d, -0x88530ecded5b90e84b24f5dfbcff45447a70746bac6d1980ae026bffcbd0210);
Dbl (0x2be8ba2e4bef2ab0902018709a4a5b8c022d5e6a378d7dc64408a8cae7b5c7a7, -0x21c0cd54dab9451685c12a6bbfb40dc3896dddbfc14057873637efaed753e0449, 0x788021d905b4aa923c5364453a1491e480df1bbc29d25662af039e53d2eca91, 0xe66a1c9c0833b35196d304fc2a1f17ce94b1b0f875f8447a35618be47e98564);
Dbl (0x2f15b2b220b5ad40e5dbdea89e4c1aa4986ceec607da86e43170033722a1cb3f, -0x7e8c24311261b1344365e2aa8d74c0ab0c37c5b322012b60626c7fb78579a4fd, 0x8a8f9743ea13e4e9cc5d0d2e3cf6318f629b66696debd10e69adbd2de325f00, 0x2e0f23fcd5cec958d4e622edfff687c10634eb2e30b098fcf3d51060cdd8eb4);
Dbl (0x12bdecd1047a88adcf126175871cc8f6dc524ab9ec13aa30e786eca5bbdffe86, -0xa781a26b5eabdb8e7121d52c22a64cae6516b156d882521a047f28f613f22da0, 0x15f4234edb325456a3dea6ae7e337823eca7b73a8227572b472185abefd5012, -0x11beb09fd97d5bc11210884750f5c10390a6c163384f1a300d39233a185e1d4);
Dbl (0xc5abfad6aff7ebddb3c86d4be9bb27f3094cb9cdb529ddcb7a4af2154297dcc6, -0x15424b805d07a82e3bb032e5c2288273185ccbc8ea51ac5b82f20f7dcfe23363, 0x98a22398140ccd8ab06b8e4998ffc5f133831452df00b872debd7fb6add3fef1, 0x49f07d81756216d8c486ddaed519e40d09f9a564a8735e5b80fe9fd7296afd2c);
Dbl (0xd73b64264df98ac0737a9f56dcb96baca5cff1d399c512934134bc0c1b590f5f, 0x77a5de61cfa0ae82ae4a47340093e478834fed1e14f071117a2964170e3fd4c, 0xb4f4d0005cc3dabb10b7d8f51cacce59e6c87ddb43b927584187701b303ce374, -0x763232be762310b94e755f739034065e7050d361856ee4352f0630203fbeb20c);
Dbl (0xce4077a5bf5d472fb3457e45409b5a2393d012a3df71cd17d1566ac21c62260a, 0x194146c407fe4b738ae9141f28aded76aebb0a64dda31a1b7b7c2b2c589481e8, 0xa62bd0cb70f121381c9b38c0ef3302d9ce259f7fe34913fa4644ceb1bf09526b, 0xd43d8b079f7244eedad1220c649b81d07bf071c21cf3a40f571545b44f88859);
Dbl (0x76fb5871ddcee4c42bf5a5d5188048300eb19e4b1e113b7c1fdcf08847429cfa, -0xf07bf7728eb199cc6c435892c2f773757bf778d5720ee027eca1d6b1a5843e34, 0x374cac4fbd9ed60cc5a283e80761c736a6bf7484bbfa124899064b161a8a7687, -0xd08ceca142db350063adf04da5bddfe5835befc49750d2e2cabfe5f59c1c3fb);
Dbl (0xe3b79fce6050a68b90ee8e724a0f9a2a74940e209417871d1d999cb483a08b3a, -0xb2d190efae6163caef7d0b6aa3239af3845a6e093f9446d89d51711fa0761730, 0xca8f291ea62de5cacf18ff5144ceab259095e5c79c2f5935663674aa2f6a8c01, 0x685671f47e6a8c3e7a686a2f072f35bd7fb21e56967e35e35d4ce4fe2aec1c2);
Dbl (0x2696e903b7f800bbb5e2fc779b05fdd16b03ff93416f00354914e79773dad614, -0x14d2ad64eee60f9fb127879470edd2fbe45e4e1064e48121ddf593a0961e51cb8, 0x5d1262304e221eada63bb86705025591f7caf952f8ad0764f38d252e7f28ab5, -0x39fd81f1b4d86020a66e908630831901c6107edf31e981fe450d78e88435ee4);
Dbl (0x8a95f48f04dd1bc859395581bb7ff7c3176e09937f40f36c99b8703530e3bf2, -0x1fed68b67bf30b36228b9190a9835f76088037fc93622b5b24817b2e799301678, 0x4b060381146100030cd7452f96650ae401bdfbf974e3008f3816fd6c7f15d2, 0x492324712c4a78c01e11f164b868e476c7c019b354c12718474a4510de34d08);
Dbl (0xb395d61903804162db1172c006f68e42d06e03786bfc9e4e7965c02cd3db4b6a, 0x1210e42cdf8e072f6832e4f8483963feebece3c7525e1fe2cfd25ffc4e30f7a9d, 0x7dfae11a650c24225ee8f929d11403ae9eb3f8eabdb0451e2a36e37058732e4c, -0x6efd6bc81aadd89063507bbf3e90cd0edf8df5bb62f8ad62e9c41e8185684e5d);
Dbl (0x80899b05c798fede016890c1b03b093ddd96712f36d54f6522dc451c2c827af9, -0x20bbb653316b3c25b62f9a90672d187ea690538256897a2122fdb97363f5c25a9, 0x4089e4fd5232857088e8b52d4f2f93adde2e3566e60e452688d368c9431e01fe, 0x252553a8b8ec9b7928870e5827544ec7e7ae132b1945de32855d5212249b098f);
Dbl (0xf3bbc4bff6110eef4b37b9935be7a9d0cf64b50b1fd329c332086367828f8d0c, 0x7327fb653513474a089b4c6f1ace91dbad4d7562b7da224de3a46b616c9179a8, 0xe80e013e5cda613ec8078bcdbb75ebf6ce937155de5e9fd39c57cdedcc5c74d5, 0x32818c836f57adaf283ff4c6bce2f9452cf8ab7f0259a2ebcc4e75c4c17c0ca2);
Minus (0x495c161ab1369e48f1bf68ef0649b19732eaaec0291f811e1ad72aff1a10a65a, 0x1526520f8f8a2df4672dfa8319bdd7ecb6593c5053462f00dcbdafa2898a9f6b, 0x1505a5bb332ec480596f4d16eb7c458454460bcb7d6bec19c4aebed50a388d24, -0x211d85eedfb552e95f6a5e91e1a20f8ce12ae28cfba215c1739fc8db1af24bdf);
Dbl (0x62f29d0e45749148a95c7958e857a399cec5141a63412a80e5e965884712bb3a, 0x1c7f4dd507cd4f670e6bdea478d090a178816bb3d90fb0c54507965dc6200a0c, 0x263ea62c62c1b7c73159206b671ed3fe8a78107384dc745a7efeba6648d754b1, -0x2eaae734952d181f21c872135baa59e820de574dcec04f0719c56446cef5ee07);
Dbl (0x8fccf43eebe9a7d01488efbad513b401347805f39d02e93db124bc1180ed6934, -0x232886eef0b293f5e69a5cfc7c8b7cb0e31d7d327b89ce595a034b4b55837b090, 0x50c69cf4c9a5a3fee9e97c64d3dda4e4576665afab98b3714ae161718f1dc77c, 0x2a633f39672117951e432e10751064468d499ecdf2ea686c972b2d36f9447610);
Dbl (0x18d61cad397c103f96dc404e579a6c6c97baaad9b92fc79fa7d5b01380078694, -0xf6ac66d26592aa2757fbd00647fa8c7e79910e46bd3926a980cb42ee23b7c3f7, 0x268d874720290b5685796d94d4cba5a05a407d34a1d6ab00c766c5997eb9015, 0x3beda69cfe17f5a4c1a0e2437b17e39c3d47b885f8fbe9994b4f7a99ee133f3);
Dbl (0x52a59ef3c3672d8d46b4317118e2f22e25580ad6f6bbd1633b7bbe0df59d4d1c, -0x2b8f4fab67292f849f651d4c8971ba4341222a792a808ee5e50468d6ce356258, 0x1aae84fa8cc84e7992c393e8c65495b2b9154cb2e51f45534ec144428d630576, -0x525add629852b11997e47db857279725a1b6fd54aea4100fd9d7b27a8f6ce89);
Dbl (0x3a373f724af6987d59ce56bd59925e4c2f94a708f41ec2acf06fedff9919c446, -0x5fc2f861bcbbf3f624e31b4a0a7ce29ac59c200790bbc6c1d197ebc66b771d63, 0xd3d14ac2a0a7ba6a7fc7c7afe043de736cc7bf977dccd7a4dde878c6339571f, 0x1c855b42d44e50263793fa72012206cdd5219846a26318a94e2fc3bc5e1e2c88);
Dbl (0x5b219aa98f1126779fd6f9a666c70b7d33da4505094f44029f38d4ded0c630dd, 0xbd80fa5ec30cbd84e7dd5c9691115e46c20c5ec3802ea034859ca55db1b6a34, 0x2070e85de94e6c9196386f7bcb50f690398f233bd349fff9eebdcaf4b029bd71, -0x5706d6121ae43977c3bc0e9ddc90425503745ab1a33cf27205e3329bd405ae18);
Dbl (0xc52512614d86a714e3e1fa8e1ec80adcbe40a9021d01abe67373338dca1fd7f2, -0x21a1dedf7b1cb95c2beb4996f53a5341394975e325e6d961b3485bea3140aa5f7, 0x97d213a8aa958d9d4c8afa1c2ae6d3623a754e413c5c41eea79711a3217df3e8, 0x4b863428743028a10f20c02c1b30b188797b8f46b9b34ecf1e734d5c340fab60);
Dbl (0x67575e46da0705a99efb9c081f7e407f9261a88af3a6ce1c604d477d6f027db2, -0x8753d470be7a610d6d744347dbb96ae0b7423f6963405d549563d47becb86faf, 0x29b76bae64095ebbaf3a18f9cc684da00933dc84e42a27bbe39a69b6b5704c07, -0x3183e89c08e8b49daefc3c06058d411e7bf6ac33fcf1d8524f48893118202e8);
Dbl (0x86426ca4a5f1f2bc4bf7bb25cadfc0201a83a5facd68bccc71fadb9210bbc305, -0x21a7c035a77f4abbac797c366b2b90e92db2b30d2057cca43c285319115b7ab6, 0x46699af8d723cbc007b85d5b425fff81bca630b0540bbfef0a45e02f6b7b92ac, -0x18f0cb778dbc332f1cbf429cc3f6bae78fcb24777062c30f62d45c7407adbb33);
Dbl (0x29a7fad8a0d2b6baa49849df07e4f77e6363205e5c7c2189ffb4f83655b4b636, -0x1a8ef8902186390e366b9812b84b778ff5cb4758326726690dc981a20bb716088, 0x6c73c92a6b85f7025ad9f801c1f7825fae0dd503fb38307af3cb2c5a00598c7, 0xa618d1262729a2b92ab6ab9cb62cd2d79d67ff81732aee37e6ee94306afef18);
Dbl (0xc614eab8caab8b08f985475ed01cb88e238346bc0cbeaa036f166b42dfb45792, 0x67921378ed2e033ea9847a3c89f9148fd571a4a555b6265d897ea16de1095800, 0x99445ccbf6dbba908a2ff469ed678488032aa30f35037bffb805b5a351bee5a9, -0x222165f08e5bea12ba1d5f958715c18f4796a52b142b65016dc7d5dd362b4ac0);
Dbl (0x5c76f6e051af305fcc125c67b00278a739e773f98021c131fb43d9ce3385d00e, -0x1061156d1cbc9bf2cadcc56faa0e663c1f56aa782cdb9433a3c06afef9ef42c30, 0x2165b8b9e0fad28af02f8580fa4667a2282c16102956135bd63799564ffc8b46, 0x2c40f1dd12080feb2baa164da29d766ffbcf942e7279b783af49e89e01170e17);
Dbl (0x157f0f31a073708d2038213b7c76206599996094e636ff81bda0c60310ac4780, -0x8f6843d2f793683c50610de7458b6a0bf9bfc58607dc2d3d341988557ae9bd3, 0x1ce178e3a4514fb63b84b1d86d2abf8461c7771c43a3eeb91d9d0366509ac5f, -0x1fe793f9a7d53b11fa78e6de800bbba275f1fd2ecfafb42668ba9966ab658a4);
Dbl (0x3f54787fd9439d059027bc17c5f944f5a39491debf61b2b72c60044d6b249a44, -0x3db892f116f60a81dad635315a7c6c7b9c18fe8a015888b8804debc049a1f998, 0xfaaaf2e4938a65eaed6d490d0085784d862243c859981d98c5699e49f2afbe0, -0x54478456ebecfb5f949393dd7104878b2f40f27457b50240bbd5acda3d7f1f6);
Dbl (0xbbcc1529aec8d2edd74f8b1f5aa7f8953b7b2d2e04cd428274bbaea5372fe475, 0xd7c429cfe99b46efb7c49b7e669d2bc0fa55744ca82e31f0079727a51291a0d7, 0x89c3c99d2b4b9b4aab695f7a9ef0f9979db22f8b7c519b7171ced7aaa1bde000, -0x523bd548e0fd259153a8d62aa1bb520d9fb84078abce21c3d2a13d4725c7de02);
Dbl (0x151bd893fe7c6de3fc92d8bd1f184e2d6f0e4c89fd01f072f4727cc53fc7bd61, -0x2177fcd8fea85869f2d83e631098f3a4330e333e098803ced3021555a1dfd444c, 0x1bd948fafefbfd67d0b9e6677ba7ca6d96c4ce6d4a6f9ab5df569fce20fc70c, -0x22be33497f7d090a6e325806519423a5a3765338a1b9860e22f535398fb9e30);
Dbl (0x7b193d6fe98bcd2275b824015c075880617c3f9dbc1b79c438ce945ea0bcbd36, -0x1e5a6f6332ec068dcf1235c45757b9ef89ca2b06f2fb6fa0f9e2162bc378ddf88, 0x3b314386d437be2cc2ee82f33e56e8f86869a565b6357e029ca0683eb650c8fe, 0x6198b7b636cf78cff8daa221101d6f242a2a21d6393e7b227539a4dc659ab280);
Dbl (0x8a1d978fdcc6f034efe2e0648dba3f3f24ce9ebc23d58a93e3e444238af40e70, 0xa2d30e0401381e89d18eadb3d4d8c6a3e2d5eee6bcd468bd892eef3d94c9716d, 0x4a83ead314dd72295cfdd03e9b76e75b5bf9ca77ff64de1826d9bcf158fea2f4, 0x111e11d84135970503b58fd1195c4b495c439ed5950734fe1af8dc141edc6eec);
Dbl (0x7f5594e6b30e86a5eb78bd8c322f8db95b1afa5454002ee646ceb26e96aa2257, 0xf48a0c9d3a73fa12ea26fa9eaa42138f09e3253bd986f941e6947dbf73d31241, 0x3f5606595ccce6862e4e25f18ac72be11d734238f3dc6e4a8d059212398fc1b4, -0x752807b6bb27f6f6e7ef81dcfa6a58bc18900c5aea266afb4651c5f26c71178b);
Dbl (0xeac042e2c5e481571f1eaac376de518c4433d5fd007da78198768a389db9dc88, -0x1eaa4312018de7fa0dab9e6f9bf0ed8e3a6b2f98e2611ca2610d1ba9558a45cc8, 0xd7440aabceac54cc1219cd333a8e09d27df50196dd03977a339daf963ac3130e, 0xddade827b927ca0512e2412c5587b5dc0126e195be80974a4ea88916ae11338f);
Dbl (0x8d94fc5d2ebd4b17e7585fd666f2a1680883abfe8ef46fc729fa17babf790dda, 0xde307e5f0f193144c950252466773387670cf2ac3a228f7678a2a4bca7bf9611, 0x4e4d74b3b84f9a3a3c652f1022bdfe5954be71eaebb30100cc3e13dd42071c4f, -0x5f82cc0d23aeca8ef1abb14734f5e28d2f5e1468be9f38c74637e5d66ca371e4);
Dbl (0xa6bb53ffca7f5f1f5a16112059525edbe41b29b1994ab64c3f3facfd68c2695, -0x15a6dfbdd6085a80e56cefc90830dfba6dcd9673443d77f71ef2818f2c9d9f9d6, 0x6c977a03fa765c58d01c3324946ebe243dd0e03a1c37aaf4489788fa457be5, 0x708a87d9dfa47379ef104ffa4fed50acee4d89c6b11d8c0ea0980722b7903ef);
Dbl (0xc2138b72713b6a4df974572f04358546ba8d1f9f52cabb2d65e4174e6e4e82e4, 0x160a5cadd4f3dfae5a8d49689db63247c0eaa67d572b2ca5017af2c2deade2b25, 0x9321a0d805b1f6e6f8a88d70aaeb63d8988c056c3bfff995b5a93c24ff600d9d, -0x26e134ecbc848f4905888bf43eebc655606bfae1a97088efa1968845ae4fcce8);
Dbl (0xcd79c7043811a751c1e592ea9da7d571ee6d355fdd2ac7c6e11a6a7ba66f5891, 0x172271bc92bf6cada76e7a223ebefdebcafc0d31473b3b5efcc79e2ce85ac186, 0xa4ec42ab236d1890d949dea2bcc5e8dbf0138668a38260166d65e7097199265d, -0x5098bda12d865bd3fcbc0fa1729e2342ba078f62dbc72355f682c217f2b77f48);
Dbl (0x70fe08de7b200ece1206b577ea43ba04f13abe0024ba7087aa72f7342192fba6, -0x103b8871c0f33745dace489521da18c607a130aaa39f1500ba6a3a8fb4c7b5a33, 0x31df43d877664d75bdf70e7bb62d40b64f30faaf2ae7fb78dc3eb1df1c518ae9, -0x2921965c4f0fdbd82b6d7fb5c6446261a40adde706b08eb7246db4334fb98d74);
Dbl (0x4534e39c9d03692fc0037c8f338b1c0215f25e6470517bb138f4353e1eec1c2c, -0x28437719614e816eec948645e718ea3d8dae0ec501a3fa88238ca935ea1270408, 0x12b58d9fc1584bf9f08ab0b26229118bf5900d05c720d8c4b2060ced64d38c05, 0xfd3ba1ed67f5e15bee6d97212f4346ecbc9dfe9617c1b63e9aff74588de3d6b);
Dbl (0x6d53aaf6a8cede2d1071d391bc475494e2a23620090db57964cb04a52fd02b0a, -0x18e3e56ab1d5cd9caa9fc823048fa3ef7f2c2ac59aedf1dcc55821256cd9177fc, 0x2eb05aee888e8020670ec06368034c03319620af18e2e123e17814a25eb5e2d0, -0x1a5c44e7da5b93919ddf69389ee9f191a46579d48390cd4d372f13fc0935f4d3);
Dbl (0xe817b1192283c9445fdf19af8e73896e751c28ef4692d2b7ae9ce1ee6d7a0a69, -0x222e85982f215c8cee68ab1a29f8beadc7eedc9e3153f1eb33628cb8941efaf6b, 0xd26af32fae01c7daf2598e8b12da61c6f17da3330ebb74a3f71466b810435573, 0x43ee6660a24cf0ff175bc293a1819cd11fbb8d7bed7b73f74666116f9248817b);
Dbl (0x3130eb87dc64d1b27399cb6506109a944c84a5b33e3ed2a46e73f68d6adc1efd, -0x16ecd2d80a25f68a296220cc976d3536c7616942cfa2a1b360109c9fd406edf39, 0x973c3833777b8536a4068eaa27cd28f73f9cbe27bdcdb2363cb7d244947a502, 0xf895da68e222eaa24aac23403e30d2bfb843079c2da3b9519458fffd4e0bc20);
Dbl (0x94f571cbdd2f660048bf99d9e6b8f719f24d650cf0d2dcc91ed22394a1b71d26, 0x13c791b359b6dde965f13275866099ae405be4bfe8289828bbffa08c84d7a030, 0x56acb6e711367d2cab857275a8328e40a1a1382e0c1c2d441026d99229a3bb57, 0x36ed96e46b2ed2cd916f835449f2d251d170404c9cae55406ed0dd7869b4ac8d);
Dbl (0x974e5dbe7404fae4c6f09c7779bebcf381522934ff03631882fffecc9e73eb8b, 0xb1aa12f0224a034e9bdaf05d5fe1cc466f0e839e84eee043bfd8c1ed202a403e, 0x596d8a9448ae0b92bf9cbbcd0186d97c081f09c07fc586e47330fc9d4937dde5, -0x459a63946997c68ef354d6cff8209b89c0d8775d4f430f091285ca3299a74a6d);
Dbl (0xfc21c8a3ca342f1227fb3266864650867b71c48c43e750fbc3ad214d0ebe2c07, 0x9adfab936881175d02dca464729f4a21454d20b4f30d5d9cc80d69ab9196a2bb, 0xf8528778c5e3ba5456acc15b9f54c99bd15941dfc24da32591dd59e60ce880c1, 0x6af482e93734dca21bd6ec5a283fa0de5166ec208d4073319dbd4a309d60db18);
Plus (0x2714d5eaa8a9d9c1329c7cd3ecbfe7336a9bfec765a291031193ef0707ccf818, 0x67246b3b4a52db61c42d156f5ec54c95b961bea97e788b8673695525b74b36, 0x5f75adfa4c5c985ec66f70a1568cf63b533b5e6d9d94c7a9b95c396d5dc1e29, -0x151b5dc4c93336fc83653f7bd84a596245a2235b738a6bfc4a3760d5e30600cc)]).
  - vm_compute. repeat split; discriminate.
  - vm_compute. reflexivity.
Qed.
Lemma domain : ecdsa_domain (cp secp256r1) (ca secp256r1) (cb secp256r1) (cg secp256r1) (cn secp256r1).
Proof. split; [exact good|]. split; [vm_compute; repeat split; discriminate|]. split; [discriminate|]. split; [exact prime_115792089210356248762697446949407573529996955224135760342422259061068512044369|]. split; [reflexivity|exact order]. Qed.
Lemma no_root x : ~ (cp secp256r1 | x * x * x + ca secp256r1 * x + cb secp256r1).
Proof.
  intro D. apply (cardano_ok 0xffffffff00000001000000000000000000000000ffffffffffffffffffffffff (-3) 0x5ac635d8aa3a93e7b3ebbd55769886bc651d06b0cc53b0f63bce3c3e27d2604b mp mp_ok prime_115792089210356248762697446949407573530086143415290314195533631308867097853951 0x283f4129ab6817d9211765b3cf8342c150a255c72f93ad42a112e5cc920087eb
    [0xb58461e72acae264104dd744f2af287f374a599f7f39f8255a18d58de0bd917; 0x35953a76d7ec9456a9e922c4db72ab983da733ac5e177624c0de0822d32df7d7; 0x10e35aa16418fab8eebe4a3e66625e08bc07f55dec440f1dab0c5b912287fd4c; 0x1901e76d175d5affc1356f981dcaad8e2adf5233d9cebf57d8e9ac2bd23b3be6; 0x6f6e66dc05ab8c538577197e97c2e08bb2ca23e8b56900b7b836b06447a5db21; 0x134ed8fd990431bf5ce81d4c9bd24445b979e9c1599df821c6ef67f0bc2f74b; 0x97cc1c4724a9b7c73a08ff888ec42f1866f7e698ef6b0cd7f8e499efc50ec6e4; 0xf37d6ea2a364b2c0ca02bb10c490bcfea73570226361f2e1074d0cea3c52ab6; 0x23099f247fbf9491206fee65eafd663f83f6a37903c41879bb6e0dfb64c66469; 0x13e22db87b9fa00c269042edf7f632cebf063f99ddd62a7f0ebacea954ee5f36; 0x339237b4ee5402a41c211a74ec3545f30f28c78ae4254cc0540172a7288c24c1; 0x22d3fd615f6708a273df51d1f2081ece9c59570d56e6acb9b1161a51dd89e0b0; 0x7d3cd6944ff8f6490cc660e470f0fd015c6701a43d9b73627fdc0c1f22135f15; 0x339e8ed2e54fc3f87b4b1bdc19fd78982fd73ca4d847d456f9adf2f238fcfc; 0x27594c807f06fc70019d6ea5a18c7f2b71b6a2b060ded35113def408b591d7d6; 0x10af8cf09ef206e39687aaccc608404ead7608d6efc45aab6b6c54cbbe2f3f5; 0xd817cca4a9c5d04aded5ea346e95bf011ef8e4e29fac29bfa919f8e6d566c15; 0x248515239ac4908f464a8d00fdc30401ac5870d4bc7d3ee1d50fd3a7775fde3b; 0x9dcc9020f92bbf5c8f786e3afcbd3499fabafe3fadcd0a2a5252f4376e8f7eea; 0x6049e6c3616dc88eaf246b7d4a2be2a262ebb60f120c255f25894198ec2cf64d; 0x25f2040e32cca3b7345b60e5376745f6418af5a8b9790589b6235c6264c7d773; 0x91ee4a790abec2907ca2a021b523c3354deb5fd44853797fee1b9e480508ff4f; 0x283094c0e74ea2cc2d1e0f428093de41cee5be567453ac3206af6e9a7ec1ed7; 0xa4bcbda0a3d6a9ba0887a4952579a17c604f0b9da2cdfbb34b3efc67f84b590; 0x110f1f26c5ccc0d78115e643003aaf7fbd29abee6ce470b8cc7625ba33b7955d; 0x1d4bbdde578dedef1061baccbd3bbf50d1e0f1cbb13a52aa9f462d11ced1ae08; 0xf71b9650e6f2ded12dd41bab13df770c39c6fd92920d963bbb5b545818dc01c; 0xbf28f2a8b2818dc00a75f3c1684da276a5a1bc006f1b64b7c86b7da9f61bc13c; 0x108d127ae3c53d71b8dffdc5464832bc2fe9dadb1a69478daccd34c846943cd1; 0x1208e6756126bf8777bcedfee825344d5f18144284ee7b137084f876f17b2ef0; 0x8175907b1a103011c1517f6d20f4f4fbf20d3c8b146882c3448aac4802dad653; 0x1fbba52d7e5bd50d1b07478618c130b5abbf3a991806a6d7b9b7bf16381eef10; 0xdb6d8b8880361830eda14cdaeed433b9f30729fe731dcb7e25f1ee80867d738; 0x7f97a8249aa045ee7fe3d4e23569ba70ddba1a4d951d2603adc9a51b8edfa8; 0x731ab1c0374b577df7b75f820f84cb6cf51e36036f4ef1702e2c6ca28f2006a4; 0x20f2b9180331dad14df4482f41097b80b31cbec34bdd0d26964c37dff478c24c; 0xca5234f0652faa423a58c90369bb2b2cf46ec31cb93ea9f5bd2d940b31e4d2a6; 0xc2ce5b574fae6e3b81dfb70d72d1c435083becb7a78d9dac227afbfb7d250232; 0x262793eeacded1d10adb03ff64f4400bd3bc62b7457aadcd9cd74bec11ea4905; 0x1ffb4f0a2383b84aaae3f0bd95252f8b93f41ab86cd86590343923371b3e37d7; 0xef8037d976ac91fec781bb38ea1652c8adbd03117c142479465b327e282df64f; 0x137651c358910e47b237110825e0f253fcd30af85f55e5ac0d9cdea523af5ba8; 0x49a76279a3bb0125e7c23e34888e7804f8b44a4ced30d307db8c12d85403afdc; 0x6e82e1eabfbc975716f070bdb190ff32b7e54f86dbaa3cf69cf302672123e16d; 0x2a6a30f751a09c5fe4265b9fb0f21e9dd083878eee9a349cf36c3ee24833598f; 0x529bc62c4393da634f7b977558fe7276673abd238c0279d3355c898aa2e5fb93; 0x11c80cbc85cd5e1aa2f3ee3913cabd51c3fad3afa31df2173186372856d4797; 0x6be3f811646c9916ede53e36a350beea5f810084922ab70159b4176fc6e1435b; 0x2507e5be97b5d66c5b59ce7e53a59da42f6b43bfa0d282e15ec75f7f17f6abb5; 0xc7e8744e489ed9cf2a5b86e892fc4449678fd80649af73f2de8e6ce9ffa50b26; 0xab11b4ff358cb2e8975fa7b73e5dd7dd32f7c2e2e1167f733a833fbf10ad783c; 0x7064d12e267e45a2bda6b1bfc26441d11dfd611c7ab1158f558ea414ed8175f3; 0x49e2311d10aa46cbd2d45cd61ed962d2eb8c823e982910fc437afa7c4d091cc; 0x133be728902dcd35c679fc4b3b80c989bd429f9dbc4c01ae8708e368dd81ecaa; 0x1cf542af8351701567000125da485d8bcb3d38516086c98f6ada127622178867; 0x366b6a1ce42aa8ba63f8e402ed4fe933145ae6700f81185264e69538170947b5; 0x67773e9f301bb5d11e8ac8976c6845779e5fd4fdf8a8a3e9beb05423011e9a73; 0x788a048907317c7677a8537d22675777c9d73fdf767c4ebca976c40020b41e58; 0x17210b33a7da1aa3e036caa8376cfaee10a30af74a6c7382d17280b6a8d958d; 0x43ef86bad9505dca6f118dad8a70c27626ef03723573f1bb92100a692d6e4dab; 0x8bfad79d93169aad9ab063e7cacbec3c1a21193f7e05fd0f60aa5db6ede8a3; 0x108cdd9b84754f5599fe2f1e323c4c2f80feddabe86d8bc2fede9c6a39be8ca1; 0x4a035f5fd1d18140cf4725d5b31bfe33579e17aefad368f7e274c4a6ed399c3d; 0xce9ae347ffa6765eaa746e0cb121523fc9099841a338c145c66843f4b3caa28; 0x51f7fb13087cd052b8c9bd551d02644f0cea54a079a1572e2b7af96d699b89c; 0x1f6646b2273224c42f4bee3d57619b0f1bb1bdfa6b7cffcf8a93ca86a1edd3c3; 0xb8d5c0b9222d75828584755eda698321ea76459aa630a804995baadf33b565c0; 0x1ed662fafef8453a4d502c6a55b0408d93dd93757692def037962f0a94e1d4ec; 0x1bbd8fa57527d44ace3d7ce695e77cb5d154a25ab80624d8687b06752c17e4fc; 0x244e3c8ab389f738817620f89464d8622d69f841ab1e811c864efc1e570803e; 0x2f7f85457553c54e42281b8187e06b61f4879474a19a3149c5de429d200833e0; 0x1f0ef694a2fa541d030c14357d3946874681dc5fc33c1b309ce106784cd17ef1; 0x7e7389ec5f72ff60f14cc3d93c4f2534a4915c07134a908383305c5c00594856; 0x13a8a98d98d92cac0001b7e42fc134a533438ed03a414d77672dc21c1b97872b; 0x8d99fa13cb7846bf867900d59d9cc8c489461c2b91a357a25dabdfa7424c; 0xbcc96455660c9c429e522c911b56907a218e30da4cef175d6eaeb5092f47639d; 0x9663c068a00ccd3b530297c4e1dd2eccf95240236af19875f5245782be4c7b2; 0x1a245d22a1a7e44241beee98be2a55dcb13c5d5add8ece594bf7c2415aedfed; 0x457664f57b4b135ea6ea6628762fb7f353f12d411edc5707140d1cc80bb76d4; 0x17aa5cd3dad031a56497cf9051fc6abf7342b7c3d89873cb59f7acf87bcbbf1a; 0x7dc2c9988e595af56a81eff8054f743731c9d02d393dc26cf2a305ef8bf7d5ed; 0x59d167c2028ec6c41b9b8a231836141a32f5c4652b943fea88648e7c168d4483; 0xb0a673d7272aec5005f8eb0094c8280e160b4414891e608ff1a48c7eb8daae2; 0x109a30d4326de5ad4a99abbf808b996f05ef2490be01c0ba805402801d95017; 0x1279af26b68b4a0b4c524c6e0e973cf283a95990ee525d665473c622d64d8c05; 0x108c934c0c4bcce378a5ee5a7b5b254c97c01cefdbf35c037f7eabd553da488b; 0x29393d94a8f745ce49357e7f518037821659a8715fc1afc67abd97fc696d0000; 0x1784d6bdc2c2201b9644287ba4db0c9e9ae23973edffc158255d9b985eb685b8; 0x23c306c8768bc24a1e01d26d3cb829e1430c2245711667177a300750c97fac7; 0x381cfe6df44f79b41bf1e5a8548b6e50f6a880d72c34b25fffba366571ee6cb; 0x3291406056be3df768a67262896135dd98e705c15ccdd2da536762d041a48959; 0x2eab8a6c469cba0e01e3738f669be2b246c8a0e7580ace2e8b00b086ca65f16a; 0xb8d5b02fe64223806d0e81d9817e8496723372594f2a2c8410c9cb9679f07011; 0xb6d66cd7ab925b939fa89873bf562ba3b0b9c3998abeebb80ff4702c73181865; 0x13491ade74376d26e585ab4d5e96c6b307192cc0bf11f881e13c41fdd5e2a8a6; 0x18e49c31a967d4fb4e44832f1a0e83c7bd0c65982f468b833cfc6ec956f0ad4c; 0x3331d74e3376aa21461e2571629e532be6f9a55d586416c0d83cedec9c741eaf; 0x561873e7f232e0f8d18b9bceaf76ca7336639b3d079a37ea3bfade4337e94aa; 0xa96e4d0bb0f7d879e13142ac8f4bba29665ea34fbd3bcd0c2f09de5050ad8d04; 0x48c39ca9bb995387347af440bc95f5849d9cf6815ec1c787cef29738b220f2; 0x1ee829aa491cf3284efc69beb4c60038be4e952c55ab493f85add5c33add6f8d; 0xf0773dcb091fb84336e139533eb144eade61880ddd1a75e9e85d906351a9e02; 0x333754f0de88213530eb8bba92dd42c87700719077612e6a0ff6fb88c250cba5; 0x24dee7065773be3336c7bec7bafaba9d18480ddd25ad4d2bcf68c9c7f9bf0298; 0x2c9b9f44507833ab2477260c53c645528d34fc717e135d7fba9c3becf352556; 0x2e453797c60b3d9e2b1391fdcf6bd0dffa5e2fac7bbe498f3bcfb9dd1b5d3171; 0x28c0c53be7ed35a8bff458c5d43a1f1813dc73d46669a5fb46b7a4851bb3e1b5; 0x127ac096ef5aa45166fda2890b22454a60169b136dd1d146e8cd20592e835608; 0x5116708b8637d648d023eff3632a40396b760483527cff1e80e07977b03baa45; 0x29919e33b28423ce4cfc694e8fd56974ca4368e1793c09868df5b78cfd0a0a15; 0xca6015222c06ed88e045282e3860657264eb8a4bdb1001e04ce51ea683d46ea9; 0x277f13d8067f5e4d788e4b592d7b578a3e0c6f712061a9db95e804ac25937c50; 0x1a54374793627c53d850994491b0b916623f9acde2a45b0eda2c226cd174538b; 0x81062f7923440f9910a2ad69ceb01593b0714a91220e72754d0d5ebdcf3a; 0x3612acd511039509cc4f5a3428ffc1ee4d4953dfd65fd48fffaad6a655121f9a; 0x30013a999f56205a1b779e84d089093a3cd65fda635873e82a2fe0455325fe77; 0x1b2779b844d19dab61f2f3262e13ea72f2fa9f3b9f0cb3875c3f4b72f73e7ae5; 0xeea68060a6050fa9b3beec18b198480491b7b19be3ab6470716137772a04e7dc; 0x1e2b23c168bddf6bb63eaa521a23801c9f7327cc867246741c5e5070affaeed; 0xb047a74711c1f2ea99e9c22032fb45c4ae0afd2e05a08649c117ef5776bba6b5; 0x1558840814a48d98e0542c33efb023ee56a5aa72f233efe9b67abbdc5314e09e; 0x257a03cbbdfd37e31182b3ab09acb2cbb782ab731a6a63bec4aab7becbe7572a; 0x1e65987781f2e58804a64ba14927c0cdc9108959cf8d92453174b61b129193; 0xb74886b6c57c789304a8a4887323d5597c20ec0fdccc8306fa3c76b35ec0c1d1; 0x28a5ae7380ae581ca9ad9d9768620395fa7550cf2c9616e9bdbe9da5642281ad; 0x626f21da8ca97ec17574e11b16ec47800faff9cb1e0efe32925e8cefbb886c5e; 0x8da0d68a2c86c0201161747051499b2cd0ebbb0e37ee5cd1dcfa09267b5a1e71; 0x2799cd07cd6c5282fd0e028ba7e13b94dcd85de23904c94ab31767f7fe2f8476; 0x3a0eccd548f5fa47d2ddc2ef7e916be86b285b041ff990885153d4eeea284378; 0xf477810ba712e5bb786702b46daec592cc0eef949ccd71c3de1313bd3e93fc7e; 0x2f7f2d857495aa21cfb4d485f8eea4725fc12516984001f0da86eb0058765309; 0xed0765b56b6f0f15261a665c3cb030e90a4b9b7655653b923cd69a9521f63faf; 0x8be49fcb187502a656cedddea8cf935b0652a9d5eb6ab80008b602774ec6d1c5; 0x22d5d6bad2e5df2d5b4d6c23d629d4a80c05e9a5bae578ba820018acdc39d593; 0x3ffaf449eb32877452792669ab8fcd440ae1cd5bf826c85bb02590fa54b05f; 0x9adee377b9820703efe37415da1ccc9fe4fe69ad4db372a4f730b7cfce2bc535; 0x28c6b483276736a3ccfc51616a32ebd0077c020610e750c9be7034bd19300825; 0xe6e23e03336a9d6b445009f6a98cde26f00b0036ea9d85af458bf300f79e7c2; 0x38cd2e9ef6f4d1535315c30e657c9a95f34c30c449740a1f33147e7709ffac3b; 0x34218276dd0323f36a0cb6bbe78a4dab0aaffdca42514b2b62614d87eb024e5e; 0x1f95f2c173464c1664e1d7b69148cf036f327f096f96c47d9106b0f4b673eb0d; 0x1c25e8e74742eca73bc2c794960b57cce2f823639b674597dd7cc5403a9bcd; 0x1a7f0ca07abae9ebb49f2ba513e7c89d708d8811a6b4c51d0c0b8629e35425aa; 0x66bc4024d54934f3a236ef7507e2ec10fdf7280fdb7f2b16bb6f9268c2e627c9; 0x8824b5c7c5c7d2a8a4de5fada34bc08d81db213d45147e2d478dddb23ef3ebbf; 0x19caeb9d7f8001abeac9da2461dca5676de021eb19acb3d401ba0d7bbf64127c; 0x430ca8ad4d51379023c7d6d64be9bc4bf3cece0f455c45f2cf3ae0394cf331a; 0xc96fb24d229a59f49836e2fb0b55d5783be8982b3cc759d6995967a4a2bf5d3; 0xe4222d24f355fde3555313bd57b632c44e545f5f08c188d5c234c6008ee2d2c; 0x4c9583029f6bd913068d3c272322971707171e81bd614711569cd12981bf9d8; 0xc698e65eecf37e25d9f8f646d84785fca7b1109cc3e2d0eebe1cf48470c7822e; 0x1caeb1fdc521cb2a9b4c800a1be89fe1c2e92eee172ed499666f41feeddf9fc1; 0xb036f5ab5b87cb26e9dc0f1c82868905b75d11ee7b7b38021f6e9d4a88007e72; 0x4accd44633b3758700f82fd8fe73f84b5f8910706832f3234cf29872cc108f4b; 0x2461a83d23e3ea5a0fb4c92fcbb6140d9e69a2387ae7a917fcf9c59b1dcf3d5; 0xa7cf8529fd9f221cc35395a20ba6539254abd8535aba74491bff03465794e490; 0x4d1f6d0d28f2a4233704fe47a2faf75ea0e4e07bc9889768dd503688bf6586e2; 0x168548d37fea0c0cbe2ad0f26b8787a417ea4792e65252340ed0eac5f6a82b15; 0x2f8825663a4940629659db5de5c8f9859d7a096206dd465c6b4fec432b2a855; 0x707c2eae03a98eca1fde690f2c79d53923d512fbe000bfe578477e06966cdc9a; 0xf6250cf05f96a4336a62776b96f6d1e21eaeb95855d36a69952c96a8f291f59; 0xf4be230e4301b2fa47f25e25c827f819bfde77402f3b47a89f04a69e689de8a1; 0x501ef7bb80850109e07aa49c011692b0f5b93c7b47773d5a16171e2cfe85798e; 0x10cb5ce060c8f9a499cbfac5b328fee6237054a3e04631962fa849c62b5e04ed; 0x298bd363813cb19c1e92f46691c8d416384375fa8a6e368f5bf6a210816502a8; 0x14a0b3089d000b446ec4683cb4cef29f535b7d40c55410c7b8e3ab42675fb582; 0x1c4f4da5b3a1b9dbd1f54c0fc6d684cdee5454c847e5e840c5b469da344ad7d9; 0xb1dafa45a3f8d0721309def378d5d94dad3c7417ccfb396fdf3732af892e81ff; 0x380d39200a0a1f3727b2ba3dd23d966936f4cd18f978e30cbef86a85e2300e38; 0x156b16ee8826fb8081feb4f008285d5a6a941009c9bac1a4b0c65b5e08990fde; 0x55ab4f7bf30efe3110a6ed1cc800cf543a4cbe4a95fd6678cfe77cfab9ab571c; 0xca0d5ea8d9cb88dd643a94733baa5639778212f19b5d490fb522cb1e06ca6f64; 0xb57c385cfd523b120ea70a7f800daf3b1be967df9cca1c038c4378347989eb; 0x92deddffb11ba38e71695342e603d13f158f02b041bc1663f4dd7702f20ba7d; 0x3456858590cb76b481ca0de72d5817ab78738fab095e5c3d1ea51664a1a80ae; 0x12373a6f245950c0a20406883c954ebe2c0e1f945aaf672234e0b856e949e0fc; 0x5a1cc3802ad97c335d5c0e79cb01622b0273d17a2da89547e4980b8b9b751b31; 0x87d3d9723d1187e1a017989c74803f0f258943f293bf066abca1cb5a9440238; 0x1e27ac6a22eadd72d70294cfa4ed7cb8f649db4099fa45d456ea98461b7c2488; 0x64203555913865e6e169a5a02ce69c0d90ffb0870a4612888184d1b50068c135; 0x1b8404511d157e1ddd60236c14e2b78112b15588316006266d013c7032f81f69; 0x10912056febdc68c191a1e4e626291e47bc790debdaa279dd9de43baa5093d7f; 0x2b83e47fe66484fb8280eae737084b578e1bb1c38b76c17657b785c171535ed; 0xcde833022054adee54d192a3f62cc37ee75311f4915b9f441f3c82472ed81d79; 0x1cdc14e397eb272d26343528d766aecf5dda0281434cfe51e0c4644455f8f0d6; 0x38fa33d301a78bbd3f94f620e43e12b0a3e9af1ff002ede6321ae3a0eea42066; 0x28985f543480313de46b9983f2131ae174ea841368dc7fe5d65355b54815d621; 0x1fd5f0e215d68b73e3aed83af95411af0c53f2dbed0e2c81305bc3b15d5b5cca; 0x791e48155980428b94095329d6bac6a6be1cbe46385cae019f6973576e35244a; 0x2027925a2f0bdfd6f659ac303cf08118530aeeb8865e8db6d63535f1e8021612; 0xb69403220980ba8411399f688fb0b7ac9ecfe4212ca0b9fbdc89bc1d4b37cf1; 0x73b6a6465ec17a1660bb8b638698af0ddf3ecfb679d6495f91d5ef891b8fc86c; 0x4a7829ba4c1905c4cd17f16b096341677904d8a86248de32fd76165450e16ec6; 0xe171844ca4e962f98823022ea65a648dcd9d7e3911b9af3446dbe348154353e; 0x3a018c99011a7e32194f7185b31dcc0adaadebe5738de1d4da09c4ed98ba5c68; 0x27ab7d3509ea4d3fa4140b615caf10ad191831439c08b368d958bf57e7f90d4b; 0x34208a9dc4e1c38858aa6a5c0b262f12bff748d80fd5367c8c4a6751661bcae0; 0x2d8807d6f4c37b972e8e08ba4ae4108a3a7b11071777cba18b408f62adb49911; 0xb736a4adcb69c29b2923529f4dad7331d811f16327717b23d9dd7648980e0309; 0xb6fe5278b3d35494491c09bb559d2a12936f2a262f88f4055709fad815ad784; 0x46570aada5a0ac090898ee0e0725eec32a565bad45e76549b95009ee010aba8d; 0xf5f0f03dbc30a840056883fa258c2f3053060b0bdd5d14089fb54efebf3c6f4c; 0x24560ec130eba88bd1766ab9d33ef59585081836441dfbdf77e470b9ba047abd; 0xf4ab8ae63751118bcb342eae78e1c3c3e30e8db9130a878f6e07a6bd85d1ebb; 0xf989b118270d721088741df3cf832bedb36860ca66b574009c7b6cead82e8ab2; 0x35bdd303e6a4ce5c26e34edf7ff9e2f034092224def8d0fc57f8621bcba6f65f; 0x4154825927f9675420894de7b1ca627d41045547254713351168df42418ac385; 0x2064d33deec5a8628bd4f3be7634d0a7387aa6f62b5d7b6f9040654ac5ecde8a; 0x1e446c19d08e4a240c20fb4ae85ce2389f9f8cb48e7c0f832592beb6e7fcc174; 0x618114e803b3ac883b5bf896f7ba28895fb0824fc3d6a7486bdc0c2ea6f2706f; 0x55e6dde3e83daed7248b418b5cfb5096c25953f67e64e34d5ce4cbc2b0dd0af; 0x35a85cae870a55c0ccb77bdf07966007773eb485cfeeb69aac7d94f441995961; 0x5d625b2d728365bcde7b72ca1e347807bb95f557d342c7eeeb7828c446fd404e; 0xfef684ccf982bb2da216756ceca48cd9171e2ebc02b219bd7650814fe2b86b; 0x4365c54e25efbada1cb74f8a8be6251020029053988158d9b108eff270c053b; 0x5afffe44c4c70aff957a7466cf3acca7beb5dbc90c8a06924ce41caa6db60311; 0x29b83c91d4323e2669c22886f42e7979ff63e03b4c79c401104b775658fd9099; 0x2970403676bdf14ce60916ebe5e6d8eaf9b7c9f1368850baa44e87bc2fbbae5d; 0x1f8a3008f99fa6fc793be49074210da15358cc1aac1a4f57afbbc3ead61ffcc; 0x9c36de9df4d708b9111ffd3f1e388de10d40cd615b72f381ee70d82e88852cfd; 0x262e532a898722fb2e73c7c7f415cb11a145a2a874f5e153ebd62d8ccd2b5b0a; 0x91792b262f491863ff78accdf2e46314948500abb793b8fee07bd16b7f8dcdf6; 0x2c6c75fe07575ee6ab5a735233d0b3569cf50869771cd943c786a000d520bf2f; 0xe46b26e261ca62616f17e35210b77a00b410f00c8773edbdad66045d99af3aa; 0x1d9e80674b59d94a653c8a3fdc2af8611094ff2c39564122b25b86e7c5d2c97e; 0x19d6ec229d37b9138dad85e03ba281e92fe61ea9bc3dde3a1b99d45a51c76416; 0x2358a051928e44d7efc5f86b540180068f4d0124e9495486dc02aabfac8353b2; 0x7b7f552f4d994b6b1787caa0ea5738e56831d977e730fd7cf6b838d3331b25a5; 0x1783e6cd48a331d267b754bedadab8c6f39bcc1d42ef0936a032dc96a6629b0d; 0x3c1efb9ee7bee87d9bde4bfdb364f20dbf236de2b5badef8bd9b8395975d2929; 0x909fe4b2c1e3f01a479feb4ed5d29c3ff357e49f073e33c9eac959dbd59bee17; 0x227dcce4063ba9045246ae0fbeef8240a5345c3f9512b6a914f510ff556c23c1; 0x1148c649813a058d6a05cea7bed1ba41effef8ae0511b3e664afab9452c45f7b; 0x48671fcd80a98f0e9626e99d9304ff0a1c5f9d0c03ea8776fe8557ebb6171d; 0xb708535455ff79984a841a48098ac1ed9c68f83c695232217c009596fbbbfef; 0x838e45b08a46cd4b921f417f43202b16c03f8caa9077e55e7ad107fff819e627; 0x236aa7c8263b420afa8ac448e5c9115f9c98cb9b3e4846d065b348ce1f0ec60c; 0x100d958ade0bcbf5e3c6d497610116f28afcf49336e8bee7cc99c1341d67d629; 0xa8db9bda5f161762b9ab27742eb03e95b2ab9b4e58e1b7154af0c8c02ce6ea99; 0x765f2fc9d05fe4e33a5a6532e686d0d5d05cc3de7ac6f426cb34f3544b6c4035; 0x5d73266f83b57a9bedea58f085edb2b460fc0dd8bc46f53092b258e5189f110; 0x6377051e44ab1aaffb41379f11d2d619922d62edd92985f101558e742dab1c92; 0x20112d209a7ce7a671c37c36238c39dcdaf44581877c8d190970840599245068; 0x3f72815f6b03476599a3a0164452a2ae47fdd7c95fdd9bbd106fdaacd5a6ba4; 0x5d8ded3166905e1f1720225a60607547e6a85a4edb435aa8a168b977aaf81734; 0x31398748d020a4eeacf2f6046cc57c988d702d856fe250b9eb48f23b1c305f06; 0x641cc658d33b6f01dc3ead752dd895b205fede8638968cb3a7a0c17a01ac6f7; 0x90ec51a7bc63a91f3f43fa71e9b1648f43648662ec15c2a9bfdab2cbbfe0918; 0xaa77b6be32c89a1a6905ac4b753e97882e94674ee6a17fedc85c5bc62777f17; 0xa32adbf14262f69f79cd2f309c6ed9a24b72e7f96321bf600f0a61789267f57; 0xbc268654929872cfd38cf5a04f1d56e69429e816db0ac4cc115d15fb1bcb7adc; 0xd985d6f8ab8705dc4f3031158c5b26c945fcfcf0a6b9e2e72f42a3205a7055a; 0x1fa35a901fe71412b7123a2c5e59eed713a7d28f99e361d137f5aaf656027709; 0x14dceb809583ec4b6e8a3d94857fc6dd919d5c93fc5368340d18a512b6d42c6; 0xaadc3d47f08e37565e6f023110b61abf4ed5ddb75e52fa1b6eeaaaf247191357; 0x297152134b36a1518727d4424a182db34b67b9263d6871c9717971a321c48c15; 0x46d9c4a04fdf4147f5d52d172fda477659ce8dc26da6908a59fdf11bc669e498; 0x90f1ae87e525ecc2304ee610845468b8eeedd07d4f1ded0a5cb0c4e0c0a88b84; 0x80f18deab0566763d970410461078832ca89075c4600df1db529390bcb2c336; 0x1d359ef6c9a02c7a901ae3277fb93edfe08504a1c23bf0322a72ed8a7bc74de; 0xabd5df7bb1e1c7758e3cf4fad2447a159b61f2c33dd3f058868123e5f80076c; 0x1e4a5632dc4a0af5dd7668c71e7669262702078485064e861c8a1a61220c725b; 0x551b4632226c96b7135f20584e1561116e111d5523f1b452314675d00b207cc7; 0x8ceee3689e7efc787fa98312ac28e91381b2b615ea71034a2e17705012301442; 0x1ad9c123439d5b97701c75918ef40186d338cd6dd3eb7ea8dcc477aa87906072; 0x8d76444f9b8f3b5b56ba9707e4297e1dee2a633680fb5017645fb81fdf6973fd; 0x449b2d51815fc0911666e83674f7688a7f09d799245b7270887bb1117b4bd174; 0x18c429f20a836a31c48854708c10604a59191c8c4b47733fd439f7d8a5830127; 0x336e6d59b5e6ad592df3f0d971d12de62d635f584dc869abb3d45971db7f89e6; 0xbe7b7c82c6663759abe9ff8785cbdcb073bdeb551cc4cc9ac40d60b14f1ccb07; 0x12d07db300657696fcb0cecd0c4f0300055f3baa651aa4413544d1a6b5b6782b; 0x42f4239c784d934e73a3c8cb7c2b905bf11912c383c2d48c347be28686e6d23e; 0xb96c5594a24410c833a677db60f30f1f27e6dc55b7d8d8e7df13ea6f3ce4b71d; 0x298415f140a8c3a7de994c040a625f285ce587cf0e955da1bcd80b211b7caefa; 0x3c7cc740b8892001a97bb1573a258f43904313d8909872c3e724865d6f18d1a2; 0x6b8f0c7b116431d2fc30b01eac0167b388f12daaa3515f4a0ebe0c2b3264cd56; 0x3074519155cfec28ba34ce3886cd6925d7a6202dbdb606375dabf1ae3d0f8be0; 0x36667af50ab56c72bb82c9ce8be05c24598f385f4347cfed1a1ef824c89d587f; 0x8d796e3d4a02fdb8cc2fed14c800a111ff204d4970a0afe8d9e3f7b38ed6e229; 0x16a850974589edc20f8a617b514439e355034fe9cf8f9bc9c5746b051f7b2235; 0x3270e34c8ab3f6b26ed0dfd1320266e3eea1b42251b48a77dcd81bd3b08e276e; 0x457728591307ad27971925bf0f4e7a2bf46c9dcc79174bf5edc390c89545d966; 0xe73e563c04921ed6ed3e1396e68faf394bc6292f79e42e56424cb6ae5c20a4a; 0x4c695e60df25111257fe150f78f8126505e06f99f527c3f712b73f5fb1043196; 0x6d14f208f4e260cb04bf9df5acec2b3ffefae908acff8e9cc5193505fd7b1696; 0xecb433691c4a782654680ef358b1808139ad2fbc0fc7d315875b545cb5499da; 0xa7743b612156908523373e3d46472b1adeaa583f92284dc82122662ce8cdc494; 0xb5c43d85115449f1ac8504f954740bf09f5c7ce9cd4b619371f447cfea66744a; 0x28704730e79ded353dbbe56dd309ac385984c305f3b1e51e5187f83aaab6c29c; 0x24ebfb2c87f89c283f3a4ad38244caca3b13333c5d398524319ce0fb86b; 0x4845af500aa8bc6ebf6beaf0f651023af1f2a7b91effa14ec881b752e9a5fdc8; 0x1e14c28a2de781a9cfbbfc2ea462be98b2651d061d5c4f79a3ba479e342bf206; 0x1261da43fffead26b650312b9cf098c8edc7f40357574b035eb190d8cf5b12ca; 0x5406298cd13e15f16773913c04fcfdd4775cad1ce928c7194f8ea18d93a19138; 0x396c1e7e5107320af7df94bcb591b82a3f8d6c8bd1f037c213c1ebeebb07d6; 0x7b60c155cee2a273ea4bbed2525478a94e8501e8dc9941c99cd8be26c512531b; 0x558f8091befe815b7914ebf802158df8a781e081481d6e531a76d43160a290bc; 0x2b6887c324d859cb96d6e3b9c3de07c48b1daaa226968d32f94ac13abb45510; 0xb9ef46f2f00f9f555670b9b2162e718d9c721adadc0608cd3c30309cc77e02f9; 0x346adad677154c23dca9332b85e57459892a2a80323fa111d379bc1ee8885fef; 0x579517fcc7ac378e55a158fa8a07c8778aed007cb1dd431e46cda02afe5cd05; 0xa6b3698bbdd7b054b9bf6884b556e0021b8af3f8b277722a6197c0f7cfeb29db; 0x7d68e53c40f23e6a15022e801856bd68ec9057558230d8b559c429ec6617d981; 0xbc0027d502556817c755235294061526cdbc09d60c570f8c2d3de7550e6178b; 0xa9fc7d0f081166701eaff6e6fa4f730a8a30aa51f12d39cf5bd86f4ebedaace; 0x33db6416a7c9fb3fabf2d51aec8aaf7774b663a27c23c5fd8671a81f7ea959c4; 0x1b94edb088d6c3c5023210c67eb50003e463bdc4b4d82525aee7b902dbfaaf32; 0x6cd2f424af2f9d05a4809224ddc9bd9b0c4e819846a3f05040380b04a52e329c; 0x2b28436e68ce375e3e47314f42fb11bf1892f35d31c99278ebc469bc5ff6247; 0x1c88a632106058b465f8a8055626e056e2dc3f6fd31b46f1dec2cbc1a5282000; 0x2c639bf31e3a8184d6f39f6b8607f6f09a4147bc6629fda3427b26801edacd8; 0x325b6ee0a72b4d665213a6999bcbf54810f425842dadc3dbe30325c075d9113; 0x15c85684b565b8bac238c80a1fe36f380b7ef8dc9ebc04d73b87571afe6ddfdf; 0xa7ebdf98b9a64539829b55df9573222829cf4fb5168690f250de639d51288dfb; 0x1af3a87139990cdb8f507553c6ce6877a682c538aac42a2d6a8a3f0d7c685f52; 0x284699dba8b15dd6ed2c158f5c0535f0ad264d90723583c0def7a634d453f232; 0x5f716c4694bab5e32e5acb1dedef2d5ab3370468861f9c96a88108a5ef474b27; 0x423d526d66a064f73ef2f2c0bf01bf5ec82c25231abf32326f6d2275359096ea; 0x22cac9e0c0d6c70824b98008f3272c041038b0ff62b4ea0de79143f74a478135; 0xc99fa55f4a4fbd9bae70fbb8724863cb538fb999fa6fe3f4d3e1370e7ca7ad96; 0x3728288ce5789f63d71a0f3f9b869296433a03f6c1cbff8f805bbfffb658f8c; 0x1684733ec92c1e13e5d80d1a371f2a13100bafbabbfb383ec5bed591d99222c1; 0x18146157deaeecd0037a23ea20ac51f278aa7c9e0cb192a91e7bc834863007c3; 0x12c1af3a46b041c216edf16715ce28072247886c4a6b3e144f8d726e9b664842; 0x354106ac13ce3596060bdf6c1987f6a43e575472e3fb7e8717e386286d2adc06; 0x34e07846b0f06ab967876d2ed642990f9fe9dc4945a1e1f865591d870ac3d6e; 0x693e637889ceafce7186c03682a2d014bd9302a9f4e1dd899ded96e751764685; 0xf937b4f7303a4edf501f154c3a940a5c7d1d19a2e84e26d78465e2344de4b64; 0x10f6b2a8be3f7e6a94a79627441f4b2a4c05a0a1dc6e534a666704d58c5dd176; 0xbc14b40808aec4c649668674755bad3b9f2b4db23efbf46452a84cdc9f0da1c; 0x1ce510a36c6e29e1624ba2dd45b638f3ec5549a6f0503bbb177c31585d08d79b; 0xc0e4812c30b3056252b073678d3debbd448e2bdbc27b70a0e1e0b260243c6591; 0x3121b0fa81de3a84a67f78528d731eaae3692c4282328778234330b8a20c3044; 0x207cd67e3c1c1b2c8ea62003fdc8b1ab3bb45b451281e607ca4fe8f54c3e3933; 0x13b7502662ac22f1cca38cc62b6b06c05030ccaa18596cf39a0b0cee0872bd6; 0x70d900306beea3e4b8d15656308c0072c376d0890bc3ce72770fa07ae6e2f4cb; 0x506a1531738866d0088ea4b31837552ab2c9515c26b0c16ac8287264f1dcc07; 0x4f4416fa227ce832eb894668a536c8766ddad07e0fea8e0815a943cfa6a9879c; 0x9ef20496b1f7b6d60d2c5b6bfefe9f531f53c7955889013ce191515d15253cb3; 0x247b9e3b62d008b38bd7cea7e70b05ad2cffe28b8cdb4ca4e9a9ebf36168b509; 0x8458e65d189b45e525a617acf7e9861310290efda7f37dc4325c57475ddd1af; 0x61569f7938928064e858da8bd7f6fa22850661ac631690ccd5d20a1295ff17; 0x33100d1010fdd3828dfff41fbb6faab1d78d02e036ee59cff30a5cf3c3e2d4a8; 0x1060b0cca55dc5c107ddf7f0c8f71bda8d11e07a571d1e2db322c953c20e94e; 0x3a205e98ba7dbda8fa44538e0bd2048877566ca69eaa1bd698f4871e110a9918; 0x1963c21550e7f97a6abc2bdd1a9ebc40b400ec605c866b42a5b171b0b0e3b235; 0x5efeb09c22423478db7d71648ffba99856fa43c3325f0bf86def06acb2718a2f; 0xca28c9d80967c1ac32bfc08ec6d7c35424a6c64e82e51eaff76468511b25f5d; 0x15a4704c189f9c78a2f6e23b9be9d9ab8c3e2c500f311261d2b372647e5a69e3; 0x4c7547f7f75ae04a55a9ca114d4e1d1017d25c9bbb8f9a32e619c6444e9d755c; 0x42c3a640413f46dc96b92917aa59f4f97afd3e1131eadabb3729b20ef9c11b9; 0xb81c9eac4a46c9a5bca74481c2e5c34b059d0c5b39d47a56350ce05459af7fd; 0x1986cd0ba58b84849025dc072299a508b9480075f40f971744fdd0ee5112e7a3; 0x6827bdb8057ab172ec42d94416bfcabf19a813a2ceb2f5aa4f649c4e6032890c; 0x32e1148f056d19c9f58ab07467b1b4cc8deb4877ec58db94cd634cc996c152cd; 0x1b2d0e72c950ae75434a9bfb84bc07b1d445ff87183f9147f16dbed0c9928ac; 0x7d94fb4702ffb5d5102ea52c5ccc5dea826068ec16742386e1aa1f358df6c3fc; 0x3321bd5401a07bf97804177ac9ed6a255236fa0716016a0263d235c2c5456b70; 0xb04ae7a7bdffd1e5c4e2ac15e5854ccc1f39b211709c595bc2bb0759dabd881; 0xd9231c7237a8a22b5d4363e42e864b7fba55b023b57919cfc45ca6fd77159162; 0x1219d5e349346896f922dc24e90a01b9bca0b9d28fe3c42cad70735a3805e55d; 0xfae370db1d82a6a2295d238852924bd8e209cabf1672cd4e13469e4f75d9bae; 0x25e642ed4324edccb5b72c0fe28ca771faff521b2b5117273807f0b09179c54f; 0x4a35e0a35d1723c95a74b3464a7ba70b53cba6af8985d1cc2e9519e3847199e; 0x176bc13d8be3cf20de6dd8e19bac391015b91123333c9ac54ea3caedf304dd6c] x); [vm_compute; reflexivity|exact D].
Qed.
Lemma points P : on_curve (cp secp256r1) (ca secp256r1) (cb secp256r1) P -> no_order2 (cp secp256r1) (ca secp256r1) P.
Proof. exact (no_root_no_order2 _ _ _ P good no_root). Qed.
