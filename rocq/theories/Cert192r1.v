(** Certificates for the curve secp192r1: its two primes, n G = O and the absence
    of points of order two.  Written by a
    script; the numbers are checked by the functions of
    Pock, EcOrder and EcRoot. *)
From Coq Require Import ZArith Znumtheory List Lia.
From Verif Require Import FastMul Pock EcOrder EcRoot EcSpec EcpSpec EcCurvesSpec EcCurves.
Import ListNotations.
Open Scope Z_scope.

Definition mp (k : Z) : Z := Z.shiftl k 192 - Z.shiftl k 64 - k.
Lemma mp_ok k : mp k = k * 0xfffffffffffffffffffffffffffffffeffffffffffffffff.
Proof. unfold mp. rewrite ?zmul_ok, ?Z.shiftl_mul_pow2 by lia. ring. Qed.
Lemma prime_3 : prime 3.
Proof. apply (trial_prime _ (Z.to_nat 6)); [reflexivity|vm_compute; reflexivity]. Qed.
Lemma prime_2 : prime 2.
Proof. apply (trial_prime _ (Z.to_nat 6)); [reflexivity|vm_compute; reflexivity]. Qed.
Lemma prime_8413201 : prime 0x806011.
Proof.
  apply (check2_ok 0x806011 (fun k => zmul k 0x806011) (fun k => zmul_ok k _) 3 3 0x4c130 2 4 0x80601 0x4c13
    5
    [0; 0; 1; 0x109624; 0xf9b69; 0x2ba8e2; 0x123fb89; 0x6cb4c; 0x3640cd; 0x7d4546; 0x58beef; 0x10eeca2; 0x77a3e; 0x18d73f; 0x9ea17; 0x14de318; 0x3e5cde; 0x19866; 0x655952; 0x19866; 0x655952]
    [0x19866; 0xcb72b]
    0x26057f 0x43d0e
    7
    [0; 0; 0; 0x3c460d; 0x1fdeb9; 0x156a4e; 0x7c4775; 0x51002; 0xac311e; 0x7f3a9c; 0x6df0b; 0x56e87f; 0x765878; 0x5c3945; 0x274015; 0xbdd2e; 0x2aa643; 0x77e42f; 0x2116b39; 0x838f8; 0x12fdde; 0x86629]
    [0x80600f]
    0x403008 0x403007
    0x20); [vm_compute; reflexivity|exact prime_3|exact prime_2].
Qed.
Lemma prime_252396031 : prime 0xf0b41ff.
Proof.
  apply (check_ok 0xf0b41ff (fun k => zmul k 0xf0b41ff) (fun k => zmul_ok k _) 0x806011 1 0x1e 2
    [0; 0; 0; 4]
    [0xf8d93a; 0xa1665ec; 0x53c78d; 0x1147c69; 0xaf3d714; 0xba7fee; 0x1790c2; 0x3f52087; 0xa6cbd2f; 0xf89b8f; 0x160c23e; 0xc53343; 0xbba4ca; 0xa16df20; 0xbc5f6d; 0x5adf5a; 0x780262; 0x5c2fb05; 0x55f7ada; 0x47d88b1; 0x57c8f36; 0x31e2672; 0xde1f426; 0x3f9ed9e; 0x6568c1a; 0x4000d43; 0x132d6e5]
    0x946dce1 0x25bad5e 0); [vm_compute; reflexivity|exact prime_8413201].
Qed.
Lemma prime_455827231987 : prime 0x6a216b94f3.
Proof.
  apply (check_ok 0x6a216b94f3 (fun k => zmul k 0x6a216b94f3) (fun k => zmul_ok k _) 0xf0b41ff 1 0x70e 2
    [0; 0; 0; 0; 0x26980; 0x5c59a16c3a; 0x5c2d0f8874; 0x40f40fefe5; 0x153bf173dd; 0x69b882ec]
    [0x23abc8d4e; 0x31c6f17fa; 0xdf187f036; 0xd3d0aad8f; 0x1470fa4b51; 0xf4d1a21e; 0x375a3d1eff; 0x27af0d941; 0x64a2478a05; 0x3f4d9417e9; 0x18d3423; 0x1c40ccd37; 0x313d67d9b; 0xe1837ae9e; 0xc5c4f4928; 0xc0f8d3; 0xe3ad9e6d2; 0x96b02d52; 0x477cd871d0; 0xefabdfa50; 0x4cd9f81d8d; 0x1ff3c1b008; 0x901d42cdc; 0x39b073411; 0x9b906fd2e; 0x462e1520a8; 0x85c40e444; 0x153b38b7c7; 0xb2d16538f; 0x34259ab470; 0xaa907540a; 0x3502046e4a; 0x2ac0d53d6; 0x5130c0e7d6; 0x699bc7f3b; 0x5e9eb0efa; 0x650bf7954; 0x2315b738; 0xca040b02c; 0x2f5d3a6ece; 0xb693dc10c; 0x191a135c0; 0x1eabfbb01]
    0x7eb8adb93 0x125dd64d9 0); [vm_compute; reflexivity|exact prime_252396031].
Qed.
Lemma prime_5933177618131140283 : prime 0x5256e19bbe013ebb.
Proof.
  apply (check_ok 0x5256e19bbe013ebb (fun k => zmul k 0x5256e19bbe013ebb) (fun k => zmul_ok k _) 0x6a216b94f3 1 0xc69cde 2
    [0; 0; 0; 0; 0; 0x18df671ed5; 0x2b9f32dab2690b9; 0x32024b2c7b79118a; 0x1edc6ed5aeb7ae0; 0x5d8f40f1b5676a7; 0x5813d32b3386d88c; 0x73f79cf083655023; 0x16cf35be600471b2; 0xe945008acf789; 0x1b1faf61b9c1ccc; 0xedfc7c9f4ac1b44; 0x536523fa24747cb9; 0x1ef13c6ff6b6f886; 0x18bf76810170d3aa; 0x30c8c7271a27c9c8; 0x5f897f392d89b321; 0x92e9167f376cf948; 0x6aa8ad606ad79f2]
    [0x3f16a8ca732784e6; 0x22c53d332db55fd8; 0x3252b2d0ae5144d1; 0x3d42ef61980d26bd; 0x234c4a1a99b5a69c; 0x16d4991a9c97804b; 0x1c6caac11c8d805; 0x1946ff74f5a7a504; 0x1fb3b0d5cf6bc199; 0x33d0ae35b366c15d; 0x1db17f1d056d78; 0x2d1d26f335b598e5; 0x3d8856c5a88d2df0; 0x26dbbeb4128042ca; 0x445fe2add30bb530; 0x661ffd6b7805ed6; 0x304aacfc2927a28; 0xc96d7177588bfb; 0x3d360e359aea72bb; 0x2b4865e9b3bde092; 0x4bc1f4f64497bafe; 0x37735e8b19f17b8b; 0x3544b061a51f116; 0x36faf9a9a6e07eed; 0x348d88240d8f14f5; 0x30581bca7b541922; 0x3882ebb4fe0d7cdb; 0x1aa7376ce1dbf9ee; 0x13539e3d405213a3; 0xe16f3baaa88fe71; 0x49d316a136320598; 0x2da3bfb76cb62f68; 0x161219437c0197d; 0x44db3ac5c3dfc44d; 0x3a497eb4518741a5; 0x1b08b051781a494; 0x125d7ae3622d144d; 0x28cf130c548b59bd; 0x178a230ae1329ccb; 0x6771340636a428c; 0x1feefec400c24745; 0x4bd32ad25ca32a16; 0x206496b5d0c6f584; 0x2828fd73e0943a03; 0x1f0f9f6c991aaa8a; 0x46515c73f7e6c7a1; 0x36306793b14f6d97; 0x4e04cb1a872d9c81; 0x3a130793e96f085; 0x228a403301e445c; 0x3393de268c29aaef; 0x2bb31f83ec21fb0; 0x136ccea009635e07; 0x4f751387ddc6b8; 0x27a3ccb7b4842e6; 0x25e45c22ce159957; 0x36b82f477d669b83]
    0x3d6bb6283c89a83b 0x35c36bf6d8dfeeea 0); [vm_compute; reflexivity|exact prime_455827231987].
Qed.
Lemma prime_288626509448065367648032903 : prime 0xeebf0a6dd4957747e4d887.
Proof.
  apply (check_ok 0xeebf0a6dd4957747e4d887 (fun k => zmul k 0xeebf0a6dd4957747e4d887) (fun k => zmul_ok k _) 0x5256e19bbe013ebb 1 0x2e64832 2
    [0; 0; 0; 0; 0; 0x11; 0xba9dd3ba38cf469e7ef19; 0x9714e4ab80869604bee61; 0x5b1e03617ed4dbaf9da84e; 0x4bdf5888edecaac40adce; 0x724412e21f76fa1e49230e; 0x3e786b5469f4740d6c3fa8; 0x8aa6fabbe3d4f3b1b22da6; 0x644b62958136b4c1f487a2; 0xe8b655655c0b49a816b365; 0x69bb44e5acbf0759cb96ea; 0xce68d888d3010892d1d9f0; 0x66f6ef454df7441bc590fc; 0x2ce1c68d4fb5ed2a4749eb; 0x9a8e197a1524887e6a44d4; 0x1300ba1e41e488d9d540f; 0x36db48ec90dcc166f17a0; 0x2b230b8c8e87b69504e0c; 0x156eb9cfa3b1e31f4dc3f33; 0x18b16d64450fe08d2a3a]
    [0xfa977ecee42148f6de461; 0xa9bba560bdf0e3c14e760d; 0xa99f3c8f83d0cd07f5b59; 0x4a7faebe31407815451f0c; 0x216dd989ede3eef07cdce; 0x22609884b5a896ab8cbbd; 0x161ed84ce7da783d287107; 0x9461a4cc2ebfac6ca6b378; 0x17ca6916f6436a455c0c9f; 0x2e7f56e9fb21a5ade1fb; 0x23460cf387030f22b5af29; 0x2cb083458140c1628631; 0x7205569b9c8a18172840cc; 0x1a73487e8e113be9c30a8b; 0x7291be739932f940bc7c45; 0xe3325c7ba1f071e6b03f86; 0x25b444ffd02c0e9e3fb63d; 0x972d86acb75cd0eb38afc3; 0x13942c3bdb19df133e9a8e; 0x399c07239b3e44238fdea8; 0xeab63c616d9be739602e67; 0x5fbdd86f368adb9c3e94f; 0xbf3862f74a712887ea05; 0x391d4ab960cf4fc4f39af; 0xf63c8aaba6670d8c506; 0xcb0885ff3a52006223123; 0x3793c9093467ec4032228; 0x1726887a9b2ecc3a80112e; 0x6c1c2faef34312e9c5f2a; 0x500433d02f3be60001cc2; 0xdc46f4dd1e7a5b392b6023; 0x1199ead99cf9469d817f79; 0x9e4259f0fe23388faeb74f; 0x2ebcda3fe7b08c338e2e3; 0xa04c52d81c5f4b3153ad89; 0x607f36508fe1e3ac638dfb; 0xc7fcb88aa515c37b30774e; 0xd4fa635979e508dfe798d; 0x9ab3c5e7d0735f69ee288e; 0x30a03731e8e538518a45c0; 0x19439e3f7dab29b276e93f; 0xb9e798900575755bbfefb2; 0x15103bc7e97720aaeb7537; 0x7af02d5a2be36097ac4d1; 0x1770a917098a53f32e8fe6; 0x91f27dfa02411fa73b6bf3; 0x54147f3a80dae441bed49; 0x4dd0d5e67691af776ece6; 0xd798d3359dee4d23827c31; 0x3b10597a706112b9828208; 0x2f85f109af73b1773243a5; 0x29ffd152660e320430c040; 0x9aeaf0cdaf7c892bfd02e; 0x26f09164f224d45c2d7b5b; 0xda7685f034aeacf3494bc4; 0xcc6975890740de2f355e2; 0x539cc93d304f149c9133ab; 0x3c3c46de270dfe6ed894a4; 0x141ad80286c73fb4b62223; 0x1d94c588fabea463917c2b; 0xa107696063b5957199fdc0; 0x18bde6d5ad28a12af0e4a3; 0x75536644b4cf78a401224e; 0x52eb3f17380ef7904a2c9f; 0x847b196b2413d61db74341; 0x3eba08672b5567e9be67; 0xb44f942f11e3697c2721e8; 0x33803d4dd23db5bed2cfb4; 0x418ece18983e93f03babbf; 0x893cb6dbacabdd410fc607; 0x181738466da68e629b3adb; 0x17caa4f691d746ce0794f3; 0x48613165ae65467dc8d784; 0x2549071c5790806abb92b2; 0x455bb0c8e0804369cc4462; 0x225b567298f9b13c446fb; 0x68ff4d9fd02254a94740db; 0x1eb5d3f32b9241ad4fb7cb; 0x5f20efddbd423682df61db; 0x282d16ab980077c1262184; 0x40ba0c6c594ffe34f4057d; 0x1f2f0905b48227b4189d64; 0x2bfdbf2a51828ecb6c617d; 0x548e5f9d6cbf130a17197d; 0x1289a65cf7f16cd4294051; 0x29f399c63122165e1b01c4; 0x60acdb80551ead635b7142; 0x13971b57eefd72730a5a53; 0x603aa5c715d9600630b994; 0x1d9097192e02ea9dc65b22; 0x51393b76b8dd9db472f044; 0x579a22a550c3545056df32; 0x29d492b1318463769d8424; 0x3e77822fb4a58c2490af8a; 0x2e0645e085d614a8cda83f]
    0xb28e787d7b7ad560ce715 0x2dbbadfae667d1d49ff3f 0); [vm_compute; reflexivity|exact prime_5933177618131140283].
Qed.
Lemma prime_6277101735386680763835789423207666416083908700390324961279 : prime 0xfffffffffffffffffffffffffffffffeffffffffffffffff.
Proof.
  apply (check_ok 0xfffffffffffffffffffffffffffffffeffffffffffffffff mp mp_ok 0xeebf0a6dd4957747e4d887 1 0x112802a28a0d50ad20b9b872592 2
    [0; 0; 0; 0; 0; 0; 0; 0x400000000000000000000; 0x20000000000000004000000000; 0x100000000000000030000000000000005400; 0x310000000000000081800000; 0xa91a010000000001c006740000000002; 0xaae39b6ccab10006191164cd35be0015562a6941a5e80028; 0xb12f52789536404b573d1ca5cbf4a4b7f048d35bce8ec537; 0x80cb0d6c0830c7d2d12d34b05f3f775c7a6075c91c9fba6; 0x4184ef5f5c12ba5af25098662257a303fbc516e1d7588a57; 0x55962089b7595c627efba3221879125720ea4061a0b0fe8; 0x32e839e38f1c22be2d008cfa913883ec9bb5213318ca07f7; 0x446c4e3ce7df57009f39ddcf955f0edba68eb35153214d; 0x1d6b01d9aa1106ef905a4a0dddf700781bab1babd2e044f5; 0x10fdd8505f772ee9b53b8df866d4a35cb8524c92c21a3a20; 0xe30b3e9cd7439572071f8b1c1d736e4b545efaf05f5f9ce1; 0x4fa41fc3e30d98d5b6a59b22479daf737edf9f8f171c122; 0x20fdedc531178157b803f91465a62f15e633ad78b7aa0034; 0x12adf45bbd571321ac31bdccc19f8c088e585bf028d6eb10; 0x94a55fab1704dd4003b46d7aae98e35fe4a91953f7fa9095; 0xd5ad967d4988c165c36095091ce4971dea04fadb2ad0bf4; 0x10f46944157ecdcf16f56890d66d6785dfc9395c6b04e9f; 0xb43141810cd46d91f798be4a48ad5ae89c41f72400824d6; 0x6410e6d3dac817bea3b1828c72cd7d8995d8f135b30c9b6a; 0x11635c81bf702c2e0831950ce2a56c295bcec2d6d9b6e6cc; 0xfac5cf781e2215bc27c9b5c42dffc4801c2db0e70c48a08b; 0x1f7d2bb5b8d8a9298bd35abf65c0ac334602dba6ad0619e7c; 0x47ba8e81e5a21fb3fd21ed52089463ccea78fa29cdcfce16; 0xe51345eddbc47b467b21018b420c0bfe98ef07e7dfe20de7; 0x5fd105d05b3c0c17a9da81303b572cb08a9ad29f73134d16; 0x942379a75a797987e295e8cc2a1dfb00a5ec1f1095a29e06; 0xfbebef23a92faf035d6656c6ec510dd5b2269539b8c9db67; 0x85dfc96e710cb99fb07613758799348808c12c8caef5a89; 0xca6868140fa69046f311e17628ce1580a3ce12a2805cd894; 0x104aced10e9f2c3d40c697b44fe5ef6bfcff77a54d1df78d3; 0x9c0520b9c57422ecc50687c1a984f69f42c54d3c64f2a80b; 0x11c1391a6eb78ca0fa77f78f7a87363e7e5d42c7a6fb523; 0x20fb63ca9208db245b5349959f4830309975fc6a5ce2d67; 0xb3300e07e285cac4b8498a5199050971235d9f3654286bd; 0x898a4e7204a9acb4b37ca0082d0473954d433973711febec; 0x32afd2e8d106ae0d35fdb4004a33149a5161f6730f69fc43; 0x184276fa21d23d76623d726c9cdefaf2c521095bbcccbe46a; 0xdb7e02505799b18283be18b286ac3ab5323ff09a932d427c; 0x9f4a1cc775c362b9cc79158c6139d9baecb15d98015eb1f7; 0xbc5d819aa65250064c30fd0120d10ba19fda001dbdebd2c6; 0x446100312c1db3983c1deb5f54a516fda0ead29831e013a; 0xee52b78c4e5cd0e6f20db7fcb3a5e59cb3f70c2f1903cd73; 0xca821da63282146663e0a33f280e5587ef89c4e2c212b7e; 0x10ffb79fc7a3cdc952119ca8388869af323234d6524271aa8; 0x241cb8be00028e7bbeb3a3936c0507c5c89917016929f871; 0xd74dbbfb68548b8752980e9a3564f5cdce9c4f149700ed0f; 0x28463e496e0a0d1be25d44dedb47e8ea7265357ee9662d37; 0x402842414515cfc6e9b4b8231f08c87ff162d81290224b9b; 0x12afa1a757649e1037e3d5c3609939b080604adecf7ca26a4; 0x2354266cb298bcf332ed6ae1ea61b784e1ccb621513f6351; 0x3eda16c54584b4b98770e3751eb7802e5d6d43a82ea9fb23; 0x145306922c8413b0d9cdf22be8b1e907c849c310a06891fa4; 0xc9293375732344800240966abd27fa02b4f18b36c235a4f; 0xd41fda0b9d412bab82975d9b5d8bdc28ccb458aa7b456106; 0x40e7eb7d13824b4668ede1698da61b539a228681216df500; 0x5d26ded2e66536a7dce9d0058d2032c5f40c00bc90fe7a13; 0x35f1ba49f9b17dc78672a7ad37e38eff9eac958cfd953835; 0xf90182492fc2f097d9441aa4ec630f48a48e298fc7caf; 0x8c80f891ac41970f641b5cffccdb456a4bd80bd0b1f76ff6; 0x1efff14caee65701eba4c9aa4808ea0ca8ad06a0977d0f50c; 0x122ba66e2ca7cefab70940ec96a86b92a77c5cb39ac8aa683; 0x50f5e5a5f215dce510b2a4c9d1998751f25c93cc6f858a2d; 0xac2ba979e4d58d8c299f4ee691482df9f763bb55c229565; 0x2621c440ed1d862b54a4a5bbd941c527474826d70c5152ff; 0x5d4cc66282794346bf989aa71ffefc605bc91a1694407118; 0x1b3ea73ec254f55926d1e3764793fb68bf4bab4aba6ca5654; 0xc66a88b63f56ca355d0158b81d3976927cf8276f8f74cf35; 0x4705211508dcda07b49cfc69a6911d4d65f73b9a3020c078; 0x12edb9d201a69fb818554142e0767f9a7c77ef5b24620cd7; 0x3a931276b08d2a0077f4b4871d04cb9f3de96f4229bfe4fd; 0xa748d23977cec14ed521493781cef209489953f5a216616e; 0x3e26640721b801343a7b7307e8d1748935d0b6fc41e959bd; 0x6ef9ee3f2ad71198f22980af9adc6d44d2f6ab05566a816c; 0x22a8abe224d78f7504358f236b179e737ab215f54dd131e5; 0x9e3a8e866aebc013d3d0582ce77f417d90eb82ee1140235b; 0xd935897d26715e348d027effe06e1bb28f06bbbe95a5bff0; 0x1af279fd938f86cb93c92af03d3f2b29ea0581824003ece75; 0xd5200ea51f9a3087d5ab05ed0bd64abb430821dc4a1b231; 0x726aaa2bbceb3f8d2d7d2b4fc2758249b13dbe87ecde536e; 0x13e75ac496aed8ccafbce7db3ae9015c9edce58962b321b59; 0x63546ccf31a12c61d65fac1b80ab2c1f339002d48db30e25; 0x530f09d318a548a66389d48e53a2aecc5e39dc9114756eb4; 0xf30b696da8a020992ad163b362fffaf9391e88f1fd03c9; 0x8123cf3979f5a09b4007c622d59d228e8fe1514436cf1b78; 0x45fc4482bae011cbb8ad16497cce0482fc438343eabdbfe8; 0x46310226da7713fc8782010ed25d1d176641decbe41c13; 0xb923879eaf2fa9cdf0fe8c20eb8ec9de3151b2fe00951dc7; 0x1196a4f6867eca0f95d610fe14d6707259b31d4cb8ecf164; 0x118687f5e3492f5bcd16c4e6b974ef4867d544a7177ab6824; 0x2976ed4be44d9345f1eaa130433182af88b933d94ea7b228; 0x2dfac30c623826d5f26483544eb159a6f487300f2dff0b2b; 0x557a776ce3a20aa747935d47b40e36de08447b5bd355f2a; 0x27ae7c9288611c05ecc4e87bddb50a89923280b2f2756c86]
    [0x798374ef6a401dbf8129f8a0734d8852368c17f6790e1646; 0x985511ff16ea7a0e12d3b2c1cfa4c204d64d630b28f6593b; 0x6f3b5cab5a944bc25afa3a8e00f9a16b6f41d8705dfde; 0x679ebeb78eca784c29b35adb6f6ee1021a16c4872ab1e907; 0xc242843d6674eb3d286050ab77c32a1c7d00d9024ae7fbe; 0x6060959e7d3ef41c8e8c7f36b647d12086282db528446c5; 0x37399ec0394c01b2d97edd9b1255cd9c70366f4cbcaa67c; 0x3a60006088f351080da71de88ad66f1ff1f01f084763f8; 0xae12dd1f138fe59aac3be43deac557eb0c670f0b544489b3; 0x6b572d72367fd1531fe0a693850e65cc4473ffc435cc4482; 0x5b9d7cfae2ae8b5f8bc3b2e530257bb1c781c484b3d3a14d; 0xd4ead08ece9848921a1870eb3d3043f3e4dd5d10a5d69800; 0xdaf7289877141ca9e3b97f91b03bbbce1f40d78faacf8650; 0x480bd2d90ebcebb7a48fbd26431d638ff1ef88942fb786e8; 0xacef0025ac79cdd551c60df553a0d0465d949b62cac1fcf6; 0x5f07682b6adff84c2a4ffbe26e05b89db12a06c1fe35d68; 0x11c240bfc53cf3a757a086f2edbac9b35a6fdc425551e184; 0x74d50cbbf72f60d0e76736c790ac205ffb131b009db6bec9; 0x9f6d3865d744c7b6566489fef1b407f4caf5c40b91626d11; 0xb8f6657351d6f8898a59ccebfc510545c8d5bdaf71283858; 0x1500f0208c4c8dc02bd84c6f78afba96d9a789daee903d6d; 0xbc4d6f58d039fb8b6f1ee042b555c27943d1b686f9dc3a3; 0x6d7c160ec39b8cd48c849b3809f48ea294d35753a667e22d; 0x35042dbabbe8641d41feb6b3991a229df2f19193ff4b057; 0x6f4ab4746d615480ba4c18788390393de2a68267e30b9ad; 0x3f3be6ab086aedcac365a62436d35eacba66bd6200251d7d; 0x7ffb73069adddfc45a78fb68ac4327b6c2f6f67120ce1adf; 0x27f36427a0a3ee4aa590ea7879503436387b57be23a072d7; 0x62286c4f90c63c5281098b089f4049b8a01537a850083d7f; 0xa413900785a44b64d2f53f43b67148a2ec22eb5b5b0f60; 0x4bc0c22c326b7390d54ec81a47a355b7740d288f590c6665; 0xcc0711062921780184c9b55dae8eb6f50a3da1ad4eaca176; 0x4f8c80061e39a9744064344f9e264e10784fad95cf78f551; 0x12872b3018d69ebee0ef56add31a113db77746c8674f9ce8; 0x3bb3e7e3894d604f93668507d723d3704f98e73fdd4df1f7; 0x56424555c50d656ff9cc6f32e1e298f797177b0ab312c9c7; 0x7c59c4409dbb1fd41aa535abc0d3e8d59b210ff66c0bf575; 0x180cf1f5995d689dc2e91bc685ea0713107ece9fa3a996e9; 0x53a6a2f23978bf456c08bce9fa855d7fdedafb86aa52ffb8; 0xa38d4b9b7f2d64e6f43307d98941ea630a76216e62eea6a7; 0x4e9af4f4e832346a9a7b0ef362c94d4d9dc3925e2aaa01c; 0xa06ceb6605018e4f68d1ef93f8080658968b484c046b5301; 0xaf793fa0efacaac345bf5c8e878479b4beb203364aaf56af; 0x68d94a73c26c8d4c771f61b346e9ed58633542319f83ed64; 0x78b3551c18654ae824b51c23168a6354a41aa3415b234ec8; 0x6f57a94b1fdf16695510dea81c40829316975653b5e1c427; 0x9620a8e0d6baa33be6eb65add07a5072377f2a6461b27b85; 0xe426a9d6d221bb0dbbe052ce14c9286c7d5019efcf686740; 0xb959eb6a5768355edb327eb46d012a535bd868e9715d473; 0x4d4f8b40f6a2d6528bc8bf546856977389f51a0d3afc2aad; 0x60fb5c105756014b80954affcfa2943baa4e5ad539b64bbe; 0x6e50f74c9fad2526c3d280f091974668787d0317afd8b3b7; 0x24716308984487cfb5678ffa5f9c641724c249284dc4f8; 0x10054189d7780dd8d2906000ead0b403a90a64191d99aeae; 0x8a56f08b52c97b4e0ae32ad497fe17c05333572ed5b6805a; 0x8371b0b6180043944da1b0170aacfe46616ba162bb847b7; 0x9f60fdd501049476120e974e0323ee2172931613bf47da0; 0x199a61b309dbf06b505e3b9a98476c0f531893ebd1c565d7; 0x5a0578b2ee849af862dde0417951a065aa78050f3543cb70; 0x648ce91a565736d2cc22864537b1174357e54af617a1d167; 0x310b0872a55c6f74dae84b2d3855ddfb07dd5ade4ce1e282; 0x65966626dcea3293a2640375b645df14424163421fc51f8; 0x708f0a02a9600120426d501f9f02e06fd06e45475e6e5db8; 0x4ef4a5cceb19add15686befe62b42cc014abde772ef5b47f; 0xdb802d8f40ad002c0fbfc3136b99e07a8ca82bc961ca2bd1; 0x32217a11448d46b32b3d2318912c880c14375449fff5b5e7; 0x8e6f7862e98a92d0fd5cf03fcc941a94e52f5385cdf74f9d; 0xa6035acb2d96faafecc2e60e10612378693caa45054a0de9; 0x65dbcfed99bd051660d149dd5270a9c9f2670dcdb8b3c190; 0x59d33f8b2fc4d591812f87d9f6f1c92c12ecb31ab054c8a4; 0xa84032bb152aeb0eda0df1aba3ee0d0dd1f5006942d0ddee; 0x3e504003b6ee9fdd26c8fc76e9d7572ed103c00dabe5a59; 0xc0ff74e74bd8aa25d59587dae7f1e30f6748927bf42ee9db; 0x2f1793aa87ee908f63c13c3399dc8ea9670f1dabc0c86264; 0x10b4a7f8218cc6109f81b463172bf68d2e8fce4b48de5d16; 0x950473e7ea0074a9e30f3f4c7e1c3668f807055a540f9abe; 0x4597add5f316b8b965f405daba0700a1995de12f1805e697; 0x3cc0365a085f18e32461647bd12162db4b52805b85bf0aeb; 0x7536a508ed779bfeb4bf31be0991cb72f65b40d416de8e9b; 0xb359c102829bf1ae6339bfd0950323d3b6daaa5c51f5c9c4; 0xaba24d9130e181d5027f423f8aab3aaad05c16fd261630b6; 0x70de6addc5a09f984b21d682689812dc65b3c74198b4be4; 0xcea7656caccd171d7071f7551684d9c4f86fbf63fca672ef; 0x769c17afba58767dddab14000f6f446c8810331db89b28b1; 0x6f33942f929757bec2d4c3c484a0e45676d94820011208af; 0x275990f2b5fd7f4f9ca3fcedf45346623fc1bbb2cd1a4476; 0xb017fead58b4c69b41be10dff88b8b40bcd9d6e8a7a64ab; 0xaf258404f9f73f04a1e2f2b28f532240b140b5a0b27619c; 0x249fe28457f85ab18a89e107be6f3a270f8764496dcbecaf; 0xab44a1f4849ed48702ebd9bd7345ad88d0e2550d80ecf374; 0x6fecbc0edfccf51012429118907723f57f03af5656fb8b2d; 0x509d1c9265c6964c0277214ec613e468f640b30aaf2cd5ab; 0xf055e21cf5c63baa1d3ad6fb4f2c30c6761ae6e25e6c91; 0x3dc47bf4c18b85569f344d67a57534dadcea76bebff39334; 0x21075e2b338e5935075905d0ca04e240c2e9564057c111df; 0x11636ec33ec0835adb45d466f7c48bdadc8acc4eb8f30435; 0x73aee3f01c2d764c462a3f9235f09ee2233c0f1e46a4d51d; 0x6892394f8e06e8732d32748dae52e6fa3f6f1dd0d35f69ba; 0x1f2abf36769cadc2d3fb316d0a9627ff45379d6d2c934240; 0xa6e1b77e522bd77f4510e98f703b3ebe521674113fda219; 0x7ff709674e6d0d3791af1b2d647d6f00523ea077947cca24; 0x8a5e459ce3a7fd94e50c19177492163c0c13ee5deb4a5465; 0x7a777242ccb19a5ebd3a55ba4a00b7c0be00fe9615233653; 0x821be3b2f8e278cbf8bfa571af32a0806ec07e932fd931d3; 0xdf0949f843096fb2c37d23e6184ff1d24456b6b19cbf9d47; 0xa49489aedc8f222ec0b768270fbd0ce99da498d450b8e2e3; 0x166fe8bc48c63b1638028045e40fba524f4968f633947cb6; 0x1b317f68d21328528b0146db007e0b08e4602fe02980371b; 0xd54f147d1b26e6c42d4a9cc71c348c4419837647aac844; 0x8db720d8be52504735864ea6590f527f73f20e30e2948fac; 0x7d309c84ef1adb6f3bff063b8c77f3b4244802f96d430c16; 0x2f783538040010b22bd517c5dd04bb4137679e714bdce026; 0xe13696fc853e828e9c4096c42081a632726a97ccefcc5eb3; 0x19eff22c75fc3144fd7e86c583738314625bd83e9a119409; 0xda553a07de9cc046e4455cb94914c5c88266bc6a9c8765; 0x62a40346f24deb3de89097caac007995ecd93df04ca474b3; 0x4b6ac32226eaf554d8c27947a6d717fdb825fd6915f0c878; 0x25f78b57e2a1fe69f8310a8fb47c1b4f76d74a8b2c92eff; 0x78140e25408e5238ea7e68ba63a80582557db425e3722312; 0xd7184f9a4b12442657d8872d7dec93256a9e32d5bf552fca; 0x8507d9bbeb469fb0b6e96cbf07a05d57cf4f2c17bebeccfc; 0x6fda29c7377810583a404a5b2184de2ce86061d0b3f2a827; 0x1da225d282acadf6d63dbe2a7f193d68d3dbf08922a344e4; 0xcfeed1be7672725a62503b66af317cbf0c517daaae579d15; 0x6fda4367b38ada9e4857de1447dd6557277a35fb2eb5d239; 0x8adfcd79fb1a11234379832836ade583c5cbd5b7d9950f32; 0xa4ad611549b06318ab4ba9c686e4b5947d0a4e2886c1ece1; 0xa4e71d415450b4401854ba036879034b03ba321e179cf4b9; 0x70b81e070dfc73ed7354a793c3e04329a3878dcbfb059937; 0x104b2ab666e9339b1b668557ec19d958c70c00d77e602b97; 0x104db7cb5c57dc4954f2598bb564d81a6fb617c5214bfbce; 0x782677bea87058bf318f2056467d670ac8119a04332806ee; 0x2629553f55d6efa847002d062045b1f0106083f5b82af86a; 0x497e92d83745c7182d182f44d56d89ac42310a8752872443; 0x948fab9afa4149d8121f2994f84a72ff1a1959dff5da61f7; 0x24f0ec898c56f9e4696ec50e46fec5d08017d9c4831ed6d1]
    0xc444c088e5310f0b9de9791496fb319e70698f5bcfc4f4c8 0x87387cbe6d299df91f16594aa8d554fc82e0bb2eccb5ef99 0x9000fdcbf99f68a3fb5e37); [vm_compute; reflexivity|exact prime_288626509448065367648032903].
Qed.
Lemma prime_1693 : prime 1693.
Proof. apply (trial_prime _ (Z.to_nat 46)); [reflexivity|vm_compute; reflexivity]. Qed.
Lemma prime_46245989 : prime 0x2c1a865.
Proof.
  apply (check_ok 0x2c1a865 (fun k => zmul k 0x2c1a865) (fun k => zmul_ok k _) 0x69d 1 0x6ab4 2
    [0; 0; 0; 1; 0x11f39f3; 0x1dd685; 0xbf09ed; 0x7971a; 0x47b2a61; 0x185fb48; 0xb20a85; 0xb95f73; 0x1a4bb95; 0x412de]
    [0x1602b92; 0x194aba0; 0x2500889; 0x115dcde; 0x18f24ba; 0x192a2d6; 0x682b61; 0x85719d; 0xe20c40; 0xd9f0a; 0x1283c5b; 0x5703f0; 0x104a072; 0x48f65c; 0x1147ee; 0xe18127]
    0x453fd3 0x30ebc2 0xe3); [vm_compute; reflexivity|exact prime_1693].
Qed.
Lemma prime_7244839476697597 : prime 0x19bd24a37699fd.
Proof.
  apply (check_ok 0x19bd24a37699fd (fun k => zmul k 0x19bd24a37699fd) (fun k => zmul_ok k _) 0x2c1a865 1 0x9566c4c 2
    [0; 0; 0; 0; 0; 0x27c8c3; 0xa1908ac258449; 0x6b1b81413dd6d; 0xfed922211984c; 0xaea0a6dd13a60; 0x14f34e629b8841; 0x568820c96187; 0x135c90b6fca50; 0x4adb869a4f1d5; 0x3181e03861817; 0xa8b83801e7a33; 0x8e7d9fd0d1b5b; 0x3845d13c613; 0x8e12982ba60e7; 0xd050cb862b7d7; 0x11ccb1467a5164; 0x66274fa152a5b; 0x2788caccf690a; 0x4aea8139d4b3c; 0x23ccb27ccc0123; 0x2282ac2391ebb; 0x1993bf6c2ec5a]
    [0x18bf97cdf37ed1; 0x6ce4ac0a2c338; 0x11fc5febcef4ef; 0x17ffeb8ea9155d; 0x3ea119943c579; 0xfe5d9523e80; 0x55cb44a854ffe; 0x10a765d2bd00cb; 0x1a2aac1039ef0; 0xc6c56797de456; 0x1202e1134d3361; 0x72c7899095c0c; 0xe59cfdecf8b09; 0x13adc485bee09; 0x2b45aa4039b; 0x1597093f9643bb; 0xc74ffe9c2345d; 0x17ad93709b9581; 0x184e6d1e6b8bfe; 0x5d661b6ce93d3; 0x17e4371826806e; 0x17642a340867c; 0x349174604c1bb; 0x2f067a1b43f82; 0x241ce1abec216; 0x18672e99cbcc4d; 0x1399495c92b3a0; 0x4100402dd1895; 0xb61328fed2fd; 0x1516a301efaf7f; 0x2096623a023c9; 0x10d9689d174056; 0x5957dc2a500c3; 0xb060c80d37d24; 0x71942fb2764ed]
    0x612cfff5799f9 0x5f49abdb02d68 0x111731c); [vm_compute; reflexivity|exact prime_46245989].
Qed.
Lemma prime_9564682313913860059195669 : prime 0x7e966779a05e328ce6915.
Proof.
  apply (check_ok 0x7e966779a05e328ce6915 (fun k => zmul k 0x7e966779a05e328ce6915) (fun k => zmul_ok k _) 0x19bd24a37699fd 1 0x4eb0bfa4 2
    [0; 0; 0; 0; 0; 0; 0x40b6d0b5a7e73c6f21b; 0x57af78e0d033e0fde2cbc; 0x70b5e1be28966c38ac9b0; 0x3a486d1cf30b38ff85367; 0xecac3854f6061832e603; 0xde793c35ecf3d89b5; 0x27d9d995539f5d3f5485e; 0x45d647624f1a500a04c5c; 0x510cccad2b975017c6a19; 0x3f8da4f3444e19e3d5971; 0x70dd42d9a722965301112; 0xab14f17cb4cf5d2faea9; 0x300846c835072763824e5; 0x465502de3898d368a6d6a; 0x30d93077d223db94dff56; 0x1f534d5a3ea6abd0754c9; 0x69548b3b43566f240785b; 0x3a4c59aa07111bbeac73e; 0x79a6d3d202f669f6c64da; 0x118e5202453abe51c9621; 0x6052dc1aebd52da2324bc; 0x61e2b310784a1304a0985; 0x2442112503a9d75649ece; 0x1c70891f1f44637f336fc]
    [0x3223141f3ed99df6c7a73; 0x6306113222c3cf9ab2cc; 0x4e2eb023cdbcc0521a03; 0x2c1d98f8e56c9b177c4fe; 0x21b077b81a57d196c1f07; 0x172265f4c5cc6da912295; 0x23fc0b72d7343ddf5db; 0x43dd554ca809ef2ddac9f; 0x46b42130f5fce408025e1; 0x2b3dc3d84490f91a80569; 0x1da5ac941adbf37809d13; 0x59d3348acc20f3c01c4a8; 0x2d2a25ddcfd8e046d6dfd; 0x47f4c39bd0cddb8453d; 0x4d756993bbe8c28f2e198; 0x2e7ed3388623cec5fb138; 0x23b8ee7acdcb6f30d2a92; 0x4fd22408fdb29666c652e; 0x2803dc786b27678e5493; 0x42d6072cf9f29ed422e96; 0x3a6bdc4ef0059b2533f37; 0x1fce63f481f0c27c31e47; 0x2b33adfc4e7fbf4e5e7ea; 0x209d28e6aaec2740a1cd3; 0x485afec18fa9a4b1424da; 0x28acb09ce4f99eef80e64; 0x3a4b26e366e77a6fdd637; 0xaf7784229eab073e1978; 0x524665b232312b7538; 0x29c804e5b2f802bcfbdc6; 0x2037326083bfe8950486f; 0x40186190382c16ec6bd9c; 0x27f0d8cb9cb803a8933a1; 0x1e4c146e067251fd9deec; 0x348e5d00a680b6d5371d; 0x300db67ebae185f46f118; 0x6ce0e06675a807936b1af; 0x19864c46515e106b25a0e; 0x3fe9da907163dbe485f57; 0x303c272d971d3ce3ba444; 0x315d3b928aab1de655b27; 0x3ad01b09a3d41260fa289; 0x75bedc0ba05ce899acbbf; 0x166caf2d6a5fefdb95636; 0xdc2ac00f9f26dedf5d1a; 0x1e1bff7cd998c1b7c0a04; 0x47d54632d53282111b350; 0xe42d4796d119a28752d4; 0x88be7f46034eb2d2d62f; 0x3bcb96269b238b1d48bb2; 0x2c6051611cad2a00bb537; 0x26c7ff38290d670fceb9c; 0x1d402aa90a060111ede3c; 0x1130ac1488a0e34fa7559; 0xa36d6b764cee628f3b9b; 0x1b35918c4cfaa2c236a7c; 0x385db77b977acdf1d88fd; 0x665e99a3732fc2f775fc2; 0x2c1719b99666f7f8d410c; 0x2f5b5f76ed1f0c4ce4229; 0x162fb8ce0a8acd9646425; 0x45e17396e957bcccb8702; 0xe9b741b3b61195d1bff7; 0x6af6e5066842e795d3cbd; 0x16f0e68ca5e1d961cb7ed; 0x6f722bc3ef035769e131f; 0xcc26e894d3a182af2abb; 0x279b0d364a179ca5761ec; 0x10d2f6075948187d2c721; 0x17f0b1a58c636a61f063; 0x3b6cbc0108e8a911fca6; 0x33a9da10acbb06d90aeaf; 0x943480d6350f950d9972; 0x1be0ef6be9c3387fac6dd; 0x3ebc730a7681f5434e8b4; 0x79ab49220e1cb09e4d40a; 0xf1049e06daca3f5a372f; 0x7007f7cdb0531d6e43eb; 0x11af0b25132d8e3d8de70; 0x4cc8edf405741160e3d0; 0x6fb9c967df8bf77ec02b; 0x2764a2e9c371c7bcb963d]
    0x676f5a3cac0a82596c222 0x4118755d36df0553e9ffb 0); [vm_compute; reflexivity|exact prime_7244839476697597].
Qed.
Lemma prime_6277101735386680763835789423176059013767194773182842284081 : prime 0xffffffffffffffffffffffff99def836146bc9b1b4d22831.
Proof.
  apply (check_ok 0xffffffffffffffffffffffff99def836146bc9b1b4d22831 (fun k => zmul k 0xffffffffffffffffffffffff99def836146bc9b1b4d22831) (fun k => zmul_ok k _) 0x7e966779a05e328ce6915 1 0x205b685ad3f39e3790dea8813370 2
    [0; 0; 0; 0; 0; 0; 0; 0x40000000000000000; 0x517cacefd40b03448d2dd4b796f708522; 0x2e41940dfba4ac0c9a81a31a85a5ec49377d6651f07a5a6b; 0x71da1c6384a3c71966182fc601c333004fe88990be9ef5a2; 0x5a858bb109782ca0b507224d5c5c98831c21eaca9daaaa01; 0x17c6ebb6695c75df03a9991a550619e719c5e25d4713efb6; 0xa1fd9138afab93d17de28753ad158e196491429368f75227; 0x107b1ac9a18a1c0393779d2f6669d0182c7edae464e648ba0; 0x1b99303c0c3b90c084f6306c54ae2b41b723d35ad66e396e6; 0x886ac48482a0715556c8fc9dc03b028c2e8fdd68afdad063; 0x97b13304e9d60c8a4e05a90c934db1fe24b8e84d19974473; 0xa5e13852a2fe5124c562ec4f39c710199871b48344c1462; 0x3f304284dd8099c5e96f1b355bfec8fa19be1ee2f5df7b50; 0x172b3ae93468bab2ea9b9fc78830eeaa32f521129c3980b3; 0xc2f90cf774787f216723fbf857340ea14d21d13f6d7884c7; 0x5507713027a4c3ba0dadae03019133ff9a35dc04100f5afe; 0x435cfe26b0a12833d7b24b8f8ceb4ce7dbaa505f1a25cb5e; 0xbc25969c1d3620d4e30a5a036083cc3d3ca105917529237e; 0xcd48f33c5df0943fe85eac30162c5d4198a883a5ade16eda; 0xd9f2c8b8701f42329e9324ffbb00a90699d483a8b6c9c6bd; 0x620cd6f0cbd42b658e20bc425de74a03a4b65a4bae525176; 0x3ce84a48e65cd83c9c88ed0a738baf1a89f7d373c098a9f; 0xa90a986f1cca6456141b59d2299d55bb6c605b7f7897f6be; 0x87036b4fff6c7e92f40c2c81088bf72896c25354d0ec8c64; 0x1abceaea07bfb047ddb9dcea802809e143e7e22a24a2b9af; 0x1efd7021ee4d89e4a1db81e2ba16b88ea5f21dda9651e244; 0x88c57592b715f779aea92cfdb6fe194bc9b6a050b9369082; 0x20abb5023acfc080fb24fd37b3cc794ad3d797cd29b3802f; 0xc9e8d2c5a3b506f9bb9048e697ea2fc3da9be5ead71c3032; 0x17851ee2125ab0a5d2d8778c7341ba8ec4beef01ea280c5e5; 0xd7d087d385a15f3a8052dd6c85bbda0d6abf0584adf1853e; 0x2b687401b4f1a7f7cbd143c1269334e5728fd277ab00965; 0xaad245676e32397ce60e814e7bfa9e75d680e106745bbf71; 0x1e39f4a9e191d86346c144a587afba40ed50f7dd0d6fc4a88; 0x4d51b238a20754c1b1287a487fe04a1f20a22e2093448b; 0x548ee7aa63db4ca1ce09c4314820fbb474139aae23443fd0; 0x19e8aee11c964a7c1025ffda6900eb17f72e18d0f69462; 0x2f03af9ffc60db87985bec16f03fa18e1cf87b789ecb8c69; 0xac07f738e84d6acab49f3997e4896bfd29ba5889c984a77b; 0x343be038542aea7e43a504f723e149a042233816b9fb9f8; 0x2a56f8f6c0edbd0246b536da1dea742a92dd21596eab6a7; 0x4747cfff82233647f6de51164b9e44858c4eeb31c7bb453f; 0x3d2d5069c91d8c04ff85f700de223e26ab9165b3e23fe63; 0x312aed18c542322f2277dc104b83fbaf0821471b0c8e8fc7; 0x1c2e36151c13dea4dee11eb381b4d9d92b4406171b688bef; 0x33874e7290139920b742512d0d04caca5313e33ad7b48a91; 0xce50280d330db799475f6b715e551ceb9bde3069135adbfa; 0x6409192149a3afd786ca635a9aebf09e85be06486a14cb50; 0x14aef9902e0edcccde9a48e2cd03f2baa520f1f0be266c859; 0x53b946bf9a409e177b5aabf99f91ea1c20cae151897cae0; 0x68a10d5d4e5176a4f1b9f3fd38ffaeb1d4f28820f59f86bc; 0x4f98f31554a49832c38ef4155109836641d31c3b727dd34d; 0x1aacc340b620d34a8edb65093abff35a08c537c38a0d18d23; 0x3f287f0eb25f39692bad0c80cdb439252fe6573ff1f39ad9; 0x1f2cc939787eeec23ef4f7906d3d73076be082f858a922e5a; 0x10f9b64dfb39af62c0fe1c23bff53215937e0818e58995f2; 0x38777473607921435b9cdca17ca0336cc4268b0f773a26bf; 0x1e6a93dc45bd3af4eddbd65418a1a2ecf8fd533fcbe7431a5; 0x75303b12c80c204a2d6a65ee0a71300c606a3dbde1df6dda; 0xa4e68839c24f971797928f14134702c0a22b99920e642424; 0x33a9c0a8fee0ff7fa8c39842a9f66ff2bacf0733c854392; 0x15b72226b0f6542ae535957561de435719c3dfc31a20e1; 0x11edc2073966656c1f5d38f43520dc06f452b7263aa09271; 0x14adc6f4829a8e96c00dd4ea5e627781de4f057eb4287f55c; 0x1b0cdd47a1e05818936183387d2c5e404f983b425ba60de; 0x1d148627cc60ade6b25ec48f3fda25ebcbc0a0d63b8d38f2; 0x923cf1e8bd41739f29d0162077e6582e5b782fb6fc11625f; 0x4883f9f29e288a641832ea5a194d23ba16bf219635ef96a; 0x8a217e7e51d2aacbbf3a877fe684964577b6ad3298475010; 0x84f425fdef5109c394fcafa52e8f0e9d1145945968d39c35; 0x52cc2812e059d0d42117db675e058d53e0481fb966b32f94; 0x5cfb8803935e1a1d32211cb8e2f7cf9bd9c348424a4be0; 0x1b03bee4bce0e3632316224efe66bb5fcd10b7c5323c83a53; 0x2fb61f7cc24f29cb73ec350936f2aca50c6251b53a004eb; 0x1119e5edfc63fa91c7b596c0091bc0710bcaf5e27bf66e7a6; 0x60caf16ba5c3f62c8a2a78548a2bf062fb8f2aa7cd732588; 0xbc771ec5fb5e39959b0d8ad65cc0f4220d79261953a85db3; 0x4231824baca8d2367639e350f541a59081de070f1817754d; 0x2c132bd6a752b64d56fff68c91606b9858dc36cbfc95a1b8; 0x1aacf3900da689b0be4b95b54d51f7b973feaabfe74d4b57; 0x63de79fa273d7a269979b16fe002a484312c1f1940195d92; 0xf3233a5de2a4ea1e4983672169f8bdebec1fdfacd9aef4e0; 0x39c76c1ba65e74ecefbfe84f32957d0c6b1f510ca3532ada; 0x29ef011028d74aa92a983cb827c090ca697a19b71bee6c; 0x2bf07536447c36f9ebd3eba811c7d7514687c3a027c99c8; 0xf4bf2e8f7c739ca1b1aa2406f735233a28ec27db42c2a4dd; 0x7277e5fa3cbc64a49573cc9ffaed95b190e1019fddde1bca; 0x37aef54b121fe7bb6cd8874a16172978a02638449c73263f; 0x2374c029c93ba8e863b48eec783a6193fc8687dbd3b51ec0; 0x2a7f5076bcabc8206d9b161fb113d69a0d06e0a0a56aad1; 0x9d7da5f55caf5ada15be69448d86f2a89329b9c0341249cc; 0x11e0e7d4eee42a059f0157239643e0592a74b61523d59d0f; 0x1e2a0fc3daa20cf6656e222f7f4222ebe49239963cd8ef691; 0x2f3d796b517a7f66546f9deec2ba1ce174cdc0afff11501; 0x66b3fe57188c8ff2161bdbb976297807acdb9e8c3be9526; 0xf9f6269919c02b3054ad8825cc4bd66db862df4b2196ebf5; 0x130d661f52c1a906a3c58b62f58f969b4ad4b75e2015155b; 0x4c5639f0ac8e910041db9ff100dcfe38501c7a25230eb29; 0xd9d65d10aa5ab121f9aeb214f44415b3b71359e512bbd1ec; 0x606ab2462798d886ecf76adde9d4757651ac75f7135d96ea; 0x3a5560b2c58ceb893aa578a00308c972427adbb725149156; 0x8e36a2dba202b11a5febd6c016d5ff69bc8185e00a7493a8]
    [0xfbdb9976e657b89e1c6814af4b8fc2963a02a90fb3cff567; 0x87f4d34f0023f0b201706680659974869b15c6ddaec7b41d; 0xc15caa798e3077766464ab04ce7b1d30ed03ce2976040126; 0x9f6b1e7b70610b3604ab73ac4cd072028e52637506bb3207; 0x8a653e5d15b1a9b105ce7cb1e897895a6005a5d737019df8; 0x78483346b11b4c6239e71d43b67ef7bc8f1c2c7d7db72e08; 0x7d30c4f971a5cf69ddc15048dc4fb2257753ac5616028a; 0xa288371d5b6187e96fd72ade5c0a33452a4e33d8c52817f2; 0x604b25510018d6f0a28e9bcb8879b79855a044c8e76b849a; 0xb4d341a4aae529fe7b4dca83c15fc4c537ee542b38402c9e; 0xea428c45408c658443314e4950bf104b06ad8e0f9b7111fd; 0xac0ca29ce2e5fb1d984324ce387b4560ec30a3e42f2ca83d; 0x2c737c3a4fe1cba2135e52334166102756bef0669ad26be; 0xbbee7b553775cc3f86bd3b46ea17c2aa928cc759b3455636; 0x982c91d713d73da0f91ad8b31eb9f3eb6cb976c33ce86df; 0x706426f91868175ef2a2a30c60a001e99651a63c4a26d738; 0x847f64645ae132de6dd82f306a1785238ca0fffe3672d068; 0x1e7aa41a207fc7e8cbfe385189b0bf7837d4bc89e531173; 0xea7b9a30bd76f364095d016d2e87d5528a54b8acfc3807bf; 0x15b55f152ea852e4ebe8166c303438ce0d5cfd1f7d0f979f; 0x420d510be20fe22246ced36d4b190d3062691b54cd7a5cec; 0x730cc8101b750bd432123a18764159d2f007d357a87b0606; 0x72acb584921069ad602b9147ae244d9831355e2adf7ff07d; 0x203b5ab590363911fef1118b079b05d4ba8c5169f052a5c9; 0x25b4622b4482c3c66ae35c40b7bc6d29f8eeda1107359a; 0x3d12e45d37f37a3637aa568271b98e4ba811551760d7214c; 0x7bcb43f7b9b44035b235e5b4cf37c8f5a0af28a299036f8a; 0x6c32a01efe681951dd6fb65ed4824c3a7fb7f35ff9b57f31; 0x8417158a34e471b2e44efba686657d35036d15fcc9335781; 0xbd7d9746301c18cee459dd4d7aa5d1ec77e58996bce60b3f; 0x84e18eee38dc090bb1cef0c9f602df34addd6e30eb0f4617; 0x9069bae05e8fa8bb3e071e9d8fd8f139e2b5a1fdad60aac1; 0x285def19de1bfb49c313e91ec17da517dfbae9148ddab764; 0xf2cafe9fd797995a3b36de6ea2ea118baa5c4b81c72e4bc8; 0xb4716add3dd67a860619d7a2c0135dcc9cc10ee0f77ac6ae; 0xb4359d51c56aaaf0434c1a4c23ba89ddb464e9efe6a5287b; 0x6bcbcbf39d2897dd1c94f3f220a87995539a25eb3f6bee03; 0x3aeab7afb7eaedff4b344ac3ce3183f8aabef22795beee0; 0xade096cbade9539455dacb56f6dc3b45fa0037d9c8223246; 0xa8732e2bc896d19535ca29574b6654b1bc032a5ff1adf28; 0xc4db109976e39509fb09ee25150fed09a3a5e3cec9b34760; 0x49a8c8fe364a88e667d824dfe82a05c951d9db7f424e202d; 0x9b779b6e07cfaa41aeda2af064b064279b385f49faad74e; 0x90ee5f2479d7664c16c474056556469cf7e410feb4e1745; 0xb1f6ee53db150a628ebc37abc0174d6178ce1e6a7a4935b6; 0x4c63dcb044c8d374343d9f32c8a2556579decc3e1d988676; 0x1de43e9a98e801bd5851391989de41b88fd7ccad5f367fe3; 0xe4cd01d04daca59ec077fd0679479cd14c19a6ad1653a4e4; 0xee45e6e7408b928ee0933cceab09f6ae2c7b307b069b3891; 0x973025b23e658f7a38792e732748aa9056ee5ac26da9e1af; 0x673d4a58d5a964b6379254c0c89839495deccd2fac9cbce5; 0x11b2268626353fb0e91036a86071d425e7a0b9adb493000; 0x67f46f835e501edd80dcb97e1f91ba38b7321ea6ceace4e3; 0x4c8770711645c47891fe83a004eb19be7b4aa19fa1e49c2e; 0xe1850d877ef1eebab72ca511650f982f9737e08a46030904; 0x9ce607fb58737edeccb6a4e86980fde4dfcb72fffb3eaf8b; 0x28dbff0173e2e33c6281d3a95c53685fb203a48338853594; 0x815c084d82ff93ee1e65fa1a1ac9ffea0ed92a670bddbecd; 0x80635e21130b9e15c867334988c894c859f29b3ca71eb2c3; 0x2eacb2918cd20dc085d037e9d6ad161041053918ea5da8f; 0x175344d6ec7fffa1cc949e77d9409073a6382b2d88ab1f; 0x3e7ab762325c0fcf1d42fe79b1b42d4932b1d0a97a544ebe; 0x371ae03be61693a7c487ef328281035f4cece9ae79d2c933; 0x31f1c7a40c2458edaa5cd6d548531318bb2afc62b47d51; 0x24576a593dfefbf9b6f61e8803f5d97997aa48d128de066c; 0x1cedeadfb119518ad2832112076e8dd85be44a96e3e5cfd7; 0x4ea3b1518963189aef365c0303f451f0d6e13c47fb0fabc9; 0xf162b59f1be45d945da4a8c3e4dcec0b5e9e08466c57c1c0; 0xcc1cd7a2f7a800132e74bf6badb2e8a54b48d5a812a2f6df; 0x4c6380770420e7008d92135491d53c7b9601192317d9633e; 0x9c354913073e5a9952e69a00757cb14604ce46b097609889; 0x1736054cd0b2df45d39cca5c6d120123694bf60f310c2159; 0x7c794f32d1799ea30ce3d4fde6f01c6d6cb4e74311a0f3dd; 0x126542a25fa32b48e599202f1368b450cb0067a963f874b; 0xc7a0052f861ad4c595454ea7f810c28ddaf92cc7b4376599; 0x97a415e2a90a6fe2a73c30c6edd1f52b9e8df55b607cb215; 0x7cb7a7864d7b6bb85e010f35e331be04fbeda48a8158d5eb; 0xe9c2277759fdb13285ed745feb2051e19eff48c0aaa118cb; 0x3519c0492c00c3decd2f98750547d16621345a53cdacbc2; 0x58ae3599d1e893b2a2d0fcde01d115480b728698affc1147; 0x390da8ea486eff15773ace32d34bfdf687f25f0b7ad374; 0x13665bc89643d123ecef0715704882120c91737fe8dfbd24; 0x4f68580d465bb428f18a590d37a18422bed698952c2583d; 0x8b2274a9b8c6faf183eee4b1e5c4f9a122dbaacb7eda42a2; 0x8936fbbf14daa4f2f8e9d59b297a93fb26cbe23776d4ce16; 0x20ba4bde0746c1e223d60345c68402f983ffbc4338420e54; 0x21dd689f55645c96c032e7e1f868a962f91b7e9e32d24dcf; 0xe8f11c585859d00113b7760d3034565e8f3e8f15aac7f853; 0xd13b4e77a4c890e57dfb1c62571a0845c00ba1a243654dd; 0xe185c18e001a64f3818eb50361ed05a85813227c66346f53; 0x742d376386eb4673ebe48613a05dfdad12c248366979b591; 0x9e80254bb9e78febe3844eb15719ad9ff488463cde2f76d3; 0xe07ffe732c084c0d8a04c51ca91699a5fe84ef64abc42f17; 0x43a8b3cde7ae08dce7394d9eb1f03d617c857bdbe6027aa4; 0xde0834e0fb16bfc4175e51e861ffc4678e679dd0369bf3a; 0xc177cd92053bed78f3ade430db9b02d75595f6b9d464a1c6; 0xa7e1fde26f6c63cecf1bd02697bd0f7795f2abb9d97919f0; 0x3774c648ea6dee295290884a9897e95ae3139ae044df263d; 0x6355c7abd48048a0ddbc0e170b53ba95cc0552445e8012bd; 0x5c386e942d811011c51b1543ca3ca52314d3dcab98069bb4; 0x45b66cf2808fef5f10a090363687022123a1ac116e9992d9; 0x5f4295686ef2b472c7b29190fba6cb3e3d63d09b03e64; 0x2acc2db74e2fc32de25f7de9656918c8771800db5982d25e; 0xe3b54a33d338e0956515db8fcdddcdc80ae4c692e6bb1c23; 0x8893c15465000216b57913feb539976749a687e3d62e4f8; 0x74483e6afd843d3f7cd4e6f87c33cee8c83b38636ac21752; 0x4268d2e46bd31a7e206eff3e72ba336311b712b5ac9b6ee2; 0xe0f1318f6a2c32d78da3bc028b547cbb2d8ecca7147d6a80; 0x4ee21eaec2674212f415fc6752d71e4a484b2cb26a40363c; 0x23ce58ae8bbb7acaf408d5b6240ae73e565d012cd0790158; 0x39acd906e92613b28e4b56d1849852ae2738233057fd9c06; 0x983eb244099d8762b98ea5993753ef5c9c281316b5abc20a; 0xf4fdc34b55c12f2961c6279ea5dc9057a8b1f9c096ee46d1; 0x7051f82566f5aac0b2a551b83581e0fc7611d4ee2a1f06a6; 0xe7aa9d2aeda1ef68e89c47e68beb66375212f5afcfbffe9; 0x959242bb16cb4631a4e7745e190a3e1e1e07d942f5c18d18; 0x760bde675bc5fc6b190284f563adf0f83dc2569761c5d09; 0xabd68aa90e4d99684ddd652814252f64665b70cf315388fc; 0x791b1806acec6da35f8d0d66be451d8ac30c935945dbe457; 0x2910b2108e24476e7177472f50202607440b36a153ffd657; 0xbf205f4e119c10b93f38844cee1f27086b754828312f993d; 0x13eb4076c2b8f91291b19558d83ca1e49ba75ab999b9f0c; 0x7dbc0345709f0037f5385927c4cf8716dc5d905a654c1d70; 0xcd2e75273667b07fae0b9fa6c4df1fa5464ca8dccd373628]
    0x3b66a77074cee7b1bdae6e387e2aef1385a4bea537f312c9 0x3aeb2093edbd420270091715d699cf7bf7f61d36f6d82a3f 0x7f604066b898141c582d); [vm_compute; reflexivity|exact prime_9564682313913860059195669].
Qed.
Lemma good : good_curve (cp secp192r1) (ca secp192r1) (cb secp192r1).
Proof. split; [exact prime_6277101735386680763835789423207666416083908700390324961279|]. split; [reflexivity|]. vm_compute. discriminate. Qed.
Lemma order : ec_mul (cp secp192r1) (ca secp192r1) (cn secp192r1) (cg secp192r1) = None.
Proof.
  apply (order_ok 0xfffffffffffffffffffffffffffffffeffffffffffffffff (-3) 0x64210519e59c80e70fa7e9ab72243049feb8deecc146b9b1 mp mp_ok good (0x188da80eb03090f67cbf20eb43a18800f4ff0afd82ff1012, 0x7192b95ffc8da78631011ed6b24cdd573f977a11e794811)) with (l := [
Plus (0, 0, 0, 0);
Dbl (0x12111a86f713a566839b123ca392b2768f6fade78391ab32, -0x6101cbe73d370e99949ba4403cc87a9131c0563104e18db, 0x14668df836b4535f6c02de40323d8322c663557e260f2e8, -0xdb8f14bb58fb72bdb4f2cf689ee7a0702131f3fdba78b38);
Dbl (0xb0bd27515c1f205232129bb90c79ec5e56b59cb05c3acaba, -0x100491110efd0ce6f623c12f7d90601351c885d667f3c17bf, 0x7a04a1d2f2d6b653a6e967e1a7972547bc24a6d116b826a6, 0x726b613e16888614ceef16d00288ee643198f649f0a58231);
Dbl (0xc50acf255e74edd2e8f810a427403fab48ab3704697f4fb8, 0xd8bdd5251b3f9c2fb8ca7e82a724338ecffb2472e9234189, 0x97a9a34459e8cb5eb849e4c5bb03b81669d0c7dbf33ea312, 0x45552fd7dc10eca5e5be64e9639baf737daf668174962d2);
Dbl (0x96feb6093968b197547cfb125e4ad3660718019707760fd3, 0xa5f49ac8da026b42d1d863c2f32cb7ee47b0cf2ad8e92509, 0x590f7ac08b05b9d3b20d90e78e817b383519664975fa23b2, -0x4ff4b4f2b5fc8cd23b0b4ccfa4b07090c6268a302a73f0dd);
Minus (0, 0, 0, 0);
Dbl (0x4f9f0e0d42de647ee7f1b2b632405118cae953be89b0a332, -0xea43e39451b670787b70a453e8335134430ff9e0ae24f380, 0x18c38d7ea483c64757d6cdce52947d6823cb386a51d12a9c, -0x47ef25ab643e027a25d946469bd3c9c122149f9d7a56205);
Dbl (0x7ac2ff0ed4e36b901eceda112d6ae033ad4f175d33472c05, -0x16d7feb90d00cc81ad0ee3dd3542aa3f54230c961d6117fc9, 0x3ade6fa1b381f82d6dfe2eacf82fcceff11c5719cd38ed5f, -0x101ae349bc8ffb8ff9e74f5b6b7f14649714c4090ad7ae3c);
Plus (0x4121fab32a919a56adacb14aa7912b7f184c0792af9a7270, 0x349580362bdb31acc5d8eaa5c9b81362e88864611afbc0a4, 0x109245d193515672beadb26e6c56774bf059750e52d06d10, -0x64504c443a24ac5425c416e46eacf9e74c3d871110cf179);
Dbl (0xa00b002e85212ed48688ffb1e85e191731a787671df21726, -0x1fe8ca4d947a0644043f3ccd7b3be2a35fcd4fbbc8ff3768f, 0x640dc0b32a68f3d7cb9722baa421952c28bd442db506df94, 0x247355e7cf3652f08adc3233a09d207bc403416921c268ae);
Dbl (0x1e5cc35ead81aa4389faeba645357ab7ecd25b712404aba4, -0x130c4dc5c03fccec3d10c4a854988ce5ea750890f9c50b7cb, 0x399df6731d078719f166b2e40ca99309b5270c065858f3a, 0x189c19dd74e12a930a69ef0f7ccf09ad38f29fea83eac8f);
Dbl (0xb3d87a78bb79d145af97421c98b2523cf66ece8927daf25e, -0x3ede1a89b12dc79f878385f7d9f76412de4abb7bdf06a1ff, 0x7e587253bc8003d9001ba417a4161b85036fcd63260d3546, 0x4d861b82a5792a84b1d31e05e509713f1510730f46923688);
Dbl (0xf91c99d812c3d67d26eb03b31b6e16b3402c542112491b9f, 0x1c4579921ecd621bba3ac579356deb6e486a14794730663fd, 0xf268a67858390ee423515c4be1644e1341b06d89f4fb5aca, -0x84dd1787cd4bc20f4d8de499fc05afbd6f6f822849550069);
Dbl (0x27ad0094911c8eeebb1ac6dc048b50dff605cceefcad9a14, -0x19348ab48432cdf98faf79334a36457378b9f7bbfadbdde30, 0x6262b170d032a5e06f1abea29b17ea7b350bde023f7479f, 0xa22237a8f42a80cd4afbb601fd4657d43cd0e65df3f6647);
Plus (0x828e7cbc9e91f75b1e90f18908c024da271666ceabc59d52, 0x247f4ff6734101742a7a10944869dddae4f7bef0485987f5, 0x429505fe2f136dbda45d321b0dbcdc16e70621ac027f2c20, 0xd5ce5d314be95a6ab89b6d5789e9eb174b132b8bf46c0e2);
Dbl (0xb7ca236d3a2924b80dc2e020a65b5affd6baf81a16a1f456, 0x8671e68f77d1e42db34244aaf39009966d112f3505b98014, 0x83f29e42166da7eeea6c97b7910debbdb71da9ee95c828b4, -0x5451a70ec15532b93fd68ca99b94dbceb9c5be2ed85b7a8f);
Dbl (0xdb4b6d9236cc9237968a3291f78fb7ce27b810220b9cb5f8, -0x210da7e57de3a8a9ffea9938d57525039cf75b29ca4250237, 0xbbda23b18c53f43589b7b64193669b5dbfb72fab20060467, 0x74fe2d7f94780ba94ace80ed12f0572dd37517126feb91c9);
Plus (0x36926d7905180911f835f425c0bca193a3865cc0806213df, 0x10c38d67b62ddf6193ab0fafbf997b612e9fc7c29d7e8a6b, 0xba219f01b003aca35c1b38164ab47816886efcb2f1eaa65, -0xa69563f943a644cab9b051b5d7c4de7a425181c09a16557);
Dbl (0x1e56004a3aac801600dc34799727cf059edf3d0b0c8742c4, -0x77bbbe4609653695a12c75965adf9b700e834fae3b6de470, 0x39844f5979fef713028db3e96782bfdc5d38545cc309b68, 0x458b7d892bffb16f9e871fa779db6d8788634bf6f7b44e4);
Dbl (0xf6d06bc237bbb1cc0295758f4ee5d0a497862bb03ce6ca02, 0x1cf58d2600624d99ec999a47033020885f4a15f672f2f645, 0xedf538c88c1338a46bb7a42e33f1989c1b6956e36dc427af, -0x3e09a2aed214ae1862a133886e179116c1df84cdfb2a22b1);
Dbl (0x2a893d91e4f43e94d284c44204be986e4486dc019f6d823f, -0x7473ae1abda476d9f0ea8fec41fd255f13752b645d7b3a18, 0x71151c6d4160c355fa2abe9ea1f9e37ac1dac30d08bde8a, 0xb0f091879c5b400c1a7ab9f80b57e13bcba3a1dbb95f6a);
Dbl (0xfa7c49d8eabede5c2ab50004b87c984d64266f1e2b0d803b, 0x597f25e2d949740e7215e4ebc0e2031dee6f7d5d081aa6a0, 0xf516fc9349eda0e140dc2c13d85f0f4f564def439a58cba0, -0x52c02609c688b41112ba8e1e8e294bc56cf9cbacb1b545f0);
Plus (0xaf70491022a4c41dc7faa5ee8d81465d93833ac3831c90eb, 0x5e7d40f7acc7f65e30de4b71a83a803bfb28468c1bddf523, 0x783ab5241255c912a29958170dadc4be146584907a2a3cd3, -0xac73b37778901d7d8d08a6937a8c6d4c90050d4387fefc8);
Dbl (0x2975e2df6a40f31ba4655583c4e996805788b9ac88ae6e85, -0x1b8193dc1c31d6ea0440184422b16a1e75700a8daea97aebc, 0x6b6f8f4b94f27d2086aec3d0be00d8688fdaa478d4fe3ad, 0x14863c7cb140b2867cf03e7e27b3e32ca38d35e36adc5b98);
Dbl (0x2b64fe49a664100bf293dc1ef3daa40a5f129d71b836156e, -0x18109ad30b50e69fc26dd95d935fd0e5440b2e0ec3b3fd0f, 0x75b15446405d6ef6de1f7902829af55f21e7989b457d263, -0x10e874a8a21a410166923cded683d106294c349815497cd2);
Dbl (0x29a715e382429e28d3cafbbc9403f9a70538a0ef27dcc916, -0x13c9e9fbab6635e3ac4ed5e8a39cdb9d93370da18ebb82ac4, 0x6c6f210706c67229f7a409524978c25255213b62e03a285, -0x2b3fcf4633a06ffd7eea91b5222d7f2272dc7fded3e3cd9);
Plus (0xcdbbb1cd055c94b7ee211764ff387ca28d679cc1d21f1438, 0x59d553a91be17dccd68bb09ceb95c77e95efe0030bb06fc7, 0xa556245f9799410b742028f77b8c16ff44867969b9f1084e, -0x630b3d8a219cfb5769c43c2af0a98092b7e0c211e1ad782d);
Dbl (0xa2c8baa820ae1be63b6652ac8075ef8635610acdb30cdb4a, -0x1af3d5ded30f713ac96be2543c88b4659be0d05a4b8da9e98, 0x6782a9a0f8282942e4257a65a569dbda614fa8e99ed680ff, 0x424a342694f38514382e568ad02782f390d848b5021cc770);
Dbl (0xb336dfe00cb66497f71747a5add8dce24e64bd9b7b747f91, 0x2a4754053c4d87b01a8c8a316e4c634ef1dc8ed37cedbeb0, 0x7d75c8d6881487daf6b931d051573a4336b1f5ce1bc38aa9, -0x6086652e79e120c2641838e2669f32e940d3f270455a724d);
Minus (0x4d04a28d1d62d474001268fa42e1ee835c14e2fa97fddd7a, 0xefa4b355887e49996b4cc2a000647503f325b1a9d2471d2, 0x172bc9de5f4d45dee2cb75e2d656ef6dd0ba4038324e932c, -0x62e38dd9d48a19d37175c25ef41c958c100605f69c9e456);
Dbl (0xb213b93bd12f2dc559a01937712e6b5a7fe88da9e9047849, -0x17f9c2daedb5331d84901492d09111c61a9be35f97b8da1bb, 0x7bdf6f1c33ce2af782c256c39eda66eca98a76525cc131bb, 0x4b187d1bb4163fa33ce0e38cfee49a37a94e8a77eaa120db);
Dbl (0xd16ec891bc163fed9c9cd20d29b9b10740ce10eec3c0ab8a, -0xa3dda482de60fc213ab15393b9759c37c0731111e4d1b18f, 0xab56136eef7e005a493305727e1fa1d60772ea8b2ed2fb2b, 0x5e52b559f934ccd3a179360f4ea7ee3303827ff309638b7e);
Plus (0xb4c4b29eacd1e645c69ac105b9bb1c2c5be60dca3e92858c, -0x8dfd0ab244c5d32462b522e5cb26c32e9f69297b2b9d75b1, 0x7fa5325122a0d7e8661dbc3f89556f6d1434acdb9c9794cf, 0x9113f0de4ddbea814f399a1ed4d7e00e9fc302521f6808e8);
Dbl (0xdad4359f758ce5cc4091d7ededa31fec05ef6a83856d21a2, 0xd573d0206feb8de9882400756f473fa3a5f7bab5be1a9dfc, 0xbb0e1b3c6f8a12bc0a69735c4c1123dddc6925cfdd426e6d, -0xa13b4b3cc8da52492978f9f9ff42a059dbb2b5130dfac3a8);
Dbl (0x64c925d36d84f60dded21e94956cdd88c35c22bd473ac2e2, -0x195db31d75b6aba57aa066b26c3e218e3bd8c9626c3c5b1f4, 0x27adc3999928a74b5f0429b49fd06ddcf115ce05e6c0c874, 0x3ca66e02fcf0dfe8bbbb9b5ea02d2b9e1b3680081aa7763f);
Plus (0x4a7f675911a34450e0ae8c4e2692b3ec7fb3f6f481edbe6c, 0xb54f729bd159f6b958499be75bc4db74975aa0ab3768338, 0x15ade727324aaeab2fd98287e12be4c72c69cc478de4db2a, -0x42c9397af8a3e711e0d486ab228ca06823a80d8493214e80);
Dbl (0x80ccf498b9ce974d0b8e6f44a8747673d5f55b28205df5a1, -0x8ff12098d4182237bc10c3c12f4b99b4936e5b6f380e0d3, 0x40cd98af76ea35dd2af3a1306f3e639534e855c2f6d2db2c, -0x7199ba149224de522c9947e48d5d945c07433874a628944);
Dbl (0x66c9378e75378f8622fef8062ffe006f53834ee79fcf366f, 0x85d5ca65035818388267e8f5b5c61b037832f0b18066adbe, 0x2944f66dcf2add426380d31e617ace57abed225811b36d52, -0x498e436de57742e24960edf30d6adc9ea7a0729263152ae7);
Minus (0x875f77f580232c4f1d20c2f01344fad75048f214586ce0de, 0x1405da28d3ed983b55a609882692c9bb5f4f47bad9494154, 0x4795d41f2d905b658a17b9905adf638c2ec22d3301640172, -0x120038ada9e56582dfb8ffc6ff915f90a128a30065daf508);
Dbl (0x3511784e9fd977398ea2f0beb38f4b568d1086c0deb1b431, -0x259b05acbdce828711de118721a761d5de22bd3a7117b4e74, 0xb003d01c12b144156cee0f372f3719afb0cf12484293387, 0x2238b6a5be155f2ab91d45399233a4179fa3e21a8d225591);
Dbl (0xc4d2a5ee65679103a6ecb1dbe31ab906dd22e11f4f597190, -0x2ff0ba2f4e961dfe4aa3bae2bf0fcdb7bc02bf09182ab157, 0x97533b69b1f220afb74386f6e2ade4b979693c9a979efa55, 0x797a7de222ef4fdf834671b78e1d655363545847bf3b356);
Minus (0x8c9adeb004b3ccc69c05d8511b3236dc150f654bfdc7f209, -0x5dfe7a1a806dda7ccd1f7896d129270383083fea0fcd8ff1, 0x4d39c14132a01179e8123fffd8f540c99465ac388d1df282, 0x5d973a1c6b5e91e34e099d4e8393ef1214dd86121d5a10cb);
Dbl (0xb384a28884da7e2d5915d12f75cfc4de892425f3a53107bb, 0x46cae31193b1443fd17f5b6929558d506594bbf486546d98, 0x7de2c002edc39eb77e21e29042eb43b5f9fce537f660aa1a, -0x7cd603ecc0d91de982b657b652b9807b6e2b356ac7caafd2);
Dbl (0x22127b48fa7616c8b262f971ccb80b5a7b502c4b8eb73934, -0x2ba6ae310f2186894d181e3435b7546f04cb5053f9e6d6c10, 0x488ea14f429cc23d4f7e775c13636121b062c808902dd41, 0x170ed2041e9f9263e3a31a0ce087a93125c25b9176aad2a);
Dbl (0x62e459288c3cd41a444dc31fc9410af544390d2059a4c157, -0x25c53e47f154a29a9f9479f2d6065cc10ed94d9ac50982d80, 0x26339ff1faa596ac5664560c276df1ce8979f33cf791e402, 0x2dfb5eeb0916c0ea31cf0d1541b425b397f88b9433c597c6);
Plus (0x8357ce83a1dc4c7d029272bce056f687655189dbe8ee278c, -0x3d97694570c57def5e953a908bc773fd25cb14937ebc2492, 0x4362fb78bbb79631867feed46775f85d30d748632eb68098, 0x5f4b094c03e2dcfc05e1434bca1dcfff41fa7328ec69860f);
Dbl (0xed596b9cd902c9a00fbead60c5822646abd5f35083a5c7bb, -0x5bc06be4aaa5c5bee29283f48c49af6e875c5b5a04a36e0, 0xdc0eb07c6a1a8ac4165941af704cc01fb5e659e9c569753c, -0x7fb8899830c703bdfb9a50a9fca51c669c78ae9593aed8e4);
Dbl (0xbacc043fae788861974768d456fddbcb4c427ac0239bb0e, -0x2d498e5c4c79154e84cd7633cc66823008f1059df5d4917a0, 0x884d18c34f17439245db1d0b1f0a7e97c926c93ba11c09, 0x44ba9da9cc682adea4f193e424fdd311e9e345956e20f34);
Dbl (0x43e42733d1fac945001c767731cd943b9018ca89316dd368, -0xe4339c98209f0ad827359b54b03cefefced288920e5d6470, 0x120137dafa3820886071c28c8301f43d861810d91828826c, -0xfbc59605cbd1e40ca9240e33181901360ac2f9699b801c6);
Minus (0x31a2385e41dc681cc71264a3047aaa1b61ffe057bc8b05ac, 0x1d255066c8a73ea53de10f2881b9fa66f7484165a57ada33, 0x99f805f78eb1a53a4fbb4a9bc76bdbd9d5a715f938503b5, -0x5eec0d513e969e6576af295302f0ca80ec42c9df9693c5a);
Dbl (0x79c6bd4a896db339370d63536d3a10cb0f15f4542f2f9cb, -0x227b04c7d52aafde51e2543fa08496aac6c7c2abdbe0ee0af, 0x39ed7939d12d6dbd0a6081cd73d2bab1334fea850bd070, 0x17cea191ee495ab2061319d8ff2037c691cee8591aee39f);
Dbl (0x5d6e25153ac019496dce14c929c039da55a20efd199dc430, -0x10d8348bc68d7d3ee79fd1b851fae4b126985cd045f74fa08, 0x22193655504d34334d311398d16c9d59498f2a18cf8feb98, -0x6204e11100f306741426f369f4bf4362bfcb59a6641300b);
Minus (0xaccc862358c0508b0103c35331480b9ca2cee102c09ffa93, 0x3a5d5155a556bac2c872927558ff85c949646a49cbf3ce67, 0x74a377a58de0e485de92ff61c8dd22cef9beadc36af9c75c, 0x40e60ba0280580848c0fbb9341a45ef1edc7fcd62022985c);
Dbl (0xca3f463bdff8b16d7e35790050cd07941de590d8c09465d9, -0x165a3328104eb23011c1838681f8fb21769e9bb9603082a45, 0x9fc7ea7a223180e520ad6178797b8ef91ef9516780d1813a, -0x184503d8f70f49e24fa0849e3e9ee7401636be107eca8a6e);
Dbl (0x7429ebb1d6019e067d7e7d9aafcd8c6e13abe6b0856dc7b4, -0x2128824c155cee97fc6df19cc098e0d03c567aadefd2caf30, 0x34b6047681e7fe2b1911f7eda5cabdd3477902b936e98677, 0x43e0fc7929706955c0faa2026f20a88bc42256d730e0e525);
Dbl (0x9e80c6798957a98ae53f0e3497c7f1c58e22065bd4622352, 0xf4fdda8a56f6a237090d758cf6fd392a11ed70d6a483e084, 0x622335c518f1c717b6af25fcb5955afbf05d46f94a56171b, -0x53e6913b541eebcec577cd4e692e0c5e12928d512b4350e9);
Plus (0x5942a6f943f414ed37150121a8c70f5ad05e550a7f5c8b1b, 0x34fc7d57b42193da19f42325e3b16ef3971ac123095adedd, 0x1f1f6973d6aef73d889b062e71c534b9c1676682b9a5bb4f, 0x3fe9923622e8de6ef314cbec6a14ab2ee4ac664fd1aaae0);
Dbl (0x9aa8d763d5b49ba5d7d4ef64638ea294e7a1d1ae8eb152ef, -0xbea14be4606a5e044e5d6875ffbcadf2bd6c5ded79f6a790, 0x5d6f927f855ea0342ade74b8cd582648f82501b52a749ae9, 0x6a4c9805f74ce73a7e5cced78ea42b49d438f30803368396);
Dbl (0x8f728a68913fed6634fd11b6e5188ff13802fddeac8b0bd1, 0x37374e0da7e25c936a7bebaeb0f80983ee0c4657a5067d83, 0x506129e0623baf76e0867a3e7c0837d35de888fc7383ee8e, -0x6491089118908e6f3ac91f5e1997b68802fc293712cf8d9a);
Plus (0xa8ded1a5412ac6a19ad96a7fe7cd09aeb6eaec53f2610904, 0x6e1fded326aba79902d63a470df5902443dc3a77c685935e, 0x6f6535192bd469f9859498090a02dea87c2ad708d96172fe, -0x55298387b4ed6572717939ee79e99f8eee8a107aec877c47);
Dbl (0x928b9c7ac7639d3c52011665acba313beb05981f9b5f25a5, -0x1a8c5be1ede728d366cf777174fecd38b3dcd2c089fa57e04, 0x53e38a9f586803699ae9b1608c7b5e3af5ec102e4f7c1567, -0x1a9e18e6fc7dee677c730505001fa659080a3d0840c4921);
Dbl (0xd0fcdc4468ba99c788a7172922e24c911b3fb29ec7d3d985, -0xb37b5ddbf0ca84e551220b17af8f6fef28004b537f81f493, 0xaa9bdfb18e630f8b852d586e2b99de3f3ae8cda603b8bb3b, 0x7f04ccdbc6dfd2907499c49de65c94e1c70d81b2f2e99e11);
Dbl (0xae9e139fa430155af7bcf819ec08a6f16dd351772487d31a, 0xbc8c6238b27e90249f5a7924b8908d7055b049f204af8e39, 0x771b44493dc11e4e85425aafd7ba38919765cc6a39c8428a, -0x7e869e4ee5e52d5c47f2afe0823bd48a80ab6f58f2a213fa);
Minus (0xa3ee493b4fd7bc4a8af5adc2310e1037ccc86ded28da7546, 0x96db3bcbc7316c91844b52df6abf04aadf2792e8d892d299, 0x68f94f0dc6e8102ff74965b45b5891ff705d2746fb903de2, -0x4677e97ebd45258a05a161b72b698b4d0e8b1553f7638da8);
Dbl (0x5da7dcf761b79c5293ffedafd5bbbbdce60c96d5ffe1f5bb, -0x2936414c9515fe03287268e61041fca5fdf8749f44e1cd905, 0x2243649dc67b04233d8f487ac6c26b1ef7533104a2f45cae, 0x4b05df9bbd44c511c1f18b799b2ea045c7cfee8c8d4e0b8e);
Dbl (0xbe8f7c71bc797e67d33efc9cda2590ab610f2e4676f6d6de, 0x11a27712ee949e8f22ca6f2e627c6c4733e3cc3ad3b28b390, 0x8dd94d251753487af60856f5c83301226309f6faa8e9a2aa, -0x3541c8a1d3d1e9073c9264f24e94a392326a2fd899725f23);
Dbl (0xcab0bd40ca1c80f194fd80a8b646f6a08c4c26b0a78180e0, 0x8d7842fca4661bc83f9a3919e27270e037babd57a3ea47fd, 0xa07b64af03f39d824f83190dab472fbec783c255b00dbdcd, 0x2fdf25df01a66084c08967eab45b6e8c1d4dff3a473f1293);
Dbl (0xe37271813be86fb2e68fd4e484e527834711e5600844323f, 0x178a3e6e09466c1ccd866d34f2e753873b10e910681c52644, 0xca14287479aae93b6119e405515fdd94649864284d28869d, -0x85ef2376e90ac1b5da6d4e899ddb8c19a076fd52ec0333df);
Minus (0xe0bbdf3178f7cc7ff67fd897602fde9875c55051c8806128, 0x483f55a82ddce2158fb22eb5a706f59592ae2336dbfaca6e, 0xc5495076688f9a33f09e51d2a724a5951dec177b738dba8a, 0x4985267d1172afc789d5eb2ea6f9df24bec0b2c4856d802d);
Dbl (0xce23b22c9fbd0a35c322b631e7f5008bbe7fcc5b562e785f, -0x142bc9013ca9b0f2d2cc7c7332629609cd8c610b763d6af6f, 0xa5fd77ba054a00097f99dcd4586f3fb43eefd4009bd6a674, -0x109516788fefe560e51121352f1a3adacb1f20347d33dae);
Dbl (0x81c28f445fb83eb071bc42013e10b360ce9db7ca16df8b82, -0x17178651744bf0d7ad7fa42641755875fba259d76491b68ec, 0x41c5a8405c46379fa9c0cbc729968266e533ea65cab9bb26, 0x2241b2257227fa25cf13ac1bcd770560b5c99bbb341f3370);
Minus (0x795da94f6a46887cf9f21a9813e99779029d148e98cf8b62, 0x2f4a4fdd8d286c9663310065c808cbb3ca644088559a98a0, 0x3989ac518623d73932f032a56bf4b2102e93dc60ece22528, -0x47f6c43ca23c96dcd2714f82f93953037a5b656f37f82152);
Dbl (0x2de9b38386a37733ff1ff339235a1ef126a0a1b06987131d, -0x9c711caf49fc914ad4eec0dc9179c12f370f607b79de917d, 0x83bfe7480a1bf52ef25e2d4101293e63d29bdd760eb0130, -0x1361eebe68aa49cf44c390125426329861f38757909e203d);
Dbl (0xca726d90ff6caa1f48a176d88f4ceb810220bd2b654655f6, -0x10aadd02bf61d6390fc332688de6223ee09b5a096ad7469ec, 0xa018c80e971fc4e3c4732f711e03a51b7f30ea38ec2fff53, 0xb0f05c0a1ce501f0918896eb09c6e22e4b77d597c4a9cc5d);
Dbl (0xdff091407dbfd3cd5236905532934c9308f76c211c703e12, 0x605740c67cccd9db4e1fe2264ffc7a195ec29984d30d9f68, 0xc3e4ff1f066a195f41d29822368a320df1d5a195ac42383f, -0xa352d8f22d2a49816a2d5c4ea2345207d61178eb813fe1e2);
Plus (0x842da2a65142a98c459d7ac0bb30dce413293cc1b573abd3, 0x1099915500f02da9f756210326279b0072bb9df651565473, 0x443f17de199c3b2e1def8aa0210f5f7d2033eb076e302ce3, -0xe924178925bf9fb1e81ed51be248e55e23866e87a4303e5);
Dbl (0xd178d69675bc178ba4c0e3bf443b218825c93b917d1b1b26, -0x1160dbc67928ca36d06ce11efe155378153bce775ac37bbd8, 0xab66876b8d2b640cbbdbef839b63dda98bcd1aa98eed29a7, 0x48bdbb35720802d327b7760b7827790955dc823e6255e1f9);
Dbl (0x66a011d9e98274c2a0bc8086e4b15dcd79490b087ce2437f, 0x15555543a6b2d4cf307736be7d240cd4ca610c332882c246, 0x2923f24ff7b6829e1309a85ec3025a8f562c6ae820f20b57, -0xfbecfe5c345fa990f2e9337f6ac19c2a52ecfff4e23d30b);
Dbl (0xdc99fa3a8f186b0f5bd6ca694751119948b896113b0d664d, 0x5454d0877c1e2542b190e9c093a812b6c7b6ca81c0352fb3, 0xbe1902b1b4877013365bbee76d54f23ee6269faeb84feff8, 0x1912a8244cca909a8f99065346e701351d1facb8ea9e75c2);
Plus (0x371b781b2fdaf453ad248a1c3ebd25235a03772d7f72f5b3, -0x10196774df0d8b893f903e73ffc84a9d31497576754e018a, 0xbdcd08e3ca5acebe43c5601cd6008fa99ec5fe7f16b8c24, 0x3c9bab0352c0001e8bbc8a3696360f41392b069beb57f6b);
Dbl (0xa8901af76cf248089426abc199a5fee024b42635cd333417, -0x30d47e43e8d06cd6ab3b078209c86b4516f26e31933dbea8, 0x6efd7483182fc060ec9f7da8927709b8fdd979296047a0fe, 0x11a3e310ebc415553ffd4f49b49ac25d18f830e25bbb73);
Dbl (0xbb42beafceb8b9eb854fe4cf41d34b18fca48136a2f88876, -0x6ec0ce14492d332a42661765a532af8e487037bd6da28d1c, 0x88fa93fbb8b1e6746da90fde7409902d5bfb5bae8976b381, -0x5eb9238404b39e5a32a278a396af238af7eac2661cc5f94c);
Plus (0xc06b8f535d28c5403a4ef1b0c043eb414aa27083c0f5993e, 0x36444cec8e4c6e8003b9082a9d041526ec458bdc3c5c7057, 0x90a1842e2bab452e51db772011c647325daf3ac19bf2c965, -0x10ec1ef5c66f973ffd752292dffda43317d14a1b5ea5fe12);
Dbl (0xaa60a145da2a0e6bc5e4a54d3fcd95d7d95c58860815b6bf, -0x2d7360446fb037c52252c5c21f0f3dbef00a5cc6a9470462e, 0x71647aaa1fbc6a2a2e631381210f7aaa5175d21635ebd139, 0x23cab89bb7a489e3a1782be85bbf7eb2a8ba3165ada5b089);
Dbl (0x7cf2c9231cbe6baaaa4ffe3376b1fff14642960d52869138, -0x13f219c4c2bf2a9c28000257437d4e56b5abf1a5886a82f83, 0x3cfc191ae842f844c80522cbf733956dee30650ba2eb9b18, -0x1488a7ae2390028cb177e640c1ad327fd3b29f66c5c10e48);
Dbl (0xc1fe35bf6a2a62f7cf92351c7e084b8c3b1d56510cdb9390, -0x11d8a31b8d56603369ef51f18bb968df99f3162d5889deb63, 0x930149795133666b2efbc4ea783381d698e3ebb857172cdc, 0x9c7b1070ff6d291459a693f8a0c89616ba345b30cd8ab77c);
Dbl (0x7ade3dcc4ea71fe6fbf6f893e806f0be0868506c4f9b530a, 0x196aedb3a034f4fd6f23b10302b550279d06ba6ff07f7359, 0x3af893d5f83ab4cc947d9604c2a0aeedf8b27db502fc30ed, -0x1e36f05c41a9d012cc3434f29fecbfe31455131c05551942);
Dbl (0x43c9f01ed19f5a2ec3c9753e662b95b5f76692960ed71668, 0x1c15e89295a2228935a3b99ab6a6f84a431ca7935c331ce0, 0x11f352fb13586230ae014c39e60ecae43306674ef1e577e4, 0x27a50d877e4142d32d32f332e09daea10d0ace763f35949);
Minus (0xd2a1fe59670d6f7c1a3e89256953608f3ae8cbc6ef5d7274, -0x4e1f491f8dfbab45c3541cc931b12ef6becad010671ca72f, 0xad4e2bcc963b31854f35347299c2b5f180736a4de8d81bcd, 0x237a7d2fb043d4a99cc18fa8193a7796f8c5b76c1d334b45);
Dbl (0xb86736160e1132fbe8dd9b5c5142a0007bff12cf4d3500ad, 0x816ddd8c54be09aa613d1bfa93f9d7198d510a519b0401cd, 0x84d4875c45655af6d2b0ddec99cf5909cca1e297eeb4a6d5, -0x5920a2aa437c7346bd292d72ee2d3baf82daba7465978a73);
Dbl (0xa504935eb33a96543bfbb8fff1803685858699c1aef4c558, -0x1d87886b505d1ba6beeab8abfee6f54c65c043416024f3767, 0x6a5ee60d02d5047aad1a7ab91af4a260fd2e05f68dffed60, 0x53834931b50eb9bb441fc509970cfa8c02de8827e381c2f4);
Minus (0xceca52031f351a5ee414deb0ce5d511bc5fa9812c32758dd, -0x2e92364476787bcee7559e00399612a8edbfffb273365d6c, 0xa70a3be28d6cb64618c2d7119b893e39869857fd37c90f1f, -0x35456b762c86b4126772a2e5466e93441f36c532069bb1e2);
Dbl (0xf031581902e3cb6fe72ff1dad6773f27b4540a1d3d6e3a8a, 0x50e11d6668fda5add04a1ec5725e550220d61932e2b19689, 0xe15c8eb1bd4f6d13deb36a812f44c8a00ac15b60c9be433a, -0x22621626bc4b888ca9d3696297c340346bd8af5aa78de3bf);
Dbl (0xf25ea321f7e5371d641cb0836dd632b4a7b8e0fdeb2428a2, -0x8c5db35b0ff47bb55a85af01a77f55e1bb6f5c2c43712fb7, 0xe5770f686d93aeb7c82f8370d1fc9d42579b9fdc683a5de2, -0x61ffeef03d1f7bb6db34fd31cf9c899f8d5fd4f48ab83c92);
Dbl (0x920b767a4c4c81c9cd8bff1457b181fa497cc24ac9ac8656, -0x1a2f06ce398c758fccc10a0f99fca6053a34dcb773ecc23bf, 0x535113a6e45ecb60ad1a9abd3c060c8d3dc05843e7882666, 0x2ea26f5fb65957e9d2e4239182f9fb482ac86af56c104747);
Plus (0x9e73b3759801c5ae9e4bee524aad93ad1607672a4cb3fae1, -0x2695c167108d023572ae3c902a859b9bbc138c3dbee85439, 0x621305cfe1166a31ec9af02312c9e439b92a210bb5d22c8f, 0x637dac0f969d3a8b8c5f9066d8962d100920f8a163dff83b);
Dbl (0x7e94f9e89b80246ef5f67b0687c91a2aa68be55328a47568, -0x9486db8ec94df25a6492ef109b65afcd93e57f260bf68127, 0x3e96fcb2e1fc41e0d80155f2c9467afe5af23cde23e627b4, 0x3ec1b81803621952649a11fb653fbe0a591e45dcac079d01);
Dbl (0x99b018adccd2ff59fba5d0a1009d6bf6bbb8b14260b2a3b, 0xce7a5506a507f286da3d6248d822e9aa5b1ee876a89c95d, 0x5c43f6a1b02ee3beb3752b0bdcbcb0ba3c554f27d32fda, -0x6b1f4c56842fb30711735d3139fe51c6d17775605556536);
Dbl (0x77499cb11a2eaf854a07de0a26fa9cb132327853df337e99, -0x1027b0ea055459a8ae693576cb660709bbece56e5d4ab265a, 0x379584d76340a83c21fe359ea6cc56b0458bc20a1d366cec, -0x126b7395c41e54f6c4987c67d7815ada0a5aba07dc68f111);
Dbl (0xceb19be9a9e4e67d12d3d6a26c399ba4688618e11d17d202, -0x16368ecafe7ba2b62bffb04127a185a5cb8641155076e8c38, 0xa6e25225057e1a79e5c7ffd17f75f68609ebd8223b87a951, -0x25e3ed37a14138d1317800ac08d6415d9f6d66acb419530);
Dbl (0x716eb11e2c093700486543b8c420ecd710c6026d915a937, -0x26e6f8fa6c454839629237e787de74abc6dbd167a92f90424, 0x3242e8395358b6ec9bf2103952080166f518a6490c46d4, -0x7ce92e39a23f0101764a60b9a7ba9bab698933a709b530);
Minus (0xceeaf8fd17b47eee57d7ac3df2ebde20b09ba6c51d44993c, 0x2582a3f8e3a26b8810cf69be6180ee65adbd01db18039d6e, 0xa73f006373012a6533fa4ad7a419ee67954a48cf2f35c8c9, 0x9f22949440006fac62bc8ad5d04e13f66a4a789c8519db5b);
Dbl (0xd5c6fe791bfd0a83636f48fb58fecfee005d10127c635e22, -0x21c464492921c7fc36e686ea5d781050554d5d80843ace478, 0xb284be2428deebc07fd503717a05fcef0a904113bf74e9fa, 0x1445e3e6b3b18f5b0bda23e960d9718f3aba0867bc06c1e7);
Dbl (0xb913dacf5c1deab4faeba875b2345ed9663c686019bea372, -0x10f73b4d57c962a014a43285832cad01af18b36ced71c594f, 0x85cdb3c9e8f0ba8376c928ad59949bd5961f069730a41706, 0x61befd02ebdd653345b8044a68e5a7ad3f939fd516863606);
Dbl (0x9db30d3bd642fdcd2dbae3169963f8ae33c5503ccd471b0f, -0x4468c97097a533a4aef0cb2b20f28b3214b8f8c00834cca9, 0x61251b76e72aeebbdb0112f63ad351af3607ac530b4eae2a, 0x1af79fc199e3c39427f29d1299e3996054294be79e62a9f1);
Dbl (0xfe9833084d810265622049fa63ce74769bcf7f2ab12ad23, -0x53ae6e0dcc5511d4f59681aa4318a39c975f5594bca5eba, 0xfd325fc11dd4591a5d9801081e1ca66b692b7df83e1c0a, -0x36797c8caa96a30340bfe0f9e09371ddfa216f5c610d16);
Dbl (0xe8da06179c0e33026cb470c1a984f1f0d540566cefef69c7, -0x16864291401f2dd93debc8d3d8df2a29aaa28b9431c4b316, 0xd3cbe4b92b34a221593ac62b9db4c82e3766b282e6fbe772, -0xb1226fb51ad24dccb5ad863d21c169d1f9c179969646af19);
Minus (0x94ccb4b60636d445202d435c45c27688d995f9d7d33018cd, 0x8a74434044508db35c57146fbb1f50dc099010edbaa5ca3b, 0x567d54a2f8d9c6fc2bfd4340ed7bd27e359388d2ea48ab13, -0xc8d9458ab6070e7ac551f378594f298e00fda9771744ca9);
Dbl (0xc5b0007cb9547ec75768a1c98f4c030a3fe53a3108669bb4, -0x25f7639b0db592652f505e8dfd4bca461cea91e8160cd6c00, 0x98a859c0a0bb1c112ea5451ae6fc2c38dde211db44cc3e6a, 0x4f6e987cf24fd2852375bf340f284d8db9b1f7fb9e60e3b7);
Dbl (0xf84a3cdf751c0e7d2532d0f9572bbb1d1bcfcbb4ca89ce7f, 0x966090f4ad46fe87283856302a969d2de5844cf32bcc630f, 0xf0cfeb78328f923d3baa860c19ba967469885a27ed260eb4, -0x5e58c9d62e4b4fccc5c97446c3c9e39755574e305faf28dc);
Dbl (0x2c9bb1e0e599bb4f7e16ad4d2656e64eff8b91b1910009fe, -0x26b689ac8d17d16bcd5330db5b55c9ca320564e64a1e8ea98, 0x7c5e3d630dba39d559297ee0994c678b3eae4af4977f2a1, 0x274db94a4030425bc54a2641171b10d8cc4bfc95d9428464);
Dbl (0xe4922af44aa4ccdaad88dd937c7fb008a5a8a5c8aba3d9d2, 0x11f8e0a72e48c7df2fd831915cdcfbf1ff6ab67ae2eb74228, 0xcc14aff82acfc27ba1abad1cb006f00783007a196cf17066, -0x6eff7e4ef8dab6cb1e31d637dc356c950ff65c16d477886e);
Dbl (0x7623d4e9e6d31a8c3a152a8426a65fac2319f0b16f643e4f, -0x4f5475e03beb768cbd72b93fdd5570ad403aa9324bdc7523, 0x36850d4b89d3f6362841fa38fafcc62865836d54c16448bf, 0x11e9734be403bb2b1d1b686c18c1b6a71c562c604b40bd50);
Minus (0xdba6ad97b53c44d53f7ca182d26e00e8fb850b844ab1e629, 0x3ce39bf57d5c627af225209768a61a7e405711d4013a59cb, 0xbc769987268a8cc8e19d44dc83406f2111c56b12b3094ed2, -0x2f77b7aef5379b63c4ecc1e2651e4eb1e52114c23999dca5);
Dbl (0xc8abcbfd4c2e8d338c1a905da8adc99d44db82c0b642807, -0x5c077f6efcbdb342a98daa445ffe04dea44ef3da82ebcc8b, 0x9d4ce205edf83442ac653171e9bcb7ce96575794831c29, -0x5f2e6ba796ceddcff5e6cddd89febe2f27b802790bfe91e);
Dbl (0x1303541f0bbd61f6aba6470fbac1e1f9758292e2746d7da1, -0x22edee79b14d495b84e5851d14f450a3573d7a0e3246df5e7, 0x1697e87b01cc67309f42159af7549d76bbc895118a4f4b2, 0x428d545b4a5b507e1f871e57605103aefdebb648326a112);
Dbl (0xc8f2fec0e20c263ad11f00def2e1da8acf5c91b2485a6740, -0x9d627a99356f2326145ac28c73aebf3e28fd0cbfb6b67540, 0x9dbc94b40361ac9823a35340a9b3ace98b804a68b26785ec, 0x554b01678832d7e3f1685e0c806217c57103a96cc9a6a95c);
Dbl (0x1ae2509a303602479f387ebcdf008c27279e8c0b928bf631, -0x129397ceb5017b69cfe6ec712fc6d784f4a0054af2ba2d25, 0x2d2c071bb68d2d25e48676cd3e5edeef1e8c3a1ee24f467, 0x4ddcc53d182294189117216c3cca31f227186e6127874be);
Plus (0xdfb5b560e7d9465fbd8541ffaa793c12ee3ebeb1e4b59c8b, -0x1a7c831e2c1f6e3fe9070c0158037a066f18a8c421617aa2, 0xc37e12f8cf768e60420226a07b7995605996bcc1c772fc2d, -0x2522e29dfb2e988f34ab6fdfb7dd92f122f8d655956b7d6);
Dbl (0x9d1a1c4857aa28479b11418efd11b4d0f3d927987de52ab8, 0xc96a9f16009e87faab30f96b429275c8e61ddd48be2c6abd, 0x6069095a7d586b96a94a1497e4556922a75d6e453d5cbcf7, -0x38b10469cc008b698c8e987662e682c50e97e6278046786d);
Dbl (0x68b0c4b2ae848a4bd575bb5a43bfe2ddee1f71ab1df14495, -0x599b8140e714457ab035d04c392df74b778b6e1c22ebee74, 0x2ad019e03a9dbe8de0c20b0a10d9d62213d150d60df5c741, -0x1cf76cd35c0d2b8ddc014cb666a38900d09ec6e98a874ee7);
Minus (0x731cca142d068b891a9346da0a10beee62927a56152dfa14, 0x28248f9e6b25b9dd0e84d2b10e0596bbe150ca6017469271, 0x33c2e0caf461937119039a7501639b41817d4ae21156c057, -0x9b585f73a47374af24ea10288d99a2a92709874fff46ada);
Dbl (0x9b7eb5254b3652b4a908b839e78239ddcf258a4c97be66be, -0xb1d131c29673ffe0d328ab69cc77e72431b9465e37a869bb, 0x5e72ae11f9f79369d34732e782595fc65f1313a5ac8a59e4, 0x35cef48677c9f9fb7f1b67f9ba7d3486d79d3b2fa9388963);
Dbl (0x845f397eae8a0dbd770574f4e379a6205caeb2cef0a99c5b, -0x1557ebd440214529861d61a571d0855c6813fab34858591, 0x447256b65ced910b565fd14b4e96fd2588497a6c4a261343, 0x1224fffbe63de5011b55e5197b9c7b4d0f45ba08a3f038b3);
Plus (0x5c48fce999cb6f611ef9b1dc3601c96189f7626cbecaf630, 0x25e1a42a3eed2407ae4f935d6fb624320f87867a9be8b35, 0x21448a9723cd766e48e1a4dc36e1eb3ba805922660655971, 0xbaa83a8827e9f4e0b495689dc03e09c891c9e8d8e21ab4b);
Dbl (0x96d5b2626e22c83d1f19c079faa9b5ee8f112596153e4cf2, 0xd192eb07a19a917c72c866a6271bdb621b3bddca4fca2ec5, 0x58df1f6dad290f89b6a025432fb0f104990c520825e8593c, -0x71972d7ac24eb7665ea31325b811bd2bcc668b351183dba0);
Dbl (0xc466bf3431a88c8cb296286a29fc2a7ea27d9b9265f6bfd3, -0x2726cb1b2c0ad6fa7622930651cea67c04beefbccf8163c37, 0x96ad7e04d870964529693df604647d016eb0a7cb6e46e2a4, 0x82fa36d6acb2434adda8143f1dc4a346ed170eeb8c63c205);
Minus (0xdb14821160d3e7481a7c12feb6997cdf4cbb671fb69a04a2, -0x1d0998c7d80a1035bf3905b74a900f313cbdadb2650a2087, 0xbb7c182e50775656b83dfb3971a845cb9a8202f6620e6f83, 0x2232a7a951e4ad277ef2e930030015e8714c3567f54a1563);
Dbl (0x456168d3271e864951f42793d458339b8a1a5de076a4d9dc, 0x2fce0fe5b4af1fc56d43b699ca916dfdb81ac5e4ca0120d8, 0x12cda7926e0657779924f85d3db840f47cb45bab96f9e12a, -0x309189ad479f6a609c597de9b223deef57b6bc2194fdb0f);
Dbl (0x18aa72faf7c79cc1257656a475f0b4f0ca5f44d8407ffbcd, -0x3c6ba22ff0611eb3b517266e4e2bba0862ccedff9abdba45, 0x260670bf76afd3710d8ec264364086bfe2f3ddcbb77adfc, 0x994157406823fa71961774a045ec1deed15ca105486a24);
Dbl (0xcca26ac835e1fe2e3e3cd157aa8422bbb37cbcfa55f52763, 0x917b214a0644c0232a3e60b12a08832b0dd6e226da7248d4, 0xa393413a67cec852c8aa812836887a38ff861693d2952c0b, -0x8768f0f66299150c9ef94d8cd7cd1c4fc6fe0886b2bc42cf);
Dbl (0x2119a0f0d838c1fc46e90db98caea122e5d33a28aca53b9c, -0x298470012b1b1f6d8e847920aa45e384424cc292449fbbbb7, 0x4479e0eebf6cdf60114d4a5f3aad40ec0f0066ed875d23c, 0x1e9054a23a137e20d2d1da5385bf0a74ace2de7282f6d459);
Dbl (0xd6cd8a72789a40a3c9cf12e3087c7fb2567aac4bdb943cbf, 0x12d7b7a26bdbc3946a6ca22610bd157ca4d661ab542036cd7, 0xb43c487e67d6a8534b9a8a36312890c6e053331a655a2b73, -0xbe284e7554c32c3117d1de1497fb697e1376eef854cb0cc2);
Dbl (0x221c68c0391d7d118f0867dd31b0a254591bffd3c94f58ae, -0x27dfe5cd51e9917ee5de01021366822c93f9503bebc8b4cbf, 0x48b8efa24151269b46d89123f5b9af68836a07ff9fec48c, 0x66143184c613fd63fca16e9ae5180d9e6e721b97a64905f);
Dbl (0xab918dfebe225325002b6727fa69701044b357279189286a, -0x1013d785ec39799bb6724c02a58d43a3c7a50fd7c052d970b, 0x72fbc6747b57d8e5470ee49b86aac0701fa047a670eb3284, 0x467ba39c8da8666ebd4be4a81a194cdcc5e5f4e15b766b52);
Dbl (0xf0ac9164d1d0159d95b31e9a610cbdc61a861276f0129254, 0xa028da578c294beeac1efae801b67f53c14e3287abd74b7d, 0xe24404f0bb737586d373d532e25a0e19bcb91755a5946ba6, -0x16994ecad7eee8e34d616870b7c405f4efb7ea72a47321fe);
Dbl (0x48cec463253b807a6a40fac5590a26439dc4f2c981dc7be3, -0xc10d04beee7e88cdf5e1efde60446e122972b61601bbee3, 0x14b4f5786b295b708ef29ffc218f8e112a38ffec135f6aa5, -0x7e2dec1a8ec49952647215a8876f07da8b7c63938ab21c7);
Dbl (0xbb67d55f706e7c2a07cfa68c7ccffa7a39f6dd2c4e4e3e0, -0xbab679f9a5325069408f54a413775ee3ce578d132dfae8b7, 0x8930dbd6d2e5d6f9cf3a9aee51d4d1e7290e733a6d3d29, -0xd795750a4b5a1de8ec00642c3811dd0b8b3b7f3b7ee1ed);
Dbl (0x4a64015ce429cb4ce337947f7c1cef0c661f62988978d32b, -0xf971b628e182c0fede788ffd6d944f141b78667dbf502c18, 0x159df7dac47c45ac6468d7432b443b29ef19121b17a81737, 0x240b35cb51307818df5e0bb672c91024ddaa262e9e37c44d);
Dbl (0xd93ce03a2805ac2063bdc62e05f5ec8ef37a0a65197e8e8d, 0x11ed9920fcf584ff44d3096b942a0d3e78034faf08e625e55, 0xb858429c778233b7ae52ee1284a6cb133dcd714e509f73a4, -0x325548df023fb790a4497cba051c54fce3abf5fc7279fb8c);
Dbl (0x9fac2c429b8d29ff58b153824d72d32812e3c4c6b86e8c0f, 0x33c9cebbeacc8337dee1ceb28838cbe5f9e2146f67d6d866, 0x639752c63e6156a8b90920dd4302c5f7b4c3253fe9ac2c9d, 0x26bbec9926bd73fa72a47b80b806369805f992894426030a);
Dbl (0xff32d975a55e032fd0d66c02befe77674dacc4dd9114d61d, 0x140ffdd510d1517cfb336d0c0bc96d09d6bbaa2c5a0de0e59, 0xfe6657520a1e8b7c74e10b520b08dc1ba65e4a80681f75b7, -0x7336eb72af27fc23fdddb46955511450289a1b3380d345);
Dbl (0xf4bd45816cc515a502b616677e1baa060dc5b612bc2786e6, 0x468b141f342f99b5f571da4bcf0515716a850c167dfb18e1, 0xe9f9586e6b5152558d52c152ccdf9b31aecfd2f6cca1f5a4, -0x3fcc66ccff06806502c30744dc5347c96f9bdba15ff18161);
Dbl (0xf23399770c082763f7c3f1441420ebaf986edcb0c3661340, 0xf48a350b3e588b372cba29e0184d9204b97c9ef761ab6fbd, 0xe525988b942db976a17e0d434145677594a051e5895e2d41, -0x61a33fce7098be27b801bd328ad626dd9c2bf9379a3331d5);
Dbl (0x837f2cb0fac6f2d39ff94e488b65a25d86a60243c0ee9729, -0x1842308b30130588b6fab67970395754b1cffb947818b61a2, 0x438b66ea800dbe77ae61ae556e7c129ce91e44538e28743b, -0x1bcce45c873ea5778dc7c4528d2e93b71394ee5bfcc77b60);
Dbl (0x62d7a95bf120f764b41b65a763e83e0bb75b325c3f36ae3b, -0x2d34f158971aee9501db3910163b1b0c43fde6614426d931b, 0x2629d3584d16c82b7c3d6d4782b4fdeba57c6bd40d403990, 0x32c13451baebd4d36a1a9db8fddde8af9455c0cdd198a82c);
Dbl (0xfaa9cda949bd5967078385ca731eb126663f21bc700db7b5, 0xffc82c97718de38181d38ef2e42d5985727518481e84e366, 0xf570164fd2c1bea8f721621081b3b96281be26333c168719, -0x2367273d848b6bc98d411aae0ef8628b081c1cab3f59b406);
Dbl (0x4f219941539ba16e9f0aafcba37d2b2bd954111684ce9f7d, -0x93c33f31c6dd8d8546eab3783726a78a3bfbf5470f4f526f, 0x1875c0ff3030c25d7bfa16d327d7ee865ac6a24826ae5b14, 0x683b1670e738e3f85679a31da6e428cbadb285eb37ad130);
Dbl (0x1e1aa685eea8e85ff58d1dd1921d25a319542aa3e5b9d93f, -0x9e67bd1c2ada38b69074a3df2761c10ca591482db08a79e6, 0x38a41cda376085a98675953919005ae40c11caf1c5c4cc4, 0x3e980ca212f3e5d15c686f30b9fbf75b70f3f7f8c9f7f0e);
Dbl (0x19884708fd1bc672fdf70e1f311b2f62dbdddc587308b61d, -0x4662420f90b38d2a8a57266680659ee24bfaa11c2f7bc5f6, 0x28be66b4eb256fb83d83092c213a3dbc7f9ceca98350ae8, -0xf106984c1d47c9d1479e5110191706959beff4baf6e98e4);
Dbl (0xb10a40998100ec2b368377ccad5faea15905f868bac523bb, -0x2049c9c1f3d44b2be4f152544b3911ec5e62283e19a36744e, 0x7a6f2dbd60ae77321ef3e2dbaf9796d65735938c70fcd9ae, 0x1dd8a0bc416445d2eeb24d29a36d8101200742c36ce9137c);
Dbl (0xf4793e1d0fe1974f1e8d7e50f9efe42946a33bfea11d0a57, -0x261e44401304e8b985fc2d29e22672ddd2a07ed03c31745e, 0xe97757d32cd122adba6b6bcbd2521f226b9f611eded7e3b6, -0x2803ede8c1e4b5fc99289c66a2dd0b2de5e21b855614e157);
Dbl (0x16d601e0ec994f6441fca20b9cf93fe93899a8238f8d5a2e, -0x2b2f8f8c6bd7d6671cd68f2e3f7cbd222d43cbd32b89fd0e8, 0x2097b39ccb9716e108a7c6135e4a5fc3e0f66eb758367c5, 0xf9df0204e27be18256b2d73abde6b4eda9ac9ad7a2eedb4);
Dbl (0xfd49ff61adcd662f32561e21eda3c8cbcff475ff9aea6f59, 0x11c12f40e536bf639a8daccb6ecd130f78be59ac75f0b32f8, 0xfa9b582ab600d8a1eda1a3a08ec256e4fb1325d22b1c6af7, -0x86c32c04acad73ddc2e18702331f5b61d3ffecf147b0e923);
Dbl (0x9188ef647aaf8413f1bae9787ac62661d056866d2dc7ef8c, -0x11752467ce0fdcfbfdf2f76806ae6f0eb865d3cda8d2c3ae7, 0x52bc686f0d99f29eb98ec23b3edb7c4a5da57a1b1683d95d, 0x2678cdb0214671b43e0837fbaa4c1c4553eddb6422393c20);
Dbl (0x5b2dc9307b997325d36e94904fe1780d97d78a2302137444, -0xe72db0635d517910ff0050b5458f3f2b77dcc322abe42ce0, 0x20799538d107b714eba65752f276b2a86998c7c1cbaa1511, 0x32325c50e1f7026f9f4d58859f1d8f44c35ab261fa35b300);
Dbl (0xd40f85af378bf6226e9dfcf82e18ab0bcf1192bef06ba27e, 0xb91c1d5edf62eb23e60efb99766b81c0c981225ad48d5c68, 0xafa9b65b2457d9b44a665bca17da30e17eb62e75f47f2625, -0x34d89e77edf53f64e07aaa5f14a73d2bb479bc65f7df11d2);
Dbl (0xc2d590761ff75454c77165f1b550375ebd9f2d787dadda7e, 0x3cef116075b89f94275c754dc6652ff331f062616b594c78, 0x9448611cbe8927da8e3ab51dc9ed44aede9b201b45019fbe, -0x678a4e078d070cc5d35dfb2de7f06deca2d5335a88947676);
Dbl (0xb3da1a492cb97bc0baeb386cc8d02dc0436c92b644605d9d, -0x7fdf963babeffa23b228d00d28295a5652bd6369d7466e63, 0x7e5aba931bde80f6805f4c54f4573171fbe628e092e38723, 0x196750c3d43c2694b7d43cab3a6d3408c63ef1786a690f85);
Dbl (0xbd335be28856a3eb5c192ec29da18b1846fdeb964546b3e2, -0xd7caa06ff226a11e79fd5f01614dbd6aec62658c1dc6de67, 0x8bd4dffa3a8d15f16fe2cb991ef273b3759846ca41d5104e, 0x4e3274678fb87e2306a6d4bc3f6be03fb3de2d4fc6cdb7fe);
Dbl (0xad4a0b8bd0a8e08ef5cb6fe01cc9c3c3cfc38dcecf8fe8f8, 0x3a44e8dd1b0a8aee32f452deed2cf3ad1435f84cb74ac79, 0x754d2905a55e316dcf9e0f7fcb09c5dd85a1f9f95078bbb0, -0x7d88a4c496d908240702b6d4aba7d67d892b5c0b04bb0fef);
Dbl (0x346caf881245656539d8a3a1a1eefe2a223e088cc5893321, -0x2c01ae9ad910483f6265ed03b89b107427d9c88f015c0f81b, 0xabc5573da96ed0cf892c6f96ceb3d7efca5d2ef4154c6de, 0x14f814f321fe3a1077d54fc1d424099ecb69512199d02f9a);
Dbl (0xcb83b9f6950eab12ddb0bf76b31de0be3d044a09221a2cd4, -0xb7fce8cc01aa24b5b8cdbbaa5d6da113f374e54249a4e8e8, 0xa1ca2cb4e9d8214503215330d6686dc6ef9ad1c88877a856, -0x1e2088aadd21fa1dd5cd299bda11bcf287f8640301856933);
Dbl (0x4515a3f128bc1d788a3e7e253dda9cb2bd66c028bb67fe03, -0x13b8694f288bdc43ad7f62a0033249134cf06f545971bc7d7, 0x12a4ac344e8313cd167eaeb19b640881f311149c436d93b4, -0xa4d610b3f85b569f4a1dcd0607c755d03a9738d0447843c);
Dbl (0x3e0a0ab51281fe17cc375246f9a06aa5139adfffe0592d5, -0x22f7394afcc7b5ca68eac85b25c0f4b856bfdde5e8d498c0e, 0xf08dd948b8f0ec0b5c873855003ead4e15916ff411341, -0x569a14a861aff025fa6660664591991a58cbb289f52172);
Dbl (0x15b5db9ca39c274f5ce5ca1f65dc57d35fcaf7112a79aa0e, -0x29ab03d026e487267a146417c9e281f61b5a8d3a440df48e3, 0x1d75737fabc59079598fb12560b5ce2d05bcc9a2f60d81e, 0x2e7599ebae12fae6ab2f1374c1993d48012d69067e45c1);
Dbl (0x4bae8aa5c2a089b73013101658686ac66dc6596044565bb8, -0x23809b8eaae1df0f96d4f3c10556e465609755c8bbd3b1227, 0x165fbc3de475c416169340b59006c1602f9396c148de381b, 0x2267e93a3b1fbe15a770535cf52d0d8def9926dc8b8764ae);
Dbl (0xfd6eaf2d9f4c06046f979d840806c76021be4c4c0447c879, -0x8dc2cd6d8a83aa87abfc0a560ae60175706df3b86ea9fe32, 0xfae3f61b2ff09125447547cfef60fc4abc4bbef5192098d7, 0x3e641de51d1463cf72c56843ea433f080ca9575016ba43ae);
Dbl (0x233d7283867b47a11bf5a8b6acf50db2a5d87f1bb059a892, -0x9e64d40309d1f0d4dbdb84600110d08417ca671be30b67f, 0x4d9dc0fbcad33aee50895585427991c76913d62fd4fdb00, -0x12cc11beabb2733a2ea02ccbffed3e5ccf1dd453d5847581);
Dbl (0xe6e40250088a9879bab9cdeec7d4a5962ab206680907c971, -0x1558ee2c98f6c5374c11381e6cc884474ba51af2794c2ce35, 0xd03e7f3beded9a01d5a4a08fd578317d723fc11b56336eb6, 0x86983f208732aba4148fc4dc5775f9d586a822d7b4f6cf98);
Dbl (0xe23ec8e525e719303630b96d30832d92968c6c307d0871da, 0x24f7858f71d498103759b0148f4a6325cbaaaf20e2d6c990, 0xc7f2ea1a83913cbf3f7349d21697ca5983b14475d5f69024, -0x60efd52aeafe569dbd30e0a14efd7096073ad24ab9d2fcbf);
Dbl (0x9d5adf313562da845ff6ee4c3965d79b639a3c9c146c7f57, -0x4a16481a08f9c57f3265d6936c42a9ab0571646674d3c3b1, 0x60b896040cab8dffb674b46cd34abadba35bee786b74f209, 0x6f027b05764732789973c946f8301ef14462a57fb7a4af0);
Dbl (0xda7e0092ad50f97b10429a7a3736546b49ece6a1655b147f, -0x1a1a84852fb9ed9d089137a0d4fe6c20d98c0d4c13881755, 0xba7ad6fe5f90d8a552888bd3f653e3dd7483e4e667cf8d52, 0x5fd81e018dc2904f9495e56e431628d75473bd8b72156289);
Dbl (0xb2d86afbbab977bd829aefb10574259fec4e09bc0a063b74, 0x134ce14c84cd263b03c624cdefef178a458c644a8ea56c968, 0x7cf1abbac52a71a6e077a0eaba50f9e9105c0c728972892f, -0x376a636863a5f8685a0a62b0d3a6bf01aa1f93bcbd24bf5c);
Dbl (0x11cb887793ce45ccf97cb8bff0eb767a977bccddd476b6d, -0x94111b8bd88805829124e1afde75408320b109c0cf6a508e, 0x13ca9f19805134dd57b7458c415f117e9a9ab5d9326bf, 0x21e2cb53266889c33a9ccbe271e5b77a7c63037a685298);
Dbl (0xcaf6b7bde4726eda0df165446c57995d2fdb718f1b072c2f, 0xe38f9fb6bf723eefa4529f4cea961f37bfc68f5b3b697791, 0xa0ea47bd5158ac53e0633641a2bc5566eafa7374f486f1a0, -0x231979680421f83b130ee3fd785716b8849e090b2d6868);
Dbl (0x21886622aedf79dfbc3959e40a73d2252ec12f9bff4aa892, -0x165959f4e26e1f39028627123081fe85540bf1c626816b04, 0x46473019eaf12ea2c2dfc49b187b5b83af57f2b3abcf976, 0xa398376e9797f73f07c822663b96a57e818aa0b77a52086);
Dbl (0xc6e782f4e6406e24c2579276b129f1bee3c82d9b0fc1c5c7, 0x205fa44ebccc0825b4ca864b2633156a26fc1f8bcc182a27, 0x9a8aeff06d20d6c8ccbd522ea2ea7d177a9659e6a084a57f, -0x91e74769265329209694c0a72733216ff4e5624a459cf56c);
Dbl (0xcfaa2c2915b1b277da94849579fb4c758c0f3f831c17f3c7, -0xa58bfca64a5b4cb32314e568ae33a43160f732632008a1c5, 0xa874a4891f4454abe4c57bd0d2f3c46b17a487e7a24609c7, 0x209d86ae94cc0b647b9ea77603d245a54837e289e5d7da5b);
Dbl (0x51b96ca5ccf80bfe9a152f81bfbd0d42fb3042e665be1e66, -0xa8f5e0b093795d5f65c057a7e655181b46a5411358dffdd3, 0x1a16dd0f2173866b9976a65847ada3e11a93c5b63eacff0a, -0x1d0f640de4e99f8449a75c244cde08feb1fb540c88a02ec2);
Dbl (0xda6287045e82817b38fe12bc6bc26e9413ef8cccf25cd93e, -0x24c5da0407cbc2e2ccfb487cb3d74fc0ee18047451cb56fbf, 0xba4bf3df17843c31baf076033ffad7494a8b196d62ea1468, 0xc0d143ca86d0ed773dbda2af1560888402a8a97b15d1069c);
Dbl (0x8fc22944701e22395e6f7356afb2a000c0dbe5a3a79ed24c, 0xdb2051ca75c783cc98898beac836c5b50c20b0b12706f54d, 0x50ba7d5d07a2961d5e8693fdc279d4cbe4a199bb8874160c, -0x5ecc35756c242d1f2bffb1f028227b76efbcb9228e6e2038);
Dbl (0x3c0a4e357cd749fa4658227da164240928ec40c1f6de461e, -0x16cd5f47a50b591c780e4b2de2b0433475a277332688b433b, 0xe14d51346974ebf37a1384436e29d5461e8b45a55325797, -0x1c4d859acc83c2cdd3f3cd7869f4852e464ba131acf5902);
Dbl (0x3b9f1dff678bdebc69cec677664436cde6dda4f7a5957c9e, -0x17262887cfd8db0338a6e26b88eef8c05be8fdd9bfa3e5a90, 0xde2baba0080f4aea9cf035073e5857607fb4d52e1e86b91, 0x1813ab463dd24c2bd6a6870b4ece832dcdbc1758ea0b88b3);
Dbl (0xce1deda29a6f442dc2070932943cc76173dbfaa782a1a35b, 0x50268fbeab430a0fdb6d492deca4fb3ef31a40571469f6d2, 0xa5f42df163f88828ecda59f3533dc18f2935ae4a6ba179a0, -0x2ab5090b058fee2e8a5ffbea3e06e2a6dc6e4f716a67b8bb);
Dbl (0x6f46ea63dd6839ea4a89b71c2b8786c79a80cadcb2f9fd9b, -0xe6ffd0bc57a4567c885be1c84911e3381b8c94b7f1695f60, 0x305e92e79f382ef060be6a019a92f60581c675bcbe98a05e, -0x88d5c073370bb3b00630e5e295962cb7123a995942ff911);
Dbl (0xf77375de3d5ab3fdc09e8c2f865b1c8767907ffcceb9a24, -0x131c209e214c792e32ae6f36ebb712911a2153ca50e9babc8, 0xef300185f6550bd4c037790aa1d8ef536294c7c8af7dff, -0x4d5038acbdea710253237ea803cf3ff66aa115fbaa13afe);
Dbl (0xff8bb580862c0708d265300657ba07e4a75107bc58a2963b, -0x1f5a479df27ea44b76256ca6e589d1769f82bee97aded73fe, 0xff179fd4a58c6813eb05b0d3ec3c9b0261cc64ad3e62c7ca, 0xa1ca995fdc59b87e9e8c410bcb6128614247bbcc196eaa84);
Dbl (0x778074f31ecdb74613dcb4ddf5243186e1eaadb9cf45961, -0x44b25b1b1f9ed47628c2696d41c1584a000ae21949024bae, 0x37c8ad2f2f2f48e858e15a2866de1b376e0cdebc45e3c8, 0x23c46d1c141e900ff47a3720be7c7eff54d3a2731d4afff);
Dbl (0xb8f5cad347f7f8d61e7a074d5ffb501a957b5033852d7903, 0x14db75dc8246ada0789ac012363d2d29596e0f64dd78cad24, 0x85a23f8d908e524921575558e8b72cdd4a6d312ff47c19d4, -0x27676d828a9873eaa811bc59346479d7025aa00897d09365);
Dbl (0x9c4e37624fe015af3b2eb9151911d613a682cd400b4ee5f4, -0x5b9676676746d08f57381cb425a1e072245630542575708, 0x5f6f6b659d3d2b0e50b6f929fdba685a2e4e99fb27ffa41b, 0x225bde8b9ff382e55604844164843dc2616a7bed4a6dec41);
Dbl (0xbf9bdc635a326cb07f0cb4089e712fecdefa25379de19a06, 0x14e189ad58ead4416fc2e48cbc3370e8458344368bf935d58, 0x8f69f1c0dea160d488e5b741b48ac5ff2e154f59e1019934, -0x7ea18906de687c72c169bd3de9c9e16cb25629682dd27df1);
Dbl (0x231499bbcda3dd3b0c69a382dc010481c4c365081172f0b8, -0x156a307492830b1e37835b04d728a4c83d5cf2ea7406be967, 0x4cea3b1bbe4f5aca7a47585c6a3f2fdc05bae3b49307693, 0x13955bd2d79f16473096aef9c4652242c7ee0f56faf0d4d6);
Dbl (0x2743f267470bd30da3a3e1b6213f38dd15383c8f61b11408, 0x171f536e641f45b5085f5d5556811d7a3ef9cd4491936de0, 0x605c5e43f3c367b3b40c4868a0315980800f06b4800da25, -0x7fe09406efc16d057139c763227c6cf4e2436a346c56b5e);
Dbl (0x99eae1eeab8e34e6b29bb9560f513e8586f17c7c4ea2e51d, 0x509fea1a699cefe65efde95e47bc7952e899c7da2f83e2ae, 0x5c8a999118c70347df9bd4cc7271b702d2915a4a8f5761a5, -0x20d8c43b7b5b2220ee64bf0578d0a79d44e0d29d597f7317);
Dbl (0x4a477dde532720a8f81dff1d388ec176056302933309105a, -0xa8a9e756313bca840d7a1aeb3bf416ccc898238bff70f88f, 0x158d68bb97479cde55ef04a48e9aa10fe5da8053f44945c0, -0x83974da14fbd95fd859e95b6d59d4ee0f8a1d7479963bd1);
Dbl (0x2ce220b1e9749acc11fcf798e945d963afdcb2b1bfa749a4, -0x10a56d5a1a0af9f3d486d36086e9bb6b7cbf8c09c96763493, 0x7de82fae68d3d1945554155f7296e17eacb1e1edaf52518, 0x9cf04c4064fecae3a4e8604981550033fea491edd6ee8e0);
Dbl (0x42971af7d83f5942ed2d9679dc45519da3b5710f8e7fa7f6, -0x440795dd59cc85f20ee0a7f31bd280189153e85773d910a3, 0x115243189eb90ca1ae4a1aff482bfc8751999b749f1d939f, 0x1985a032ba97ccf25a44e9082a38be324c054820a0bc32c1);
Dbl (0xdc467df92077a4cbcf7198047b5f0de89f9fa83cac0b4f2b, 0xe842c1fe7a2af240d3e5184bf87122ca1fdf17a1541bf47e, 0xbd893bed5208a0d16fcc6d92e359f6bfa1a15c1360470e09, -0x9da7bdaa5c3639c7f6496480965a7ec670d6515730030697);
Dbl (0x9d46630f067934f8da667d739babde0d84a66ab7c7ae5aa5, -0x1787f285f9518ca522415f462a1748b2ef11ea503f66c4ce9, 0x609f68dac07cd525b54fbbe00da55bb3170c81bddee2516b, -0x1cda82c6d565b5c672c8f63882e01309665280630bba0a0b);
Dbl (0x111584857a6ed271a67ac460fe799577d5f672036c5452c1, -0x28ac4a2607fc94317c40851ada4c0f7fd9b21186a8d9d5cbf, 0x123dd68bcc2b9fc597b4c8c8920b545426b19c6b5f1e97f, 0x67f398d086b692b7aa04262a6972914ee9cf7150fa9ed77);
Dbl (0x9798a18ee9e096e75587cb7b0c468e24cb12d288e0e2042f, -0x4b2ebe494f7a14b3fc724b1badd5a35e14e68f88164585d9, 0x59c56996d791beace23cbd3e02ab18bb97dd865fccb69caf, 0xb5c301dc714a4b173c974e6671a9699def1c5f60f915e10);
Dbl (0xcc75baab557e006c2169235aa7f9e3a9e866b2374b64f4a6, -0xa57e289d02ec46e3ed4cb36fd01fa8d5bec8b0a725abafe7, 0xa34bd7a538fa60bf2394b5c06f09a71a4382623202d3d0e0, 0x50988ad86353efbb8de3fa7e2ccf17c25917784256a8b0a1);
Dbl (0xd3b3b6cfab354b717ab89fa436c4a3dffd9724738ac14b60, 0xee05b2d1c72663db10d8b35be95faabfee8bac340d0f0bad, 0xaf11bd837d2f36caaaf38f3cd8a78c7e7bde0a7cfcb38157, -0x55526f82622171b6bfb1538388c274b2dbb082c5b524deb5);
Dbl (0xd0728d237ee62806ee74128deffe033a4b5e2c6d0276d132, 0xb7d02a99630f1264a55d56e56b6fb5ef1558b8ab4b7920ac, 0xa9ba589bafa324bc6396f06b0204d63113c42205497b34e6, -0x1086210831a4878808e1cb73eccf33805ef9da0cecebb81e);
Dbl (0xe14dd37f23b4ef407d2d46e9ba377855085d05f9080040c, -0xe366ac47834074e8dff3e0229d136bc8e7379939b924ba1b, 0xc649e56e65fa5b67fdb98d854c450ecbd56428c6c9f079, 0x34dc48f5d57b577bd7bc1ff1088e0c0f4f85cda1b74e37a);
Dbl (0xa45c1f3fb97fdd8b823725cba36d177757fb4c7d3608620d, -0x48d873df9b60b1b96fb91bd944147d32c1a5ec6fd3e713e, 0x698629301f49a68bc61d2254b8663a7abf0857955e56c03c, -0x6896fbd15af35b9362a01782c55c7e9593ce7b148cde396f);
Dbl (0x8c2e719cfaff52cbc4a59678f7ed20c99aa09fc60e3dac5a, -0x1eff9f9bb7750d8287144aba1f02c238f426d9788330e6a18, 0x4cc2d4b0b95d6c28e4ac40644416fb53a9913003bfa92932, 0x91df7ad44cb8ca1bc19400d91b02a7abd1980a94abbe509);
Dbl (0x7bd78adc33a4748306cefaef2b6749cd54353e4664728003, -0x271de53b304555150b1d2d4020a81ccd7c55046f759a68865, 0x3be8d4ea22d0eb47b750c967dd5780afcff656d8ee5e0148, 0x25a13d87c693ca4bbf1c276c89a53f0dce67e2ba53af4cfe);
Dbl (0x59ea3cb1db0679f4a0dd3178da95920a25356f1a9a8648ee, -0x8db50ab47579ea55011661fc26ea04706f33d340e8a94e60, 0x1f94b486add2c2deae93454516c5cf65c26e85c694a1b8ea, -0x1dddc412d60b9cb6ba9d309f695f0e3e3673a310a1d4ac76);
Dbl (0x16652e624ebc91126610fe585f9faa5a7a29901400ce944e, -0x27c60e240f97b62abe5bd7668b4da6d78e852fad6a42c7513, 0x1f58bf6878203c5c6c89730be03802fc1173192fbbd87c9, 0xc90a88c8e08b23a9902aa5e9148a7630fe7dbc98885c535);
Dbl (0xdf46df5830c6f3abb3f2a1b904e861881cb971c97345f129, -0x4855501f7e4720d9e72a4eec5e943c442ca002e6aae93396, 0xc2bc8cba8c100cae93fefdfb6d4fd1818496c2a7168b4bee, 0x391b2bd84be8f7cf56d8c0b1d0c354ad20c4c952a4972db8);
Dbl (0x44291ff34cd10a34e7499cf60f555552411adc53bff8f17f, 0x77a26fde43ab34cab16450e08f7922b5280f098397f88a8a, 0x1225df9480ba7c36ec302a2afcd759e5c9bf84bdac6daec0, -0x369b252efe75385f829c2daacbabab8e59d0695753a6f99c);
Dbl (0x1e815ec8b035dde0532453f37ca260166f21f3ecdb051566, -0x24cd67d1ee1b4671bd030b2725f57c0ae0c1782625eac930c, 0x3a29397b2a635058bf5d64454851abbfa47e7e251daed0d, 0x8b2a71ae22fa1565169a21d1f6e3392d4807a19071c7cd7);
Dbl (0x16178fe5e8ee6bb41f0db5b8a7549fe00f01a2c0843afe7f, -0x127046069f60d4f90b71a54d49c9ce858ca8d5567942718b4, 0x1e80ee6b03b7e0f3a84dbe62bfeab88de561e33cd08c153, 0xa9b325af23726ace303170ab00015680c59083f84529b62);
Dbl (0x1eb19ecdf041a225a2990a75a24b872216835842cfff8322, 0xc161fb1b8ef6af284e9605f335dc0dbd8162d4af260123d, 0x3ae1c753f9876feb8e5fbe9a967417dfea6830490dcb161, -0x794e2dfabace233a441f16eaa52d227367bdf6489e3c7c5);
Dbl (0x5d78688d0d298c7e8a9c21cb1049716e8dc06c6ca530bb0c, -0x4b97c3f7b7ae38fef694c9fd4c71d743a8d34fa17bc2db40, 0x2220b498aa7f6f70e9f035f3eb5dbfc95e3aed21cc1bf482, -0x29c5c24b109b8d547e74f59a1027bcb5f95619ddf1e2b721);
Dbl (0x97fc284a4d1a3e2ae76d7418f27cca2fb2aceecfcd4596c4, -0xf908a0b01eb21f5c839ac378b8cc2af7fb513b210f99e14b, 0x5a3b6fe6ff940ea9df4ce3a87dc32fc2388c386e81035e1e, 0x25a996aa2a93696563461a5a165957405d5c06e85d382f7e);
Dbl (0xae5ec94715a28f79b301ee7117ce85dd665df2677af6aabc, -0x4c7e79539b088cd5581d6722f22b45b36d2217e2e6ce004f, 0x76c4fcb50fdd92211402d8eb08b8232871b34114e9d27939, 0x65299d7010d16c6ce9551e15dc8d892ae6f7c3128f9b5a6e);
Dbl (0x76befc610b948575927485497aa78a82dd0ab6e33d9ce63b, 0x1bd5e7a615edca893249793aee7836ce55fdcd896466725a, 0x37149f250f894f14ab5b84e6a8f4e9e5f30cb94b1916277c, -0x5c6581983e02b88af577417c545f4659c84b9cb33e73ed06);
Dbl (0x6c94b26f393fc7c5eec58b05ee25f12bd382a67deb3aef96, -0x1d47da09314494bf014b7a3da1083afcde1de40da5cea183c, 0x2e0dcceca546de3d623eb63f9812fd10d54fe0fa84b42d25, 0x40edb4324b0708021404d080a6265daa4d0e2abae1487f80);
Dbl (0xbce8367ca9f45327021c5e52d2cbffa34df8b57ac5a9e496, 0x9a51c867629509491e4299e7dc55adcf77cfaee13fda08fc, 0x8b65e2a9e72bb9602a66ff9abd27ce4f35671e071bd8239d, 0x5f15ebbd2c4350e307738f6a447af9a2bc0e8baeb47917e);
Dbl (0x63fc16f7044caae2608aa328355156bf69c572b8a20c115d, 0x631781e283a1ad804b7d456f2812924cd1f394ccf31dab4e, 0x270cf20045b32631fdbc70dd6b76b9ccb4fe2343185db1be, -0x4cc0e3026095111c2b875b5a7ad00127a26fbe1c681f8c2d);
Dbl (0x6ffb64eda56ac32b958699619f91b0b3f7e056871d7e76cb, -0x280ef351c8ae5eb862c90f3015c532fce9e55b0bc0a14da18, 0x30fbf865273f7a719e2c2693d47e44bd856883daab4d383c, 0x5a3667295467b160e5e22f5a0ca8f498b31634cf1641b85c);
Dbl (0xaac154b240f547db0c27172b7a20851b136135a58ab39834, 0x91ba96f26ad71d1ac5fa3bb4a5c510c76252a3e26fceb3e8, 0x71e5567d8f112c04a127793d5ed620ffd79fffc07f0d9fdd, -0x77db9110f694cb3d1d0674201ac12932f3e65789a3df5fad);
Plus (0x212be90e3ca94f0204823b10e18e3c4732505fb49c6f22ef, 0x1a6a4f79b109cfd1aaa3303b7b66ce7eb1643a9baf4953d7, 0x44c599dca96f275f28d346a1abee02e8d0e5049276eafe1, -0x71f45086d2541db96b9bd76ad4db5df5ddc3df3373bd651)]).
  - vm_compute. repeat split; discriminate.
  - vm_compute. reflexivity.
Qed.
Lemma domain : ecdsa_domain (cp secp192r1) (ca secp192r1) (cb secp192r1) (cg secp192r1) (cn secp192r1).
Proof. split; [exact good|]. split; [vm_compute; repeat split; discriminate|]. split; [discriminate|]. split; [exact prime_6277101735386680763835789423176059013767194773182842284081|]. split; [reflexivity|exact order]. Qed.
Lemma no_root x : ~ (cp secp192r1 | x * x * x + ca secp192r1 * x + cb secp192r1).
Proof.
  intro D. apply (root_ok 0xfffffffffffffffffffffffffffffffeffffffffffffffff (-3) 0x64210519e59c80e70fa7e9ab72243049feb8deecc146b9b1 mp mp_ok x D prime_6277101735386680763835789423207666416083908700390324961279
    [0; 0; 0; -1; 0x5ee7c60ac0f07ad66408f689a5890551cf909a2ea64cee37; 3; 0; -4; -0x32e88894b3e5cbe04b06596f328796af5fc71c4f320561f670d30ccb81eec633d7f2542904b951841d936e18623af912; -0x2ab9bfaf57ed620ea71d1ff6efe7d838803c6d4ca18201e99278a656f6423324876b51d5ce671dcaf4cad38924d743f4; 0x20ef6f7112fb80a5fbe2db32be286dd1a20cb7986f33c4bdc; -0x222dc6951d025c6179f56e895518165fc0ed9f3c4ed2c54e; -0x16871ca874e3eebcbdedf9969d315e4b200caef57c37a608c5ede7a1916cf20ebb40522e7fe67d1a3373f574250ca04c1; -0x606787593e34dd3c57fe875e80523c37b71d8080a378204a96d5b6da89b7d6ba917fb62b3d3f637895915c2c75d6edb0; 0x791fa5995a696e0bc083215ec7201a3c229c44f0cb329608d; -0x673b106ceada48b8ff3ec1139f9b847568be3f0f0914d75; -0x4b9125dd592ac397181a5e5dc9e48466fab424f5418a4dcf43bd95bd72290faa3a0cfaadbb39311b844f5b414f77e2aa; -0x14b6e425d09dac9265a4c70739840a48137ea9f16f0774bdbf7a7d5b431875d6accfe04f6b0236d109482398884f772a; 0x227a1bdde71c86083c6bb7d76f08b24d62a56d607d91e9145; -0x2a3ec95e5ae1d27e76e284d95528997618fbde31364e69ab; -0x2636057406df8be0118ad7ee81ada47e08be6dd6a081ccbd169d99ebc7527f8bfac973c689bf4b0eb2d917bc8c721a4c; -0x11e5c7c971be4108f5d0157b7514595463825b92dbf3b20885bca855aade567a90175aedf9c7c69b31873156948cefc; 0x37a1f962ffcefdc3aabb8207c46b04c99215fa6422a98cd3a; -0x9bab6a0ea63037d6a5c96e7bf913fd6f681285273281929; -0xd6aeb8737481cda5acdcc4ce05f54ca6f783d1b3a2ba9cec688811be64fb71466b5d37f3ca53b6fcfee889f03e34cb4; -0xaead39727e9caebe2352139e88d413d28a2ef469b6e97871e41e8ff59ce065f64cbd148eeef2525240ea9fdbf86119; 0xb7ed6f03c8e00e4c6ec79f3a2decd4ce0aa0512f4131f363; -0x7449a86418a400c487badcf44660daf96b58bf42c734897; -0x3f10dada7f396f84e42e143e3e8e904a94b6be675dfdd3b8298d21c7a4019fcb8c3edfa6941db032432b5d06b0a1a41d; -0x10964e56449c2649f1327f8f1f8f18dfbc0a3b603b12fe2ac8c0d170fb1808a00e0b37ce3debebb356c0349303565bb7; 0x1d93887fe0099c281abed2ff7df9865f9aa7341037b916b78; -0x52288d061d78eeb981b62af8cb35bd38f62264a53d5ed6b2; -0x1c31f990c3861db44786f00c99db6ed5021090080b2ce38f602ce3b7927b38151a30849a13c899a0f81ffac1aa8812ac5; -0x3b98cc0ac34a158438fcf4093643696e8b9574439afd2ed0a5bdcff229afe37f3987d94e985311959d8d567c531b94c5; 0xb7e7e8ddd47eedfc6a9c851820cb219b6878c0695ed7e9d76; -0x531d1d5b56a844c66a4c9c2d0b927ce0434e6ad1d878cfb0; -0x388caa289a0be7c62bcfa44d920f06e7784260f7246e4e80c344acbde06224695476933452e44e612e824336ce62929b; -0xe7a87806a6a9caeb59215f618cc5a88e52d48e5bb3ee5699ec2c11223836b2cd0c5c5a7f95501cc87cc5c1f33927ff; 0x8e9c2a0d204c5a0f775f5a0f3624a79a99a011095bafa9402; -0x203343a06d893bcf5528f61c73b86d3e1067e92c4e3d57b0; -0xc6d4f8e10a03c703f91144393b37a3bb606b859f61abe3b738ba8efbf02bf5779abf5d646d72acc732480913f7c21cdf; -0x1d7ddcaee7122dcbbca26ff884a7d9604672a13fc00ca6472f52fc8374f849fcbe17b5d8b2941ee90e518533835e26c5; 0x4a3316d33654f054f324062220ed415ad60a13f9c2cfb7f3b; -0x5727706f9c3427246f8bb18a708c7899387b12d25eb55338; -0x1e756aea3175543b0f1e6981d2d8d337677a84ac6dba5b73e88a468004869bae0c9008dce4c50c94a50df6a015fdadea; -0x3243e1d5a8e715cfe1fd409cafba4e2829ad33c4d3e01c0fc44121d0baef74e3c0ed5904091ece09535306e14a9987; 0xbddfe9ece880d550eb91a04c80b9a7ac55bac1980b9f7d5d5; -0x56c1df4cf931de92f8883fbd8dc6f6adfaa723118024065f; -0x1822aa7d9638e7adb25705d750e89f06f784ca5b4247a15e64fb359224d48a14277a898a1acebb0bde2a4941ff714aebb; -0x20c552f63b1f00f15b5e055bba48ffa4a8bcd33b78fa195d19b8d24d4f54ae3591ee164c28c2c27663a29cf8ebc73374; 0xd1e539129b6559cf86c8c20b952f5af54fa237ae85ca2ff50; -0x605eb92053cad44616767915f89aaa2e76ee68bc905910e8; -0x1d9bb6e6d21d2b4bd4e9a0916f1724567e3370a5cd46bbf2c8f671f3850849ad4c786b7dc586d9e272143d249a053f513; -0x2529fe75c33e82ebd7ad4166bf20816dee82f7839245fdfe88984459b82cc4b042092f73c01d963f0829781c4c079648; 0x112a42c84e03af217f943ccbfaa1b8a52c3631476bd762c005; -0x34fd9f099b2105da114e11abc1ecda5cb9c4ee28820c8423; -0x1c99b8e6d0062c68cad24cf3133f3990bd046cb59c5672a03be67591b9a5eee2d104f149524458f3b311ef66e3e1e3961; -0x4fe89402e1d57756496001de204aaa4446ba13c15588667eca6a778dbd78d058ef521ed5b95f338e17a6df30709a975a; 0xaabcb81a6e67e3179556f147936f6ee69e656fcb774559dd0; -0x1eaa7eb9820486f12529ac1f81b0094f0fd656022410012b; -0x16eecfdbf3a47701f39dea3df45567dc3932cbd8490ec7a8bda601ddef8d64b472e5d3ccffdacb5f492c3d8fc55c5a83c; -0x615fac899cf09812beeb52e3aef0d2e3abeae23d5b2e52bc4d1b506d0a116bdd1d7976d6a8aed7a27ca08b02f289cac7; 0x81ed82a7182719a947a27c38eeabe899254ea32d60a28dd85; -0x18659d491fa8a7f9fedaad9593dfbe172e27193d0685c9a2; -0x7a6a305b0b075c1ca07171a696c0140262b50bffa5c5f6e47e59890a93e6dc427649a1c1d420af72e68c874e3a9f9185; -0x2796567153817e67c09d6ccc919850571e6785746760863f5a024de7ca8c1757549a4fdb1b6d44f6c97e2a990671cd7f; 0x2774d9da1437c6d8a91397309e71013ec3581a50fdc38f82c; -0x31197e643d1a4df924c804a433fdea12ebdea5c64e15c4fa; -0xd2bf14ad5969be55b9a53d5aad38f8cb29a58f180ba8eed97b31b6769a7e7626078dcebb7bb86253bc8d0ae820905db6; -0x16bb07c0ff7fe25ed7b918a25e3735b7b6e475ad4dde883bd9a7d83f26adabdec2a8cd41ca25e482c0e460d87f61a10a; 0x6757e409c8f4da0354c416134859a09a6ff680c669594585f; -0x3a028c265e3e160077f5c74ef86e1ad642572f59470245ac; -0x14639eac9ade3c7264a66ba807a03df79d72d4f74e916ba63a1faf8bbf069ede52e5457e3d34bf2ed43020feccbd8e95f; -0x3aa30fb225709f2385a74784d72f37010872e87789f9b268a8f66725b2166ba11c85c6ffa7dcab80fb1da6ad3aeaa59f; 0x64c482ff738704447f00b537310f4d932b8f1e8098b728f98; -0x2331708c4bfb53aae28310e31a2b398421325e837b667509; -0x5f77946852dc615703e250b4ff9c5f58c3434139d3e5d31c4e23d17ebd1db975c8092b116bca6d36113b21a0e98bf28b; -0xd59b4564163316d3be73c48d42f40b64ee99fab3e1eb424ee7cc70776a73165bbb74a94f91d3885f9c97942f2ac59b2; 0x2addd0124ea36b90bca7581cc7d28c8b910dcbc2131c995bd; -0x2b6fd2e2f320007ea317ef523166213fddc12003f2aaae4c; -0x6cd5e27143bf17f6a651aa11dc74425a2dbc804d3063ce3dade11fbc8b4dfb3ee09e87a38c18283c8ffbc55c04648fad; -0xe8cc304ed58359cec54e655625253b62daf0f8b444a1b15a7b33edbc5f5ffb52f13298d3f4bd99ce8ce9bf192ef5907; 0x2a922a94ea5596739779c71b394837bd36f0fa95b45856632; -0x4bea4dfc5a5156c2f2a0931f55c096149c6ad5cf80a4198f; -0x1ee65acc5c815b80bdefda8bd25cba648090cedd2199d9dcc37483ecc4c2974c933f59a825ef42ed721ecc104e910e5e6; -0x416a40fec1d6793239878564b9694ee06492ba95339961f2cfbf42424470d2422ea7d3fcaff4384048660bc6ffeaa8ec; 0xc1ab99bcfdff131eccca3e11f6f878f04552c2a375725ff47; -0x569b96cbf872bb0e1f1daf99259230d0b573b6b0d1f3f1eb; -0xd0c81d94b9121c373ceb7630acd38515f38db5469faabe6072f0816bc79e254eadad6654b715c1db24b267b8754e2212; -0xee50b18fc105d473e8b6feb3e1f40e3471866d56d036a2f8f2cb460f6090a79cffb506d903a4ed4889fbcf5c09ec2b8; 0x7eb8d39e2bec2b37486665d300c6f14a8f7f5b57b4c9a8f79; -0x5e9646684c13d678bfdb79904d714ea43f8cb7e57016e32; -0x5d1a42662c6f7dd7e914e8e904191ebff5d62d99cbe4bada9b65fd13d0d84ef8376580579b880ee3909330ab72ad9c00; -0x3030f4fcf65e32f5a103648a41f25a080e89f73cb97b3e39e485776df74dae131d914d2fa1796630a10c504992eda9e9; 0x27883cc3b66e3c1c0681632d80287dd1a235e93874a52d655; -0x1da384f4c4db5fa6e9f0931ae9169ab2cf199f709405dc88; -0x6133dd7c32ca251d93769b05eda6d1bbeb4340f1885210440795978731a576e93d29ddd3df2a35f477bf1cd08c4f53ba; -0x15944489e513a0c6a2c5b397174421a3018ab6409a02e0735dc78a80cbce389d4b1f2b8b541fba06c566500aaeabb3de; 0x291ed37933559ffbc6e0565fc0e79caa86ae45988afe05eb5; -0x366fb1078c3c12df82bf76ef51f0dd276b0bb70a55a7106a; -0x69bba73b847fdc3248bd7a22ad78e4bb4086237f1140c0786c198715090a4c58672ecdc6486620d52f9bbd31b4329e84; -0x74459fa35675eeae2086a6e742a2441b336f30aeccd971f9930423d32d37721d7f9e4e0e9ae7ac8658584af03f77dee; 0x42c6f19a76b5349b40364af7ed8ea83b7b82f5f1cfe793fb3; -0x402455222593f12d7e71e6ebc9f673b030e266741a07e3a5; -0xf91d6d355c44e2e14c8d06c487c9dc3c10a740c196d920ddb76ff9b68f4e5baeba9d334ecf4b96d438fcb58277db091e; -0x146b171b91ff15faab68590b10b84f0d547916a4196b1acb581fb79bd8c54ab6723717f8776a203d148ec2d3a01d808a; 0x8add1aa8a2e1aa01e1fb3502fd85b4e6248af7369a7c4895e; -0x562b6429826afdf27f6627a833e1475336cd9f4836fcedde; -0x12f85952317c865c90c50dc6535a9f2e0c023f1ce56d7197ad23666b3827eeebafde20bc911523f656ea1b5779ad8db2c; -0x151abf8b856a6344d35141f0aff119d7e51bb3063c5e4ddd6f9bc41806e6dddfa298a5f9c4e36ed36fbbf24a4ab1e97b; 0xbe4cac941ccb4665d87832451c9f1eedc2aa1148eee883fc1; -0x4d6b68b118e9169a7ad90d06b291455151111aa4c0621d4a; -0x151346baa11552807fd9fe8db59bdbfddd9a37508c63f7888e3e1a1fbaa21d5013ecdfe65091eaad10903d883898471b; -0x2156d963e06e2fde4582045e460d4dba3e1f2e24f1576ba489865d5f472f9dbf92690aff03ebe5e44bdaf3482fd8ab; 0x888e502a79b6f543dbdd75d23d0645c71279d61c3aed0de24; -0x4f9a72204d0c4f0c466488c0deb6a76672a7721f8d59abd7; -0x4c89df9e7434d093f9582070541a19ec7c441f6262466435f1863be5a6ca2f4fd00cf9ede752ca3d427ea2a5a70c9d4; -0x279f855a7b9d612d49a87bfee526af6a33a3c84b91f46d851b394810861e84964f6d32c21d1c3116c56ac2639ed4b; 0x5ebb84a8a39d17200d9706ae9413cf6ea402d4d9102c72a9f; -0xee5f5365b3957bfe210388937f32b088dba51cbe0990899; -0xba5cd15b9db027a73fabfb742a153ff1f0a5d4e14e7b43fe21a70178b330f4144b23f896d60254b109dd8ec2386aa7; -0x6291b6fd56d6a8fd5591e43dc440d82eb4df60690c63b58222648b272a61beaa963b58cbdbff7cc4e59372853d2c; 0xe32a38a9a294a08634451a77c9574f7322fb866bfb049e53; -0x2f876fb1691bb71efd33851a95ebc87a5ae69ff24f10a219; -0x1123fa6214962870ac2aba036b6388e882877a3cd26ee29cee9d29893e608e62cd699ca60f2b845c31dcf68a9b32c96f1; -0x34f330fcd91fbdba44dabb910f7810c46ece6664b3200876942e9452e8d3c035e11b81aed3b8797df9c8abfa8ee977f4; 0x5ee51740e00cce71302dbc5b917bb90e4ac4f10a462a8e6e5; -0x237f1c617f558ac723d8d586956e90691ab1a2dff1ff8e1; -0x191df5537bcf18e6a8162c3a8c8ae8a7d9f6d48a10bc715bab78e5c2543577b3188a683d48534e9ed2831f019d6bd227; -0x21a44404ea413baa2049e11d39395f5778f4f59a8c4160474557404d10e006338b5f51d7e271d61d7bd6ed65a6991ae; 0x101bfc9742765275f53ba217622c82ebcbec582e114840c25; -0x63ce55a3d128dc72abc8f5e6213be78e8a71ab6008a244df; -0x9b7e3464ffc7e509299080343a12082d7e7624e78fb3158d894323046a0e9713c9952087b96499c548aec112fe486fe3; -0x67a177f2a0dc09d032a83ebb6c0d0bb66ca52500b172b0daeed74bd80fd1fcb405ed2b9ae0abda08b90c344d1d070ca; 0x992cc5c53399f5d79bfe96410f2d3ed4355324e89704c9ddb; -0x3b50d99a63c579115973c9588bbdbb91726a889e3e38c5cb; -0x11347e693172b50c0d183b94fff80d0dd9eaa72fb5ebaff77b9323fc1704b8cc2ee8be2bf0d385f5960ece97b8f124829; -0x1b8b7c42321d3099c2f08d78b75b2b3b9b9c9e1fa6060a51f8c13974b3a441220ad7997de3d94970cc486f71dc4ab588; 0x8a1fd51b4b9485184d3245846ebbdd396923126cf5f93fd11; -0x10ebea987606fce4c58f86eddde72f6a53a74cacc4dc9a86; -0xd61e13574ec0eb009b074bf431afefc65cb839e043ffc5eb222266cbd12833ed992ce6764fbd8335c285ffe9230ae785; -0x3f21d966547b088f76b11c29169f049ecbb0b0a1e77b1a639ae5e323476aa3acc65804d4db35059bb4d6d21e441938e5; 0x50e68340bf4a16b20d8d33e3de3535e922c19d087b9f9eee2; -0x23151d621960a97f34e45eccfae81d3039b548398a046e64; -0xcd24c27898b2151ce0558de31238182437eb34439ed1bc6814f48b2abecec5cf11858171722987da93f0fa81e0a1e609; -0x5430c4bcee842023cc158c07a9e1f6038bfe0870634e83dd0aa44ded685b74117399045125793f4e9f2a40991fa37fd5; 0x44a3f813b907c49a85d1d3cca812d7a33a620c0b3d177a713; -0x24de6edc999c47f6d8d8fc6bb03342d1b3605b73edfec4b2; -0x95ccd01937c510a8db4160d363cec5e83583ea1683790cef95678890c67d115213e22d80ce4963c0f2b61176127b59ca; -0x114fc6b0e4fafe66613e32800e7f6932c4c12090f4eca512cfd0d5baa95f5d90985b72e738cef8c653348f1318537f9f; 0x42e5399c0509f76474f0dc3fbbfbb7c4296275a0e5019847f; -0x178d02b5747b82e68f2529954f8d3b59f4977a18334c02ec; -0x740c205570ac52981335abf6d13c8529afabb35f7fc2decbff5da1f3ce621ed92727bb74fcb93396cb60f4c2b4284b16; -0x2ef2163663eb624c34b5539479463fb89673e19e429963dabf813213c59677beb84ccff3d7e4da38552107e93b579a74; 0x32d568349e74f35570946cf89b7e310099c025c61add92a2c; -0x3a232dcb6fd804931f8ab455236ff74dfd454f6618c6641d; -0x110a73aac406d9fcc8d5eb04c4296845047fde4b36abab00a3557c9148797abfa0fd1a510293df36f2946ab361c386f96; -0x35cf9240ed521bd62871c376080aec0b3561b32aed94db3f5434bd344508ae885c605b38358ba9c8c9ee7a6f05116840; 0x5f87261ea3a413a85cc1df9f4c88cc89845f72fcadf68a5da; -0x31f6543ad0890931fbcb05f84f9353c5494bb5982e420b8; -0x6137415dfaa342e9fb075f236a6221292feb03c5c4d90e8feb68c49fee6389cbefe3a3cc11c0e352a335839beee9b48d; -0x286690d48c2b13cc2c7a52e29dfd6615ec5292df6f0b0d4836794d791c42162005d94fc52946e559a813fb28e9018a74; 0x25f8ae0aab14ce594af585de07a447d9f7cacb339e9baa27b; -0x1eea8fcc1ab32bf35667e625cf0ac9f84dee6995ead199d2; -0x8f99d9effb48d31317c3a133704a84af2907ee0c582bef8e7319266acbdfaed55165f7295b11ec2265bca9defc16ac93; -0x178b54c0f24b6122656cb298dfeef1c5d1b0852dd833fcc8febcbb6574aa5b85b58025bc1bd28a5326b2251bbb83b981; 0x3296e6241e9b5e6de6d7f68151b0e909f8ca49d4a50c0419a; -0x30db259bf64a72d8913665db5f34cb7279ceeb2d39b2fc72; -0xc4b036b05ba09708f2113ae85e77199ce1cb6395c5a4f533e95f653a4f41701702cec5990eba8ee9e450559f8c26cd07; -0x18c5332050102bbeaee6f26a8a2ec7edb3c9ad16a6cc59221eec55e2ad5afaf34e73e00af825d64cf7d86956b2fd2df0; 0x553036c577f107f5ca39c5a2b64821cb8aad412eff820ab0e; -0x1b9dcca61573e85d3e5095c84b6a3de95bb3025008c1d9b2; -0x651ae4c25eafa09746c4f9dca0c27a091bbd09c928d722e748d001f0860d564047cf40c970ba7d39c9a4606dd0ba640c; -0xb5a874d1d9b624df5d2c3a520d6dda5a625c6f8e36756dea73d26be7a9b9740d5ad481e7fcf9ac0fd46d5be54682d91; 0x303b64541940964af6b66ae441d4c9dd2cea5671bbccaf7d7; -0xd7abd03d4b7605028515a4d2a48ad03895e7cc7963f36a; -0x4aa23d0da19d04d9840f683861915bd588966ad4df084e26151ab16f1a3f7135bf0a29c2dab103e541e499a0eac75a18; -0x13a0a1f69156951564c08744c3df7a7d77dd7a5a79a790d5924902088f6314eebb95a9298a8b9be028013b1fd870cbb6; 0x1ba03d04bd112fb89e3db52b8c708cb5912b969df02d80a6a; -0x274de213b9456fad14587d77b7e7e78f693e0b30fa153b9e; -0x27fb848669e8b5d2b01ea7db74d14b87149fd4154d9dc657fd650f158c542eac3a0c816d7aa6e2dd71baf07f8c569c93; -0x19d3e94600520f24a44570f2b4b87b46e883cbc91384451dec59e3170d8d28b1234b78ed98fe999ae336bb0ab8be2b4; 0x28ce479c12780f58762b556968ee0ea594b66ef5dcf3d5d85; -0xcfd1c1b5b922123815d0f9ab910dedcedb3075e9d40ddb1; -0x498f1a6b5caa40e6cf14c22e20a4d64afedb644382a007312e1c89d48eb9083ac6088c36a9cd4f00015a77df13534b54; -0x110457bad663ce07e5948d91d420b6e9a6f316c3c3e0ccaa8b2bf0e23617d568173b16a095907ed81ce4d8b99cab649d; 0x20cc3c5e6121e4e5626cf1a5ceeba1662be3bdcc9db57fff5; -0x50003e27e9368c71e440f4de0aa8ef0dd7b0ce35cbbd685f; -0xea5e9231f626cd9056874407eee3d29cbd3391532d8388a51d5d69d4d7b44d5455180c230960f295ef2058d087ac22c4; -0xc4d85b8b32a8473587de1139854c01274d2d930304f59577734bcc175447ba2105620def68186986c42d85fb505f54a; 0xbf87edd24f096a2efcbb45c0415f8595dbc6bfbe869c8860c; -0x1f389c2eca6c9fab7dac85f4fe8f4a2acc07045f9b49a1c2; -0x45c6f8b155df77a31773ae47e87af258161143d6ee821e79797d987ec997d9fdd7d7182eca5c9a8e0221bc435aac3a6e; -0x3a32af8c5b44528d6a146c6a13693c9591d518983d95d46246dbfe2f5e0f28300ce41b87832f2e5858a9ce6a679fc48; 0x3b306a4038fa5c85005c8cc1a36bc37d08335b99dc3f67b69; -0x374398a71677702f2f7255729233d19aa603ef67c4b7d097; -0x1eab7b84d38ea5a97422fe33c992777c5f12d2242111a77ffe0d8abd7dc4b90ddcdc2f81005ff86192d1b8ef304f5ba6d; -0x594505356b050a7656017612002937a8869cd5b4921ea1289a72afc33cf4016fec3de6497191c3d4c70878be354aa1d9; 0xad03d5531261c48f25e703a558dd39735abbf675190d0cfc8; -0x53e0d319ab8f78ea9e25a7705e52fded185d2a8cadf03134; -0x20bc97633d74ca68fd1939b022f6667bd2d8e080847c72c357b67c1aaa279017b4adeac3ebb2e70e0db731c1fd2f5cc87; -0x51bd22c82bcd634ce2cfd20d1dfc6c7dcc9001022791508d5563aed98a6e921209a43db91dd3d650a7621ce74c8823be; 0xbd031bf835b703959026da4618079dd65789cde3441d7762f; -0x420849b93bf1ba96a85623adb0afe2017310d7dddb4044c9; -0xf5f3a6dd8036ea7699f680df9286b138377996d762c2ec4d93fac6571a81beb6bf3f89a9c3cc0d48afb533ef7d5cab12; -0x1c6b589af191c4a41f8b9bc1d3b09b782b0ae0108a58e247c378efae611318d0af8cba706a364d7bcf37376832f2e0f9; 0x6701bc75ee912a8f8b72ffba6d29dd2feeff1f2d147c072a7; -0x297aa30b97a85941f950e977c425d5a82054316b5fb01d70; -0x10e7ced65b1a549ad35166e00372f5f7371bae663081e215321d1184c363ac41f38a9eeb6710480bf389705ff819e1921; -0x42ea6336cfd282f75715af07accd9b0e6697c3251de9a8c858946aa7825557260786fca6f815f7635ec13498caadc601; 0x5306e2607f77bb9dc75dfb314075b39e842ddc88681f34e7a; -0x321d1bd2b0e90b2a484fe193aba31d68cc7324035a3c68ac; -0xbe1328783d482d84fab5c8e82113b93741a3d7a1a73f72d656838a14353bde7d84d08533a0f7126e067cb1fb37ce118f; -0x24c2f2838aee6cbb87ada81737afa19dd1d891b33a9d45e34f7956ea367b104cf9892b5a39ccc949fc5a72f3672d9827; 0x4aded65d9482240db891d82982a17d45f7db1114aab8e3aae; -0x1310d9436f04c174c24b0506725423af31045fdb504dcea0; -0x68c1923e9758d4a38077ff556553c10ac02ca92de8b8f3f185d2d1f7e99b892f239974eab2d40b8c2ba8e40b780ba41b; -0x35d0dbe9326969295eb57ee31edea14f6d14d294e1e4549a19a62b356b60677d5aeb8e463139fd8f7041ffbe5cccea64; 0x30372927258e7640ac2d5af040bce45580c85b555ca3fe6a4; -0x1a7f8c7a77d21ecf601bce4f18c94e3669f284b9b968a560; -0xc95e4cd9f9aea74265667b74e7e74ef976fabc639aa2fab6185760bf16acd478eec429f2ee15d7f86f0f6efca070407c; -0x29cbb7dbeb94ce43db363f446051869a93a0640a18e91952a4dbec0874f8f05f56e6e6a05e27cde93cd67711215440de; 0x3f753dc79855fbe83aab54d347db358d1bfe4be5de7041778; -0x5a2fcf86452e1929095a03726b0ddd30ff6df2c346b41880; -0x107ad02489d4dbfee773f7fa623765e84ceb01b22b0972cd8dccd587cdcf0c9a97f78bf88946441df2cf89a2d08a6b93f; -0x15420b1bdbd6e88b17dcd948afa692df629bd2247417cf23abbfc077888eb3c9d5b660eb48d64d8effb8cb49ec8653c6; 0x99534d7b75188991e5a52f375b897a8a8e105fb329fed6da9; -0x3dbdc0e0d77b9a6d322ab9702914a7a2563ef61aeb8fe053; -0x11ecacbaa23a0f44b4fac74d2a2b9ca9861fcc72e85e718596a7d99442fa9cde6352c9e2eef728d98964f935bcae407df; -0x39901d8e859283b0ca343258fdab93e2163c0e4d96abc3ce41b7ac7f4f2789ee21a9447efb4b231c218478924ae2570b; 0x5eda1b489f053eb1f34da5130305f80bf27832663fb143699; -0x48cf3ca5af42efc4f64cb6036376e12fb37b475cd6804ff5; -0xe87a26e7a8282eef772cb0740f46c983da01072137835e5e5fc4386f84a202abd86591dabd8b0c2c5d68d3efc6bd7a41; -0x162bb159180c4bea13cf4dcf58f3b7e18dca047d9260537ca75ac4b711b3e0c358c078f8e344abf26028632c74df3518; 0x7aaff8e5ca7831b213a2d57f669763b8d6be0b2cbd032c504; -0x540decdc44dd1f87f6d1c091a1f462d4de1693472541deb6; -0x913d8798330d3d96f40b7678d0e5ffed5ff60bd00fb6acd6f9c8796df61cbd68cb7efdf034e106c7d69d9dd7212c9670; -0x5117fd8e2f8fa85d79f6ecfc8b00b32589473dcd265bea1fd82b62dca3d2438c47dc17bb8b19aab5a2908bb7a39727f; 0xa8fd843d6f07f0ec1788836a37d71600f02b04f313781827e; -0x110e5e7c58e791a7e265ce2f168c9e2eaab0f9dc71fbadd3; -0x498b0ede140e0723db4780426997d611b1ff70ab98efce626e399c5460a150678ece0127efaf5012d12465277de8157e; -0xd38d94aa822fd3d025cba34d4b9d500396af74b3d31b4ae333ea998637949630106cd0a7c40e0bd3eb18868b409759a; 0x18af811794b43c70a186e9ecd1c4373b876ce4f91eeb97ebd; -0xc896d1198965fa0492ece14d6293dc7c3a71432a3bf2b15; -0xc581c0f0826ad3d624952e76b3bc377bc3b0c0f7f5f71c4b4db6fb47f216c2bb884f6b6641bf3e8130c037a06964ab8a; -0x5b3a761d7ac3969f81dc56cea0cecfa51586b01ffdd16bbafbd13a7aacfc4cfdbb49da04c356c7d36ff18233a90ff90f; 0x3e2344fcedc050a5cc839329e32918a1ca86dce70924e0392; -0x477928914c86b269f08eeee3b0114e3ebb2fbcb4d825f571; -0x152ce977686f11fc5242eb006b92e8d79a9a00207f097148d5de9cfce1478cbd00b966c3747fa8bca136e9080dd958a60; -0x232d6045995c3fc2a2d18d9b8dc9e3c0dd4b02aca552a7b76756d6ade92fb2610f00d712df7c744724d741b6257b44d9; 0xa0667297751660873a472df7e7b3773bfec588cd649da8e32; -0x2dfb067f4a3e6d89fe4039797c9e2d329e868afd3df02ce9; -0xf21386f92a81d1ef63c91819a0f57142032f419be29830d6c01d229cc338de634ceec0e07c52c45ad3f8bc84ea28879e; -0x46ab8898b04f88a8718c19ccc096087dc1e07bb7b64b745ecb92ab2b1dc06edc3cb31a69f449b6cade9c1dc0e0ebc968; 0x53d7d6581cfcffd94b6e9e1140d3b389939c65a9a55bb9781; -0x237f13c246c4cd42236f3319080e00c5330dc04ead074387; -0xe5a0f8602844029d4a0c3062e5b112058ae5a18c72ecb11eba5ede52e5583b94197258dc31f5f9c8e8dea9659aa31476; -0x3f964cd12010b7471f2883e15612090df0b6c45060e6c91091277ca84cc36d250fd134c85069f6dcfbd4bfbb0ac3a480; 0x5110115e68e3f236091d9d6fd1caa4e050158e6d296ad933c; -0x1a496a02ff6e16e42efedaadb549409112f40d474631d3da; -0x49e0071f80b8332174d46f254c8eb8997259e31dcff3c4cd4da3002d654f0e776012f14a437925f0519d66c5c72a721c; -0x4450a9088b894f3bbb7fc7059d06795c4d9bf929bc4c6b1918ace2cf91ec46d6f85b813fd0d0da629877e1c089b5548; 0x3637aa3964aa8b1c2d9134913c68f2b6ab14a4c0ad4174632; -0x1b3f0f138392eb3b743a1160d17d7a598c0ce5b463c5880f; -0xd2cca2809390f1e5b5d35949504ae869daf53396860190be03c033e49e183749096c8e21ba24851ca00b99f8aaec3543; -0x22903e9c560c1706a9140a98424ce788f271df2997389de3941095ba9a22fb88ea2dbfa4b21c525c58ee52c7909af4a8; 0x498662293d90ce3649b5eefbbb24c1df566c136ce8e4458a8; -0x5ee48c721878084fae15cf785ad3ff5ca7bdfcfe926c7421; -0x179516816b4ee962ee663e5e630b18ac013a0ea67b271e66c5b6627769d1ea596aad404139cfc2839ef9eb14a79c5962a; -0x1d2697fede50d59f07cb94aeec6dfd6f63587183fc551b43febab6a5de331e1606287457d6a11e7b2f2a833503a1c51d; 0xe248d52c04e00c4e06302e60b32fcaecf31ac44cb416fdb63; -0x3c5eb6930dc7c741633c7b22f5e5ff4b9cc350b51a2fe552; -0x1038c57bf4af2692fb920b82ae72c45543b949cafd4fc9753e92f41493e33f3410e4dc94eac817423677490d856da0e6d; -0x187d512755bde74ca372c1d57c011aa36f261b1072c1776c9f9c6009604313575476422d78aea2fa9c44f6b8c4e9d148; 0x83bfffbf2941a2ab6dfe8d397ca7538f00fd0d4d2ddf9cbb5; -0x4a2eb248a81a9c5eb68add1dbb80317b1d224582404f828e; -0x1f98992a0e90e5eb85d01e37b1cca8d9b26f97a513e212a40b2764e95f0fbe851b9d8eb00c646d77f146655c36d8fa2d4; -0x3ffaf161a712183b75391de315fcc4717ea78a8c82cd89660b55f4598fdf8ae9ab4c0d6acc96f39c091af349af290140; 0xd359b4a85ba9ec3a3a350e404fab64f38bc801ae6ec816dfe; -0x11a48426dd83ceda6a409d403cbafffbfb011856ab3f747; -0x306e3f1c76c9d36de7e9a4a8efe52001a9b40f162d3d44fde2f31a2a8b5000e87cbf57d82843b385be5f3b781f030672; -0x22db293d5e7a198c4b6ff6a7240fbf39ba181cab62654f2ec43fe6824199414a32df632c12e1d74f68a113dce1a0ec35; 0x25d752d82fd0d4ef3e030812463ae6ccb219042a1761e2920; -0x5dd59cec3020f048432cebb1f87b0dd2bcaf423a684d2ffa; -0x243c633d6f8311f8e72f300537123edd764f7f6d5e2c1219f7f9669ef9f02df6341a2208c7c69987c40468fead8b0a8a9; -0x3e53e4fbd93056dc7f95cf8d81ece9f471a8c5b25e2969ea502809277ed5b625275a523cf1d59704ab5fbe6fff3e196a; 0x105ca7db4293829884b9f33131d333a27a002fc9568261fe5e; -0x62e9552fbd1f72f520608f1c73ed172745905b6ed700c9ab; -0xa0677bd1611ca44e54c3bc6811e073a5bc1484f38191abc6b9e0c315b636c9fb0c2128fc0c258159a1c7570929312a3f; -0x58327f545a831439e7d5ffaac09694ed0f4923b7e09aa9e9fc758c3804fb4a1fc60861af59fde39ec510306dc1a985f; 0xc41c8e120d2914b05b4d74ac47069d15c11a476722a7318ad; -0x4e9429124ff814b1eeabe923bdb69239e366004e4fa41ea3; -0x23ec95770dd701308e8b63bbd4195046c6aba32279976a62cac647720961569b3f57d382f2dd041671c54214ed7e8d800; -0x5419a0e35f7277f8312c6d4c91bd05e87c4b50e2b8712aa64c9ab20dc6393b59f906b8d94bdc21545e6f7aab1d632e3a; 0xe139fd168a7031c932cf12515e6bf0738cf61eef2ef5afcff; -0x4937f3639598b24bff4accfd4d98ce8152315b16393fbb58; -0xecfcd5fb770046ec7d39859fd885fe81807d40611395ced71faee4f3012621515e1db8c257edb007e79aabc37aea1d24; -0x1a05d49245a3f17ae2e75655964a3387d41418bf0420556fd763115d10dca8114db559aec30ddf1ced0c67435cb4df42; 0x67a66b3b942c282abe9ec64ae99822257913c06d297b51211; -0x1d62deeb7c5a6e430c153d8c770911ba290edf9a2ca32a52; -0x141aecc9f1c8098bdf7925e074b20a8a7bdef970cb5316514ab819a476e3dbd61a25507a490012af01aae68d3216a83f; -0xab23ed7b7144f5c3c7aaad0b786c0717fd37989bf06a082ccacdbcbd154adfc3dcefeedef2436a77b9736cb8ec076f; 0x18fecac20bcc9f5d6b799a9c63a075434b7b4a26f2c13b9e3; -0x4882de2dba34cf8462f36bb406cdcf58446b7332e72af319; -0x13aba1bd105e707cf3a8a77e5e0760c9e1c633c52cb3b4a2a1eb73c87ff19bffeee95224c8b6ac82b498537414d2c5000; -0x194c7d56d96b09b9234297b8566a8e02eb484284b3d34d8cc4f956b905f182c5d145e35ef96b3a45f5d234cac3ca824c; 0xb63d4e763afcf36df204481550309670abcfaf9f5b6ba5122; -0x550b1b29a0e7345e203f7e07bc9bef1953e7cc9d60e3f81a; -0x15fa4ebfe870f93157ba27723a61175998f769ffd0f48b011d2037b64b24bdcaeb9b4117a644acdbcdf2d759a47456db1; -0x291374178bdcdcaadf6c55dda1444aa3a9f3b8ed3c2bbb7a309f0b673cd7451928ac55c155e5ea0ed553385ffd834e03; 0x907de41b2276848664a50e2d4dc0dcd1fb33027cde3ae49c2; -0x25e78a15c0bf9b687c1691a7fe8b45a9984b2fa6c8b1de6; -0x64cca3bf489548609561ffe51dcee17b86812825d60a344171351056b0295425423bff414cb3b0bbd3e1935a11e367ae; -0x25855cb148fd4bbe38608fb54f10a59df15cdd909315359cc9926f9d15492142676528d04417c84241a59a1853439ebd; 0x2788c0e6c1390600fce8285eb2cd8755490a048ceeb795ab3; -0x362da5e38b86f4f1840b0d35504b8096d872c0e022ed8564; -0xd3074239426fb69726658c1e6c2abd0e68d20067a85ab3852564046e4fb612aacf1a1a7d82d7a10659ace006ff076c88; -0x1b32f4be230b156db434e8ea303bb28bcc2d416ec69ca109346d4d592e426605ea3eb0bdfa25b356e148f9f9d44a4bee; 0x5d5a7aa74e777e20e31eed874075dbfbba7f01f5d8d398d41; -0x4d6e4c54089804b327c3625c8e77655e0ad4f0f01f4e4a31; -0x4994160de7d6f30759971f61891a9c57a11245b8c49a0ae12d98b71a614627f2a242e7c8cd8cf5afcb584c5e5e31785a; -0x281adb8872cdddb9bf43f201ef1805933b0045ea6554759a55e9cf8875e75b5cd545e424370e8120497c586c61698e0; 0x5a6e868f800ec7be8d353e1ae8bf5842253898b8138d66e1f; -0x1a8e5969d458e3b86e2c779b2686e153a4ce4905aba746d0; -0xff460ab97aa9f7e3d937b851736c57d8a3e9588acad95d2debb3285cec9dc97ab655f5a3a748be5067aadccce396e6c3; -0x34e860bd567c00641e53876001a05c4827a6d6f87e708fafbe2b085d7c1647bff0f1367e293bee8c0f58d5b59b6d9574; 0x5dd556e77a0b7b3c2cd68f1a28d11ee43efcc2f968e99443c; -0xef2816c22865c3b35f25bc9e7b862eada507da0b8afbcc4; -0xb00c31df254c5efd8b9af51f46748bf4a4c273d947bfaf97a4b2076f426cc88dff3bfda877bd7e223c16a9ed63de6f33; -0x27ed96264474eede2e94058f9417bf5667c8545abd4f9fd477ce34826d702a563b8e564fda368711648f535ef89251f1; 0x351b402bf308ebe343b3fbf437ce02204ffe150e547528a04; -0x3053570f0b2cec7defe0134d65d55f62636f3610cc21727b; -0x179820cdb05f612edb5151db1a68770884bab6dd6c9d01a791ab1293a59ebcd2c81a5fe00e9900e0559df0d772175c4ed; -0x5e273733f44f438a2761bb9be287e47f8314ffdfbf83bd4c16779d297ac14aabed0111f3be4dadbe95d31e7f3fe99ad5; 0x6ff0005587f039837424bb2f8de269f848ddd3603c48649bb; -0x367bd43143fafda9288586ada34dae73c632c96810062f64; -0x195a8a1fde4b56a98e1d8bbe8ac47ca99de6ac9124bb73038ffb86aef4a3e06316b6fdf1ac455694d008279b604899a16; -0x3db308551368b82221aa71de317a9bbc6b460416e59ab2b992b01864835005a2f5961996c683192adb874ffa7cc47b58; 0x909d5a0d3ad6ece75324ae768a862e66c823804fdd56db5d3; -0x364a55a4b2cd5c2d10aa55146cf4e8ec8dbaf2152d7e56b5; -0x3fc4decc3113f93bc8971f2a1286cfb6087f333abf4da98ff162c6232522bcef02bfddb7bb4becb35be43f82f1903794; -0x1f068cc78a4e1b574fc3b566ba997f99e3a8912129270ab9026b437164b49dd9f4f5fe70b0a718e4a0bbc5254e97830; 0x55d80c02bc1bb0e3e2db4da5d0b99a29741ca2849eb7d23b4; -0x5ce22ea73454a9517d8f37db2889ec93a8297bb87ed332f5; -0x1c642ee5686b88222d731eaa31cfe2ec83fa2f96ea4d89d1349dc88ad160987892686ae025b66d3203ad7e0dbce8bd5cc; -0x37c70ed19d540683fdeec262c4f3434d97f11378d3f282ddd1e9b46d34e9a5b24f58671451940abdb49080f0b5471905; 0xaf2e549aec3da2b85063aada9b426ec8fc0123e00023db925; -0x4237f920a5e82ec80513e71ba74a8690dc34f8f2e1fcc2b2; -0xd296553420bb37c89c5d69019caad88277ce132ac08b6961e7e1a8664b995fca63f79bc28ed07e7a4fc2ecb0909434c1; -0x1a51d91127e599c6bd27235e2a7b63d8da218f8a3f5ddfa0253c3e93dc61a773efc2b03a15a2fd5ef9f6410300e24498; 0x557199df8bc277a87130df552d255557fcf30ecf37f4a7e63; -0x7294b5f2052dd6dcbbe7a71862f7ccc0429a149e502c0af; -0x527b29792937780e32a766739fe215550f6b8db49e44e304e87ed46810f7d081b19a50aa8059627225662bc932f1fadf; -0xcf0229d38438c03967cf2fc19f10814e2138ecf945fdd75554b142942cb600bdf4790c0ec93489c0bc639327353358d; 0x1cb51d5724669cb418ad70dffa41aeb2de2a5993f30acf332; -0x152ec94c0b69fad2dd5ea70caf171ecd579372cd82cfcffe; -0x74b14a2ebd00c30b0c4ee0bc45e0f94ae377dc669967405420cebdb21292db60e42e33f5b3d8c39e0fcc4f27ebc361fe; -0xfe46c48966764fcfe052293840827d337a186862f98f7bd9d638606d076cf6d27f725ce6ae29e958996f211c3c98f7a; 0x31eff7d7eb52197b4ced3324a72b22ff2432dffcb861587b8; -0x22041d9c775f187e64e8d2f0bfd8292c94221d5fd7581d8f; -0x140aeafce3c79b310751542397bda7eeb138449d8d46d93e09a45bbebbe4cbd255080ebd64c659f7c439417232ff337fb; -0x5a9d44f39ea4e634e0372f991e72a734604576c2e2b75db05cff036ae78da354d99ffa86fd0e7a034faf938aabbfa616; 0x5ccf1c791cded521e18b644ff235a6ae50d54c96f5a4bb63a; -0xae81a916d1e59833ef9107bdf9b3c51d88bdf109fa3c926; -0x551b89b9c3caa3b8322fe38c7320f59071995e1d1d89e18303e4ce77c32b934b78c0b6e8663b83bde35dc6811fa287e6; -0x336135a19882414178340e1637efc929a58c831a663dbde83ad8c5a6ed5bf25cb0935b6470562965cb3d29858843dcdf; 0x31572836148142d85f0bca8c2a547109ea824d5819ba9427a; -0x47b9cffcdaa3071edb90e3dc533c80bb0f59a16cf4d55b28; -0xcdc867753a7a311567e1d316d808de9ed4a2463270fa767a2c43a1b0732d7f833597e41c6825eefb35f4a8d03045396c; -0x1492618505357c827f060614e6335a2c321b61bbab6128e29f75437ca39ae433c8eb0d3eda82bbf67ef19c776f37bbc2; 0x5eb23d7bb4d5760f3a489fb9a72590c3d89a7ba0f99542ab3; -0x2cbb5d991b3fb92a969fa593ff424825a18505407f65ef46; -0x1975fe97c8f67562738c5e73132b533d89f54d5d02e585a23de2d7aec7e48f13fef4eab0670f5b44302968ecc4bb8d93; -0xdf2ab37cd7cb2adb3a98d64dae56718f95f46a6c675b6b79afc50f1922b26b9f3f2acbb0cc671107b614c183f0ae8e; 0x1e6b657aa91869bb35eb1afc439a4463904403b25d20e157c; -0x3d0a9c94578fc14d1fdb6851771965c95e4f0c5a5a188d7b; -0x153b714606673de18bbebe0fa0f4284410318e91c97509ec7609b327c634d003b815de02978a85ca5ed99f265b3c3756; -0x2e1a412641920dc2a40d969725ca371acaaef37e2751c30428bc38befe4aab09052393290e2a43c9913570049e00fc; 0x655d5d00710abde785a9f4f5e7d809b471432d4ce8011bc90; -0x32ec4d3fee1f5682d6155fd898b1fa76427198775b5944f2; -0x17642d7b23671727b436a2d45140c3952bb9a789770b025a0adbbda123e6f043952418032caf29245819bb79f41b3d01c; -0x5b9808d24e2f29e110bf9eff61271b802614f8cc6e5a9f9fc9a855c3284993ed15857cf99cb4acb234626429de07035f; 0x6a9a76dc363aa2adda0a140e55f6b878ec7295a0e4c2c814b; -0x1987b6ca12cb12303cd095278ad1549584ae78d081af54d0; -0x80dac2d3466448a97acee4aec3ecc86abbf8a0d600607c6df16813bfe60e030b3481b1fbe05cad3e30a5024beaef210f; -0x3a0fdd3bc4a5c3456559ee42e1176e2b78895eadb3a45b38cec84db6381fdd91b9f500af487290173e1b5fde45ca3119; 0x3249f060ca8b09e11b79c2fccfb2c586fc9574d4096915815; -0x697980a93d974a922603dd467eb7b8c89f537c561c2ff86; -0x14e9183776c3c23f9c8bb26a56dceff39db2e1bff7022dcf119fd93862030076dd2b5e45bfc59b830f6129ffea470af8; -0x11cf1d1196b4c432cdc3745b6870bf46a59fec0a4dd874299b6a8ebf14d61aecc14b1ef3b01e8a272a480df9cea24d8e; 0xa8d75cdd4669929467b1fc555a61f1d997afe2ba623444ba; -0xae9d33a2eeba6a053379a029810a8624e5044c277b5a8a1; -0x19430bb22806d4aaafeaff84ca6c95f34a833d0a238e55bd851cdd5a58a99ce4a58d3b26bd00d9044dabaa0b7a4bc274; -0x3515b8f189c3afe6969c31b8da38a400605e5f4017fc2dc42deac16c6c8a45525067713685d0b6b9b7ef813b0076410; 0xd63d582b4d320f604909408ea2470cea2b39b876b261a4de; -0x5085fc74bfbbc545c24ec6851d4e9f7ad0e782371f8045a; -0x1459d017586c059cab41f7737a92842827e817b5e53f2e72cbf2cde7bbcd782d4676b4615a504b8cd61381566a9f0b3f; -0x1a98077a2397da7e8148f554f57935ea2680baa092895b191c4b283801236370569b8aba1b940230e3906e66253cc4a; 0xc693879b202d13aa782838e1c03a8f98d9f8f5ce10ade405; -0x35683e13d5c82ee5fa66a21ba16c6e0425b0c7eaa7d2eb89; -0xad5fa23dcb350a7988d7c76d071cc84fb82046e0661f5ecd2924fdfcfcb2fefa6e58bce0a1237350bc9e383a3cacffb; -0x18d89ab996012f488461345fbde45d22cb47615ca0db8d1d4525d13e0de6ec56b759b8581e12341a7f5042354e995a; 0x3149e26cc02f9d7b1b1b0626e904c30d7144b67ffd38be385; -0x55f442e0b1fabc1ff77a19fec95eb6c23cc2fd26929ba5b7; -0x1650d2c11ec696e27b0bb9cc570c022daa68f306965a00fbc8d982a22dd2f78c3abec4593ce959ccef635ace8d575d3a1; -0x2f3b3efb69417b3c4ef58634d34f6d0335eb3db2781a346d3cd723ee590c2b801e73816412796160b2ce4aa83d62f8db; 0x82ed2b0a86aecc1acffdabe1e0d98e4ffcb3fe00a09f89d32; -0x5ea4fa2338c9140106bda2ee3482e0c1d08ddd89e6fd5d39; -0xca7a5f6cd973f38851c2768c32ade14a30fcc2b946f201b4be4f4986511d652e99d67ff798dfd58279bb9e79bb4825e3; -0x7e1f4e27b13a9dcfdd655427cf559dde56bdbad278074d171f8a31867a2a5e6af51da11c675645bb62850cd8ce8a42e; 0xd6fadd122d307d0bdfed83b7d288b2dce840293047f053c27; -0x159539879f9c134183c3acc1c6d0b445f580962132f1f793; -0x2375d1c03bbec789895ad3d332f3b2a2c1970983fd47fcbf332c7ee78925fb942902ed99ac7d6da84e21b9d0b6d73cc4; -0x159b3fd66039b6104e841160285c6831011cf78c59cf190886e8e40b11e23837d1ed7da35b2e24b6e47cecdb2fdbc69; 0x27607dc7345981aca126efbfffafc1b3305ff3637e937fb94; -0x5b51358a29b4deb683a560f57bf668f58475ebfffed132c3; -0x5518ea73855f88460cd2ae3a7c17b707690b0d8f47eb73d065b3600311c9ba70e45a1f4af4b96d17a1f041436434188a; -0x1b49071ff2776bf1274572a01f3faa5bf30bc1fbf59e07195746ff62f9ac14c203384454dfbee71575381bd5894efdc; 0xabb536f29596ef2e4d04fa3f3e6a968ea3ce12ebeb6be6297; -0x2a63a9fb059b599328a6e0738d1eaf072cb110d085c6d5c1; -0x4a401ce951772d5feeb446d00487d1f35b9713d74b12bbefd63401bd49821b40c9fd8283d702269c55fdfc1347ee53c0; -0x352aeb002363c261c4eee9accd2ae6ef05f49016caec05f4f7be9b232d0a4267a8b0673a986492d2e855c04cfaaf5b5; 0x44a23306573c562b1dc34c4773f969305f6473bfa803ed0af; -0x1ff36fd7be0b00d816a5d98f5b3948a18b6f046a96a21813; -0x9ad447c2410211dd4ea21f7004064905efe35626021c03ac4a359bce2868cbac817454ed6f9ab65f269309bd32f0edd9; -0x3494bd52b18781e64e156fd56d6a8c87bf7d7c11af018605cb8cba7696a818ea0cf2c4b68c5e04300b86370fab8733ba; 0x3e773346b6b5c2e3bfbeae5536e11082b84786aae3fbfcb8f; -0x56afb1ad62b34498d1682240999603172c50acb241ab63de; -0x13c6a3be2136c51e57fd56a0b82a99d35cf96955b0355a8f6717103ba73698fb88e1a74ed8ddbdc91fefdd5ffc64e2de4; -0x23ba2baa8235bb3e0959d00e8c9cbe3b1712b50cd23d8cb85945a0731ba5e32dd83d8ce0fa4d2f1eca8082240aee5d54; 0x8bab1c2d4e3e0488c698a4ffd8fe2cb6ab4a03acc1a93cc1a; -0x1cd00567c3c56bb39f12d1498c17d1d16be8f3780ee06978; -0x59d79a69abc99f8eba8fb0dbaf6f77565745b167a4435b0ac2445000bca2391eafae881a4202316ca8bff8901781aed1; -0x17dddd3f6dd5c19f0479b1898a1b2936731e8940b868c3b616b74ce514252049e98a664654bac2a0b06576bdb5f2a58b; 0x263be4b754612b2b3e9290d8f5316b49b4781a4f1a8c262bc; -0x5ffa43848cddc728bc3d7596078035828f828b8f244f5ae4; -0x1ba337a2cf39ce43d031443f874a1aa82c5fa978faa5895421e91351d6b593c7404684fb412518b04ae68ec96859c5924; -0x385c76f510eafcd4659932c7a57cc17eaf55a25d6934cf68ab6a68504d47fbd16a7ab4cacf86719a0758907a99f1b9b9; 0xad3c71a9eac78e60254800ffa5ec6ac5fbe7a14cb9e540bfc; -0x406925ba50775612c793d09797c69495ef034c651d4ff5d3; -0x220799a942fade1d0dc96e396da5add10dc6816e7c789c3e951a17243d0906016d38bfe2f86d69bccd8c26c117534c57; -0x9bb605802023a984e939210c5165ad0e8d97a8a2d9be0e2371e56ee21f4c953f898d463ced6cfc51af73af126778ee; 0x4ed6558844c8d5a474e4faba1f4f446a12f1c1b007a3a23a5; -0x243837989199a745f9f5caa6ed64f64576a27f656f319fbb; -0x883027900798c3251c04804952afb8afaf2a396bac5912ac0f32d0633cfcc518dda568c3f1326f245ac4ff949ffa6a1f; -0x10dc0c0f9135bfdafecff1d75538b321ff2fccc52cd58b36793c899c5d429311eaac2db58120958ad4f999535510bec6; 0x345fec300eaf664e4b0cc67eb01b39d1a5aae9d3c831b8d94; -0x43a2e4adcb894f06992697888581bb27ada2c30a396a75ca; -0x1273183602164bb2ce818ef40daa1165ccfa3e88d52df9b7b6c4efb5648e950db5ca23ac307081646d4410132c6b5d047; -0x2fbdeda91bdbe1ad9d1c451b795be2bff25cb9dcfba042dc71ff200107dd02a6c789b6cdc8eae41d5778c68254d48d9d; 0x66fb65c17d395f0961f2e1112c5eaa1fe67e9ff779cdc8d73; -0x1d0280e34b5e4c5d06602ff057576417d4f3382336b58095; -0x66faee978dd6a2a85ae860bab2a63e3d6f078826804c21a2a0853a8cf907173ae3209fc086b2974fb7fc1377a2a08714; -0x198eff5974012d924c62c4df380f9c541acffc7b4c44280b5f32a62026ba7ba8c0814159d9b059d2a38dbf19171a0df4; 0x2527a56a781259e27b7544ab9daea855e5158987529b5b772; -0x12d86e1b54b4896f051995277380b067dc55eafdf9280ad3; -0x52008657c0642ac1a6500db3024ddde571d93cb2d0f5815efa20ce2cee9979ca2055916e5719d83110d9dc6a83da469e; -0x2b400e4b7882811a3243e8d8915458e0d0dc8d9438b01a34e3813fd9345b19ca67695d62d28478571230de3678e7e786; 0x230846fb023ea72360a53f479c7fc1cb8ddd1463e6c910d63; -0x6724e93a71f0ea3780bb893a6bcc462b8dfa2ff217a7ff8; -0x6250dead647566af24e04561bf0791b797971eb82dbb28d6854238df0ef249f1a1767aeed0ee001e9b6bf90fc68b8a1e; -0x3b006fad287f637e122123309234fed8e385fdab90cbe101059b63e992090ad6e733e3dca5f69646720e7c8336019edd; 0x2c4ec816197cebded623658900b7bfca05cd44fee1bacbe92; -0x59da4c298b6cb2b19b5b9b44463cc3b13703ceaf02918019; -0x1483b1edfb9f11b0862b7c63df3e0fa9424778271e70f9092d4d281860ad881a9d146025742750f7ea6a19624a7fcd439; -0x188ee09e7ac5785ccead6814263176c7683f716f3730b8a0667c9637d77905c556beb664933a40695711eff0dc1b76fd; 0xc06be0ad7f29713bd4a7425fa554b5c8e396c58288e8eab73; -0x3fe8dfe4ca69467354bcff90ac5a3505823d1fb1023047cd; -0x4b3692ce12a6d68d62b7c223c246fc92708316a561407411c02fbd360cfea948e30d77fb4c931599939b0409e8e65e2c; -0x33aa1fe1a503f590bb1762535de3a4ceea818c3c8644e2d5f06a883805b548ce080da81e6878f3fd5bf9520e5b7fd07; 0x47d0b21057b908bfc187b3c26e8cba5d399945cba44c15d26; -0x36a3df7163791fc843feac2c7f883b4cd4b3feab21bc648c; -0x1758da92fd73457d9cc96f4adef4547d7aa5420e69bff955ee73d1b57aace3bfa104360b51c8bd90ddc35017dabe322d4; -0x58e79848d2c246f19ab1f8b3fd80f02188f53837924e7ebfce1978418b217038ca86ba0c41b02f660382f0ac7b613d18; 0x7a4c96684f881c810415b6a72cbb25f3289c9a793fa2fff88; -0x3821621397c5ef307a02e0052096c5c7d79da363c831277; -0x71f123442f74eddf03bf79b16a9b65289f9fd610633421713e9c64300a0e9a169c2bd6c662c2d0d672096e385a3da70a; -0x2d8174f52804a2072ab056f6a0486384ddfdfc87abcea9d5e0c5fa0c01dfdff3d178dcc5391dacac525da52705008b11; 0x2ac2fd702727f11bfa23e10285d5f09f12bd82e5a0a89c647; -0x5899a7a47b41dd8773050ab4bf47ca237c756a4ea4063010; -0x24be3d88c4c51098b37ccc81bca29ecefd708fd203726565acd2eee587dd2773e382e4d36707df25c6493cd0e7469016a; -0x53e76ed9b19844e7dd9205dc702cffcdee73c411341caa47b7ed5672bc26a546ef9b075ef464acb61b960d594cbdec53; 0xe8b6fb9afc6c7ca5265266538663b94fbca23164179001233; -0x3b27d74edc80cfb5ee3c60f4996a5d27db0849098ab11; -0x28cbae09075d8c240495228d5dc4b46f2cb0e3291027696c5bdb1cdfb071dc82657d92fa5ca698c82d0e3af9c251fa70; -0xeeb554ca66365bc87758638c9dcdd21bb1a746ea0890b6b9d3f2b337110607bc4032f13a9a0977695ccf68771327e74; 0x104b1416f38e3539129070eddaf829ba1fb9823333b91d0c5; -0x106ebf1e156f6b9d529d1649eff4282b265938fe00ec527b; -0x10996259f9df1a6949360e0e84f5851d78753221042ad10ba9820fd0f6004208d451067899ccb345e35115d8f430e810a; -0x55cb81bb61c3b93a233313b8cc1e652fa127a44907216f396bd44893bf3d60eef151717763e0b37185972ec850a254de; 0x5cc7791fc92278a8845a4287b05a508bb294e63564a96b337; -0x455bf4c206cc8ed10f04a1a198891572e7b929a573cd54b; -0x5924fe9133bf4ab52b6734a69164532515b93b775b5b72e901772d0c9ecade5369217d0fbf7410c3df5299e4a139611a; -0x13815d3a20e5918fd993c7ccfa04e34f5466fab26e8b93503dcc87a517bf81c752c443aa59eb3e2bf39704b3b7f18f4d; 0x1d98dd532b336c03bc5e4eba8cd062e8e965925dbd15e4afd; -0x23bd4c7d11802a605a4bd934929c8b462a4d6357f9dcb307; -0xb1660bfc5b86b3ed06bead9735f27f2d15c801e04524eeafee2da07df27df52d494276af0ce8da2fb88107efd349d71a; -0x23a7d69434dce5017f74d28ce84598b403925145deba843f75de3f17fd84610980561a88e4c74b7d560ade11381832b7; 0x464be07fc45b7642c0716a8d6fb9bd72049969a68ce831434; -0x117ce40d37b9125a74c178e393fe9cc4402d0a95b125b101; -0xc106972f800e2f1c2403643decee4b7a87b4f4d7abeba94874f9477cea858fbe69134f1632317a763975ef40d7d2170f; -0x5c71e9606e58421467069b4322317956be77fcbbe89ff55729eaae9d51940609f617ad53d91ead083b17a973d8110f4f; 0x4e34cb09d870a7e6940e7adc02b410f9feda53cd583de4475; -0x62bc32afe35e18bc980ad8761d3c600fb3a29f801a7bf5f4; -0x1f79c5d7425960f3b3b6984886e59ae1ccd0702a045e0aea4dec95c09a49a537c6223b46581b29af6012e45093561ef1e; -0x453f24668ef5c1e9747dcaeec4769902594982647711e49b1aa153e4531cbb570c52f23d075ae6b8717e2f32a1134757; 0xc1284ca24cdd81bea3dafb95393701e734a85fcb1961bd812; -0x177b5604ef28c06c1b5a27f16f1e3352fc9e249e655a08d611b4ab44c2458a5faf64167ec7aafeacf5b6127b6b61f7a9; -0xfb818314da6aad182707e71b83bd56a5b3d3db72498fed04fe8585e65b2b3f6cc9ef33eca3a44ed7bb2e00891e9f48a; 0xf56e832e33b58fe56f16148b5f85b47d0eb95f59c7de40ae; -0x1157bcdce039c09bef8162aaef46ec48635f6e22261d0e17; -0x47d4a44c0672cab7dab7e9a948d3dd81cf3f5ec7f2bd665cd301387551d73d407d6b0930d757e7e349185de333e640; -0xa6d379e42c18adfc30f42c7cc17a938b8fae0991dd2c337361f7f8a228b7412e5a2911051543b281f901ca4011f; 0x13cc526b5a453297dc13c0b2b1425ad3c3d2d95cf5c36b956; -0x34b6e9ee41d733b0df7e9caee17bad80b19c118a2c255f65; -0x8bd926f2e9a721f23548de4ec362d23f56486c42c0ca1a0542948350c6086b51999747d88e9fcb4de5ed9afeaad70b8d; -0xcbb1726ab49ab4a7dc98e3656a8b1c34cffab213229417da6d3c0d340a61da76fbee4b1696b6cee086d048cd70638f5; 0x4de98fe34138a56e9e958a5191f6f321e02f0ecc99d155ce7; -0x18bcbe1fcc90eeac8178e2ec0dedd851280d39ee6cc94f5f; -0x1664539b39ebf417ae609298a701c226cdd6c90fc9ef9cdd5c45251531656c0e33dd1d6b8d95fff669d978734c6d1c1; -0xa1094abe08a13a770bd7e42c8dfb4ce1b95e90071683d1610ed1169e1b90a8c174cc8faea21659438a39a20a1192; 0x1fe2e43525dba5757e2709ee0d82930c209feca173e4ae33d; -0x138d64e8d2c51a6bca4b19b4f36f7d3ec0fe1cab21f58559; -0xb9c6a5a1a6e6c8460fa13ae43548d728d33f1d133f9515f5ba104816a931922ff8d8bdb30f34d2ccf977b931fbdb8de4; -0x27d0f2d2d78a413fb86c5ae00beed5a797d9a823d8232e5deb500fce085df8458e18cb1847a9b7342e4044e0720c7907; 0x36aad6976384f1ba9d3bcab69e030ee3d31cbb9e038891b91; -0x63e3927e954bf058955ddf4b737a7f99dc5c010562f7613b; -0x1bbb653e3745ce38f15e27b0802a81e3c055712357593e550f5e179982ab619a278e5ae65ad3ea36034e6bc54c85a825a; -0x1fa01392ecf1732b527e82b5579c75d33d969e6d343dd5ae641cc82ab44322a887488710c76977f84f1c1cccc82c80cf; 0x10c8df7c51abeeab0aea0092e87b962030a35a0cf71b278f9f; -0x5629a27646eb907f332d3b623441a2a2e91ca72eee32cfa9; -0x1d04af716fb525455731928b46b7715a053b4a90dae006a761ccc94e292db9905085a12199d4f1ba28ffa31997870d6d2; -0x464647712dd58097003a2ec633368553290107db6823e366ec078022983114e7a9aa1c0d21cc5eb30b945065dad273c3; 0x9fd0326141b05e66a28e632bfbcf4464827ed6e7d7eaf9467; -0x4af9fc32e4be054f5641187f5af94a168a6a98b3627fea4d; -0x15e6b5a486a43685ea3ffa9a29c1e956964f0046ea3428b7d32c85176e98a51799cf355b926389e3853aeb6e652990242; -0x1e799dc53141113c18c7d39ce61941798715143297ab134313a9d3f4c7bc9c87fb40b6129af24c6140f921b42ff4504f; 0xbc5d2bb6752fafd840c191cb6bd598834b089688c73d1684f; -0x4a296bbeb21b3cdff63e35a27ede5b375c6269eaee6e90b; -0x164afe66bb4f0ff52c2d621aba28a157c0ffc16109925a2828830edb4087663c024851dd0c7bb2e6b8157660bad496ed; -0x5227057377a9e678c504a1a314ab2b983e245a3fc3ae57fd39fc4c36225bcbfa7d567e991fc2201d12085e9028d4b69; 0xafab813d410cf3c6885ea5bd2b71f4aeaa9cef866fa4a197; -0x4f215a708f25f0dc4fa657576060bf14bb6ff3c613a5e0d2; -0x2c38547eb0e052226f55e92e1e9629fe9fa36318dd6544acbde79a5b5831c82eb88ac23bf89327b8ee84382a39da9023; -0x891f467bbbce71ed3a0641724f84f775528a3fd03609383c5cb0a44bc7dd3a83ea6ce5c529fd48f1c27f9e717445d4; 0x92aa4cfeb724284296f911c4ff8e558d9a754dd1fadb2d6ef; -0x39d75379b7ad00ea2883f71f5210160ff414e2db8c790621; -0x2b224c5924f82de4efed88aa33eddbd95c15137a0f6d36e1d2363ffb3e7487db4748928795173dda22412b3b1245edec; -0xaaff1f75485d113fb6dddad8dca078826fd4b987bdc9a7a8651b6928d8b324e4d9bc4a1585126da391f89d3fe36873; 0x714db32def702f2d09359934ae783a98c00f8aa929497bbfe; -0x5c9f8088044f1365087921f16dd6cd171d8026cc270c3948; -0x1b3d520f5d6c4e0d16578c22d494a045f55a63b0e71e697f85e85c485930ffef8ebda43e217c9fb352424a4c9b5787b7e; -0x378747ca41bbaf37fad0159bb0db03f7123ee0f6396faf6d6fe7d91d7147f6485703a103e46351d29dd5a641f3b807d4; 0xb551df57727ca98695565650bca92275888dd440437c133b1; -0x61d2d68ecb28599852c770896214cc9869e2f4b5f7d2f753; -0x1092d306c1bcac2250fd040424acf5795de43add3620df3fbdb77257caeeb63342e7752031665038aaab3422361258273; -0xd02c99b4dcdd7db9358f8e32e86baa463ca468d4bce51a4b4b829525ec8bdcb480334d38fa3da8976c7083dfb524f40; 0xe46b8a2a397c4ff574b2f743a95df5ec581ce0fbdfb5c896b; -0x1f39fac25accce9d6a612446c032b02d8d5b4401a47e7efe; -0xbbeee32da7a64e3b31b24309076f5650cc18b25743ce6b566954e42fc9a56e6feb42c30923b2eb57025b9ffa6791abc7; -0x43a4082a477562b0b804b404aa40f7aab2514b24b6d113c79836048eaec841db71ca7ce9b81f5586eb9c64df9f20d4a0; 0x35d791d9b40ea8b5baf9c8e9584e88e32c1da8fae257b53ec; -0x2b0f808f843b97d63c017733935810dfccbb48fdf8e37703; -0xbf402ac51358157c12e8ca93a401f27fbe2223f8dccb42061382d3272b780b89b20e025d7727b8f8b41c6c8596bd8338; -0x188ccc6dbf2e0104c9ead00e72c42ac689688cda423455591a10db26f5cba2142eba63163f490fb39d1dd48cafae6722; 0x50fe366559b576b6452effebc00ea444cbb256495dbd4a5f4; -0x19bb4d7e96725b84194c92f01ed3bb86e9da8a3a9649cf4; -0x42b845dd0aa2f309c5e32b744364bac6ed47897bac67b8dfd94d245e123d67d451185a2fb2ca6eef99599b925facd31a; -0x4b0f14e83f732aa16fb67b6a5290e344f5ffc107baae21e5b23781358a94cdd82c020f440b9834eb99ebbd9f0bcfa5b0; 0x333d0f1aa87f23d4eadde5475a4d81360e3f631f098914355; -0x289ecbf5f939543351abaa9a19996dfaa11e09da2f24fa29; -0xa208b6da18233498c1c9316736ceb42ee955555daa54dfc08d0ec3ad3a0e8f945b3c567d08bbeb7c337cf687de4969ab; -0x16115964e37767f461161951a222388fc5b7e1a7655723a078435eceec629cc8ef72372cf0876faacf9a62749f4ee02d; 0x3b58dac955fd04ffc6ab49d0822d3d48be6ebe3dc9725090c; -0x4bba1dd1512809cd19e69e0cdee715a361e24a6b4d9e89a4; -0x1103722e76621ce71e474b6a0fdeb681533dda2ed33f8fa01d5f38c3e762a2f1748aec3f8b5e816b0bae5e3770531de1; -0x1d4bcbd1084b42d706450d3e62f87644385a4117a6c3a70f70fc87c9dedbed4e2f1a09a19781a3cb028e899550be9e; 0x65dfe4ffb67e7e741bce7f12de18e40bf61cad3426caa098c; -0xf53dbba46fe0d4ef963735a3324f627dbdad177d18a7037; -0x8fdf998efe0010fa835b64fd5e841a5683ff7a961437f1edc005072ca90fa6aee510eb614e5bf981c217bd31e54a75ef; -0x63ac46171e8ec2eb859899285df4a31e5e6f49e93c364846892b2f1abd097d09d86dc373a3a411b1a15cafcb9d6a0b67; 0x46c56879e97c67c4eca8c663815f213bc91e734d15222f0ac; -0x115a040e36effe2cde4ea16e8bbd8ba5b9aba9382e13805c; -0x687e0fc159fd104f2104e3e0aa6b7826b95a5948b6ffb78239e37aa2aa77d444411983f1eb4487d73a5d166ec826808b; -0x1946f3179ffca87b5a898d133a31ab1889e77a1d43a8d4457839cb83dfbc305a7f33db4118171cb3e1c493cef1994741; 0x21eb5c0238e4887a59ad3af9d18b397fa781b16288f400c0e; -0xed4650f55547e29ba8db15bcd63681b9fe9e2b97164d21a; -0x5bcc339eb86add468be24ced0141ae81c752c16e4aa03e428f7b01da5b18ef8ae44459bc188c94230b70053711986a70; -0xfc17f265cbbcb62fcaada176593e13d759a385c8dbcea7cdfb0b8a3a8c31cc68e4c119b26f8e036841e03ffe3250c97; 0x22bc4b57fb869f9adf1ecfd610569e97e30adb8eafb18b059; -0x590422bbd3ea929a84fddb853c1ff23f0b092675616fc7f0; -0x1a0360b098b724a95ee4a4d540cbb342070598eb3da33bcce7365983d77f37d53efa7f7584f1237d7d6ddcc13e873e12b; -0x3c5f17c526cf5e9c55d97bae8543cf6040b9da25666735ff4d340db5b55583aef0688515e532dc255b1cbdaeba7692b3; 0x924241e0c383cf1138b05164ff01fb21ed145fd15d6bac12e; -0x1b4027da7e9435fd64194cf509fe1e37200281c2e49d9aad; -0x4d9841a890e6f4735e967f0ad92e25e918f1e1095a87e72353f42fb6409ce7b98854c9d581f7bbeb84da81d24d8e8840; -0xd74329e74365b2a84e0e63b64bfb92173fae490e8722119dd7dd158a9c1934e8566ceb32d2a46bc86dbc9caeaf70d01; 0x1933dbaa5fd2b0e7d31aa622e40c28f91a524f93bccf048e7; -0x3af1a132c82bb5b1de1ed6410f0f0cff27b48b3abfb52c1f; -0x7d37436eb82a4f8a02843227f949e9910550138b8a490ad587df2b5775ab5718ebd7d5b43a9021a014c53a9ad8ecc5a0; -0x84c280e7777c5e9a6cb73677625490ff731cce8cc5d8062d9084b3934690cdea21f12724ecc028a83e3afb558c58c48; 0x56e8b6a372ea0c32c1b02a00d9d566e58aacf99d600e34822; -0x464b53f3ab9e88d35ac28e01715b43401a1f985cfcdbfb10; -0x1cd651d0d6e95ffd6d808b70d6b668b9abd8ca65e7bf0ad7c16a720c92651f5c94e363b75dc92720c8b385d3c1f876592; -0x4595f341790e565aaae09dc64765d4fbb040f3b51615a9cb05a3e9555fd7139fc6f22af7e183511d9793f90713859067; 0xab69b2b22b865a13db9cb2b593beaaba2e8763a6f2d160582; -0x2e01e19531da1f54b6aea9aef4d3606b5b5b0cc4f9d13643; -0x137399f83f05dfad7c81a02f7255c668c7de89c1ce5e63c911fecd714275acf97a3ba5270357b2162d7d8ea8782ffdf6b; -0x3bd8bec8ee194bfef7c7548bdcc31657ce4df8ecbe745a56555df450d7b4295978084fa2128fe3c79912fa134a8d84e0; 0x5d664d27a4c42b5ea3b8c9c24da78bbfb47414556ef107d03; -0x2e4e620dfd71ffe65ed7e3efdf65966371fb4c4fa6a1609d; -0xcfe50d7805dfcd9b77c33008fea10722fa088206d8690d1475544c78abc58a53d1f2d986531a6a5ec0b000e01906a6d; -0x1b16d6d6162661b8efc4bde6733397d82e05ca7930f5b451bcfac685d23a5c6fc510f2fca02bb7b66fe35df5669592; 0x405e49c2af7bd532af91b858320a067d24152f56dd77dde2b; -0x5d28c58198b06b3c6a501ae13d631cdc2b49a46c1b6ddce2; -0x1b862ab5492f7efad202d01ec041e02c66b1f3cd3c7795553a11b06338eef31ab0e4c76ced5ad031bd3ea00b330317034; -0x3a3039f00f66124c5d6e409e9c0700f36cdcd7dbc090d8c0c06dceaa75c7af5d99e7aa8ec85f07dd80753a6ca5964eb7; 0xb41c32d506ea9941f32b394f5d255127665f3f1d15c2e9a88; -0x47e516ef9a8931f836fb6800b2cebc75b99950f7b6634871; -0x968909be06bc3515df3765e07e0056f50a79b9fbd4efc128c220cf64929a7e400c1aa4a09d4e19951c4fe9de64253034; -0xc0c8343d0becf3afaca4e393a842fb4e53c04752bb963e08242a27de78572e6d6e828a342af652b78805e073e27a484; 0x520c3657c04e03e58a59ce76cf2a721bf03c72af34a4e9cce; -0x5e6102c7a2a801460a9894313eb8c2750e9a79090b9cd0f2; -0xb3c784115dc3df8c629efbe3c78bb064935e944d960eed11469aca7708318ff362ab6c9654ca91f2ef4642d875bc0836; -0x942e0181e44f10097462786aff65eb2ce6a8cf482a61963027e0a54b680c1062ba4ed5f6e0d8f0b8068339213eaa557; 0x96b54c74892e7fcefef9039ec115d0d724f8d4f876fe97c44; -0x7c9ad14a2a810c203b9130f0d1774c2b6d656f6756139b9; -0x2749ffb8b438c29c2d5b6cd068e6fb3f24d26e4b875d7e7a719da1b649fca8229cadd42b6c4e6aa6e89632c7c14a78de; -0xcdbfd833c42f023e91b836db7b164332502910339d9aff178169d147f3686cc9c6cff766da82653f7566e970d04207b; 0xe31ab1ca5cf66d02daacb8b2f191055a30f5ea23334403ae; -0x2ba81e16a35dccd0665a957ff1202ce7085b9047fa9f847b; -0x13a3c6c396615abd6eef895fd2b962138faeeeeba2cd8f73d660dbf3284840b4f9f90b5984ccdd296154ca3cf9a393e30; -0x376aa93e14ac035a783ccae93d59ef64ae7e0134dc42687e5702b0c4ca418f76b754e92cb04e0511009d16ce93bfc665; 0x739fd3c246b786d185c79e08939b3279bf58eef384fd29dab; -0x2162c6f49115f2dd4ccfee196044d2e8fb00b7366bd44946; -0x8ec3ccfd0a7fae9cabd44f816a9e77d1da9c79c8413c5d56ead7d5df8acbe75f9e751647cae6f0b3bb5eb289d02bd4e5; -0x133f5bda934b32fde63ceb57fd2bc1533fc83746e77dc9cb9d41ed1c3cf71812969225b54ed4c34314173f96525ddaba; 0x3825cb1b5b8085caffea0cb98c7d195346ed8b8db2cae0149; -0x1086a21b0fe1b10ffaf1d8af260968950deff1b29806efa4; -0x266595dba625e421f3c04481476abf5bbed0ef39f511edf589d54ac516cdb4b7cdf5a018764604a9a4ad1dd52ff20efc; -0x4c40a1bf3c33e6d43560e1a090b2f02e349091d7bb7f99dcf7e2c3a013b4fb2358590970b20bab2b7cee551c6aedc55; 0x10f0b1bb7ad4710aedc44bca3885fb0b3df909992b6613e1f; -0x1b26809692099a34b330f257cfa5a9e00db9387ab34674a2; -0x6ce2a6839523e57c18640525808f6e081f5fd579ffb4f0e3e795cadc6344a824e3d30ae9c8a67492c9659e0c2148141a; -0x2848559d9dd66ca947df8efb6a0b94c78d7224174a6b4a0b686ba0fd0f3761e0b5707748eb6913f204c0d1fdeb946453; 0x201c10765cf195b788dc0a7287e02eca6856cf97eb0d00000; -0x5d22d516fe7e8a6c65a8487e4d007a8449383f253478a4b5; -0xc98431e7cecf3e3aee7c1980c7752da41869ee280698791b6d155b679bbcbeef9dd354738161df132847fcd61e7f8d9f; -0xb5e7a64a9c2956b1192042d3db2a8674a20e823172ef9723d7d890081d89dbb6fb750a89daa8eb7ab1c99cd8df5605e; 0x9453c09bfeff9a5418ba8639a80886d6c3a602d6671e12bcc; -0x589ef92a22518aeaf58994ae9ab1619eabfd674d133c74ec; -0x20f7826052c2c46d6d8a72f8a0fb3e41cbbe57acc6276295002b1a914af90b562f6f0118e5518890b26be398933d1a664; -0x3d18c69f1a65f249dc331c9405e845b2c75fddd4797506b7dcd8816e1ad71b7bb551e457e184986b7187af7abfa3559d; 0xe59964af2b1e8996564885221a9533ec00d6d07dbb3427a0e; -0x2bc0820399b28d1cffcaa5f4581d1fbb70951a4ea476b4ef; -0x10e980da2b40ef1a1d8e887cd6fadeaa26585d31cb053c508f0fbec3acbcd9e71037ca2b55fc2fceba266716b96f73d0b; -0x230c94db065d63821ab46623b2b9c9b78c41ac625c391c70ad659d2bfe7223ad003ae85c3f340b0b62a1c0e2a17f08be; 0x74bc29b48f5448f9fbbeab3f45036ca2c3796f5f2960699be; -0x3d77118dbb4895a8007e1feb7474d3ef46173d1d731fa1d7; -0x14e68424de7a491f7f1a2daf4f18e0cd377aca82c8de27ba0e90d0b43a9026776f0522754bfae57c0b3879895281c2a6c; -0x39b346134db4980dd2a1d572101954d209d1036b4822cfaa2cfe7da39fd8b1bc2451c7f6634f37d5e2655d5c651ff40b; 0x6ec4d25f969236d222a1ea6aeb99c079b61c9a46f651ec0c9; -0x593800d0bd43e412c6e881cea5428037469fc214bf2da168; -0x20932e8f9ee243de0b679e7bf0c9c119910119d3d8db917b693d1488570b9891db63b275b571960295a629cf7835d60d4; -0x3306f96fbf5d4b2282503968c1308e787055d2dec6ba0538f2f025827efb71981969e81003e67805b7fcfca47ee487b3; 0xf45be4dd7d3785b53fe8b996190b1418d424543e1abaa1614; -0x1d9ec94881c8aa190581ba8d77e8af7e8cbe3ff72230179e; -0xb0d0be81b46d63d8aca6030d45dc3ee97e350614f78f4d43028b6b94c08d7c48f9d84c6cb2fe658c70e262a911cb5191; -0x27ff8e6357669b395948be229d7c0ca9c4dc1ca9b91d5dfe71f00ea1d848bd90c12de1d2d84dc4ca2179d628f1be6f4d; 0x34afd78751242962d6750d3a5b5cb327ab8845e6a8facfb1d; -0x15fa53186cea9abf9df0eb6fa1ebc726e24b307e7c2d51bc; -0xe3c6b73831071aace7aa10d4e59e2f757321992d6308b6d03413c619c0536349f474c1d185c0110ddb9fbb505562abf2; -0x3eb5039361c9ee706d82456be3986de027d3199ce647ba3017c289aedb09794825b7763c0a05c27eb7c73469902de313; 0x539d5916aa63a20e1e81bc1bfc976cf0ad0277295662da65d; -0x1653eb4889ca104fa8631f1f7d835e68dde06efa1d6daebc; -0x60a1a7cf0d0efc5a7da69e2cbdb1354a6439183097e3b8136398f298ad5dd91603a857c60fb672d88d10a00521725a66; -0xfd9df041afc03afbda9f402ff872f3409611176655095333b3db5bd882c89ea54421d818091ca09312c50798313d75e; 0x2b7d2a2a768dfa379cfffc48ef816a149df583b1d446ab197; -0x4a5660dc019e2a6bc715e75acfbe2a53495ecd37e2e1ad3; -0x50256543c6c554675be8bf4bb139e95416a09a30c104866e4ed1c52f233338e225567782562be4a6ca69bcd44cca8b16; -0x3b62daa043d40e58619a8e3c99e693efb900cae07d9a1ad966e0191ab678748d33a2e4402090c1a849a57641a1bb59ba; 0x36434638adc9029fd86952a289449f88ba6b47be87c693d4c; -0x1e4ef4a0082f96b7874459adc7b9bab6486252b49f648e1f; -0x1642ed3e67431dc9c3c6e888fee896581880e659112c5240c4b1eb3ae8236ffbed6deefe9b2f568d8d4cb31d8384fca2; -0x11f27aca4badeb63124d7daa1493bfe80e2d78ca2788e38532fa7cc0898dff9a7a23f3b33e476161dc2277b80bf9f2d; 0x130c6b8c17d6ad4eafd91fafcaedc6430b27bd58e2ace5614; -0x4b0506669e89f1325bd7bd824e8d84729abd511c7e27d759; -0x27d88d2a74698c7fd2766e57ac9394c840f4b167dfe4e22de6d69b7c69d5e5ba316dc11061b07df3b43e6efd2d8645c7; -0x6b3db57bce4fd00aba015d585a34775f12319736a1ca841a892b6cd42931dc5a363f482660f593d0f4050305dfbbda; 0x9899144d87fdf6a9a9a3444ad50a27653450b5dd1d6b4eda4; -0x4ddf2a7ca825fb379096c441d86f4c3c7197c72c5fff8ba5; -0xd88c6973e3f70e123039331607acb35427f181378054a5022e95eb3433fcd7df6b5cd8e59282b000960907518f1b5eea; -0xcc5b479a5f03d131116821f1bf679db08b1cd8da673ecc2cc9470349a0c3fe0277305e17373f8d3b37c21e248521a35; 0x9f98582a448878d45e23753a007fc812602f813ed1c3914d8; -0x4ebc99916df2744f05db8bac552fc9edd1c5e010834f7fe2; -0x8033b5f78a5320d8180af8f01cc04d24d89788861516a2e9637cceb1b994d8bb6f436e2c87d2b412b88b3015afe6fb56; -0x47266a6c0a56d4c639f9185ca46ede69ce6915a7f02b0415e015e9c9e2b92c7779aa83703a3645076bd136e48966406; 0x98c1d7e0e1d12277aceeb913f96045b94764070c53297a000; -0x4a11cb8350c2f9d4ace2b11c33184d8e5edc21195e38e0e1; -0x21b2e8a457500f0a3703780548211a0c592fb648fd887c8bab7dd7e6c64a8e39cf0a00c217145087b1d65caec90e7b81a; -0x61a7393bf3bd475ee926164dc4e0bc1d50d05d227e6101ff85905fe01d0d53f9880964312ef5e35e56d7a075463b4e7e; 0xb5ef08d25d413df67252caaf600871c7e7122f76c36c50e7b; -0x433baedd9ab62a9a4f2c72cd7a920f5c81d45974b6e78d7a; -0x246e7c896c43bd70e58650e9b1824a977c5eec075c5975c06cbdd1bb952e683106441df63f07934deb932fee4df831144; -0x635a3dd8d11e42f0e05428f5139bc2504f0de5efe7fda40c10b93494ad60ad5e3f4b1d83a189066f27e3a2977959477a; 0xbcf73457bfaf3f5ce0ea2af622bbb36d0427e1126c46af334; -0x17fa876692fd7db77a8b08fea5224cd406efa99a010a8764; -0x5e67e81724beee4e614bf0ec1c768851c95bc0c32b998a2087b22d56f4322360146efe3dc395e760845c9fbc8ef22b33; -0x13553dca2a3a04e218f36d44412d137b905a5a8fb53ab3de30a3ab67f2e4e1a9df52ee9ffff98a57881bff6adcb36016; 0x29776f1258fbe6eac26587f6e461a540629a51b34a3fbbe8d; -0x44325bb9d583b40251ed811f26427e69918af4d2b8035e5c; -0x1e2e5c9039318e5a556f4910f990554d7f43b3077cce64a09670ec42667bc97e50ea454dd8f3ac4f343a7d43f97528039; -0x6174fd2383e958791de3e165fe8fa2647bf577b033f9a0f3eb358b8287741538c4977e71528da0e3acf7251bdc1e364d; 0xa1856597633566d1b967b606a7f0139a2fbb7075b702ed72e; -0x43f77219bf3fb11e206cbf5edb2ebf6596da79900bb6a9cb; -0xea4832166092733b3435e881be68e072fb288415b50c3fb4cfc336c654b55669b7c453698ea9d04b32aed559e4934b0e; -0xfbdb2a66d35f1ccf24bb02459e39604b99a89e105d25fa87940c1f018201eca3d1ae119af0efce28b4ac2027ea158c7; 0x94a9b19896e732cfa368bc551a49fae85129da78afe14a2c0; -0x371f9662b1563503891a7317d8e26fa1ef76abf0daf45553; -0xa758b05b6d7d6c39547372dc79d357fcf6beeccc4806c4813050bbd0474e5b45b2537ea7394b4ba0e112c312d2da118e; -0x14bb28358863b538bc19384289e04105c4e5109d21d031da04e3362f411b9b75e222df2f61ceab3ae71c105b47ced4b5; 0x47c7d1210c8fac71cceed64bf060131f550f0d551b4540dfc; -0x1a43f4edf8040631abfd3aaf1b4ec9c04379939efff402f6; -0x97c9a6e03ce436e014bfdc4c343eb6bd6d036c692df22b40970fe719a192c0979d31de9ed115dd0f1cedd1af9e81abd2; -0x194f5351037e5ded053b792d4574c474d5d70a9fde037f217a28e9f20d4a15e5633b48eb4f46492b024d7c8514c4af83; 0x3518e7b499ed8452a6790d2b342ba615533cc6f2eb237e4e5; -0x203dce742720a33298acdacc63ee6f44cf31e1a135cf0ea2; -0xe343154fdf340a8130be8cf2cc6015f92b02a1484991e711661d5a834a07be3b285ed574679b1b4af72519f4838ff0a6; -0x5eaada7177fab461b03d3707c41ee9af65a3210e917540952571df29ba2c03cad94f9bdfc59673d7a426eca2e94a34b6; 0x5c07c79cf33bf6541d1bc7f089a6475cdc6100756ab5bfbf7; -0x5a5f202569ad42a3e17513f1545e89fe4e0c47fdae976891; -0x7006f415d093940336528857f7649af873050d15b3a5a69416d5579a4369b6e23c6a20e6aca7455c58daa72a5f1b4174; -0x3f466340e0d465d1a68b74fa2c974287d5c153d705054e064948992fcedd8d00af8f881a40e549ab6477ba4a11c9242; 0x82d2571a9928d56a474dbf86f4e37662486bbcea5f7d59769; -0x53d24a18b07422d1e29daf4b74e4ea809fb2e0c0db00f054; -0x1c33f7d0c43bf6130738597f912858ebb281f484702360c204801dfa776a59a430965607a8b606e451e10f9afd2540490; -0x3d896bd5be64c229304c15bddc3f817f736904da2a9a4347c4ee2db071903c50def62036d93a9cce2fcdd4e8153bc526; 0xaa702f4f8671df38edc6d90cc403d42e086bf5cbcf26f7131; -0x21794ddd49ffbd0f8cbca34f76c89c6c764d66bfdb61b040; -0x4f85bb55f11826cf1532bcbc918b6250d9fadd46a4602422777d34b253559fc6a34e90a83d0eed77ada5e073922c1542; -0x6a14cf9c0f87099fbc964a3acd03bcd9adca6c1675205e4d66d11c9c3c84704d3be4edac1d06ffac4c155a49d395e54; 0x2af2054e528510681327e4c37c66fc00027dd491c69a02405; -0x7a5620e365f31e42e3feaae48cb9f93754124e78dfc5d21; -0x442826075e11b166ac7999dd6da22b17d256d939938c08a1c4812a5d53035f8c001c5222287682278ad67809eaa72b82; -0x5e0d1625343da6a64668e428bf539ff71c3f92fdf5cc2d111b177f42e4f84f04785e6f869c5a1273d31ed7227bfb721f; 0x3b62888991a6c62add90b96fd4fec9b8e078af4aa730d1d14; -0x360ff87c4f7645fbb2130fc356a5abbdc7fe52a9aa6fb7f8; -0xdc3648b2310c14c65ad2acf2a0465203b17e1f1cf3afc534334b232b86e697d63e6044754213a48c2b06e33987474c13; -0x180e32e6da89c1a47b4dae886ecd46f4a43cd78b2a8283dfb0456db8f5e453cfd7a7f4718c5dd2ad95a614a7b99e55f4; 0x6ac5fe83248b3ef07025fab423006d8567ad7b328b4aa5273; -0x2e335bca7e4e2bd78692d29f525ffb85c90488e9682b23a1; -0x5e10fe16cea83c255a8681058f464fc47e67facc21b8434f365b26f8a600a0285dcc5f8cda02c07ee001417d5f3d6ef4; -0x92788a0c2099909a9c67b4beb17cfac0e673ae07c7f7c6fa02e495a57e49a28a087aac0295e4bd0b543262956e81a56; 0x2e839c9b3cdd6bd02ced498b036cf1279fa9fac3a674d4dcd; -0xa5f98e11816244e6476bdf51810b0c67421fda366032588; -0x1b19a29fb5d647e822bae2ecca546efbf1192fb2443303c10eeec79ec05de1d24c53ca61803d525908ef0007a0b2052b; -0x4ad1bdab9cfef3b9458d43a53a64916ef882ba19a01df7a9e3f8e3588b541324c138565a96d5eaeb031616cb5896de5; 0xbab071624890166c1d963dc9b6b51185060394b35862ccc0; -0xda212888156418b574b039fd6494e6883e47d6d2619a2ca; -0x4208b9e0f220ad0a4edac19efdfc5dcf7a5658b882133cc124ed8e4eeb2e4d7896555c792a8f9c8ce2030033826f415b; -0x20b4d9cb66221063b67036deefdad5f58b8cfdb23b197a8251490aec5ad4abbaea1fc88c5d331862c6b69ab9ee900599; 0x1cd9b1fcbe9c71437c7e5f69dbd1d8277fc6ec5c84d38952f; -0x5e3dc39ad512d322e8ca1c982371d95e299f848eea008c24]
    0x85704ef060c790b71c2ab562244b2ac723ebe69dc1678e7 0x655ca455a71f18d11749b690e677b05cabfec772c1e244c8 0x7d7d3677298d126e9c139a383a39b775c25f4554658d2119 0xc6aabb3906c7bad6e1a2f11f58cc6d1f359d787aef929d0f 0x44e7df8ddd6646fc8c51e95334aff5eae0cb98a960c2fa6); vm_compute; reflexivity.
Qed.
Lemma points P : on_curve (cp secp192r1) (ca secp192r1) (cb secp192r1) P -> no_order2 (cp secp192r1) (ca secp192r1) P.
Proof. exact (no_root_no_order2 _ _ _ P good no_root). Qed.
