(** Certificates for the curve secp192k1: its two primes, n G = O and the absence
    of points of order two.  Written by a
    script; the numbers are checked by the functions of
    Pock, EcOrder and EcRoot. *)
From Coq Require Import ZArith Znumtheory List Lia.
From Verif Require Import FastMul Pock EcOrder EcRoot EcSpec EcpSpec EcCurvesSpec EcCurves.
Import ListNotations.
Open Scope Z_scope.

Definition mp (k : Z) : Z := Z.shiftl k 192 - Z.shiftl k 32 - k * 4553.
Lemma mp_ok k : mp k = k * 0xfffffffffffffffffffffffffffffffffffffffeffffee37.
Proof. unfold mp. rewrite ?zmul_ok, ?Z.shiftl_mul_pow2 by lia. ring. Qed.
Lemma prime_193 : prime 193.
Proof. apply (trial_prime _ (Z.to_nat 18)); [reflexivity|vm_compute; reflexivity]. Qed.
Lemma prime_393721 : prime 0x601f9.
Proof.
  apply (check_ok 0x601f9 (fun k => zmul k 0x601f9) (fun k => zmul_ok k _) 0xc1 1 0x7f8 2
    [0; 0; 0; 0x154e; 0x14bcf; 0xb178b; 0x646bd; 0x4fc17; 0x83b0; 0x1e7da]
    [0x5047b; 0x4500; 0xf4be; 0x2f577; 0x5b166; 0x14e64; 0x57d2; 0x4cb39; 0xf077]
    0x4b203 0x44a7e 0x6d); [vm_compute; reflexivity|exact prime_193].
Qed.
Lemma prime_11113956389 : prime 0x296718425.
Proof.
  apply (check_ok 0x296718425 (fun k => zmul k 0x296718425) (fun k => zmul_ok k _) 0x601f9 1 0x6e44 2
    [0; 0; 0; 0; 0x317721; 0xec8deec6; 0x100a6c2a5; 0xceef3e; 0xb1f60b0c; 0x28d99a659; 0x1b6a0c42; 0x11f32519e; 0x12ab20747; 0x26600a9]
    [0x21257a35; 0x1f581feb; 0x63b8e9da; 0x44efe1e5; 0x1435f171e; 0x1ebf7d59e; 0x12f91b211; 0x152e082e0; 0x96a71839; 0x2069f513; 0x163244adb; 0x5185c1ef; 0x1094da8; 0x83cf75ae; 0x28d73920; 0x12e74495; 0x228d1cc3a; 0x2bfa95b8; 0x12d9555e7; 0x1d8f2ff3; 0x260f6256e; 0x1662afad; 0x16c7c734; 0x2826da59; 0x17fd01cf8; 0x7ea972f3]
    0x1ea79866b 0x6db6ad08 0); [vm_compute; reflexivity|exact prime_393721].
Qed.
Lemma prime_3119 : prime 3119.
Proof. apply (trial_prime _ (Z.to_nat 60)); [reflexivity|vm_compute; reflexivity]. Qed.
Lemma prime_10489845818524887021689201254173392444641 : prime 0x1ed3aed1407c7806cfebb26f71b8e31ce1.
Proof.
  apply (check2_ok 0x1ed3aed1407c7806cfebb26f71b8e31ce1 (fun k => zmul k 0x1ed3aed1407c7806cfebb26f71b8e31ce1) (fun k => zmul_ok k _) 0x296718425 1 0xbe9b9d00c031b9b913c16a360 0xc2f 1 0x287baf52fba1bbe919960ce221f1920 0xfa506bb08cc59c5281daa0
    2
    [0; 0; 0; 0; 0; 0; 0x2137bee33427bbd; 0xf69d768a03e3c0367f5d937b95c719755; 0x7b4ebb4501f1e01b41aeca04eee6055a4; 0x115d12dc3e7b9a1bdda5b5c559b00a1a9a; 0x11fcd2fea895954c6b118f84f6c1a2440d; 0xa65d0299618f35b428e534fba08cd0f87; 0x10635135adb48e064a7666c12a36e08465; 0x1a83aa5eb1f9b0f73630ea12e29a819167; 0x31a9c0bc1b28628c57ae8a23be3d51526; 0x10da536ba07dd2bbcf737db61a11bfa42; 0x5c72753891ede0908abd982ae62fb1224; 0x1627ad0778dcc37365b70a8988e970b42; 0x2b50e64d531194cce7ad29fef759467012; 0x18bfc0f2e9f2926b6a27015b5b9d454d3c; 0x21b3fb0168c179f3e7c1e496c33984dfe; 0x8f85795d56de326d30590384561a4fa5a; 0x1a56e9e34049d0bf6e0bf09ca55bab2c7e; 0x155ea370772cd6fc56903ae2879f3d99b; 0xe7e024f3bceb006a6f8691eecea584b54; 0x18517742ba1b19aa785cacc2d4ee4ba834; 0x379f14ca07f8cf626bb0bdacb7ed9558a; 0x1b1902d9509a2a475a4f5fde950d9cd9a; 0x17990e5432257d2d54f3011036252160c2; 0x130db54ea5c1496f4c2a07fe0b9d20293a; 0x6cc2945153d0e9381b1303800f8e23f96; 0x157cee0261da055411044b8a36e89835a; 0x2846771de19f4fb76f3452c888ce61732f; 0xb438e205e23c0593fd6934ce1384abd03; 0x409ae2ac311a47c3e24daa189c5d1cf7f; 0x289070e9ba0546dc70b6c24633c5625ef; 0x18c4a9ad226c80883744c5c69c083bdadb; 0x186fb26a687301b86fae62ac72ee47dc7; 0x6a99b938e417c26ea7041a645e99e4e4; 0x4c1a17ed2e9292a99fc036dd2d46165a; 0x17781d01470d92d80eef0712d26286cc6; 0x3ade24e451c5af7a893fac4151db64a4b; 0x3a3072d807b8b61407b7af219cfc2757a; 0x1b4beae3c73e6fd26a220265005fde6b06; 0xb4a365c3fbc4b60eaf48299149ee566b4; 0x189922b8ff59a0c32e54df1bab5a6cff2d; 0xaf4d00c9cf549b65856568e2167c5a1a3; 0x1c0a1349ddbd6d51d0a3483411b8be1b6; 0x7fe43df515cfb6d7dd452cb68e5aa329a; 0x3a7d18e50d89e2c5f0d5df6cc670fbb5e; 0x21a5313f62d04ac73ef06958eac001f58e; 0x3b002bf71ee163ddf98c43abcc607b49c9; 0x5bf4d4d9cd243009eed1be850781b054e; 0xd95e40b2dcb35320e72c60182a464eb4a; 0x1beef78a0b8311aed28eed600e8fecad6; 0x36d19f51424b5f10510fccb1ef89d842a2; 0xd37d23cd1e637843ef91ac428fea5d8e; 0x2d674a4791fb7023296abd27c6279855bd; 0x302f82e0786ea8d71a51e577a8e4f5df1; 0x266129d2337730edb8736f0504e4b9c4a6; 0xd1fd1334ce335567e83e01d3b12f7a185; 0x225d06c8e5b42483bca306ac8c2ba1c67; 0x2134c02fc9c4c57dbbb2336c91cfc7f59c; 0x40d47cd9476e179f1c967dc95599df5be; 0x198c3170dea98bcef86346d8c69999ef5c; 0xb1d0effa132516eabd4617764019243e3; 0x2a2bf30d664406874fc543f928dd810333; 0xc3c882f66353e4a1d85368fc3c2f0656; 0x1690d3a9b3878598df75206496a5b6d98; 0x1c06a99f4f782f6498ae33945d38349d6; 0x25d3894518b54435a63b21f5aebf3f5734; 0x3626bcc09cafe286342d1fcbc82e22df89; 0x10f40697650b97bfe4ceb66a1858d14b9; 0x16621c30a7b80981cb6344d354de3d96b3; 0x9ab4a5406432877bf40c9317da02cda54; 0xeaf2620c758c5db1a5725352daf7ccef7; 0x1988f5388ad7103e7fdac6e9aa05ef9e6; 0x198b3c384e1a7b5fbfedb6c4c8317058e2; 0x13d0fd18add1bfd6b7590da7f1ee3d9ced; 0x1e899d4bf92a440bf48567ec6083b0a431; 0x210199659ab18496fb7105dd6c1547108c; 0x2ae5c14527553dc423b60fbfbc223ae1bb; 0x4cd87ea99b917d5358f0c5b74846d0b3a; 0x16a425e8c5414f3afdbc96babf282003e4; 0x1a284f9480d0c32ea82a353a906314b94d; 0x2445306f4624e81421cb09bd8b8db9d386; 0x84ca361c7c766a58fc259d72d1ffec135; 0x1c031de43f33327ea577b8fdbdb97f7e28; 0x1c87d49790313e45bd0bd026767c82a1cc; 0xeb4948832403019252dc689f6c22dd076; 0x435da61a95b6700bf6d15835bb10d8b; 0x2b231e09134451110de407ac4ad6b6f22; 0x30cc971298cc6c8fae0446f5538a8b9d; 0x26da3ae857e106bf786785aa6c47f5636; 0xd8eef00a93a52df1240f6d0a0df93f9b; 0xc314267f2bea118624c0e5377849be932; 0x35d08f5f6c3607180c48efb73f0aede9; 0x21b5731a025142e710bc577b7f059c3a0; 0x13112d60c884d8b7ad27cb60d5c4449261]
    [0x567eb3b4853ceba8eea99de2009f70082; 0x88219fc3a4ca7e84bd43362d7c4809c6; 0x3b359da796c5a758ee574d3f4902679b5; 0x6dc97f0f4568ce8b8d97165e9420f161d; 0xa25bf1aa117ebd44b8f129afd88b6e594; 0x16d8d45b011a3cf222bca4de1741e54a12; 0x6e9b58abe6609bd95797bd1b91919b004; 0x4e893aa0516edd0b081b1ea248b5b4f99; 0x1eaa21a5a5ac6bb588f1704de1b1630170; 0x922c6ebf3c64d94166a930555bdd8b1c0; 0x23055bb2427722e05040ac2eea09a41a6; 0x64d5deb954d06f565b3c24d0391852421; 0x1a4041817c9d80e9c7987a6f0ac5652253; 0xf6cfa0fc2166861e2bae582e6c6422620; 0x133bb028f0900b85bb7a962b94b650e212; 0x3085914079b902327e453aa10318cf3c1; 0xc5f870d896cc6379ec0939e2683ac80c; 0xc40dd7a0fd229a62252be8aaf456b2094; 0x2464e37247d4d2d55136cff916f954095; 0xce233051d351a58484ea9984bc5cd23a8; 0xcb9718091ff7a48034f54203f2a455074; 0x118500e2013981bbb3af9fb63d68eb1f68; 0x1877b54646adc47bdc505ba4b1d72ee3ac; 0x1de8381ddf019ba6bb9bf7270d88cbde98; 0x64b337486a22b4536c6a7388ddf4eb785; 0xbf84b3892f205b363f153f481f5390726; 0x4c268494f4c938bb9c7c9169d7a44cf55; 0x2975da3e42b592e7541862c5f29934; 0x13cfafab65f1efe5e684546b5f8cda26a5; 0x404e191ab9d810637122a9da03b107308; 0xac16f8bd985780ed38593f16b42f8769; 0xb44c0c7c9569b10c0e9367e38ba8c1e8; 0xa9918a146313735f9ee826486df12e35c; 0x550f1994101838da8ed20c2ee50334f4c; 0x1a9c52b5816d70e7ae7504e627e1d3b3a4; 0xcfb35a90290fa926c867cadab8ab45570; 0xa7a167c8cd50ce460146565ac8afe8771; 0x3a2e9b5baac52cde7b793da96d7b6e4a2; 0x60d355cc24114e00b7a161b08233df16b; 0x13ab04476427a23774a920e883d5bf29c3; 0xb52b47ae962d78955c6df4c3b72532; 0x71d383e19971121159a6f230ec022570f; 0x93818bace7868103055bd3547e2d2d0ae; 0xc70a2ca32fb0c02b62e608010b0133aa; 0x17890e8bded43d8afd657084178bfbd; 0x3263a67082d5b2a8869cdc99877636178]
    0x169d98a82afba8b7ec98d03a5d06f355e7 0x9787b236f5e4aa0792eed157db8418691
    2
    [0; 0; 0; 0; 0; 0; 0x109bdf71; 0x165566e8dc0109c49cab76147d2bc2a3e6; 0x35886c37b7dd76553042c5f21f2a8041e; 0x28b5eb87e55a4939c7f7df6e725f16f09; 0x103eb5d0ed9b7b8c832521b26b1993dc01; 0x1ab504d2f23122881603f055e532641ab1; 0x1588978daf13f7bcd6f74dc70d35651c7c; 0x23588ede047d531193be59fcc705899033; 0x150a76275f2f8963deb622dd4cae6ab933; 0x28a9f5596e482cb84eb6666c83a570600; 0x39ef9449774df6e6b74dd52696d4d7f9a; 0x12264461d81cfeef9ae1739ebc1f0710bd; 0x1b04713955f60ac7c78b7f15947258f337; 0x13187196655137ea02de5bfe7bd34ad10f; 0x25413a516264c160f9db922a7370c349a3; 0x1e2fde1ecadf78bebc1b73bcdef560c08; 0x2ffb2b28d9d50182177ad3d17970968a48; 0xe5b4a067555182c0c97c3c15dc75f9dbd; 0x9fe8a892c4f86b5787a1aeb4f0944ea10; 0x153689627121717ded1a3f044a8ddf61f2; 0xb84a1d8ffd2171451d91caff90b417880; 0xe51f4f6511712ce58b9128e759e2a5366; 0xa63a4bb2ba76953dd6c39481e013f63a8; 0x10d0f2792ada55f1705a0dbb6d3fc31e30; 0x424403efe4a453c595ecc21d0b72984ff; 0x1a1a7bd87928b4672558ad187585a3d80; 0x2d9e732248090078c58490b9783f6897b0; 0xcf6a5abd449ceb0169882656b2f2c676f; 0x8221dec4a9ce324277719d41620bde46a; 0x1755639cf714a919922acfe5a0bd5bc2; 0xc1d72098b4d52bb59dbf45aaeaafe99d; 0x1cb35445b169ba34ba2a02b47ef9984155; 0xa1df366f3f26a6de4a34c3edc62f28377; 0x11e90da14247e402904776e2f9e4ec5b77; 0x525ce8b6ca1b89d8b19f0d0119b77476a; 0xf799f4aaa257818cd4b74a1631184a1a5; 0x1d58e7a1d1fb56ad2f9e2cd399079e49b6; 0x37ed1d1a76b6ae0c555927f2f7c6563c5; 0x22b016fad0e46743823445fc00720757fb; 0x68550f8f7e60c37f030b22404fce5749; 0xfc023c115ddf4489dd4ae3d8ee7490b9; 0x1bb03113549b73b3ff572e8f11c61bb92c; 0x3cdd0fa8bdf6bc075007ff490d61ebc93d; 0x22a0a33303672cf4ca2e394c964a027a15; 0x6480982cd6cd0465982183fc847b2d94a; 0x221c79ea2793d23a427b0ac37f659a477a; 0x174e8182b00089eb53f103219fc90af5d; 0x900d8431af9eb9d0b7439e009df054694; 0x452712c670b6bc5d92a0de7462ee813a4; 0x8a693e619675a79538071da020f5feb1d; 0x11672c8b8bab4e9fecdf364b687d1de22b; 0xab769384247d726a8c827b1e8b849812; 0x456e01390ffdfc82341de12538ed78812; 0x14343657b9d490e561f2a1a4e9fdb3169; 0x34924dc4efa2bebbaca16961956547230a; 0x6fa55cb7f9abe54f90bf9e3835e9f9; 0x124241b1650f9f1e6cba68e0f66cad315; 0x1b8c1365d1843be8ab0ec325e7f0c9022d; 0x2eaa38c6f307af2f050462bf7a5ba64a14; 0x73deb9accb3b724a81e716b84b99e3bc; 0x2fc248b513b95b2de104ebbb6aadf768f; 0xeca29afa71bc385bb8ad1466f88c73dd; 0x25f5077ccbed85992dd2233abd17ce340f; 0xaf96e7f3680faae119e7a363a031ae8e4; 0x1328ce834e3bd1fa48b25edc55555fd62e; 0x13f573397c60752c4552ae108136829302; 0xe0ca720f09238b18a61127f97f9a507ec; 0x38b271a61a1684ea5abefcdc4a2dabe64; 0x75f1f478bdf63822e1cad16b3c3f4137; 0x2a7f20f9e532de403815e89d8812272a6; 0x7e95e5ea1667c02b6a8d3fe5e5c9463a4; 0x46e7bf873b14a7740ecd43d2e5e95f539; 0x1415eb8f2db1fe005035c09b2c23f0740f; 0x14396fc29cd5529fa8941e1040e92377c; 0x14a02e30bca563282d051d2affaafc6b77; 0x2d988ab12681a276593c577d2c9d274422; 0x1831722aab3ebffde13a3ee8c7683e202b; 0x1514b31baa4a65988f10c18fcfc1e2acd0; 0x6e587e57d80d827816253fefc590a9aee; 0x6f2cee37ab1267ae58cda3ba3ecd5d554; 0x1e350a77cd928e599c70512c5bbfcea57; 0x32df1b76a63d7c319dc4d54cd084cde81; 0x162c4c64f45205c4ad1ad9f9948b9f51bd; 0x108f77b5c8827410655448d461e7ba335d; 0x10ba1c77779f9d08854b325b232fef8d47; 0x84864fb66a51a9347a33f006ca33b242; 0x14ed7decf0d288ee2d6856bb3faff8bd09; 0x11db91ec083e025e9ba2bfcda369c5d968; 0x48eed5f3ef07997bd4f2165479ccd22d1; 0xb24d7a809c544d4a18d11f1eee0a5600; 0xd333edc415bdb2e8d29d3dc47126bb010; 0x165aa5792fa0b73127ad1ea75ab047bf24; 0x87439d2c6668ac52b5089f5fe7fc70008; 0xe71b9b6986a5bd0d96cae4cd85be8330c; 0x4bf92da81e22905e2c3890402c53511a1; 0x80c058ad6daaa218a1c577adf72ecc1b6; 0xb51feb4c43d05f8177747495d7d034098; 0x1bfbe21477d117447605f357d606b23934; 0x1e562cffea51bfb71e0f3b3ecd813bc608; 0xba0d687cebd68909f7340784594bef9d; 0x102b3ed1e765260d8a1a94df9688b9a94b; 0x19ad37ee40be03140391e32e603b295c5; 0x14ccfe821c35694956c23241fe2580200; 0x27db35b70913b0c8d39d02b20793e75352; 0xe11cee24f6bc748589af0b0e109c3a304; 0x10802c8c503e116583b77bc93aa4b83e9c; 0x18e91ef5343bcb049388552b8508cf1b77; 0x66ca8490c43b89eac226a25f20cfedb96; 0x282f887c7373b4e3f031b289d51fff438; 0x9e969594d0602b9a2648f48796996813e; 0xa1c077dbbd32947b81f59c452161655d; 0x14a8d81d5f988e620e33ea6301ba8b2a57; 0xf53808de58d6a182e84249226b142bef; 0x3f2b55406adbea39b61eb1ebfd16aa; 0xea9028454089565348df8f0a8fd229b82]
    [0xa200d5ef44f7803bc3ace289b5af51ddd; 0x2b52f78445470561a5b3ef21307dc9d04; 0x684acade70a6cdcf3facf3b6078dfa20a; 0x1a20ae6b9d06ca9ae0a9a66e40353a8071; 0x65a935c7a1b3765f60d20ff5bd9587002; 0x444893f89204ec596fd46047f0d6b8259; 0x1d146e0d941c2d18afea67eba133cc6b2a; 0xe57208b2b2df494f3748f39c61869cf4c; 0xa5c2e0bb4235881f6affa8337a0a70dce; 0x150e81c37d3c6bd3769e00950ea65a19cb; 0xe60c28212bb787661fbf3a38ab96e70fa; 0x8e421f52a1c4dcfb846b797c20d60f4e9; 0x4b0f16027051ec7a46998964c6ef54586; 0x15abc26beeff1168db45f107b2fe4d8344; 0xcdd856e264d773244ed4d8c715f1ebb40; 0x7eb949e8497d59878ad8f6760b0208561; 0x5c639151d9dfd040931562c9c3a393fa0]
    0xfd15d1908df2ed3ca79d72382532186f0 0x910b9d26e11acac0f8c10dcbdee8624ff
    0x2259d9b471b); [vm_compute; reflexivity|exact prime_11113956389|exact prime_3119].
Qed.
Lemma prime_6277101735386680763835789423207666416102355444459739541047 : prime 0xfffffffffffffffffffffffffffffffffffffffeffffee37.
Proof.
  apply (check_ok 0xfffffffffffffffffffffffffffffffffffffffeffffee37 mp mp_ok 0x1ed3aed1407c7806cfebb26f71b8e31ce1 1 0x84defb8cd09eef6 2
    [0; 0; 0; 0; 0; 0; 0; 0x2000000000000000000; 0x80001; 0x32fd334aaddce4936aa2840000000000001c900fa37afa7; 0xa9105c0ac4004cc57d93cf2aafb6a58fa746fd55682e7f3; 0x1223f4fc92ce4ce807829877d3f97e8020fc0ad33ef91b746; 0x7b7c2600a9dae1c01306cc89be96b36dd209194e889; 0x278ea9442e8316268b7b65952b02dc888c25d2408311d89d; 0x9292e6e8ced3fd6e75243ec2bb51218de4b93b73798ac7f9; 0x1699bec2c09fe3471f61185f865c6237edeaa9f15ae5866e; 0xce073e56397691bfcf34305333d4791a0e9decdbb57e8a74; 0x387a966e9bc1d25aba23f5eb4e852f84c4fa1bfae491f86c; 0x5ed62531a9ce214f7f110bcc1eac7fca721cd4c41cf56921; 0x1bd2b86676fe9a9a5a322c134619eca02898a36cff3fb2; 0xbdc97779c72fe8419513999f422785d40b89aec84f7472b8; 0x1eceaed8b84fa0e58dd4aaec458e179165ca8e0ae4607dd18; 0xcef2c1a36179530aba051e6172de0edf9295a71ff7d18032; 0x1d52bb745d76d14265e1f24e2aedfdacb09369fe583a07ba; 0xec0eb4e2e572907c481188dc35bbbea75103c871c84979a; 0xdbf70ba76af19c0ea3d81e10bb2ebf596c215ae33ed72fb4; 0x57b15c83109e85a71971518c8e07423ac49e7881b14aba1; 0x13f73503c729d97724a7b17dacc0e885481930ee5de88035; 0x4403dd0cc50eedc3c0ccc5fdb435313621ed7f86202bacf2; 0x864604e614d21d7ff5ddf9f78a8952607d7a26a92c792cdb; 0x5a1af0d3b3cc579241f2f697c736a62a54f6e922ab194c57; 0x19a59d160b02b16f378127292aed0e5881483dc4ac836f7f4; 0x2725fce77b807909f8e93253dbb5ffe9970e1e3972334f04; 0x5e3d6b43378250d566423d92987ce24a336b2bfee3fc3f2; 0x2aaad872ea7500b6e518e53fbb777a5cc1459ab4bb80438f; 0x6da3ce540d2969ccb069e8aa9ddf14d4258b734d5ff618d1; 0x847b59ca01b6b441812e356f1790edde9adb38fbb4c8eecb; 0x5defd1d7f795013b38019e8d9eebc4016ad28d22d52fc252; 0x99d0d7b45c9f3fd0afa17f6e7a5c2c0f7842f6ad81bba229; 0x8349a6c3348a16860ff49e0955acdd54081c7e3be8d4e949; 0xb7a078c5e29880d48b21193f1be4dfd3a56c96b817d34536; 0xaebde847e9a7f501ad523e1d3926f5e1cf761025f4a5996; 0x18ef900cb9c2409c568b92d5376a75f9bec0ef2cc7caedd62; 0x41f8fb9f72174cf38b66b20a198ce65e19e0ebb1c333bd18; 0x1b93bef83c6b76283e8c1eca09518010900b61469015a2a; 0x3adeeaf5dba360727ae42cc6099b79a39340b3ab0d2a444a; 0x555964d3508b16c9f212667639eedbd78c017414808316fa; 0x94c826839094062568fcbb8342b13ccf78e9ab07422ffb4d; 0x3142c185785ba00d582bfa92cae00613a9cf777a9597e75f; 0x515d5bed3a8771997344cddb26cc62144af6d29a28441da3; 0x1803826635d329cea3c657bffeb710398c58cfadc5a7ec45; 0x1858f15a7c61d9a9b5dc7896075a4df1315f4032ba1a8d952; 0x3d4eb0d96f070d4dd62e01d8e59914a831e0cc1b7ca7bf55; 0xf6352426f95428f75d7f223aba8778b1e9a38981b543c86a; 0x1e06bf1ae447432d49d24f81d1db1c16b485724655c192f2a; 0xf202c531d034845e4882d5e8f1a400c7c32f01f0dd4890a5; 0x167b76de0f4f8bee2206b2f4c8e571d18e7458560e2f2b8f; 0xcf88d78b2a9a47c5506650b98d5a73877e90e717b98ede70; 0x44f65b379eb723b2e75c633215efbe9841f15905ae750e1d]
    [0x38b128113a798c47970daaedf7994f3c324c908e7a442c; 0x3f0db6e590f3b8680949ae70d30474da3a6a6e316b817c1; 0x326070aff51daa53dab6861c3e4cf0304d1ae3b2ac5785e9; 0x4ee0cb21610bfa1491ef793f4fc0a87d880041ea42810a5; 0xbf1bdfab2599e7a71c92c3c836a3fc7492e6ca500e98da; 0x13e4b21b84d896b7d23487837a99b3c6c6007edf2815fa3; 0x3907becb19cf6e26f7080e0601f9cbe93de113481561d7e; 0x91b8ae1efefcb32c3528c527f71637b5ba04da02c528b43; 0x3380bd4cfc4867ac83827b24f9224f7f24f676319dda758; 0xed3e06e85ae55843cfb563c2dfa622fc3800af29a21433f2; 0x6f7eacb51a64216c095e2bcba84c642440b16bfabff006b; 0x12b28225cec01b084e259c4553195316dce77b7243fe9976; 0xd4634c1c446cfb070725a3901bde6a269b54e51d2ac38563; 0x23527bf5b0599040e594040c7432648847466c16ce32bcc; 0x9a46ebf89ed564274c7fd92193092379d1a07dd293d0491; 0x28bbf2fd59a7db10553c44cb3509c6ad3fcb5d22f73c696; 0xe46b12746fa4f303bc3d4dd89f952374a00ade1c0200a2b2; 0x9b0f48881b8620e2f70595dcef206a86c7dcebf41df265; 0x69526b0991c0b031f8375ea3545dea0047a81a3ed2a80ae5; 0x4d3c040bb1a1b3da228f52fec29bde6bd43a4b16fd2eddb; 0x132921455be08d98891f361cf3d7c96ce32dfd8274b65e00; 0x709d0fb22f62c2b73247f780658251bf61906018bbc860b; 0xefe7c8a997838a74b75972887c81fc7e90c2261358ec1e; 0xda7b6b612707143a722054c3c8d822779c7d32334446e78e; 0x584b3ad339b5232aa28fcc99620b6d3a48786efeb83b78; 0x41d45c34c189bed1134af8091a2b7a29914d5da4c3fb2; 0x646ed436201c5b49ab6b8fe44efec321c61218dd7696bc8; 0x47db3d77b6b272a5b237573157a646ac13496a97d19d9ea; 0xe8b909825e01f4d79295b37c6f79e98c01cc5843c05274f7; 0x1cd9828638e3fd7d6715480f472d0b75c4c4b00d887698d; 0x19d8f98d0fde702e1b582a15b4afa0b64c45eb2aa8e4a85c; 0x168dee64bfb6ff31a62e187bc23c777d946c14eb18b3be6; 0xd13e7e5e79c6428a00acf7ef9c71c6bbe2a3c10a676b7d36; 0x68b2eddcfb3deecd33df5277366f3be52ac9114fe342dba7; 0x9cfe2e59de04bc3200bcd3eaf3737ab56152cf67273821; 0x26f8d66251932ccee52b649f596d913492f18090851973d; 0x5286cc5abe70ba48403f79e00f156d3b470f7f3089d1057; 0x4e0158b9599fde4dbf456df57d11ba16940b34d25dcdea59; 0xaf4c271485f80e6c2a9ecb37a62daa4a1285542f23c314; 0x50265d08ed45f2a85759006fa6fa917000135ce40744417; 0x48145df5c3edabc48a98ac93909a1925e8d495feace4588; 0xd3643dfeb7d90003b35de0f6623835f60f6d1594ad961e22; 0x408ac2a88361c8f415e6146b564a9de8b02e8f3e724103b6; 0x739545dd755b1e3a7fdb47078fb08c498a8a8ac53e917c5; 0x62b22b1a93c765313ae61f8a8e5312151c3334ce87e6d54; 0x180e2a2fa4dd09b91b1c1a263d97f30b3152562e19f5ee5d; 0x4ed2b0b2fb624662170444cf7b314dcf177530635c8c8e9; 0x5066fae1dc15820767a5f568b15742ad67b23ae86fdc84b; 0xfdec1331b484b0e0acb87d90ef9cd6cc244b9650d5fb7836; 0x3618ef55fcc7dcdb448c98745b8b0e0cce3a8490c3bdec76; 0x355a7e998a33abf2a346cc083fb082cf7fd509aeba2e2cd0; 0x65eef344df5d38d26fbd886e415d221a8611a56f8cf727da; 0x38dd047ff8d489e3c3463586affd4d5b0a0a1f2e26ea08a; 0x170c811fdb7deff837ea7357ec3c0c5fee495bec1e9fbb18; 0x3a73ad7653513dc8f11ea47d536e31cb9fce5cea6b5fb4fb; 0xbad06c3b443e8804dafadf19fe7b457a8c59c6a5f222ccb2; 0x1fc8f911dad32fbd284df1527be9eced3e409b8ff642033; 0xbf9c8a93a5e9e582e9f97862463d12d5bf51460e6375267f; 0x38a07df35bae29103279cc879d97c77d1cb8528d8a94fd0; 0x13f658aa0bbdbb889c74d44ef7557477213338aa652929e9; 0x3a8e2c9a229c08ac2a74b67d19ff1474dda8c3e75e438ca; 0x5616fb7eb706c8ed79aa521318af15f58edad1211ca19c90; 0x555125eddb311738643319edebf91f1c2ef7cf5740a5220; 0x13cc3a79f9cdc27597fcaf2048e7383363bacddc40fefc4f; 0x4c67d98c0ef934ff22310da2e159eb58cdf103c40011b8a; 0xa6086bde689c5976b0d35cbe199458c8fa7614ba5f0a2681; 0xaf195d3552eb969ee06746881b851165473269356249529; 0x21c24272a459792d91cfad190c2a3aac0eb41a7e5003d; 0x20710ae1f180a061d1ef3b73d2ce514679ce08de4379e9cd; 0x680b2f502cf109559c749975e2ce780996887f44a6765c; 0x7f3a01a2260bb9c1f60e62c1ff8eb61757a93c383f328f20; 0x69676343d244ab1d10f0f27345a0e44145171f7e3f5187a; 0x23badc44d47c01d372817a187154b2381e95eff78618f27a; 0x71dafac59962d1b6eeb128261e29ae52db7aaeac42685ad; 0x3c8adb8ab17708848675a223888e97376443ea8210519972; 0x76775014fa47a125ea25ec3ee994e21ebde6ea692bce02; 0x5e798537e51d9ad337ed7e6225951eb16959af904acc959c; 0x379ef4f3f4eb75eaa6656ae2681716156784e32005185; 0x3103e0fd5db20ad53105a006238cf8bdf3bd0f3f17f3cede; 0x2179d1b04c37ab53c876a249a3ffc4976529094e4735c352; 0x1198c3bd32d7a8f8b38a7cbeb85e0c02c5d83b8c1b560a3; 0x6428a6e019dc2cd17ded44595960e8dc4b6956f6fab563f; 0x2a70f4e6c4f4dcaa4021d4738fd966f25105dd9bc3fee3f2; 0x4d43a87dbc6a474972f31ed1cda5d2dbc06e93ad4cf71fa5; 0x1a8b089232ddec398fc180896ebfc937f1329038c445179b; 0x1d663a3d6401b2783d8a745a0bb2239d1b366a52d2021b6; 0xd6145d048747ffd2957a413b8e8226f233d78c04c7c5aeb7; 0xe27d28772f0b01928e7c857fb2114bcfcb880fae7eb045; 0xea58b1a76be7bf6263d421fd56311c13eb4158690c1bac3b; 0xb72cbbf39a837c915c16a07584d803f89fe34c03e69d814; 0xe19f55b27dda5b977c4ff37b60956d923100a34606f06a; 0x46cad11592fb482386c141b1000cc0915fe37cf897ea2247; 0x543ccf5998b4ad0fef63a642273268d20aafb3d4b3a4166; 0xd4fe71e7af7bc15a2484071e1de8e6e9a5090a4c39d47def; 0xf4a3fae0293e91bd7069ad7620bc4ab14a69dcd56aa83a15; 0xe7a22673769b1a787878954938761f063af323111a8f937c; 0x460fd79d7eb9c776333659c1bfafc5e79efb9b28aae3a88; 0x548e01a620618d8886efe42d394d6d84c157be64afde13af; 0x5d35515a1c1930c78f2c1b3f52ab527073be5750d345a93; 0x1bc3ba3c6720a1d7a444861a2f7e1d1c780ec1da2a7ef805; 0x6e97254759744c98d0b3f443a1e2a33dcddbbbc89798c2f; 0xa85d7deb3632f34a43b5c4f1858ef9d9cdcea40e103950b; 0x285c815da5dc1091ca059414b32bad2eb4ec5c16104b9b9; 0x4f8d3a7b2e2df75bc69e04d5a110566eed75aee4941d3335; 0x5a57a894aaea0efd1d7d1ca5856f01d72ba582f95d8e69f; 0x8b008904191b35f60fc0e5f9ce90c93ecca92716d004126b; 0x45efb3fb5bde55352bd435efbf98e439998dbf2103c3059; 0x412960d4565199298414f5e5baecc03627cd047be2283a1d; 0x3054b3b5c289dffcf3ac39269ec24797ebd9be69b727051; 0xa7d5bcc2058acdb330d04ab44ba4a0dfca0c5ab16ccaa41a; 0xfc9ef7a6e651a0383f26a0782c8cc6942a3a218c42062c33; 0x77257b1f212874c44d1bdeee41f24532017869d5ddf1b91; 0x5abf920a1761e95b5c857d891ba2cc040e3b9ef6ba632bf; 0xc5b4477a0cdd041901811a91874228c797f06b5126da918f; 0x138b6fa0cc69e2100cd1d539dda22e07cff4eb5325994a7; 0x47d0835619c736c4bdf488c85fe68bcfd1cb8bc30ceb37a5; 0x220ad738f35f75b6ce23832948f0b82a47ccc57bc9eadaa; 0x3ac4ae20bc4bf29b905b2d6b22bb6f109467f9585ba6029d; 0x5cb5ee097ed16cd7aa7ee2496f413a4ef08bb6359cc76b7; 0x59e6f7e6123fe0bcccf66fc018c852655867da09a40e3fce; 0x609129f643e9fa030dcb9746726fc7755f1e6c78f3ead17a; 0x25b0533ceaeff713d5f3d6fd30f54850e6c4f5ac1b24a89; 0xbfe5977d83d04012d1a637f39c70fe095e8ec680ab868de; 0xcb2dc1f9280b7ce951b41a70fcbfd7efb776792d6c7a33; 0x8b1119cb2f037ac9e3fbd9dade58498610399a1e03d76ab5; 0xbffca9701ce8771e3693efd28effb36a31611204babb3dee; 0xd2d4289f70737d337de6dde22ba1b3ef85c53e2af2379e; 0x597ea76dd2731a07130c73c872fa20fe281da07a3b9add8; 0x14363685387715683699399b5296cd10c6a5682d59229fe0; 0x63693ebdf127203defc5c37fe152f6e4f7a76b72d4464f3f; 0x29e8985f0e1546ee8f93a8c659c710087c2f7894cf0783e2; 0x253620a2660e6cab1288d9e6d2fd3cad83a21c09b2e9085; 0x5b191b2627370591cf69d4c53c40a160eca067e9d3ff1df1; 0x64b9b0344bcfff3e96e6b0b884f040dcf5eebc88b473b81; 0x74459a6eca3998f2db90ef55c7821f19f5ad14a55e433bfa; 0x9c75f00798a1856fb1dbb8b59f2f39d36e3ec2e1c85e0d1d; 0xc25ef94f235b125a76fa855510f1710b3f18b297d242fa; 0x6356ad327386a97182ae89851976f964a4f0eb0311f909a6; 0x2287a8a0c45e48190779548c8522af721f0e5a46a34e163; 0x65ff100bfddc51e4e661f8ba020bb18df142dbf508502a71; 0x74015b1c29c31e6a752a1df1051ffc1ba7ac917b5a0a0f4; 0x7ad17b3a61f70f549a047fc8a291e690ebd6da05a937bbfb; 0x4d2b6f4ff023e92515e3dad0fe59fcbeaf8958162635fe8; 0x418c6776a6e0fe4027f594938ab0e30c95995b55b601a98f; 0xa0352df92cbf7c922911ca4d1d327c1d45679b87f6ab4340; 0x37c124d255b14df14e60f742084b17274efae576493936f; 0x49c3f71bfbed6872b2b3f380755021b8a41b0905ff8c6629; 0x492a49d7855fada1fd29b52f1f8551740fa694d67ffb69c; 0x409174daf85f314b7a0f6928893fdb1c2175620bc3f042ed; 0x38d14b1502d97c7e5ca8810de8e39404c285b17f47620e8; 0xda37a926a00bb14a12006391db6b102cbfca87b7c6a7d0c4; 0x6591665543d2f4226d1ae7713985c9c0b2801e7e2b9d84b; 0xe124b6e8d00adf6d9b0a73e2bebd27035c9c74b941f6b42d; 0x4d1db2acbfb286c81ec590acf83f61ba156c26ba3d22d9; 0x25a99635a4976a045cf908e5279549914cd7da7718367a3; 0xea812934834a003435fac1ba9b65859884f2e48ebaa7a2a; 0x19e1d0d80d86ff63cc7dbdc66dfed10255cd3e355d7f67f; 0xa33c7f5a14c32745179179a02a0b65ba2f2b2e88c812b65a; 0x3c0f37a53d80d5aa55e047c6f19c2f50b7ab9a26e51a287; 0x4b302369ee4bbc89c5699f21724c6336d77c40111332e8c; 0x59e3e00090b3fe05a938615b288a82999929211a2d1e197f; 0x467e88dd6270a1168e64de7acc2c2a4b049ae775b62ce3d; 0x342b8dc99109f750b124ccfbb83444900c36c75effcc7b2; 0x61cdc898bb7bbf70233827117891bbc754308bc19eebd92; 0x37f4a156c5936e4a7f9743c0fe3fba8365e9f01093f18cc7; 0x6abc88ff425e1dc55c3271ff0c0b50a7db7136df5f9872ad; 0x6d28a98d4307be268c91c5cc1e6b34209bf46dbe5bf19d34; 0x3e1a9bfa149bfd16f56e255a8b698d78ac5ffc20bd326ed6; 0x1d56cba2fcb893750609d85090cd1f8ef22cbe7ad102af6; 0x98dec824ce157dd950ffcc482672b320801808346c8929a2; 0x22e45e402ed3aea8ce0be9cdf696ed0eb413cfdda0e15f5; 0x56bde10257db3d29bffbcee24b03399ffe84ac7a421eef90; 0x18d94ceac07daa0b4277d354fb17bcb1eceb77beb372759; 0x24eb8811c3a9d4721343b260b70ced41f4a8789405aabf0d; 0xf9db39c93f17fb1d286a50a4f4d15215ebfba95904f6b90; 0x3e3d0aec3110bcc6c6d96891b2aafe77675ebcf2a558c185; 0x2f9ab5bc1d5ea50921c467663b83d4769b1f10857b256fab; 0x2d4b033302b1e6a8f3119eb3cb373c69e5dfc40b698e78a; 0xf1124be31c8ee56d4297d203551de1528395d068f05e2690; 0x5846996bf1707d415a9e53388f54060ddc49acd1c34bcd4; 0xf2509bdbfedeab74ffa6cbe42392b8bcdb483d24d7f1b5c; 0x21cab9b140fbc63acc099c91c2a346ce3ab2a9918b763d03; 0x9808e4d9167264104ebe99fc270ba42ee0529d8177c46c55; 0x383f973d7191a1d6a51909edaeebc8d0ca26d3c14bfb3ab0; 0x5121b2b2478b7b657885a8c4f5876126da4624201c8c6ea; 0xf11b6f8487b1f1405428ec4242f18a292396ff214ed0f72; 0x6148c815b9956bea7948b123617a75f0fd58c713a0f30ac; 0xd0c2f86a5d128199e90c33f983dce60de3337e2377240459; 0x5b6fac7f7ed76875be54fc1ee484ddb0061c6f46f987946; 0x1ba75ea7ae0aa1a64975ae104ab4658a6731a6566ffecbb0; 0x652a4673bc746a3a76f9b3f9b966e65d4ea74be8121029c7; 0x3aacb635a05b5cc36e3a54e2a3fff33a2adc38222cd79714; 0x67f1180a095f96a5635ede7ac55367bc936139a771b6b00; 0x662ad3f758a3c500c21c43976bc1f3f0c96ac437dd16ff69; 0x2f7bff42f52433a5683758ebada6bad2d1eec9b1cf8c5b1; 0x3e4b44d3f18f164f39bddc7b21416e1b107473fd96ec0977; 0x2f12527dbeb2b163e00112a8adf22e22b7f59722a5e6c3c; 0xe10e33769974aff349498ff040362a5543d1c64bc8198f21; 0x6173a8f03f68bd5dd48c1a770cf3ace351fda9b27f2c67b; 0x384cb063133c3d9eeaf512cedaf194bdc95cc43c717be124; 0xef3ef6cfdda77f7b043ae241797f27991a0e5aabcd6ffccd; 0xcf506137155da6042f081cc5bf277229658c76d08da6587; 0x37ee9e51c29667acdf56a650448a3ace5cbd2ac13cb7476]
    0x349fa40407b5639b9f05b4936dbc4deedeee3e5b182b5017 0x18c39822d0012024a8703bd5fa0a066cdd58df42cf75e81 0); [vm_compute; reflexivity|exact prime_10489845818524887021689201254173392444641].
Qed.
Lemma prime_29131 : prime 29131.
Proof. apply (trial_prime _ (Z.to_nat 175)); [reflexivity|vm_compute; reflexivity]. Qed.
Lemma prime_815669 : prime 0xc7235.
Proof.
  apply (check_ok 0xc7235 (fun k => zmul k 0xc7235) (fun k => zmul_ok k _) 0x71cb 1 0x1c 2
    [0; 0; 0; 0x149]
    [0x1eec; 0x22b8; 0x89a; 0x52f2; 0x8c783; 0x17e4; 0x54305; 0x2e379; 0x6744; 0x9b76d; 0x4e17; 0x7ac2; 0x11402; 0x3a223; 0x501ae; 0x5c10; 0x9edb; 0x3e3af; 0x4f64f; 0x3125; 0xc9f7; 0xe935]
    0x4fa10 0x7d83 0); [vm_compute; reflexivity|exact prime_29131].
Qed.
Lemma prime_1611297632578441 : prime 0x5b97777046b89.
Proof.
  apply (check_ok 0x5b97777046b89 (fun k => zmul k 0x5b97777046b89) (fun k => zmul_ok k _) 0xc7235 1 0x75beae68 2
    [0; 0; 0; 0; 0xb2; 0x8e260940df117; 0x1ef01e6d9d39; 0x11e6e10b1f91; 0x186c99da6540f; 0x32df22ff2b0a2; 0x922d7ead0b645; 0x2b26ce2ebe581; 0x341f2ded1d061; 0x1cdc4a3e77a; 0x3b0b5dd0517dc; 0x5dda8b2c20f0; 0x6971117641caa; 0x13d911895300; 0x984323ab29b37; 0x47ec9460b9292; 0x43250ffcfbd5d; 0xdc49ccb67672; 0x999ef4a6ca4; 0x232c9a2acff46; 0x11b1b3bef2ab8; 0x50f7d3af6bcf9; 0x76f9ea4174292; 0x29408353ad879; 0x483878540156; 0xf3b52a65cb01]
    [0x1eee1bde17136; 0x12d517ce0e7f5; 0x8f7482e7e081; 0x2eac2af928e04; 0xce21dcbddb94; 0x301132578f; 0x2106d12491552; 0x39282efbc4e02; 0x26449cc09e018; 0x4ff9ef575dfb9; 0x564e7d86fbed; 0x26c4fb66b294c; 0x1372c55438; 0x431c8a6761881; 0x1588cea04b243; 0x4d737c9242cfc; 0x8e74c8543a9; 0xa1cb6cce40e8; 0x207787889316a; 0x1b96defcaf64a; 0x544f638317b0d; 0x208d63dce7d99; 0x15ef5977f9015; 0x10b6897395601; 0x2535821e1cdec; 0x1982e79737b99; 0x22515636a1d15; 0xc91a67a2db87]
    0x3be59450eac32 0x22ce96482b445 0xa9f2e); [vm_compute; reflexivity|exact prime_815669].
Qed.
Lemma prime_31767070186748510944261247684750677 : prime 0x61e3ccbc016f3bb1135023222ad55.
Proof.
  apply (check_ok 0x61e3ccbc016f3bb1135023222ad55 (fun k => zmul k 0x61e3ccbc016f3bb1135023222ad55) (fun k => zmul_ok k _) 0x5b97777046b89 1 0x1119a7e77d53549b4 2
    [0; 0; 0; 0; 0; 0; 0x29d7cb; 0x6223af76004be071317ad481bdb7c; 0x7613a11e6f1b9a05a854534944e4; 0x1aee1b47f116a03ded0aa599e0ab; 0x51122461b17640b630a3dbfe12fe1; 0x3e4b836a6fad64f3315857049c354; 0x3db953f50ee87d43f992e9cd59fa7; 0x54723721307c4c999ae769421c04d; 0xab8026bc71ec567ca9fd2fdf15828; 0x20c97f1a9c9fa4b536f496b29b8e; 0x44ceb6b317e296eaed56e7270732; 0x27d23b901ed6be21e1176764ca0; 0x1b94f5163f6fa8036f004f7258132; 0x2c0fead3b6e9802e16f63259cede; 0x489257c4e16ff5edb4fd390032acb; 0x8fdb0c5c9e983d02dfcc98b49d96d; 0xb1e0a55e213d1f3d70d845b9fdb32; 0x51d1f5047512830b3c4b24aae4140; 0x139285e2814cc32d4ed731147a81e; 0xb340d0f7049c264db340cc2083777; 0x13edee87902d64ba290f3e0870613; 0xa9e406ba959e94ee8fe86d30a259; 0x2bb22b08a8e4f8e5c99172fc5d57a; 0xbfb069ac6735b03c59aab363c1513; 0x856eb36ae29f665a944924a57b; 0x15cc7175c0c0063cc665621714f05; 0x10ce772cc4a6af446915e7d4ebd53; 0x8292288a4290c50cdd4d0085546b; 0x23ae3492d340376d36ac7dad92b7c; 0x418be6bbab904304c60fe762f077a; 0x15d6de20fbc9de73c70dd2f1539f8; 0x1ba4b5de83e32e8df9c559f51155f; 0xb48f70f70a0f13cae136b3e47c49; 0x399f95d9bae33fdcd67388ed77a; 0x1370a08e5918486eb152f08dc5b6c; 0x8d0695644dd484f76211155a2266; 0x6a409501f5d5e65f555b6f0b62d52; 0x478f90a421978ab05bbf4c18b3ec; 0x2ea1e022c0749f338a068e0258771; 0x4e43101df2a44529065b48b598a2d; 0x133531bc7792b53a9e5a8eb0156cc; 0x26ab3626250f0f4603c807b248459; 0x39a6c052ac9b7088d90fa1e27f835; 0xe19db82cbd5a73bc56f8af4f8be0; 0x541e7ea4f99945d73e69dde7c1e3f; 0x296c8d845546b8ab345b0e3e75bed; 0x4c50d565d7d44612e72cbff32250; 0xafb6a6701bef881a13c0eed5d7c7; 0xc0f4fe26637eddea30ea875fcaee; 0x8d82c8788cf47a89203f7e247ff82; 0x3e3183883b94d7d213cefdce1cebd; 0x48a2d65c0d0478fec5bce634ce28; 0x96633efb12036a0c529029ef64a8b; 0x6ba1349148cbd422344aa38c7787; 0x2abc209de56eb925fdfbdad48faa7; 0x80cf16a77fbcde8faa71614c9d856; 0x20cbc90698b0e0a2170615ff2628; 0x3b4a0e1ec82c51c195144a080baf]
    [0x1f09c8f7f863794e7052980e34e5e; 0x1be3f5882c1b1c6e188dff694c3c; 0x255a3c6b743685666ed8938374384; 0x158329a8ed7923636061fdc33038a; 0x174dfadbe24b062cf33a1190568e9; 0x2ddc2dbecc80132a77e97e8c9f87; 0x446f398ff42d3937c144d4f87db05; 0x27051a58022d7b2d0e3f2da29c985; 0x21cb56fa4728f3690fcae9d7cd1e0; 0x369350e5f55195cecb4fd27a0be57; 0x7655d47c534743802e8597a98951; 0x155c7c488fbb95db4acc40ea3901e; 0xd0a5081d850656629a9584f237e4; 0x241ff89c6487c1f63f359bb55ffb5; 0x91ae43e46758f6200de69813c3a7; 0x2442a52434cd8764d577a10909888; 0x52bf13c1ad26d982a0ef15d8555; 0x3d3874b602426e44e556bced9594e; 0x1fa78b8b18e05dfd6926a908bd66c; 0x2019d4278a5750575f97261a2a2; 0x313df4ab46c02128004ce2ee5e557; 0x3169d4b7688af202ca7a90270b02; 0x169be897ba44b63333a2f806e0a2e; 0x26ac1da3b0bf3dfb9683053908291; 0x297e8323261ab176b1ce50b098af4; 0x83b15e9e034b4a7e925c11df6fb1; 0x5c09b7b55db885f1ad4a8e2912281; 0x270f0aec08cb82354c20235ea9137; 0x13dbb9941c6c48ae9e67804b41c8f; 0xdb5fb51f621293586c6be95cd141; 0x6b329d141bc6dcefbca9671b2148; 0x13e6266c0fe5d0d40f1183196f520; 0xba61a442806c52cb2e3be6e5f641; 0x4d88f428d61973e39d98554859e4c; 0x160d3adf13fbebb912fb7acc95d46; 0x16c4bcaa9f3000c626bb238d9521a; 0x2f2df6835ced05100d88c5fb1f98b; 0x12f2784ea6864108b7e502e8b9bb4; 0x2b5bb803d50b3b180aaa4a4f8ff2c; 0x35d0ffb8c5a8c00c4b6ad951e1b46; 0x2a1c2e3df4dec3ce59223b4c8e37; 0x114f826f5944af926fa830b7085b; 0x4cf1b5f540ecf69fcb001f2d701; 0x30140f1b37008451cf796999c1137; 0x40d2590f570a72a51bdfea6b98b70; 0x448ea498d93ffc1202ca1cd18a224; 0x20af2776fade57373606978676d8e; 0x3686d801b8dfb380c2441119eaa8; 0x1d5938be66dda25e56e1ffd4c88d2; 0x37900e4bf21ded8ddf15d881cbdb1; 0x3033cece32a17153f0c59b6de4a24; 0x32f606b8c795c2809df9020023eb; 0x42faa9add50c1dc215ea82f710fa; 0x3c7a5c9a6096d23947577564abd0d; 0x19db0951c8f93d6e7b12cdf6e; 0x39c12a107e28238a4def148d6841; 0xb4c86e05c88cc6bd79070e72a9b4; 0x30ec6efb6160f59ae4c079f4eb7e3; 0x225aa8f40572741181cec5e4028aa; 0xc971e698c134993a2148b31054f1; 0x191dc19f419f216eaaf554db6f3ea; 0x44effcbf71141c5b771b92c070421; 0x375c7297ee9232c2d12763407ecf4; 0x2442a5773f0c68a17e80629cd1aee; 0xbd96666c3eecc278fa827886e4e3; 0xa634e31b75ddfb2d17b9da082aec; 0x54a27112385f6bb849bd33bfba90; 0xe3fac70285d4b9d3ee7348680e95; 0x2ef4ad7faa110e01b840b26c9b98c; 0x400e4506b45110c3dc7d42b203a7e; 0x1327c6c4fdfa3b1e470ee90de32b3; 0x2a8b5455150ffaf041afafaac03fc; 0x3181651acbbfbdf045eb7ef5dfa59; 0x342ec00fcb75174ade3d93ca249a2; 0x1e96557633788f45be477b8829aa5; 0x1f0ae0996fe2d326a8e1a539d818; 0x32de4cfc8e7c98f20c851137eef84]
    0x5721c17cce09f0acd36b3dd0c8163 0x3110332c222a66c7aa5f63d4728ef 0x37de2a4f5dd10); [vm_compute; reflexivity|exact prime_1611297632578441].
Qed.
Lemma prime_434093022356392396149847294750353440317757907331 : prime 0x4c096782c73d64cbfdfb3f694c1c4c4076fae183.
Proof.
  apply (check_ok 0x4c096782c73d64cbfdfb3f694c1c4c4076fae183 (fun k => zmul k 0x4c096782c73d64cbfdfb3f694c1c4c4076fae183) (fun k => zmul_ok k _) 0x61e3ccbc016f3bb1135023222ad55 1 0xc6d99fb2b7a 2
    [0; 0; 0; 0; 0; 0; 0xd7798c2200; 0x16fe06a1cdddd; 0x16b5c444e75173b835546be7e1a031ec4d8f13; 0x34d06e3b73dd51dd59a542a5e50dac3d5c244a; 0x8695af413015f1ce1bf0b3b6e61243b27bf4ac8e; 0x9437cfda3d1b903d657fd3c7958ae3cc0a44627a; 0xf2216e44f44ff90fb93763ecd6a7e2d2e5db2e; 0x139964e4571040032388dbcd425d3f29a8aafe6; 0x2f9413fb48957578cc6623563765354d90c1c50; 0xda4c1eff9a576759593cefbb7684ff0593b668d; 0x9d2e50d39aeb38d53cc2cc44c8c761a055ced47; 0xbb663f9f0905d82bf214e343a5277ebe88e933; 0x17e3984a46b679c2237c035d12502cdb4a83e103; 0xba6bfd518ee39499a16fb8902d8059635a1358; 0x3a6dbf9d4dfe6e4185b01296815ec750d9a7350b; 0x4a6f67fe40d5829934340d53507f9ee0d461ff7c; 0x25b7f4ed99acf1fae4d74ac0ea51a8cf11f8c91; 0x777c6ec35e9edf5152ef48c0223aed195e013657; 0x2473709391f9b2f0e73b37e2db4fa34a0bba997a; 0xc03d17df62e9b4b35156e66215b9587dbbf82d8; 0x87d6e0f672266c6c3d1f8e905e5512faf5af3a35; 0x330bb83cc0ef31d4253347c656d11e957e7cbd60; 0x2cdb62baecd58b22ac77de7264e55b349e739e2f; 0x823a72f6c6d6c3115bd5febc408fca59c7b19; 0x269177974d76cb4fa3aa0b281a091cf6ad166d81; 0x6f19b6f0287116232dc763596f8a51e0a8af927a; 0x2348f97f1ce4da9c4dc0c7d742e053ae20d026f; 0x3980fb0cc4b6575b8c6c6bd6b5936822361ddb; 0x337baad95cad40e8a0cb987377f2c47b78a385a4; 0x4be7690f4f4bd69da32d8669c7721c671c91b2d1; 0x72859e7330f74530d0181c7c2864b1878fa2a7c8; 0x109e8ec2f22293bcba08fd6e14b7888f71cec60; 0x1b129eebfc598e3dfcc9a3b7bc21e5100803b079; 0x16571aaa04a599cfdc0b076705edd06cd2ea487b; 0x46876a5ae5714c1c44586098ece0d31c4c5f6a54; 0x8527c479648d95e0bfe3b4c3963253a0c45cfc33; 0x3bc134874dd61c4d1bbaad666dafe68e6b3d3b0]
    [0x5d8292db94fb66bc3803e69ebff740b024e8fd9; 0x6d5f6030094408e210d9a940b7f2c596286e6db; 0xf7b68d5f20217156c64caca2d171d7709fc8776; 0x2a1b435e9990df72ff9ad2b8c37a8112654c5fd8; 0x15648cedffdfc7c52d1978a3063d9a33ed0f9daf; 0x3638f7d7ff6a446e5a2c4f7676be47e918fe7d4d; 0x5ba96585ea45075315af7272767b6c53797aae4; 0xc686a436bf9d94c0fce38ffebed67ec89900093; 0x133bda5f1a530e21fd1990e6ca0b845c3d3500dc; 0x792b2a08572befd794669f31aba422071a5c926; 0x11cc4c8d8981a3d58ee6a3ccdad7bdc783a5f5c2; 0x94d68a088f3c85b2fbd755f9a7676570dc70a6f; 0x187c7a6cd165eec3800da4846d7c6d80b749d01; 0x1232b2196e831c6e037d57cc7a51cd294e4e9273; 0x252786cb3f2d66c8d19be7170225c1e25799b181; 0xe7e1c9a42050a84953919310d3ac841f51f85b8; 0x4a4246548e5b51e9b3a896b9eba5e5b734dfe239; 0x84f7ed3532329c216090cfbca77968a385bcbae; 0x122eeb33f5cd0c2e73a6191429e2bbe6801edd67; 0x1aedf047ac5f242581b6a54997bdfd2840fe5ec1; 0x93bdc908e2e80c8c6fab3929ce40909f4535dcd; 0xd9b31ef98d37418a18d1c4b448f9f13abbf3d8b; 0xc5671c77adf7434ca00dc273a7dde2360aee020; 0x56155a3767b62f45345269980a72a35a438de2b; 0xa47c5da50c6631fe17ea173ac010cf9c0da8b3e; 0x50fd2d41c523d7fd612d82fc189977179d145a7; 0x67f943166b9ad6ffec2d21821bde4638e7ba4fa; 0x494d02713cf0c4c1ebbb210ef9a89816f6a5593c; 0x120b31ef9911bb86c99961585c5ff603711addc9; 0xeb5f5360cdc3288f3a44fd1c8379850187e38ce; 0xae5e6d2891a58ec3fc51056938b4ee4f923b627; 0xed0321a52bf12e2fcddbb8ebbd330131f158f86; 0x3af8d18280949a0035ad7a22f955ca20d3ece6d2; 0x28dae8b7f7c8f3e81ed2f51ab792f45dbd002da4; 0x3ffc4a7c0c8aa112e90bc8051a008f60303b7b6; 0x1da543f99b3c48845c0e4eb86977603f2745d86; 0xf908936070bfb8bc798ebff2221aec5653b4e34; 0x12267580101b3b17b2f6aa11263e9e6d2f0f4494; 0x15869301aac0d6c759fc22c460cc42b8306b51b3; 0x12b0fdbacb4f160cafbed6c636c3477169698a68; 0x8cd99979b4542a0e6593f180004aa9070f92719; 0x13d06a5c2db66c7199acedde0af15b98224296f1; 0xab82aa147ca4931ed5472a2cc6decd32bad85f7; 0x2c7888bf05b5ae778ec8ab14d4a360136ae728d; 0x3dad6260da260a4a3a1b790fee07b92bf5a7b153; 0x1abdf51e543c0df047a5a0cef2bccfe156ab537; 0x1f855398b2eb10f43a61b1c8559ec5bfc447a846; 0x39d8ce59dc894a11c4fb146c765ccb13716e6e7c; 0x2ce02b8b6190d0c60cdab5d13b2f9e2afcf62899; 0x4b0fa0df23d951e11b997f43225d8f6f0e8a8442; 0x1d6c0e1b6b10b9a60c02f4cc4e4ab3b17b447fbc; 0x251c5a9d1cba094532a5f96e38d59b2d70dfd45c; 0x818faa42c09e8665957a6d41289f1d3984542b3; 0x2a5aacedd7916ccf69a1b740f6b20c3d9890ce7; 0x92fb7b10b17011eef657b720f6ecf9be57a98cf; 0x660404813fc2a4ddef839a99381920bece66d5; 0x34e062292f965ba8193c9090961ea2cb69ab4784; 0xd5e092f95b22f39e1205939d846c5b5cd45a349; 0x4e56f05fb97669d3e38c4cca100255f8b8eca3f; 0x4df70c40c548d18bff216de68c3077b90f6e9a9; 0x2a88eb3a11f173e511a65c9ceca9817293e976; 0x3927fa0e176b5e2a57b0dc77dab73e289af3d; 0x3e26ed4a887172553bfec366a7b851dd47df61a; 0x15ab5a2a859869d2a205d641166f4c47ba9abfd4; 0x14739c35fbd6d632af78cb22eac9d1aec02e0574; 0x7bb22a62dee2c672deb68b826d663f2237ed422; 0x71b7b3f7b942ea3b581a703c2ae95ad17fda752; 0x72c7cf8fec80728e2cedc5ffdd9898daedda6d5; 0x108a0794a9628fa9d7ede68b8bea0d0adb3457b2; 0x82626b92e37a090169924dd0d957d2ab1a84229; 0xc7d2e33037efdde513f6387d4d915129e1974a4; 0x7b538495faca6c42a36b81e52bd1839d7b95cd5; 0xb99e6fa92f14cf120e2b20e6bfcd067c15db5d4; 0x146ab40140ad2212a572942948189593faf2adca; 0x32480d8c03bc639da2b91598e80287c0bbe8679; 0x16d189f6234f5bc575134a926c64ae75f4a7ad8; 0x120c32a7db45a5aee0229b746a43eb3df9ac22ba; 0x180530427f2bee3d3c9cb56c89205e89f1d5b; 0x43fad5486f93b9daa4e1259dd9eabd088c4b4f6; 0xc92cf4cfcf810e124aeaadaac64875cdf81bd73; 0x4789681f322f5783bf7356ed4f15f336309637b; 0x5a6ddf32a80047bcf204504b7cfa92ed00dc0be; 0x413776229c3839d5c9baa939b1db365ec4476fc4; 0x13dd914369ca53b9b73c5f607d2c10be0ae62c2e; 0x7ca9a69515f4a417a0f13e419b4e4784ac468fb; 0x1a72f5242cc4a260e2502ed46a093053f93db97f; 0x16a40eecfc6dbd67514a0add3c3e4a7070eeea4; 0xf07a62971c658f88f0e0ba588f03b27cb15eb47; 0xa89791985614a2b3d9853ca7dc9294ce460ba4e; 0x45e482273b672e419adb7f37fe705f052d98b65e; 0x6984a973c378d22c2a732f5540e11c4f31d73f4; 0x15c4209243912ddf2201e4ac1fbf696f5d1dacd5; 0x92538c3330fdfad8c566f00d4dce97d56aef16c; 0x9838c4ee15b95ed2409b5c1a0a169a005e14932; 0x399b3f89068f40521be1a58c1568ffe761a607d0; 0x47d8cbe781bd28ac2fa2934ce0a6f90403ee0ebe; 0x76285e49307aa17ccb40f59687719990dd208f; 0x14a5b465f61cfd62f4e81d89761688b5d519289a; 0x914a9f5d12bef70613a21e2df5b8154a60aa165; 0x58a7a60610c19d1bb1fce1795c8e534b93124eb; 0x48d6053c464da9b451f06d248c7e7e244596be; 0x197e131374311183a6e0f8701941635a4848cca7; 0xf703a166cd3bc860ffe0041faa396bb21b30136; 0x1567d56f2508210fc011f7899045b1e6357a7f6; 0x11417aa583d676a134209e4c329960c8894cda4c; 0x2275fe5d7401f3d32be1e29a063c0188bb2894c5; 0x5c4a8d538826414252b1ed5041e4e525d5f8fb; 0x2642370e184c76f043ff39a043392451ef03d82; 0x3ad8001b1b8e3178161330de367cf885ca29cc58; 0x2caa9eb2444413e54e6aa6478996223da7766ae6; 0x5977b849c20ae009e4a3504e9cce2486f542f5a; 0x2cf908361e8b7776103aa66bcbfbd9591fbf2f93; 0x4955414325880829154269c856e817b361150afc; 0x10d5852b834174975b1d790cd1258a9a0b5cff; 0x92b5607ea807049c07601ead9e4c81f1dba60cf; 0xa8d509d5d7b85dbc6cd66f16d0ac0f196812cc0; 0x278723df82ad2ff979fcb15c7c13d16e5c8f9e; 0xdcb205e61670b0a75461f52842659ab7f44e8c3; 0x36e3f4b7087097d16967a0583710374bf493c73; 0x70334c99b47d924c110c75efd7a93a98add8c; 0x2993a9c7f0033977c319fe66f8c45ba801c44398; 0x12044c17c7855c98d85434db8a96a2c010f22d86; 0x1e0aea29a33d6c81f9efc4e362f749ba14382b; 0x125c0da736425b414a2210f624106d01432e5301; 0xd0b07badb7eac57b0705dd3142710b9452abc80; 0x581544681137b36db5bf5ff4022ebfaa901e009; 0x78ebdc219f99a14429eb2c71e301f7ba575f2; 0x39c7f0bc68b63264e50dbd9609084bc737ba2d24; 0x7cc74cce2cc2d04aa7370006916256e78cea4; 0x146ff894f6eda034803b038a3dba46817f2b1d43; 0x2a7382ff02df37c2760747419a62256496d37df9; 0x4406734bda828a21bf6dc3f5c0341f9af57bc4cb; 0x44a59b06aa788ad47b4545f8f5576529edd0d648; 0x2dffd30aea72519f9dedd57232302328041aa0c0; 0x1267c4865f4e64475e1a11d1f068c71a2d658103; 0x3ab087ddf539865c6545782094e783fbe0651b7e; 0x9b7bdb0222308748b4d4719455e3e0cf3618bf5; 0x54a1e1ff4df90022cdd9ecf27d7569b2a2a366; 0x24dc481e4225da9af4ff3caa8b079535a014272d; 0x11907ad753f9dc405f1ed8ca02da712e19cf9fda; 0x29b8deeb9ad5b3f8449e40f3844e20fd58729ea9; 0x2fe606b245ab388eeb4814bf01a8da3941dd202; 0xffd78f2a7e8d23fd3d03598ed105e4078c0d3d2; 0x1d6649d3269d706fbcabd3db291bd65a2a1d97e; 0x14f5b4b77c259dff01b38c78408a68e647245091; 0x137930f5ee13b8b247d735d5b6a383c000440f72; 0x3f4b38269d5894410afae5df525c34e28947b40d; 0x29f5f22f00e9b6bb593c1ba0c90580ea0e9c384d; 0x3568dcc02d8afd80ea4d6d018ae0a2759e2b498; 0xa071d12f8d5711d40ca0db5f358bd09834752; 0x7bf1799789573947c35ad4145d5aaa56e04087e; 0x1e203d8fa2cd435ab096dd7bc6b2bf0036a18adc; 0x1112406e6849952f0822f751741f5a2598fe6397; 0xf279353a332521095529610475c1e7b24b66a5b; 0xccce2b70d8ebbf5e17042430635cebd023abcbb; 0x2b3c46453295f9a2d89ebcfe144eecc15d139e55; 0xaa4cd45689828195a6b0ab1dd2c3de060bed815; 0x19a38080d1bd6fca3be6d329ff4d1e699b1cdb5f; 0x4b83d5f6b72e4acecbb9f2dba960bcb3d5d1684; 0x13f9c47fb321d907b76d4745efbb6d0ff4e0b35b; 0x16e28381bb02fd3de87a42bf2bf4f18bec25c612; 0x393d399aa288eacb495572ceb8c82eb45a7bd5e; 0x144b0c313e6ebe5d0562a232dc6ccf44927cf905; 0x4f667a67e7fe29d734d76156eba4ae4f1963b46; 0x496881e43d3ceaec31e98a9da5deaf0542097bc5; 0x128cb2da5fc316fd097ca16b7dffa24aca09e41c]
    0x2cc8237639637d002a3dbe3a5c4e80e6c2d14dd5 0xc6a543b0f4de4ada3a0a6099cf897443b4e0075 0); [vm_compute; reflexivity|exact prime_31767070186748510944261247684750677].
Qed.
Lemma prime_143250697377609490729449607267616635304860109419231 : prime 0x62041f6e94d523eef565dfbdbc1c7a4b195f66b2df.
Proof.
  apply (check_ok 0x62041f6e94d523eef565dfbdbc1c7a4b195f66b2df (fun k => zmul k 0x62041f6e94d523eef565dfbdbc1c7a4b195f66b2df) (fun k => zmul_ok k _) 0x4c096782c73d64cbfdfb3f694c1c4c4076fae183 1 0x14a 2
    [0; 0; 0; 0; 0; 0; 0; 0xa727fd00000000000000000134e1620a6a4c2fcbc]
    [0x1ead875a363262c452372c1b83f51ee933ffead539; 0x3ad5076a8f08828cdf67d5aaa05245fb103c5922a7; 0x1ccc346c43a6eb437be25d432d6d8dad313518527c; 0x1ff84490759de68aed43958a6a8c7c878f1467f148; 0xe649c9ec42a832878eb6ca55b61e4e0893d5833ed; 0x1a0af1d487f0ed56dc2647261502b731ed41624e0e; 0x1ecad824c3482d257a6662cbf0fdb0b9a04d86e5c4; 0x3f6657c6529a1851dd4fe98c6b58815972e19b0764; 0x1d03d2e25e9f0514f0b6e0a93becc66689a957dda; 0x4c7f0877e108a04e0fa76c38314a9c0545d3365d32; 0x567b56cd5ff353f979bebb02093d81d05b9fdd9136; 0x4eb1450712073f16838da9ef9ae2a54cd629bfa1ae; 0x298608c634180128bad2abbb7cfdc166724e690f65; 0x5d804ce0dacb28fb442a6ef67831f287a975484a; 0x15e55a3e4298aa95a574b3c754eca37a05549150e3; 0x10718558840f0e7975594a3be6f70b8765d631b062; 0x1a6fcbdc7aec8b2eb2230b8883bf2d78f863baaf1d; 0x1a70a01b158b31348a5f302699cd24adaade856ac0; 0x235f07ad05fea0df09bbb101f8d316f3836915428f; 0x1281bcd98329589b757b507bc1af9b43f5a92ebda1; 0x22a427349df0ec95703f5239fe386a5599c1b79abd; 0x262439d1874114b377b6fabb81de1a5f0baa57ef7c; 0xd76aeb7efd34ba808198e6579b670f9e7d3b90b32; 0x77b96e08508cea0b220c37876f7de5695612238af; 0x1d22fc170861b3aa7e8d7e0d4ba96dec73afda9f; 0x46abdc7d73d2fac1687a65c713ea66c1e12f2acfca; 0x6f465e9e460d62837ef062c74e93571b664f0bf69; 0x55c303ec95c2b48522004aa8ec3d6a10a8df66aeb4; 0x21879d908397fc41a284181212bd77d096ad7d77a2; 0x2b2bb51b085f6be44973ee3912dec7447da36b4; 0x7ceabb72641e06434703f0199ec75bfed94897efb; 0x527173b8fca5500a0c4e6a3930081e9faa85cee4b0; 0x255e3301009087012e810f2420319b0e8a8a94ebc6; 0x56d8f4d7881604e4e3d7af48cfbcd961f5cfebf9f3; 0x102679c5daa0fe2be833a234949e35799fdcc1b01; 0x32e18ae2acfdcbc3b96a151379285a7b3e8e1c6519; 0x413d72856d7967d707f9be56b82564f55cdb14ec6e; 0x95c660dfe77ba486a1a0ac3129c9733debdcdbe64; 0x31fe85de98f93e6b3039ae4052507e5c9c3cd6da0c; 0x2c906fc42e538f14269d5de0b4b38b49c543d7e4c1; 0x241558cdc2362889fa233a39aebf2ccb21b9f264d1; 0x1c265859045a93c96ee6d9c311463521259bde529c; 0x26e61c0f89837990c0fb20b9ff78e854362dddcda1; 0x24fe5577fd055cdb9dd37e7afdfce387e4c9551b51; 0xff4505f1e8b58ae0a573564ad89570a97ce44f8ce; 0x366df4d2821304932eb2bae6100ed5a9de85c4e8be; 0x13ec9742682151e08985fd6ca5a1668a08c8df8b3f; 0x17864b57843911dff24283b06e2570dfdac5496384; 0x3ad9b8846984a5dc2a7b0ca233d3e13c19f65db597; 0x2c978ceeae7572500a20a06e46034a056fb7b4ef65; 0x14d4bec0af0cfb167bd38967411286739f43385b55; 0xeb32fa96799ca52a388d6fe51a038d7d0c075bd4e; 0x1eeec3f088fd6410cfb7d80f3c20ea16abeac05145; 0xd45210b6f04fa53207d2e1a2bbcd488d5b7f0c458; 0x2bccda80c6eba3a12084412034f477bcda7f80752f; 0x3751f184528f7c848d539d0608825cd4465c5ae3; 0x161816d91182a7d980163cfc1db46b9bf712090a9c; 0x575444f53b0f69b7ff0ee38ae0d0ea4bb03ff230; 0x4bf3cf60dcf920d49e11d70bc58a32abe2cd12344d; 0x298c437213fc83e89909380f0938869f72028e68aa; 0x34dcfc374118852b813a565f1304587143b7aac805; 0x21610a943e3d17f0a58df8829a0d14a5a95b58838d; 0x5e4258f6cce96e4237b5ead0529071f4b61c998aa; 0x2df5716b59d249f90827d165659d0f9c1fb5a28bce; 0x5f46a95d86524c6130a97a714cfc8df740fce3aabc; 0xd7dd48a0e2eedc67895c1c2a1e13458e878b39a8; 0xb5e32c297d38d4e921675130344dc92cbde76b469; 0xbefd05cf4706e2c45220f43e8f386d16c5a1f09f0; 0x4e961d1681a7030783fc381c01373c71d585326c02; 0x19588ac3a6e321f52b6224b1d62449cd0dc3a20cc1; 0xe2d57400f5e989877a7a0e97b0af18d1a1e196439; 0x1a1454b0835aa09bbd442d15d02cc252f9648fa6af; 0x57038e7055775d676e16139b1870504f8c697354b; 0x365eb1f9861d9aa0266ebab8e28316e2d6e50baf18; 0xcfed211374e6a4c77511f0559a160263b6fe88865; 0xbc31be7b4e7da91e9ffff3f36c5d233972a5edbc8; 0x50fa8047186d8bcf0c432911d6d377c6ba3f8ccec9; 0x5b8a02c11652cab35bb50b6a2377ee824b9cf693f; 0x88e362d5b0e390dc0ce17420c331d622b9b124f2b; 0x577b0258fbe6469dba85b77cd2a8794078f99763d; 0x137b9b34a8883352569ea011985bd56a0b73e67bf3; 0x1c77b1d7a39d42c74a8a392716ca98925b4307686c; 0x10272b5a5d80ad7dab620805161e37b4567fade148; 0x3f6c0bf9561003a75d76b6fff331ae0ddba9777d7e; 0x32c2cc38b95a2fb2d5bdec8ee2bb174517b8c46b3c; 0x26115aaf407ed846170e29d45055ef597b8a231e94; 0xbcffa3e99d429f339ee02490f31c31e687074c2bc; 0x18e137c76e5b244642102e3ca801fbd2aa795809d; 0x1ba5484ed675d4b2417d3ed8411db835bc2487d680; 0x2483c11f270a23f76879065583d1dddb0f88ed09a; 0xc58d1b875d35b330c65d209ff3b0794dcf40e69c8; 0x2e3c812523587956996470b569441cb2c97824e2a7; 0x55a60e5baaf8fe9b90a1a41fdf713a1c80409bc8a; 0x14d422aa9d943ed1531766124bbb62d22bc4657932; 0xd2d3e1fefb29b8c76fc4bfad30eec700fe23dbec8; 0x56203c4b29c7630166fa619a8030a45262ad981c6a; 0x2c193980f552794adf9ba3cda214c299f1bf7460f9; 0x3215cd1225d1bd2c443247abbd421edab96d4ceb9; 0x1d7a541bdc12d0f079f9f2677e6c3851d686f0efad; 0x4a73f561efe9591f024d520fc93eb2dd760eb29197; 0x13c90d5c0d5d01890c4dca627d4701b30d07a59c6b; 0x7ac549c3c1f68455cc982a738552bc189636e4ba0; 0xfc843d275413ff17422d6a4c18aa4b55322aedbcb; 0x17a5e31e7d0e26929249ec307c0397011eeb2e25a1; 0x18a41aab904afdff8f8e28c04dd56534322edc8b3a; 0x17b6f5eddeed50e381f6c23da45f223dbcefe27965; 0x2f9cacbc1f364ef0b279a68fe147bd87e3cfd12a55; 0x3049dd16a877f81464608da56c7d62931e1aa8cd28; 0x221068fb3612deefdda20a726d4b293960bdbfc; 0x914fba91274d753040bda44c7bc6fc29f075f4a23; 0x3d22415b28afaa94d0a9a7c1d51d767c025f5af41; 0x95f814dd7fd188ebf23fde02613bc896a7b9cf1d5; 0x20565f355ce92e8bb36a4c06070d7cbcaefba7376d; 0x1804b6eb59993a39b0444c8b6a6a0ac707d846a246; 0x371453fccfee96653d0d6afdbe30e1ba6fbc9beb76; 0x20dddbe7bc15978bf89ab5905711e23da83c32b456; 0x957ebd9c1e9f8a6e9769d312dfb7b282c7d3f4720; 0x2ef19c475592c5cf5e4018eb5bfd574cb65f05efc; 0x11a712068c59bb33fc311b9ca280c63c74647a91d1; 0x618366947e9d964ee2fa1726df7647f6a8859fdbb8; 0x1684fc96543d1cab9f4276c0faa3d60f6bcd6fe149; 0x17f5595177003e176528f464253c5e8ff4273b95e; 0xdfc0f24fba62b1b7feec04d12bc4d77d23fe86ae0; 0x35486dbda4b2196fe3e6cb6987074b168d31fda7fd; 0x227632fafc2772fd61e9ad2a4d325a9dbd80f281b4; 0xbaa287e434e2307e4a37cb81e0239d762d9405bac; 0x2dbba3f4eb97f1dd0fae1099c5fefd385ced917bda; 0x5d1881095ed3e94d73295f35ca4563898e8e316b2; 0x3090b501ce98168111bc540b876caee10fb64e4ffc; 0x2d700f4c3edadaabee1f1d4eeddb6df1b7d9e6df74; 0x1dca2d8799db2fd95b48669e5fd8b751f79ff2c4c8; 0x7e4eaffd8b6d5448e1b37dc8b61e2f76ad7c3e4f9; 0x176d50befcb5357af1e0e256cc292fa1cbb6859622; 0x1d2b49489e3a36bc13754f8c46591e1fc6dfee5add; 0x1665e1424b4d35770a22f3bccc56d30330dd7dca08; 0xdc8c7a79461ea7066565a0b6196cef4eae20359a; 0x4d80fce5d800ae9753700f443022e9573ee449f80; 0x14d511a8f1878909d4bf69b89b1ce511a0e07e9842; 0x101e4224f82360780375b7819244d1dfc5162076a1; 0x25d25627e0f61214cfc23eb4e7c04dc09c9dc441a3; 0x1c98b996c166f9c6c8809f9ae57b8585cba0dfd13; 0x1f3723c573a8007cc7a8111e75f7f52dbeaa4ab563; 0x6b4c3946265b4e21bc1594d4a73ade79f26fca1ba; 0x4e1858e68a9a7ed67d0fbc6d6e4b92fec8a5e21b6; 0x39aef10d32faea8bd3fb0fc7093d50dbe112f4f47c; 0x180e1fb09b7e902a31c0d71487aaf364654abb9a85; 0x28cb9e9ec0c36509975f895c860aa64d2afa36e0a7; 0x2a4e7f2c99ec1b372a2217c92f1968021bf2e5a316; 0x140c7b8c51104efaff6e7a02acb1cf45cde3ad12c; 0x2be745d6015b6f5c88e85cca748503db064ef92519; 0xbceeb6b9d6b702b14b9814462bd38f5604c87f704; 0x5265ff6a08c7ca62f63f6a119d814b05a59b2d4851; 0x1a78818e35102ff6c380e4264c0a3e280f89d4e0c1; 0x135edcf4d1d15b114ca160f0a7924cf472e761a8af; 0x2d616660844a270408c42cc3fe23544bf405282522; 0x1bd31eb529c5cbf1cfa548d06605369ec333b0a96d; 0x3148d90fbd8a61ed836aec7952063e31804cc292db; 0x59fb1eb2bf9548628aac0ceb0424c52ab07eab2b39; 0xb8e59b74e75cdb36abd36a220ac0703c52f3c7c6d; 0x19a79d3171a1020a27a882b65af5e7466a70ce910f; 0x387c7a2985d3a91d569bbac5f2dfe71c36257753a6; 0x1a0b451059e5744396927b3f25a1a2f32da2c03872; 0x162f1cc648d1cda05799ab81f269c3af2c527bce09; 0x60da2457394f769bf3ac948a3dd82a70c995dbbce8; 0x12092699910ccc07779527d2dc6fbf1805e7eb2386; 0x1febcfb752ae47c550c9d45b70d8a1a068c9b4575; 0x2aa10c43e7e162f68741b8778cf331eb6b8081eb41; 0x37201e528261e6bea9cca15731a1e933c8b37e4276; 0x13ee4d9409f39cbdb3ca231da1cad6eeca7d6a91c5; 0x1d7fe1ba0cbe898e649642d57e5c922c44238ce82b; 0x1336bb111760c2f62e627514f0125619e41b245f6f; 0x2e4a5c520859fddc0243dc208c7739283dadccf6e5; 0x10dd6d70e31c04b66e5a02183557868fcaeaaefe5b; 0x16e2e4aa2e08504e7a0e198bf9f529ec8b6cb25770; 0x18c2719eb0bfac366cab17e3ade4ec1d2d07a591; 0xc8c7760fcba190afcbed13b047ced6e3a8de6990e; 0x6321285824347f3bfb3a62dafa0eefc305c6a9ddb; 0x1f356a41af63459d8b24dd1b76676635fda320d66e; 0x27878a8331b16e29edea8510d0352fb958fe9e829b; 0x27df40fc5aae4d3df61da8ab218643ab5b3c386016; 0x19513303cdef367291ec2de750573d9806fe41ac2; 0x11b39e46da698e3260ccaf170c55c99367ca67063a; 0x311bc6213d48825570368ba97a568791a1aad78646; 0x48d8c68aacb39a66e818b94a84243576688d916c9b; 0x450288867ad86b4715e47fdc23b3bcd41e68b28069; 0x3d5adce8f22f63038e50548233533a1ca81253a05e; 0x34341f4ccfb05b019a061508bf9b59d5bc527cd1e0; 0x13ebd9ab4ae4472a66b879c1ad7dbd01342e67e92b; 0x5c52bb8a2946f82a03b61a82a1b5477858d72e2c; 0x3f45aa9cb1f3e8b5477d4442b5e94b1de09b347e91; 0x12408339ca42b630a6fdc3ae1e59d5235a7c2e6ef4; 0x2da343315c1140f4c4cef1739eef8e52a0202a2cab; 0x2030bee18b3dcd75efc795e8123028c2b62aa9b6; 0x2477981dc8ea51bd6029f54fcbcfb03425295a50da; 0x404499e9a0b773dd6c4e777dbf7f6c5003d74ac37; 0x327847012274626cf4e0abfc96433cb19a0b435cbc; 0xdf428646b859b4ab4e7fbbd0c25fcc614456c308f; 0x1171ace630bc74c5b698cb0e004d59440febc717d; 0x25f57bceed5a51a9c809cf455efc3b64cadcea1ab2; 0x25024fe258ba94e46cab9d7a90c16f6613b9f3285e; 0x2da775c37b81e74eeff4a8662b02d3e1616a28467f; 0x27633cd6f17aebd2fd29b3785c67eb97207b31d0f; 0x839896486768c82ba72f53097e1829015f4d19b35; 0x300226d3a26df1174562453879ec24bfa88bf58922; 0x19f49b5aec4a724db605a82b153deaf4a78b62be9b; 0x2758f8f851595a8b4ea651917fca224269449f81ad; 0x41f3d8a3c0bb7066334332b6d2a45771dc51790b0b; 0x92fb69eddebaee3b6f6188828f7f245360d648c19; 0x1d0212c6a3651fbd68003346e99bebc7df207; 0xda8b6fb46f69f36f912a3e76ad828e54a3287b9e5; 0x4dac3b836fc0ee9491d80b34dd805547bfafea46; 0x258e1b844237bea88399ab5bbaf6a51c59ea6031a9; 0x2f4143b2fa17930c46face5950c4838486bc4388ce; 0x4cfb9ca17763c8180ede9df54c9c69fe95d112579; 0x19476ee17aac53c92e513463c1398897eec2e1628f; 0x2ee7e5e8f1a2eb60e71f126b23f9bf0231a828a7a; 0x10fe65d40856c4ed00bbf9f5fc64d2eea78828bd4a; 0x1440329b371d1c5cae99e9efbd94c6496c2208479b; 0xd3681c4fbf6b1538476509b66cbeae8535fb43b71; 0x28922b657779353c6c73b9ad43bd2bbf6fae735e91; 0x1e626066c70f7b92a4783287be6337805add588467; 0x31d9839d0c8023e25fe55bb84228b523cb9379275d; 0x50eaef367072d704551fc0159dae3b8a5bfab8111; 0x406ec2c068ca64f32cb3ce3f4af1fc224b72b4b469; 0x5e9c2d2848b90d4e8c8184cb1c89b860dcd51cf3ae; 0xe201ee36b465c0ff14c34000efd7a204b6c23534a; 0x30b50dec67c9ad8fad547b70d28ceb1dda47d570d; 0x338cbd3c5776552fbf9c83e7b3d8509b200994a0ce; 0x1822a29748e6f5be2eee13522e9dcf8ddacfd006e9; 0x1223dbc91c808139186bce4c6844b51ad0098fd973; 0x208f07de63a5e1f5ea6a4cb01f7ed192c49379e62c; 0xdae20eba2dd4e9705eee8cf520ed0a09f56c2d95f; 0x5b9caf9a71e6b1ed5de67837e2c15e3b0d631bf11b; 0x5f78f1d2c36e39df81261fb2a08eb307de75592cd1; 0x25dce6e1d9ac6975e62794960da62a14b98e300b94; 0x4271b4ff532ef882aafc377a3c79a5a880eb53849e; 0x1a5903ddff0a5844f7e52ae0ee0812ad94ec924d8f; 0x79fcb295a49d07e9cf167139352db6106ac16ae79; 0x2fd0e834ec8222fc37e0ff66c33cc3918805bb5f09]
    0x2d505998958058f8c40c0e6d6f32a4d934df944a79 0x1959da2bc6a0bd85ddfe7dd19e5931b1c262fde45e 0); [vm_compute; reflexivity|exact prime_434093022356392396149847294750353440317757907331].
Qed.
Lemma prime_6277101735386680763835789423061264271957123915200845512077 : prime 0xfffffffffffffffffffffffe26f2fc170f69466a74defd8d.
Proof.
  apply (check_ok 0xfffffffffffffffffffffffe26f2fc170f69466a74defd8d (fun k => zmul k 0xfffffffffffffffffffffffe26f2fc170f69466a74defd8d) (fun k => zmul_ok k _) 0x62041f6e94d523eef565dfbdbc1c7a4b195f66b2df 1 0x29c9ff4 2
    [0; 0; 0; 0; 0; 0; 0; 0x400000000000000000000000764340fa3c25; 0x76cdfa6f4ff7288adff100fa7686fc1e62d8303dd9db3946; 0x61e40a4e4550b9715d037556324ab1ebb27797ea5c9ed3aa; 0xce1f313ba31e77339e3d92a34c7928ab1e831c48d39d70b6; 0x3bcbbdc2ba01d5e5bea74bee446038e001cb399a0f720c09; 0x185cbd6b5ed6ff57cbd2d35e8761aa7823c76b59ee82d7f30; 0x727b45c9c3662a9046b5f3bad9d7e5c5b5f148282d46994; 0x744d2eb117b25eb11e78abf3abb1c590e0bdfbf95d8cb5f1; 0x4d24b35b4fcc57a0b56ab62c9d70a9980b42cf7d41510c1d; 0x3264f7dd720964b47face78c0bace80b49e76a27e05225bb; 0x2fbf2f134aca064faf2d33e2b74d0c163d8d6bbbbea636cb; 0x7e746e399305e560804b62b1e34ee1082a872c599be12687; 0x265a0e432cdedfbe53e3da48af819cab0513528308733e9f; 0x933addda799b93e68a6b3a3cafb8a2bc623239640397098d; 0x3cef51c925ad14cf36e4e70f44ca6dd7fa813b8dbab6f2ba; 0x159668caa06085b479754ba0f03ea9a9cdec82b102db0ddc1; 0x43c61ab23fbdfe59f12f965ef8520308d9b5e41cad26e95e; 0xa980aa758b9e45b83494a50923bfd377b87ad34ebccf2a]
    [0x22d9faefe3064f97495f987aaf13d35b83862ad35198918; 0x47ca1dc6af549336ec3a575da8003cede8415a21cc73066; 0x6a8d734b6fda6d03133d6d1564d27f6b58580270327fb1a; 0x193bae1cd85dd308066d8087a340425a49435a37f89125; 0x1cf96d95a00ee277050978021d295bc02daf0025131aa69e; 0x151068b6fce93c55c77fb7cf2886c271266d8e0fdc3bf3ec; 0x9beac560aa61674d37481580113067ad350e6ec268dfeca; 0xb04fd5bf256ab4b899353202e3dffb004ef8b1224e9ee70; 0xa5a06092f6a603d6e1b9c4a0453250b6ec9afea58ec3a929; 0x7bdbbba8ef240164ffea7d75acde58d53a1d1084e70a917; 0x15a4f8f6948e09f5fcd137b7906fc766e0c2b4fc40e53041; 0xd42ddb07a8206cbcdb7080b0a7ddee5fdea4bfc033ed8e3b; 0xd8d831a231d6d2b090e6e2c4b21d547eb4d07f0a7ea35aa8; 0xffb5c24196f75f6ab7e9006b339397570b55102463598896; 0xd69b151dc8fa3c3ebf1efec58303219430d88e57d06517f; 0x7d3089461a00c1db69e6a5fbf1f5afea83833a1921d51557; 0xcc2695c149ff068a41cdaa836ebb47d15e34dfdf84110fc3; 0x9c9f5e4d00df495db4b2099f263a9e4005e3bc20b70045d9; 0x68246490b899e0078c0374f6e82f520fb36169665f53a85; 0x8a39e1c215b4cdcf12b6614db7ea902128274317efc2fc0; 0x3d2397aefc3cffd636b0e009a62eec3b7020b3200ba575d1; 0x87ef70a0aa8cf31387fdc0a30e1bf01eb2ad3d99eea127e; 0x63c18f28d195a64682951983d3f998a47c486e1a11b2e6a4; 0xfe46d7874d14b19fa225c22aee19f9a0baec2bbbcb8c567; 0xaa3592f8b53e4e2662a955f9b8aa0f6d4d7419bc19b16570; 0xa3a33f5009fd786569fc8fce96e89a3d965c353f6289cb; 0x62961402b8184f7898a218a6b68df5452a9bca7d5656277; 0xf81c3794e762e261b15ca4a6aa1b748a07a2132df91cbbc; 0x2b17c22df07bf192839267dd4190cd46fa19ae48acb8c6; 0x6a64f45b8076de86630054626149910af8f0da5eef043fa; 0x2d62fd60f198ffbbdaf17506f73c8869e4a6423706006f22; 0x494675634dfef101f711a0d5de3025f12deaad0d9909c33; 0x110a4613b7f6e08578b4464209c667b229004669df072325; 0x3ca130fbcdf0e30e619192bc9fac857810390d3717440c9; 0xc6c85f9a01896acf1d43cbc67c5e739b8e99580834196a1; 0x3f7c58a5718e52f8846682863c42eb0deb1d74b3700618ad; 0x2eec4ef6d0a422e5423da32976153abe1edd7c7c418213e1; 0x3cbdcbe10a095688c38d7b9638900be1606a8ee9310b857; 0x8837474f5a2bacf4717051cb7f102aa5bf6e2aec2484f728; 0xf900e9ad27f8af24391288d8619a1b25305af43c78b3df6; 0xa6a77a0832b4a0ed1b74ed1c587011f647dea68de3f6327; 0x503e96b87198be03c031c718f41119d48bac856568f53fa; 0x2911ebbbbd587dd8601d0020f09ba9520168e09f32e208f; 0x32055bed93c164c6590f12fedc30a5cb0f7b1d31b36cab70; 0x15ea8e2bacdcca10562aceb61e86bb327536db82014e5dfd; 0x1230ef5e33a7a4cb8985cf8b55d862607e37fa40995e91b; 0xce86d2c0aac5c507c03a1dc100775bda4610f3c7b74d5d4; 0x244472cdec1f00d2be9e21b3a7cc8e1a3d1e6b5258ed3ae7; 0x151f9ebc804c3cb8cf7d8406b881f066991169273f408aeb; 0x14d31bd2a16df75be0b50eeb05ca7ce04c47e2f24fca442; 0x20df178b63e61b889a9cad2cf652be5f1f3aa56292b23e13; 0x102607dc4a85f7a74803e691844fcbba45fd65ea97f18785; 0xf11d9291d2aeeb56d000db417e500dd6cd265c24dbb2e817; 0x36b9d23da1926a59cfc2e78fd922f5da738d54c5e3effc8a; 0x9dd67086a572ced568ab9ae67d98a941dced0d6a8c1e192f; 0x431e9a9a6ba66f9195e1fb308b11b94764b6c0ae30b6ead; 0x27e7a64eb0de706e33ba85ab6a76e51fde5826fcc16d284; 0xaf08c86f271c096aacedffb17a73234a833a3d38c3b4dfb; 0x5275e09b82d87a69d6d5dd443f4ec7f7076bf1c7c9252cda; 0xeea526cd85a438466dbfb13d9aece55cdd49e067e0d4899b; 0xaf06bc7986b202d5285bb49a7f94d71ac8b744117bdf74d; 0x26733ba8be84ccb5f15c1761754590f6e93cf09f9ff4b450; 0x1f30292962fcdb3e02e15fac3476c813bf87203b7409cdc; 0x1507a86626b4006b803fc425ce5c0a154c1e1d3ec813162e; 0x70c226ba11b595b5c898cfdc22946f34a47535fe0545f86; 0xb18bb98483b918ed0db4a32b8badd1016f64f9c1089453a6; 0x138a589076ccc9f9e98a3cb1bc480076648a2918c22ccaab; 0x133ffef1e3fb199038c803d9eb3107f88c45433960f3a4f3; 0x43c04acb8c64f342409341c0b086b6f7a3654b9c2847f3dc; 0x751ad4b70d7b025d8fe254b5be8b3e7b650723ea999127ee; 0x57dcfdfcfb57a7a4e0ffb8fb641608eaf5836e9685ed4f1; 0x6a49c26a5afec60ad91671af5b07a8c4beeedadc1afad07; 0x61f2ed07f2fab5809a028cfc438d0aa390da99288f32fcb; 0x2d94c5ccc60bde45004513e9f413ebc66cbae6cfad041f92; 0x839f32b291fade5dd213d9b52540d133ae58f513d9d77789; 0xfc14b5c630e6a6b8dbc6f9d1a5261abf2a632f9b1d89f8b; 0xf07c28d1d2b5cc09d8b8cf2e64b8c31bb453234c71adcf4b; 0x128e92b02bd983aa3682646afe213e7d451a0369445a7baf; 0x8287dfadea771d61af6e55b5171ad96da45411446cb51d07; 0x409cc644a9fea383fef59d98618459b53ea26acdee2357a; 0x94a9e435294ac14af623b7b8ae85c47dc4aad909e8192271; 0xf765776797501e5b728b0b314008f2e218a94e3b78ed419; 0x74f7512c2e7b6594757194690f6825d4841281f6a2d557da; 0xab6bb3ec6a3fe5510560da0056a93d658f242fc5d72db43; 0xa4194b46eca1f289c2e7fa8223f28c17e9039a2bc5daba8; 0x969d11333f3ad3675e8967488516fbb247ed3491a5398e27; 0x112edd33b98825334b01703c6046c89043cf38859bc19c5a; 0x1cf55e0da014a49bc8504983dfdea2824bead78c78c3a328; 0x5af8d309808f88da0cfed8a1fd2d3ab003aa779b97abac2; 0x4a6897299dd6d328384bbe724d02a1acf2c66a8e7bf3c3be; 0x1592c0ddf4cab016d360687b836182a9b6331a228648b4ad; 0x80963c80317346b27e2c15b7630283f1a2f4345f120cf85b; 0x8370d7cb194dae3609693d832a98eb3efe624f1c71cb05f8; 0x102ba4def9114d641fbccba6d94487b1ad2ebe022baf3ba8; 0x139d97ca4021adcb024c6bf6eb9e6c03cad8c56bea9b0a9f; 0x129b34f6863b502b736c461860564bfab1ee4a044ca25da0; 0x66fb2c67eebf1c2d105a2937e83e8a04474215afa440a03f; 0xbf6d9a743eb026add5aab60531d615b009a05401635c0a0; 0x3f766506720f9e8349072304a81a64d728f661ce5d220c50; 0x10366e7f4339f3d58993488f51a0f391429db8a5f23af0c2; 0x30f7772b5d0d7608303204ef474dd4bbc748e91c11397c1f; 0x88c71468e16651dea008e2ebc121440300502108a1ed5cf0; 0x505d5475729afbef3b51c754eefc576c6b3eb0f91511490; 0x62e11db48b442c432f7459a4177b46382e399a4d7bdd8ae; 0x3426329282f99676ee7f92621fd6254ba7ba1df3bb9baef8; 0x8cd3fd73a90bf34280c03106fb2a4d7074bbc6ceb508595; 0xc78d69aed223a5e6cdc408972726893a7dc7f44752d2bf42; 0xb84628ba3c050c35113d5b11a2bdbd4cf6f22fbf9d123b3b; 0xe215a574e2991402a6d43a493fb27ae66b40b80188c6696; 0x1a055ff592a7345a7aafed76b078cca7db6c4ffa4eee034; 0x991d5a49c94df4efe66ec54db6b7b26980484aa2b0acd81; 0x6f01d1b17d5fcf0f135b315a60da51cd5213203e56aae0; 0x5f0e042a3cc880f489b9a679b0cfbe4e9548eb4e14678c0d; 0x7dbf34179564b5f49a52b19fd607095ad783f3eb733f523f; 0xb170374f86c15bd6177bf06e2f9e550e93d417d0fbf9f6; 0x808a8cf0622157912c1fbc2442490b7f527ad96558df7109; 0xa0e445d658451e76a001112ceb531d3a405b3a307c7e69ce; 0x174ae76183ddb09c0e6f455934f4ebb9cbd2cfba79194025; 0x311345322cc6207ebd68ce45eadb178d85b6d3d5abfa9cae; 0x8f3b057c027490d8131c4b78b2f9ac4ccf1c7c942c74973; 0xc810f1b53861d98ca91d556cdfe3cf74db4017c7af507237; 0x7ab83322f08bac4605df95608861851af6b1a458c93545f; 0xcfd332d0bbcca72ccd795b554edca83c54cf183dfe0ac84; 0x76db090c4c3ef23c53dfc6cd823c888c90e7524059f11bb7; 0x4a96ac620a704a7962c0435f3a1c401578dbe9f0a5cb5f3; 0x7ea7915d86211db7b360971eb02160f4fd147765cdc83463; 0x161b7bc8846d17b8dcc6a04c4f245dcc05d00ffcd8cd9a57; 0x9facfa732ef4f2e9c4063970e233272d732fab61f52c534; 0x1541e4759ceaf892cbdc8876fb268fc51e32e0bf04cd4780; 0x4d0b7fc9349504cd69b4373f57a9772b0d12442b624f0788; 0x3b62fab2f7e692aac53a0ae8cf28b23e9e01e5e3487e3e7; 0xe81513b3355d0914281faaed9ea9f3aa6a9ed78a33418269; 0x11c1c3d65f4436e7cc70c357cd219ef9c750f835183fe1e4; 0x1b23a5e1a3487251f4292ff6e0ef780abc12afce9b62bc60; 0xcea32a7ed0358cc9bdaa99dbb23b714ee7ae255ae533d76; 0x19fb5e0a1aacad277dff1aa6959313e75299fc0ec3c65832; 0x1743893839d9033df4b81bab5a13058afb55d1cb123d30df; 0xac51822909f331a08b1c4738893d17d2689ad3d912c0b22; 0x2c5fb165a4e49b0c3a12e1910ea8e2a334cfe166b473e28; 0x774303298d3a742c89645d14062a7c64ae223553b2a5447; 0x9908e947052e23a879f3dabdcf3df5d04732109359b25c6; 0x385072447bfb84f92d6399e2f9b8360f2e2ad0cd1116960; 0x9d032fcb072507ed82dd60275a31a84deb5f63b94f7da9d5; 0x15b1307e92011851fca4a55c32dc213b34252acece7825f; 0x7bac2d3d4cddf587aa69e581a973f10b8db749c194ec2fac; 0x12bfa274579b2a03bab012d5c69d2208f2f5736b0c5fc68; 0x170b5872a29149f83d16bce7a68dba1b5cae43000e9fc171; 0xb29f33e5966466fd3abb174aa5efa69a49cfda66b74760; 0x1525ad166c609a168dc0e991c45dd99d79be59e06973cfe0; 0x3a52d6ac5f5c0d2a389190d6fc66847afe246b339dc2c7ce; 0xa28ded3c8dd8dc4fe513a13091e77b7e8980470300f26e0; 0x8701d6bfbe5fab4f7444e5d5a097c1c7d6219783a910a2b; 0x263b02d9f2ab409283c415056ebcafcf4cabe07073ac9a8; 0x4b9d14970159adb3a92af987a2ee6b7334a224f9cbfcfb1; 0x8c03d338ecb1189b6e54a49d8e99e843bebfcac79373de1; 0xad8b8546cbf1ed33d2cf42ff81f90c8ecb20584a1feacaa; 0x2cb84901d4cc7f5bcb711e3564b7edb119a940fc5ce47a91; 0x16d9b4174520e779f6cf84eec3e5d6e376daeea88bcc773; 0xd1ee00d06936542524edd010109e6d4cb353665cc6514ee2; 0x7ed64c81aeae7d793b282156182acdd4200a77aa6ed0410; 0x2138b27a19181dc5a4acc11cce71fb57cea4bde05e8d0820; 0xaf5b79cef88770e04586d182951223dcbcf1ff125ba6bf81; 0x278482f27667e3476b8c58ec54c11bd9753e67ee995c5f10; 0x80727a5282a9335fc788fd1cf3ad5402e794f8e15afa6b8a; 0xf9246c6aa5dae94936267a4fe2559dcc63267c864afb5a5; 0x4b4888c4c539c7c2b2c9e023850293e9a1890f7243813e3f; 0x6ece5cfb5de2074eaca8bcf3f82889adfa0a85abb4f400f; 0xd90cee70c91454568e8baf5621726bfb54a0758ffc701592; 0x9455de65efe3101aeeb3cd0a12109788603346258c4a7ed; 0x1096f4bd89982b9ef3ac95fd8df496f352172319151896ab; 0x35a4f38c9f8a48a6a3bfb95174acf1242e14248b9425f24; 0x515935b211e4c33f7e2461e4acc5f4bbe1c9e12d2e110c6; 0x8a4ae8c5ee7dd15fdc25bc14ab2fdccf2f2cc96f12dbb0; 0xf4f0c2361f9d62f38a1d763b34f1247017d737f1e492f43; 0x4785a0ea9ebae73bc3f5f60242cdb9004deb80927fe32fbc; 0xa8661104c2efb8501ec0a80b8916edf87fd73587eccb5ae; 0x8dd655b7400266e8dab301b20a1fe4afe2d2c511726b9f3; 0x7dc88d9e53304a135d76ba6c2a29d5e07183df9877535b3; 0x232024d05deec50632e43fef706baa8ecc567556cbfe8a10; 0x4d9907e9688f522674f957312bc7ead69825049120e52e7; 0xe7d155cb6bf66a378baff8610218392a227ac2bd94d16a59; 0x127542f916644bb341bf91c17b2112067f431e0c1b01792e; 0x14ff30fd21700b47db02c8d2e5b9308e19e9d15105ba8053; 0x1eb31ba4fddca03bc703c61bb089c77d55106ba52a78a4b6; 0x3ac37e5f0e8532242770a65c8b2fad34f993d3de581cd0e3; 0x43770e71c8d27624ba4d8434dc7481a5cba5a6926c15a38c; 0x13ace8ce48cf4e7a6dc74736b9bb9a22d41d969034bd27c8; 0xd6716b0c7e889cf159a0f6a9cbd936d7abe796f11d07f87; 0x7610dbe06768677ac9ba284f648864b0df4d71b0a37b38ac; 0xe9d27ed6005970e3fcc3e90ff86e5a07887d7c2e139e3fd9; 0x4ac12950216df2caa3e5de2c94db639b7f143a635dc709f; 0x26fb1f3629303c9b1bd15a2842c52da66555138a58a10ff3; 0x3b7c1780896ba166d38d76e301c9e355ea9f9e3138519f7d; 0x9c9a36bc27abcc86966014bc219efe8879fc32b8863f700; 0xe3e01260a3bcdef17f7d409c8481346524a029beb55b1c05; 0x58a988858de77385dd898a4998d06a1459b38b487b9d962; 0x1800db2b0844f32e03b317be55f0d454c1d04de57a47950f; 0xb537fafecf1860332964643c0ad0b0720252f4568801cc90; 0x4ea29a8fc1169b89bdc8eae3e5b7eb106ddf13e28f7d99bd; 0x38141b9927ea6ca6068114825895acd698f8be899c31b996; 0xf14c62f16116a20c2d8a74f5d5bceeea961e8e7cc83a901; 0x646d38f419732c72572861d068074da703fa2676ef5e127b; 0x7335bd312cd93b6fca900c89dcd65f1bf9137bd741ba56d; 0xa9486f26dad0827f5fd07997ade28932d7f37fa082902c; 0x244dbe025cabbe0529f2739691729251a0e87c4612a1d557; 0x63f24c5e2560be4f6c6ec74fe01949eab98d247d7d22f891; 0xce3f3fec857739e470126796d54e58756b4abdade0feb8c; 0x4b57fa644419fec8024934c84558a11599ae8b9bf981b6; 0x78da18bd68e3eeb8a627520b6f3143412ea95e978d2e6cec; 0x8108ec16705a93a738ea85e5d6bffc913b948fe1deaaaf2; 0x8629da3933d74d1ab686525690ff43dff00a11366861cb00; 0x884cfa63944b6b1f05cb8a2b894627e6bf2674248f5cdb4; 0x3cfcee747c339a2b6171b2e2ca31a4aeb7a871ade30f472; 0x48f083e3221d80b8ba7335bc5f741b1814d0bb32342937ff; 0x13f4a0be5664e6cd0a0ea135f638567623ac57f3b082aeb2; 0x48f970e76c2d64b2c6c8da56fc6b2224e5d302bbc1dcb8c9; 0x6868b82b331d21385a35f7cccaf5ceef092a9f701c57d8d; 0x54c5b7c32a66e0933851470fb43e99bc42e90fad7184df5e; 0xc636f75a1e0c3c8663a0bcebdcc82098f299a57b7ee4ef0; 0x149bd2b908d48185889fefac8d5811f844b2033083890996; 0xb123620362be23d5747bf950f654f5b34f1a5a66c57e976; 0x181d825e6f95bd6aee71d6f608303fdb4c0e0c2df30be44f; 0x29996f88e1ba0e8c86654c5164738e058fd3a3a755442d65; 0x9aef870d7d4de7b1367732adbb6e4b1c67d1f43ee0deecf; 0xaba1f9ab5902205c928f83781833ad6586e45bdaa58cc8c1; 0xbaaae31eff882d59539501af1698b6c24820460d8689246; 0xee97347e79b065d6fa6517871cfa7c9d4bde37e75e170385; 0x46f41720ba9f4719ebb3e2453cd12cbd8143510fd4efeee1; 0xbc26579a54f4693760d203901a6ab19aef8bc07fc1b3d42; 0xdf304addc020f0ff6d382777d3c27ba7f8b42672415ea62; 0x22b9de0312a05b84aa0a277b968a617d437589aec368c7d3; 0xd37a878e9bae81fda1dcebc90d8e5132bf0852ba9813774; 0xc3b58afcb98dd578fbabd489334e5784815c9b4fad8d118a; 0x151da202665da2f0411450ae8e517b41ed215081321441c6; 0x7691d45eaec930909671490e426837be1857e77836f962a; 0xad3813ac3a6eb8fb896839c73d7d2eefa3ebf5a2e83ec7a5; 0x7f56728db546d2c0d71d89c800205a4b88e01c69c6bb5266; 0x78a8cf8898ffd12df6e763b0caf4d85fe8d33e3faeb9826; 0xb6eb11136ef246c305a979beea190e11a15f6d5baee9c9e5; 0xaf8d2a6d6eb3f1d42dfc678b058788d94f30011a4e5bea7; 0x447459bdf47c56cea59e71b0e4ef884e96a289e9aa47a5e4; 0xa4eead30b0d9c9b5b2492b16da1a07cf22fd675effa529c7; 0x9b7a3bbaea584f37ac7c71b89461ed5fdd7efbcc0cc1dd96; 0x9c184355321599acb18ed6228c225979d3a197114cfa7fb; 0x3f4bf21ed554ed9fa41a9e9b4b37377648924cad55aa0b25; 0x16b7dd173858fd748d115624b97c7385192b6d9abc30dfad; 0x13bba41d8c026466735dc76895eadb7d97a1b7f17fa97d14; 0x6370461f082778f76719376de88a0e3569966949319b4d1; 0x11ce5a0dd47d04ff472cecdc95a43dca68f624c647f6fc00; 0x533a61c9a17d654a1d0c951ed7d1f2e63c26b3ab31013b2a; 0x2c45e64350896bf765ecfafdc0e23686d14a0af132199a75; 0x14fc350aaa4764502241d56fb5ee20f6dd51af0e9e6e44e4; 0xccf0ecbf1cee6608d6dc2ddbe6db1634e38db894fe9c229d; 0x2d445da26604c159d2aebad573389d2722940ec27917b1; 0x5b6434d7ac4085586ab4fd84165373f43abfe61ddf3d44dc; 0x14fd2fe51595f58cfa24ed420e5ff912f3e0aa0fd8877c64; 0x95e1bb5406bd45de6da6f7ab4deae1e055da624b76e1bc97; 0x13a25222a2c97b32bb183ef858f4b4e41f025a1c57e3acd9; 0x4e3323e5b70473cba427f827c783499ce57482ae7c686942; 0x1718812e04577431391784e39ca352e33fdf83fa86756fb9]
    0xc51c7f0b91658a0d1b09c5deafb020c26a89bbfcaf3706b1 0x122e991dc5f835202ade256bec9c5f512485203d83b64af9 0); [vm_compute; reflexivity|exact prime_143250697377609490729449607267616635304860109419231].
Qed.
Lemma good : good_curve (cp secp192k1) (ca secp192k1) (cb secp192k1).
Proof. split; [exact prime_6277101735386680763835789423207666416102355444459739541047|]. split; [reflexivity|]. vm_compute. discriminate. Qed.
Lemma order : ec_mul (cp secp192k1) (ca secp192k1) (cn secp192k1) (cg secp192k1) = None.
Proof.
  apply (order_ok 0xfffffffffffffffffffffffffffffffffffffffeffffee37 0 3 mp mp_ok good (0xdb4ff10ec057e9ae26b07d0280b7f4341da5d1b1eae06c7d, 0x9b2f2f6d9c5628a7844163d015be86344082aa88d95e2f9d)) with (l := [
Plus (0, 0, 0, 0);
Dbl (0x76730d8f852018b6687ddf0a6c51dabba268459d8f2d4a2f, -0x1a40aa1a34201c2f1d408c2ecc525c1426affd26a1e1fa9b3, 0x36ce44357e6315999dce6acd3d0ea29dc08f31f5177d0817, -0x9d5ea320f518ee98c51e224e31c2f9dba68aaafc2a377df);
Dbl (0x55a5be2fc62760eedf7b1253964ed24fc680666788b51e7b, -0x1fc99486d38f63e77ffac6e18040f36df3abe4b9f8af7a572, 0x1ca77b9a7076882e640cea420f23656bc16cec0cab34df8d, 0x2171c3c71fa52701de23f674e28e8bd4d1e8c8bd43d58ef);
Minus (0, 0, 0, 0);
Dbl (0xc27d58020d88bec0c68a5b95889f63a4cb7ac422ae0ca33f, -0x182533aa0683cf2077e8eadf5d2e51738194074af21b6b558, 0x93c236c22cc5e1f8af2a45d91b58f31f128aa2a492408905, -0x50fbd9b063bbe945c70b62e4d31dcf42fae194e9df9bb3);
Dbl (0x6538c2924ad4bec163b642d6209e455b3b9cee175d942a90, -0x1dbac6d35bf1fd2f14034d76aabe8acc90c45b86a201fca94, 0x2805d61d22eea89beeefcf4478b21441f2f7e9e90c3e0bfe, 0x186d327d9060ebbde8d70bffa6cd2ef4f6905d60f3fdb2f6);
Plus (0xcaa51717a3426d9f0ff03585963ef8f2a9e76b08351551d3, -0x24b0ddebda6fec8c5a5868254d5a361e23a001b963f0a185, 0xa068f2e814328a2501f1906319579f773e267e655a8da293, 0xb50bc84483fedbbb2b65e761f96dd8676ea8a750d285974);
Dbl (0xda4246b1a31070863caa83c355c8c7bb22a3bd1dd49d0ffd, -0xbbd3da65066114c64e2bdedc3f8dbc8980746f8a4d71cd3a, 0xba14f18f10d5b48e86aca37af629ab4c1c30e49213552adb, -0x73c4cf85aee6cdf9e06cc24f8dac7ed6b91c4590ca9b);
Dbl (0xa73e70240ed9c429f93836b84bb64418853214764df7b477, -0x9b83130326bfc5d25c08118f7faa20c658ce919766c00bc0, 0x6d4285898df6e17c813c7f30f87812fe87a2e299f0ad5dd3, 0x6b431b0e24d0c94aa30a301781b739bf4a8af3323e7eafbb);
Dbl (0x1675916f7643745f429fa0e68e8274c14d9aa1eb7e621a91, 0x2b348b7fac2742a03495edcc6eaf22fe6f87ad71e25f9b12, 0x1f86afd6ad52628ed7b6ab33e1de465411ba76668d44aca, -0xbe23604a838a514c0724ee14272c2e5a50984485db53f6);
Minus (0xc2c89ed942361efb6bbf70998579d905a2d0e42a4a4a288e, -0xa52b69f8b661e8654e0f31753e9b065630cfeab77e2d6e20, 0x9434adf9de6261a1974554705117af5652c363a95cf93615, 0x9fcfeaedad01d19a26e3ec6db98e06de53407c7698e95f25);
Dbl (0x87cc78cbbf58a41c9ba8967a95a4bb31ab9cca9d5234819a, 0x25e238f6bf504d36ba7e661b38f06c8b85c54eb9af116e53, 0x48094ab7a18817e7d9385e45f4c90dc148ce919d2ebcd47d, -0x4568ee639e51252a87cf5c943f081d9d496fab0509101179);
Dbl (0x81124595a5d0c9b7e5ee11f3715c7398464c4533a471f275, -0x613a938cf7daf72a255db437329f71c85dabd75b9048d04b, 0x41136b6ead11bf84b0c503e553760f28e0fc846f46a32597, 0x3d3b9e22c9803c7478d98db9212382941926fae2480386ea);
Minus (0x8c90f8f95a63580d775e6bc29eef1221610b3e343e66db7a, 0x14b5861dd6b7d3e1670d0b56433cdf42ab79271afc8ff55, 0x4d2ee269c5866a13397af205efe0f6e3b98019563b70d5db, -0xfd4ba71d72b9f7e229812c9dc6eecf2cc0cb61a58c824a0);
Dbl (0x91754c17b16b6742ca81c106c9c37f4a980ac93b8e6aa8b2, 0xb9ffb4a2bdef683b79fd7bdadba8ebf6155fea95e7dd3e7c, 0x52a615f17b41eaaf2e05ff5b66341fad62395f2f2c7765f0, -0x338482b88c9d2259cecf9b8f4e3ec0f617ac117ebf90e6ce);
Dbl (0xd9552081ae2f1d7cca5cc104316e0e78641e32cd5c4602e2, -0x31fdaa31c6af9fbfd74e14b3a8796392d55b467fa9b9f828, 0xb8816d6a738a3883ed4e9fede49ee1514a7e9018c3319fa4, 0x4ae2e65c4fea4cf5c027375b2b6b93f77489d6e8d33b6812);
Dbl (0xc3751db0375dbf2cd056065613315e7ef7dc96bb8cc56157, 0xf38420c5246bb02812c0293c37e0369dca2ec37b56e42bb0, 0x953ba0ce9adcd2c66e89eb94967b33bb9c4efde87a7cdec3, -0x8559f653be3a1fb5f178e367322e1b78455d7abcc672d919);
Dbl (0xc1a06af4c6dc1de02aabaad864cd120dbc91009ff302125f, -0xa237e9b0387b06176db00be3366f2cdf6fdb51d15407ab4a, 0x927345caf28016eb4f5c005175fb86d3397363a1e42b0405, 0xc247daaf980d3d9ea8c18518a761ab53be77be73525a526);
Dbl (0xe61d83c8aa9a99c33201f4b3221eee90ca627480cd9fd74, -0x18395e72a22651d742e6d9c134e265afe1f5a0dbe12eb79fc, 0xced90c33b1db6f36d0b48fe40f00a6731107825bb67bd5, 0x653499750532acd460d66e03a7cf6fd624d06a5d591bf6e);
Dbl (0xe4b73c80be962d6d32767f69b486e374b5701edf3e37ed37, 0x4b32d8608a2db4ec64d1e5f93cb51458056a89cb9d23905, 0xcc56e6ece1d895b4fd5d18bfcfd7eea4b90b38da8539fc60, 0xfe11fa55be5fbe9a241cc87d626d204206039817ff1be7c);
Dbl (0xe4f0f00e4cd23db4838b70257f62e52e65dd53aad46e59c1, 0x170e24b113a797c97398bd547f7011b337fb9572d8dd1a5c1, 0xccbe0e5c74c158f3ee85bce55fdfb5efad40969543a3bfd7, -0xad520f606843eb3086e7e2b17321e19f64528075c37cf1b7);
Minus (0x847ad5a8c58b0b0c52645fa9835e4cf8bdfc5cd88b1e8b3c, 0x667ae57c76e05850d4704a88ce0f4780b1ac3badfc53c71a, 0x448ee74662e5f3e87c06561f1ea21c4073460f97ae74d1c4, -0xc71334f362d3ca8bb037532949ef9c6f217edfc76377805);
Dbl (0xeb76e41227d9199ec09bb126241d0c2772d40989101c7fbe, -0x15cdae972dde0d0f2a8c506249d932a992db9c4c48b354830, 0xd8937df06115a9716a55a6168f49d4c51e47388f32594245, 0x347e58aa3ff868f6cecb5062a094b76b5461e94f449de939);
Dbl (0xbc73745bdbe89d66ad10ec8f3ab1559ebd5ec07941983595, -0x194caf75c6442aa54982a771dc8ffaa8aa36dce204b00ef19, 0x8ab9c6f8aa689a6d1b5d1d289e48e8f77515e32d21acb7c2, 0x6160d76d06232efae10f4a60eae420e581655c7699660d02);
Dbl (0x3467532a4aa957ecf0f7abd3b39078fa5770745ceef6c759, 0x2595495c94be61c7eff7fa0c9615d07d586e23f3bf22337b, 0xaba237d3561536366e959f4205514ba6a64b174bb26b090, -0x206cee73f111896e468b01776c5830f8a3c2ecbfdeff8eeb);
Dbl (0xce6d82dd185eea9b149ec4d36cc705e5d5b2089c41d09c11, -0xb666f3771d1e47c92b917d75d971e082059e8f5aa96ebd33, 0xa6746d748664ce18d9b793d8ede247a144a75ab0cd833b8f, 0x75547b88bc726a308bc747582ec3c2fd57f2afa2549d08e0);
Dbl (0x8f49b282ac3e408169166ca02e3ba801d8f9ddfb9186e256, 0x2c4ad12d02e28c3143b59786912f72aa116d57fe27ec40a4, 0x50336aa5476dc1cb52062b8804fc157bf1719e6254d9f0d9, -0x69af019b10520f02fcadcf0eaf2f3ac9a161e5ee740b7f8);
Minus (0xea5b899b79fa7e26a4ad0ba9f5b039b6d07072cdcc2b74da, 0x88ab79122df624e24e8f1f3694a8c125d7023e5c33b45b8, 0xd68b784b597e6daf5efe4bc0c9522482752eb343eb67cf20, -0x75e369fe509ebebfc0abbfc50c3e703a6565ed9df40934f7);
Dbl (0x40a0789d9ddb153cc42bfc4f78264520145106f87b5e87b1, 0x5525673e3bd9bcf3647d9dc707fb6795fc0e305d478700b, 0x1050a0e5ccc701815202ad1eda3fe9da9dadf84c88f4eff1, -0x26309674e020e2477cee4f341e52cb367996d90e283889ec);
Dbl (0x9592b3cd927df9f4deea75f1e402518f82973c8e1cd3a7b4, -0x207cde770d41e7d6fcc9a920b44648768d70868cba99ab9c8, 0x5764195ee14adc9843ede1bc5b37533560427eb3561fa105, 0xc7458d666b89dd4d9b01cd8be1e4a2cc2435c4c423c17cd);
Dbl (0x1eaf4d54b52f9021ffb2607f520069be42040d0a0f68b730, -0x21ebda68b8bde2b7a12d7771d0b3943230a4bb6b648d885dd, 0x3ad8e2aaba2edd50a90b945319a845b4a1eb473689da3b0, 0x6416177043aa39b9d1260caadb68ca05f81cd8d8ecbd6bd);
Plus (0x12db896371c3bbb88f4b3d36b38a5ddb93a236b00ccb4ab7, -0x3008ca4420c182c27b7f8bee445ba6591332a075582a20d, 0x1639b9655dfc1add0c8dad43bde67782f8bbc273c8787c5, 0xde0aa7c8148b0bcbdfedb467bb8c512e97b2fbd9217ed59);
Dbl (0x354cc79ad40b4c47828c43d0dda0e7e82c645e5b2b9bbcb1, -0xe102303fac5129d11273d1ef1d38783ff77d4a765ff9b946, 0xb18e1ad3b5ca79844554131f71099475a07d21c94a9e283, 0x1b99aeac6bccefb5985d59016a5752c550e3131410227c36);
Dbl (0xc9399f264d62ee0f306a825373952d2123bacd2f5a15769d, 0xf8f0d15cff955cd7c9d87f1c907485f90cb273abacf258b2, 0x9e2b88e2678469bdd145042c064d76847c9898d9e21c4978, -0x57da51bc23de852c3cf7e39ddd9ab15c4f9f9b0d2c15d796);
Plus (0xca7807f80870349f4b13163710f990a1454ce92270beb900, 0x64517af0a916dcd6d6bab6ace0a1d11eb58abefda4bf374a, 0xa021a4dae6187d03345e6028457fcb899bfdfd6bb05cd487, -0x169b6eae810a3390a77926e8d1ffe885ea06dfaad14b6b85);
Dbl (0x938ecb8be7655371b610e083db38ca682c87f55e07cf663, -0xe072739c2b7a14b8b49a9d2f252a035fa522afecf3fbbc41, 0x550d4d691cca3facf4c4557d23ee65609b05bb5ce427a7, 0x65e0fd389d6f744dbfd5cc36eb80e201fa26f8ad055d5e);
Dbl (0x729aa9c48c3b3ed9167aff73b4b9cfaa47e9c8de12aabd6, -0xca9ab4ac1a09731e9b57197ba7df2adeb80cbf5ecb488d90, 0x334e1ca3bdf2934e35b84e0aaddd9d5e90da9157274ab8, 0x35a31ddc99d65470800cc5047e87673ca4baeb412dfbd99);
Minus (0xe58648512994075946947727d8696bd9a744e71be1ca8aca, -0xad55d1dc0d48dff4a8b8313afb07086be056ed48b420795b, 0xcdc983d0fdc81d3c044b1ebf4be825155b159cabacda8d8d, 0x88a99069040b49f9bd9722120d529654432a5a0bca44456f);
Dbl (0x6fc73d6dc24144680be7471eca1bb92b54de152ad44f12fd, 0x88950384c6bb775884c67f3db0d227476391d2cbc2bdf2b0, 0x30ce6255bdd6186cada9e3d5212182101905592310eddbae, -0x6297899dfb455fe710b8d0e2833f958be97113722008636b);
Dbl (0x7a72492f97905497a0fc339d1be3d3c15b9e06f5235276bb, -0x291509377a900be2b41778d498ad645e96a6e4439edf1ae21, 0x3a9120c69fc4ba752d74e076ceff0667483a995a9e776a93, 0x169ecbb36be74bd6cbb5a981eeef6200d0e0aa75b7bbe4a4);
Dbl (0x306b1d157b13ec2da6858d05717c00e451513c9761e65a0c, -0x1a25a47183c89b3771676bb47a04d023e2323eebd70a8666c, 0x92857b9616a3ae87c8e863e47a6fd197109677c2741f14e, -0x5c297b72e4defc866c550d3428767760d373e1f52da422f);
Plus (0x36681f3c84e071c1438b6f1abb5e942ec16cc8eecf85e63b, 0x257b27325cb3503a7ee4632680a323eb0e628a5f688e35f4, 0xb901786ed0a5cd6df400f338d72df62ddf6ac1072d7c6d6, -0x21085fd9e174c90a324ca9d5367c705d7606171d0d5c6894);
Dbl (0xedde491c26f6e004e33624140c50a204d58f63d2d75b7c7c, -0xc314a444cf32a485cb988f4629a2b9d0e52d5187a77bff34, 0xdd05546101d9c046ecde53ef06df47b88e84f70df9debd4e, 0x50f8186ef93bb7d8076d58a17be02ce38cfd879f6a9e04ba);
Dbl (0x29e1f19d539300b66a769731e27ef4907113592fa8ca2b61, -0xbf9f075666d0a7e0d234e4452d6cc8c10b152de4c2c0b640, 0x6da26ceff5b96ac13b01bf5b8e5d95a8b5cbc1aceeab4b8, 0xb7002f0e1c41ebd53eb10beec769f19b5a98e7f45735172);
Plus (0x736cd26105eb30d93d5803da3ab337c0364fa95614bf607e, -0x3d5faf85061440a4aa882b5d0782de41735b1f48173c9845, 0x340af3455a119ecfbceb4af96871be13e68f3167814ffc9a, 0x1765982c4a838cf89fd00a4779185bf0f146af7be81c2c1d);
Dbl (0x408380eece0c73880e51e82c21d1c362b2a1539c3b914827, 0x3c2d24dd5d2e3183840a9849cedebadaf948c761711f4ef5, 0x104204049c5cc7527cee85c0367c00c18eb9a00c56da5606, -0x2b8fe0339199ce08a73543eacca895ac2ef52ea63908db6f);
Dbl (0xd78eac533765d7748c9d7077b853f6c3bef49fc430c09a0c, -0x22dda4289788266e0966b543b898409548acec45cd38a63fd, 0xb580f4f7675e725e9b07af30655ce6c3446ee57f034cf0b0, 0x5588ce8a18f5042275a51e100cd486d9e347cb8bb7e694fe);
Plus (0xe122cd7d8d57e78cd04eae28852404bb07c0e8c97ee614cf, -0xb63916e3c0db757e47c50a8a5756731715ddc472e993312, 0xc5fe31f1ecc06251264b3b6b3d2b55653a1f0cfba0e9ae8a, 0x26f2bafd59a97d33ffd5e0937ce8c75b16d9c8db88c807fe);
Dbl (0xecf735607ac9d39f24c9facd76d3665c10acdc78ccbe2e92, 0x9eff8918b24d4420ed4304b62eeb9c41224d073372b4904, 0xdb58b921edb226d7acd0fd95b2ce3fc142d9888b4273bdc5, 0x208e6b06a3c439e76dd217de8c588059a99fe4f97de391a0);
Dbl (0x99d9e4afdeba841c4f85758e1e87fbab0ad438bec73b3b4f, -0x43d022d72568dabadbda4bdc9f683b311b73e74aaac87f6d, 0x5c762ccfb6ac47ac4f276824f48666ff7fb4e789c45c4710, 0x3505b1f1d611c5499b3d15fd466a6ad9d022c9c44bc66c5c);
Minus (0xb0e7aedb0fd9691549ca0d8b2963387aa21487ff74071f50, -0x1c68ac61c5c8f66540e764010cd2abad2bec0b167766b6a8, 0x7a3f621a3c900fd893aeeaf28408b582710319016c3cebc1, -0x7eaa83c4226b9d2b2e1ac63c0c21c1c3309de1161f5369b7);
Dbl (0x8702f03e33ae8fc210c671de4a4d4621b3a81b1229dcba2b, 0xd2313bc6b98233cfdf81b938c8360a0799af717bcb3da867, 0x4734196a3cef9a5d4d4214f57eaedd2601cb6353e87a7974, -0x74476ec1bf9b05e31c1ccccd698ced4ccbde1170a896ac79);
Dbl (0x19dc2031c3f0be627aef38a44ca0b2be5a120481da11255b, -0x26e54966558187974d8e799302472bb31c4c4c6bec3c3f34b, 0x29cbb9111da459f3d002917dc9d1e5bda06f5e9d93d5835, 0x12d67433f5837a29776a9154761a0623054ae9f89742c61d);
Plus (0xc3ae8aca788080e5a3b487e4e2efad0552c553ca903c569, -0x2c61fc4ad9b8757757a097078448630b161d4f380eb01fb, 0x95935e716a0e7d19fe0b48acd84a3ee7234ef434fe2632, -0x57f0751c08c1ea035185d4394584fe3c6238c359ae938d9);
Dbl (0x5ec472ef31483d4a16a19f45d101a510e8cbc8bccb3933c4, -0xf64f03a862c0068ce3d338ddf98ab9882a884c52787d648, 0x2314db27da0e6b01a70680ca4109d05b538f1ddcfdc67000, -0x3c664aa0062033f9f0a6fcb3d7b2dd3f2aaab031c642b684);
Dbl (0x305b35cf26219651599b3be2f80ba6c20095a43c21849380, -0x1f1529b430207b1311406def4a4ad44d85f64988724426100, 0x92254acfae121a7f7acae83200e293bd3f7208ad8c2b266, 0x244d9e75e29439ed5acf209affbe5f3352209895dd2ce62);
Minus (0x99d9fe9221e4c6646b66df9fcd8835e0c7f246216d91ca57, -0x1798e346f601299d5ef39a35643f629f6c5fe4ec577d19f9, 0x5c764bec3d6739a905bd62f6a5fec1df7f565949c7ce86db, 0x2c86fa23cf4421b76a1884cb288e823b4418b9130cd1571);
Dbl (0x2c11de61887dea52ba23dbcfc749e1f25f44c4210dd68d72, -0x199d473767f504fee79933165e98215f6174fbcb0bffc6fb0, 0x79625b0d10cb728a99220c06f8e062b3d9dc98b9474a37e, 0xe0da5acca2c12a0d107781a6af4b3a3b40acec3065f9cf2);
Dbl (0xd7726001b079cd437aee14a77595aa852d4cc82ccf230671, 0x74dab3048fd72c9c607d5f2394c57b915af0b9791fe491b6, 0xb551505c7bef07a05d234da5a9669557647844a7c69cab7b, 0x21d14f74165af760ced734b8baf8307ae6c02336840e5b5b);
Plus (0x8cd57c2359f8edc80d7dca34ccee27caa7c888932cae76f1, -0x4f19085c2415e98cf4d32294c714ecc841794b269a9f2b5b, 0x4d7a31ce796e40595db1e1a47221906b18dc1c6a4f96e8d7, 0x245ea194e8eff5d1e33159c9da20fcbcca1f0e1584b436ae);
Dbl (0xff413d7bccfaf74c94579b56bccf7309d7f30d78ca0ac476, 0x706da7813c6641b8f990dcdaad134bdc23fca72513cf94d8, 0xfe83091ce9fe4baa5b8eee65f749fbb16d6f8497d86a72c9, 0x142eff0a234d82d604d40cc28bb0ace7946c95664768ebdc);
Dbl (0x70fdc35cf4261b329fe27d214a671487de8baf45e6d61df2, 0xb24a83b2c588e13c3758d05eb710c20468e87f0ef1449933, 0x31df067d1072a8d07fa188a30104d67d35157466faf5155e, -0x73159c30ac195c0cb5a6197440004bd0fdcd0de60c0a70c);
Dbl (0x6ab8a542368709d1b2614d66a575b86fba0ec85e8a18c326, 0x5b52cd384c759d714c94bdef7769f9d9f061fcc10083cd18, 0x2c7d6e08cf04a1aa010f9f697f5129c33dd00c7413751f1a, -0x422b63b9ca5f3ba9744fddaa987f42fd21fc4236eff7c7bc);
Plus (0x7ca4afed5d675e88b86fc92eed2691fc43f9105f11cd498d, 0x258b52c74be49c702a535a61648118d451702e3b7c1f21b9, 0x3caff45fd38231cef890d3da18d4328bd1878620478dc9cb, 0x1c1b810283e624744bef44fec069b5f110626cd760bdb8dd);
Dbl (0x7f677ec89255e4424127e62fb20a90d9bbc262b0c1a95a84, -0x1f1b6f688063512f9eca40cb2e32fef9fbfdc73bc1a504fe4, 0x3f67d9a2456106c8f081f95493cd3a432c85d47316cc36e2, 0x70981258d17e96c40f2f02bb0e1029039312305eb24d3444);
Dbl (0x1f796626e19e2b01b1485594dd6d652aa5be409ba29f05b4, 0x8bedaa29d5e5cbbebaf63ed48d6b9c74e334c50d2591cbc, 0x3dea04f242897a0dc9aa23350f765d95a9e2d6e05b63989, -0x1705d680584c4d82bb7118f94d0788c549db53fb91f04cc8);
Plus (0xe1a800d261249e7c0397c45bb4f444478b713af95f0ba0a6, 0x547ee013cf59524e7b3c638ca02f4ff7ba224fc8306f1b9b, 0xc6e8bfb2e2e28b8986064727c1285d13cc2468e2eacbf9f4, -0x5ffe03a2c5813d28e6d9630635bbbfb6f921f33583228ae7);
Dbl (0xcc4273722d537f87385625ad61f4d4f100e215754c8e0033, -0xcf4a280629000377a6ed7453d23a5490907ac1ce91172309, 0xa2f9f93db32c39f2ae79df94cf1c4c786e8c1d5cc91491f3, 0x7dcbd3bec2178acd996798e72431a51093f0b8eeda72cb90);
Dbl (0xd1e39a5464f9bbd6a70ea31a573c299c8a4aa83f5ebd63dc, 0xca82d06a39401a6bc62a9c2d372b6e7d163f7dcd3806d584, 0xac156c58db947ce67d27be8024e560d20020c4e4b11f93e3, -0x89bc401a70eb48b320d92e0bee9dc10caf790d646f2b4714);
Dbl (0xe7818473eed0b95cc99abeeb4535ba4f56c45ac1b97a8fe4, -0x1d8799ae3a11387e2be7009793aee8d6e6b7c876d509756d, 0xd15afe8ffa5b1fa7f0cf6e9bf9c7709769e100a3b79ade09, -0x5705a938c91c1233033bf3b2a988b6f662ea47e96bbff8e);
Plus (0xc3539b9b46e2d97ff645bbfb015f1ad139d69647b7ddb93c, 0x28596219a13098770c6da136a2b63cc4d109a2b0959a595, 0x95087a5cd342f47797dd1abbac548188a024d1b6d05351cd, 0x50b1d1c520c92ead6c75c07e4126d9d62b58a0c7dc7c2a19);
Dbl (0x7836c9079a6dceb581b1ed69f9f64ab444e9c3e924608dbc, -0x1e42f6de7ef9a944f04e739a8238757e3f024d02e6ec73e55, 0x387368308dd908d79bec25060f1ae0d39fcfa50b98e50ebb, 0x1d78d211436e13ac75329db5fdbe17a2f834778daa882367);
Dbl (0x1339b13af5daa8c8cc953c514120e4256e7413eb2ee05f13, -0xda48b72e8abb0363a7a9daf94b9689f659a0accdeff63951, 0x1719d4f277285f9a85fa92039bbd1069256829e41de5c50, 0x50642cb2fad1d15c9df87240f7d597ac7194ea1dd917466);
Minus (0xf311026550520077f6efed1550c561739af367c5090dd615, -0x92318eda51d81dffd076653451198d09b5883c7335e63358, 0xe6c94bada7f6152190a3e107d4613765f02ce0a616d46902, 0x919660a9caa2951caa4c6976cb913c57e357f34a2254de09);
Dbl (0xceba4741b2a2e8ea4eee0bd537cfade69191e0634c0bc60, -0x39252a05b8803402f02b84633ae3c3fb5d6be8019b461b95, 0xa6f052395acb45861c14ff49e9521022a3abf51e78461a, 0x294c5dd84806bfc40367206d1837fc5af4ec483ca63977e);
Dbl (0xd137f3f9c59877fc573bbbf0e5d581b073cc5e12687f699d, 0x3d5006aaa4e0381019bffedeae2e99d9cc5ecb528c575c18, 0xaafc68989279fc3f03c37e8043ee66779849df44d991a365, -0x74ca969945197dbd5e417b522c0759c51b53420f0dd7ce7e);
Minus (0xad97789e1f3f755575b319a99415f041b215897a2f1a16b0, 0x3dcab971bb517e75726b717752eeb2690fbaa048fc942bc7, 0x75b612a539994068000a4bf251ad893c5c58cafa3fb35715, -0xc2c8306d2ae42e6676029e76faaef1aabfa7ab7d12aface);
Dbl (0x385b9603d3f7255eaa03f45c78603c4ac64d3f5d489b6f52, -0xe6e6cd4f702edbc2ba1ef2f9a843de751df4419314a1bb04, 0xc683265ab5d4e8242c5bf5ffb3ede9f96262d2d5b218cae, -0x6f3ce8132e610c67b1e0a05a13af91099248b7f0c586554);
Dbl (0x1a2b6821124894046a6f23abb6ec677245c3b089722ac62d, -0x1a81947c3163a2584b2b465ed0278015a8d473e24ebe88f94, 0x2acd882dd2dc5934f625d96d182c9ff6ad6b9edb0600084, 0x1ef49d026e9d7b3554d08e06c2601c5f450128aaaac969c);
Dbl (0x8158d3972fdf892b50d4957eff69d154143807fda0dd0a4d, -0xf78ed6b5dc606be583d0323c7df3531cfa3c39b831182a97, 0x415aa4108512c41ff402e0b6b89437a9420f724f83e3e42a, -0x192b2b6edb58c397fa3f64be6791ffdff5d27f14e3962f75);
Dbl (0x8cfcaab1f03f5cb1a6cd960c36b4cb1fe5b8caf8d29be2d, -0x2728e95d67eca2f36dcb42232be98a1c7773ff2908627ceb1, 0x4da554131ee718e30c623d8a5134e559273d12c403db60, 0xa11f51c07fc5c97bf22482ecfd29d66561c26f83ce5309);
Dbl (0x9f0e6f5bd54922257fc0e1f02c5f23e3a9f19337991c19b6, -0x1391502d70d2c31ddae98b82f1e869f62bb91e40c32d1df21, 0x62d2ef24716cf051101924ea08f9bf9eb519493741de44a8, 0x3fc5fa247ee34bc33acc95af286ab0c108b2e71276de2131);
Plus (0x29d676c8e4410f19b47bc94ee4404b7285294e67ba0eec3e, 0x2137f24b01fdc50e076e0dd8393f9e532b644efe845bd61, 0x6d665b7281843ace5e0a36a696fa484bdc6a002e68275a1, 0xd9f5818269b7e6d36683dab64d0ccde8b94e9913ae0a4cd);
Dbl (0x87f81c63d44226841765686a8fcc428298837b1afc905f27, -0x4e13b4cf57480f013452ac117661e7acd9217e7fa3474070, 0x48379e684e6f0226442e98c5a20d9c1b133d51f236570d94, 0x3637e31811c899d996b2913195caeb52e494661db8d54a77);
Dbl (0xa3ad003c5f5022d48f61f20f19cfc95374fa9ece4539c20c, 0xdcdb1a87bdc8d76fd6e112521911c892c75b8ef2199f5f1b, 0x68a5c33632f8ece692ed6b33253269bcc895772276d45436, -0x633848e68433b87623b2751fbc9f8ef08f36f90e6d0bb44f);
Dbl (0x63995af9b8fd8f8200c5d14eac090fe521a25f4f2420e3a6, -0x9d895def1d479c7a282103a77850ba3cf6b1ff616d5bf96c, 0x26bff83b03e7c5bfc1d3f937799983e3d63ff2e65495feeb, 0x397df6f7e5f2f08eee8e88b30d3eb7adaf7ad3f25ced48f2);
Dbl (0x5b72b4b9314301a1ebc52fe09cb99b7e300588f19e89dcca, 0x7402d00284cbaf71d6f8f2658f7c68b673fe08f78451a76f, 0x20aabfe11d8a76150872f36638d028aeb68d92686ea3b63b, -0x33c2a65e3c2c2f33788ac04489b8c76d63a21f51926faebd);
Minus (0x89f6453753fb26c86f94a675b81094f58709c34e42a28abd, 0x22ffcd7ad21f4260566f79490090c799227f8c38d7c25fb8, 0x4a5982fe50ef156ba50313ab081fca988457507380ae8748, -0x413a35dac07d397247e8cb9971f8b6164a16006cd6c45cfb);
Dbl (0x59fc02f442a587335a1fd88a92b77824176c7654a0156cd6, -0xca99e1bb76cc1758bfaff14cab5833984b0437bbd4df8055, 0x1fa13223a74307fd94c3df4d00fd293f6009ad994e72e16b, -0x1eadb791fce4cf9f6b6790cffadca9729ef19b10d6922577);
Dbl (0x302edfc5ae3c52588846a028d93e2ea70057f0f958dd94b, -0x2d315ff9c8f626adba0118bcb0256809449a1a1cf633fe4db, 0x9119c7f4ffb3ac181ce7d44b51bc5ede5499b1155eaa4, 0x10a512b909bb6adaf943ee06576a50365068efd34ce99a9);
Dbl (0xe323b4ec72a3a5aacb8bd89e1aa71ffdd5c15d76fb163021, -0xfe0afa9ff13d8194c87ef5f993617ca2a62fe2007bd7ae71, 0xc98857d64bd2ec25e3b573b210f2c2c2f77eaed2b76156b5, 0x13c5b0a51e8d86bbf8e75af2144b632b7b1a22a566fb33ae);
Minus (0x84589b1f51d0d21eff9f710023f020ff9fb8c1ee67feb631, -0x291db7c06c12e3948a6ae0d218c1ee7fe1966817e977acd3, 0x446b7ea34fe68928361666808d350867fd8bf8d779af12b7, 0x708584239e3f41d97fea71011f11304863adc97f7763d997);
Dbl (0x77a76985be1f4a4fe7eea307ddea3f9aa1f54cd17da520e6, -0x556e4217bfa07864e0f5b79cb70460c23c3e465562d99354, 0x37ed11952ebe1fbe028bae547577d9c992dd73f3c61893ea, 0x142e50811144ba2b651b3a1d6ec3339bff836edc0875700b);
Dbl (0xc74c59322762a7af41703f16b85f9621d542cea12e8bee53, 0x6ae94cdca632e058bcd549df2e6f1ccba91276c694e3e46c, 0x9b27c9710e16ac7c08fbedcc99ccf1c06d710834797ce463, -0x35572de4f4251f3c7fccacabc0ad7afb674d962ec9fd012c);
Plus (0x218a3743f2e9d8ea339f9950291badc1b29ae5f28f15d10a, 0x136a316a6eb3197271eb756418ce3d785293a7d06032671e, 0x464ecdf25d07273c5e9ee14ea27ea030c8e5bce9c86e517, -0x159ac9175ddba9c20cd05539f7d4bf1bc8d482a692a2dff8);
Dbl (0x5716e7de6e06bbbabcc422fa5f79eca7c1c4d763298d3c59, -0xbdc087bf556698f584e010fa55ff697c538dd182b7bd5e8c, 0x1da093a5db06a8945a2823875bdd8998842cd0eb46b431a9, 0x7b91be36442c90548fad1ed4f6ddab36ee55342bcbe1119);
Dbl (0x1abc62514c0df2dc2765937afa85d86683245dcfb743e098, -0xd37342252b7ece722ac9ae3f609b0f58559410040d343a44, 0x2cace99109ce1dd50b7059592d9e7dd724c701479b9bfb8, -0x5b923cba5d18c19187b340f10531382ce82e4e873dca8b9);
Dbl (0xdc3b2a3ba0820335ce2b6bd9c6a5e3b39798d90859767843, -0x148cc96e0be2717dbee8151e54a595ee1df9a868664644ec4, 0xbd75be42fa530ffffec591dfcf9bd4716a8d40e0f0f46ddf, 0x38e4c3e11f0ca544f9c8eab15e290065ab390e73a9514639);
Dbl (0x940ec9fd1c33fbb446f7671a5211783c0002fbdbe7ee5f6f, -0x74a2ee676d3467dca5cf4491721eaadcf94a86544b308782, 0x55a11a675faaa1425ce1d5a82b83b312061cacd610b0c084, -0x2b6e214919499421715ceeac534df75f4a34218d8321cea0);
Dbl (0xf790367072192de312ca607aa0978b6263f007ebac28b248, -0x45b2509ff5ba8d385e51a20dd1f3992f1d06781a61268e8d, 0xef679a4a4640946675f60bcf38f0c7faa81eb6cbe6904111, -0x44dc2cf0b6b210334e51ba7d332d9d2ab55e2aaece234f5);
Minus (0x24f42b69678a65bef4847b4aaac919b59aeba0d4bcc41564, 0x1e2a2c9f8c8f2d67e474b6a1f3edbe980e01700675a56d7a, 0x55595186d68e09e405da4b29f88cc9f26c660186e765cbd, -0x199028bb4369d04743cc93954de3d62a815229db770f36df);
Dbl (0xc81c8b76b36cacf008b4d34c065bceb25002cc3d89b7ab91, -0x18825e24bbe69b2e5dcd0ceb405d386571a23638c15be72df, 0x9c6c9d18464b2bdecbd9b06b723fd4db4b6df38bdb608d66, 0x6e010fe202e1aa7f231a96d62011b137cba739ce086801d6);
Dbl (0x704a7c004be2d84701fb4abb7a41bb81ad211a61db5732a0, 0x91117e9f7163ffa7c1772744a2bcd5fa578d6e8ae06cf8fb, 0x3141422c2ea2a5e702cc8452df0275058044cd6c04fe431d, -0x3609b455406bf8b6848e4b711cf33cd3c1a6f837fdd89f7d);
Dbl (0x7cc7d2905bd5e2e2c41bc5fd1ee8517bee454cf8766e13cc, -0x18986a8bd597aee0ec05e00ac7afb7c2f092cdfa2dfc6fa3d, 0x3cd22ff4e2972264c454d5d5c3645faff49030d5c399717b, 0x29829dda15c7e2071388aee9e29d81454d608bd0c1599ad);
Dbl (0x2e9e58d5cde9cb951e6d6e26e50e29305c70cc16da06b1d3, -0x168b6680c74c478556897135af6742a440cf43badbe493f93, 0x87d49de9cbde1e1eba4734ada3a5935e823cd7d2b278a18, -0x66669f77056ca8d5f7736bc66d0eaac0975a39466774e0f);
Dbl (0xe0a57b7889c03a12f88dca5eb19227efd952e232c7188c6e, -0x1452b45eb13153bd6954753f4174a56d002398387e3b6555d, 0xc522030b55ff048c3590840d51de95052ff44ac46f6de151, 0x662c7eb56e0be7516f35776f2f2ff10bc21ce52ec148b16f);
Dbl (0xd1d6b192b671bda382bb3162c075fe3e6c2ace83619dea51, 0x40a01196c2dad35cd3c5db2e9220339c30120eaef42ae5a1, 0xac0041feea5af22becd28d0f3bdfbc1fd408162f0746d664, -0x6002b23e6d997ec8016b252b1b713f241dc355e31502983c);
Minus (0x4d4159ee3bfb1fd340abcac0b4455faa37b2724ee78e4ec4, 0xd8a2688297efb1709a703a2f6373ab9cb4d3c56813ee499, 0x175060c81aa70a136f4bf5fb60b91ac0170e94b81b199283, 0x13eeca230718d836e7c2fc42b825124dac1c7f705c65894c);
Dbl (0x94204ca1b97dc185413224914dd648989a0e96b6f3ae609, -0x234e035d4680714c010a9b768eef14e71d0c9c6c43deb22c3, 0x55b55cae3dd8337ff62dce9c13c1d3f9dd269c3f825996, 0x824de76f39ecce9c990685f679de46436ae38a85d4f20a);
Dbl (0x18471ba66850655ba03ee13dc1e1cd776499c02bd28770d9, -0x1ed2523886f7ee3fc4c8d023bf5af91dbf2e2b397a6ebb617, 0x24d68ef8cd975c5cf04df578d43b04f502271543979e905, -0x39662b4f1da6cbac80e56357cce21fc7773c4f80094707e);
Plus (0xf1b911192b200cb8f7bd52ba6ba5d410d1bfeb563b0ed41e, 0x3de163d59e2d79fd1d753dabecb6c5ee5a1f6b7d686b1556, 0xe43df7fb1ab7067a5aff5ab56a2e1fa756340e0bc974f4ff, 0x9d07575a017baa3bbf95cf930ae6e1d33fc029cafe8b6c80);
Dbl (0xd67314dc04dfc0957ca8923e2de8a7bd7b85e554a58cd4e6, -0x1cd0028e209c2a9f0abb4d6b88870961ef83908e089694778, 0xb3a49a9b978594dc4979f1f1b2684e0aaee53d2c9279b885, 0xa800d96cbf34cf5ccb26afd61340baa9988544c313c6678c);
Dbl (0x44f47d86f713d595821d0233fe3535ddf19cce986c1cdd07, 0x17ff42a4804b24358af83100680b8229de5fd68d58f814bb, 0x1292cc2f3a169bb787ee51bc44255b1e5391fbdffb3654b6, -0xa3e6f4953f3c44e0d288448f5e3e548dddd11392a1bdcfd);
Minus (0x5ad000561ea929d3b02d579b85e798f5c6ebe7c1fb6e4400, -0x9e1678beb21aa0fbd7d4c1fa49bbc4f3b83405905ec9dbb, 0x2036e93d1980e1456d325b17f2f60643dfa192d1036422b0, 0x15a9cf77600a0469ea2f0f7f303823c2b4a72aa2e65cb5fb);
Dbl (0xfb52c01604bf43afab3789966d614c26dcb51da789f42bdb, 0xc03630b9998ebc6eb984d46d0b4c5122c722b0ffd314bb09, 0xf6bb5f6acb8b22458cc643696a28ccec58fc4642caabcf8c, -0xa81726bdc8c639b93e61d5af26c54e776bd5aed8f4cdee3e);
Dbl (0xb6cf6c5ac03e71c3348af3d49ff13a49f0e8f73adfe7e3c, -0x2e0e7cae80357b52143712b5c6c70af15f0f699528f068985, 0x828b962171f8611df4a6f6def0a049ba318b7169ed1cef, 0x71b92005a510e3c5a6cb6a460dcda3491a8d6f1d54ddb66);
Dbl (0x3593c9b427212e7e6a4808ed480f026f0cbccd671cb2accd, -0x63759a80d5822bd8ddc127276101d55aa66b9adc54e21667, 0xb3686d5dc051194e4d6e78e9d1326fcf51b8dc9552e0078, 0x1dddc45a0f9f733f1675ccb6a7e19d0d69827e3807debbe);
Dbl (0xd0454f7a8f765dd56d503903e9faefa940b0ea24b853eb01, 0x21c5fa140d9cfaf4e283a0bb89844f7b96fdbf7f5ce2a7f5, 0xa970b3eb19de8d8181cfe657df3fd1de6c0e6c621e4c0c11, -0x5c276dc7a606fb823b23d0d3efdc6278114aff6ec6457a0c);
Minus (0x42bd5faf1a1d21da52073d65c40e77875ead3bed8768241c, 0x26fbe7a6365121a25742a6d062206fd5f3a244e2ebb1a507, 0x1166316cb5c7019ee44719e7af6c7d155483cefede82cfe5, -0x1638b03d6462be29cc020fb44870f37cb219566c60ea79a3);
Dbl (0x53e537b7604cb2fc447df128d234b7a805322dbb1c96d718, -0x1cf103c18df24783149d7fe57b67c52debb4d72c184325510, 0x1b7e6f5da2a4540392861b01eb4f7b928fc7a5ad89bc4bd8, -0x632ac3a244a690cd9b270eae0284fe4735212be7af37619);
Dbl (0xa19f4273cd8a3b741ebb4d84efcbce15b32b1cf9e22d4a64, -0x1a90d3eaaeb7891ef00b968e42a9ad33f2e541ec133b2b258, 0x6609b4a945a11adb7ec5bc33d1384062803807e19886d92b, 0x1a5a0badfdcf09fe98901c04e198cb8019cc1dd564699804);
Dbl (0x780b141db1f2f7b7c6948eedb338f1bc2bc997723db4cd6b, -0xab7b716389d0c7ebd90291c933a69b1aad4addb94e5b28eb, 0x384a635692f5ba5d57690e92bc315303c95dadb25f5d8245, 0x13c813d936b6cf027d2f4cd0e6f6ed1f36f0609b295f154b);
Plus (0xc3992efc5aeb158e673d44307797ebc33cf8a7f526240ef9, 0x5c2960237068411eb194c8d9dbb5347cfc98d97f8a32bcb6, 0x9572b93da4c67946505a7d9b531959bd4df05afe80836fe8, -0x7ebffc20ebaec056a1ecead1b6ebac999c57b94396840f11);
Dbl (0x189ccd106669372553d13472c7b21c8860de7ef5caf5a738, -0xabc51454206a5eed09ee2555518edcbaae51a90d557f1190, 0x25dc67da373cfa3ada610e500c5af7648134ff6b996b7d1, 0x754e8745724c604051c6b57a9f4ed8ed221293860791b5b);
Dbl (0x6801063dd1153fb836c9ea1244ec6b264c6252bb9bfce20c, 0x9d906e7a518356ba85c1051b61752cd55e834766b363375b, 0x2a40d5134683daaa79d52fec8ce1e5b04cc5f3c0ea9313fe, -0x1b45a2cf88e4048beda5df5ba45bfe6f9b5ba72c5e779d5c);
Plus (0x36550f85b620c5d2952f3a936c2740551d54ff30b4350d6d, -0xb8ba0aab562904da6cdfa35a9e2dfce87b825537c4709a6, 0xb87fecfb891b666cb95d5d71d18befba66e027b9df22e4f, -0x72fae038259acabb427ff7b2b463dc5344211f212b00248);
Dbl (0x9a881540885518f020b626e778bd4b45af0beeba8b94a589, 0x4c2377c7f1bd5585bc3687499977064929d304a4694d34f8, 0x5d4801e83a5ae30dcfbc4c8ec54e9ee684a51b1f0b12cdd0, 0x3b7349f2e1fc586fdad62260a184e5bbbec7e5ba08dd7d3a);
Dbl (0xa58666a2e550a3a896ba3563f74d3a3e7c4bfee59d7762db, 0x80e89d857b7d50f8af160c48083ff07b4fd6991a1c96ab25, 0x6b0686dd974839c5f0acab70374f246191d870e104daf288, -0x499cd5c9ff68e24020250504cad7d719e9ee599ab95a0a7);
Dbl (0x561465e5b4afc18b3bf089ceee84f4a929876eb6185bf450, 0x7f676f2f11222f93c1bcc4bb23a2e55df0aa67feb714ff4b, 0x1cf1b61669d9602f3ab6bb6794a3de55c29e2aacda80af67, -0x1d75f8d1f866f22fb4a92a203ee4c89084377a014e3138ec);
Dbl (0xa69b987d564b672aa2ea32950844ae76bd142a0538f3e47c, 0x8495b203b29b5bc059e3cbea66454d8251f6dc4a0a15475b, 0x6c6e28548e855cf1262521d1fdfb9a30f9593eafc8a669c1, -0x4018c02e873eaf3f4428849c94af5047be4b68437ba0ab65);
Minus (0xde7baaf8d532f757fecc08328eda876bb9850e7466b41e9c, 0x49c61d6c06b9426229ebe8c05f74939ab003fb11c3873821, 0xc15ab8454f10b0fbc146a8ea31e549d0341895a9074ac6f6, 0x51f5ae75e610e4062f2a6eaf5c345393eb5579d16a1c7d0);
Dbl (0x271d2e1267ef7a8e527c45b4ce8c402b9a8add73c6a6da3d, -0x2326e6ff0590a451015c52cfe163eaf177f9224452955d247, 0x5f9e75d14212245f94b83b1bb3648dafa700c8c42d474ea, 0xb129f2114c796341bee1fbf50c41a2dc828d3d2e517526);
Dbl (0xd695305e3d70ad25946f972bdcf4d20c1bda7793f25aae31, -0x1e54315ea27ad77e11faa40f91b633a7aab96c9609227f263, 0xb3ddc3cee58f605fd0557e0207d6db0d118aaca31bdddb40, 0x831d5b808d5b15faeb0b50faea7a696b3065f5a2d7406a8f);
Dbl (0x7382a6b9b6f5541b53d13ac53d7cf5bd8204f3a576f54e8b, 0x1e68af4a20268ebfdf295fc644aebd8771fdba254e348a4f, 0x341ea4789b939aba1377da30554d5479cdaffc1c5cd419a4, -0x266b0b335f9dc4c2260b2dbe529654bbf6f6d644c2fe2530);
Dbl (0x5017079d55b7ae1d9873b88b524239128ab257e8aa41f712, -0xf284027f891714dadef1c5b91a17d3e4bd6840493434200d, 0x190e66d4b4122f36141e642f9a73319bec0bcebc83eac0f6, 0x18c541f63545c1bda97bd2c7e37068acce0d87b7bd50dbcb);
Dbl (0xb0da339ec041646b73356313593ea84eada3792c8d25d1cd, 0xd067b69c60025c5da6aa620b5d20836b3edb2ca7829815f2, 0x7a2cc0f63d21fc7eb4868b0625cedc6882b9dba82d034569, -0x34234c83d51cc3fc28b25b83bdc0e7e37ba2e374896bb356);
Dbl (0x64a06bb5b07a889ac8ad46a72f0c414660f2d8274003d894, -0x437cdb89703e0759b3fce4ae7555dda46ef7902e2cdd6d7c, 0x278db8acc24db65d23617ce6dc2c6528ba7f933b822b7043, 0x2607ec07e989b333bcfd454231b95e704f1d56707fdf75cc);
Dbl (0xc0a3ef19bf7ceb22c9253a9fe7daad10c82d351ee617ff2b, 0x165547fd264c7a608b67cfb4374a62e474b911721439d7fe1, 0x90f64fa0f9564fe9d0b08189d9f695c6f3ef6800edfad79f, 0x1ca5634a0aeb6048e0b65aba957bf5a1e54ef48e89476663);
Dbl (0xc267a04b0f2f74fc6bc25ae86dc6f99e2fe0e8c051bb73e7, 0xfe5f16381b8100798a5c8cb3ec221191bdbba85c8b757a72, 0x93a138e423c80e7bef61f34941b3c86abd0eaf3962f39ba2, -0xbdbad1c7fa354d72d6d5a9d56c52d32b06396e8c2c261e9b);
Dbl (0x4d791c526764bfa0d8c8a598fcf99a9fca61fc11b1cebc7e, -0x264e573046b29acf62eac2e7731460060bdd4dc4e3ff96e79, 0x177214555b3a79a858adcd9b0b1d12de89193fc17e879c96, 0x3e098ebe4985584e6af3dbe912ed03a25a5f11b28a621c21);
Dbl (0x57fd74a6d99aaf6498d9ff5cab5036619bf480aee35b60bd, 0xb296cbc79ea7d95e49de155b7059b32e8f63145ba36e268, 0x1e3e40392ed8e0e82940863f8c1272a4d8dd50da8a44a2bc, -0x3f107085198c1235d7cb126724a0c05b8ca44a15d776d0d9);
Dbl (0x56b5413cffc6ab890e0fb5e12b0986f7dcd5a5cb13430bc6, -0x2624e1ec25f282c9002ae2a0d208d454f38f2df390035f4c5, 0x1d5e482a4cbb329a6d09d5b5e0004a5b5c7bb4cdcffc7dc3, 0x2a0e21f8ecd2360704fc7d439f9fba7f4dce50347a4011b8);
Dbl (0x6d03a730295f255aecc2d7a61eed56c143dbd24978a05890, -0x854aa8ad521e0e646b30c8960050e959db73a34b2b3fb20d, 0x2e6c1c6c5b8bdd13fad9b887616bfa80c601e8d0673ec52d, -0x1fe118b8578d733b5c46b1026b85423de321090757fb0d3e);
Dbl (0xa717a4373fb05427d702b7e8cb29f5c7f1b6c8f00125327d, -0x556984d19564b9343c7173c11bc5b06556eaf6459969e45d, 0x6d0fda6f005c5501731da5e811f7b0188a6a1279eca73092, 0x6777bc04778bdbb201c627422476dfd932def357879cd9f6);
Dbl (0x5e3ff51dc7a6f15655de668cdb1c399f315ccd5ead68d5da, 0x1f9efa63ee0f2462547acf096eb2e77a7b1b3afe6aef0ce3, 0x22b307fc6df8e10291047cc327e4342975ebcbb9b24b2d44, -0x2fc245b719f80a78317c5798172cc3956176c8cd3d0d99ee);
Dbl (0x684c785adf127c1b505865f2e0785516a70e61b493dccfbc, -0xc4d98ae6b81f33aa970b980e28caec54a5d48173a8161774, 0x2a7e38a183c8c932d1399b66824e3496b9694e8f3d78f15f, 0x17a9ec324301989891f2e2c6a605dbaaf5078bf797291d4f);
Dbl (0x6088a0a61a5b6f9045a7aa7ff712a98497fb6dc8156fd3d9, -0x2db18fdbc4631964847cf27fbdcf505575fa86bfadc757eb, 0x2466c167a910a18b3a477b82db2b974e598fad0eb33351c3, -0x34f42ec076e508cf7de6051d0364fe3873267eb34b0d7f65);
Dbl (0x592cc01395928bb0fea668164e3191101dd41b2944e97f84, -0x281759f2e7aa2a77627e3fbd791c55f7ff784a099aa08c37c, 0x1f10256034d8b15c729562525d681a618ed84ea1b897ebab, 0x43087094f4aab6d78a00b30559eed31df2e641d141fcb44d);
Dbl (0x96a17d13ae38dfcbbe352cb370aa2f35f16de8d5f4b77488, -0x51cc3ac765d47f74a100db80b0da0386666d30242d8b9c5, 0x58a1a471a00803731ebb1c1e4e9f1b9ad95547c629814a76, -0x77b75135250d3668d89c245395fb9e0deb2aa79b8a88f7ff);
Dbl (0x16a35ecd682fdd36fbfde0dc673fceb145a999a09c357a72, -0x2c46ff5859ebd8f6c055669059b4ca37ecfe166759d07e104, 0x2007c8d2a96644c54d81fbfe63d386727e80ec770eae3ce, 0xdf715370169f39241b9ceb8e7df8a331d65f0d47e255d7c);
Dbl (0x9c7499a12e26c41b0aa8f0dc98375c3e4413f5d3e7a51b9b, 0x32e89d4e4da006da91e705d46a84224c408716580cfc76c2, 0x5f9e5058068320c818fc7fc0ffe959e5d661c8e3cad6a4b0, 0x76644d99d5ee4a076651fc6d7d44446d507e372b6c15216);
Dbl (0xf95a0e7b3363bc89af5a9a17b9258ff209167fbb242b7c72, 0x68f97c4c03a6b919623d940be97729957d71ab66e62e5f3b, 0xf2e04fd9d969dbcdbcb4aaed21fa288ced39e2583f6b4007, -0x81b1c22e6fc8053539ff859c297d7f8fbcc3b42a0c39f86e);
Dbl (0x8d8f322be39eb7cda0098a7665e4f19f5075ff479b016015, -0x16a6fa80c05fd2895fc4948c01e6bd95e1354237b2976501d, 0x4e470d5d6f9a4e3a1b843b24a968e2cf520c05d1d26c0413, 0xb20cd342bbb6c58da76f2c1caadf5596dddf05ad53fd55e);
Dbl (0x31f171e9621adb83af9f9c407a1a3f28d80789a83e90fe9b, -0x183f1f245407d532ffe853c26627b18ecd395872bd8930e72, 0x9be515303a8dbf927722df79e0fbd0762e363ad1cbb1c4b, 0x123700d273ff8a150b434fd068f7cf4904fd2119b1341bb);
Dbl (0x9f82982cb5c4f3a91f17abb9b4e9e7abd2127e023d2397b1, -0x122045326dba14928c5a9b411dde51023b59734634de90358, 0x63637ba671a8625c6a7faa7d0c3f6fd73c31ce053ac67535, 0x60c45da5c6d017bad9a5c3c3c275097adb92298d41d2d729);
Dbl (0x8a0aeace6d18a1bf7bbc906d05def4bc626c35f5b29b1633, 0xc53eead757a28c3cfd47d821bdbeea849d85513bee6b082, 0x4a6fc59dbd1d1a33de3150ec77d0c2ac3b56f5b255e56796, -0x4afc39d2bb43a2ae3f9276af67cc9f1695c9ea663d73d4e1);
Dbl (0x578ec624fb25d0f1732c1bc365c7d7b2772a7df997186210, -0x1159155521cfd2c6709c9515501b6b151925452b1257bd3bd, 0x1df25a4d8d178bce005f2f2dc379d6c742e38fdc8e034c12, -0xd6eab478ba683d1b93018ba2e104a46e23b49edfd10e5db);
Dbl (0x9a0ddae5c1227ead0062732fb0182226b3d87fc7c4975712, -0x11166a5ca5cc9e4757567a6e423653938a7e8f9da0da3c9a0, 0x5cb4ac1c62df390adb32ca662e3b83e31c47b0d3be80bffa, 0x263771107a78f35afed336b44231f57cce75a6036abc3c0);
Dbl (0x8b7a7b1f69acd0c38dffba178da08bb65a2073a68a9cb9bd, -0xf5e54b00e26a3b0dc114c2bdb9fb901c49cbb773faea3d24, 0x4bfe3c4db1e996d22aacbd8cae81faf45563b01a9108bca1, 0x38f3044836d27a88a4921ab966d16b03512e90eb96cb5892);
Dbl (0x1677e58b570fbae6a81eb868c1faa152fbce5e1dd0f63f39, -0x70b7ad5d59ee5db12d04f1662183b7f359901e35d4a3f168, 0x1f8d39b28543a593466e5832fc3a89942ea398093ba6120, 0x1eb863e3d3758e9dbdf9eb4119381ff436ad0563748c12b);
Dbl (0xf6640eb31a61f85070dc08f359aa0220898ca5f784e0ac6d, -0x305ed688985e8b9f866c50da66576f7a8f11d6dcd51dc661, 0xed24735bb378f9f536a125df07de178770ff236ffebb7189, -0x91cae679ed6fe5659f4ffa19673d59604728f0c518467fee);
Dbl (0x2872a921e84d2d60b10d52dde52f9ca712de5db6b76b8dd8, -0x244dcbbe1da9cd764b3f33dba2f2f7368bb59924f96cb4c30, 0x6640835aa88cc1e3e0d2ff7f7352023aa43062b17450a37, 0x117a8bf092124d5ce0ab71708642d9fb87ddb0759bb7ecc5);
Dbl (0xd9486b59eb2d7b441a4319b80a6917d1ecfb0c4581672d27, -0x76b3d4a1ecb644681eaaa66f205f2d63a75fb950fe2919cd, 0xb86bda7b004baebc2d8bb30a6cd6b053bfb1c55a40591a99, 0x9ab2f7d19950ef5d53ffad62ebf36ec542c5249ad3216da);
Dbl (0x9b414128688a4d79c5a6bacdcc0ebf102b6ab8a6e897e15c, -0x89a491a648be116d3358340532ad95e2c7f35be49019ff38, 0x5e28158915b21b83de6efaf70fe5672534ad996c70897e00, -0x534c9625c0963aa7d4fbb3abccb743dbd0c73fccaf6e6e0d);
Dbl (0x886fb34a22caeab8d516f1a3680c08a8f7fda08482a36b00, -0x258221720a2099044c102f8aa833f3a3092d807bae38d0340, 0x48b6df3bbcd2877bd4f9deacccf00501b6b27f88c87ef8cd, 0x3965c63a9602e36b0b0556982ece9602761a704922fe0ce9);
Dbl (0x2dcf7fe11be786ee931c3dfe9249474b6d6d01d2a68d6881, -0xd330797496985beef02075615079610454e1ced674cc90cf, 0x8329b2531bba57ddd7062a77af9f696ac3a202acfa1575a, 0x6c17f1ba767a3764a21cc3d0ce53fabcdc18e7ffdee70f0);
Dbl (0xa47f85cd1bdb07352662249e0a1dda8f4be27a3dc896c0cb, 0xcafca839da9ad7bdf4f3bb6cf4fb1b7fa88dd89c95132989, 0x69b3a2f4d32107d475388836d03b780bf13d1758ae79312b, -0x614ff5422aa23214e103a16ecd415f1d83cc8f6391272860);
Dbl (0x4caac62b387f2181a18a3dfe194d81d46348044cbbb88f9e, -0x29d242f502a96bb82b571e84e2636b61b01c7caadd706722c, 0x16f5d7957459676e271645a24a82f2197250f20fd5b659d5, 0x174e4404a856b8b6316513eaeff5fb1a31639beea49d0514);
Dbl (0x1bde39923fa44ed324193e23b9690b63d4912cc2106dcc66, -0x146a4c7b14e10265e81ad4d5d3507fe2910362390058ccffd, 0x308a10cc0057d7d1226260cbc1888f82e774fca4d70401e, 0xf4492f15c62f89c991b1f7e56aa53ba2f03dacffc9ca4c9);
Dbl (0xd058d361e5b4cec41018005e04d073ac7b9b3af4aa499567, 0xd7556288299114af391e73fd0ebbd3d8db08c59356e4face, 0xa9907651171e4264aeeaedd2fac300ef1345cd1640967e77, -0x4b1131ab4f65eed757e9a695d25d4be8055158c436e1a123);
Dbl (0xba1b95bf08ca1654144aa161eaf433ffd86a6afcf60db5e9, 0x926517aa097f3bf710b7a251ba90107bac951fbc8a4f9f74, 0x874c189286a971dc3f112c41fb3275a68ee83bdab312a517, -0x545e886649ce09e4ba4758b0f566e33b00d9fda18a0eb839);
Dbl (0x8ff04d38879706834a14355f1023825cdefa452d28ca83aa, -0x1a2cea4d4edd606fc867fed57af907a801ac5b96a5b41d4d4, 0x50ee57d608c4027f56bbef7bfe659673acfbd72fd6c6d926, 0x81abfb28f24135f5b8516ff7797b1fe75526fa7a2ae357a);
Dbl (0xb82e4129aee56a7b1feb67b3aefed0701a7f99898040a6f8, -0x215d79feab1c1ce85799ca39a982a893c104918d2a3e488a4, 0x8482860766fad51d3f2d29a86026f365ed436a522f75a98e, 0x3ff44b25105797668f0686f395392f8484b42164a6671c08);
Dbl (0xbe9a1c0405034ef725f82dbbcf803494fef5f2d70585a7d3, 0x636df2e9d62987eacb7015df6e1dbd0b1fa981247edf6cfa, 0x8de91e5baf57d25abf2fbba1e15c96e6e424508a2e895285, -0x32b5838478a1c661d2e2542d1dfb7e6141bf0faffba8c985);
Dbl (0x6028dc7674170c860585b0c91cb71fbff67fc506ae7f48cc, -0x17300f068ca300120c88dd33e3ca70b390ce3df610d7bb954, 0x241eabde79f15eef4570c8d5a92df0b5730f99f77e3f3f66, 0x1c1953496e45e98bc3ba5637d64b3337817e0aca3c6f6dc1);
Dbl (0xfe6c626ec43b1d85e5eee05cc5c46702f0395519575bbcd1, 0x45e55b153f355e5e2c05884cd0f87c927c2e555ff42f710a, 0xfcdb413700b3dea119127cbd8afdd10f63fa83754d9368ee, 0x3b164351d8de8d1721067e1e7f7d2ac9f94e81318f17a0b5);
Dbl (0xc37363d333d0b5c70df59b22cb07218d4fb15f5ec87456d, -0x282b724d0e82e455f44b6637ad457a34a85111b3da5281bb, 0x9538fe16979d8ac2713b22828f838957957a6ec39d0d86, 0x10961f7f018bc36bc399a79b258a9b4a0fddd002785562f);
Dbl (0x2951f462901aa800475ae3454a244749a6d95bb3ba2c05f, -0x1eb50d9babfea7f55acb4147ef66eb678315fc52c49b7b79, 0x6ab5a8421d3c353dccf6c52c4ffbbf81b628a93af1960, -0x979c0281a882824f6a2ce842892a4acded3a8ff53d9cbd);
Dbl (0xc71427e55f31fff06f253c64336c8cfee6a26b644c7b86b1, 0xde00ed0054f8bac25c48b262f647bb579deba7fdbc982ce5, 0x9ad0579cdc0e4c3c79328d71d5086d69a676e0f4a9ac3412, -0x17509564552646873850960666e031dfdf2fc29d1df779dd);
Dbl (0xf4ad7a6f5c4f9d5a6b40132dd6f04c2c38bf34539e491e38, 0x1070ee4eb1c7e7dfe98622a5791a02c3ed24285776b9e253, 0xe9db26f2fd08dbfc18f50da6dd232b69a337179b10ca0940, 0x1ed9fd30ff9c29ab6c5b361f204a68428643b3a9139937f9);
Dbl (0xd7a6191b49c3c37049255aaf7630b61214812affdc537059, -0x542b418d75c0ac780d69341b3334319bf5d63905f0194252, 0xb5a869f067c0d378f133fde669a57c66262c4e5c82aef01e, -0xdaccf90976947c98629f6dc2e960bddcff1494cde5a70f7);
Dbl (0x32780fc44bcc935d9e4068b90e565d0398ba1feafded1360, -0x4fd767e13147f919c058d62769b191676f09b0584c6893dd, 0x9f31e77769b90c0da8da70462bfd25658665ee6560b0755, -0x1222d66a4be840bf3f41442cff71e24e39f32178f43e4d5b);
Dbl (0x8d3314774f260b21a5928104df6ba41da55e3e6fbf433e44, -0x1b5ed0bdfbdf76050346a1ec6108f6d21a04c2da78d45d065, 0x4de14ebc965c4d641f5f762bab13c8e294f989964fc4bd41, -0xaff3456f47570522affe9453dbac741074e3478c736035d);
Dbl (0x10021fe58fe514abdac22575fc2c7573c61bf68771145a60, -0x289337f51f03e9b38e576383b8cd4dd75525a83f06ccdb8ed, 0x1004401358c48de09c2043db54caa455f854b2d08f85723, 0x2fe1f184a7b2535c706578c39c83e1b38c68df07b383ba0);
Dbl (0xc6c818f18ce60aebc4269da75fef5337f4ca51e9233fb7a9, -0x10cee2ae594080b3a20222bac78e5d688a1beebad925f80d7, 0x9a5a22fca1ce2eab7c87678d4ad64813297c7129174bb97e, 0x8cf6919b6e229b21adca30fa0303e38dc5550f37cf96a01);
Dbl (0x93b0a227b7a54a7c628f1e12d812ec4d71425e208bbcb537, -0x6d8c8ef150eea0ac1af81a6d0b7f90ee1b2b88e8f96489c5, 0x55345418fa3aa167ee97bb2d16a5a781b69376bc447ff515, 0x1d8fd03397e8c7625417156bcb9f35b4c75e62aeb65406d1);
Dbl (0xf49c29ecb4df11c4299d53f9e95df264bebc82f2cb03a979, -0xb5b4684babd54055f9ee56e0b75bb22bc1b546be86bc04a8, 0xe9ba0f2e58235689052aaa2fabe9c41c359f3a0354c201f1, -0x60234541c7c1756f94a8f9d1d39b33cb5ad82cacc4398df8);
Dbl (0x99b09dd53317f5877e898d3274428080d9ff25cedff562e7, -0x16e5fc5c924110ba29428bd386d1917d70f51f98579ab82f8, 0x5c4496823d8816a702c7baa7c2ac5c7d334b2d9dc5d0093e, 0x86c2d03ee9ba2813e76d0010a5b0f845ef4aaddc1e82c936);
Dbl (0x4d725beb42d3ffbd64439a0729aa37390cba1abae084e664, 0x4aa48875adcb189ba67e754024d9c8a06c729751f8d6316b, 0x176dfe6184bc265e2d782148da705e4e7b764472a4896267, -0x3c170bba51c4425e71c7f004fc800b8e48be62ebc6af5d97);
Dbl (0x6ba01392130dc7e50c88fcf39412fc53d77bf8b9e9d1d5ad, -0x14cfa53f49c9aa00e27b0bd73e85e7efc2b29ab2961092425, 0x2d3f3474940458811f993c385943265b75b776e3c2cdd2e6, 0x3febe73a416f5e3cebcf5e139fcba7a6b51b9069c52a6899);
Dbl (0xd290b07251e1edfd1d29410a91547211e5a81af7685874dd, 0x99bf89ab30befe4cae69ae7a5c2392d4b687522a0eaa76c1, 0xad31b34288902c42af3d3aa3951e7f514acdc310574330a5, -0x23a55cbf0702b22be4f0916dc86ef47e238ac23a425284d8);
Dbl (0x7d3fb0a80dea89ff05f3604e6a1acd3022038a9fcd9e41b0, 0x656978847f907dfe32c0411f366b7cb90e05eff0b9bc0db0, 0x3d47425c8a3565a7b9aa09a0e54529817a6995d123aeea76, -0x44b120b8c91925f8359ff9eb52ccfbd115864df0acfbaaa5);
Dbl (0x34c2b3b30ad8bac4971d404e340274cd77ccd400e89b360b, -0x22a61b6df19c0d8b96a98cb2f217077b3339ed4a32764fa76, 0xadfad1595e85abe3012aac6864caa358a530b3bf4767cbe, 0xfb99fb3a64b7884748a4e40d9b813b51a176d19f7a095a3);
Dbl (0xc66d2c9c1ce652611f57409d6950f6007ad79eec0a660fcc, -0x10d1ada5c60ae19f31e3e5c816d8e2b7c72e47089e8ff9745, 0x99cd0f90816aecb2cb78a2a215638b5d9ce721b1cfcb902a, 0x777dc5a44be8d3e387f938a7f6f2f8083d4bdf2dec87d26d);
Dbl (0x500eb87b1bf1121dc802419ce4807a507a14a568112e469f, 0x72d23d0d3fe26e4ffc3a02ec8fcbe17b3ef020ac3f0ad4a0, 0x19093425a3deed0eff023e3812012169cffd426190a72843, -0xbea559b1b8b84e16e77f04814b3216132e26d01492af08c);
Dbl (0x286573b237d2f7072642e8c2f8325ab38e30692b9bfe74c9, 0xd1ed92d664a083ac324304b5b3934e0f4ce5dd941aca6f8, 0x65fdc5c305b93e25f155fd9321cc003f2ae80494aa650ec, -0x158fe4478b0a63734ba1830b2ba4c102d61efc9604150193);
Dbl (0x914072646d66c73ead1a2eeca7b02d1c26ac18bb6979e471, -0xcb0783ef8b2917568e2e6fae1fcf66fe57237bdff445b6cd, 0x526a11cf2942b9edcfee6050daf596b649c34ebcf03a355c, 0x22e31d66fa0c667e32f669ded41bfce600889217be0d2095);
Dbl (0x8ee6572f3a15e850baed240e52456af329a95b8568928185, -0x19d5387caee31acb980fa364a8b5fb3900e94d688131cd83, 0x4fc457f92afdcf48458f11f3035a5c10e9042f6ebb097723, -0x1d8a2c2b1fc318f6b8aea3e44b97d76c5e95d2636011bed3);
Dbl (0x8e0590653b6f4e5d41dd4e4d44a6f0b28949061a1a62d8f4, -0x12ee9bf3e82c39fd2b36a8f16d1aa0997c763fb54b4b9f0ec, 0x4eca2c4f4355d82db07f53b5c11caddcbde3bdb623dbefbc, 0x2cdbfbfae9a47ac3bb1ca8b34cab7c8c71584f0ac0c743b4);
Dbl (0x1f1ffb129a1149772437eacf96a5bde2fecdc29337cf32ad, -0x34c07cf8f946bc9c8bfb28b295263a2d34893bc7a7c20ec2, 0x3c8c2cd460efb7292d713be118df6c4ae31402a217965ca, -0xf1590af90694b12999d855a3aa1d9702e09c0ec8459e63e);
Dbl (0x96a1ae3e18ebeb32b2b52746826b3831438a315b398dfdbf, -0x1ffbf9f60a0b4a18757d11c60f734a7539f9e699fb88ce541, 0x58a1de4d65e8494e079cfee20154be3d8af5d682b61afbf6, 0x79aaf7320bab49c60f2cf0e575444fb5da9f100a9f700405);
Dbl (0x6f66a956dc61666f3878012adf09a0983b736cfca35a3af0, 0x9b10864e4c7606d0247e3f9faa9498f132216c8faa49194b, 0x307a3004b457e0e37c00490a7013567cc4a7d442c08c1834, -0x2567c17ef2375eebb185704f104dbfb3709f8c1c0949969b);
Dbl (0x569b65fb499c24b83d9ed6dd40242dc5143f1da6c3addbee, 0x2af3dc45cc3f36f7844b670c2c11c5da8d757e012e12a76c, 0x1d4cc6d97c604a7ee2d524cadafbeb1585232a057e813e59, -0x292e3ad585cae0b1f271fce35b7c7945b3abb854f8f29641);
Dbl (0xaef9b68aeaf4011201db6ac63ab7d5c833ddd548da04907, -0x1f73219ecfb0dda6cb929f19dc70220e401216b05729a722b, 0x779867b973ca9193a7c79e901f8ae82c9f0d9d8c5c3cf9, 0x45e68ce6b7c01ee398db72b18a4bcfdb83f6791c79dbf9);
Dbl (0x3ddd981d4fb61b45d1e4179d09aec5617d7bf27d5e31d80d, -0x17cd0d4ed730444ef220ab28d7f75c47436677e8127d1193e, 0xef35a4df4fb3b6dc50a1481e730db1a6965ed777bf5a735, 0x311d8104bc6306d758662de6292d42cc4436a37872990ee5);
Dbl (0xc7190692721e1133a86471819700c82731a50a3c7812cd13, 0x175d2be3df2cf90f327419a9d68d3a638e665f467c70df3a4, 0x9ad7eaa9f63039bd71dbe1c0773313a42fd4edb4061d62bf, -0x362cfb5d6f293a6aca1ddd8846b31d98988c63049558c19e);
Dbl (0x5bca01237bbd6239fbc997936ce964042488ddc5984a8d59, -0x260bf9ca1a3b849d44f54b52f1fb3ca534a5f6f3c2966428, 0x20e93c3505f93696c8df843657a657d04ceabad0f6b7e0df, -0x15abac12aa96deaa553ecf9112bd3e29b07e1722652ae6c7);
Dbl (0x786a4540fb5e2f8ae1ee23dbb4635f0a7d5e9050d7b00293, -0x5202ea52024ce420fd79397f062b365354056806b6684ae6, 0x38a3cd0a58348e90fe5cd1f04b5017fd4384c9716912e554, 0x28323ccca5b799edc542e211010d10a725a6a49456c39e05);
Dbl (0x20d27128461b994f45aaaeb5329d7564cb6e6ead10b5827a, 0xd1f9c3d8737a3f90c2374be98f753f61bbb3c616bb0fb7f, 0x4354947e99e7fd5b0a3f6cb6e22da5aa819afa96fb89b78, -0x167b8e2c81f81d7acc8a40927594250718a8cfa933f9aec3);
Dbl (0xb69395137cad87af311d37f7e1d017dc4cc00b8bf8fb6d78, -0x117d444fee8f5a1c49c2331620cda02c6784c0c2a238e7574, 0x82362d0c40779cd4ab7497626b84fff72cfa2334398a514f, 0x1f62205294d86f7367c25d1a7327490027fd26e94d6b7956);
Dbl (0xefecf2abe48867ce8ef2fccf259c156d7437a34c64429d1b, -0x10cb47e692c144474dc718052907a6fdde82f50c1a154226d, 0xe0dc486d47ad7cd01241b9d9a8ecb9d0b53bba2fa6be0c01, 0x32a0bdd4989e89a9e99b70bc82cb22367a66421a46abf26d);
Dbl (0x1075de21c953510fbb4a574509c96382e837908556f78f9d, -0xa075ef9d93f03199602ac4edb0d30965aea0573ad2ba6134, 0x10ef20904cb0dec16309c27fcd38006a84a19931edc1be4, -0x7e24a4067449c979cba52a52631fadaef4ec94c481bcfc7);
Dbl (0x2a53ff3c3459ea7018d7a7aa9714d26b51e59cb5f8f599c7, -0x2ba4a5e10e866a080712100bbc8be39ed27aff276010cada9, 0x6ffab4f40b071ae82bcbbb65a073e0dd5081a4c61f9e4ee, 0x58530936d5639f7998880552a1f974507e1725030636cd5);
Dbl (0x1a74c7096b00ad2b1e14b67d575288fc6e0fce0fe70cf4bf, -0x1f7ac6fffb8d074777c2cfb32188eebcb7673fee87f4d78a7, 0x2bbedb2e504c07d712e3e65a8c837a9c4079a2098910402, 0x146eb4824927c919417ad49962725695d45340b7585de1d);
Dbl (0xa35663a7b42f23d331ada8c4e85635ce212a4cc3542ca571, -0x15fd8e58ed1ed1a7142c5b85fbe11c62af3cf0878cacd0481, 0x6837200eaaec3a840d30ee9e6fb03ff3bbe64e9bd0b08fc4, 0x33f8992cc702dd616227c907b10ccab683a7667e20f01ed8);
Dbl (0x1e69e2cacfad6ffc1912db3a225511af3f38c1dbb3498f5, -0xa4615c95a4e12592b284882a18e2f03b6d11f6c5131a8d7d, 0x39cfcf35bf5b9df9294c3908ed3ae4dffd52c301a3d1e, -0xcc374e7613e4a0136f3040de96c39ae414be537e504737);
Dbl (0x5ac37b8d0a28dd346144432103b940fb05e0f08d21457686, -0x237ac189039a8611fcff9cf35e25d4796eabc38d0d81ea979, 0x202e08249fa30b41482b662a2fb8cf16b0429fde7bd60c0b, -0x9bd7bb0e28b37a3348715930c2d55b12fe831737301846c);
Dbl (0x25d576868cfcda57865f29183dc3e3681ebfca0208916a28, -0x2cb0a0af3bb9f77599966baf3ece6758860af91c46be61d5d, 0x597664157880491a21fe84a1b349517db577d55dac4ee87, 0xc4f9513d70e70e1198b1bccf126762a9df31d1412fc5ae6);
Dbl (0xc3594dee614693330ac2162acb7efc4e56ee32f314cf7fc7, -0x100cba0386198beb2825a4ff8385a4ce4f5a7c4a46ad07423, 0x95112be06faa6bcf949e1f1ae0b0882047a6d17a771707e3, -0x1ef98a11fcf8ef4019ddc9f7c3823af942a824675881045a);
Dbl (0x51e3c1dd811997f9c6f171a8a12be9051c898e6ac23cfa1b, -0x1ceb4f4f6527cb6d302a92b42ed196cb97cb3a1b946be37f8, 0x1a31eb4f8d54e1e0534d6b0e94cae9988c05d30af2050f3a, 0x2edee2be1a9d90883cf8991f6334372ca330ff71ac30d1b4);
Dbl (0x7b02447ed0c88d689c487b8f88f28c8f36e08384c0aae840, 0xa8c1bd89172cbbea41e2b03c45f8a95509c290442bac89ab, 0x3b1b2dd700ef98c176a160c5745b79d8fba018009d54d9f9, -0xf0ca6a9f4aebbca660d6dbf2fe646f492f5e1e01a0f5aa4);
Dbl (0xba15353c5afba4205610fa923fae1559c1d933bd8c2c091, -0x58545e370758cac79d7dc4e71736f21d97f08a3137756287, 0x8742d31d7b2ea3aee29f0472fd6394576ea34f2bbccaa8, 0x2476993c0b5699106723a3aa11de435863739e373f4b436);
Dbl (0x5bfa5f681c5532b8f177d2ca5215be30be850ae290e726ff, 0x4e804b94cac01b774c9f37c1175cb552b8dd64bbca5f3385, 0x210bf4b27f0a57d4d0e406d1d7008899fe218880088e2de9, 0x1ba700a4436a1644f1643f003045d15f7ce5a7a309d4743);
Dbl (0x9921a2dfcce74a899ac2cb37aaa272f881d2e3f1d45f78ee, 0x11b93d2bd98123002a1c28699c821dda964013b461ee1259c, 0x5b99391ae83f4db50bc2307dff90411aa5b7d770f867d2e5, -0x2d744c034d5668b822e5056b6400d508f1e04352c2028370);
Dbl (0x596692dbcf5e362c12253d9dc4ee1f78326939e1311392d0, -0x461e00e311c8de0089ad13e58d242fc73c9915ac455aac65, 0x1f387b3631983601b8b0cce56bd20c6d8a8efc67cbe6ca1f, -0x12da5958039918f3c4ddcfe33f4285006d3598e1b4b3ac8);
Dbl (0x6e95d0bb4090dca0b6c7acc3f22febd5d2277b55a7207f8, -0xa00b76c77a5d5e099ba5d7fa4c5f2979db7886c24b62c53d, 0x2fc5170d8fa6781dba9899004f0400567b503e3e87a7f5, 0xcd3c0ab8c962a99fe383c9775be884a66c81f14a1e5e10);
Plus (0x62b1ae5c317eabdb3c81423cfdba7a78089e917d915e4df0, -0x2f50930369633dd16254b69c861283edb2796ed864b8d7bf, 0x260c84d12822e1394db7e9bf09e3cf8eec3552bb6064b8c4, 0x2080c0f0ba833a3a7dfd78140cd5e427a694cff4e4c42212)]).
  - vm_compute. repeat split; discriminate.
  - vm_compute. reflexivity.
Qed.
Lemma domain : ecdsa_domain (cp secp192k1) (ca secp192k1) (cb secp192k1) (cg secp192k1) (cn secp192k1).
Proof. split; [exact good|]. split; [vm_compute; repeat split; discriminate|]. split; [discriminate|]. split; [exact prime_6277101735386680763835789423061264271957123915200845512077|]. split; [reflexivity|exact order]. Qed.
Lemma no_root x : ~ (cp secp192k1 | x * x * x + ca secp192k1 * x + cb secp192k1).
Proof.
  intro D. apply (cube_ok 0xfffffffffffffffffffffffffffffffffffffffeffffee37 3 mp mp_ok prime_6277101735386680763835789423207666416102355444459739541047
    [0; -1; 0xfffffffffffffffffffffffffffffffffffffffeffffec51; -1; 0xfffffffffffffffffffffffffffffffffffffffa210748d1; -1; 0xffffffffffffff2ce548b33def3b3a299e56b6b569d863ff; -0x2cb6802b6069718c2590bd8310e1c64507301747fe681f752; 0x17955200a5a1f10d3052507195e5e7d58368c31d54ec3aa2; -0x2ece24d6196a43f83132b852b3590f312b91936fac6ebd9ab; 0x3dc25f8be4ad72f9d24c05cefd119fc900b42f8582d503af; -0x263b5e950fff926ea5a0b6ac49f8baaed8f85f706ddec2c6; 0x15fb2087688538c643efebe728a81b60dcb663d3383c106a; -0xdecc1a4ad2ac19fa1deeca1e0878c71e329eadc2fc87e86; 0x13d5bb4ac79784b88f387980f367e630020e558eb58ca8d2; -0x7c92e6477184907122dc3878efd1fa16f5de13102428658c; 0x74250e59e30fce30a80799cd683bab0f22c2a3e04a9397bf; -0x36d510ba8da538e6450dae0960e1a0f969758ae172162951; 0xd21f13b157976f76332b331a8b79f31e2b5dc9c4b139374a; -0x2010a90541428280d7def43a1c23381cf1c5b553aa37230ca; 0x58aa60f3add6c29e6ac20609b67e3234d7dc0442ff1ccfd1; -0x15ca0d2c499913ca977b02fe90d82764c280215271f117ae8; 0x26194532f260bce0e384f50a3a94356ba487f78e82c6f650; -0x1af190d3211825a5215054de81b4b57c316fbe510ba8d72f; 0xf3c498aedd01be8846537e1d3af8cf6ab2c6cc4629021746; -0x514566659a82250df821be69130e708af730fcfdc071ac28; 0x1f222f724e08a1b42c7c8887790d600c21740ee45b22def; -0x1520e750ff5a53e466a7ffcc19f98dcc10eca03842f4be774; 0xd0a695c0b2525147cc352bc6beefc61388385775e851976f; -0xe7bfe4b44af4575a7a92f072803d1945ea143e13031016d4; 0x3f096eeea010fe96c842eb2cd2fa5eb20c5b314277357fe1; -0x162f343e83b1fa3f8b5723beb0a0ca5bb8d30864288996152; 0xa9cc80d2f30f2df3bdcde4fae32f03d01df2eb23cfde4430; -0x1c792ea76725234b2d1d045f07258e2760ef9cfd671c96742; 0xe19ed1a171bab46ec057c1410f7f993805a65d61a9d9343e; -0x2544ec67d49362d391967e52d7e3d957fbbc65e0417ba1d66; 0x9f176b0401ea158eceebee2dd2c4c04d74eb90dcbc2cef5; -0x1a3775bfeb612e0674c35e6085820ddc159d0a7b8ac098431; 0xf72989cc7bddf5a27ab13ec9adb1de5e8088412322cafa84; -0x267bd9d8c8ea1ad66bd69655cce636c6ed6f1c416976cc844; 0x31ebe1b40a7e79395a4cb44a2388d474a117bbdcd5af06e; -0x2f85d041761c7449cbca17600cdecb459ab0eb6e2c5092920; 0x6140392bb6fd2f852a5c06ca30364516c3cc7fd428b71320; -0x1bc124a2f738fd10e498d7d8836288c226c2df4809fbd58cc; 0xf6838d04fad06e147afcd4d4aa1d61fe7ef10b86025e7; -0x2f332073efe5ef22e95fd24a90c943e3bb5db408988d4a070; 0xb6f960d4863bd804d7f81c3cdabd67506113071f56c88e1; -0x208e4c3d371f97a8a8d831eccb7ec8de6a99ff8cf0041149; 0x9e76b36778e25e0bb6e1f6ce3237756d343172814e27728; -0xdea0e0abec17299ac57a376be0576739d5103679eaf865f6; 0xaf19f0012e116738cd005e401426a4d629e51a89882ee764; -0x1d5d99240ce72b6d628bd21c8cdb71c14bab1b9bf099f1e9f; 0xc7c45ed26fd1b054f20b5b828b6740816e0e92f654049f35; -0x28f1bf5aa614953c1c7eeb08d3e7f2fbcb49205bd25b0cb92; 0x1c75ed8d443d1d3dfb4950dbf25b7e62d964f00cc52135d; -0x19abe9d1fa273a1a2bec63c10b47f727a26ddf8be51ece776; 0xd20a997102eecb8bc68c254facebc0641c03b0cc9465c86b; -0x26f7a0bd45aaaa64de3e07535b49d0621a7c9ef6bb296bf9c; 0x902f3ae49a350f63fba9ac92a6c49c08e59422164ca26b9e; -0x8e623c2343850b61042be773d2fad9ced70c544b3400b54c; 0xe61d84e5432393070218ec26fb81101fde9cb5642d35dc3b; -0x711cf9b1212bfef259f703b59168f09f3b09b6c783ef3ac4; 0x603e90f6744eea1dc155ccda1fc5f8af14c91bfc797617c; -0x820dea8f1351f62a0b89c5415b9504b6812c58823871bf51; 0x6ea5e30ad56a4525a757547815ffa6dbc9603bac6ffc99f8; -0x1324c1c519e093ab16db3e2d6fb7d2c25a6401c920378f4b; 0x1d40ca982087757968c621509f5de4e5e40fe326c2d76f; -0x26743a3cf762684404d19d04efed3ff7213e0f06eb1; 0x3a20244a1cc22acb2ffef005828ab6c472fc003ee117f; -0x25886a9da00dd55f30f2a15455f7630f1b242225b0e75cab; 0x8699a4f1825337bc8fb24b1263c410c3ef0d390fbd5ad233; -0x54c63085c50c1a435a860ed40dcd6b5dedc98882a4a6f500; 0xedd8fda52ae272a86fc004e3c8ca467b84a0aa17bbfa22cd; -0x241971e9323a7eb85ae3c3bc1ef60304da0bc9f1321695b4a; 0x4d051cfded5f8c96abb9f96adcf9de49141605270476228; -0x1e7c88730afe3047a98719d5a63550ac5ea8194929deffc80; 0x3afb8160d6b20d66574e9715e002f6bc83d9743554077a37; -0x186d464d95f64c9add37741552bd585ecb4ea2e4b7d0bcdea; 0x8a4386161ad11f1204f5349bddae120e7c166516d4ceb; -0x6e5aa4dd6d6355f6e1977ec97ec77331501f417c058b0ff; 0xaf39942fe385f09b488baddab7675b1ee37b592391464677; -0x303a0fb260e3614f9d885f0be73c69c04596385b1398ef4a; 0x3c91e94e77bf9a5e38dde91af31d52ebe15e512927d7008; -0x2ba273a37038203124b120c239220d288cce8ea2bc78b897f; 0x2d8325067eeea77a6bc37b9ea53936868314c157683439e0; -0x1272f7c726fd54b4182007723d2f553e6c6d6e4cfca60e776; 0x5faeff436d1c535d5820942600250dfc6d342d40264abfd0; -0x2731e9e16768426af995f3ee37730e93909f5a5577aff543; 0x5bdc7d94cf5eb4d7ea12e303684cac1d23dd7a482edf0c99; -0x726a7b6d78191519e60c7f5735cd3c122518070a49397f67; 0x38195478961a82ac3b0b3b3e5f52190e106af6548c13621; -0xb1a89335f5b5946f28bfae45fa34cea99607ddfb269ad3be; 0xb267e09f5973c8103f39ebaf984cc71980690eee55fbb644; -0x1718ba0c0e1fa57dd1d654d5df6cd586ff06aac12a523a7c2; 0x4e27506ea23b0335e611e913ca848939db8cc8c4702fab3f; -0x2ab8b43296e9f28962af81f0e323f53b5ba3ef18e810d0f0f; 0xb0dc890e0babd5cf0515b5269e8f533539bd1b05844e36e9; -0x1ada2b34e7c1fb8401d2e1733975e9ac050b991bae3f46e1; 0x5b1a452370fa467888f7750b61184a9b434e74cc2b467a3; -0x207bb795c1709260fd1031707ad67274012d8d2678f79d3bf; 0x332c180311c47533dd5451eaaab1b1a36412826ccd47f954; -0x1eaa19719f2a74afb27deb9fb435423d06cf795c14e0aaf66; 0xc2e14b30e9cc603683fa6b0c399a7d4bdd64981bdc8b1e67; -0x259582a0152ac02364d17d0ec1dc3385222ea3d2d61b2f8ac; 0xb1859d7388483016e965fd1cd217f9bb3bad41b363e07fd9; -0x2a65e9da25b302f1069cebff796300a6037d8391397d50301; 0x2a1743638df7a4309397b361bb927de807f0552986f16e13; -0x73ce1210dd1f7b91ad454bb360319a452f07413f63f10d46; 0x1eb1f05ce9631ecbb8b19a15fd873737707e5a5d9d802d37; -0x984b143efadf42f56d6432ad97b5ec44a3e475d27475ac6; 0x3a5aed4b95f07422d82e8c6625fa2a3c56008c61e6b15c; -0xb11db1c087c721633e081f64d839cb291e7409e098a6a6b9; 0xfafbdc1ca9a7fd81ba5824d6e701d2ffd69f17f318d7ec37; -0x2dd3b5fcd8db3802c5555cc046af55aae1493e75500aa3851; 0x3280a04ce948977ebaa797b4470ccd2393bb7a9d5ce972b4; -0x1bf5b3bb98840945a23e46f122da627c1cd7e7a87fc056695; 0xc563ad2b537ca217115b200b0e98935a449d295fc458b98; -0x2b44089a489958fbd62716870b70495fc63e4ea7d783af1b; 0x9ad40b9eaedba3325ca996b34e22d6a79699a2f896ddd68b; -0x16666c5096df9ed4b2bb413fd56f6b02f3f0c9dd6d285eadb; 0x79f01f64c3952fae193baa9c1f900cf539f3e07b18fcfa68; -0x194fdb115df2a9457a67e65961668a2c77af9892c7c5c84f; 0x500c080be7da3f943a5d28cb09b13582bf07bc8a80049736; -0x7bc538b5a93eb56f6c2cbe8cce7947d20e9d64539819bf82; 0x80a668748c690d27f4a20d7a61569518aa249a27c4a81805; -0x13cc2e66f59147488591e6337bbc9da9365ca9b7c3c3f8f39; 0xa81984c29bdb3da8700875a045d2ffdee3bc6653bae68c2; -0x86c95d486a93fa32149e2b67d5dd5de45e2a9c1db592688; 0x1a927d732ea3f8d1ab4c73b77bd243cdd0c63e663345e7f6; -0x25a3e35950934238d4a47022197e9e92724220243ba318542; 0x1122df02f2b129e0e8ae7a6baeef7b607d57b9db3d7c04fd; -0x2ddbff0d6c551ce0e83e012a008414572c0dcf5ea2900f044; 0x41bd5fb8bc2f5d57ce388ebd6536d062f33177b8e56689; -0x236719b3c49c79ae589fa0f508d48d9f5a1cb5c73ffa30a47; 0x657c9925641baa9f9b3d32a85f68f1c8c2f08f1ef34a1a55; -0x2b119c2c95ad90e22bb90428522bfa01af7350e9cefcccec2; 0x11a52574d7280a9bb3c987442374310b97cd7e0b5cd47c45; -0x4718a5556fec17dc60addc67527f41e6fac1b768901ec5aa; 0x2ed9e92d303e3e053c5cf33bb28f7c6ad665bb6bfb6ffa92; -0x8ffc58434b08aebd58370ace7660a8ce5986f939aad3fd19; 0x494937654e97adaaf969e69c6f7f09ddb8b26b64a02aee0d; -0xe7a489725e42dda51e09b56f63784c1f157ff73159ec1b43; 0x3c5668d508fc41ba9d67b47e681d50c311e63ef4408f; -0x2cd35241a4251eece44d5a3c30ae025fd457780d0dbd9c1f8; 0x165d2e5b1069b0226bade66adbc27c1c776769a7d831c2f2; -0xacdd5d6c876922ebbefc3f700f4086e0360fbed283736745; 0x2c64a8dd362fe5da69e7afd1c9bf826cc670c9a5f1b82; -0x1c16569ac8e709eed42aa17b6d1fc537ea1c2357907a1381b; 0x804f88a11ead1ed83a591a2530fb57858357ba17948f8b7; -0xb59d2843a36f4da5707be2fb62e436928aa59bc4efc057cb; 0x1b0286d8516068b9c1cb0e5007411efbdb4f1b1b3ecbacdb; -0x8610f2803b0a3c58d4c8eef309e67a84874c715c1c2b9c8a; 0x7d00980b1984b014dd1a1fdb3ab1c5f68ac583872381af44; -0x19aa119c3e0ed40c0c09f1ef36fad9f167fdf293c3977518; 0x11af7f435adc9de61c29df6bb86fd7e29c6af1c6de4f9393; -0x13f925cb138695289267745da19e6394e55cf7044d345c5e8; 0x4bd52cc123f5568b60e44928214d83282125e0dd36665d6; 0x3d68660432a042f0d22d9bbf93bdb23dea83497992be92cb; -0x2e60f14cc8f921ce04e35fe4f49b962167d316201b1c81a36; -0x23d4edde069b69bafe77bd9e70a21b47eb675ed0f9f102700; -0xe20984ce8e512fcebd6579cf161b18283039501b052ebc06; -0xf55a1e3a578462e67a2d25eb69ee6daed78c6c7e3a605a6e; -0x121372882ee3e5955305f8a63ccb73804f4d556c273f122f1; -0x234fae1393467f3a2ac39501011a815e61ee82e14f3b22670; -0x72bd691b4f3583d542aa3cca437307711e0642bd4c1cc56; -0xb8bf567cc1872aef343670868c04082d5bfa965509487; -0x1e7d37594824761f8bc740e64bb9b20450c7ed67f349f919d; -0xf4104567fa3f54a9fcaf1f1178dc46c93061b3f29367a416; -0x5b1bd1a850344c35792fa4b95bd5ff4636127475f903b5d5; -0x1dc0826862f192eb4edd20b0c58c52d68b1903ebb52431135; -0x5c7456af71612598155ddd33f8fc736480146ee5264d5976; -0x23030db69c7c9d9973d12dc5139d5979999382a0fccb4fc1b; -0x6feb60e52241e120b410afb6f00de0723949484696a7c21b; -0x1adffdb965abe97859e6945834ac806d6a7cc397093c60851; -0x8573918364fd71acc9cd52c5681196cd0ac3b618e466482; -0x2f83c4f618f95d0d27ba83b74546eef51f16f119a3dfd281d; -0xd25c9ebd83021ea5483c016ab3b4d5d4590dd261a5003884; -0x280e8b47533ccab8b644ad87a6bf465a1a39ac6cf88e07d54; -0x8dc8f2db7889d3088171af370e270161863a67a20d8a1f86; 0xf6f4511669830d23f516fa9078f190b468a37a228d2fbda8; -0x1266d16432eb773ad719d2c312e9b9e1e2105df8cadc4bbe0; 0x182c4b2c3f3ad4be617e2e5a0f2e74844edc8d0d11a5575f; 0xaa4943e545d2308bf151149042ee0d9f9f7b778c4e153452; 0xe06c2711ce6b302375a61a179364992a48a9a76e6f4fb0de; 0x6b8e007ad597337636f2e97b008cb6436adc71510c939264; -0x23f9fee71f5447734586e848577de353cbffc6ccd44ec4412; 0xe22194ea4c7a87eafd04230ebd8740f3fc91c1da1aae93; 0xd5dbcaccfb76ead77a791825bffff65b9ee0ed1684a1ba30; -0x61b1e4a4214c17b00eb8e81384ea16ff7c931f3abf894e1; 0x12515adec63e447102c2ab83a8ebe44fe75b95db03e9bea2] x); [vm_compute; reflexivity|].
  replace (x * x * x + ca secp192k1 * x + cb secp192k1) with (x * x * x + 3) in D by (cbn [ca cb secp192k1]; ring). exact D.
Qed.
Lemma points P : on_curve (cp secp192k1) (ca secp192k1) (cb secp192k1) P -> no_order2 (cp secp192k1) (ca secp192k1) P.
Proof. exact (no_root_no_order2 _ _ _ P good no_root). Qed.
