(** Certificates for the curve secp256k1: its two primes, n G = O and the absence
    of points of order two.  Written by a
    script; the numbers are checked by the functions of
    Pock, EcOrder and EcRoot. *)
From Coq Require Import ZArith Znumtheory List Lia.
From Verif Require Import FastMul Pock EcOrder EcRoot EcSpec EcpSpec EcCurvesSpec EcCurves.
Import ListNotations.
Open Scope Z_scope.

Definition mp (k : Z) : Z := Z.shiftl k 256 - Z.shiftl k 32 - k * 977.
Lemma mp_ok k : mp k = k * 0xfffffffffffffffffffffffffffffffffffffffffffffffffffffffefffffc2f.
Proof. unfold mp. rewrite ?zmul_ok, ?Z.shiftl_mul_pow2 by lia. ring. Qed.
Lemma prime_5 : prime 5.
Proof. apply (trial_prime _ (Z.to_nat 7)); [reflexivity|vm_compute; reflexivity]. Qed.
Lemma prime_107590001 : prime 0x669b171.
Proof.
  apply (check_ok 0x669b171 (fun k => zmul k 0x669b171) (fun k => zmul_ok k _) 5 4 0x2a070 2
    [0; 0; 0; 0; 0x4fd6; 0x568d336; 0x74250c; 0x37f9d8; 0x19bebe5; 0x751cf4; 0x3a90f0a; 0x299873; 0x296569a; 0x6af3c20; 0xc526d56; 0xc75e1e; 0x6ecf9bb; 0xb53dec; 0x2d1bfb6; 0x107d594; 0x94f78; 0x283f1a1; 0x56933eb; 0x27ff7fb]
    [0x3c226a1; 0x1cad09e; 0x665881]
    0x71d83 0x57277 0x10a); [vm_compute; reflexivity|exact prime_5].
Qed.
Lemma prime_20113 : prime 20113.
Proof. apply (trial_prime _ (Z.to_nat 146)); [reflexivity|vm_compute; reflexivity]. Qed.
Lemma prime_1206781 : prime 0x1269fd.
Proof.
  apply (check_ok 0x1269fd (fun k => zmul k 0x1269fd) (fun k => zmul_ok k _) 0x4e91 1 0x3c 2
    [0; 0; 0; 0x379; 0xa8d3d]
    [0x13eb; 0x66ab5; 0x10d64b; 0xd1a2; 0x1014e4; 0xafbf; 0x3653a; 0x11768; 0xea5af; 0xe722b; 0x10cb6; 0x4defa; 0x17c4f; 0x10089; 0x122b4; 0x89ab8; 0x4f886; 0x7b526; 0x18a82; 0x268b]
    0xad2ef 0xb420 0); [vm_compute; reflexivity|exact prime_20113].
Qed.
Lemma prime_7240687 : prime 0x6e7bef.
Proof.
  apply (check_ok 0x6e7bef (fun k => zmul k 0x6e7bef) (fun k => zmul_ok k _) 0x1269fd 1 6 2
    [0; 0]
    [0; 2; 0xb1b92; 0x1e; 0x806cb; 0x4001; 0x365e6f; 0xb; 0x103891; 0x28; 0x4698f1; 0x2e9b60; 6; 0xf3e; 0x3747dc; 0x685bad; 0x3c; 0x2d1500; 0x2e; 0x21200a; 0; 0x336611; 0x37; 0x1a8ba7; 4; 0x6801a4; 0x34; 0x577c24; 0x2d; 0x196125; 0x1b9ef; 0x31]
    0x57af91 0x32 0); [vm_compute; reflexivity|exact prime_1206781].
Qed.
Lemma prime_255515944373312847190720520512484175977 : prime 0xc03a94b2d3e64419a05cd8ccbf987069.
Proof.
  apply (check2_ok 0xc03a94b2d3e64419a05cd8ccbf987069 (fun k => zmul k 0xc03a94b2d3e64419a05cd8ccbf987069) (fun k => zmul_ok k _) 0x669b171 1 0x1df9bab4430edf45ff20d8c2e8 0x6e7bef 1 0x1bd689d5519e4f1dc57ba264e18 0x45749b8adb10410aa398
    2
    [0; 0; 0; 0; 0; 0; 0xaa76a822f9b190c09e9b91f22730; 0x64f91609ea03992726bea8a4cc356192; 0x17e666d37fb6b46ecbd3a749d4e2ed852; 0x6e19332ebae37771d14b73451908d98b; 0x2093615f55ec3837faaba91f340fc352; 0x10386a5aa70794de3a033ac16b8232897; 0xe28eb7104a2e5c7de6c6e636bac5afd6; 0x508968aebb49a4e893f3b0700bc0ad9b; 0x10a103fa7d84a00af9d57a83a2ec02303; 0x21cd94ac9beea4903a55fd2f1559bd3; 0x74e6011209275194682eedbd8e9bfdd5; 0xa1a27ccde20e9a433f2f0377c22532ce; 0xeb946e558fa194695d9d97cc230cfb21; 0xb613a29471b937ecb6b4fef6073ed9ee; 0x8a715894ffa34b2007d2d03d27682456; 0x3da30244e01c875198ff2149cc1c34f8; 0xe89c9694fd5c93008027119ca951068; 0x2eda1c61fc5fa8c50c568570d042baf; 0x9550a3779777538e5ecd0a59416c580f; 0x6a385d67ea7195a4eb4fc8ec46f11b65; 0x5d9d2ad269d0a454eb2784e68571fbd; 0xfb67f3477b3e44ca7f0a68e696dc099; 0x458fdb09aa9cc1a486d5301b3e1048c; 0xa4b47ddbc2e79c7430e34382df84b243; 0x836862bce6234c357a214b2050e0fec5; 0x18b48161a65bca77c190d3d941f8f4e9; 0x47594ac057993f74fa84e3b6c69d5a5c; 0x35d5158db9f80f1f0b1a155f2cf56867; 0xacb100c1aa620fba13b40a4b620129d; 0xc453365f2d253da614f5ff015344db; 0x16994d7d32cfc9e2490809c604811717; 0x419ab4da08a8ea81b75a2d11d6b4ecf6; 0x760b128a689e5372c957f379ddf0ed24; 0x113cbe3b67381f00b73414ec7396395a; 0xb0635663e66845b41a123b79463e7d68; 0x329465f3b4bdef8385875ba9370c1eff; 0x23d921a69af2639ebba6e5adc7ea7b5b; 0x6dfb5674740dc94ba4c9db6b51eddf7d; 0x18c52e10241511585478322174c9ed3b; 0x31d4833483314759f04fbe87ea58c4d0; 0x81679b4312e97470358a2b977846736a; 0x154fd87fd8e83b35067218484f1ff3919; 0x56f6295b14f565982b6897a6e54b8481; 0x1048b73e2a8d1bce8278adff9e6487bfe; 0x45728fec1a498a3e49c00a58c7128880; 0x792573cae31aa6e265e68dc7ed0585d3; 0x4afd3089d9818e762d1cebc4c04a8fc6; 0x12662fd7bd1bbad2181cc301b7de86bc0; 0xba274f90aae6f7d3870920a579bd6c; 0x3fe065591b06b007eba5a6e3c69579ce; 0x93a205d473f37367abd3faa24bdd2e4; 0x52a481c780f3eeffa84d9ae815bfa2d2; 0x3595cd672f83626e86469f89cf7e857; 0x89dcf4b651b13dd31153f382263eaf1; 0x30cee3df25c27116f81a21065d100676; 0x5b9f5ecc01fac9b75f2ef529d3f6d951; 0x151bf9aa5b18769f9a13663187be2b404; 0x4d0299dcea823543a6d2606e24c4e6b1; 0x8376db738ae2c37f8c435f56ea1d626; 0x16ee31163743d2cfc5d84345539a20655; 0xbc01ef4ed53ec2b2e1a83301d1d6a4ee; 0x79678a395e9185455c39781ab0a7e6e; 0x3cb7de6d073451b35b3ec329b233bc09; 0x1f374a6abea66e162cf132d01f08409; 0x15bd65f3f6d71e823ab75c6be4956b25; 0x22f39d3330a2a8e1dd6100918fa6ad; 0x27bbaa22a522d9aa7d6b257436f43926; 0x48aba693d917a5cc7c399af48d134681; 0xd672add4a7ce777f8d0e38fabc02e7d; 0x327e402ef5eff059151760cdae327a2f; 0x16271ec6fe42af29aec502706bfb601a; 0x6ce6c2a0938f1bfe91c780df18eec64c; 0x4b9873e6edf7047c38669615bbdbdf0a; 0x5c293a056c3ca8890b9d6543551063; 0xeb8e220533ffb92aac6008d0e5e43dc0; 0x23c48898957ab6807e9ddc17e8d1e74; 0x1d80b0551033f86e6b3d3c54a32e8599; 0x6210cf2d501ab40bb0db78946a31d7; 0x33bfa36db222e075f50df58bf643e374; 0x3557e44d25446d901ff6305a4e7bce6c; 0x2f7959b0f891f70975027c14df416d57; 0x81dc74631946a13033644522ba442b24; 0xb90e0b3775c5fd5e843737c13af942bc; 0x49e123362fd661f98650f9cf13fd37b9; 0x5a48165f13d0957328d2aa485fd8c00; 0x6f2538d2fd9abdef12514e5d8865a04b; 0x149b3b648990d441284a1844d2563be; 0x14938fd6803fbafc90c6c74981017388b; 0x41252506c6f38b40f465a8261637ba53; 0xf26f472ff57fb596c18f3a5b1223c9e; 0x105b728ad0fb90208cc0b21f771d3004f; 0x87cb8b871c1cf8ac9a141fe65f655048; 0x19b77a1ad96ddec88b1ef7bdd182b2; 0x163b090c5717648e031324466b98322]
    [0x13fb64295d49b17748e6251a36dd1fcb; 0xaf98cbc741cd003a47ff1513e276077; 0x4bcca8cabbcadd018db9a7d4c2401b01; 0x1ab94ee62e58c4f6d80e1b63f1f063c1; 0x1f4d70f2f10bbe39ca8e38499f1d7a09; 0x3c970b872e3b62c5c3765b10b8a2ab1d; 0x14fc1e25aa70bf6253e1f830b31ea; 0x3188d5ac75b1425c830f3c32ecfd29d7; 0x69bb2184e735ceec82d4c0e2d7f71bb0; 0x155c638156f4d09c9cb77770e64379a3; 0x1f874c1e61834353241f56b8d2d18571; 0x776cbbeab19848fe7c592402b003d8e; 0x6428d87559484ff9b3f192a78ec0724f; 0x39e7dc4d702f7ecef5bf7c28d3b8c20; 0xbb5aa9b60a2eb34eda567732a5a21df; 0xa9a8438c880e3144ebdf45a4a7dd968a; 0x2deea3b27b49a23e1b22531bd5629390; 0x3ac725197d9802de4400a9836e22e8b; 0x346bc02862d4b31bd58cd10e2e940cef; 0x1d45046262ddcf0a1c5bf418108d81b0; 0x6073fd301dafc57921df75a293cb685; 0x198fc1ccc08323309cf97ac4c3ff199e; 0xb31dd8162d2434310a27c4b08c746af1; 0x53f47fda72908dbf813b6febcf694842; 0x3e1941eb35d109d1e454632d64f0cb58; 0x82effd1d2cd9dff2a385a452a39118f2; 0x223ba2f3e24baae14c3c92b1dadb216b; 0xb375efdf77315ac042b8ad789a3d4b7; 0x343a81b59caf972e8d9f7faec3fabf; 0x34d54deb35e0730beccf7a18da2af076; 0x1f87d9fe268e7e92c1297c389acd3a39; 0x32c237f32eaf41f17aa5b07a6518da13; 0x72ac4a3ea239aadf99146a1618bee0ab; 0x11cbbf3a6074518d4db4c1221457a466; 0x28227e39d92e97d299ce0b91cf484e6b; 0x5c1f7ce4326cd949c395d886947313; 0xc3b2e5845287b201061face185a8d3d; 0xa1b4eb4dc1ad175d90280123eedf37ae; 0x31975ae862cc7d2eadb80599df08486c]
    0xb0db0609faeea74532ac512da850b227 0x39052d42706f6ebb37eeac926c44f4b9
    2
    [0; 0; 0; 0; 0; 0; 0x553b54117cd8c8604f4dc8f9; 0x2409e28bf766c70b49b27b0dcb58615; 0x1124956203d1c17363f54b98246cb6; 0x93fac564d2d911229e2e6b9e391ee698; 0x39819aa98791a6a7328aa3fce666911c; 0x650af252d115c79fe9c2d513f2a8982d; 0xd2661d5ec11757aa706a8e27cbb5caaf; 0x3dd2286ba5ebb520670b5194d1c408ab; 0x5446a478118bf6ad69f14eb753e39a56; 0x5c8e4de97e08d233945b976aa179bc9d; 0xc63a4e6720b15ca96f582dcde8e9472; 0x219b4ff113f3db23e5044f91bdf84fe; 0xb972a738aa4cfd964d021d2dddc94504; 0x1dcef48db09813bda074cb546ee2a; 0x16485b097d333105dff8f290b804430; 0x70caed65a4827939c9fab1c82290e8f7; 0x301915414d81f5a5d99785ee8894e4b1; 0x184d9dff1813063dd27b907b7386d49; 0x781eb285bdd89d2a84bf16d3c792d658; 0x849580bd572202f90a30862b6b42bc16; 0x2ab5501f18d85dce72378995b0a93b8; 0x3c56898f1680a33300a6a3cae5d41bc; 0xa24e2d6cf3c63463ca30e8379d98febf; 0xe057d1faa22b28ec9c5d09f102b8fda2; 0x5341694f36bab8f331ca80261bd27c0; 0x118b4e0d0bcd215dd5a954aa7f671490e; 0x10851619f7032c54010fde50cf18337; 0x60fe3892e0830c543744e5ab60f1cc5b; 0xdf1d916a870b3b195d6cb532b65afb; 0x24085afe7fb7bb0fbaa750656c1ca8a9; 0xde50716898eb4f5e1bbce756643ee6e6; 0x61fdddde52559a59ffb32ab93ce19bdf; 0x3427926677204c3f74508b69d8cd2a08; 0x1612bfc0d27f333840b5080498cb817a8; 0x1592a8e7e6db82c1e4e158b73735d413; 0xa9ec99fdd75a8e243712f80b655abdc; 0xd7d22e5ac8803c1330a66f816387d10a; 0x13d87063572ff81282586e8105df0164; 0x10db0301f6d6ffc4ad7e5c4b3184aa6f; 0x266fe212c81c2627b005b7d7156780b7; 0x1088ea28e5db45305920392edfcc70e9; 0x224f5dcd2500a75c544f414476ee09e9; 0x7c27a2b3fb127f1a1969df75aaf226e; 0x308f61499ea18d28bfa7f22c302decc2; 0x175fc36bd18bfef513ef46e72da54c6a; 0x5c8160b69cb497586c903dc5e0865d5; 0xd4974e7c0e5f63847bc25d4bcd30036; 0x13b1b631a1e0a64bba737a63b0cb55b8; 0x1e50fed0eb02c93b5068b7ac5849320; 0x4b3fd9180be5e019baa52e572a00d207; 0x4b0b50c2e3aee31db01a1b2212db29a9; 0x1208bcbf5ba488e9e0554f5bd9f8994e2; 0x6740c02f17fb97e9664044f26b82b9c7; 0x5f2612d995348af7bb6f47e294220089; 0xa29a13cf12569cb0f704b29dc665bbe1; 0x929248fd58ec84a8dff3ba6cdd10b8ad; 0x2e65695fc79aa0251aacf374fe166eae; 0x587eb0bbcd5b8faf93de415a32eebef8; 0xa38f254ef87c561146088df0e14cf4c4; 0xc5ffd2c8302db0b93a85130c34daea16; 0x119e882a41e2058ca94ddc7dc4133c1a; 0x1d54d5029cc7dbf8ddb77fdaab972a; 0x4f3dcf04a66cca20f478dedf9ea341b; 0x13a8f3edcfe3f91d6b10e00a9c9423eee; 0x3bf8b025f7a45c8529bc1c4a5511; 0x880abaa8c6aede4d95e787b818f85319; 0x4be61ec4efae6a40595fa79eba7baa61; 0x4a37c11e8f4c27370297e59f90e46374; 0x99365b458c07a71b056a63917c3fd5ec; 0x1efbff8353ad01c707a9533ef0f02bf; 0x4c73d588e89466f56a84e81b7b33735a; 0x4149a56e88ce3cd284a7a6c22277b3cd; 0x2b07534b4a123c4e6fcb3ff373ff3922; 0x6f5c5f40410021ce27b2bb4d4de410dc; 0x6f1054dfb699ff5d3e495ca48d3026b2; 0x4e43409b2567e8e0ff9aa1b2b1388c34; 0x1558b7c7393a5222d7bb3cbd547b271aa; 0xa5caf7d155a2f701f2b48fc3b852e030; 0x59b90dba2045c71638025d92ce2d5191; 0x3f83554efb7e429432f8784254ce3d14; 0x10f16de54f415cdb62394972ade9a0c15; 0x1a5feb53715920252bd0804c861e2055; 0xa7057f87d9673063b9a8f6150df8b55; 0x1297126f992f4b86177dc5adb578f4dd7; 0x60ed78f6d9c122cd18c45a4737efbdeb; 0xca67ceb8bd681dafb67fe9aada85cc7; 0x513940e0a59625aa3604339dbdd03bbd; 0x1476d244be10f7ef30f7c7a83b379d74; 0xd808c49d5c7766340daa29469ce973; 0xb7d725dca8507d8054d7d2078c3d7e43; 0x23414e720fa8c4eda76125dbc2ad003b; 0x1f52ba8a894a327197567717eee7a302; 0xc8d1e6a78db93dba5df3fc68daff6f6; 0xc67d3f2f746113a7892a4196c7f911f2; 0x13553d2a06699d56bb685fcb4affebc; 0x1dd6c2d0954f6d50d30c36abdbf6258f; 0x3ee7af559a3efaf5aee524a94b3f375e; 0x17fd38279f84d292bcc2df03888601ad]
    [0x246e08693746306e3615960b0bc2a64f; 0x1dfd31527a6f7c7e091b2d7554ee05ca; 0x10b18b5a10a7e35dc3ba2fcd23b42b49; 0xb37688a61772178cad227d3f3b1ce05e; 0x175622c7d667662e946e8eaea1f1f541; 0x1e92e277ddd2f90200f035c8b4d33c; 0x82d7366813b5582cd4e9a4dc6cf60bf; 0xc01c11a99520d7a72d4835b7e2e5599b; 0x46de5f5c419c3fe63b71ef1487b10584; 0x268ab45fd311f67ea815a0394b02757c; 0x2002ff46728ddfc5d817328c3a14253; 0x74b1c1bc5fdd03166860b95d8d34077d; 0x4f897c686b66049c70d182fc6f93cfce; 0x461010178c4fb66720356165d60215a4; 0x72b05dee71058c26d394ab132add9f2; 0x282d315d0278766e18066679014c2b4e; 0x36a4348f5770566c721aadf761de5b55; 0x33cbbaa48217b2016f9f20e5fb176d; 0x21bd7573c482bbb26f07599b43172481; 0x46e487f312463ccab3c6a0ca53182945; 0x690ea074d1655e02e11053e7b062c088; 0x3e9b61a29aae0349056224076b39d79f; 0x75bd6eba32b25fb401159a92d2fe794e; 0x323072de375603865f9a3fab027c516d; 0x18d086f2816f26968717b56c37fb878a; 0x2205dfce367e5cb61677bca6e0412992; 0x65a29e1c211f1fe7af3db3dface0dd74; 0x1fdcfb4eac5f020bf29df75ba08016e7; 0xba3d29f083e2f1f2414f082ea696a4; 0x1d08b628588340044051e1dc216f9ca1; 0x2a60a82cd3567aa9b36f71de2ed8d790; 0x78456de58c1e03c2fa0c341192ebc7bb; 0x42a2c64701b9447675fe4b0d5e46e33a; 0x25634bd04ef70d46d7fd8364b0db3804; 0x3aca6a37341c42637bd9e0d0c5765554; 0xc0cd58c91ef03c0b0cbaea7b6fe553d; 0xaac0fe11f7fded6acaf9e9666193499; 0x25399915a29c5b17347bbdfaa1a7d41d; 0x34b6e5b123abdedf690ddee316b60cb7]
    0x84109eda3ae1d0866772b20b1456e44d 0x397ded951cc0694dcdd7b28cf8586646
    0xeb5624e3e18e); [vm_compute; reflexivity|exact prime_107590001|exact prime_7240687].
Qed.
Lemma prime_205115282021455665897114700593932402728804164701536103180137503955397371 : prime 0x1db8260e5e3b460a46a0088fccf6a3a5936d75d89a776d4c0da4f338aafb.
Proof.
  apply (check_ok 0x1db8260e5e3b460a46a0088fccf6a3a5936d75d89a776d4c0da4f338aafb (fun k => zmul k 0x1db8260e5e3b460a46a0088fccf6a3a5936d75d89a776d4c0da4f338aafb) (fun k => zmul_ok k _) 0xc03a94b2d3e64419a05cd8ccbf987069 1 0x27941f57fb3c037181fc07f533ea 2
    [0; 0; 0; 0; 0; 0; 0; 0x89d2a000000000000000; 0; 0x2274aa0e86b3093dbe7049113dc1cd95d9; 0xa30cccc9d3fc31c3607900a0f01ec7e2d90ff2e653adcf41c60d5d7561; 0x110270a95d48ad55892e209ca2dd8a92931fc8077a5649a85dcbda955e0d; 0xddad72a80a882e6b411754d6fc6ed82c1a6830243556f6a1075bffc906d; 0x6c12fd50a9f239fd3f3786fa8909baae5f51b7a25f44c867a292d4f46a; 0xd11bf29789396b6488d7722940d30dd1c7bc13d6972c495046871246f64; 0xeb9f08a7d9353423b0b633db06e1909fd07dd2ae3397969e140370b7405; 0x1cb8796ad71f41f35ae30745896e10725177d0f54bc31dadd200f298af33; 0x18d91e5fc872d6ecfa83ca9853a4f808a7348fdba123346c5211692c9a6; 0x2a817515db94293bf7832c033f857faaaef4263fe900a6246c0ee318331d; 0x5caff682bbca5176d045d5f9db957bd2a5179e3ffa966edacd1f8083cc; 0x88989de5589f0c6e1c22a6476c850a1a1bd22d5e610d9299d65fb60efd; 0x59deb9e6743fc2a659a767f2610810abc8b6ed025e7097a447a790ab6c2; 0x38ae8f9e1746930d9b69cf7b31579d904e91c12677669c283d3aeb57dae8; 0x18fa7a9c7d7adb1cc77b3dfb1248cc82e8e8ad29c3838ea0d57b8f80d065; 0xcc9a5c1e5faa52928bf72d6bb9e7755a4ced7755f4e3dc026f5b6e564f; 0x75027a31e4d1262b114a2d3298fbe8163686f53271440976417bf95371d; 0x3202338e95612c8ddc8259ed832675c6a0692a348c3ef4dbbc812aa3f66; 0x1cdd621a51cceebf19faaa58d24dbdb1bc51a5025281d1f06162393300bd; 0x26289e364f648fea3b6ea76dba8f1cfd818a072c423031245321c78be2fc; 0x2332335f780e6ef674409416bcc974c6af6e25127f7fe5b826ad24baa7; 0x378f36a56fd7a92580083a909a925d6e31aec3a6e5e4d7ecf72ae2062af9; 0x1c79ed580d7cae3da99a2b5d2d0897ec7f9fec3e09f5fa9b8cf3bedbb181; 0xe21ecebe8863d65763e5d11652cd1668eeb30104938cacafc3613c6a80e; 0x786f452d8b85995cd83659c4dd2b1a431e3d148caa9a92cb2d914a52f9a; 0x1b0121442cb32fe8467b7961a6ba6f51b47d2f19cd37c835210096615fdf; 0x28c3537e6678b83faac62d2b4f4afebbfa688b7a4eb36d972c72b8bebbe9; 0xf1a1f9a75f5fe0af56605af78a7a32c737e7f55ed3f742b2c82a947c84d; 0xa6abe2c2b6aec8bcb04a35195b2b3ef5afde6a064d298f103d8205166b0; 0x2b52540effe0e661621920649accebfd909394cfaee8e814f06aef2764; 0x1713adf9353bf5bd218dd52e6ddfd1338094ab89401fe9070d6c104b178f; 0x96582ac72bb4768558994c594fd83e22162ef3b4753280bd68e1deaa9b0; 0xf2e7647c588d406ff1764b8b56376a2fdb0b71752dcdbb4d128e43e85; 0x1e77ac5022da0a685f7201d9594da74fc58541c8abf2e018841d2c233f; 0x67a2eb48a83943504cd7280241ff8c6ca78e49f707ca3935411d279ff3; 0x20d88debaad7c52225f33908bd1beb31b62856d31c9bc03f95b67e1100d; 0x120928cd6684c3cb61d5d496c72e5e94c94156eb109a45b71519d0ef87b2; 0xfe7ae96fdeebda623bcae3d6a1222a6a8c745c8e3d8e3358f12e4e09e32; 0x14b69108469ed3c1b6f55430e2547573d44918140199ea61be2deb248775; 0x158b9b61d916c1450daa7048f5973b756215ff201f38eaff9c6b55482c30; 0x1e847c77f3507a8e8fa36bca5ce16db9f4286399c22b2483bcc4cad2ec; 0x2526ea64f905d8c11706c9809780e042caead8c573f2cf6881e0f4f0ae; 0x1a32a79729c7d15739a91c5a25c1eafdaa1eda2cec8449a6f1f7082134; 0x1e3cedd8061d43f307c264f3b905af7a6b7a575d45e4e33942e6ec22d0b0; 0xf4b5bf852969fa6c958b94c022c35a697b19ea7d27ffa0c0af9d3a78ca; 0x9c421eca724a7a80d1febf75c7d0d805545aaaa813c3c71733673382d3; 0x25da8126c1a71f0781950f2111df3961552d04f0f32b761082aafcfaeba; 0x22085debbd94c8be4d5a1ec3acc83a756bf876d5049098ba0c9dd8af4b6e; 0x501d33171f750976720d6eb314cd09083a4da7984352cbb27dd01a8aad9; 0xfdca1bc29bac07ad780f817e487b57cc414bef09e7f1bd7489d6b844d89; 0xd3a89416b20d1ac4934b461618f2bac32c9c6bf4f4592c6da60fc0eb57b; 0x9b50070887c2f3e1e29acf2fbfbb6e1469874564fbd46609ae48bcf35c7; 0x32142f47ba25d6bb0595352c2c4334f4a1065adf1588d0829556e96d12; 0xe85282a04fb73be2b1b045fbc74c4ef5635cb404fdd31bdd42f09b89a5f; 0x75c2fd756c67f437fb86320b85eaf4c91fde9dc1c16c14c6b20c3585a10; 0xf4070b4ee8bb5697d87d4bd7049fe249ceb4a8a95521db991a1c30e77a6; 0xdaa76fd238ff38b088d122671a6c526047c08da23f66b444a72e3a37ae5; 0x15ae96fabcf203acc20e7caf62cd1946a9ec80cc036a91300cd0cae7f53d; 0x2a431aad6d20a47660e745ac6cf82629ebb0d5f6636bef4a03960eb504c; 0xe69ec9dc10b41190e1d4dcbe04b6415ad5f2e80cde8c942aeb488a0487f; 0x30e231646988a733f592fc53736b6cca085a1f492d34af2b58e4a4850f2f; 0x2b8ae00d716f7d2918f2b954324d4a81a2936457e28ccbec19366a8cd57c; 0x54ea43c3625206a8dfbb57b6bf2649bbe684b4243f5bfc770b660cabba2; 0x24fad1ea8836d21c158da1a70ab40fe30c5491f32dcf799afdf15a915830; 0x31b69ae2d3cdea2e64057b31419d8e94f1352a038b5da19bd5e813282a7d; 0x151be4f54fada3db6c640fad3403c2f4d3dbaa8a9e8d5cbdc37ae42b16ec; 0xacf18ad1f762d0bc5224b5d1fea20db32c55fc1528770cc1abdc08210cb; 0x1ad4139a8c0c39b0bfec85e2358dacf5710833d136af98fdc799bb4b7026; 0x516e73e8fbb271dcbb3c542363b65d5d4b21fccbe883d7d10b25cfe3987; 0x10104efe001f47255701e77044909705b922929ea14305a5081f95bc6b48; 0x4b5ed0c5f87e8619e300aeffe32236229c3541badc2e938c9f2242102d; 0x201b49ed1edc1b9023fa53830c6c9d10e0d709843001c60573441707535; 0x90b0f14305443b60fa05f285c7abbd4a108031c8166aa5421eaef9c4ded; 0x23184e100696f1c2e2f664b9ec6098e6f642538f997350493e836a979417; 0x1e5a660bf0475d44962d7252d396ebd50d60ddaa2619f8aed392b2deb9ee; 0x2f4e461636b09e4b4c8149f7ce5dfb04c9bf9566e89f4af83e39a8d74786; 0x2101faedc63486f4d132bcf38805fb5ff11cc17de7db5d39bf3461fa7ddf; 0x3883089bd0d2e9bb0e2e472205448b4cfeb626c29b62099e7ade752dd2b; 0x1f119bcfa625b73e4495ff98848041b80ceeba179849cbd5d4b53456731d; 0x7b8d356e555c51ae57c431076e6a9116f9e2dea485e67e2ab21c43aa736; 0xf43157204f16105ddfbf047dcf02cc430c433ed43e5d840b5974f057343; 0x147ac6f807d4115f538f9b980b7709eb6b73b00996fea8f4af5421a7ff4a; 0x13bb28401644093dbbee2212d0251aeb7288220277b2993558d508e17e45; 0xb5ae2df60bb17f417d37ae2eee0982bc4096254217afe67f90aaa8eeac; 0x343b887484af52d49c812b6882eb68752f363ba64e6679e488ba690033e; 0x1b7568bf7db0f274dac7f3deebc6b177e9df7ec259f2dff8340ecfe83114; 0x31c2a1a2bef1eed1e37566362aa3308c1ed55be65427d2d2cc1fcc3c737; 0x723bf20fe072b37d7f1da666848a1da164928fa20ce8bea68e0bc571ee1; 0xce5b1984c6ed934a31400c08e0d3dd007940bb019ccb646e932c2d016a2; 0x2d0e1651e8ad8be09844c1d5dec1a47672d1f51c98200b15c80c9c7442; 0x4d038a8ea653ec33c877572f31545c6f731b1cd2010e4b5a6faf9b1fbc2; 0x1505ce24effde1864308731fedc7ac47d0e67f8593a4a28f448d24faaaef; 0x9962c847e684d5632a920680ac59ab3297a19986e87c0d553d7cd6cfa30; 0x3b2e3ca37ddbcb82fa91acae513873c1cdde3207be267e7962a0c4918fe7; 0x13919aac4764acf14287c60762a23cf21c97ea25e1a988c65fab2af8ea; 0xd293642324d1abfbb9c19264c07f7f597f67627d119e5b959c61dad91a5; 0x8650c04e504b331255b8cf4d46bd99e8ca016a26524edc150ec45ee3227; 0xab49300873a0e3c0c9aeb9c2cc715cecb278e2c0e2cfe88cee8a3c6d56; 0x1c3f5c1018f98f61f21e4b275461606eee309ba3a9e8894ea044947669b5; 0x1d4a9c66ed1bfc3cf4fa372a7e1306712ff318eb2840053e12cd86596f15]
    [0x1fd58e0a7fd6c26f42bf22950ab0f57f3f9c755bc850e654ad8b59733dd; 0x3063dca866702ef0fe8a336150019c1117a50a331eee700298a3206ad04; 0xee15bb1f2834df1af31cff9b14391bc2969c6c9785357e7bd902dc9df26; 0x4fc5792283dccef3286a3f2f110d6de3644d51d673e2f28d2ca2f26fbf8; 0x9944795939d6a8f23d4929d3bc1b2df7c6d9ade9e61438f944170cb92b3; 0x54fb994590e988b1e987514ed898d002d69aa9eb2c6a8b4be39c94ab294; 0xe922fd43e94b30990a539a037cbaf5465d5005b04ecebc6b5267df3d878; 0x16ed92e0bfdcdd8e8a5576082240a8009186ac1252fec649594f39a0a7c; 0x1185da22477e8c086c83f0ca83c8aa979a29f60bb48b2248fdd4801a4de2; 0x9fd5b490b88f17c063300a7cd3c8abd343d055b82deed1f3fe69e25fc66; 0x653216f683bc41cc76f3f0aad8cbae19dc6438eae26fc3e37a7d0413ca5; 0x5eb8c9ebd7c60a053636aa3c021a88f4c34adfb8dc3a7e6ce9716949d5; 0x4577b664974248a1c7f8b6a244ee5c7ad7d129e47c761c0ad05d0a9caf7; 0x2ecf262ca8b074ad28f7d4e85fe13694a25468bc2c21a9af73b0e7cec56; 0x79c79acdc0cfaba0e17fa7d6fa575cbb7ad5419286500fc531cf8bd3aa9; 0x6e70edc85db1564b695da7ee780c4a03d499ea68f33f64ba7a281f1c279; 0x11da57ea58b955e00c16a6253747ff327dd7938acd3f0f40ad97e7a5d9b; 0xe2afe09df7f6349427f4db0e436d6af4b79db04444424f49c8a9e04b96a; 0x257e8fb5dde1804b8f583270302a82b791279de59eb5c80aa7f755d2473; 0x28a7c7aa0403c44e9070e1afef23f7b0035eb0322b527be67e490373e7b; 0x5e84f5cdccfe65bed717999f8283740f73c26ac39454fa5d748f58d128f; 0x58025aeb18f0d422ea0aab04241439e02e91ffacf9467ac87b74769b306; 0x16052bb824e36e59f11547254c68107e68fed483026ea789bebbd7b5f73c; 0x6b1bf965b5a535ca28a27c488f98261ac499954a247327bb3e7d8808439; 0x9fa8007cc44a0d292c9353eb45b28a5beeb1192e22df83f3512356e1ea; 0x4fe7edf8fb4f4a460f72fdb9f6fd7aba6992f2ca0d9169e0e887fb2df14; 0x1703e3c4ea99cb25dc35892b957279354beb7c34ff0a2de2c7b8b0dc75f4; 0x52d83b3e75199a83bf8bb47dae92818fb319968f069d68b657cc6934284; 0x158258d9c9cb95cd2e3ddcbb9d6263d551fee6cfe8cf25f6f23592f10ea; 0x2f58246dea4a487c2495c84bbb81dcb26ececfac9f123e43f8d9e92d5df; 0x4239802bd3f2fb03ff6e1de4ad33117ffe19a5bd0ca30088a665f04; 0x34e85abdc54ce8b3899646e1c4fad9abed9301a4c176be1ce033faa2d5d; 0x2df12ea94d1aafb37a9cf1b043af4bb9d462810874e54072c00b1848137; 0xbf8e4b7a68df7e1b16330b8c96693fda247057e72879835094fde749ab; 0x541f5cee8144d50d48c40fa2af0f25656603694b00ac805ab0ab3b37fb; 0x2324cf9a951399912f643c85b5cb8a40c409573500fee62131f834c4ff5; 0x1c5727f39eeba1a1ab424ae930f72269d2e6f21ea731ef9af72cad6ec004; 0x562064f0046bb0662251e60495b375ad91774157f81b9569c0c9f4614c3; 0x4ec56ae48b4e9200b8c011f30981eac5a06e5383e6532aaffded8d1d08; 0x3a1bcd66e46eb14b7a1a3ad12e08048728ac4a86aeb37e7770bee3fb45; 0x3cfe9de87fe81f8358f561d4e6c894cfd35e13e4dfa8daad67cc8c2ef83; 0x56faecab73161f45a51287ba76f47b9e60c736b35bb3de19f904481b949; 0x11832457a3979035dda4d4124bf657440e881ed83af61ca57f3c9677d94e; 0x4116b9f90999b29d4d08c22d994f96e19ebaf8d87b1f0e4c32e9e107ec5; 0x65ac1cae4b2e4e857fa090b1735edea70ccd3f7b6d7b409577a4dc87f39; 0x123fd693f2dd3450ae5211a522a8878022a75243a852d7e0333200a0b82e; 0x62ee20af5ca9109957d1405de2e6e3cff1fc44d46406ecba97f45f63af3; 0x96919ceec59662e4c365fc4f6127ab5eef1c58fe5fefd95d579911db5de; 0x1a9b43b172717834f07064969e17921877f5ceb749a03a839865c4c6f241; 0x30b8a6cba9ed928dead51f0375af02ff3a07d726165912a5c353ccf7bda; 0x2e73c2d0a9d197f0bc9175f7304521b11d450b8d5bccfbb62b8edaad1db; 0xe0b589cf35959db2476e710de2205929da8535cbe8d4d81baac8af24f05; 0xc134bc91d6019cb92bcb13cfd0e48dfa21781baa319bec8994933d3cd8f; 0x3125ac99c20dfcdcc4edeef5ed12d65f5f5e3d4f3ed0c53c0cc1b20f906; 0x7fc2a4a92ae91bddc0bb4c2c5f8ac557c4b52a53e28f055477f7e836a35; 0x2ef0f9d65acf5508f7a717c1f000524c487c90d511f6ea4ead06dda86ad; 0x5f5aaf0d050ec6255469e072ed6598de9282667258cc58ecba63811fb05; 0x670ae5e097ee49795d1fbf2a2488e99479dacc94bc3e346f26a9cdbe8de; 0x14b140c29393a5dd9e24de152c8c20afc275ebb93b8e0ae7fc783fb662dc; 0x23d6e0cc61e1a3288a1fbe133a6bd4e88e7c7ded4cb06967a2258bfbb43; 0xa64151bbfbe96f745e5c4084b6d39180e0548c8f9635f0d52c1f4f389d0; 0x161a97ac689f0ac19e5562aff5a8e6b9aa62a9ca7abbb23832dcfdc4c68; 0x175c702549029aa04485292eab5ae68dfb2e93f6e099da2ee96875ca622f; 0x57cf9da6cbf771ff4150ff061b30923489f3b35829aa8eca063c6f5e2f5; 0x3715a8678142d271def9c2524c9ff4d56a9c21b7992be70e6ff1091a3bc; 0x4276b94d8f0f6eacea5c816a377f2ef92f33904e0f10953ed1285b8917e; 0x5545b6f6df6a3aa145e78006ab1dfcb8d322f7e241a5ea11b287a95c976; 0x6c45534b5c022dc8265ec583519d97a667edba197d90e51f44e16e6ec85; 0xaf239121fceca686669f77bf4c44bdcecd37e11ca6e3c28c666f30ad600; 0xf3e71cb23c5f49a78c7b3c955b1491b950fdb3242ea987cf89e80cc; 0x8556a94573ea2a3382e65afc800a0e3c3dacde2690b6290d0305ee6f81e; 0x48f7e450a339e569d46323bd843ed9523d4379b5cf24f9aba192fd63f3; 0x32b03733281c637de399c3a46ae013680d695b93b34ad902c1a31d7c92b; 0x7a6cd9fe24413a2cb3ebd0fe2e1ead9c333c891568a194cd839eaf13dd3; 0xbf1902f9f38146d689816e48564c69b68bcd201c0f9a61ef29603ba28c; 0x2814377c8807a54a959c7042b7915966dec4a5317569e9e0c9c7d60b25; 0x28511d95b4cf2e31c174526d997fee9d8e5e1fe21ebdd969a2afec95e83; 0x388674b6c08ce513b68fc55114bd38083a45f8eaa6dbb54cd07dc8c9f5b; 0x1b674bc721bf69a150bd9a5f3edb69e6bb6248d4fdd17471dd65d7bac96b; 0x209500f397594a47ad6e772e6b6080a09ffe188c0a02f68ef8f0aead23; 0xb8201816725e0289c80de090ff577f08fc9a17f63d1797475ebf492f8ad; 0x230481673d210b59e481cc61908fdde4d9df8bba0b25fc9dc2b74050a19; 0x12c6622fcc4f1ae72e332b639aaaadeb8c96b71c5bcc00708bc720d5765d; 0x18e341bcfe6a7740b34808e7e29da7d33f9ea29decb6c0ca600ff621fa; 0x81854e18d146ad3d5d4724544482a39fe3c82758273eb2a52b5dff6dad; 0x406844a8739bcca4ac288bc6c9e9236cce7b102acf8f17fefb59923c26f; 0xc1473013ab1cf9b13496a1358e1209e76d56a77e2ba9e616bae4adfca4e; 0xf718d83031ec74d6eee4ff7753db1e8943fea1ac5d0e737d5c94243c85d; 0xc678e7a6b053c35471fbeb03de4f972e3c3fa098508101be9aa168a6512; 0x4dd8b911bb16096947f7f00520af04403e1101a8fbfe50c3d4b356347cd; 0x1241f957ed2f71306e76865a16d7b27e65911474c35a6d528f772de30c8d; 0x6f036678fb62600276f54b29b85d0791166f601a11fb1368f49cb384811; 0x4aebddecb6baa78aa0b7faae95e6c7ab4031c7ba5d9838f8a8622501ebc; 0x16548f5fa3d6897bf09bbd5c0854124ce8f6a9e95d0eee12caa2ad4e9a75; 0xfb98c1c58f644b1566a3434d581257d74b1f4e61288643f9809c9581f7; 0x86162d41f58b6292ca1d9b2c9acfc3e8fb845cc463be9f659f7829d069e; 0x8801ba7e18dbef6981272a481a519bde9a46576c7229fba3358763eaf; 0x5020167779672ddff87d0bbccfc71b2388108fb41b19808c0646e398b2b; 0x76d029609f76f56207bfc640a92c851b8db352bac17636668d61975c22; 0x3995bfaac329aadc7ee5acae2d6f150a719ff170acb904e38978e48c71f; 0xcb850b5072d8a569e79e409c17f344e72a3453d86c5ee7f21a9877165d6; 0x1c0b86b42cd12f35f97ffbe48ff3f5b183f27f2a46f5af4f30be6dbd70ec; 0x18008bd8878d3cd26e2d2d105149bed84309bf1e1366c8ec0945c668775; 0x123c50014f23b80d99d3ce4745049ae8015dc197603133eb3fb2bf16d31a; 0x2664329f11e68d368e47e863323b992433d4fa52bd28b06c16e75c8d69e; 0x656d5c8f266e75405f469b3394edfce31772d7c227d15828b3da3a49bd2; 0xc40449259410f3e0f436a259abd57e3b2de8c52a08476f8d59b10ff6261; 0x5e0bf2fa26866f4ef69e2b846bd32bd3853cf34c7e333621f6c9210b91a; 0x703a795446860dd58d1c4a11d5ec95b5133402b96da339174b8bb18b714; 0x51b3f8d4cfa9a7c55bd4dc27a1ee335b1219466d3416eeafae740d84bff; 0xa64fbd3a0f613df441afd09d17fa89fcebb258589c23a6ce2b89f81c424; 0x10b12d9cfe47b3484fd482accf12390244b341d79710ee67359062b43351; 0x4e2f49cb20c113f46adf4bd4b24f7c2d6edd9d6d09770417eaf7ac5471c; 0x4b33ef2605427d3c7a1d384dce735c55ec145cb773c1c54ed576bea028d; 0x6dfc243baa88ba125f6b44e4baf586c6f8afc65a9e011667ef1d764e9d; 0x4293cbf7e5a48fbfba9fdc94ef7a5b58531f90ee1e02ad70f8a31049396; 0x9ce77c9f00f54cf83afd6aa17f4c6fc02fd2ff366a6a9e336e7b040174; 0xc0944aa1dd1dab2cea6d945f0bd36b97d8659f3c85c744437cf2555b223; 0x276b788fb11246e130087fac929d1a35e9852d0e66695b2176ef8d6a07f; 0x77c39b4bf94402ffd274e97b71b77a19eda9b1b755a6f5afdfec97429f7; 0x12f9dd41f2416d1fa7727c5441b629228a2b97ae9eb9410404aec04045c; 0xd3a15f075deac0e17c6d3b16096d5c2c945a9f4a316a422065beaaa5334; 0xbaf846c9bfc18ccb0037c01766b82497b111e95d6a071686d0274c32725; 0x1873201e1c9b7256cbc4ec10e4674637041e0be85bc3fcebd090248c7ca5; 0x485dfec6bccd6bac54e2ae363ee90b2e07cb3cff8531d90b3b5882dfa8; 0x2bbeeab705e27ba5f897de5876247e56776984193eeb6fe3e83088a2973; 0x2049df328f0ddd918661fc5054045471c4d1929c6ffc173a1c05ec6670d; 0xfc5e64798f114d87cd41a392263525fdd706cdcac46a9c7f7e2b6092eb; 0x196ad15277d737da0363294f0894628bb657d2123c2d3fe2ad92661717d0; 0x1bb596d6aa29cb4c1df05b8adc27eede5787b4d4a4c1906fe12e48b596b2; 0x402a217e29efa44614f2934a84fb2a59631845ccf35be491c1bad65b11a; 0x332e5587ec1b73f3b9af188260c50d9335e1e347862503cf4c034e4eb39; 0x1266d6b35d857e102618bfdaa38bcf2ae48f24f340bab116c2ebb9764346; 0x2c42de32a726e32a2a42683212c6422c2d949933ad9cb2ca4fa2c3c7a2f; 0x6077a8375c92af886a68ea6946d3be51db11a8c1f6da0b21b9e460bb7; 0x65b5f56c2b04a08add3bcbcf1a4ec387c0cbd7f520f9754d7e5ea9481f; 0x11b10b5fcccc25340a79dda4d8db7e325cab1d1ab5d210b216be54d16f8f; 0x5b07c7724f058f0ea6fcaa0b958b498b9b53eec8212dafd282b47a973a; 0xf911e04d0c0fb87111f4d77e50136e5c6608cbd91e2ba4b7b7c97b35a; 0x1b68c9b2116e583acfbab1b2eaf1944b55d1cd390ea7ad6d056a219740db; 0xecb2492b38cac5bcf9cf2559f49a82098edf74a440204a3ece4c628ee4; 0x984e180b6757b092375b9c5cea7ea9600db1cf5786810b380beaa41ae6a; 0x614980567578a5247bbe17d1cc31b704c019a4f84f9fc977a361528ada2; 0xacaec6408310da67015b17de1e5454667e7a33fde00acd541602907703b; 0x3feebfd079e88c221f78894486f1be5390883d52686d39e2a08e5cfb62d; 0x1bc19c971cbb483678aa36eae76f48c40fc98a810cc7fbff32c75f956a1e; 0x694de0bd504c32141f8edc8387dc06109041f452e5dd7dcc8caaaa6c8db; 0x12abc1641487b071c907cf48189cdafc03278fb24471327043ca2b0584c; 0x4e2c77a9b3dbb633dab0dced706fb57fab541218b32218b2adcddcadb06; 0x13d3e297d854fc08466d08bc219075215fa5e55f5d41e5473b9f4ef51586; 0x79b7cac616f8be2496d952cdcea025d74484e146002da96a2aa91539bb0; 0x14d7cbeaba1edb3f64f383f286dac7f0c912132a7fc21274ff0da225db6e; 0x2182e49956d8969dd530a5d0865ca37afa9f6ae94eb157a0cb8b7f8a9c4; 0xbb4a91b52af984e488c66e4f32cacd45c777f49ab81cb499fc1fed80f1e; 0xa521b7923f2a2de4821a68f6d2b9d64ec425108c399e3da8e566010a69; 0xcc8a8d519dcc3ef55d7774fdafa2efe72c17595c58c6d410b5026578617; 0x5edf2ac7adc93a519847af29c058f2c2d6fc620507a6d131ea96fd1925a; 0x2b6ff5625174b4f5e72d4abfdfd09ffbafc24e86bc07be955e0ff2e088; 0x20c99ea835e69d8a7fd450a864e0d493993802f45b79cb257b5d59f71fa; 0x21cf2168680901a56941a33efc955dd65e057e3f771c9625f6e492b2cc5; 0x4b2c11b94b9a8f3bd3fa50d1f3bddae39c8d20983b2a589ec9f9e1c1b69; 0x824ad453ca09ab140324d13b9542494f89e0fde97ab4041915a484a8080; 0x153629e5583d6f1ed9637bcff3c84217496cbac70aabedf26396f578291b; 0x43892c1795cd9c2a68171486db5dafa089e5bddd4b9a1a834a64ec2eb3b; 0x6a42d551ca5abf924fb1b68cb5da4b6d38535e6aaf601aa0494ccc1ba6e; 0x1ab9124035e15c09933c773c4f14d22716a370841d3f3ba9c283d82a675f; 0x385b9e1be303de5f436b7d54a86d0f919ad69263ab71eecbf6cb685f1bf; 0x8183ac1ca3b5dc8b9a1c6f439440aae8f077bbd8f9e66fd17de377151cb; 0x2aadae943849ed2cc9029caba113ffffc7518e96f330a193a5e0f9ade96; 0xdf80f147cc932a8cd7ab8275dcd620318774a1321011c42061cdb51fc0f; 0x84ce650c2545c5486005a61d0ac5dc4dc6603beea0a22c3aabe638be706; 0x1725e5d4a92567845243d0b930c3a8d9af657b47f049904998a4ac46da3d; 0x618ab5a7a120114f539995a0c40bc32e1674ed4f244c54608313e637e70; 0x270c2acd3217bd58bd2ce5597465aeb8cb4509ac4598bfa1171d282134; 0xae54c5aa521d19e6b62d4507326fc6c9cfc83900090fbfa1ee441214397; 0x575aa897f92aab194dab8878d70a5b4a2be5cbc1f2c17d4773fb2ba83bd; 0x19d2342414327fac3f60aaaf7a1e0ed79b70a39cfa0f8026a0bed1b4afc8; 0x77d9f5a77debb93efdd320304cbf8ce3b328ce5fb67310358f44ca28317; 0x201e584abd3223f2c3236f3130fb65d52fc1e2cf3ca75f9022d2ddbe021; 0x6c8047394fe7844bbbf834866cefafdb9953fc921114694aed8d32e6b0c; 0x6ce2837289ada071c75d67e5a5ecc16a5d0de4099a8976a0b6bc5260395; 0x3ee4b0d24630537993d868aa7a97d8e84ac423fa68702cd759e714d9033; 0x12eea5ccddc380ca6ce430d20c664ee571a9fabbba420441fa3286591cdc; 0x250435fc2ffbfdd6b9283c70606a13de0d45d4adc8fa15ab81a61b4907e; 0x3354ecfe776edf8081d20fe7111c326ed1de72c8605a91c4ef9bbfa0e71]
    0xbce1bae6645f252963752a74333138f457aaf3fbc9c842fbcd0b8d48aeb 0x30df27ef44f1b0d7c0e67e1b615d72f105e1fae692a5c772c6dd0acacbe 0); [vm_compute; reflexivity|exact prime_255515944373312847190720520512484175977].
Qed.
Lemma prime_115792089237316195423570985008687907853269984665640564039457584007908834671663 : prime 0xfffffffffffffffffffffffffffffffffffffffffffffffffffffffefffffc2f.
Proof.
  apply (check_ok 0xfffffffffffffffffffffffffffffffffffffffffffffffffffffffefffffc2f mp mp_ok 0x1db8260e5e3b460a46a0088fccf6a3a5936d75d89a776d4c0da4f338aafb 1 0x89d2a 2
    [0; 0; 0; 0; 0; 0; 0; 0x80000; 0; 0; 0x200003d10032fa350519c457351f7134710d16bb; 0xa518394b870494dfcc16772b86f107b16ce9f20941c6db46a07a0ca29a54cc1a; 0xff31e233d71f1785815438131bb37755fbae5618ba535580721b6b284fd9bd95; 0x15fbf89d83e0e5dbc34c25d09918a0013fe949dbc16b5bb543df7bcbe032eb10d; 0x1ca31ed71ef6f603435d1c608fa1ef4225118e628760fee05f78c48128120049; 0x9e83586ce9a67637611cd407b08afeb026f00792f7827f1059f5d50d5a89b87; 0x2b3be701a81bd31c49e50b6fb4da2a5b7390725ed52f84a64d534f2a9ffe7d7e; 0x16f6363476f589ce05105337e33102c25cd62384f6f2b93638ddf6557a516fe5e; 0x2b95706e0b742cfea2e356c1004983ba2b09fbb4a4c701ef1bfd7b2ff257d10]
    [0x115640679643239c2cbc495100608aff2875ee9b9186973c499ff0eadd9e195f; 0x303d8617b1bf77338660ef4e6c4f55348d32619ef569fd4c7d093e56353d01a2; 0x1e5f56f58f8a478fd888359961d5ebcce7ce54cb6edfa05e2f7867d7fa4f3089; 0x208ede98a79d62288daa50c9f78a4af1cfddeae3ac34b8558db98f626efe8725; 0x1ec3b13ce402afeadb826303c6ba827261fa5a48267512f570df33b1403d450c; 0x985ff30479377c2a72b108c0478863dfc6f262f08c573832a44237787556b151; 0x826a306a02cfd9fde2c4ccfd572c5b50e788e8c5997f879628b867b3f0e9dfe; 0x3e68017ad2ce03391560a6ef9d56b5fbc68d3d958ca00a17c13554b9cf51c; 0x240a4af8b8b085d31a29c8272b08e725c4d5bc595a302779ebe5c85a5c9e1f65; 0x315b859b7ac6e414393ca5d91450d3ef0c6822af95f44f903fb4593abce95517; 0xda81bf12551e2b19dcaadf37ce40aed8edeb5da18d6b6aa1fcc5449d6541cff; 0x3e6fdba94292b3699faa7c7b20d602c4450319b9d13b99d663fc2db002acda64; 0xddbebf2d23762f9a89ac736453de8a016313219f6efc137905e2213466eee576; 0x23eec64af07dc1027eb65ca48a871efad41295ac155871ddd2212fa1777e8198; 0x5210af34a946c11b77aff416155174445cecaa82574aab8e2adb52f823962a12; 0x3fd9704c18e322bcae881fe09aea466a2301608156225090eae1acb69f685978; 0x163702795854588380a2f71aa4e898b7d8d9f0972f303cf68ff5861d738c24d7; 0x196d642eb47d749f1bd81de55dea041201c90349302fda45cc2d1d238d2925; 0x4ddb650031417293aa1a2a829c1d0c3f4d71c65c6f8a711a2caf93ff1b68c9a2; 0x2245a0efca3fa1f3c27f2a69a9af9d9c88604ed35086a6be119e0bcb3900408d; 0xc8734a2d82162c44d80d789a6cebe27abbc78468e58895c76eafd2b4f8e45441; 0x28b94e04716c05b1a1d8217fb7b55c5c70128f25ebbdacf8d39db2b5c96e41b7; 0x2b8152814d89884ceb2eddc391607b0fcdfd62918299a27df69d58a75e598ea5; 0x88ca437d69c71e49a1fe9ca27b7c4f6bc7dc9099de715b1202186b4052f9012; 0x64a2c1495351b55d1f46ae2e4426bbd2653e6183539409fc87db9ece9e1b9a4c; 0x242515035f5b80194ea98daddca1595d17256232ef6b058dc2c204bcb2570330; 0x3a925f3a54c4fdb1f41efa43586e873b681938777d3b0c133742cf55e896abc1; 0xb2a07cbdbb24f8f6dec194fb79ad4be2b6bd5730b0304aa6f97b2d8f663871b4; 0x3b3a61c378a92bc7ca01cdf4ad37ff3b4c96b81c9f0376ad241ad3462c73253a; 0x42089b174bc40af89a5b835570ff5438c953151e55249e8e8c83a764888f1f59; 0xde85a28540fee39a2479283d6f189fab7658bc20654fc691e6196b978fd2a1e8; 0x13f5cb7498dce99cb118a77a4986d832d0e6ff338a381c3f088d0d3317a07e3f; 0x9d958105e418bf0a699f7554cdca92957c7a0b72bdeaff767039b8ced4995e62; 0x702d24869aec3ac344b79467232ddb35984d6cf73d5f1bf2482998812026a461; 0x3a8088ec4bdec4afbc23351865c09417b4cb779927e54bd452c4825ee7f7eed; 0x3e4543efe43a0d73d82a1c20031b63579b7f77beea5de1a2c1139d2eda90700; 0xd37cb164081929c2e9259976349d01bd249938685871e5575bdf749d430caa69; 0x36450dd5af8f75ac5468657b823101a47172e637e6c5c2f22ac3807b91021ff5; 0x134d509b1d570a11e52195da44894ed7b0e18d9b186045359d56822123d67c81; 0x2c2bc4dd0896057e55294ca63aa83824d87869210d83c405cf42facaff20b5a4; 0x5b7ed03b007ed82e11dd1866eb54e5d2e83a7da428c7213146a6015caeed4e26; 0x2bc6537afa62717fb9200c9afbdcf2c32acabf52c1cb815bed15719c8fb223a2; 0xb21d402b8d5e882aebe6b95e8ad4f895fab10435819c7fd8bc342383151388ed; 0x3ed5cfe62d80b486db4a1af156f62c1864912e1819533e4d76be3f12ae1fbd0a; 0x38b3e4154691d1f2552ffc1bcfab83b073c7bd0a28f6db7a32c1849fe9e4d25a; 0x2a0cb017a141501ce99b6271ca760f00d32e9912fee762fe6d72666d366368b9; 0x2f8c8f64dd2b6980d2e6771c8da8c736307d488f83b1d7ea6ce7d348aefe6269; 0x1b4f3b2a35ad21016b4c033e8f5e88518981dde03634c38a7cfd3fa45145b6e; 0x231a82f97a6e1872ca69bf1bcef0287cb729904e60b8c5e734fb0c0957422e; 0x957a85c78fd7ed522e2e5e2d56078c2887ca9bbbbee432aca662d35d7d21a91f; 0x2d6405580305a080196a28bf969952a99fd2094232b250ddeb6a642332247811; 0xd509c4db92ae774fc175d3777db8e0f43fd6d2b829787005e1108b30644a2508; 0x3325a6d5544796d443ec3bd113709ca7eae3854f0a281dcef4f2f772e5c4564b; 0xa64c7bac69af6f87957deed088794b131ee61b825b64875f0b2c6864ed71ebe; 0x562155f8cfeb8c1cdbb7614580e183a2255a8fa6df82a0d0161026745d4095; 0x3d7cdaab17593ff4a8469f8096e81a837b393e796c8ed09d674e5e9a034b0cac; 0x37e6507ecaad3860993b6efbeb26c08fd32047ea7550cf0b26a617ef10bc27a6; 0x1325e44f451bcd0359d15c95ba3fb11c42c468b1990ce762489627cadd2d3140; 0xb536f4c3102a66033a1a24e638bb4d200e3c83b2092df02c946c7780c8a6729a; 0xdb8435161e3241473d65efb3ca72f486692a2da307e32adc16309e988a1d41d; 0x9ecceb2c0c07c77d53ca5603ac2fbb42a55ea0f8b352d86815af6025cd0d2051; 0x3dabf444d6dc73bcb51959dc4824bffcfd1e82ce2bf96b1cb7c0a264318286ea; 0xc2baf2e418c16b98d15ef941030e8b1cc095d97048021a0003665cb0dc66866a; 0x2493072921549c80f84bb65cb3afd8f2dd7713b9f371eb87e5a56fbb8950c84; 0x24c35ff927b318e096227350dd07a8f6ec30a1022144f66fe43404976f48acf4; 0x3020bb229c10e7e8e20ca90ddac86985c11d51264e60bbaedfc85b13e77d7d90; 0x32183ce4ad774657017c1925cae3225826f8e053765555cfb68d14b10c51ef8c; 0x23f961c8f03ae188470cf9d55a22356104ec58ab4ac67e8edc319ce03b559df; 0x253cb477dbecc90efd33d7ca4288ec951c9f0dfb737d84d59486b2aa23fff2cb; 0x32c37680e854d0f96cca6cdeaa8a64d417f8a53b4da5796d5f83692ef746ca50; 0x529a7b40c8971902c20dda43ce527f25695e5703e57d6f42922941b756e56981; 0x84c801cab82120faca56ecfbedba755156b3985bfad90d42d3856ea8abf1e218; 0xa8c5c79107b8007077d7252944aaee19835c3ad8f1f2de7ca30c4636919c481; 0x789e5aff7309db7cf3e1cde0ccbdc178633f3933b6c0efc929ee7012f0b58655; 0x687590680f72c143b93b212d2701a037dc2bc597d73738c26f5ef83697bf381; 0xf2611435e2e4d34ad66d167958da15505fb9d9b5ac498254f343adaa82133529; 0xc203e7fe348faf59b1cfd3f83504f48e4aaaee88688bf4a1d4e1ff278916118; 0xfef72cc7c97ef5f695e9e7df95b52a0a3b5e07debd6767b139b732a071fa1bed; 0xbca2cc1aefd8cea5e812873ab60dcb21d5fbf600e18fed6d94adc5c5660dd2b7; 0x769e7ebae368119f27542f56ea13796787c5eac79186c553a51e2c11a84d3db4; 0x63156bf0625ae415e5607895c76b52c15afac9183ce6449b228da901fb3f5f07; 0x2450cff79854fb15035f98839b6f1a86bfff6b54f353855dc8dd3b92d9e20300; 0x5dd974eeba1268fa3deaef4cb0c9c8d6113cfde86a79f1a7b0b08749ca8d2b1d; 0x1db720d9c8d42bcc42d244f394a698e80d1f62a54d15a904fbd7603edbab728c; 0xa80e4940a9015531008a56404a575d10152c6ad0f804729b82778374de2e44; 0x5282098f249dc091d726e5f00803b642049832fd992cb82d3098d3e816559e49; 0x180daa143efb4bac798d7c2162469618530995fbbfce66a3b581d0b473ae4db2; 0x7ea20d0668db853f7bcd50a7ffb0d7a096979f2332bb751b9e94febaa419545a; 0x297723fab903a9cac6820ed66a9bd7efc9686b38ebcd9dc5e6a4e2b75977e5c2; 0x314405b827724f4947b90b5517ea0d90cf422a3847f4be73f4616b4e0ab5401a; 0x2806400a9e5d54153df57227b118c7bc1e51603c2dfdb3cf7d92c19a53a82d0f; 0x65744ce1d048609937d003825664530cde92c1d2391f818c869b26e846318df4; 0x1ab57e299d11998bb4489a810abd9ac18d2eb8ec4ffbb2a536d7a3b2640ca2; 0xa5678e3c9e6dad108e64b72bf02645484e1ca073181e851d5e2e393dc4af3; 0x7c367aef5988eb3a24ca686c99a932b9a972cfe83673af20c720a504115119dd; 0x400a6ae6a737b8925741cdfaab57e0d91dcc5685ccbfca807d87f47067686df1; 0x5cce1d5c45bdce9288ebfb8f68fbc46bd770224201a3f552d299c29039144ff5; 0x38090d61de694a5182e02177fdc787112943b2cb71d873da7fc0339f79ef6bcf; 0x141b67de94fa1a480c83bdd78587d7a8da8c9cbd09ea2c9178ffaab3e7042ae; 0x44a282d17e40dd4456a85ad535dbabff4a412afb869fead6f1a8343fa47ed55; 0x11e7777e1d5d2e30f935e1f3d0e17c7c960efd10f7738f41f2d319b44c2e18ec; 0xbd2b0be3cde3d69085e942e0b5ad69c8026ce12e8159d1574f6e9e4e2292925c; 0x98f1f09907d4c21f553413a925991b86cc85fd90db359daa317f28b97b86a03e; 0x1a1952ce64c663f5c351096659950cff91daa20cd98f26fbc16a3b002afcddf3; 0x1dca13f9acaf6b3e810e57565cdaf5e7ff899900138e55fbd4e6afcb11ffa36d; 0x743f5aadbb3e4c82ee610cca64d8647c05f7b0fec911b5919d04583c890fa163; 0x1a816f6139ea66bac6d3c298dd0dea96fedd7fb9f952f7d8940d2f9dc186f5d0; 0x4b1a8163a55b927c02d9118992aa3ccfa9652deba5a2fe4c729d06c6c35c52fd; 0xb110c13c91446fe865ec13e72aacee0785c4cc9a9c510654de672a9a59295610; 0xd65e50e9570a56003765d14b80eed6e367ff12054dca3fba57575e74f01966c1; 0x21ddbc89a3280617ed9939580e958b8862f61ef293e5f9129affa2a59c8837d5; 0x141d2d552046e70d5aad9f2f8c10de9dd946089743ba5c28f4e364dcbd21fdc; 0x4b8817ba382b809624d6a1cffb1995cdb8c51dda3e24bb002ed0a06233c95c16; 0x5ad37d6c3e27cc9ef1ed65dc6c02d98f7c1e41f700bfbdef3324b5450c428df; 0x3f97ab85e9cf0c100e6bd815be728eac2ad67df383fba4f5f04fc1f02a497b89; 0xf720e938283f343931d0aee5bfefc818b768140a7ef35c6c027737ad2e9d2308; 0xd0c9157dbcf58211498c7ceb1f7eb5c02e073093944407b0f600c81b68d5d5a3; 0x4c34c8f6e47f9ff6fcd4ec1dea6f3b3be6279763faa49b3518d2d938981dfa6; 0x1732a7acaec84220fe4a3627a562e83a816c541c3c004e870265bfa8447570c; 0x1f2fb252b3b6843c06fd5ab186b7cf9095d345e626b03d7acd8e1cd6d8ab6a86; 0x91641ca7fb2ccdcdd12d9dd62313d39f47041c9bd1fbd9e429b7ceccd02277a1; 0x33b8c0f8bbdd845f1861e5246b4f464cf31cf499438318468a2d90e6c4133ab5; 0x168bb54c582b23e8ceec4bbf56c8f43a3ccdfa2e71cac51766b1e617b14935ac; 0x12231f4abf325cae595b689e2d90c980aba90cec3c5702a8c367afb41b52ddc6; 0x1b7088ac101615efad71d0f15675c630a3769fb2c5b3725efeeab2f547052a5; 0x136b1c48513240bec397418f2e9cf9eb3629f173f871b64900c408849d38d58; 0x3bc40e1ea1986003a702d6c12bc091c87ec19ed080f942c05da0210449eef6de; 0xe514cb7bded85d4f4cceb09a93c1bbfc6378726bffc5823b2d50b2c34a457157; 0x364f83d53ec5b8ef2dbad265fbfd6b6601dbef8ff533eca5153cf746ae0ab13a; 0x199f4b10a27bfa7194ffcdb29d09d065eaabccdec78a25e6291a320e192e5a0e; 0xa6cdbf27db8c526dd684509e988ee1430c14a2453e758eb3d8f63090dab153c; 0x7bf172dfc5fea5187b7914545cd1b8954f0844a5ce70630e120fa56841d2c4a5; 0x311d4ea8bb243bcc6233f2f7fd871336df01b5bfed2545467745beee8db86a3b; 0xca5d9a60473d8760741204a5f9a0ed6ca9dfc986bf5260e86afbb0550c35fbb2; 0xb7c6c275d55c904bc63ff5fe50505712e2cf8871b1b9be0920791181f06498c; 0xa29a06b91956ee189b432b48b8ef8e09fb2c274395f3ea43b6992ebe01347fbb; 0xe28e7ac3f2f9d30eba620799c942115692f9014272e92a33e2d26949a311d522; 0x555bb6cf2be36cab8ed6fc064fdab7bd284f7c66499fffebfae3ebd2a7759ab9; 0x29f14fb62fc0770a9ab69196246518fb29f84a352076da7e7af0ce6c851c1b90; 0xa45f03ce16412c58f5b0a92b68abd4367021c1db32a01479b02e82eda4874a48; 0x17699e31c96448a5f78f0a96eb81cdfa6cdfcb1dc662e5611a80e41a584edd; 0x7f191200ba1b37a3c60a6ed0c13eb6639bf65080c4a9605cc255b57e2de570c; 0x1baea6f7bcb425160d241a5c9cd9f4783dbcba3767d4c6b54ea7550bf8221421; 0x4d9d508105c99a669e37df22fe1977aec7cb6216f2050413772ab2913d76e71b; 0x16fff618264df903daf6105d7496fe904ae27b9432f8635547118be1e136d9d2; 0x36b6ad714b947a26fcbb068c8035a94514e59f5509790218a7e16a0a939a68; 0x1b34687bf434154210e33d759e276eb9c9a62407cbfdef69957ebb7e3a399be8; 0xa9f40f70ebf20dfa3cdb23ba6d08fa1f625f1da3b381a9f3ca543e8bdea5f9a4; 0x3d3604c6cef4f1a0f323877fd0e439380a629309b5c2bf9dd8b22242d0806ad6; 0x42b5880e6964102251bce91bcf2f2b3b03be341fc10fec0fe424667f36dcf1b; 0x28331cfe60d9d0bdeb5ebfe62aa61ac93f98590c447c6c86656f13c09cf9cb45; 0x6187d6c2a6abf89d710ed088b0b26fb32e75dad77883be9268b37a13e3f0275; 0x3f4fbe411f9601044318c69df6cb9f0efc3e631f9126af5e10ad7bad5f06a45e; 0x1e112ce59dedd7e8757859c133376d6770d228b1fec8092ed62017f13d6e1736; 0x826e0efb5de0154528c3dfb12f181090911e8a8d09836e8818f5a621f2b06ad; 0x2a57a6d083bb7724f5f06e7615d827198f017af466a9060fb1849222036bf9c8; 0xebc954390e99e6b7f4fba854d85af4381d3c211b21560bb6fbd889356c96df3; 0xeaacbc068deea8ffbe0a9a130839b8d777d10d3a417bf645ee6053a7c021bf3b; 0x324ec4eea5f83d08e99607ea9fe40d878950b57b09f52b0bf24382fc01a950ab; 0x621d8e2e240c186d56c50b7673ba0fefb6968ccd4bc557a19977386cfae009c; 0x61b38f76cbb004c7167efcdad94ef599f6aba1abc3e3df6d8ed46e278a416fc0; 0x1d2d07328d40c8aacc8523a8512ce4b71e4b99624e16aa6c45095f2d495c665a; 0x359458a73378d144e69c9e1ede2e3536b062cf4e99e0f028704e840eb8631006; 0x3a4a7f03e491e661b4dfb073f8c3ef897e3ee79a10d133fe23d997ea2a653b8; 0x4f2bec2195ac058c937f1d1644233a79ba028715331e71e655cc31b4f9472c; 0x1baad3bbcbbb8b0fbe726dac71c218feeb178ed5c3dc61d8922673815b6712b6; 0x246ecdf8e3eb7ff9dc56ac34fc309edf849e77604bf939fb4b6dcfd85f137551; 0x13e972d3826f9921522ac3fcbf7869d919ebb5b1fe75b3345b411bc5422ca892; 0x115bf57c5688e25a845bb120fdbce0c7960ccec16ff6a9d7714e5bd36e04fff4; 0xb818b7de540df978d48d74ff78736ef2403302987d8f917a5feb63c2300ef516; 0x3a649ebb1bbb5cfa589a1abee8ce979003d92211c54306f10fc62031750a977b; 0x2e235c6fd2890139c753cde5b1908470ddb7e87db11e1923ed7a0e628c834bb7; 0x134073802a8e6c0afc8afc7c9a20a5228fc47e458088b0df265050e00eacf7e; 0x19253141a3477ef63f024a5a5766a1c584867f4ca20fde56998871affaafce77; 0xaf9bd50657dbdd0410f7189b6ff0bd24ba38086388f013e88179e3ad0f03; 0x880fea18363ae8b219a104363a67cc370d8db0ba3d01fbe0b8bea372ae42f0ed; 0x17478873d152cfb3c3276c87cb7ee48119dc2ea1004433cf887cdb0a85d6ab16; 0x33eda2643ac18ce24c3c2a0ac49679bb60895ffd8a1bb0098f1dcd3649b51b9a; 0x383b43bdab46c3da2a7242d6e5e90894a753337d945764f577d57190609be715; 0x1f252662252708f91f7fbd8ed467192734b60501408173a6ee6a19371f571728; 0x234625bfe20d07afaedeb38ea9ec5ae10c425038271a72df99cab4f13f76d94a; 0x1a4c4afbe1f217be4b92d21ec5c36438c323723cbf34d3bd752a481680c8c54c; 0x4054fca1b06aa47836b2227f4b3dde51d43d6dab95711a7bbaee81b0fa941b66; 0xb5c4d8281642704067f06c1df4397b36afda04cd5f21d078b1397333688b4606; 0x5beabfc49587739ed309b603ed52bc341243af5c3af2bead7aaf223755de1264; 0x3b321beca0b059e8ccc5e5af1883138243885ce7127d4808a4df2267d65f12fb; 0x10de244fb7b23c1d17ae0cbb15e6e87fcd15a31b92140a37b80aa5ce01d3b16b; 0xef7ffe26a0e0bf89397825f07c2958824ba8a58e4706374d005430d1fb941e2b; 0x963f4af8c5feb567235937d762174260952522046367d6036b3c399e5c3e025; 0xaf380a90c581db162596579785e9ec6b0090ffdc12a9c04351e6703bf522e55b; 0x10e7293bceebd4fe152b968007bc7d6df3c9d3eeaa76a4e01ff939ee9e3ec6d7; 0x5d71d31cf2faa093716a7fc79d09186f801b36b5ac13d62b3b0441f0aa6adf55; 0x468e0370095a9b19a2bcce5304c11c23bea979e980080ad88c44230a160f73c; 0x160e03f173cbb61638770330b1480722d0738789e1d17f9b8a1d46e3566f3cd; 0xefd3f7a7a3b67f2e3b405523f39e8bda93ce6646c3bb4aa8370313a9a79e824f; 0x372f2a956c226647fdc9fd0d6a7b2a51ef99f8ef482f2dac8021489e6816a732; 0xc308d843f0d3c873221a425d53ae9fb29ee2246a2f1eca7cce96a8aec246e464; 0x2ee84f0ce45a23d0f02590d672e3b93aa9bb13bdf6e3f43fb984f4d5b4e0d873; 0x228553dfe3381e2be139920ab92f6fa14d51b9bdd7edc334a0db3fcf2fb39363; 0x16de0b83cdef8719e02ebbcad77137fd5496f7a18a5a80b26e030ea05dca95c0; 0x18ee71fc474af3854e500884295c295bef8f91ee67d2055f4ae00c979381de4f; 0x175ef7de7291626aa2004ed1c639ccbe5f0954546640d0820bed39b75b5eb6; 0x2be17c2c81398dad895c07cfa2b95f2f9e42841eb3e45ab829c498f2f0f1bbf1; 0x8f3c755465804842838381f9375d04e87c44ea02ef98d55d483805ee60fbe61d; 0x3d3fc15cce9f40df2b87873fefc0fe563abf2e143bbbece9973578baacdce0b7; 0x1eacb163f45815d6b2b914ad471be3446632f6a36299259dbd2a39147fc2cc01; 0x25517a8d2af4a3861736aefc4f3e65f26600c2938386d169763c963b8fc835; 0x6067c416323879688f1116ce4087037c50a153b3ee098e34cb2921ae1862b584; 0x3ed011a85311b9e82e9a7469fec52a52d6fad0cd93b9579c722a9204d299d390; 0xd36a1788de82275cc0b1503648a008464411a1a2614fccd8368f7660cf62288e; 0x12cc7f43dc8577d22e7491de229c77d30e2832e26a8bce6db524902fc70e9f76; 0xb3091c5606a8f84458acea8a6aa2274bc6265f9dbd1aaeca19f5a50476e8d52e; 0x1636f733456606e320b502fb57ac54b7069edec10813b79098f3a2fec5fdcd7f; 0x97c175f60c5fbcfdd3d4ad7a6e1f31eceb503effbc358e0d90d8ccaa18921515; 0xcf0bf84c60273806e3734264f0db13abecc3295b0b25679efdfeecfd78b7a605; 0x37807cf0b423e1fd0f85fe91b9c7af6a84e5be13c85b77289cf992516f5e01e6; 0x1391299f70f86de79dd2d624017c9d43c043d71d6f5f6f699e35a66df706a96a; 0x3f17f5341d5441698e151d18ddb0c4807bbb7f7bd1bb3440f2ba93f944d7be7a; 0x2486754827fe320945e011d324806679ae3d9435de61882a630ae99e9149078c; 0xb2f03b503fa6e9530840d8df8d75e40c436fc32fa1debba3a6c4c80f65496ca0; 0x839bef1f0863b0d60b98c20d1f24fa228704210f60ea91d52c8d7735a9317d9; 0x402cc358de392c9a32966d29bc90b7361aed5753fc74af0b29332b6e47424a7; 0x2bfaab2548f372394729e56865aec40bf4cbedd43458ca215d17aad093ec8dd4; 0x1d35767d6050fcdfddfd5af4119a650cb8f094412e22dffc1f80bd9dfcb1a3d5; 0xd11ead0add2868fc190c1cdb1300a8b3ecac4fd44ba8faa06c3e442f2b875ac; 0x18b66d8b199a3ebda4ad0af74758ec4e83e703b295f20ae04fb26e87fd6dd68a; 0x9a45a11dd381f4a08c2055854d6ba4efd15898861cb910c643b27b366496549; 0x9984cd906488940233bda32f17e3b9f6f866ade98ef8c67b313d53d7e382b3f; 0x77f037e76841c8f4808ef7122ee3069609a59978677421141d785f56c4666310; 0x3643ab4e0f48e1a5e70545ae2b0329039838985e4f31503fbe7646ac26231d; 0x5ec8fde93e9fca3849d82c40d5a5be9125c7d863674896f22fbb4459600893aa; 0xf5ecba7b7fbe3fb7768ccd1d87a98ebc160d4ce34f09982ad86de2195884cbb0; 0x34651ae5c4fe11f821222d0ea662c134cbc6baede57f576136bf02729223b21e; 0x5e7d5bc37b4a55ae87cbdece6eb5b686730be1d0dd1b610fbc5cc85489893af3; 0x32ecf3e1ecf272ab87c5b703bbfeb51e2a173d2c70cbec4e82ec5328f3b07725; 0x90ae10a957f1d300a51dfddd3df76cbba7c246d6026174e122da7acec98b14c; 0x18e69c05521a28d1373f8fa13ea45796c6764f57b19b858526ae03a7b07edf73; 0x32ce2881228c8e2d1849b28a6f5c7f5d3b66ce64868e2d75c4d2181a52ee51b8; 0x2eed46fb9c61de4d4cd57741a7abd97299774ce89e36a235bb171382c9c53df3; 0xae8dad302d4ef2bcda86ec3760917221021b3fa20fb1de53c4eebe56e075f0a; 0x7d1c58c2e34dd92f07f0e01c15a11a7b826335a957bf3458f35a6beb452e0cd9; 0x53d554a97295c70045c32e892510153b33d12b899f83200e125d1f91ebcd9b2; 0x43113452c2dbe44f2797d55a8912bfe043b3e79bf34eb5862a4efa4c1030621; 0xa3379262ad564799592d3ad842f7cfa198493616ae3100abc1491ecdee63da12; 0x1a1841e1a5ba96eee4f1a99f1e877a875a7726522997468f9c29d1c8fad1959; 0x373b003444d898683087c490b944eab01c1612e175d1aa777a8a78eb9fbc38cf; 0xa50f7055e85f9359ecad68cf9836a06fc88f06afb051ba491ecdc214db461108; 0x302cef4842c0f6808d01c53f42115799791d226d65ac1be0111ed22c839def8; 0x1ef7c10d95290e2d6897d26e48d4c06d4c73879b3daeefd360a0d7ba62f4b5b3; 0x30e29f160ff30d3d90ab5c53cc250fbf94d70d52c15c7a1ede15f5e0d7a4fcd0; 0x252a64236c527b300c366755834a3e40032b6bca5de972e0ba20a0b887af154a; 0xf8e9882f4b3b2399f08792f0ad49877bac71f36b10eed622084f86315f0ee035; 0x33e83f736b7e751fd09b9812c2c5b142fb04c398572e821eb0fe3522d733c38f; 0x193d95157402bc31f6a28834055b5faf0daf652a8e942a7265abcfb723314d04; 0x388bf696bd3f45b51f946e16e3d68acdaa81957e2bbb0ae6ffdb34d69da8f347; 0xad684814f9626056bb714166656942ab550434a7ea4e190a360a7773d83a088b; 0x105858e4911431da7973c0602b0cae28a773dcfa99c3c5526e46610c23bc2bd2; 0x5108c21e38b215a0d3b4af3d3c7b44895015977f0ad4011105940a67692eba4; 0xcbfe36705c51cabadc983b53ffc494ca02e086a0c39ea555338f4a3adbee29d; 0x2bd080c3fe4ab5e5bced9ac0872841b58ba90832542e7da0435937be734477c0; 0x675f83283033b0d99345a0034f7fd9945f81b097acb6c4842fa3c9b763aac89f; 0x15678f90540c19e995da559f662a910f1af552a71fe180a7fff108b2e0365a14; 0xb49ffd7a17bb3db774d07cfe88b0ecdf50aa06e908e54c4da6cd1b82e2fc495; 0x23892f62f632064efd550a676a13b3f12ccba5aaa56982731ef5f12d1ab6e212; 0x2eccc046b06c3ed32c212c97d078712ddbfc86a4722c3f8a83be57dd06603953; 0xdf9aebfc741c39a40f779d90464b90cff558ba73697377eb6f6691ecf900b48; 0x10c601ed938ac5c5d54ee732f10e26d33142bb7867d05532655df717bc7502ba; 0x5ebbb49b600d828fe1df732275a7261b584c66f7c1bb2ce8b8d8582fb86670fa; 0x1b7f0d142fa6d20b6de84b7150e6fd028389634de5d6e49c2643fd5293786145; 0x2f67644a64532ae2bf22f42afe84565ca536b87e1325bd8c268e7570f2a03083; 0x9b2af834e586428c29faa0e8bdc70c2cddcb51e0b5ee101b578b00d285bdca; 0xd294124476fd7041ed6edc5591f9f9102789164c4b877ac96c5245881c8cfbea; 0x13e643ee58821927b9a475c887e24e2b506af229011ccf95a46d99009e2856e3; 0x36341ed0ec97fc1bda77df563104f945fa9e1df1209836c72815740064992cec; 0x45d91485f4acaf9154ae43102a92c76f0c2afaa56c3e7073cc82e3404e8d9f07; 0xbbd09656c6f7aad09add4076c56b75a8bb83caab58003e495352688f81692cbc; 0x32a3e6b79338e94342c60d1978b8ac167733afc70db1a55fe588a0f3eb085ad4; 0xc1e16806318da5cb11d5d83e5d82d1d4aaf0501f8a5191ac60a4adba8eae12a3; 0x3d45c5c0a0db2e7f7fcf3ae497c93c123e318cb3753134f092e1ac2a502a0206; 0xb8dacb0beafe46fedfb8020631d9fde184ead903f463c85ad2814c159eb041f7; 0x8c290d1296e2364f24563e23ab0d933794f1845090e841886a788755a636f7cf; 0x217ce6313cd97549c33106f62b24cfe562d1e4104d025d5fd340dff685d326b; 0x3102349cf7e71d48492e8f157b6a4d6c9b3da8a319b0e3fbd13cfde16d7cda84; 0x189408d88f7c0a4f9a4f735c8504e79c2c3e88090a15b6e012ba817a84aa033; 0xb241c2156111bb6c94db6c57c253bd09e9f45517ef320e3b5731221d45667ba1; 0x30f254574166e106feb9ea138cedf5e11908f46e1ebed9a00834a6b5bb686bd; 0x2a55f4f25b791c974c10a3d5d23e283ef1798f94a0d8d030509cbcad48365046; 0x213b7b737d8674ae014a6e380c61978beec6be9446ea4acd6b6f46acb98710fd; 0x3a3fcb209dfd2170400adc622515a97496624e62a44abe4e5772fa904b1d138b; 0xfcc0421bd798dbc8093db59a1f2128d9b0331e73135f5a6ea21da1f5f8c1fa09; 0x3bf54fb32346b0f9912b9e974aef241d4181f157a73394b61f78210fa30e800c; 0x978b7089ca738b79a4818cc2ebf8d5087d73a66478ec0c815c88936dffae1a5; 0x123756b264be3e4b4f121772514936254fdb76fb2256ccd09b4d58c675697a11; 0x4770ad6ce8b882ef3741a73ca330b63c0da00416891a995e7626308a52f10f8; 0x2a7301a7a3a94e5db5c20c2ccaf14ea4b7a8750310d509042d064591e45bed9d; 0x28b26fc952c275e09714e7168b5ea72218b4a086fc3c94743a48b536f5a1604d; 0x229b270e3bced68dd4b048e7ac216854eb017cc1af618c3e56d1682ce9424d6c; 0xea2d9f8b7921b4a791a091e68b70076e58635a904778367e66cd441128a55617; 0xac173dee59003f8b0b842116f399a511895d1ef5b72a9f80c3c509234b2764e1; 0x20acfb02a4a3e409b285c5ed0ad5d7d28b8342ec1fbd77859e7885692b344; 0x23d037f98c6f707825bf2e97c803eebcd114afd3bc7feaeb71c1f82a2c6ea3e8; 0x6e08cf63b0d95845774b2e69eecb85daf0a03b546cd43aa2cff7020ed924dc86; 0x13f8cb556b4082a3562e2e9e09f26d51b796af154d6489859cec523d166bded1; 0xaa514517610950ff3415a5037368fb6e1fefc3fd2693fc7492c50ab1a0457dd; 0x3860f61bdcb729d1cd39f9c35308727eda4a010c5a1d5d9747b83d13ab9d640; 0xa51adc45a9e9bfdd153f43d0d52bfdc8972cb4cb07021e5437587438dabbb713; 0x7662169fb20be5149e769665ae4807f50a0eca3009bed52952fe333e38d73fe; 0xba0291ed345efdfb50d0b09ee8ba2fe3358d0b75f05cdeb91ae082c15a71156; 0x35f6489ef87352b388fbdd9ff06261f4bd90f542a894b712d9be4c4e32b66517; 0x2445e234c05433f3818a8e0af34ea2e7b4eee4b244d931d978997810f53fb75; 0x300aac252775bc9efe28b14cf1e3c9aaa9c2c4b0128c6a184b0050cb5a265237; 0xc98fd6ce61855bd975921f839c7c257edeade1f8dfe0ed93dad91323ec83742a; 0x141b34addf80b0986ef2a528e6b54afa724d6a72f145e4236706542526899b; 0x8f9d6e55250a8090d2cd36b750b0e00aeadb087448bede715e7eb4b17fd61c3f; 0x3b045e451e73a976789943ac8a6f605256a33d1aed1ff994ad39d524ff5ee114; 0x1c4bb5c07126af40e5fdec8510c4a56ffc7a9f049d8c5a970ef5409fdf6255ea; 0x17014fb24d368a4aee7cf91cf63d3cbb36096d7f79c6c07741a2e9795613df3d; 0x61bc521256364021c46bcf3b9d9acfebf5c2e148a313dc4f3f2202b2fc3b8d19; 0x1ae971cc3a1c7579b1fa32c352984693f220d0ffe27028cfd6b5cab2a84c6346; 0x1b94632d5ff0c5e2678aac1cc22ff004b054108aac5d3083042d5228f8d2b7c; 0x5e47702d831e23d0c3c10abd693e675f60c141afaf8d435036f523bc274d9b6; 0x5bc345d22837a5903af96227d63455aa8481e4105324dd3a8253cdd418fe31cf; 0x1d6b9623ee9ba6549e8450d4c4eda5532b0dd2c195a342119e976fe2ecbe01cf; 0x1b4f4d316ca8f35d61a290abb87108fbccced1a912aa7d8dfd8031a2fda93aab; 0x1d2468ff43100267fca76c33609122d3322debc097486764188c01a79e7ec332; 0xcaa45ecaca5ed41532f5b6e8b429f473b4d9a371fe1b830a5ad115613a74fd77; 0x1c8964886dd29b22b4464edd4d2a916d42de9376cd06a438d2a71552877937be; 0xa89c939ab70ab841db1bd6ae3d7755f91208272ead944c9173fc04aa36fe4b43; 0x5a9315faefbda9f7a3fa4e0e053c5748e18578b503ba4b063c57786c367ecf41; 0x41b1f75bfdac9fbdf42b14ff5a5bc482487dacdc87bfb7c368faa8299f36fe5d; 0xebe9955d21310c91ba1898319a24dda5323abc046ec847c95cdee22c00f1d1ad; 0xd62ac1f6082362c5d10780c475072e4ee991f9401a5d4725217f257523542a8f; 0xe76da019f760500bbe8f4758c4c6b6baf9f8e2066a9c1a95952c0a7b563f40a; 0x45973ffc0eca0af6e2d92d6a06e15f2562824b166ca26754b2f79123fa3369aa; 0x32a7121b47913e8bc97518e3f13c77be88eb81efd6c8be4a3ca1550d8503f51; 0xe16b0dcef08a225c38a8959e1f04939e341a43646a0d6291d0be4c851def706; 0x29c4b7f36bc3d6fe84a02bd58581d13c430203491654cca92c2f85eb7c8b1647; 0x62cd4e3938675bb8b3a6325a1c4a36fd9c65d80a9da1cffbe4c51be6c4af4a81; 0x40c262afcdd915574f4fe1cc7e344e69c132f9ff2e489d52ecb2b81535b4556e; 0x5feae789d765d55b9f2329554f5fe1ece3626b7545b52c8cf3ce43d1673f60c; 0x116af746b9a22d1ba5f7c7ab79e2daa933d24dbbd2c8c2d162ad177a203f5fc8; 0x316dd0be3c085f80801b0bf5d664075403288bec0fe6cb951dffd48f98a51deb; 0x1c186f5307067ab573d4df085c2e35e95b09f5a926548430088c02739a507c0; 0x2b8bef0bb193120156755947e8c35188062c15dd7c7e08ecd9e99092812b7386; 0x21f242caff049371326e09433c7dff37f07c6a1e249d63901d9ddc9316a733; 0x2ba83e2a90d20f68560aca9511a75745ae7572809318930d22083db9d355389d; 0x9967ec9b35e4f05a9e44b6ea29c4dfb0dbc48e5caba7f1427700f5d530a91f4; 0x98da6ee05203ebd367b3d97e82f087cf2a4e3d422889a3de7058715044d6148; 0x1a905076ad11c55761e7b10569d69d9a965b9735bd5ded96774b045001e19e; 0x3a41dfb9c08daac5fc907bf1ad5d3951564180461dcab49f40eb738f917c353e; 0x5eae80890d1b3a906cb67b0de517360dbb3f338244c7a121138a942355382a59; 0x2746ee1c7a196651d920ebe7ed9a53d0b12210f75a59576f5a48529c0e13cc7d; 0x1b4aad13a3c4683c7d2e82674f928b48303aedb46366cb08650ac44fc3d26851; 0x79596426a7416ed920602d87e8844215944e4659b70a86f2335579f707fe6d3c; 0x160fe90e95345c1cbe80a312408337e8a2babed6e214df1cb9bd5270398a2c61]
    0x55a50f4e5cae279e7cab8b266ff58ccd44df516a804a84c110b6adb787d46fc7 0x1649abf4b0bd3b6524397b629ea1c88c293cd1ac44ff54631ec325633b8cb5d8 0); [vm_compute; reflexivity|exact prime_205115282021455665897114700593932402728804164701536103180137503955397371].
Qed.
Lemma prime_1871 : prime 1871.
Proof. apply (trial_prime _ (Z.to_nat 48)); [reflexivity|vm_compute; reflexivity]. Qed.
Lemma prime_1627771 : prime 0x18d67b.
Proof.
  apply (check_ok 0x18d67b (fun k => zmul k 0x18d67b) (fun k => zmul_ok k _) 0x74f 1 0x366 2
    [0; 0; 0; 0x52; 0x523e7; 0xcbe7; 0x207f96; 0x685ca; 0x8e588]
    [0x7c6b6; 0xc4db1; 0xba1e; 0xd703b; 0xbf053; 0x103f02; 0x8563b; 0x5a08; 0x7601f; 0x124154; 0x52661; 0x141f9; 0xd1fc7; 0xdba02; 0x1ecd1; 0x2728c; 0xba021]
    0x8ff8f 0x508ec 0); [vm_compute; reflexivity|exact prime_1871].
Qed.
Lemma prime_297159362677 : prime 0x4530140875.
Proof.
  apply (check_ok 0x4530140875 (fun k => zmul k 0x4530140875) (fun k => zmul_ok k _) 0x18d67b 1 0x2c91c 2
    [0; 0; 0; 0; 0x3b; 0x599ca2fb8; 0x929ca3821; 0x122605787; 0x3d74df6308; 0x198a1989; 0x35c8ca343; 0xe5c2eef31; 0x65307f2c39; 0x75aefc044; 0x875675e8f; 0x2ba9c8fe8d; 0x44bfc66fef]
    [0xa3693cc29; 0xe600bd77b; 0xa096c8039; 0x8c419dee2; 0x3909da08; 0x3929c54f51; 0xfb92ba1c5; 0x43294bceb6; 0x14119ba47f; 0xb743cb750; 0x741a83971; 0x47118ef6a; 0x2965a901e; 0x1241bb4a4a; 0x1885f67951; 0x8a8f98f6b; 0x106d9f9134; 0xa4075322b; 0x36330bfb; 0x377c997130; 0x3dcad2c1f; 0x5d20b486d; 0x194f14131a; 0x628a064a; 0xf3f131639; 0x5e4c5dfc6; 0xa33d7e981; 0xe5aa8c9f9; 0x26f0283c8; 0x646feec5e; 0x24e6110ce; 0xd1a1c207e]
    0xa48b1bca0 0x3f38050a3 0); [vm_compute; reflexivity|exact prime_1627771].
Qed.
Lemma prime_29047611873442575647497758179 : prime 0x5ddb9f12ef6348a3e23ba5e3.
Proof.
  apply (check_ok 0x5ddb9f12ef6348a3e23ba5e3 (fun k => zmul k 0x5ddb9f12ef6348a3e23ba5e3) (fun k => zmul_ok k _) 0x4530140875 1 0x15b47fa125e621a 2
    [0; 0; 0; 0; 0; 0; 0x5747e7eb4fc70f350f43; 0x459fac89a4e1c25bd9bf71ac; 0x2c610e8d9612855365348de4; 0x380b9fc2b02cbf6d587f3e9; 0x227e6bf83ae38a58a62ce3d0; 0x58f45b0a5fbad5e31ee1c8d; 0x2def100b3a5b7dfb2c9569; 0x9830eff4305cbfa76c46dc60; 0x688057e46ba5f65c3112a77; 0x79fb43d2752653c1ed850396; 0xb829deeabaaa44656939f2f; 0x1dc93bdba99200d0b4007f84; 0xb9ba1b44520571a3641a55a6; 0x17f5d716b134200754fb9098; 0xd360084f6fa67c4160c06fb; 0x1750c5157353d8b8e4ed93d4; 0x4283d6e885e7103963b13e30; 0x2e403b046fea6a43cd34193e; 0x548c16e9922fa5b4c1cd94df; 0x1adaa24a1b70f6d0ee245823; 0x3d15664d8ae1ec3d08e69064; 0x49f1404559e9c0694744f0c4; 0x354a52381a11d955663531e1; 0x2627dd02bce7832b21607d; 0xafc22da87730d19486e22b78; 0x4122894d6dc0251b6691ebac; 0x249ee01a7dbe15777a61f2c9; 0x7018a8f66786d6746bf0ca97; 0x147b641534902db23892d05; 0xf472462febedce8dc26505c; 0x1357309fc8b471254806c3c; 0x5ff6104c10953762a6e8e168; 0x22254874443fdc938c20a881; 0x18a732a92d8607afe2d46a5; 0xced75c062c23eb0ffa39cae; 0x636418211ecc5d700cc8d93a; 0x26113fe87a9e97e22e21ac67; 0x51ee6392d0d0be1787c27ef; 0x4eb553fb2cb2eb057c7f2a2; 0x25b7248f8fade057cd65074; 0x153e346f1711bfaec23018ff; 0x5db88d3fd4fbe8482e252d1f; 0xef481442a7db71e315480b9; 0x144a17244c314426db9ea72; 0x333ca21654de4dacbea182; 0x2619d8ed29a398124e6b232; 0x526cec965b5cbbbf3c38a6b3; 0x208d4ac6efd53515224e06; 0x983a316b3f4a8d6e18272e3b; 0x3d58661e60b46b09ba0525a2]
    [0x1cb31175090e9ad9d8b1d322; 0x15af835860e303f39de74a8f; 0x36279c58cd6e2c1747234fe1; 0x237a0193ef729cfea763d9e; 0x38075ebf006b504c06d9fe6; 0x254eda8dafa571f8746ccc9; 0x2ca8a02e325832e469493e54; 0xf55213794d53ae7596f53c5; 0x117162caaf76d80ad0582d6b; 0x7f4adb648924bfa7be9f836; 0x4c3362ba056b7f6a9dbc8895; 0x1cfa0eb5b642ce3cec915e78; 0x458cbd2650137a3410e7; 0x1904775ee3fa882745fba9c6; 0x30ff6fd3cf574c6a04682192; 0x1e22541b22366fb591cc8f75; 0x2240326d76258e614d1d3161; 0xb87f53e9a328e50a0d9b65; 0x3b56a6ae5180bea306e5ff45; 0x213c2a4e710d20adf443a716; 0x61ed6405c0c4a065c12b0f8; 0x2417374e083f028e0fe4d269; 0xcb02ec1d32bb3073922636d; 0x1ae40c0cf4191c4dc7ff62d3; 0x10a9e6eeea72cd43fc2d72f8; 0x19f7ce8f1ac356660012cece; 0x4247ba4f977c6dd1b03269a8; 0x2ec8f383663299ea25c0a7ee; 0x3571c85100448adee330b863; 0x2a02b27a59e5264850eec645; 0xb4a79d2d5d1c1582e42e76; 0x4df3a1e0cfefde3f6a55fff5; 0x328876e611f883e03e0a153f; 0x32f6a491da4379516f44104e; 0xc1af1ff5d6d4dddccb24e14; 0x9affc0cbfc6329228002129; 0x2f485d39d3d73d72fe554f53; 0x2f4faa045a16f9be1a9d5da; 0x4cbb924b644209574fc1d198; 0x25a9a69ba8366a24a15988d9; 0x1f23ab762295ef147e873279; 0xb2ba960871ec26c3d003633; 0xa4a9f4522eaed6dea1e151a; 0x2863e37be2a1e3fecfcfb93; 0x1a53dfebb32199666e10551c; 0x146e413f5e477247bee29b4f; 0x1fbcab9b75c31d0db2a0f216; 0x4f72ac04b2a750881d883ef3; 0x14aced865ca357ceac391a7d; 0x23bf788ade121ccb67f2d4e7]
    0x19772c4448ea2e06c03560dd 0xe14e85d1eb8bfd9135de5fb 0x14349f6536); [vm_compute; reflexivity|exact prime_297159362677].
Qed.
Lemma prime_341948486974166000522343609283189 : prime 0x10dbff26eab8198050172ee03275.
Proof.
  apply (check_ok 0x10dbff26eab8198050172ee03275 (fun k => zmul k 0x10dbff26eab8198050172ee03275) (fun k => zmul_ok k _) 0x5ddb9f12ef6348a3e23ba5e3 1 0x2dfc 2
    [0; 0; 0; 0; 0; 0; 0x7979bc8f70565f73837; 0x2d19941087f2219c4d508f63990; 0x1c65f2ce4d0bb06476f293ac74f9; 0xb5877e93a63492bcb2c88a2ce9; 0x1d0fa29c4b739a1369122bbb36c6; 0x119b98c0e95950799b71cc8e1af; 0x11d23ae07c0011b46d66413ad2a]
    [0xc46877d47eedb4504bc9336dc1e; 0x94196a7ce08f80274fa67099ba1; 0x99aac446c7a9c701808353daa1a; 0x6ddc24916a95148b5e57b8b78c0; 0x43cd1b8d1bb2fbf18c067cc181d; 0x423f464f6d7f5436404259cbfb0; 0x442ab9441adfdb9988ea80db82f; 0x6a1a592b637264f6b1ae8a372e6; 0xb3c5af9a1839e27213ed29b0c8a; 0xe0388419134e7c0b7d4d3fea2fa; 0xb5a72e888467a7c2799f89b22f1; 0x9b6e30d2ef972cfb58c5c8725db; 0x5cee806dd210bf61c6927b8e43; 0x4deee364b700253c96427cda3b9; 0x581e22da188888a30f79af0f7da; 0x9b7696bfdf87a16de4c2f26; 0x1dd631150c1f51a0879a03c02a1; 0xa479aaba965b6e8d431c1e6a9a7; 0x1890df0e3f57f893f9c04fb69c4; 0x370617067d8e8298cd52d4844a6; 0x3ba14cbb59f4406b2d908d9db31; 0x9382e0270b19ffbaba74215baa0; 0x5ba8d042d0d47ec333356587476; 0xd08285bdab3eefdeac10d4728ce; 0x33cffbcf0166cf706260e2fb8db; 0x3844dc220fb6e35df3d3f102a59; 0xeef6657b836b60b22e6c48ef970; 0xcc9090cbfc313985a088a34a4d5; 0x45268618d3a198ae19c8daabfd1; 0x3256016f50cde29f3e92cc5fad2; 0x3a4d1199d240f27d2df2ec7f36c; 0x6377928c1c141aa80804a606b8c; 0xcbeb0061cf466a71d11fac29a5; 0x23467c6420cb13ad230e7f16a06; 0xd52d755d79701e4e64fcd530fe5; 0xae00d3e7de20341c795ec01ff0; 0x82f6fa58d959715fe722056c18; 0x14e819ae27149cc142b4aafaa93; 0xed5d513475c6e21b09bed63b709; 0x11242c1d86e7f2dfad7a4efa; 0x784ab9366d501d6cf0fd530bfe; 0x64c65ff776b5f26905eae2402e9; 0xbe44e9a754afb05409449ddc51f; 0x317dddc46cc6240080e08676d91; 0x8086357b81dc7fb0b18d98955cc; 0x21b99e19c18286eb866040128d4; 0x12b19756a9d66d4ba4b728e3bec; 0x61856ab9d429e06ca75245635d5; 0xa577b4cab2a1e92d8a29fd48b47; 0x9f7b751678fed944c4612004efe; 0x7e951c0c50a8749d880889088bb; 0xbb27c41926f63df5d489e1cc9cf; 0x1dc0582c341cbbec58c8ca69ff9; 0xab14ccfe23e885b7171f6cbb5fb; 0x1998285dedcccbc58ab71a7222a; 0x2e28cd17656a931d90e18fc4f17; 0xe10d26fbdc263b5f026f2642646; 0x75a2ecd7e093ef3336362856656; 0xb5ac261af2a6504e8c136f6f0b7; 0xf7a429662ff96a45e7583ab5dc1; 0x65ff149709b6cb03c9f9d15d8b4; 0x5bf1ea22b38b61f5a4db75f3a52; 0x186a5a82bbee5b34a4aed1a52b7; 0x5532540f94c0a4987f97b5617aa; 0x7345934ccc6a2aa3604dc8d74ef; 0xabd301b2b1667b3242a7702c19d; 0x8c4d3251c541cc00ed2eeef5e; 0x413bd62b42e0aa7ef37711a7211; 0x19e68b2447501513812b46f3f1; 0xd50f2bb4b93dada0e006cd6f997; 0x59841b9f9fd30c2c9551f557c; 0xddec10e3736823cb66b1fa6d81f; 0x8a1288dd8c7d6ecc580ecddf4a2; 0x767db79e3a90af392ef9d696650; 0x1e8bdc431f5293b278612f6c8de; 0x445e943cc6d0fbe551075d13768; 0xbbc4f3c68ef7cf6a017e46aa770; 0x52895720500af251f0d73ad5cb3; 0x5203bf8e704217a4799324ce666; 0x1a28f118748dea014f74ae8f165; 0x36230d4fb1858730fe661eb1a2b; 0xe44b62afdf46aa02be3490f500b; 0x4f6f788e157bfc1e43522b34f26; 0xa9d9bb5094594298c3da9ba77e7; 0x33b7f6d7532472429336ac90dd; 0xc9f2faf26dba2e90e39f46b948a; 0x53c01c69c846ce780a06e5fc835; 0x1f31971a26fd1d3254f8c741bb1; 0x8810303831b0a2bca595bcf6123; 0x2b35b85ef4510af25b658f8959c; 0xa57314c01e27ae1de7f99c0814; 0x520b84f39b88db6dba6eea890ef; 0xacb180239820d996a3637289574; 0xf7094e2ade9c77e1c0919fe1c60; 0x19e64a9781df3ef604e67b480ee; 0x6c19a5b31dc917b74286aebb05e; 0xb6ee78cac2923de8ae9aa55377b; 0x7beeed8441163098c46199a69d9; 0x28678aa5923db6081b121e0949e; 0x1f7691da39811733574c947dad9; 0x6f71007e64dd7714e3dfd8e2ac7; 0x8a260fe7af6639bd8cf104bbb06; 0xc3c84852334808ff54ffc9619be; 0x4f8aa787008ca6dbb115d00140; 0x6489d60186b8aea1d79e5d967e; 0x2898169cd811875a206ea2b4603; 0x2530a62c877c525f5269a71ed33; 0x584c74bd29f696f86dddb7c1670; 0xb86ccbfd15ee41b378f1a3336f6; 0xb4863fbe1128ef7f3323df97c77; 0xb3fe8f92450c25d5c2418c081ef; 0x8bdbb65ee6e408967cfd9663788; 0x8a6ff046613b88a503a3ad0568f; 0x22e2ef96d6fb63793e36c6fc527; 0xa742205acd951c1aff3fd7e923c; 0x9cd0c135dc4280e4f50a30f3fc; 0x2bbb95bd58f882386b4cd4cef66; 0xbe3f17b432ce37fb4561fe42a8b; 0x6be33ffb3dcf8565070ddf91a25; 0xdf9e0b005ac1d9c9dd12c6b96e; 0x41f6613f71869e8b6902a71097c; 0x1b2d211329c6e171d034e199ed5; 0x106860026b065d4a31b7329d0b83; 0x70c73cdd1e135ea6dec2530d3; 0x4f010b8f30b15683804e1850d24; 0x106d18544141281afe93da51102b; 0x5040205c348e950ffd2db85ba26; 0xee6c83c7fbdb9e4bc6bde154628; 0x5de93cf3a90c5456bcf715b722; 0xf70477a5800214d485e31212638; 0x264dc7c749a6e79a50a82b43f11; 0xc35af7e11fb0f8b0d24fad7563c; 0xffd8e4be07b095ed7855faf1e8c; 0xe32cadad6814774e15294d25cb7; 0x1c0859c7ab9866c554a4b753c8f; 0x6924d2a95bef7c498d8815ab617; 0x376ca7d08b13a392d9b8a85bc1a; 0x2f22546f5a981571879084c4e48; 0xcb328dc71cbeb97915e3912af81; 0x18291fc9c747166c6620a3afe5d; 0x72dd6f670189c64d9797b4257e; 0x179b557d3d0b1d8749c073df198; 0x8ee6de5f7456c304d24779dc3b; 0x6ad160d142c2c55fd7cbb66bd5b; 0x8e4b7be973a0d657bc4f3783355; 0xe55fe017a8a9dbd5005dabe7e2a; 0x5a5bb9d2ad9a601f37c31a54fa0]
    0xb628645e03e3bc891eeb6c2ac0a 0x9b6f2dd0eb95e1c8a4b38881aef 0); [vm_compute; reflexivity|exact prime_29047611873442575647497758179].
Qed.
Lemma prime_115792089237316195423570985008687907852837564279074904382605163141518161494337 : prime 0xfffffffffffffffffffffffffffffffebaaedce6af48a03bbfd25e8cd0364141.
Proof.
  apply (check_ok 0xfffffffffffffffffffffffffffffffebaaedce6af48a03bbfd25e8cd0364141 (fun k => zmul k 0xfffffffffffffffffffffffffffffffebaaedce6af48a03bbfd25e8cd0364141) (fun k => zmul_ok k _) 0x10dbff26eab8198050172ee03275 1 0xf2f3791ee0acbee706e9408c5f0cf13469440 2
    [0; 0; 0; 0; 0; 0; 0; 0x2000000000000000000000000000000028aa24632a16ebf88805b42e65; 0x1e53b5d09aa5083f4f3b18805fa24668592811f6fb7aaac9ec54d07202c6594d7; 0x1652c014841b85ffdc0e2a92483f354e409e71752692eb8b720129f3af1761f2b; 0x19d43705ced4927dee0b97ee98e8543637673cac1e71812593c59f571c9c0add8; 0x8c4e23915a8f2b8caa63265c6320f47b595d58e6080098028f20a562bbb697b6; 0x3d34475db2e669b4504f51e450a816ddf9b9dd2ad3afde06fc96f967fc3c5f; 0x6486e427388fb35ec165cb7a427b3861f697d90fb8a6bceb26bbd05726f75855; 0x8ef8391c4f1a70b739b82da81e98fd586020816b729cf704962c4d58955917e8; 0x667b826c1759d0ddb8a11a3de7c1832bc8abf603064698ee91c5895387126fa6; 0xb3c78abbb276e421fafa23f81909cc6064e5cdf658cfa7c9c7af5d3c70e458; 0x7ef220eb359ae3101a1ef98573d784e6ee543465bb7445a19116fe406bcb3710; 0x3ea135b2f1a5b8bbcd48b132bfb0244c1509fb537a7dc77e72601efffe5cbdfa; 0xdfcc0e055445cb2bbb4484482323eaaf339a69ac0daa5c299776b2ce94a39c6d; 0x743e557c07bd9a7da26031ec6f28b5f58c22d72f127fa3d14457d4703171548d; 0x5ca254d405347f75d3879e1a32b8da13b990f9ce8f8ac113c61dfffe029f9138; 0x187f193a3f15d858ac1747d92a79a4088741d730a4e1bf880ef57afcc0ed221d; 0x72686fc2a2db461d3d9cc23ba2ab15074adcbc852482a4630aa66b87f57510cb; 0x24e2b0d895e60ce0a44471b004d3d706c5049fc953935c0a321d812f6a16420f; 0x74b7f2ff32722cc178533c6796d1abd47e14954a14050d9148aac2eff10a421c; 0x1bea748ad84493aa03c5a693b3b070419275143f1814b7e483ad23448a86a8d; 0x9d29b47dacbfdd19b1631dd467ec7ed477e40808425e05ad28c6dc0ef3c6e8c9; 0x1079df50a7babd0ff7ffeb7288948865e67a8f5573607c613562337fc4306a222; 0x14c7a2359dea16f11bea7482b4ebc13292134b93e776cd80a235e9ecb287a9610; 0x26745df845b921c468af67c5e9ae4eefd61a94bdaaef9fcf801110c67caa49b7; 0x204712fef7afd38d98053167108ad7ea4f7ed95c0eb95c596ad28127ef76bc7; 0x60b82752efd3878ffd2612519257c51bc6351a38fc31b481081ec452735e5303; 0x5a878a7391ebe5736a0f59c93a78ede49e09ecb326693e0a60f0f7c3f047fcf1; 0x8af493c6d76c89496f9c50be567f7272a885e9bc2fb06d14f8b16265e4a1e0a9; 0x811a867c5c591c02dc4b319a0265a28c4d47789b36cb4aa5077864ef27cde723; 0xf0b57a3704a3bea82ef6ed3a3baecbe44c62fccc374632a9f2a2fa508d51321; 0x35fa092a32f7343e32f8836b38d5cce1e8248f6cd2c152f6e765810e6650a981; 0xbf971ec770cd17646da956d2b667e74c0239e9a71948125567b52faeabf5b573; 0x1ef4858363424734b438b073bc8eb13607e9e7ad0fd46f6962ec9dc64fbe67b2; 0xf26935d361f803581441ec466aa0253765af24ec6befa282a2406ca72ab58e31; 0x15251b0b8afb1f9317fad69a0765778d65e36900dfec62f67362f2b3e5608ea6e; 0x5a675f073ee348b90385892f891a85bc3c2971a2d122c37a281e7d2600903ada; 0xfc0b966acce0d50e2c9e22442d7fe2d7f895b13bda5212eeb660d1e209114fab; 0x1aee38aecdd66b21307aa7f0f17890d899e480a764f503f87e6874753754b2697; 0xc8ab4bf7ecb916b166eb67683acfd88015df5a06bcf00616e4682acacfdfe74c; 0x21a2fc558395e731dc7996bdd5cb241af90661384b7f500036a3d88ba9825396; 0x260375f72417915ea78bfe1320668a2e92c2e121227b26304d47894c1e05b1; 0x26938e54193adf749af2b1ca3e0c01d8dc3a3bf3eba5507e73c8be64dd60e8a8; 0x3f5208ac29bee92d4dc54dcfaa9f4a8b4b1831a54102389c9f84c0a5dc91e9a; 0x4b277374f11763b388de4a98f2b4525115d5c5a4c39194f33107cadadb0ac8aa; 0x1fbf43210b11de498bea0fcbfdb4f202c4ca90ea6f21499f2f1b66e2550f26bb; 0x1109f78fd0b36eb4d3e269906dda09b2706736af970b3bbcc236dd4d3be57eb21; 0x15aa18dceaf19a9fdc20a17d5f599653588e0cf1d54249c6f1c04c47659dc231d; 0xaa306734ea20e6b6976fbc65d644099a31e27d49401b986b1d7877c5087b965; 0x151db1a682deab5e0679e31132b56593ee9539bcf476faeffe38d14571344373; 0x1be9e0dc1b9cb739c341794c2c01cc2a962ddc55279ff243b2ab35dd0ef7e61f1; 0x398a3a0161b921f88c3e6b9997954f814f8107dc0e1a6213766533a621bc953; 0x738dd58d17c43499d867f75d30ee63190785aee5332cacf39379f9e49bfc0172; 0x88f239cffe436ef3c76555ed67e7ec8df5e8dff026c610f90ee41eaa435a088b; 0x14b85d3c69b06e3e436a1f0b306c406e8cc8b7bbfde350e5ab00b928b67fa7a2; 0x7873e123877a937e648994bf0f8bcb4635f69720d9e174f8c18e47416b491b50; 0x6402e6ebb188e58dc0e5d5f2cd3f4e651f70e2c269f2c4805f0bd74da80fec8f; 0xe06c2e7859d685daa1ee586e87e71c80c369caa1eb2d7b0d2fd05d041d04aa5; 0x35288216b5788e9182ac906ea8310d0e36fc7aa481239113d6deeeefc017066b; 0x96402a47f89d66a48ceb66f1fa7600ba266533782df820fe8767af5b8904eac; 0x9b6ec1043769a40a42cd48a65fa64fc1ec48bd92704e8db6ef906b973045ba95; 0xbaf44b61a2a43a4f1c99d1de6cf32bcd6434d4a3dd13e6ac43f33b19205f6e4c; 0xa3fd6cb4e9ac7fdee2be19888bf73b5a0f71a50d28699a53b3dc2420a3ce20d1; 0x1a60abef33eb2f0bf3b822e9758e0790384044e52d41bd621db7737c493c356dd; 0x26b3b4808f21279d095aa5ba272d77bcc41751305598288965e74d3b5bdfc807; 0x9585815244337cd68f43e7226425ade72d726380fe5a45b193dd93c88e2ec20; 0x1ea91a11a698e65dfddb5e9c58d16c360f96332cb708ba8a057536be67adebf14; 0xf676cb6effeb33ecdd5c86260c1ce5525c6dd8638c03fd937ea4c95eb1925900; 0xf258fbe4f28cf01e815e851d3b051d864b300060bd9a3d5790a0c0969438acc6; 0x8f78ef2155ce32612001e2aad3a3112ef76c75469e268d533a49f712c72dbffe; 0x1981063e302f62770d1744e9cbf2567eb0d897951417f0ee2a5bc741d7aa4221; 0x2b69b25458a75439b3548904b85fe687e0d7ed325806a5b93fb35d0e38dd79ed; 0x92592187e114dcb2b40c5f6bc07d8b8cdc828c43c950b82c218d6d50fd61f7f9; 0x242c8be1c6101ad042e490745dd445b793868188ff1b384feafef814d11a0d98; 0x2e8ff7da3989627f9bf8a8e80a7eab911dea0ab3ad032f5bda56742dee5c61d9; 0x130436ce275eaf5d33ebc1e5a0dbdf77abac346a2e4f72d805502142445d95d6; 0x24b0ba70f896703e246982ad0749ef825cd672746c8d05b805a9e94c459fd762; 0x20fd5467241c7e49da3a18b88f4a7c1dd782f8fa408d65a8658839e3bf3ca135; 0x952cb63226988c1e1759ba003a3059c8b6146211c549a85c7fe42909b73d027; 0x3d1fb77feedb3f4e841780c542fb6a2be84e39f9d507aca776ba72a9f11ae05e; 0xfd6f90a0b28b07ebc864ea84e0d0ad62aed4662dd48a64be316f696f64c1a9; 0xd4c4765e0f1273dca2e4b5fbf13341dda4e46729cd9886fcd7cd99d7e6527b5a; 0x49c3d3c95220a32a2e21ba05eb3da38bbd0d795f6958113ab91da99950f5830e; 0x362393639073733ad48213cf04ca049517b500e5e40313d75aa04f75b657790f; 0x5f2466da84d82c055ced0b628c56e8bd87270cc112a6a71a19955c4b312dfb83; 0x364e6dc681858775dba010ad36e9e12980240d5236ea54fcb0b3edf04c2ab24e; 0x3b20e08b14c5e8f9789cef440fa3ce16f97693baac73a9f5da3592fd7c2de47c; 0x191e41ee33130b36456d09489cd47c042292c352c30ebe4c7d5ef9acc3ac4c81; 0xfb2006927a564ab3e7fae12bebda50cead3d7e4c33ccf80fed0e6dce0e521729; 0x3bc70caccd751f2458e965e2ce71e0ad453d51068d7f46294efffb499e5494f; 0x4dee730a4b5aa244606d70cac3668fedd28a2b7cd618996fe55b5b7df86602b; 0x6ea1a1c8898e023592634f7c05c623f713b4f52ea8d649f00298dcf6b5a0e30a; 0x1422f449c1607e29c39b24fcb145ccee0e062d42c630f771a9ca8ecd122c8dd76; 0x1bc19b36748b9e930ca66050af8ea48f640d7195217ce1eb6b6af36f6c23f837; 0x16f69b138b80e3e654798ff540dc90645ab3765dc8980d54e09698b5e8fbaecfc; 0x24d226b8fa701ad459495891945296e9b08dd6a076ffdb33a41769505ebd1bcd; 0x12f643e97e944cf7f73066705172f5c79fc2019ffdd11acbc249d7dc2d884060b; 0x1fc9813889459bc5a9dac49dd15da8099c78e6a30a5bd1fc92c204636413f2; 0x65066fb2896cf2bbfc403b2f5aee43a0251d5302248ff9e18ba82693b87fde2f; 0xadf6e9bd4de31b6abab1f07845485e0ed6db46f5a7b5bcb5714d5084caf5ea83; 0xa1a1075ace29dd0d047e2d30cd97cddb7cdcbf939ff9d019339dc624ac61b044; 0xb75c8b03cd82bd7f8dda1b03084ace0db3ccfc858dedf771f637093f1ce4e1cc; 0xdfb9c9fca01af4bda910c759a8bc1021107c9b2de52fb443a2dc14beb04709f9; 0x7165711251235bd293463346db22816a741e515c6bb116beb7759c02214d8636; 0xd66b0eb93df59b885c9e3c89e64511d9432ac82e1f417034ba9c0ad8e882433c; 0x107bbb3cde73ce46a686b400c7867a127403cdd7a4c32a3373243242f2e35833b; 0x162b7a51c7a0a06f07b7bd74194c488b5772b9bf058019c64fa68d91213e695c9; 0x2dce6cf123497df5d0b75c83a2b1ea96bee796beba0cced2c5972e76c5cb6f04; 0x3ca81547f6a76ab657403428ab8210dc14ef40f38d5d7f55c49de5187b01b7e6; 0xa0b5657b4edc70247158d76db9bb19f636234528ca22c838b25c4d347d36c5bf; 0x6eff8f607dfc5d1d43e2279c1de78813c4afaa494033325605bf6118667441a2; 0x2bff97530aff161469f245f6782fd9c5608c2b9ba5e2d6f65f79eed757187f3; 0xb7a109462790ef52229b2914f761e519cce47c08ffed65615fbfbc1e886acf0d; 0x4ce09f04460f581f10004bda1f30627e2b3e1f89b2f010acc237b190f892f47c; 0xc7268ca4acf5571b238fcf5729b32fd99ddf470b1b518c4a85e26c9fd25e9cd2; 0xd74269a50b6474fc078ac0d774f1a853ccaaba170813debc90c3c4151371d36; 0x3dcf8f15a26edd3ad9b51b63fa0be8a011505e043c7fb6590d0c9c36e21af20f; 0x8da35513c9b00800688217df8a740505b017a0bfd0854111383a0db0385640cc; 0x152feff42f4c2872ba21b4d6efb47793dbc63bd1a8a891b77ab0dfc92ce2065fd; 0x73daa619acf178c67cc1ab00e2e04010eff61f43384e03d87169e6390040a076; 0xb9b33ea0f1e8c5ad24fc6bef014c0f239382c20213db4e7a4cd66ff0221d0c21; 0xb18486c88b5a1ef8ef493752dba4b61b4949fdfe61d95b18cdc8ca588e960c1; 0x187211edfbb348b7f34a0626acc4fa19ce85222689d2794221a5bc52b88b0715f; 0x15918eb0626c997ebc7b233fd9c14b3b6461de549f5fe279da22f2032b093c71f; 0x2c2caf5e9162da08c8358f82c10bce58ed218b646c17d46ffdfc9ca52dbf78a4; 0x1ee701d37470861625560b246d3db01b7a436c62c10861aa79e2de51b165d6f; 0x4b4ffb01a9c7d5adff94fdf48fc587f92d999fa7992a4dfa604bed4969cf3027; 0x10b0a0aa9a775646af2131ddafcdc57dc6871155ac3e9b6cb2b4562c30e5119e; 0x1ff4981d55aa1cbf96e5255090121c0979c8f2822c58addc758059e80af8bf925; 0x44ccb7aadf9311328580128609093d8eab282aa6787dba157626fe1240a83a7a; 0x19055158053f62625f08ca22b8bca6cb8703019611c357803f031b2fbd5c6d6; 0x9c7d7089cd4b89f5b5bfa4b7c309824ba1530bde451d24a9f8a6b8747daf30d9; 0x6ac8d989d021a38b9faf0596791cbbb3303cc61a40d7ac80de962c497193c472; 0xc5dff348549a06040cc07e27bc0dac1db2b60ba783fc251682bd481db0fe37e6; 0x15a531c943f7896f3476be58fa45378c5ba1c7b9f44f440da65d9632665daa21f; 0x36521aa6572ce62d23550787a299db570b7d35304c00e10b4630ff514d18d4f; 0x543a68bba4689eab60041032fb79a83312822286279e57afba1e9ccdbdb33868; 0x3dbc594cbb44ca572ac7b118a67ca7c67a90e8563d67a34db2c4e863bef40e9d; 0xbbd1ad9ced3d39b789574b97a5827db7201f8c9f0a8eac77f7f854ac03c781b; 0x7a87891d91a5537b22051933c44dc4b4c3b38881e2263f991b489b86992b87; 0x483d4651c39e06e4ece7eaa0ed7912a3440650e442b2eb8078523c33cf319c67]
    [0x8f569c2e6ae1a3ddff8e029dd73093bdfd3e420175ce9a208798dc0acfb8963f; 0xecdfd485865295e64cb7878c06dc5c0bba9a954a792e4fd7b9379063bcb8be7c; 0x2385562c14964b72467dd13c372d6827cdf697647fa050d80359e346d875fc44; 0xdc8584f03de8bf8d8edd10d1abe328838605f68511b8488b1f5e5509e272e0ac; 0x3d63c37a4eba28d9ee9e1e0f83b2e18ca33974b08caf9d196481ec44e418e9b4; 0x7bba22bf98d6f8e58f341002e2da3bda38d3c3c77430d0ba454a0e6a408fae63; 0x7e8c7a4d58d94fdb514e8ccec94c94593b1e8afd11d89c2d33940844732624b; 0x21cdcc6811694ebc75594acac0c4e1ae7fe2ad711038a1b9688600d44cc5d8a8; 0x2363962e6dff9d0bc83bba6818a52f18653526a34f4569693804e3314e5b3c80; 0xc3aec361511992cc5b8c93bb62334f4a9e7cd4ea9e956106b70787cd01b3b8f3; 0x265bb08d1a72a4b5152f1be3d254e96079accff164a7bfcfb62d1e81225e51e5; 0x44e0367bd777747e58e422331d9a957ad196aed9b37d88975fe3ab423c238517; 0x720557bf37b85a667e9c8e28c594c176ef23f5ae7d18c7186f37d90b9694517b; 0x30dbc2c8860b9a475eca0618e1b01284986e8a72d1fda0848906b7318d26fa; 0x18d2d4834a3573d94f4f7efa41bbfcaffd370950f980c4b255b972b2c45eb638; 0x61dbd08939982661d8e199ce3ef8eec4107feb8d08f7bf797c028c8fa36b6f59; 0x381480201d22a3d5194e15e135805dbb8d3142879d38095f5ca9bc6358ab4161; 0xaab9334fe96485bdff60ff0fbf2877a9c9e03a436d3f155c333338c4dc5644dd; 0xe0a4aa588a664b96688e3e5b9e72cd603791c309c45edbfeeb8bf47e9f26e35a; 0x7274117e8a5742957c69403fd94b81cec990b1085f8d7f3300118ca5acd9f87d; 0x42be53f0cf417a944905151eabd1c20b2d9b83955eb0e03aee319208bc8d1a76; 0x6c785573fda36d1bbf4a8c70cac8e61290bc79d1d8cd8d0cc8d1a33820604e4d; 0x605aa9a17b4873e174be79ebdb341646188befbeccc35c427009013944eb9b7; 0x8893bb8479a828337a2e26520dfb9f9f3ed721d1d06a6ce683ab01a0449839ab; 0x2cab55f6ed4223665f7ff20ca7009cbede78ebc59b09239dc8cc3b25d5e62ae5; 0x4b73c6e4cfb05a4bf9e219a71d32baedd81218cbb2ccfbcd2e6b8fa0cdb1e7d1; 0x1fe1c51114194a4269a58a509ecf9eb742c27fc40c4dceaf3ce06890284bee4f; 0x3819a8338a1755e06183dcc22b27b334dd951f9cb5e64655b143063644a7a452; 0xfe21ca311cd962bc4f2cb5cfa1ffee441ff0a9100a69f4be5f60052ae8f0871; 0x32658ab6977ca5baa6c3a4c9d739103e10a866eb6bdd60fda757216b5ff16765; 0x164c8c149b3bc4e139f750bed2efd8904d43c78ee374f17427ecd36e3cb21b9d; 0x6f2ab4c2af374dfd41a0e65c1fdd7b9d23ec9320bed02651074df9f141277789; 0xc2a979d104dd3df36f5579ae75535fc075cdda0f05ddecd640fef63c67d243e9; 0x439e05ee2ebcb17b3f5a57d7361a4d10d8783dfe2b16a9496f2278df4681099; 0x7ce1ae6a1c14a641ec36ae8c17ab7b397e0f8af4273d8c4861a24cd9bfa3c5d3; 0xc74aa36410fa6993703e49a1ce08d39862b0802bc6a1d8f9441d9884ed6ebd73; 0x2265143e2a4ff895bf496ca6a0d8a1da847742577fb882424e403173541d86d; 0x88796f078ee2fcd2ef80f082ea746b365fe9fee17be77322089dcb785ea2e9dd; 0x1c3c6f5922b5c340eb6da512c4275f7609293e1f1e99625602e63b8df4463442; 0x771d3f621b8a2ca0eb5a4fa38e24cf67a74f4a9656d52813d26b29aa618080c; 0x1a69f44775defd9747a35bba543c61dca650d4fc7081f51592b6964294a8a358; 0x6723c31319219f633f0834951c70c4b9eadca82e494b4cb8979254dad06e9fb; 0x68e5790ab1a61109257319502f052f62c5cbd2bb22a9f0b89e68faa712ea95d6; 0x7a7ee1d91e3de8b2ce3e1fb2bccbb5eca9e34d6b6cde8daad7cbdac73b487f2c; 0x171109bae7aef20fc5a5054c116fce36971a5fec93f2819f9ba24ab211467ca8; 0x34c440639f45b1945729cca4cd201008a2bfad0d834da5b27bc109b5107d10ec; 0xb94067b04c099ad8bbab1b405073d5388d9099a3d6679ff93a1ba0b867a858aa; 0x318de6ae128707e047140883527840da294d805c9bba8c781d8765a984a56f49; 0x76bbed2a28068c00bc7c780af6950ca1f42b7884976386da3c39e14e05d1f328; 0x14870352c8ef66ce7661bb796595b21a06e76116fafa65af7227906978fe9b; 0x87d5fca05f1635a9cf05816bcbe5c20d8e4414347178d6153c37c273351479c4; 0x491bf60c6d7ed7f13cdee1e5e156f3ad04fc9717c825f805e3b8fb48b938c62c; 0xdfbce6a41a138cc93446c487e03fca41c805710babcf7417b201f4123206e11; 0x5221288f272ec962452da29cbc4c1da6adc05ac2caa47b5e209ba41fb72bd78a; 0x76883a7143b0463c2cdfdbd3d6493eaea5609e78675d572e1b70a3efe899657f; 0x89bfcbd2862b0a7ed6ab42f07515025b29cb8c41a44b05fb725ca684abe100fc; 0x2d6ac8563558a4df29ad1a7f36446cd5defe4808760b948750e964bb3cc989f; 0x1460461ce79e75cd8886f4efd32aa66fe4a35149615eb9661641544d437aa633; 0x685c0cff09f3aa3a5980a3ea9138a7d83bb95a0e0fbff9b52b84eb8aeb48a69e; 0x6b97812c46b1c1c3f8ee441e8bf3c54923260793231a8192f02bfe8db039aac3; 0x34cac43f68ba3ee3236e406581abb2cc7fbd6fb29bf6f0b79169b38b88b9e3aa; 0xbc45ea7fb5cb712a2176808f36ee93b1c63e6f5da66ae4bc292788053925995b; 0x5f8edfd7c2a2c657f1ffd3b88f37a3123bfb6c3fea341016e2cc229868a3a5b8; 0x91a4c240d4969c4ecc8d8039cb685feec61a664f4fe37690f9e2e69d1c9a88b; 0x2d4720789d6fea0ad54df25e17f982b45185b5ba9ad450c6e46d21a7bf95beb; 0x268cdae1c122193210f732422bb85f80eebf69ea17849c327548d90137622c02; 0x9f81d4818ac0fe84a937386c9f05250014617c0be57adcf27f913791cada1d15; 0xc72d6b6f2cf5a10b5a02351fc68c27b896b8b1ed86dd36e366c53e5eeea70bff; 0x5ac40eb4b11fb071c1225e7e2c091f24cf70525112b1dcc8e495d8e58cbab0d6; 0x51c2575985b0d26f896a08bafce9db3d8e1d7dd643dcda4604dfc2b3938be2d2; 0x1f580152e4bdcc09cffd5ac8d54604f9b7d0b6a58e1416f34f0d318cbb6fa53; 0x8018f964c0d3b400f08a1ac9e4fbd8327446162ee2930c9461fba5e57be24ebc; 0x7a890f57694a09b02d7231bf5b0660e11ba7f9dcda1c49ae055f440be77fba85; 0xad8390816ebfeea6af6930dd582a8c7216a961689941fcc50f1fa09045eb27d1; 0xa99336eb2611f4e16459030f7e406bb19085ece8a1d27a901673ccde092da0ca; 0x9e6c8e864f1f5103ba49f64eb5b1cae932c159f79ba46457af88c9b36671cca0; 0x66e47b59abd527bcf16463926cdde2bdac0c6177d18919d93d695511c15513b3; 0x61577a94a091ba4b796650d2b19f9dada709d99b8d26b591bf46fbdebc521af9; 0xdb98e269a2eb96595bf2bfb6984c5314a6dcbe0c876dce3d4cf69b296e96f59; 0x64427793cf1059ffd21ece5e03dbe91129abb3e8ce2d63d77b144987a3ccaa76; 0xa3963e0d94aa35d6f4f19478fcff460c32d2c66d434c8360b4aab8dbe88c74f3; 0xe5ddef5486860d11ec592f756f30fb58e44e30dad191289923634ae79bcd3d9; 0x69c2e92e9a58fa30e0f8cc27fe6dbe63090925782e17ddfda63ae90260476e6e; 0x2dd35ce5517b9f57efc62e1a333e0869b5c8369690e5a1bd0a6e8b09ae5bab88; 0x146ba571133873e2caf43090bc5aeca796c4bdda34bfcd98eaa33d968f39fbac; 0x9a423c8a4fd4d290fbc8250e42ab5ff02cbc8ad407c441ed51cd662a5305e428; 0x98de07ed11f19b77ddaa5ea821c7ef12dccd7168e7eb4e243ce41488ec2772; 0x9c41b4b8e8fcb5b3f640deca34ea63866ec2704b5f2209191391c55619ce699; 0xa56886bbd0a669f956b251e86e0c276ed254f63130e9d01f3b0e75cfe3c74768; 0x963ca9e8176d53eec886e265ff22ab80b55e19a3602d9a1ed7c4f911471559de; 0x125df0d905d152b74f5904cc404bfa500542fe1b6abd7341e379636e7ec185b4; 0x7557c61d336b07703551af169ad273a11130686eef2c8f31a3ec09051314e110; 0xb1b957fe1bcff6f9203d9a29a29c53e12f9119bcb0ce2f834fe675c019c346b0; 0xf9d2c8697122575b71676262d2a389550c20396cb85e2788d2b6beab1ceb805c; 0x1c7a109574b4252d5538a04ef86c6a255357403c4cd8991c378a75c9ec7b6cbc; 0xbb540a15e7c1ea2f6b4abffa15146913763a3a51fa30e7363ab2ceb96d0d692c; 0xd46a3050866215ad81b7a040db23f04667f77551b7dc77e3883afa7353fb739c; 0x2efedeef0de929399eaa5f1da9e8e24be59bc7bddb277c2b1f87017d256aa882; 0xb93763950c27059a43554699546ab7b83f62a0a2ab0b6216f785435a721ac98b; 0x63128bee81130ee7fab8f6be99813ceee0e25386bc7ec9fe31919ce19299d806; 0x2f9459fa251acc363f509a2858756323c068a304b12d86b6c01d0eac1e7fb9; 0x5d79f7989c01f1b52750e5b32483e77f41c95ceded4eb9b96c8867d2233f48da; 0x31eadae7a26d9f5567808be62e279b02d1dae9bef278ecae18f9263f67f8d9ed; 0x605f5654fb23070b8d64c83467b29d0f6d74188444d20a8a8b7ac3596b012ceb; 0x3699f23d1b4dd033152c868def0873b22a397d710979c9aa9d6e420ccb1c291d; 0xc25404291d445da8aa778d9598d379a99cddf6c250e6c3bd75c555189b4227d4; 0xd4ee8ab6451de0a83ff416e148abe6aebaec4f937784996df07e189ea227569; 0x1fbb59be0b6e673604fa6975454745e6a8e794ddb0aa5d4dfec9108b86385f6d; 0x1a9d90bc3c5818c944f881f198d0244c4c860c6f51958a765f93b18dded6644; 0x9dead3564651cd73a6fe8c15e52cc99e261b27274fef37eac491db2a3cb2ac3c; 0x6d09995003c0bb8b07fdfe7c5d2b521496ceaf9a1331159ac54b834d4a15ef4c; 0x1fe358c38ff069880601f19e2dee9030c38a529be202a122f7a68e9afba5bf9; 0x177a63da6c9e51b3173194bb1609903d2d6b49bbf6eb5046ca00aa6f59322c26; 0x17804fb4271cf08793598c2645d5afae61a9354118eb7010b2fccac76b3685b3; 0xbc17a1633019b0b36cd699274bdfafb6c6d7b1c063780d5f28206ce4c9e508cc; 0x971cbafcd7bb5fdc2139fa23ad8e6da7424ce8a138d27e2317b7780224958406; 0x5eca298ec293a5c2deff31e31c168345d868db63079d6f9e0ebccfc2fce81ef0; 0xda80cbb9aafbc617a1da2b7c1b309bf14d538b66f90c09ec40d4c4bdeb7c70d5; 0x4ed6e6ffa0f1c4bae4aab648b5aa8c11f399772cf18aeb111219b59a9cd7e863; 0x26f1503909f4451f3ecdb00f3833bfcd9c52193d96c41b22bc64c6c5b78532b4; 0x83f55243ab2c9c62ed74373d50a1f3fe86d94cf1c8b03973c830751e11311202; 0x3b724b6a4cc8e11c27deb9239486c6cf2bbab7d18bfdc3be9efd41c1b08e85eb; 0x7f0d52690c66084304f971e29d4075fc14ac0f93ca77c082f2ebcef857df81c8; 0x6388e691f162ba33b1721372f4e7e52ac8e0432b5ea68fe938548754ebb1fa78; 0xbf322809a53841f596cadf7b5a90d0189bd416e8c9f08ab6b8bd0249621d525b; 0x1c8fe7999f37295ba28b09672868929e4b018b14f7fb3a3d4c6bd6f1b4c18595; 0xa5f768f068da29299441dc7073f0c9ef8af3364547b93c2ad61b690d5f88b5a2; 0x7475ca96ff0e04ba88bc97fbb160f7ea1cea3304d2c8526aa8be416b5f6ba9fd; 0xe6f1acb3b02c8f8c0c2fffd1811128d438611190c704703d43100f8a15973e63; 0xafc4fb0c2a8eec42271c1a0ce6add749aed1e4a7d71bdd16efa0c15cdf5a532b; 0x2b7309531cee94b15e23e7b08805f5541b564c4033243c90348dcf389b0452b6; 0x880156886ab7d5104a9d5c1f4c9145efd8b12cc06f993e7530bfebdb1c48b24; 0x7f0d3d121f1b864ba65e6f4bbb5857c91407992aef26e04e3b700de97c70838a; 0x5fa47d12bee8a22dfc7d1b025f0e660995376aaa5984dbfeb798162b230eb6; 0x1d87781bfaa948e079f04f26f3f1f2e2d8559d0a3d9b521f52e17b75eac587bf; 0x184c73e411f54328cf16d876a39745a65480b9f30e2fd124e13d15b1c04a40b7; 0xe7b0c458382e8a88b8a6d7b5c882b4d222b0155cc7d749f6a8339810572500ed; 0xd82bb0182c95a2ff923c0e65772a968a67f4b742751089ff731048abf9999bd8; 0x1ecdfc595b6f0e79757cb9a8514dc60c5d3655f2d196e7987740759d8edbd772; 0xf86809c69e5195352fed009ad4dc69985e30748615cac1ea84d0711a6a4ba379; 0x96aae7818cfb79074914c18ea7559db1f2b6229fc8b230c476d1157257f4aedb; 0xa3d978fce3c86534b79c6df5e3c34f198e85fe9ec6cd1c293eac1ceb39ccab; 0x3c2fafdf16562e5d2c54850e07823740e77a7bb73b7ee1055b40dd7e8aa6f989; 0xbf7db95a6b974e5778fab4f4d8f184594fd7b57fe8c9329fbc59c86f2708e097; 0x5272efa22f90c779df5bde37aff5037b196f59c0c0599135f7400d9b027dad6; 0x1c02758f67dfc1df4ad8635c857bed08feb8d1961721737a1d782328d714fe6; 0xd2b84dc0257b7ab70647baaacd9489598ddbe1d7c5a2ba84051c53aef36d417; 0xc3ba580298d656cb3860357a4272f024018926265e1c2b96345ef444e7ac24f8; 0x6bd2577d47b0e9f6869158ab694a5ba52fd543d1c1ff0d2a51161a0a6f9cda28; 0x75b976c861e15d7d6062717c6fe17fe3f8dc010415883d09b24543aee3a3cc9; 0x7415c49df79b0243874dbbd53a1a4d31971fd606125246d4ded34000515fccab; 0xf289fec51ea118a7d51fae4a8f7338b86a26270e3fcfecc9c0184da003e07521; 0xa07e63cbbd8978fd52b441537013ba4f52613fe17d7b2357588362626d51dede; 0x8af44d89c1dca41df566c15e3226269124a60acb880eeb10704263531d35c5b9; 0xd6e0346b2ca13f0086511a97e13d2facb97ab29f3737acf06e020c89f2188c68; 0x1a9063c127f4cd429587e8648847bc556fa54f18e3c98b285b25d76b5f20cdc1; 0x35ad3cf641c71880ff419d9ada0f9c715f14e49a8a9ed6b9b5ca3603410df70a; 0x925c037f08136800c8d017ae7609c39ad0cc12794b762670fb761b28a155f806; 0xab1917692c4b4918251181df275313722892461c0ead94ae3f1596408dcfdf5]
    0x7e44a52d4b46b005ca417d91243e86645b66fffd04cce22537827794f1dcf541 0x5e7bb86e5fdf5478542d5d10c793b0952af41b8a9baf728d11ec83bb8b3e6320 0xbcf6c2f4b07d9716cc10408f02d); [vm_compute; reflexivity|exact prime_341948486974166000522343609283189].
Qed.
Lemma good : good_curve (cp secp256k1) (ca secp256k1) (cb secp256k1).
Proof. split; [exact prime_115792089237316195423570985008687907853269984665640564039457584007908834671663|]. split; [reflexivity|]. vm_compute. discriminate. Qed.
Lemma order : ec_mul (cp secp256k1) (ca secp256k1) (cn secp256k1) (cg secp256k1) = None.
Proof.
  apply (order_ok 0xfffffffffffffffffffffffffffffffffffffffffffffffffffffffefffffc2f 0 7 mp mp_ok good (0x79be667ef9dcbbac55a06295ce870b07029bfcdb2dce28d959f2815b16f81798, 0x483ada7726a3c4655da4fbfc0e1108a8fd17b448a68554199c47d08ffb10d4b8)) with (l := [
Plus (0, 0, 0, 0);
Dbl (0xcb35b28428101a303eb9d1235992ac63f58857c2f631ee6936d3aebbeddcd1b1, -0x3b04fbed296cc1277f1659ab9a6f3feba665d74e98725ee2d39e827bc28878b0, 0xa14e3460febe2c2316bfcccc1b764790c3b7d9ff92663ea740240f16b583e774, -0x3c8b95972f12b04b3ca25330b2bd449e8e938229d1fd14f76cae42249ce0dc11);
Dbl (0x6ad2cb95963c033328d4857d4f8711deff557dd9faaa673b400442833f0efb64, -0x1b511f0c4acacddb11995426b44becf23d1a165eac933b36c0dae7f6c721d3035, 0x2c933e2a83bac0c704d83956ce68e1a07920f532e04e27ff098c8c712d51733d, -0xcc0862604f39a0c08e4ce0b1d06b205a54268b6c11e626473e3a3a21a84dcfc);
Dbl (0x9693023fb325cc6c7bc993eb684358ea623d5feea8ff351df662beabd0efdc6d, -0x203e697a2ff0b71f15bbe8e0b1128a2612545720e641a25d3f0da1b92ba257869, 0x58909b0e3b1d179e26d093a041c3e56b0e5fcd45c4d389144042c9dcfcec275e, 0x6acbca9638108e08374e790d2f8fb746c0f38f81a62038c77abfdadb56826ebc);
Dbl (0xbc380350880ab969e653d334691ca8c2da83b2acde59e7439ed92d96a9654a07, 0x6dd55cce46f1224cd99f821ea3a2f0a9ebe970a9b8ce11ac81430dc918b68adb, 0x8a62511fbb16418a37f7a5ead3f099487b15785e66a133e078848957eec143eb, -0x8696444c9f994992fb103911d7efc9d6af6d7ba29b92732df8ec73823bb24fdc);
Dbl (0xb68c9cb56c4f0fd3279f2dec6acae3ffbacfb8384548d24892d676cd6beacbf5, -0x10ab9b201128ebe909e6b37287520fd58164cf175e3decaf3a10f957ce0bfa99e, 0x822c3c0dbc5c7d8c3c32320b58378c5c160825393d62371ce9fa174521d13e00, 0xd9690ecf0b9571b77cc0887ee3bf9fc63a5c7330cffad04355faeac0e641f21);
Dbl (0x57aaae4151a198790e40eb37fe0dad5ed4d4581b1a82c40124b58ac767ed1ec4, -0x1a3b3ccfcc7443b593002caea6e5cc086509c6bce8bc4354465c8e5f864c2e02d, 0x1e05743c4ad91be301d2b36fafdb42772de829193a4a9e64f4882f9890335c35, 0x6cda36c32abc46e74112f34db81c84c8eede3927bb247626df1e0bdea815270);
Plus (0x4f51e7f40598f0055487614fccc230afd92371c4b8a603aae25cedc411d89e0e, 0x15807afa23598e6013eb9b7c860841f6a39824ef2f2a62ab949da41a6c22ee0d, 0x1893a75d360a399fda5d892e653a99bf09c0bab83b0904e506eeaf06599fb52a, 0x1e27c9d1b2f4ddd9ed17b4408860785eb152bb5e327b28e6cc94c9165663753d);
Dbl (0x875978642d00b859133774fec1878f9e7623f6df9c734f7ed297e920a77b4406, -0x14a1cfa9fea71de68e71e2ba70b5d638c74f6dd5926c1a65b4b1ea2d5127c49b9, 0x478f7c3e95bc1e51fd80a25edfc36ff0eb8d5523f1ee56a882e1aa48e6ddcd40, 0x49098a07b728aaafaff50d946bf2d2a513aa2fa43789f3e06840d7ea9bc98e5b);
Dbl (0xf0d3817330010db820c7710c8ee17a157984f4bfd3bafbd4a49079efd7754990, 0x8f3723c85ff3164db3a07559b4963e07950769fd94b7a173e978889b3444bc4c, 0xe28d41769f5865ab14c24658822fc9961aeadb95b0bfe9fe782f4a0efece7b64, -0x48eac5c2254e673b8f140471c905697727cf02e9fff1852fad4e9e3e0cd660e7);
Plus (0xf7e66214a35ae7bec27b1ecd5c0de5ff1dce682f0f4e6588e11d6ec7feb9a5c5, 0x66bb895828812cbd0e2e30e912acac9b35c6899ae3c45aac3e85ba41d4ec6d63, 0xf00e609835e2c1460dee30c4f7099e4737e6b620e1b7006868ebc02f9e477cb5, -0x6f37aeb62b4bbbf25eca364f9cbd1c7545cf2a43c14a2b923dfbe2324bd18a68);
Dbl (0xed7816fe6ca3e42058b150c9eeac31ef8a6bda7ee9e51a0ec33e09f96afc74bc, -0xa6420f67637bb25071e77ce944474fe9df3cfbcfc86659791d17ebcd2533bdc8, 0xdc4792e8a5be0591b11466a7b249cba8f2a33a30c8468e1f561a5045057941bd, 0x37d37953fb0fa4bd1da2e0c78a3d18e7906ea3d2bbf400f5c11966075d72b11f);
Dbl (0x62f219d148d24eff34fe56735390098e29b6a2190daa3dc0fbd1d33b92531a49, -0x104bcc3d6c16aaa6e41de7cd3a7f9df365fe8717877572d43f3d2ebbc048b91d, 0x263e40b90e093d69ce9cb94f331276dfca50fdd5d52899f82b416e3f11684268, 0xd38110e4317d0ec08c09ffd9caebca5fdbc0a7ce9f3c36d91be61730894d5d3);
Dbl (0xda8eabc70379e66ae8e505f49deb2e1b4906022def4c45ec320e33aed7091903, 0x7b5b31118e706a6f8d21e90c3e5ea4663c618a515ed94cb62815179af21e1ba5, 0xba974c11f5f6f104f4a38f0164419677e70a8dc4d1e0c492b7e51bcd3a94d1c6, -0x30a64c00ff8a9a57ae5268b8915895ffdc90bcc50a5f4835a3176aa1164c157a);
Dbl (0x6c49014b33417076abaadc7958f95908e93dd2886468bd7d27d61cef7c1fdfdd, -0x4387d42d834ce77c2bdfbb0b5c3cac71a4050b08b24c228ca392b55ebcd59c9b, 0x2dcdade930241eb3da0207e1a22e90f4e54b1654ef831673a369c13514d214b2, 0x1d7ff2dd811340b382fdc822936038d852438a2146b088d8ab34010335a40240);
Dbl (0xca43b3ab114e7c697fee873576d7b89f909e0592f9e805e00246c31200fb967b, 0x1478493006042606ebaf3a073842ec13860fe45dc5db3cdf4018312111fee64d5, 0x9fcee97180f397ef7f1ea6a9af040c9da7112c47f135895f18340817b5f96aff, -0x21dcdd8efd150c268bede9c019716bbfa25aa10b288f800c3643785b508ba348);
Dbl (0x1b5d9cdfbd96d7eaf397653b120ed6cb0f4bd05bf004f79c2a9fd0bcdf4929bc, -0xbd2d5b4b69b8eae1df0bfc0ac9ec40498debeffeda634d668b3379e7187a574, 0x2ece1528caf03c02071834190fc18b0cedeea0605e73d1a35c9a08e6510e906, 0x53ff9677d1ffe6ad3a775007ddeabc1b0ff47b13574906bdb2d6d177386b2f4);
Plus (0xe0cb18a3edbcd600a286c6b603e220d63bed148bfd0c00e3027d30018ec79731, -0x6b43c8bc0948118b6c1d52a0b3533722d21c378eec2cd78ed707757675db4c2c, 0xc5640c3ef664a58884cd704e191a6034eead77de46d23673bcd29a759b39ab7c, -0x3df7c363ba63b827d0f45fdd0e886d1d3b97f3c493dee29b33dd46129a799820);
Dbl (0x6fedf4339b46436d0db4e1864076fe618c51a754e1c0ed5708b889c5733613e, -0x31295687438b3691e3d17d8dafebb1045d575330197ec85036975ce382d6854, 0x30f036f2d126d8f6968324ff42731ef15eeb7688f83513e3844fc2eace0af5, -0x18ffa9bcd5a0771eaf92f0fa74c4b5f3dc5c9f27e00cbaf762a52d5d2f19209);
Dbl (0xa377ffff0b36d0535197bead9992fee7698334fa5bfc270f64d511cc9ab7c03a, 0x28cf04b1cbfe92d8768178540ee817b905160ac1eee61d1a85c9bf4546c1ad57, 0x6862083ec76250ae5213dc10e6d2a32a6ada8d51e30e61ff447fc6a4b31ca726, 0xccd96b79f4c0b76f998c898d50fda9757e88f96dd1d6b7ecf22cb0bb98ce214);
Dbl (0xbe610814de113647213fff8fc6378b31333e2bac4ac437ff9a702a6734563c9, -0x2205da3da20d2694587a87007f1b0adffc57375f6010372238068eeb7d646242, 0x8d942cc619b325313df8fa55e5c71316b73c92e0c7ebbb2df4d2261a408af0, -0x104313706e420e07202194031d638c56d395896464c74366718eaff086645ce);
Minus (0, 0, 0, 0);
Dbl (0x92ebb512788e5c3c7a3baf1feaf8281104d50976aef98bbac62a97be2d8b7a7b, 0x9ac262009b89c175cbd678a06fd84f5402c686a24698d987284aca6056eff453, 0x5451b38f017ed660cdacc050a98f48958c36daae31d09e1aeafad0be1c77641a, -0x3275e7b129800aed4a29e992243f38ac08a7ae21b931f0bb29f8348a56722d47);
Dbl (0x9b0f855eb9be64f095aa255167f0f0baf01b2cd3cc72ef8f1444747071666278, -0xecac6acdf617a12c0fc3cab2cf7b069a048c3961fe6344fb5e0e0a7396f6dafd, 0x5debcc719b81e297ece66acf5c5cd90c3479aa2d47d460e8e685a54e458b6bdc, -0x26a27b95aaf6d1c9e9dd930d18c059da3dae6bc39e15846556d58318a76ce85);
Minus (0xbce29aab79c841a60c28bffc2bae004daa14ddf784fb02d960f9d83b5d7f3800, 0x43d0990f117071c4241c7a212bf44f32c0ed5e8d8b7e57c213a61104ef47913a, 0x8b5d9bc14f13e760a57bb7183a97d2231ffa691ae017538af9eda7a098915f61, -0x7e908e80bdb1c75ea65e8d2ab1a4dc62b9d6d0bb7e6a5f2d6077f8fd78a096fe);
Dbl (0xc95c70effee378ee51d4695a7e30804db90a8fdfcca618c180cec3ec5c83b500, -0x5f417de978a22edfa469e24dea0573f9085dfc70f76d02f457fd2960ed6ec854, 0x9e624aba3c93476a1c1ee0cb1425ac0e200806a56469fa72c409926db514d680, 0x1697f14e3cfdd54bfc46c4b390e76f70dbf980d8c8d01b56f162416b83c20eb0);
Dbl (0xec7e64a924b93bbe0b71cb15729ff63848d6104ae7d55a16ed4a41d45b8fe684, -0x5968060be05e4550a107807a5d46ff6ef624d4321cad7992e1ba5dbad1798600, 0xda7947ff19ca40ef6caf0b245130593d7386691fe132793106e05a3dca8183e6, -0x5a4e2d67463497086e8f4a0565b68eed5403cb63ee254077874028156d100d63);
Dbl (0x4a97f998b50e69d9b7f9c654687b8490e7f4a168b22ee05f0491f67c5bcae6b4, -0x27e9fcb816f540970a38efb8f3bb1794b7b6ec1b1546063d8afd671a732062d4c, 0x15bc3684ae2c578048480c3cbe2205afdeeefc3a383c1028ddb1105441b292e7, -0x40b14e41637f2b157c565d83e2950266c9f2b651777595e52fefa5006b9af2d);
Plus (0xab323ce0bdeeed1085ea6537fa41e159323caadc67910559c3bb9675bb44d822, 0x1b79594a719331e6c19997e83620ffc4a8c62b47022e4b98e958c7f757783564, 0x727c27301401805d9b84b78097d1d65be33f20fce09bff9b178d7b7a2a9ed5ee, 0x5d646fc43b7a6992d9be32e74e58de9dd2a57ba78126fc34cf93e2435e3e9f0d);
Dbl (0xc0b764bf04ae63359beb2b4fc6f722f47da0482483379a58ca50aff8c2ea4869, -0x1aea680db6da70879fdf3fe19077a44c6c265cc2a38ba6a90464722c97c4d0825, 0x91139a7fb7c410527a5580e2a973ed19de91a4c86ceefc4df3c5d842dc61ff7c, 0xb591a58dc639cc68ee6b80d560bc0b59536beb3a30ab739ab716f9c10557be5c);
Dbl (0xb9f84addcab19fb53a62e79564f6075b848477821df6d6c58668d8e9b2501575, 0xd670256d7deb08454ce883be32981339ddc4537d27c02bed4c770daef2e73483, 0x8718cd05b2926a4fa5036246d666daad8ca3b5a3c98e7d865de6e8545bd1131f, -0x4beab7d1b16e8543048c13b33d73f80d14132747bcca21662f6dbc1acc88d7c2);
Dbl (0xc985b179caa5bee0ef6acefc42c0dec227b196c5dbd0953cc43c5868392e7cd3, 0x54a823a57da8af30a8be0434766ae1afc6d78eb92734cc2507b3e0f6efc1a7b2, 0x9ea3368323ce7a1ff0b9f641ce3c90557704df763321e14b45e35824eaae12a0, 0x14b4404b5ceb4c2c32ff2f4c679f8ac58aee29f289033d697669b1c2566e3a7e);
Dbl (0xa6d04e5b19577537db75701165cc1aa476cbdc92cb167d90af93b785d698742e, 0xbdac29b962115ea33a0a115ae783fc7dee05691e6ab124bf8c407a598878b073, 0x6cb2cf1d90e23dff3d7e7e640c92991e4765d6b76b6f46cec27537b1a8c3894b, 0x2058ae474acad1d6ba1a83b0a8025efa6cdf880696de36bf4a6899e681506c7f);
Dbl (0x4479d94c2f98166b4c1d24655334f9bab459cb5a6c074f1e9bb5b9ea97b6a18b, 0x62a078adf0cf64e9f1a14ec0ae8d3742c3de95d9c8838d3019f9614bae96e625, 0x1250f56f9bc0090a5305d836dc51e3fe9f40680ec79afbed8fa63c9e881374c9, -0x230a8719be6d755deb0a1a8aa993f98da9304d2c9426822f51ae76bf78c5ee8a);
Dbl (0xbe5aafdeb2f0b1599d1b413e816d0ae93363953c3d97e4fd3afed1c367f9596d, -0x4285da49bf5468a41d4b91f6e39dc72abb96589a72fec0cc2e28fdef6d45d488, 0x8d8abd2eb30552dda136a12807e6feacf10e413ea6b6b639125ca53d523ca891, -0x33a4237f1808ba9e406cedb0a59c1ac31d3b27a8e9e005c420d5745315312a79);
Plus (0x7b6198138cf1b73b972ff8fca62e8cd37afe760e60ea841120d1f938af3b5f9b, 0x513d7a5dc5d9d33bd01a0f151af8f5ddaa2402234ad85470465283ffee43b287, 0x3b76ed5762984e1d6181e6a28ea7061ea36b2c28bc76f7f0e26d47c3c7469e1a, -0x45c471982d7023c078c9331045889b41a240d90549c2800a08f3333700be2f03);
Dbl (0xa6a6f72a0273aa6f7b6276e647117f1c0e9f5561a551c6238ec167ba7ac03635, -0x2221c2a4666307762f95d1f4688e7ab60f2529db6fe40017c62077045982a178e, 0x6c7cf56ff44b46a99d74c57da41ce0f9bd2448b3a952547fd63066ed6ef96778, 0x76e50a9bef7676950e7d97600e37b41148cb63027b6939b7b770f18e36e8cc6d);
Dbl (0x8dee3efccec9fbd528bcbdfc380d106f09ab41277d36c65ed6c4dc4784ea857a, 0x7e9109f1ab6d237b52c6233d46453e5890e4548af0e459f783e8cbe2a48509a7, 0x4eb04f1ba95a6ccaa9e464453058399cba2c109870eb3bdaa97b0c93f41dd782, -0x5e27807737148c8a1d60e704012cf7d449c4f154acda8f41f0893af414939b9e);
Minus (0x46e5513e8d2177dce4530a851219acdbe4ebcc6ceccba7e02934fb8e2c54f476, -0x602f10770b948d7af948d8f634c878702b74904087912eab8901e7420c4f3df, 0x13a235d8a8df700515eba0362f6f2c3e40d02748069b66a77686be16e7a30b24, 0x3f258b132bafd4bd009422da0b111b2293ea77ca84d57230f679e81840b08460);
Dbl (0xdb3e8ec5d990ec59421e6569d96dcdaecb7f725432c5a4ddb78439afbfe5554f, -0x23cdecbed11cca3538ea823a592de789c524bf2ab7af7d8e95a246c2d91901be2, 0xbbc4178ff9b36cd88a81d1afc5474c5dc2e536b9e0f0acc77f9b2426666e05eb, 0x7a549e0377c36bea062b4b76d3a56084838cb9c1278f396e189f824c9006482c);
Dbl (0xf18fad968cb987adc7d7c35fc6ad8974a3fcf82a55e9400e7bf3015e6b558a5, -0x341aef8155267225b84f83c1129eb67f111f4de69d22cf122d1c900099807232, 0xe3efd578d8db5b76be90d381dba2abb6f39f69ef7b3c3e43d78758f5ad0f6f, 0x3f41c31f9c9c69fff2b320dbd3594391fd551f32bad14b8b9969d4a7703a652);
Plus (0x3b3151353fdbf1ad3d9a8daf92785c64866bd6f4c06c6afbabcccc32062c4665, -0x2dfc7ea95c16fd57a0114a811b744d50016dcee22b9839f3748ec2fb006628f0, 0xdafc4eebb9491150ea6831b21426d70a9b5f65b954f2fc96f33565c5e1e080c, 0xfc04c11cea66960fc653022a2f6658a55299cd25e15d982543987d47cb19388);
Dbl (0x82cd82212ae9dbf4101c8671a40de941c0bc39b23359c41063b171fe4cbf7c6a, 0xcf560c624e549b7b75c9dfe917c089bb70899eeb05ce5c35ff039911533569cc, 0x42d55d235ad9f1cfc01eed52110f1f6251a63fe8d72fce0a0c99268ca0d158e2, -0x3f589d84df18f008b2eaafceab870480909ef201d86300eac81c1653b4f4d953);
Dbl (0xc5ab93dae7b4d1d3c5edfe8bc49fa6ba5566b166494b830b6cf082231fe99f39, 0x9e47335685a3f69de417a2be480ca26797fc0cf14ae2c708daf4104a53f423fc, 0x98a1848dc472f7c95a311a1583fdbe2a681eaf83c027acce20c6a2fd8b6aabd8, -0x561c82ccb1289b0635cf65b3e76959cd0f84037300f8739a0e392c864ce97894);
Minus (0xb43bbc8183c9de457bdc09f1b9a785e8321b499860f62b28af510265cb39a1c9, 0xa34a35df8e44bd937dfcb3e7b25136c2e47c36a391640e772b9cb5aff04b1c68, 0x7ee40f068fd51ab4bdf4ce046bb87d340a603ac4b2e3504a605879bdcca922a8, 0xa8e6e3d317a95bbbad21c0f04c8ccf361a33540bb608cccbc5136aead283770);
Dbl (0xde12036f73e80356f7db91954e2ca46c56dcab93ec4efda7fa9e72b8b3a2b20a, -0x2291c946a0bf46f28fd1deb7521dcf764a2a4477da8a6e9c92db5a80b433cc639, 0xc0a33f39c8be7fa875dcdfdfb2c1d4e07c369ca29f61911a3e83c7ec9d02d330, 0x1197c34c8ca378d5a7cb32a416af77900517029730af857795a7bc9553b386fd);
Dbl (0xeaaf7c28dae8dfa52783d0b7ef5ebc91aa999f58db631588e00a05856dbef4cd, -0xb5de42807ef7faeac174cacd6b51f3c6388e61583093b9e142b6e7ac72c56bd0, 0xd7254745ac449dd26ca852670e7b2165dc0442973b7deb7f559e4b0a505818b8, 0x5be88f160c3da00c5e65cc0efa23d8963f62f994e28b4abf41c99126f8c597a);
Plus (0x8d9f58eaf57c12b597403938a2492a37d91ad0930f030899c8bd87d499ffa18e, 0x2b4169c3116f04718a7f1d22da9823dbd0cc36e0641e40ee12331db9cf3f08e9, 0x4e58eb226529fd26454464b5d4a738510905c2a1733b504ae5c9c295541744ff, -0x2a32dd9bbac76cea828a179f803ca8143b67444fe60bdce4532b64438fd1b79d);
Dbl (0x27923dd35874b9d0c3e1b1930352c0c3b0d91412f38fa8c1341f5a73beb4f8b9, -0x220a74733606e362e6d838e91131cb2614a5f6f517fb18d013d79efc2a7d9a2df, 0x61de260f8f2dc641d5671fe3e19dd05802b6d4d77e5d2dddeeb5c649563d2cf, -0x30c020183634c80539172de50a073a35681439960889802ee4be6e4a2f2b74f);
Dbl (0xd8880a7ae61955a53b91ef1d5de7f4b9646afd475edbbc8974911329e12fbdcd, -0x1a4352b65422c6d32a060e95804f8ce58a213f8eb6200b203b728dd1bac4469a2, 0xb725d9fa874d106bedbda11a8968671eb7e0704be7ba270241a962b6cb63427d, 0xc6b0383fe88d628a967a4b3374ddf9c6a4ce776f9360cd6de8b8f97f19c9a2cb);
Dbl (0x8676b3eae525414b100a173e847e521f75a5c46ae628b3858b1c1fbcbc59daf7, 0x1111d10e821e5a493e5805935a47a2af94da445396b2fbe4b738f49f9018edb4, 0x46a07b6442e092ac94835b868a5632a799c50b21501075739b6b332df56e0475, -0x63106a7d28abddd6da9a1efa65c57dd78d6be6b1defea936bbe46a3ee2b464fe);
Plus (0xc0b18021694e03db2b1f77dc13525e5f9737699ffce92807a5f5b50ecac9f1d9, -0x129364d5e82bb9378cd059d9437d5541982c94a75ad4625ad832baa951548904, 0x910abb448c4a11546b0a15de944435aa5a7d4da787daaeed929d8227fe5c3338, 0x86948a49ceca12f6ec0ebba30725383400f180730c84312633bea80a606112c1);
Dbl (0xf53ade417a0d913b3b9e411781e6e8de0ff1a6b169ca912fe5495f51c90530d8, -0x2cfaaed409e0aa6b343ab3719d3271b797debde12efa2a4d581de574a278bbd4, 0xeae9baf2ca3ee68febeb56ebc3c7b4f1d50b6434542093974b6ef659254cd8e1, -0x361da5ae59fe7fe77b0926417cdb13048a8813258c1e0f999cb3919e9f7828ba);
Dbl (0x32f78aa8da44cbc85c1d785fb24f0e7f0da8ec5386523d436bb3a50d1e52fb8c, -0x29e21aa577e947ff1d8d971661e2bd7a327de2391f4b7c74d8ccd45b7389e2d75, 0xa25a186d2328b0ce0b5fbba78509fa09884c4ae0fddbac11b1aa91b1691e2b2, 0x236bd082730989c579c4a37fb62f2f63af147f2e4461ec910dc75e9264298f56);
Minus (0x8bc057c4c031b4a13b7558f5b4b89f98386b7aec785a02b4e7eaa795000201cb, 0x2781afa995745fd2f35504fffce3fd9cea6c1365591e405169a8df0e914ea5c2, 0x4c4a6fd36ded968ead9764858f52b4d6626e0632ade2fa943bcd6c6f8cad1fce, -0x67707e086c0dc17f19ed8b0a3b880fd322981b5af8c285b44569a5f8a9d6dc);
Dbl (0x2c5edb78f874848d89ceb49fa59a1ff38ba3a6605f567ca67bb74a6e78c097d7, -0x20b7e56b8b52477c8ed413dce38272d418486b06ace054219d3b6e662580768c, 0x7b0be977e66b5633878a63700e4b8d365b2a30e773cf37429f64aa0e34cb30e, -0x667df3881c4e829712dbce3f84444604b9cafb317016b42f06919a510cfc757);
Dbl (0xdebcd686b581f6645f94a93467d0ecdf9e4ad7edeedcfeed57d9d6364c78d427, 0x10132324aa38de45cbe6b9c79593a1e65702ca96f433c7554d533a3090f641def, 0xc1cc0f5d6c6d7c8fc5e1011431013040e05ac70f323f7c05374f90bab2337266, -0x2a6c6d453241d117ad08179952492e90264f7d9473e67c781f7be0cdf2b1c4ea);
Dbl (0x81751b61f3b4ad7169d8ac62378adc14043339e3a60078fa2bf394c804c26e20, -0xcbe432f6b2c45b68fa24adafb3022c0c99f595d65db68931d41b776847576b1d, 0x41773b2ac212a8d589d8fad82440bc210dc692de71f45c5818e6b1e5dc2750f3, -0x1c2924335fc07896590a25980bc056369203e56969626f062d6635cc3910a351);
Dbl (0xea6ec05c50822815af2653e43c1adabb3be24e602591c72373d731cc1a44a051, -0x111dfc880ae94af33e82c7217a6fa69125215107a19a2aed7006f49a271b0d487, 0xd6aea792a30dbb2f49d387d7012c0513c57b94ce194c58854db63d45feda9d6a, 0x80d2dcfc2fc561a802a26c9c240641b035bf2336438bb709d86f03cff162c158);
Minus (0xb3e1c4614ff13b4ca665740593aae9a273ddb5b42980b75abcb8c01e7a708650, 0x32d7fc5dbf08359cbfbf5b5b0375fb7c490b7c44aeaab1acf302f18211c31912, 0x7e657fbadf7f065e7e01736133995fc55a603a653e0457ff0ff989241b00103f, 0x661211e26f1aa0b47d0f684916d1038f4146aafbf55ce545643a5ea40c8382);
Dbl (0xe60635d4ed2d254e05003b55d58bd309cce50b703f8dbf6d4700a65d85559a25, -0x1de5a17fd7679964f07f1944ed01d28b68944e555c146d2592809e0fde5599bb, 0xceaf28e12b7a187450995cf3fcd0e783fc8eb49eb8accd328b04975b09a395a3, 0x340890367b61b8ba95fcba53deffc80b83227fc04a4b632558df4810f42317e1);
Dbl (0x7471bc58c865f770a22bcb1e2465507731b3ad17d19c55c851a736531fefafae, 0x52c23fa572c43b1c14356c9b4abed3b19310be38c0e4535b4a62ad4de4ec89f0, 0x34f74538468fd762aacde1999d76caf70fc377458fba5b941d568c22034084a8, -0x645582eef0e567ca1b23f150258a06773eedd9ba6437d82b180bd819976ce7c);
Plus (0xf7ef6c404d7a9fe0a56350ce0cdeea47691d21df01fead1fba08cfd4456ee5c6, -0xa5d068806d789d1d1f15c5587d50ec30b7e58d5005366e2d615639bd669634e, 0xf01fe2cf63599d005042f026e4dca609f276c6d19b4568c6390146d7e852f1ac, -0x8d89acf12d65b41024584b5cb0007d51bfe55c82406ea90cb7c20c618a6c7898);
Dbl (0xc84b8bb00e0f4407e49fe1be00895dca6d817c8ce64cfebb5d67625411bde644, 0x2c6dcafa73fe6c863e18f27415e11f0ab9ba17f5ead495848d7366326283c088, 0x9cb6208e3b58bf961b7d8fe1092825ffa19cd2b916c610aa6a7313977fbf2720, -0x27162613a3c0140ea4b269daaa2b56dd1f7ff207a7bb1bea44a274970f419c81);
Dbl (0xdfada4b2106cac4951ec538f3d828576d57426ebe0d870d5e091e5b044aa5639, 0x4e8135dd97fd642afb502064d179b174938cb3a12874597604bda1dc3a95c1f0, 0xc36ffab63b3c27eeacbdbd94308385dbfad275bbf2f1efd2eedb3fffcc4111f8, 0x47932449e2339287a45b7f4534a5c3a4becd9324390b6d64352ab68ce281bf60);
Plus (0x4470036318bdb986133b15a037431f5426ad6e00994b2a0e41b763bfd51b71cc, -0x32792eb3d1313b4731ac8c7729e090cfcf4fffad197b121c4a5f140c600e96c0, 0x124bb2cf9be5e9822702f8bae5c705e5f050639c359c51cb742eb3f170c01e2b, -0xa9aef6d4476385b46daf6df42c6fc7f0be85d3e1a27259997fac1ab1a6c00a8);
Dbl (0x51ee9a34eead0ad899a54439d004a42a2f3fa11be3c4773c1dc6457062e3572b, 0x1ed5cb67fb111b420892c7d794c43ba44634d2984517aa30b6a4507e332580e9, 0x1a38dbf8965904b741d77a73193f95c44915f3d0ca8dca55c236d04790d2c834, -0x4e2f8dfdbe4482843e5875fb8e0b3dbd85fdb7d0cc825f5da186d116b6813611);
Dbl (0x602c9992d00cc6030985312c38033bca60ce74f3a25777862a7288488389cdc1, -0x273f7d5064c2720ac1a414d7548049caab349431925507daa8faec262d62ddea9, 0x24217af342a1e9c7948569ea3ad2a67fd008eb2226f76e30d454b42efb1c69e8, 0x268e0b9937fcacd68c0c1c4220f48e9cf647ba267cbb99f84bcacef3e4f9db49);
Dbl (0x2caed624594a3483ad98859bef75a97ed7cc509bd906bb2b23fbf9fbe4e5004f, -0xd8098d8f20bf73bcfc1de03569fc924641a242782fa4f6be9ff64262de27fcb7, 0x7cc91044b3bad5df27c028d022a69bed3d1281c2de52a6b318e9e6a1142cc8c, 0x251d0fe794f8d9f24d5c2a5c5fb106e6caf8f1728f8bb3d028ae73606fb385);
Plus (0x827ea690bdd17635ca06bc081d773b08f126306185bbc8d5301af04ff29b4d15, -0x2cabf8d9e32655e0263d2653facd9c1876384cf4e592d43af3bef0b444b6d710, 0x4284dfd363a39e40bbd3680b000f9ad974bc4ed15cfb8e101a13536d8f3a502d, 0x5da9754d8bd66086a96cab980e81b855c1a60f694868f25f75d841637040fa70);
Dbl (0xff486a88ac95151d852a5270924d4ccf1fff7b676398e499d324893a4bbb576c, -0xcc91c5c267b4b96691e7cf29fd9f24bd6e72b42858154531a50d2bb846feaecd, 0xfe9158b861078bcff820c4e06d10d88eea026d7aa3efeb8b7ee641e481c7381f, 0x5a875717b25fa1d6c1d69018948f0778a17a8cd36ecbebe11028151d97c1e25a);
Dbl (0x8309b9cd7caf364f8a4726b848e574837a1498176583cd38a99bbf35c27c0e01, 0x8a24f50091d51cfacd01d4b39c8ee1d3d28d93a1d9c94c30a017fdb44ca5c743, 0x4312f486e4e8b90d62f2b067f9b3f3b73f94aab58fccb4d380346aa3ff7e4127, -0x1d83c47d4bcf751ced405a6580f5150665620f03dd61bdc852dc2ddfa812a69);
Minus (0x70f8d94163bdfd8d4ef5d28b1c9f1197ecaa2fd4fefb546c23c679c0597467d7, 0x16492a24d399eeca93e3dc708ae52a368571d9a4fda64499604ae1009348ff1a, 0x31daaffede5769c2cc10e53c2730b8a3a8e0d89a9b8a506b871dfe80a31e311f, -0x42f42d6a06cacf4f4be1cc1be292550ea975e1e2ce8e85f8f8dd1b4fc1eefbd1);
Dbl (0xc3a088da9a740fbef9a36dc94890489302dbf3a200c6aad18428714f41d62ef0, -0x964d7c0fb3a0610b8bf527ce126416d45f897afa14e91a383f9f70c46b7454, 0x957df52861b6dfd75a9c9798b98626bde391b0c5b90ef9472194d803f02a3de2, 0xf21b4ea23c0a54711c056be16ec206de776d55a92758318971889262a449824);
Dbl (0x9a1bb41d1a00d1b60cc94b47fe3b071dd38189836c875b949a5bb1b3744d5622, 0x778a3e1c7d442d6600aee87baf15aeedf8b4fbcc6a059e55e65b853398224784, 0x5cc557b28025685b518490dc1cea9677798e17372e8edd638b53191021329bea, -0xc8fe8f0e2c03d5e1f83927ce1a10e94d4b7945f42830eeb350a8e9b4fbd978b);
Dbl (0x738fd7bbbe9afd0e286fa67c1b3d9d1d4306cf1d91327714eb87d7e6678bcdb6, -0xe9f45b5861c8eb322816215dbb69b91e08621f30bf8fe981838e55950241f8, 0x342a8ca566cb1459c78b64608f14d738c23e82811db5a1c8489d717daa1a9b1c, -0x560903ce46813c4e69df99656d7a6d1b5bb48c0264d487fd1602a44dc2fa2dff);
Dbl (0x245df8c5a6ad254b4c4c56c0d969cacd2ea321b08b1ed4d55515f34d582f7420, -0x2c2d3badf9cf50512a306a0da6ca9829624d1cb705114c135e6e45237aa7e6b50, 0x52a9076483b57d3b16d330daefddbd5db18784245246df99e34ce690067744e, -0x986537a1aa744a19c5cdbb7707f824b84564a6a6154d1bf65fd4189b09b3db);
Dbl (0xb51b78655a4e5a25c8c18dd20190b5571b736e586729fe907b550841e1b6724f, -0x18a1f274baff4637bfe39b9b6e94360db2f1e8c4f81ccc2d4a6c123ce56d27a6e, 0x801fdb31efb304ca480bc8c25e1ec286258e204764701f3ec770b0be640185d9, 0x505b12e8199ff30ed1cab364979a6fbca2a0e1bc86331565093f6debb7f2c43c);
Dbl (0x2e95bd430cb40948c3e3069bb698efdada1d87ac3d902f2d55129e9cbdb660d4, -0x8e3c41f27be5dfbe684c1952181225acc1f1f91d7e5d7cde19b4612886b02ddc, 0x87a2799f4898f3a71ad4975487fd7ade180a320d2011a7099b2311fc750aae3, 0x17c391a61ae98db2ec4cf0d503dac84b4df753d5affaab28c1c82a190b6febb5);
Dbl (0x61ff0b09e723c8829eb256b349701c992867da5babb9246b4e80f4a06a7739aa, 0x5ebfab968388ffa23571a2645339b5336bf455b29bd2bf3e2de7cb9ab06cdfe3, 0x258344747f5d717b94ec38ab3dfa5bc7509b96f83781ece63cf8650a6f7648e7, -0x402361c9a6ae590b7bf32fce7b86297ed20307d6544c327b28ec6fe54f348c68);
Dbl (0x3172c36f49857e7e10d1b5927bf54091d80521d6b2eb92a8998b92cbb2234de1, -0x15af07584b8d0470396317ca0af1921db2a9e2791a48f12af26c43ca570bfbd2d, 0x98d22433e754fb3204c68fa6d78511ba8cf057378e3fd2c9657f5f1a47fd5d9, 0x1b16c3cee6975e5e8ad7da433cc95724fd295f9f0cb01e6d0f59daaf06a3a636);
Minus (0x92bdbbd76eaf11c1dd789b609c1f976c4c88b9ecc07ee0eccb3e99492bfeb912, -0x4611a03135580ef6f749b70c8b799006752ee64c23f55e0e3f611913eaecca2d, 0x541cf6e0a02d8fc036ba8d7bb4ea725ea9d4b07d68710188c7164ac92014e1a3, 0x3d7ad3075a1dd1f3ad1265d892278825db62b78154c889712821e29ffa13db02);
Dbl (0xc3c8b71e8454afd4fe4ae23209d6947bbfdb44f29f3474cbf6e1de6bfd9974ad, 0x170a64f768d64a28eeee5661c4bdd2402d7053fa868e4d86af6a90b185707a74a, 0x95bb645720446d0593d6946bd4e5d290331303f95f60ba7ca5889fe27ed623fa, -0x91ef4c498bc6e95cb76cce220a85977aa1b79b8076ce978ffff8bdccaa5ea7aa);
Dbl (0xc781a37bd88a0baa945a25dcbec891a96eab33936f3ae33b924c4ebb9ccc91e1, -0x17e1617a998721b0182e8faa597fd0df72b0aa18451fb93e3499b06939e9694a5, 0x9b7acdd0b5ddcaec8b3956ad22b3c12965ed319b036ecd085c022fbd8c16d722, 0x879391a45a6a3ce01b8de5e3671728c369c513ad0938529a31aed63f43f6e762);
Dbl (0x5e1c71fb55e898f6e64912dece2b8a3d031f1eaee2af6f37ebd48ca94c1a3624, 0x214049df73c3e469b36ea795d8cdc91d96a79c41bfcfff8c51bccbc9c6d19dab, 0x2298e6ddb4d173cfb11a3e3565ecd08617cd4e3fde4156fe4ec749cb7d361f0c, -0x21173658927b8fcdb889b30be48ed09ad3915586d139d93fb6988ab3db2ca320);
Dbl (0x5adeba52ee6ac0e141ffb884efa7a7d9a940b9950373647c8aaef60dd14e763c, -0x41fbb9f43245552045b46931e5fce4a9ae98247c9a71531f67f237ce163cd4d4, 0x20415cc9ff152e15a3cbd49e8199b645f4d2af5e36fa89310b868f6f6bc94f37, 0x2ba266e852bd863c2132869adc2e3957fb154665a692d453097f9073d408957d);
Minus (0x210451f670fbaceea9065f703a2f87636b242d38c2bab6f8a7abd8d1dd3e30a8, -0x401120817f50561efdfebe8c5ec16b4ca72c2363c7a81163ad6890ff1d5282d, 0x4421d3433124b2f88057d2e2fdd1a86646d265a2cca1a063ec4bcc8ee512759, -0x7bccc94653ae5b53bc9674c1f87c8ca0aa3cc1f1a129b1bc4c425f7260049fb);
Dbl (0xa478dd7bfcb0fe45115c6952feba38f9de0842736b164666c083b48c9ac6cb1, 0x73db7e66067ca1da1fccb9b2842e63896d50bab74547b53395f15f8a3860bc1, 0x69ab14d73f9efa0d418332e3e686d8a5d1a8a621cf092ba2c45e7560056f7b, -0xd6c5040d13867f170281dc10a1f3d77088b9ff7ff920103a26af32bccb05c1);
Dbl (0x104f2aa37e05be6add58d281a2334816593555f014ce643f702814ec1391f5a4, -0x60ce18345d1de1baa9b2177f33623a3b7323e5cd991ee5699bb7e0ae5e54c4c, 0x109fdcfc7c28d1c7d74eb6b542a00d2640ae6bea152b38be697e6d17388360f, -0x601c59352eecce7e0bb7240508863f7b4e242a4bbacc5db463c9bc2730d966f);
Dbl (0xad98ae499f8b968dacfaf69097db01061deecdd4b8b7fe434720aaf6131a6fc1, -0x27ff65426eff22df724d7e2febfc45a9c0225b6e4eb7e52c5bd330e830d1e361, 0x75b7b69eefb8494c65bbc056da836c4543f165a10e791e0537ea9954448b458a, 0x21f9b2a89118ea0d45a65194c51595db9b838d9b7182b971ce361908f6544bde);
Dbl (0xe3b8c91ddd9155986dea06e85caade56b09b179572444c1c2007fd77d04d6f0, -0x3994fdd73316b2c082ed4b0f770ce3e3de6b03d9e0aad7dae386fc41664b4025, 0xca913a0cafde282189260a17a94bd4dfca930a780b357608432d78a95cc000, -0x4c55a80726cbb8df592223354fb49c6b09a932e937c4847958dac8a81ed0489);
Plus (0xc8b0931bf84db94fa5415f28eac7ed17811e72f20f534c07b85fc7cfc18a5ac9, 0x6038227b50b77f356adcff2242d80d051bfe819a033f826df6df5247d399ca20, 0x9d545fa64ef7fea2d3c69bcc066a8cf04495ea4ab460c4149ff5ee9e2fe9a832, -0x659bab6668c896395fdd3ea04b60c4bd7ca0c583c9be9880c786a9be11255a7b);
Dbl (0x6d5074103e91fdcfa4597e9b5c32b822c19b5af92207eb477c72ec4f9dcccb6b, -0xeb9f7547cf28ce81a3475b55b813bae3ee055b181075e93af8c52657899e350a, 0x2ead9c1e940e271da349ded728010972eef16fff1c729a7484bb1f847a213c77, -0xa5aa020f731f7bf5a0c75450ecad692c5b4a3953b570bf7585df7449c7200c5);
Dbl (0xb0486abb58d31b2dc9704b8502170a38dc4139987db4802a1661a40d857824d, -0x1b263edc42a10eda7b5fd85cc0fef21c361cb0d58ca086e8e1a35fb11f6b4f950, 0x7963a73dd003eac7f479277bf12348c61f9105686ef60abef6ba1e3008b079, 0x7ec1af00b1912d4727fe724b5073603d918d3bb13b482f3a86f407e2677b2f7);
Dbl (0xe6d9fa3e6518d4e9723dea425cf89cf627c6b2258bb185785b0f3d91b04e6115, 0x95d908869a9615836cca1796f817c40b7d16ef1eade6aef68aec08f8aff8fa12, 0xd02c6742500def560cd69c8378152dcb014068be11b433080bfab42ea667e455, -0x1a6b9c58ea9209a6715cb6ae75ba645c574626024c4f2d2c03ca0526715e628d);
Dbl (0xd884b65bd5b8dfcbdda21a681b317b0bcbf4d101debc21a38ca7300520334d4c, 0x18d1dd4aad1222c3d6287b31e6508ac1105fefbf69acbfbfc937bef81e4b486fc, 0xb72038878943152352503fb8af8d7ec95859ac28cfa7d980527a486222ff17fa, -0x86fbfa2299f2e497b9fab6c6ec4cc5072fcac64cdbe58ce9d90178cbfc27b118);
Dbl (0x9d1540c9467d3bf99ee5b77f3c9121f1a88e1886ce5c64aa196b85cf6815554e, -0x179501e9d0550d9d2468053524a232b98cb0c123751e10ddaf1d1f6fc696ff25c, 0x6063133a91e06d9a65e78c40ae5b86daceb88f83fcb37eda21fd8fa92d320db3, 0x6f8223b218e599b412b93e52c8402bcc951223626cb3aab2d2cd3bb4e97ff868);
Dbl (0xc48405b3038c03bd744a8ed8a5527cb83e8f1929b392d0a6967cbd721bae0b, -0x224599a9fb5094922086d40cf6b79758db3d2f6118efe667268435c312ae6bd, 0x96da6ccffe2a896f63714dc51e67f34b231da646e18e744f52ec9e0501d5, -0x3ee3441655285c8c804b56dfbc5f69b449c198f42adf1e15e7baf796ac8af6);
Dbl (0xf9bd4b25fb8787ac97edb42b9bac8deb9ff7ef01b41f5d6575086f1012bf96ce, 0xfdbc52ea7fc7f6b0790c73abd565619fdd7c6e5bcded0ea380d3f4cedd6fd4fc, 0xf3a1c827ef7253102a34222ee15d034ac50087352d9054cca4b43430d68bf7e9, -0x2299fd7fabd3b4688ce292b0bab4e31aa4a70d73d88a0077a7e41e438f92e183);
Plus (0xbec8b2eb328ebecee1a763ab16b6eded7c9a15b401d3ad34aea5df6ad82721dd, -0x1f67c2a5cca3166cf23e72317516c07f6b5fbb8973cb56e46c1b895e60e656fb, 0x8e2e86ed2b96cca9979b213dccd565782da92bd8e2b40c40e8f21bbbc88e8ae1, 0x29babc3dff830b074e45a3a1cf0ee0b0450ff95caf4354578195a27b661a9f54);
Dbl (0x95b144bd0405b76f012f298ce4bf1355bccb8671d21cdb26d904bbbeb3860cda, -0x6a598853f5263be2696b8497cfe9c7d985998bdd2709cce77721c81daef85cf5, 0x5787d4c426832d20d8d489fa6aa0594149b1db21a8c61e3d4fa0b1e8a85fd55f, -0x4dd3f9ab50f50d9e311ca7778762a712ce99c5bc759c3e5f5f1d39a301f8648);
Dbl (0xcd97a7266946a362a966c2469bb3e45413110726a2c395c2bea221545461dbef, 0x8c5fbb3f12a885e4d42cc9f7d7b32451cd675b14e19ddeae726d35f5fed4b503, 0xa51c3b8a210e761e5720aa3151d54f5017877324ee06bc83129a84a054d5e41f, 0x12eb32b5a2b4bdc2c3055d959b8857ada0efe78a7d6be733ab0858f57947fd5a);
Plus (0x96be00f3c2c411e217b1267bb305a0580c04703f9c7ba2bc9c023075fcd895a5, -0xd0d427e7f6a5a676172335440963bbcbd949d80bebc26e8acee666376f16a7, 0x58c336231213c81ad3c6788d1f13f780d449c89a3f7fb67a7eef3a00c7df2314, 0x1663a998190e3ee911c185715ffb78015ce562e0f9d24de5c6d47404f5dd4443);
Dbl (0xe53ce2c798d39bef6ff55175192d6b703f4df8f610db8e47bda11627318a4605, -0x1ccdf346c66dc6fe0cd85e4a1e3c4e765feaff4f9b271347ab832d786ddafe8a, 0xcd45fc342ddf3da00a1486bda1c824a726c4618bfd4c95cddfe037159adb1c90, -0x62dd0864752868233cee4a7f3d8b2480526012960780a91d721f4e4aceeaa0dc);
Dbl (0x18b9cd189f45726e2c6dfdc2cce38866bc945ec92113621bfaa817ce723adf9e, -0x25933b1131466a51862cb3ca36165e6855044280169cf9fa73883d9f2bb7a6bcd, 0x2635d4eafc3a94784f2155984bb3e982cb923f6990750e9ce624db8849a01b5, 0x61925b735c538043def17debd9932a9ea1ec99618a49beedfdb2d0c6b84ed42);
Dbl (0xbcba2313f29e1d97551bf61072f2a6f583d17ef9378ac65a6a5a28639887beb1, -0x134567f8f42e1a19966da002be0e46676934408e773d13cd6e2e7664dd85b74a5, 0x8b21eadc4a233f1e6a67d560a74c022b4eb3667cfe35e759451cf6f6d3c6379f, -0x2bae76bd18f2ccbe097960f18839bf91cebf33d78e2e7a97b674a52afa3e14d);
Dbl (0xccb0c2d5a765fae0fa90950f0ed92a38ad56207a00bd4f3ea9da4b31dfc25815, -0x7fccfa927cfdb9671c64e37c084307dc660f581e21e5aed2c3fc84a75bbc96dc, 0xa3aa3090fcd938161215a0727d2beb1d5433c7cae994cbbf13259b0089cc8c62, -0x97ae0e4324516b04d78a80bdd178e5ce6bc6b8d5b0d91bd2704ef792f39f466);
Plus (0x28ac484d3f4077b30dd3f4362bccb2c085228b6fd81d58eb8b26340494b5e87b, 0xfcd7e205d04ea9fabca87b067bfbef348724905d3c1688994ccc9ca5e5e1cdd, 0x6764a895ffcaeec2caa55c4d3a7646a02d341c981fb318399602929ba5be1f7, -0x446ba76d4c2fc0cd62bd773757d2ee434baeb2b0142bfb4fe3f9456d6af4f32);
Dbl (0xdfedec6f42f70b127c80c91fa38ee129550274bde0c96a7286b93a0f6c39dfc0, -0x128b360260ab035ec54a737e18e29e05fc6780d161ef7ae366007bcc6b249fcbd, 0xc3e05f097709b687554ce48ad461c21369027274adb1a14cd8be0eed304c23e3, -0x2592971c3a968ab060dfd0a8477740d3a517f147279dea214746e8c7ec813596);
Dbl (0x24076fdb1fa11f74017e5c3696347308e32b3f0e740977d9c044061b43cc1ca4, -0x22b8ac85b3ac70e22b550e8d9b10e94619b761281b21f65667820e6830a398f8d, 0x51217acefc0cca5339e73a53387db126dc3c312afcf96726a52ce815b9632f8, 0x1d83e10fbb80b98cede1db9a501919ffa989a921176b1c3c2d9b4973fa5e8819);
Dbl (0x38894d85c2951105037a5d11369af6d039f62d660aef1e5b13689d8a8da7b17a, 0x1de43d275b31a9f195fa24270df5f2ff26f22354cb9cead0eec95a7e4e1f93ac, 0xc7c5b8e95c537efd7ea3994c7ae78a109b3e7a267b1f15705122a65e32972f4, -0x2c1fe1e8df7bf4642de8f86d67419b714d464671579d68921b9183b3f907ac46);
Plus (0xa1d7a5535e1c2a131bef97a78ffc62b1ff6ad569834651f63ba1eadcbb60579, 0x42c00c23bbb86251f84d896a357d403cac6e2c12d3a7f063531a10d009868fb, 0x6650f399f92c12b12c54e597b905fab45fe59894e029eac708272b5a8f2c6f, -0x2ada9b9c4c3b10f0ed2bc1529d17d37bfee6465384a6e813cd0331eb3089e59);
Dbl (0x43e3186271177bc3437dffd0f295e9a9b2a7a173698f8c15f747e07c7e8ff275, -0x20555bbd52b2984b051df74468c8a68708e677080475003800730f8759b12b88c, 0x1200a837c819757ce0c2c0ec32784be67252edc78e56056e9539d8527a49d152, 0x1cfaa9a274fbe8d7e888fae6c26131d467d8cceed9928574ae1518206e3881e7);
Dbl (0xb52c04d03ee5d1a4b1d4065d2e74ed960cb2de26a95aa21abbc0df208ef24801, 0x3219ce540d8cb0682860acf0b518be32db1f3d6c62a2146ca9126fcfd6b079af, 0x80374660209dc4d06788e2ee0eedbdc009c0fdc4d5727b6350bc6db369254a69, 0x32ec3f8abc29b506a219d8f89b29c6a5dd57666a3150b01213363fd5df65e811);
Minus (0x5842592223d1457bbd9ba85ceeca9ea1b0e1f4264902d9ea9c5985ab237b67f7, -0x1a35fa620d3954928042b6d2bb92f6b1baceaa8167e1e2e97e67ff86e3e2ee71, 0x1e6dae798d431921f1122ac9a93fdc793ee781c8c029b9633581db4b63329431, 0x13be68605f873b1d939fbb984ca26a370b7a2b3227e777b7c26f09fa2db38efe);
Dbl (0xa25099814b5320e1032c789b522196ca8e997d9c4c7caf884c79019ad46985e4, 0x52b45c7342fc682cfe049443d210c83e1f5eaf193b000f86e1fc704170ed45a0, 0x66ea1ba7f03016e7b1e42d427dfe309e705f51be0f1a222f082ff1afc82d2c04, 0x3161c590fc281f0fd0544e76bc7e89fb339c5a190c997f8380a8912a12a1571);
Dbl (0x722376042ae0f9d2ab08571a325abc3a4436037b5b82183ef03f4c040825c566, 0x3de524559d4b8a2bb5903d65293f85beb9ddec8efc8f12c13ea8d33f6c79e57c, 0x32e39a0531bbef9cb472cdcb7326fcf0e0cc40b0f00b255e91ed2e61f42fbd70, -0x12a156acde413de78fef4995ea4d64b5267712b3f100f615f29c7b345e69799f);
Dbl (0xa108d01af8d3416aa2f0e358342876e2ba7343cd700f6c28a824e467637a1221, -0x27fc4b54a4e867ce205cdc11269adbf6871af4d37edd9d0d3a1e5086694573d4, 0x654c160f97d51caafeadbc8733ae4f7849326a7f838cd3dffcf3ca43ba589714, -0x6ac978843c60d841a623fccad98312695da75926a3cf1801f10228d84b6ea408);
Dbl (0xaa93ae9daa82037fbb9b9ac8d39248dd36602f49c2588d2617debf0c252844b5, -0x1bf04dc23ddc839053f93a94bc7ae25be1c52a44cb3231f4bb9afaaa5ef029f27, 0x71a8791b66a132d8fba6faa751d78e7117346ac90eafaac04fe8a02e748d95ed, 0x6b90581711036a88b9d3f62b75d8ab018e174eef16460508fbc6b42387335306);
Minus (0xb7efea8f3a36caaf875e21eedf811a84df9fb825d176637262faeb9a31a90505, 0x13089eb1538672c6d0e38708fa0171955b1833a5226e248cbec6285ed2d0d10b, 0x8428e23093932ea3a8438969dc9fbd80a86700f14e8da5178473a4e67d680580, -0x8b0fea5ac522b3ef13fa919e4e7b387086ba1c61c85014fb5a8144ad6cbdfc44);
Dbl (0x1636e902f0379b679aafde9343d791a7ab89d449ce8432e3b716d55e3470094f, -0x441d917262eeeed21f42d0669fb6dbd298aa3d62b05a37b6757a2ff87ac03c84, 0x1ed7bd3a29d3f793974d11c2a960fea4bb8627fa737bfd8beee428490b8b624, -0x52062a60c732d5b241652e4640ad9ff6ad54edf34281f01c4fe786564b332b0);
Dbl (0x61d87a0cfe2e33fd3d7b20932d6ec316534b451b05017d55ebf66df97c650703, -0xaa062aed44bdd1a5e5ad58378757b59c1730b939f2aa3264550518060397d9d7, 0x2565c38c08bc544a7e31044edef33dbf5b48398d71812bac968c5b07a9ccd1c0, 0xcd7b2a6cc9432869c7b8341d2ba32f7d673cf5aa001eea7549aa82456031bd6);
Minus (0x61dbbb9a16f84bbe5584c15e0727eeccc9a69f667c3c159f6010a51b995d5b53, -0x361e6902347c3ed343fcafaf2b1e8d2352ba76bf09ed4259e9a26003fe5f683d, 0x256840c54885f08637e7bb727c661af05c720c4abd3e337026b17a27f0526829, 0x1be189f98cd884f8d1257e03ee92a2cb572df313cfda27d79fdbbb3e971c84d4);
Dbl (0x24454cfd40d319c9fe377ebae48788ea6718ae1dc023e42f98c46838dfdb2715, -0x4a75fa21f209d865287ac4c4c52a4bbde5e9e37ef15b89b7d9b8181af5dec37f, 0x5239069d1e7aa133f5dc8b8d2a2a68a493a7a4d744a35b45bf57354a007f657, 0x7932bbcc16777cfbbd5f57cbc7b771dfdcab64c8fbabd6460ad3bfc63053805);
Dbl (0x717534901dbb59ab006854c068a50dfdd20232fe591a31fbd7dda12262862069, 0x80a0ba48fe10d7809e6002682fb28e671b0427fdc527b8df9831ca1e7d8f029a, 0x3248ae1050c56f9e7f50ce270961745323e43485c95b9badee7b4f513613ec19, -0x5a7b06db34140ad298aff2fd9da4d9a8552722dbeee31fb6775778b44596f25c);
Minus (0x539d52e60a027d5d4398bfd8f48617f38e18543d443746271810ab97499df6da, 0x1acccf3680738c360e9cc1d85182e8851f3cb57dbc2427d99bfc762060bd7fac, 0x1b4f646ff37e1177d3672a76cc2bc9dbe3d7ff15ec2f84460d3b0ec3d6f28212, 0x2a69b0463f661554f9357f4054c9b9bf13972d9417b407e625b77b0f48d24c00);
Dbl (0x41c5c1a77b62baa51b180e1dcbff6780ece0a093f5a78051c6de090fab67d58b, -0x2bf688bc61357f87c7ac12c53159eeeac37d98b44a67b9ac998c4029840f67bfe, 0x10e6051aaae9fe582d9265e290a533f25b3b43b831051c975afcfa307de0f827, 0x46306bcf79e6401bd6822354322dd2536f536b57eabac4524ff47ac78329467);
Dbl (0xcc008c577437b3b458c9b836494bb2bc62d6e64da3f0842ef710401e85163577, -0x2330b767a4a6232f533b631fdba30cf527ecf10705b960ab7acbcd1c24c99ae54, 0xa290dfabae288b648cad6a41a581e2c2464a6422885a03902fa3619684e63c90, 0x9bf94f9ab265741dd9f65db9c434ff823dfe69943c7914a48eca57c7bccc566a);
Dbl (0x9294b9f9f80b87f9d51ea42cdc54616c6c8cacf9b6a14ad9e9bee370d90df338, 0x7dd7df98fb8f17cf7baf259f7de7b689ed0d8d23a4a8927c4435b25e600bcff3, 0x53edfa88af0f3103514150b0e2b057b6810f4e48e7adde498f6db394b794c213, 0xd6a62c65f8b50b487863b1bc79903cf90ea51746eac421e2ed06c6f23184d6d);
Plus (0x4227c97e132a7b721db379e494e74c3b2d14ac5203398277381deaa31e5334eb, -0x28e5467c37eacf36432ab03bcced9b16d1da7cd74b4c2bec3f505c59cb89b43b, 0x11188a1404e2f6c8092fa3e1bfe2cf026231eb83c8642e8fabc5bf0d0321e005, -0xd6ab0f9f5fd47121e526cd74ae3ceb1975965d9cc81b3d5287a6f18f88c0be);
Dbl (0x27b376e30f76ec47e5e68b16c3a2cf484262baa820f9d61937a65d963ba0a28f, 0x3816d9965fddeda9d51149bd47436ac6f2ccdf7a0ecf4e2cb3f052439e5dfbfb, 0x6282c08a773f7f264403528c9d2707635cbf47433afc46943a019d5e204445a, -0xf952a242f3a83e9eb8fd8955fa5295170bf5f1a8b82a65e137608eb955f0d33);
Dbl (0xf1bf5eae2a0c4c9ef23bb69797a3827927656b3d5c2e1dc0e927cc43f0db11ba, 0xd60d7d0e5aac29a5e83ab10161b05393996cbf17bb7ccbd4263a9fbf41efcf6f, 0xe449df52561243fbd126ce94724abb193a5849501c201affbecdeccb7e620583, 0x6014c03b2e4c140700dff4d4c42084c5c173d46798f76384562d1d4ea8761e9);
Minus (0x9c4cf330f63fd0971f0cd7d3734315e9f609fa0eedb9f702db784a8dee732491, 0x2a9ccae73ac5768fb6cc95d3fd1042ded2e8c0c0cf93809090d9ac29e1db9b6a, 0x5f6ddf84f835f8f6725de912a496716ddac29c4d71821f872b008de20fc30384, -0x4e54a885ee023ab64c105c8380172538e8952ffb93a0c2c9d0694f1bcc87e064);
Dbl (0x546acca7e813b1998650b06326ef6544d2d72aa88a3413c45c35c5c3ba5cef5e, -0x2dd8c56aaff45fb1a9bcc2337484db46b624d92d032cb409a3cfc1fb1707cee5, 0x1bd642dc4ef524dbd26a465b157f579aa935d187cdcbd4e78e5345cb15ae6b44, 0x1c99a50fcad92dbba75a01fdfb6a7fb6285682d323a3d2fd65fb6177004aa2e0);
Dbl (0x631098678fdb228e7be3f87f83e86efe5e8cb7d78b2be931475be0b75e618be4, 0x17d6be378b2e949cfb54590858db0f0bdc5e54a60e7567a729268bc42b8e0b3c, 0x2655d6f380f09cd7d1d75ca76b5a7606a02bccba346b85f6c46817d5fb763014, -0x39e583282fe02d4fb19a89201046b3eac832a6612fcba2f53ac812c696abadfc);
Dbl (0x792c04e8f7afd1b9a401fb8523f74d5c81c76302b10a6726b0a0b54d60e62eac, -0x16182343f468d0ca66637786f8a1488f49c84e5a81d1c5d65af71f57a5b331cb0, 0x395aa435ea517470f1b8ed804752e10f71300cae9ba8c39566383d9721410901, -0xb43c07ab8d5bd59c7e4768350e8dab008b5b77f63425fc688c2285049439917);
Plus (0xf02ea1c6c258a75c430f7074549f40904f9dc7f8b95173c4f9cc2ab741188e95, 0x121cac54ea33afeb3ba202b24c8a25652056cf2fb10581682384d8ca4b2a9c10, 0xe15777d3360fac6dda1477d302484a79084f122cce5b54b2d4521d6c7250ff5f, 0xa3a0b05e290fd5467ff14a01cb847ecc0ecc888a671e8417900b521c70a0cf57);
Dbl (0xa12d5e05dff013873b8147dae62e9e6caf91901e3e357c1cec3858f69f0d4b2, -0x1c64ec2127b90ce08a4959a3234ffc3c4910002e73e81399618ed530130f51379, 0x657a184d9445038dc7ffbdfa1505471ab982c07cf19f9d57dd3a42bcaff429, 0x479e117b5162ce41b3c0e22beb4bb18d617ddb78fe809a45a9b484533122348);
Dbl (0x2a2f3623eafc2706805279368e2b1c5c2afa8d5e85e53d5ba7e9d48345cf88f4, -0x9c55b6ea0590c810380345c9488b0dc63cc8c38d191cdb9be6ff7ff6ecc944d, 0x6f38678b5be3190ef9987ad07b4e5417c203818effdc9c4c6faf85108144b9f, 0x23a5cd34604d26f5f8f98235d7c6ee0ac07d833cb17d3ddac95ca3d5faa71c2);
Minus (0x5422155876af50777dc813d62c9a4af7581c155af599a13e86539598b070914a, -0x2090eceaf3389b825f59381c791d2de36eb725da3b161f010e5595b21824d134, 0x1ba6628bbb2a356a5d09b930639530f6000a78c51d9428a69e704e4186d7497a, 0x16acea15b849f4c227007f32a1d4953a2970a17a022bbd69d4d71b718e55084b);
Dbl (0x292696c573b74a6cd56a72bbb1bcc0d621fb2ff611aec55bd728a03258fa9ac4, -0x25439964a2f78b6f4511234230e364c76f962aa1d38c70703632cd16da200a85, 0x69d621c5a7b0c270c49ba0ca7e99de18d0796bc6f8d282ed89468a38c21338d, -0x136b068de713f863bd4563ab698839852ba0ef480e41f640f0bd45e6acafcf3a);
Dbl (0xaa59b2dd302ea6d3ebf0bd86b52a675096448eaee3e2c37f59fe73a32ea2452c, -0x1a40d940c552bc44b7b02fca4c481de03513d149ccf41c2bad9311eabca6da01d, 0x715b40fb9ec1cc1e8e520e2aaed76e383eedfa9c79bf6d9dc9f3dc09bb2061a1, -0xfdbf86982c64764665ceee09b37e2b6877990edad98e0f3cfa04c76665e527c);
Dbl (0x9824e79ee39825411d7bf6454d5ed23a6453d1b81b9b3a889361ae2bb1a01db9, -0xf6e83a9e304081e099cc77108cc65597ab03761ebe744687604b753a6bdafa73, 0x5a6bd85ea484d0621ab42b6367dc2886430b148ee5b9be8fdcd1166aa31fc5b9, -0x15b01a303d6de17b2b744573a66cfc7ecfd1bdc16af2aff56ead5c0d7fa285ef);
Minus (0x7327a6e3e43d3c8781d47119dbc4236bbcd611b99ca373d7066605e83728d4f1, 0x43efe7efa332f468ae237398be6bdf0a87425d18e0d9057ad03d0650a9192134, 0x33cca615054ae5e82a84a37eb8e75fbd6cf5b43ec35d6319e1e91a7d34f70dfa, -0x19df653cf7962164fd8a46347f04bf36fb7ca6d02d324228258739e36a7b98c2);
Dbl (0x1410252b4cd150f805430da05be0fa84af1a95f3bda9041d49b5dac99bde7dbc, -0x2e94be281bed14a399bb11581095cbe701170af64d95780bf7ce02f51fbb03248, 0x19286d36ecfda584698fa927a91ecd982de784031b782c33ee76a7eae61fb34, 0x2c75dfa4a8d3a8cccd0a4632606c0da8f98885c20d868816eae4448535e35b8);
Dbl (0xd835dfd81665457b77de5400f8e630b0f3fee3384b8a278f65ff35efbac3549d, -0x1ce500d8d0a90aba270b773875208042c1a03fc6152ac935425682cb0553235c6, 0xb69af51318fe58995b4ebb0128d58ac886e342f5b06cc428541099c3535fc2d1, 0xb46c79b69e0c08947b138695305925d9fa600f94998ad4cc25c5f2d0d5d37409);
Dbl (0x31acb4e1b1cf7975d68309d78e4079a67ff7ca16b70a141bca36aa1e38f7816, 0x161028e3f437f29c986b2d84ff0fe81999b303ec52b665e062509c2072d0c1c, 0x9a391c1f52684501f782ebfaf1cf8b391421a7b0d4f6cc6aa5e17033ede93, -0x23183f28c71876d8b9c9c3dc7707fc0ff1c181c4c4344bf328c4926d34f12df);
Minus (0xd7137f5cb0e9a4c4c0d6a417691f2e6ece05f303270763efc4789d4242636d24, 0x153f87b9ca8123ba12377a703eec4f060531a4477ca0c74a9aa1b0f17eee1298, 0xb4b1c169d847ce8864c8e407207bfc6140500a5d03a2cd2a967d1d3fe339eff4, 0x343c3e72b56e81c7f31a8d0c742932a0f556b36e0782b352b266c6f4c13ddf91);
Dbl (0x9e134159fa7f342a7059c56115bfcbe4aee40bb38561a32f7d1cd882eb497297, -0x15f04c4f851fd3d06cf3f9d036222f779859daead5158cfde34f0ec5dd8546ab7, 0x619bc61dd53f041adb08009e881497f40c7a698486c1dbbdf97c3531fbf7e62f, 0x2eb4c2ceeeeb7c714f3b1ab78cbea46338029f5f2381ccb7e75d60ea777dfa15);
Dbl (0xf7f95ba71f70ffae38b8afe471517eb23276f67bb7e8587cbcc1c8f03fdd8edc, 0x12f560708de5589c2ae043c9244c045714daf5eadbd8c98aa0614e470e551a494, 0xf03321bfea9774a7f16ebc1f349c7f646dcc21e6502484d0bf44edffb2afd5cd, 0x30eac31fb23f919df0b2e05df070d5350b6fc5b92e74304fbed32bc8c5a86844);
Dbl (0x775399578055e555c62520e02bf03e8454a29230887ca4369e4c87b9bb0ba8cd, 0x85bc34aeb5f7fa0cc635f0f1973bf074123af52ef756c48780e39de8cc7e6535, 0x379ed3dc23e6c8379aad69f0a74b6b8e34267433e27bee7f6e92e5df15598573, -0x1d3808c2398051b042c6c1a220fc12180612f51aa1d51f2d86c0772909ac8d1f);
Dbl (0x500a08279b3c953b7ea4c442af79ee4fc12bb93017e4727816b4374fcac245db, -0x7c35f29c1b3bc8a4d69f2ffc9b445f98b3129d0e4e288598b10d0a2773b220aa, 0x1906457d64607dd54bb87aa03b9713e5b7d09d82e9234aca09ef7175d7463238, -0x22995ec69a46033becadcf2c3d4d9bd05caf77b3c53110ad3d8e0a5142564796);
Minus (0xdf4969fb8be6758f4a6f20676b96f146e0e8fda3f3218ef586c45de4c8220ce4, 0x7576eb5e91974fc753e8ff8784997403cc753cafe69ba7ca16e6ed175dea6d7e, 0xc2c0fbb1db119a2d5e343300d5356c9a3c3fdc5808c90f0f4f24632ae5c7fa2c, -0x41a279e7181a9e971f99d98de751112e5ae596b3e7144beb30f8cec153061f31);
Dbl (0x759f42169706492f4d893748465b0b891cf451657415eb8bad19754d88799bb8, -0x19ba19264cfd6c9389ad6a3c6ce837935eca0a488f5e93bb162b1121de5c26515, 0x360af57bcf2b0091b18b1f9420c8e6f25e2a05ba8a4ec12e9675212e37c02932, 0x4b5b885971c296a9a7e8eff7bb943b4f8365fcb7a158af3d5c39622d9147503b);
Dbl (0x9b2f8851451a0c4a32b655df99f323889b9f437a5ac499423c383f787a29e43e, 0x93f0d17930b35150ff01563b015d9d26552b6e46481b2445ad262f56fa383aac, 0x5e1297e5c01b5daad6d9150c9e2680f6a8244fa4d9bb091049791ec19136d5fc, -0x6c3997571678e3278816110d73f8335f349daedd0e66988bb53d4d6ea3876b94);
Minus (0x4e7372bf71a215b16ee48c8c4e8f11bc997c67ee50acd2175aca5a9bad92532d, 0x16a8da46c2e13441aa48c0492af25726c5415f74f9373c0b93e2bcc742abb7c0, 0x180a8dfcf4aded36ba9bca48e671272f485273b0b50352d8090e258a1c83d796, 0x5bc5e491ae65e322c7de97c92247ff3a2f6bb50f5727b0ccb6683b6f703ed75);
Dbl (0xfd694f82ce17714f7e6a833cfa028cf5206ab4c04bab17679f65e28f90487e1d, -0x24889214ddf5e96ecc980302fa72c01919ea3c594438286a961298487c4b3fa3a, 0xfad9527add59633a80bc1c09cd3e7592a414d4ec7d5877d9688df09cba02c694, 0x6a10e6ae7a0c355bbf382c23f27a5ae640470cbb1c50858a2f82191d5ac7e467);
Dbl (0x6d66f1633c0ea4e3be369e04bdcfc73efac3f92d72320932c55fd0197c48e44a, -0x1b831007207d2382aa16071eb5866c5b6fbce624e385d54c8697d8440827a599, 0x2ec0d2f3bfd451a06955487f1d7454a6c9b8fb266dad94e1f5d4c40956fcf226, -0xa13058ac3742a60924c7a8cb34f0d4a7064fd8e1951a097aaa12bbc837b83f4);
Minus (0x81d09cfd3263edc7240d52873e4b69a6436ccf359c950fd36b0ebc43bf80c3f7, 0x49b33033986c099f52d0b8d9a083d43c185407521ab838a1e84363f2da85bb9, 0x41d3e836a88027db8329e243766c9876ad7ac98d4a2ec822030c840cd68ae8f1, 0x3df34cf1541a27b237b6fa72ca2d46c38a89ab6c6426a7ec1d83091231373550);
Dbl (0x60fb0dd8cfb159a6cc7a0b308761f2bb17857246959617835ef54989090a211d, -0xdfe93e25f9a5c0730e7d580c5270394ced55b3578f9fa27a0697ece46483c85a, 0x24bd4096c3ac05ba0d5303cca082457955e16a902c7577a0c386b3947621ef35, 0x2ea49002bfd29ed6fb40cbe1ac119161856afb9cdf37f953225de64a09882d3a);
Dbl (0x50018607e3d60e50bc5e7dd6ea0060dab9e5478b964170294f64677ef6f5adfd, 0xc03bbb77767a7ca496ac970f50d70b9fdaa4b173f25262aa3ef056efde41a9e, 0x1900f3c740a1d360e9d3255fa4ad5e78c907ff186bfff642a6ad7c93d216bc31, -0x31c0432c5e52239b674dca9cdb769b72646ceaff5a1d2ab9889a2fb4046ecd69);
Minus (0xe679369a7e43add436a3cee5a27dd64fad180b3b21fe8e6906e004d192c54adc, 0x96a2f68ae593469f3a6f7800130600ddef925b7b7599ae5461cc85d216427a05, 0xcf7e0782449282d459d359fe6651e00ca0e9c4ad15014bb80f0f4a9273be278c, -0x65fdaa3611fddd3fd302a4b7bbc2247bbabfe36f64fc725d71dc6cfd8883dcb7);
Dbl (0xcae60ba240a4434e4187587e5c8846b5fb61cb5eed6df31ef65e69275e8298dd, -0x15c15132c3388cfde23892f2d20bd8615d31e2e4815ac35bc1e588cf0a6fe93fc, 0xa0cfd914f616b9c46e07ca946cb5e03879fff07bba46eedff8aa96423cae95b6, 0x94482de376f63e098f3e148bb102e857047429389c9f3f4363c8af3e87eaad87);
Dbl (0x27fec578a9edadb2aa5328699c0a3cccb201d9e4c4c46c036041f20898797576, 0x63b862d71c47d1f0015581476fb72ec8e8184f46c7b5b09a64751eca379d4d3, 0x63f9db7378a8cf8ab62d0f900d1503b04bfc19af98bde118883a2ee393ad696, -0x14bb191375bf0dc2b820bef535d1ece49581fc8a8e6a5df28e1d03feb2b7fe98);
Dbl (0xd4f0db18fed8a66a083b386445c250011b57923062480f793ccb65d82d6f2d6b, -0xdd7aca48986e41b1a16dcbcd39515efeef51292aeb11963ae122dc90c5091330, 0xb11fcd7cf078704f177cc3fa5493d96d22c100b379d5be92fad13d94a94ce040, 0xf63fb98b8daed0135b1c3c559f98cfcaf5e00e31794151f6a04306500651176);
Dbl (0x58ff873b75fe48d0de02ba7960e477f2b009a1fad79a0c13db1f838a68704f33, -0x56316a9cacb70890c6e5ae730feb8344048e0af8387c2f873ccde94d1586a8b7, 0x1ef0ac079103a6e673206f33a47744e9779bb4463a3a92b9459b514293677710, -0xc3404f0462304c85ba5e21ed042daafdf9e71bf81507afcf822a02baa7522ad);
Minus (0xde125c4a80350c2a379314c9bc15a0d7e6915c9ce15bc9adc6cc83795f9c513f, 0xe15bfdee339421301a13153d7376076b2b4a12a02eb08b69385ea146dbf9ab0, 0xc0a3d962521baa636df1603ee82f0dadc44078aab1d878f0483fb048f0e711a5, -0x2d11a53bb4ef0795923e67a9ef279a7b672ebd01d422dd599fd336fc51d5be21);
Dbl (0x4a448861c49b177bf3d75a72ffbe403636a0189476ffa033360c12be26583b58, -0xd0b03bbe5cfe3d5b497a1099fa460a5bb8dc409c302bd24a63e90eae4163d71d, 0x158bb13142422233804b63a161e1202df118f86c7763ebb82b7ae3f62f8d0492, -0xe38b6b8d7a32dd15b7cf7844ecf370fdbf193924ac29e8d3876729e79f72e77);
Dbl (0x857ad2cd6b2921bd076754555a30fbaa46c691e4d20c90d6ea86468cd38da973, -0x1a9772865553569fae00a81ddb53874d1963c339e5902ed64c58d16f4c4fdb2da, 0x4598d9f70ab888e6d9f1fdd04a18fbee8a6f61585609dd9d1452f8fd79769f69, 0x22e0682e73abcc81f5398d4340dedfcd0a23831262df4b1b5d2edaf81a85a94b);
Minus (0x3aedbf2aa18e389dfcbcdf7687246f4f781adbf2ee9a94c4df29dd8928c8569c, -0xc55be05fa824df1858a0d5e185eec7629c1c3d047106e7ce523b43214b91ce0, 0xd90976ad4e437280c261029cdce5f206a09beea48c4c2d4892dc0093209f9cb, 0x29f6eda550e776b91a246c577fe43410f176db5c3ab21474e4ea1b822904dc83);
Dbl (0xcfc72646669a22e13c4fa2f56147ca7fd7babf662697196e4fab511935abdd53, -0x4b2a9d174fc00a12db59c2156ea5ea747cfc488bbb2970dc01043a682405d760, 0xa8a3aad26119c1dc8179af064489ee05e73b65e4c2a6cc237ff98ba4865aba71, 0x35aa89c6d7603f95ac6ea76ccad7e30cee4fcb231d727ef9bc2a38a9046970f4);
Dbl (0x8adbeb828d3955fd13580b649ec0d51cd200054e8894fa357bb6dd39dd142198, 0x989b4d6c0cd53d2c9358d62e376a1abdf929adf7d8185d7396733a3a4ae0a9cc, 0x4b51d6d58a4862a8f7dc310772897420938f4f7a537558d5b8f2a46517dc3832, -0x15c0d06e8fd868192d36282880604791327e4f30579bd7fbab368e75c59c6a3f);
Dbl (0x8fd62364fc6918a7b6ad07b7300fbb01b94e5f0fc41d37bcc1f45a015cdc44a6, 0x38535dde3a98b8e7116a21a93972f0a501ebecf45dbfdc6cd4b8f93b2fd5ab48, 0x50d0eeaa03b82e1b7e32ea9100d86cbbb1c53a4118a8905e8efd09678d4f3d20, 0x2f64b223c2a6049c1647f984a02f0c11ed52476522e7280c84681ea95e469750);
Dbl (0xd9a2254eb1165724d49b7f402b59327424e10d29788a1a1b00e957605bca3d62, 0xa26d4864e14a303963a646211c7eef660d82fbf632c39fbe0decd3bc0c20687c, 0xb90449f2a53fd763945a58e25e3bca8dbc38a26634e05270cd32fa9dc30e31ed, -0xa68cf0b4d6fff23c112668113d4e5184ba7ce8993c477ccf45eeb5dd86f331b1);
Dbl (0xe838298a11c6053304d86bdaf61c5c8d69f0d9a71cdac755d0eef49f886c88a5, -0x22f2905b0a14e528212c5461e833b093fcf0185f668a161a52f75e90824b35fe5, 0xd2a5d79c735c3437577e3a976b6ac4848809719d9f289424d2fa83a30430b778, 0x8b7a9e80a59bb07a49a0ad9c6d2702502c90d31d6eafd49eeff2ac63679b9479);
Dbl (0xc32552ee2210231698d000b389e2f9bb93532e3f3c0dc62634ad9f14b80b3a81, 0x6fc71fb5b90fe1e0c0dc745aaa07f8037f4dcd9c42d96859ef23b5b7d2ff5065, 0x94c1e1c7db97d97442590f718363803102e838c2116da8694a152de73a10aa3c, -0x61f6d590f5179262a58fd5cf6598c868937162bb855078f0637bdbba8636ac3d);
Dbl (0x5b992fd2d78850b42b957a04c4217803e73a2f75edc048f1fe7f5d849cd9661f, -0x1b13e9d6fdb951c61211c038d3c4687571c01e3aa3a4d2704f170531db9c6a295, 0x20c643aa182fa31aed152d281b40a6fab06ad14cf514c653927ec4caac3832ad, -0xe95ffdaa7b1ae25326a8facba46cd74e2b8896959c446ef101c790937f1db47);
Dbl (0x33fa37f998b0740bd3d01ebf4eb5dca5fd795ca30bb2b700f6c2c5246c91c493, -0x288c8bf4c056e3700552fd53dda00ba8428a306b08ca18c351a5f9635b198df74, 0xa8da6ded291b9d591af762f8f7950444d4ce97e8c2571af77cf6f31f08246a5, 0x1535d23fef1fb943ea7bc7a4527ce904439469af82adbb4d2a7b433ef2fdcb53);
Dbl (0x6c647a1f5541b1be021e4f77cd01120521d0d33c945d4d43da55868291df55d1, -0x1ac458ab4328ca5fda95119f22090a55a0e07e855224e39c514c0f33908f6bca, 0x2de4ee7a12abea638df211a87cf3fe920bd8cb804df071fc20d8915d832dfbda, 0x2bb145247ee8783c520471d18718d9301a1e40d74d2cee42e92b502906a64397);
Dbl (0xa881cca3218459c4678bb25fbc018ebb7201965d2d05436f7cddc2a67995862e, 0x126cd79a400354cc5d119bff03d7499a47b05de534eee490f242d3721bc5afd1f, 0x6eea9e65fbf9e292e1d66d9b4022312e3f052cd64083d0b5d81b3ec53f2f535c, 0x1809f8252d35606ca23d2236d2672aa987a7d73d435754202a5acbd29d6e52ab);
Dbl (0x9176aa61da3a43f2c3aa722d4938d534e45ea3c34dd7d52d38fe3a4e4b052794, 0xd2daf5dc0fa9cb2377adad42070e595490bbf42939eea6cb393c10b9653c18dc, 0x52a7a4045cd149ec21e0a94b86c879ce087c3462ac0562b0b59fda9d1b28fac9, -0x875941eafe105c942d93e1628a609660af23a5c2bacfa588401daaf260688784);
Dbl (0x15f335679cf24d02b0b55fdd7638c68285de4d357daa4be71b389ad9535365de, -0x271ed82f3742c6d7c14de9ec3dc89dfd424dfd75d419e364b83013392e7b8e5fd, 0x1e1cdd16d97c58ca32e82949716599668e5b752b6dbc858467737d32c3974d7, 0x967a0a5d54f33bfb5ba0e9dce519eb05f9e0d946da16158f3cb3a641396203);
Dbl (0xd752c21abb9fa74c23cf9a0a508bceb1e8ebf1a05fa786e83dfcabe7215cc4f8, -0x22d56ae3bbe6606eb4c7c8bce1776ec7b78af5bc405e7e0d914e1d6faee15a4dd, 0xb51c1cc9d372e471b06da97467c38f360e9ccd7d46e89705f00ada40d1eb5233, -0xbe8a2d62e01cd461e9ba93e7f9f63392bdf5df971d1af8cc532c0e0162182a3);
Dbl (0x8b3d8da9821538c4475232b06093d3fa288c68c003427d39f1ced9e3bbfc8c3b, -0x2a7cbc889aa55cda48db0fc0a8e3d9f04aea8dcb6912704ac067f9067f27d8395, 0x4bbbe6a2e46f334a95a3f9581c856a8fbadeb40063be1a871ad3bfceff3f5a5a, 0x6d685b760ec2a946844c3e0bd19dc06135fcc8b8307044c169e2e372a4e9510);
Dbl (0x4836f38b45f2a424931add7980a31bf02d932c6fc999d1fc31ab23c7225027cf, -0x231a5a7cf753be2897daa5fa35da9d1b2cee0737660a3c737e0c82886553d2a45, 0x145ef4c9fdcbb1417e658d5cfcf0ac90940946053f159843068eb4c21de4210c, 0x36fe4009d84f37244cee64f7277e1fc578021484128548bce18872e42ab584ed);
Dbl (0xe8336acb6dc9e42fab137b0020cf959c58beb9c8dbd24817f0db4d4de21a0ce0, 0xcbf76199743574d1e5c111bc598fbd56cb425bac3a8e4f9b9a5ace5ca9a2a63b, 0xd29d3be47098c499cf4e61816634ac3126f883d84f8a36728c96a158d212ddf5, -0x829d29f1723cfacf23dc556443b0b37224050b751ba70f35542a183e413a3748);
Dbl (0x2ecde3a1819b7740be340e73abd290b7be207dc8b994187f22de6eae9bc0bf87, -0x182f5ff5e285ae9789170f1a898780fba5fb1e433c75be9ce1d684a1cb482cef3, 0x88ea36465a543963eb231e925c036417a1e69fa04e5ffbb40581aff4761d00c, -0x8b2bab53049b159e1cc315a4a471df49530f87b640a3e416e50a2ae322312f2);
Dbl (0xd3eaf468a8bc9da649bfda360e58123d08a8994961d8dcc798e8f327d77a7b58, -0x1ea5cf75d6a6a8d164c709d37784cdd677cde431fac0b91cf4a56f31c38459b5d, 0xaf6d26883ed31121668e4203d86d40fdfc19da374f130ccb15eb059ce9da56c2, 0x31b747e08813d23c2e755c0ebab44b709e58f98f238b17355381eea67c12bba8);
Dbl (0xcf169a730ff6bd430feeadfce090a00b8759d8d0bf889fc3f149e8b8873558e6, 0x3a1c5b484c848edf5d69075d6890f2137350d585a9fa10dfea04d691eae1331c, 0xa7858fc4fcc667672fac4bce7911b93fb2810eda2fff84c8befc64a8e6f690a0, 0x346cde67c25314053fba7b80e4ac2a437b64f3a29e8f000c6432368b3605bf44);
Dbl (0xb2059641ab0bedb3d33165cfdd3f28ea07ce982b23a5c2c28b0b13e0d6398458, 0x9c0f5638f97080489c084b8158a1520bef15a7a81d69d87b026dfddd919e9840, 0x7bcbc512889e4a4fa39d526eb27e5bce5745bd754be36cbf7973635b26f28ca0, -0x4c2fdcb96131da984b257b8044af23a1bf3143f522abfbb4fcd8fc0fdb696cf3);
Dbl (0xadd2fbf87697aae5ab2e2dcaaf5124953800e7ee86c6dac559dcf3af6cf0dbcb, -0xf13ee9a4508d9b43e215225f874fcee253efda06ef83aa979c70d2632ad74200, 0x7606d6702becb7823012e7b60f93d12464140e4c94b5ceb9c8388986ddf56794, -0x123f5aa14143b90e767e340e94af17165f614d57800dc113b97b9dc69495902f);
Dbl (0x9287be7f0afa6983cd699e3214e93be3f148051bc4fb4ef320c804f4b794300b, -0x27a9c819d5746555e29cd2b932b2a9587f55aa18df5d398ca994f98fa095c6fd1, 0x53df1d43604407cd38dbf8b51b4038098410c5a83b38662d7e079f7e8fe57e55, 0x64c9a7ff6106c96088754de7a7bd7631bcfb924fb2d315225adcb18ccbbe8273);
Dbl (0x9c9fd4930c70494186b5d5d9d890e2bcce7206cf188411b34d3b67ea6f8c28a2, -0x65cf2c595c76e491212dd26640a2edaaa447375666f8e3b133ef18195a90240, 0x5fd32edcf6562dd41e7652fd567d59ef5e2b4be5a8368818e261b940f95e416a, -0x4822cc21eff28abf316138bdf59d4ae9925f4b9f49a8e3bfcddcb287583fa655);
Dbl (0x34d435f849f01d44561214651ddf3211d592d451d2a86f8735fb65f4cd4bcfdb, -0x149bc067dbeab25194725700bf6dcb957f1229b7032591bc99f7d4600c6410a26, 0xae6e5d64ca4c100fed7b82cf7a5c7904f44f8f0ca9185ed837d4b6bf3708790, 0x1b6f404c71ddeaefeaef39124adcebdf5a2e8eb5b7c0c908846bfd8b9b9afeec);
Dbl (0x7b7846b99d2cb887dc01de992223a08bd13234db3fadf04f7cd70e0a52208267, 0x4357393e44f05ae96814658e2900da6ec57296f93bbbfd12ffb5c243ffaa0eb3, 0x3b8ccc78be965bc88cd4f07b6e5f35b480f06ab2a4a664ffe9f072617751e1f2, -0x3ce6c7b895762e486561d2cd2b3193c041635883906933a9434a47fddd5f95);
Dbl (0xf7a26b6a8ce590440204968eaf4da18c5dc4f489c2df35ce2ffc02fc468a6fa9, 0x1834614083c279526b4ef48dbbbd82731a6029368fe1ecf941be84b98f2915d2d, 0xef8ad253bbcf8d0eb4379dfd31b2d5e90ac4f8cfea54271caa0c902b759e7ad5, -0xb2599659fd7795861cbe32f498fcc689a1c64359ce49e7183f45d97c1c26920c);
Dbl (0x1100fdec7e6383675829d155e86ec171267c223e1af2130f62dd917a4ab681ea, -0x2756bd3f39dab34757495f13fa38ffba5d32f3b5eeaf052d33bd874fa289992a8, 0x12121ba64a683bdb15034a33de6c1dbd32abd13bb1f714499c30a7598900af1, 0x4920288e83e87975f5a2880ecd87e0579dd1b9758acf7c9e6793f1feeeed2ab);
Dbl (0xa210709fd33d3229ed42eb3f8adbf0b5aa1160af5247148199a372de4e262559, -0xaa634911c4a75ba3e24c2d00ea540ca179f6ea3595c8fa92add15e2fb26ad9cb, 0x6698cf988ce017c0f5bd491b299353cdcc2f1848cdae10b33f76814f2bf2402f, 0x37f2b94dda24123e43352f6b7764a9a27e1326e48973220b23c1a4261003f3e1);
Dbl (0x372b7dac49413e4c9dad265782bb7a697f6b7066a48cf5559b1227cbfb02729a, -0x472957f17c75e4c663d2241f9644458fe9165c308eab42b1ae322a5de1e352b8, 0xbe3b7637d0c582c14f62dbbd7ad79f07526c906f28ba0abe7ff080c14fe28cc, -0x22504dcc7d703d2e2d601d9c3609f5f5432cae75fa436a128073003c67699fe7);
Dbl (0xa9587d010c296df8256bb52abcc9f14a8096637c08c53b90c2508e512193e884, -0x27ab136cb7eba80237113b9b388b032551a25465410c15c17e71b0d6d5e8db5d0, 0x7005f3a18fd1158eca4d08be20a2e7ff3806b975585839c6be922b2b44b7afbd, 0x35a0e16daf42078edf84fe823770ba0789d3b11d37857b6a51d5f8f69a34913);
Dbl (0xf2eb75eec8d833de051f90e5ce580682965818417ad8deeddf4e6b867fdd2966, -0x12d5dcd62b569fad62db35ec23bf0208518ec415bdc329689b646e2b655adc5b9, 0xe68203892e71a14eaa48ff095a56ea160668e8e1c4b7f0a14772b247fc055df4, 0xa0708b624bab83dcd537a505a337142698869585a31efd84b896b69b41d5d7a3);
Dbl (0xf285b9d782f0c0358d78c0660d654c01b9a4854ddc7b5cebf22e5cbfc0c44685, 0x1ae9364a41035b78de732670826cfd3b49a02213b48ce0c4ea2559dece9c45b60, 0xe5c1193614666a3a2046f1445aac5ef48c81148e6f8561d1ba16f13c7de8d310, -0x5843d9771a135a5a901678f422de41e30519fb440316724677e000b8e5f10bea);
Dbl (0x7200f1a08c4d4fa4b78f1a5ccf3dcd2a05dac0177c506d88589c5ec2a987e9a, -0x111a94f7552579c0b30099170b6f0d7480d6e7beb8d26bbfa3f50abd1a55cf119, 0x32c4d733e10487c7f0f7c970b5b8c1203a7da0b64e026a3975ca8bc8e15b42, 0x30fb1aecbc00eb9e5f7c149c1e3b834631960c6e3405d4fcb29b51eccb8d3f1);
Dbl (0xdab54b18d28903cf90b96a82c856b347b5809ef67d80f359ed223c17009cb9c5, -0x18d63f31c1015e9e33a26ecf4e6b56634effc0779925497d8f1815d19d77647c, 0xbad944498db29e01550fd8e4bef72cba48a671a5c737def51a62c2be46a1bf15, -0x9f7610567de9f3fb68098a14cd0cbd99ea56d6b3bd605607dc5dadd9a029f564);
Dbl (0x40f885d90dd61ea2f5659e2f2bf302f4e2bf09826f62d88a8053c5b509a23510, -0x257a47a0ebaebc3ef2a5ff584650e06ddd508d159766ae8ee6527d5f13bed1b54, 0x107d343021711e95c802f96d770b0927c12361596df2986f6e23e22b9712cd2e, 0x10a325c5dedc135e8126a02e9d001b22cddd03f6d99efaae17a68f54f27e0a3b);
Dbl (0x1cc8488cc365cea31f2fa2bfdaf2cc934a7ee50cabfd150becf69e6f4461d10b, -0x11d996302bd0f265928a4ae6f7624b3f998dd39d82aa047cb6431169039f42f1e, 0x33c6c903b3f0f961e6d2b46605540c8026601968821fac39df373dc1bd987f0, 0x7fb4492ceca28f16950aa35d7779ba646d7b6b7ca4104977146b1611c330098);
Dbl (0x540888725efd001e10d388737cf1cfa7349e1f8870aa9655492e125f3f6807ab, -0x79858d092e5bfbfe4175379bb88212bcffc4d6fb64cdd4a28e818de8eea4bd5, 0x1b9599d3de35afe9499eb18b5e5f58d75faf4cc38b53eed96f908a80fec9895d, -0x255b84809c8cd76602150510256ab703a15d296b4362204f796cfd427a2e69d);
Dbl (0xcbd459afdcc89e756164c6f50b08e8231a953ba7807175a99eeabdad06dbbab3, -0x10a5772d81d8975ecf115b0846910af9320f7d51a4f28c6cbd94d2fe71bbe8e4, 0xa24a766192d797e7b1bed237185b4910087ce5346c4995f1da9b898a22c660b0, -0x60c0d1335d685572ea4b706106b3836388e0b52a3ee600a18ca411ff315cb6e9);
Dbl (0x5e4c5a26fd030caab23e28ab4cfd0f3bb05b85f1a3af85084a01f8e337e2c301, -0x24803bd3c1a3f433128dbc6c7bca15bc8cc7a3f2a33a533d30773ccb40c0b7621, 0x22bc28fa48b3e6f31c1e49d9423b8ecc3f72fad7f107cbe20c5ef46d26b96904, 0x3a4431be1bd630a000c25154f0220a8d035a7b4b84100fd9034c3c0cf563bf9f);
Dbl (0xd7b2ac50e5f422a44b5fa8e1e17009beea07a30d87d1a22f1b645e1a2b9436cb, 0x7c5e280d4f5e58c3bf026e6702cc347847d52354fb555141777b3c4f876090a9, 0xb5bd9a23f6bca840b8c49975e639a43bcb3aa94bdebc4600596dcf3320d86e03, -0x5323fc1ce30a604e6cd28bf1d13115f5a065b680eef22a70f8d2ee7247fa97e4);
Dbl (0x6f6f2e174458f1d58240ba2cfac0d9070d865a2d820ca850f93c92ac5eabd882, -0x1088e9880482d15736ad2f787c2da2ca3058e19a0c87bdaff4c8d1cb8e7dc3ef4, 0x30819a412dbec5862f3ea421b36dee5a7324e922feea0a72cd632c8b9cc3c2fe, 0x316f476320b31b75fb63610e0a4de2d9a169396622bc2f42628ca549fb95dcd);
Dbl (0x287a0f5419f0c50b86e3d4e36a2093c4853f9fcfcd9c9918115a50d610bd0574, -0x10282b287a9800fdf6646c577a370a57a17873a56ebdd609f5b31ddd9173d579c, 0x6665efce52eedbaa8dd55fb8001d9cad113d79e2cf7524d74cf2add0a115a7c, -0x180910756b302640b50ad8379618d6889a0a4dadef253a526fafc4e8ea31749);
Dbl (0x9889077ff7088509a52a94303f520cd847b1998c048b4457312e0c5c1a9507ea, -0x841f33452c07199bdb57aba80fe0b1c378109643323ac209c5ca58b875dc6048, 0x5ae30240fc88c49358914f274da463018778f6247a157045dddc0b239cf9e5a7, -0xfcf2b2ca12198af99c09875de5b1414ba93128f17cd61095f2756c83cad83d4);
Dbl (0xc519b871bb990b190be26744246550363e9ccf0909487de80822bc5c0c725b3f, -0x55c3ddc495d0286d4aa781619861c9f1dc3bd8f97da6f2d5e4d88af1fd04defd, 0x97c0987495d3df2bddb7840dd96c48acaff922fc52304655a64ee6e31abbfb06, 0x39b07a6b73a6f0a09a79daa5bfffaa2ff45794a3adb19eb92a1870454d476caa);
Dbl (0xc7816876ad9abbf99acb73461760051cde30b403c126a5d18def648dcd8a3255, -0x559e318be5fef9551b36f331287be7f9f8b6064f0484c62c1dabeae84f119185, 0x9b7a71d2f4222a41b950e5b733bde06abce7c366edb7a86d4ddcbe5cfc199382, -0x577b219ca1f760914228d1affb4a4edc294551c9016b9cbd60f9418340950cd4);
Dbl (0x35ddc1c3218ad84fc1545f6ca20f19705f4cee46b36e21e1ffd9f4f28793f197, -0x26d5fe0492357cabdaedd1193296d675e2fcee28718ea60335924fe059d9e322d, 0xb559252e9733499f7d39d43f7b0191c42d7bd6c5005d59fb8b71a19df5f15f0, 0x2f432f6fb827e330442d208dfee0a749302a023d0e63ca6a3c3de35580d61466);
Dbl (0x634da6c426d7e9540c4ec18599a4aac7b6f27f4541aa9c5ec26df1f1922fde6c, 0x3f65437f1c3028bedba9bf731c97bd836696b451fa5f015a9ee01a786e64a853, 0x2685268974ad5504e12f69156e4388b62dd4c0667fa4d7b711b9e99f0b3f013f, 0x1f1f70a6f784e66ce778d6eb6c7b1b3a19b70bef22711c0534e921e9b8a09b1);
Dbl (0xe8150724b4cc461557c8359ad74ec82e5eaa15d665db3306a7517390d4f9a142, 0x159a2ddfbfb44b51dc84f2ab6bffeb953020c78e26302beae4196800fae8801bf, 0xd2661eacb3eaefb0b3940e5cdd88c953f01bbeedcdbf9370952031e7b6de364a, -0x6676c9326062476646dfec8bec9ffda4275c159f9b753a3411ee82015bd90f6);
Dbl (0xfe85fc2db040e0bf7f52d908972234ce554af464e48dc688262d664d91d26ef2, 0x18172b30a9fa3c929267f5bc4064391d6e903c926f63e9491ad387883b1ebb7d4, 0xfd0e268aa9a3dc8cb243fe38e15f62cd567ef07979394831a1dd8a7630aceb92, -0x45f93c0c7882c10b9a2bd1502e8d05c8d340fd3c95d44683d569e86f835fdf94);
Dbl (0x9b3653fccbfb063809d9bd9c7697e235a29eb0e52279887b1d3729fb5b679b31, 0xab61f25602999746d261af9cc4165d72685d143e637777dac9a76afe5fdbc57a, 0x5e1ad53ba935ed557a567a301ce8055ad2ada754cdb4baf47b383dac00888cd2, -0x4b3ae86b813f8f74c90910598792cd40aa6b7f22e1729a00da9091b78ff18021);
Dbl (0x9af09d487e0b537a82b89893d84e5748912cfa7c4d1e82a889fb3a08966ec885, -0x16e4c3880e52cb415b7b4619c2b5104afe8968f0a293adeb198302dcc06d6f8bf, 0x5dc65f628033f4ccf3cd919cc8dc9bd3ed1d6c7bc7f2122a4f7a46b1e88dc627, -0xe1eed536e182a4e9a1fea645d6cd656da4df675c1290b2175c5a67147603aad);
Dbl (0x6eaae5507193866000abd5a64adac8a3737a5dc078c8273a372cba8385e9f1d7, -0x23ffea5e4763161dc68649f4441036271f0e902fa78c2af74a11ed31503d426c6, 0x2fd74f267ddaa3e21513deaada319581b39e3ca607e1bd8f457548a97435bf04, 0x2842e84fcdaa6feed7cd5cc73f95deb28a6c9ebdf5dc12b836bafc7ec025deaa);
Dbl (0xdddfc2224c76486c7cf9a8aad85abc295a5272e88b500a0a3fa5d2868ca0cfb4, -0x9c16681b9e11356807578763a92c173bc48fcaabdcff5456ed76c810e2be345d, 0xc04c18c302fd6f9928cee40dabd9fad13fc4ea014cf1926555c818bf947fbff0, 0x16d4f078ad311c1de14c444e971ce45eb675af9818271c88d79343d2d17f4175);
Dbl (0x2f57949e5699197663093203346d7d5f2bec999ac95a01ab37134aa771c45fe6, -0x3a5746a604db99619859b06b0196e5792340d84cb26894aa2c8ac8ea7faaee28, 0x8c146887db28978ce8c39ed09302bb6a68a9acb9409bd2e62fc64dd69e1ad73, 0x7d6f2116f55e0eb1cd0f788ca288300bd629926fdd5b5b26e80af4178351285);
Dbl (0x49129c375ba6e6bb5695fc239fa9414fc1f82bfe3acc41f1a4d2696df87f6430, 0x4124701ab8f1ae32634149f38ddb03d88d5f9da82611194f1d6dfb9ce0ea66fb, 0x14db9e71e96196bb357541c30046d162fd56f4cf2e93f39c46d7ac6f253ca1f2, -0x295c2f1778770510f02e3a56968ca988095e09e87f941622b23e827589d8beeb);
Dbl (0xfa027415863d41fa371c2dc21e44b0c9b8eba0048b2c4dd2698ed166bc4e81f0, -0xebab3378cc98c6feb465764172af44d4235f478d5aeacedd79e4c7a74445e330, 0xf428cac00f2941488bc7aa88e22ed784fc244ffa20df8e16640052730c584396, -0x2c21865d67c917b66254230414054b4321a5ffbe3b5da51df30ea79fe92a7d0c);
Dbl (0x282ba9fe238cf4d58886ca874c29771dec3f1fe49d8d1478d77543a97562c63a, -0x2e40854353246c7653b8ef6b4b13981ac5d66ca973414482d28ba98651012a720, 0x64dac91f75d8517a64d9b1e4b2aff5d2d6c08e0f396a509c096db44d7bd5d17, 0x2186b8f36587aef7a60b920c0e75a10f9cafe058b7b759f2e775e2f5d2ac6399);
Dbl (0x2a296a5b39c00f29aefb930028fb5f9a29b29d6260977e5390ecacd1b4f963a9, 0x2285311e6da6142d6ede4b837d5cc234c5a82c8b01be5d4ed6c36e8a217cf8e3, 0x6f19d992c5b30d3b0e4fc332f6eaa0e14d91086b27e0a21ee36850ee216abe8, 0x2873e4374ad52c26f49d31b8213c2e1a221f0e57747a15a0700cc2bef1d0929);
Dbl (0x7f8ab1c12cc5ecd1865a8307f2fa33d5a7e43c5e2a992126e8e458e74de52d59, 0x4d2447bfe9d29ca72e32182d067e47ab3335e0c050a33b7342fb0933b983d301, 0x3f8ae781ca1d580970f019bb410ba4b42582835141126c69eca24e33d0d3282c, 0x6c87376bf94c2df60b08bad4307393b25f25ccce156ea5cc87b42d5c0f36c7f);
Dbl (0xd1d1154a63ffd0950b5550b0ce04673742208ef0b192ae37de10730284ce6d31, 0x14c6388a60aee8ada340fc3f21d1e363dbf3422d262d4252e552f7bf2b5e5127, 0xabf70f873c84444bdf0ab4097746554cea2f61e92fda9a1d2ef4507c332c0ece, -0x60acb7e53ba9664b7f0b2ccc7f7d19c90f826ef0c6c9eea08a2b90348d9ec1fc);
Dbl (0x9e87acd4a4f9954e433d87d2c82b246380f5d49b0ade098a24addc6e6ee1de4f, 0x2dbb4578f5dd668f508435e0ddf31ae01de277fd063516ead8776d536e0f91eb, 0x622bc13e389881d91bdc0d278b4a666ba83f7fb05a83cefddcf49aaa3f09071e, -0x20d1adfac959fd910f16d1d8a82184f5498fa19e2beab47a37a7ec9b4c4155bb);
Dbl (0x4ee74fade23a01a878fb3c374df45c17c225066fcd6bde84297fcb6d0d076b80, -0x15c147b8de426cf21c754dce3bd50e03bb0985b9c8efeb26af9c16ff2fd2df795, 0x1851c58eda76656cff1a1e8927fe43f2c260cc35e1a67affbd6ef96f73c425c6, 0x222ed93ff17480fd1c08e92f8b56f63861993bc8af414dcc4659efa555847ece);
Dbl (0xf6d86bf1dc1c078cbb867791047c8b5b38eed75bfb229a5c0ded069a7e8ece5d, 0xa60bedc80199f8227973db15ce88444ec7f3d83462bd01f8d69d8b563a5c5a86, 0xee04a66b28ad604ece38ec7b7dc8695370c135374973d3beba74f0ba6e164eb9, -0x9adbac6c11f111ab890a12d65166dd71553fb0dd3336eefbed6bbc781868e0da);
Dbl (0xdf71ec84c663fec05c571e2c6fc5085c6011af545fbe42f3ff693db7d801c00b, -0xc6e16180b8034c0dcb5578ab860bec0abe52067e4c23abad68e8b238994058ce, 0xc307acc1f95e6cbf9541813a7c8d723e72a5f690eb13e813ea2985744f1ff4ce, -0x145b0c089fecc48a97c41b5aa4d261ff85503ec373380c5da103127f24d2e79);
Dbl (0x361f57ef460f29732cafc83d9eba25fe0dd319931c8036710b2a38f274f1db61, -0x234d163445271919f08d811ca96df1f37454c40e81d7fb093aed71143dfce718f, 0xb713cef5bb5de6ad266f40a46da3449eca6f601bb60a5e1e1bf655756636abd, 0x252a464232c99fe538dfc668b2823b90740419227b4be22fc7b15dd5b39c902c);
Dbl (0xa4afeb28ea7f78a6c09688fb88e28a8a67d5786fa2f90dca571f6de9515ef2e, -0x24263ccad1bbd0c41c71c6834664c99a9754d10f46c3b291334950e540b0a018, 0x69f1de2fc66811ecc0e14f0be4330c18a3c0709e8f79a6f5046f1f13f445f5, 0x19e2ea49180de97eed0c5af2d9e683be0a72a3820ab76316fa4f6af1bb2e5b5);
Dbl (0xff5737b636d1c1ffbe6c3acb14f153e190294a4b1510629bd4c822ab9dad3e37, 0x7e5773673ca885ed88cdde45e49a22894c6a5419f9369aa6a15806464e0f750d, 0xfeaedeb3eb2ef04d7887efdc07d60f05a0069b599fef6b9c1001c8922ceb5d0b, -0x4d42dee7f618cfe85c789cfecb2c1cf544968ad05aaf3bf638920da5d6938c5f);
Dbl (0x3c8aae7b252f8ad62c5cbd47b0395603168652829700f7c1f76902d8f7ed0e95, -0x2a190420b271f3ba3cb23d8499d360ee4ffec781ffc6c62cffb3dd3a140dcb36, 0xe514cea4d1e021f7584a1c88d12e859ddf921808f19979dbe05b35a8e0e312a, -0x1f598a76062432225d0edd413853730b537e320b7b1ef11e5d30067be2532b36);
Dbl (0xa5af926d811d13acfb2c4a8c53c007027c0786aaa9e7ca78d2ef4ce4f1014719, -0x20024616b1672e4c07526510ac50a437374f8579bec28283cbad20c68c8edf4b5, 0x6b3bcb2aade7173a4098df95046641ee800376e2552cab4beefa0e90b0257a68, -0x1004d12bb2f3049ccb13d4120675e27493247bb156648d7880250a696e067e1f);
Dbl (0xcbe492e4985bdd16dadef632759ded318b5927d7201171512a30ff038b505ab5, -0x18008a081a68ce3141f51ed2b32861b528834ff5ad614ade331ffdf4b756b3f0f, 0xa2644d0c851a9e2c96509178cf7ae652f92bb45e42465a38afc8339973477e68, 0xb12e5a29b3cf7905ad09750acde15ed9dcf6291868701d4fd7ef7c794de5523c);
Dbl (0xc194d171091781faa47f5ce501af8b4334ff7fe52203f734ac51cb5aec54e4c7, 0x8dcd0f0ed3ae22ae806ac38da4e6cc7692644baae095ad98e0e1baf63e04e921, 0x9261ba4f45c1b7eb9f24e67e200ba479535382d402b58d66541a2a202e9471da, -0x82ea2703cf2805c9e9203d526865e0de7698af56bc35b349f330f151b10b48e9);
Dbl (0xf2da5bf72e636a9f21f40bafdc050a179de1ea73d05fe6de8bae1ac6ca80f88d, -0xe771a8f2a0bd58e5dac7764dffe10b3d62b97bace02daa8f98acd4ea13765e1, 0xe661902015b8a08bad43fbe03c69f56d86093daeedf1a670b21f3fdc7fa3b9fa, 0xa4608399f0db86ee65d28cae49f70a1359b0ba93a7300e764bcc5b7a7a0cdda7);
Dbl (0xf492eaa6961c99ae817c48f8e3a99d4a2945f856225756a063f20f3021e24ab0, 0x143279eaadcc423383e9910de17e1a3ca3735f5b2644d0d8dc2eb2c1fae972603, 0xe9a8639e0b3eb4673ff0772f4aa0aab491afc69a08f71a942b2496d16260a136, -0x3a65703bfd13c4bf942300c131e4632c6c5d0e218b515627759724e377864438);
Dbl (0xa72e4243dc96df2a157145e0c716cc80520155f5128cd64d74123b48359d5782, -0x20706705e6c0079f9300b17397a10e5f871af7835cebe65d5011cad2192841fc, 0x6d2d62d06b572d1c1b37a9709e8fee6f7cc93a79228d44b27876b26969ffc4bc, 0x1efdf23655489dd428167a13526fc67a2cd24e98c4453b232688d11dd161101);
Dbl (0xeb7198abf8ca01eb3fac129c5a73dc3b83d031a663556a8467837511c77ce4b5, 0x8b1dd0bc1e65945a561be41d11bdabe0f222320a873b8f18797b0612c9b56cf4, 0xd889c0b3dda12cd1ca820f15b4b4a731b8be3f1c70118c8d802d02c6e315eb33, -0x50f7990e844d04d84960cfa767b03412b8403ec992f81f3ae068b2e1eefb33ba);
Dbl (0x97b46ee4200685076ddedde034be36b2906cd6bc27e4a45103dd3df11241112f, -0x1177198ee460c5439178b6efd818938cf722aa0a17215831ba24277799404b4e8, 0x59e659fd3e9d90e88000643a1a1c0b0032e30b2cf3d8db53f7b20a63aab3e765, 0x5cc6f20fda19e02de8158c73342abbaef2e0af7b9e5d403658bf2a0e3fb7ffb2);
Dbl (0x2236ba67f0aed1ee74398f778818bc9190f4f60d994e1952d10793288a21c756, 0x2afcc22fed81ca4fcf577c4a0d45e31e73d3c24b7375cc2d4a7bb9d8a8aaa98c, 0x4929536c7832d757f7c022a9798439b1f8d051a43a79cd8597a3c033f326204, -0x8f0a50192bd733048c7015068342121bfc2fb525149f9648598aaff46d47d87);
Dbl (0x8eddd290e5189e9a09c76ed6d712441b6d27664842dd8e2a2da6fc2264734dae, -0x4e797fa89c0c1bbcb5916f2f603f5aba0ec976f4943071c0c9151ffb914f1f5c, 0x4fbad5cdf984e653a5ba54bf9c5fe61706ecf7d1f4aa97a92adbf78951d36c37, -0x4580c4a156ef841e2bef8dcf0b1a1184c679a3ebfa1b1dabe263cce803648277);
Dbl (0x5e5d9f74a69405ab738e867514ecbd088355b4c30437e68d0aea625c1d4349ec, -0x1a55ba2fa19d7e13271f3e921e604b8ad0b6d626ec026aae9aee1d687170ff465, 0x22c8e356e867d7c949030a2858d8f16f165306237a20bdd8657eeb73843aa091, 0xc99cbaf1cc31e13c00e7194c7a06553faae6ada517abfa9d5a78da0d9f3a4d3);
Dbl (0x86d7e10b7570e8b0637420fc36ff4e519a6eab0b3ffc8ac280b69a1d86ff9887, -0xec493a1e167d29e0857a5fd100a696ad013ff4b87f29c789ab7165fb2cf17913, 0x4706b5a3c6069c3346ff140fc7ed2ebb45686f1358f98a5f3b026dc7f92419fe, -0x2644579ce815190084bda28696046438056f1339c0d9610a35484dff3735ae1c);
Dbl (0xf66c18362c94a842ae9f96fd5fe8a693363e8759ff6c57cdc3f98b7730339f73, -0x20f477d0ec61db522b7f1eff6200ac49eef8c0869744fc0db2540d136fdeae343, 0xed33ec2c8dad84a0d5e4f9dfd9779c4d335a6cb12034548d77c3b283dae840c1, 0x9116ce7ce9c6341942a80dd54c1d7f6e9e7907971e7d32d34b87fde5f317d4a6);
Dbl (0xdbfd8bf7c3b1490a8b50e596292609b6253877026373c6a492ecdd76197b8138, -0xe169fad0003ab7be6d5a37b161f6fbb107ae599d31e57e0c36c24d4e30b83c0, 0xbd0bc897dd111db02437bc638a4969c3190e1699a4980c2b53b74d2b505389a5, 0x808c25eba417234b5486bd25d07f9557fa44237df0f27880f87556a9ecf15dd);
Dbl (0xd8922062d40c8a8ad208d58d36ad5621d550e8fb087d1c34f90909dd1a2b4f79, 0x8c1a30aeb7f0c9436870d100020fcb11fe9ce589180a6d07aa2ee2fb37736f51, 0xb736ea0fbaa7e34274a807501959f51714af717091bd5f90c78cd34040d1e319, -0x2403a9b71798405ff5b1cddea61e7fb4bc96dda16f74f9fa03605942386335b);
Dbl (0xdc1020d83e933047e2c67d95c88b21a1172997339674cf169ec12b7e79270d55, 0x1f0483f9f852c7f9cc1f4fdb0bfa2753eeddaf656f439fdc1e1de4e1c45d824e, 0xbd2bb977cacb93b00a8092acbf433019105ffeb4146cea525072f7db9472aed9, -0x6ba376b2f96c3cd98acbdf9f52c24de9a63a93d24a0e580cff6fa5022eefd1b0);
Dbl (0xb30ceb66c726c55aa8bdeef02647bed83bb630d8025e1beaa2a4659163a8f3f0, -0x178941aa9d3e4c7ef0d891dc04eb0b3a0cf27df0eb6a296ca692711a545a57494, 0x7d3b11d8a498be83c4a070af897942ee32a5cd9ec577632eeb868a3e4bc84d5d, 0x2b1b09fb2b064b4660cc6ee93770a007b3fc34492f40454c9df763d79b6c47b6);
Dbl (0x90a197b7b8e33bfeb50cc4756bced529643b3afb182001e52b13f8336cf36bc3, -0x79d84b9b490028fcd5dd7b638f734b95c5c971e1295233d7c01b0345b715f5db, 0x51b630aedf007145ed3bc6c0b50482f1ab23d4a3afa073c123e3353e2f0bbe6c, 0x4f7ae0d4bef3dfad34433bd45909db54954a7dd722148473969745d7f4b7ccb0);
Dbl (0x538642245d31a63b4ffc418923f6e47a203f3c84c89fb4291b3726d7d2c6be2d, 0x4393c476d88d03f00135addb5ec20378a901bc7b4f735ad71300a8c6fb9e39b9, 0x1b40554ce39686fc6d8fc0e84063c363a2e4ddcdd3592be8a06391764145b16e, -0x1fdc9928db544dcc41735e893c8af7bb4d7ac12915e9c366d1607333d0026588);
Dbl (0x29e06cd166ef787ccdee448a9b153c1f4e2693bb0de4270e420d5e1413c652ae, -0x80b3b179031a0ea4e3a75da1704fefbb9aca36abc8a8c29a31e322088800ed99, 0x6d9a799afae31ce1e6e707b46f4af00545600a5738afb79a5f32a0fb46f9fe1, -0x91116d01c20adbe9147a40c45e127ab75e8926eb36d1967f0099b739a626593);
Dbl (0x22045e501c08e7fd4bfd5e3730fbefb93cc5ef12bac847beb4253468845106b3, -0x12c55b826077d8f9bf983fe8e12f2d7398cb0cf388151f198c722ac4dd9c0f3fd, 0x48529205cb22b8e9b1aa21de4f72438d2fcc5bc796872f88dccd04092ef823e, -0x480eaeb283cdf6069c21fd72d9591c8142f04cbcd302d6f9741aa19b6740c14);
Dbl (0xcf3730f3c43c216356e4851fca06af5a3feaec8e75aaf2a402dbc499336d49cd, -0x50a7dce6a75b656d31cfa4104c6ca69ca420f6c35006284ab632b82eeb76a1a9, 0xa7ba4d104973e189ac4da9e70c19ae79a7688c8c985880a47f37df927669a776, -0x16be350bd938542d17238c88a6e09071a45aa3a12d2d3f84dd73777aa1422413);
Dbl (0x5a72b1347f2f36dc741c32f6d55ecc4feb41dc1d79bc84dc3c3caa4d33b31c33, -0x2112410afc74715c22c5c810ad1ae82028a0db3f37211d8722979bef342e63837, 0x1ff4d7fb36d81b431236403507b3132936990c495461b20e70ff3e12e678323a, 0x3c43b020c0100bda47d05ed30e134d906297d232926da9dbb27a6a8142de4379);
Dbl (0x2cf6e38b89eb995ff629523e4d1a1870528d114ddfac39b1848799eb9e8e3a19, -0x12bc59588d326ea499d2d96fcfd5370d235ba67167df0b1fe8c362219e45b3f1, 0x7e5cc5211d6d02aa3320b6dba80f50b468150a28823bb7f15f7c1852309ab8d, 0x680558d4f4bae230b4e6ab2ea88b48db0380516537dc14e55ca1b354c645f18);
Dbl (0x4d2f7028964ab24df12ede0ebb0d70474d9d35e3fa88a6f72d0992ca075e7423, 0x7522022a3b0f63fbc00bd80019a686348dc248089ee0223cb2773463d5a0225e, 0x17459242ca73a8a1074c4aedaec3e3321f3fc756b73265706431a7c96d8fd102, -0x2e5df0514cc554f4339ac46abb1f115dcc11db701f5c8d5b1af07a9e6638d25);
Dbl (0xe7f7b5bf52677f47c909ff753e0cb6422a756242da7e9774f36f7853e8ba4548, 0x172ed1e66c9d462a1a6a46ddcc015245919fc76367548909cb64b917c2541735b, 0xd230f9af7eefe4ed9447e3185236236f65fa19bdc05a74fa1985f04d1c87edfa, -0x62e6b1e8da92e8634218dd5cd03fd0eae2d4197b61af4812b9a558b7b3ec92fd);
Dbl (0x67cf0c07b10b0e211b54630fd69e79dfea8523099792a76ee4fdf4e9f6aea0a0, -0xe877fd97b5f859a51d4f8482c62490afc5cf1874dc7446940423369ae7cd2f50, 0x2a184322a577ee13afe6449259a22ed99291d226f5c5a495fb12ecbe2f96a1d9, -0x2adabf12cba89440afae6d5a2920b30a1ec444ba4c7d4441b5e1d52985ee2b7a);
Dbl (0x73055117f8fc71da09e4402e46a97b6258827c6a82b8f56dd4ed293544d609bd, -0x24a615bd24f1783954fed035cfaaa6775a24b4c6c3646dbc756771bcfefdd1619, 0x33adc6f7ce52b5f4c6f9f98b17fbc4a97db0968017f4056ef2ae1badfe7b3b43, 0x2c19e28a25a7485920da8493c0197f57b5dbaa74df6d0184cd161f56cc3d5a00);
Dbl (0x20f70b4b1d6ce28d3cb19b2f27a9714fe1185759ffd6109ec1ae18ba7e0b482b, -0xfa3615fd6f942de21cd20d748eb758668602f0c4909065e6b9ef1242ae1f3cf2, 0x43eb13992cd8b52185e412201b9006f8c3d7f87ac61d1d7fe1e3638d20a2196, -0x6ffc36297e7d29264519bc04fffd52123e97e917d739e88a42745ef41e513a3);
Dbl (0x92ed0bec3174253e88f618baf673554e1329094b7bfbcd13d35dd9abf016b216, -0xccd4bb88ca741bccaac18c48be3838bb5de22454f75307aa476407e84b079941, 0x54533d187c4a31b37ce801e46dab00190dcc320241d1231e995e2d90eff8d23f, 0x1145c0d0ba3c29af715bf17e4866c7baf65fdd3ca649e402c8a2f40210ad165e);
Dbl (0x2cd908c6c9e08e431bd3bcf301875953abae29e512407a57a9131c017312ba60, -0x11037df283087462737e521502e6a0e4bdc9812a36f070877ab1d80282b41cf55, 0x7db530436b476932ec89bd4ca084bdfc0f260d528f8a08d8197ba7cabf2d1c3, 0xfbf4d7604d5eadc20547e09767737e7c6f315f8611539675a1d3b9ca6c1c87f);
Dbl (0xabb29926777623d00344ec00c5dd34ea088fc53e9f5ef3e6d3c7cdd083ad1676, 0xab600001f9e307f7386e985ab5492f6471c9a670fb524355934fe743d2d57e4b, 0x73281532b8b4f4b49742f09affc749e7d50be3b6f6b32519ae2035793be58aaf, -0x54fa9b042b67a11da5e3a26447472c908c3a996ee40e2be8a43173c5b82d5a79);
Dbl (0x695a461880f215df8c78df54a946d96d3d913b60d87441a36d3e41538f4789b7, -0x148e652f1aa21cc21173cff95af228137270c9526106024c475b32c79cce1b1d3, 0x2b5b2d557632a90594b741b9d42c34bbbb2538f5bde8cda2d9829425c0901530, 0x9c17af1570884453f7e1b0fd6c24f45e9f7f43ec92f33541cf5e17c896691f6);
Dbl (0x779bd28859b018134c8e880d8a3618c424181023236cb8286c33e300ff139275, -0xc977f5ac094dccfc40cb80cabeb49c8e0a31595af209d63d32bbbaaa02e34003, 0x37e23c9361a24d636a905f0f0d926c0f9b75836c62616ac9d230266b02ef4608, -0x1c610a0cd7e292613fb6c59e4ff1ecd38248e5f5272230210766fdb2c6c5544c);
Dbl (0xa35657db7e33dd28b733057677392155cc1b5230a1fe05b24ffc8e5b5198fefa, -0x26b155c8949c51c43692b0c22d38a585acc0fd61e45ebe0d790f982769f9735c9, 0x68371100a855c272dbeb37a0980b430b1d013ef71dd9ca2496eb2d52fd0564cb, 0xf4c11b86e625d3682a8d13a7cfc4f97a8cc3cb7f7c3c8f01d6d6ae9cb5db11b);
Dbl (0xd3c93a931625a689dd3592bab79729508468624abd1b29f3fc8a043138c2fbdd, -0x14a56fa99d4c9ef17299bd2b46df8816dbcc2245a239233c5af9cae8a3d476da9, 0xaf3554bb7ee1d23247c1e6b9c810d2ed6f53b5b1b14dd9cfbf54a9dcc016a99c, 0x660e724994b658dd246028d1e839f74aa093e322087195f8b0c9be5536e8fd49);
Dbl (0xae953ad3269b7bcb3fc29e1dc17815047a20636d0ece8ba0dc6dddcbf615bda, -0x63729429eebb0247657f0746a73c3f1969d8903948a1eec499a20fe3c7a5f609, 0x770f32f48fcaa8ed837d789b4702805162a3841ba7d188887a445702554d1f, -0x3952bfdaac7be4213d94ad5325e22920c9057243368d88925c325d5b7cd0abb);
Dbl (0x4fff3d2acd719a0c307986ea355754397ae1fca620951f11cae247eacc5841a6, -0x17ecf3188e4f17465cb8cdab3aa83ef7455f982e15fd71d4d24eff794f600cfd5, 0x18ff863b54aed2749bc3119a06c6247d623a7df6ff31ade94dbffea597f1ca42, -0x102d5f2f74bb4ac41171f7f702f8be9c13eaf1e7231907f401e605baec10acbe);
Dbl (0x7a52afb302ea144dbc27ab1f0c7c9af22e769094a0a9b1eff91b1eafbdf41c0b, -0x1c9cbe1eae7ecbd5098b7da218034bef318fa56ec0c01258a06e9851a502bd810, 0x3a72ea2ba60b3478344582d0e9e15832275f6a4892a335c1e9b232ae3450fa0e, 0x3a7ca6f7d35a67d98695d9cefd8c1d1f4bee8dba658f189ce0bec9fcda936f93);
Dbl (0xd81c11d09ea2ebe388858b897a2514e6c806372d05dafa3a8307e1103e57626d, -0x7777b3803471027cab2e624b856090e4b5a1deb9133c7a9bd24576fe9f50d101, 0xb66f6123f29300c75e88456a5b9575244da53ec448f6efcac6815d37ae106f7d, -0xfd1988a00342d151890eae32f7431cfed57ac1e660bdcf491efb0d78e40ac1b);
Dbl (0xa1f316299c051adcfd77e3908b8b8e1d16a72fcd0b069f7ae3f53fb842d3ad56, -0x85ba12b1720d77d50721cd958358d2c7129ffffe3f07858ece048e432fa8c568, 0x6673a8b36b27cb0f2fb0cd0703cfd64119ce061ae4dbdbdb0efb94c78694eae0, -0xb2b5bd35faaf6da881e8f348f61db40bcac8f3f9a7633912293da8c70975679);
Dbl (0xaee719a737ac4e364919e03e5445a0aa54749101ba80f9870cf20e6dc301ffdc, -0x2e540bc766aef3a20a075b1a497cd3ef68db194437a0fba64f9b9ed4208a408, 0x777ef77e9e06c96047873c365cd9f305d6d344f52c29e2c9fa653e3a79cd79eb, -0x1697b99d9245cb790a6fdf805daf784637f9740e7891fd3bf630146023ca70e8);
Dbl (0xe732d14399fbeed039026f11b190354fba6434bfd8f73a24ef6362b4a0ea91ef, -0xea0494695db0cccea8369a105a55433e780cea7ce11199cdd1e48e768a6bf98f, 0xd0ccbfbe695c42ac62a6c2dc31392aa14829c55055374711080b80df88962635, -0x3174cecf085de34ec932eb5ebc55458c6a166464dacc99aa35453bfa9d1e3c0d);
Dbl (0x2c649e1b444bfaa921f03578039be8f40e5e8ec300f40fb2cf8755a250992c04, -0x24511d51ebfc3e90f7c37f7ffde6f6853996200a29e423b683746668a9b83e4e8, 0x7b2bde5466d24bb3b752f53603c1ad52c5ddff4fb703c11be520cfde7e06a2b, 0x25ed8e003c61a2270f74c2e987cadb2b1994fddf26c27839105e16f201b50000);
Dbl (0x7f6ca70ea09ad6dc86113265e004c641fe4ade7c26f023e090d6fed00d0af860, 0x64e9d4c7ea4b5840100224cee77efec4f282ac5b458c0766cf52981dce0437fb, 0x3f6cfbdde4b53a34111b4fc7911867f2ebcb1204d0c0c195912c254fffae0a44, -0x6b7f09a01520a0c97909dda06b9f05376fdfaf33a0ab971fd2b59db2b0abd5e9);
Dbl (0x956bb6638dcfae6ed2d37ab4883e724fe35b9eef641780caac5efc9af49ad601, -0x19ec63ffbd46c9d6fd5f429185ed5d468c4511d7cbd7f25a5d5be5f57a2d463f4, 0x57368fa1dc3e01031b4355bc1ddcec5b5c7a55f02c1d63a7fb8a9e7c0180823b, 0x1a6fe5c091ea460b15298059e3246ec3eee3e97cd253a6f0e5003d8c3e40578d);
Dbl (0x4ba55d8b5483fb0b4eef34a9a5f85538af7bbc4e921ba073bb4bf2b4cd7a6391, -0x180a1095623357ecf8e094b36f47bdb7dfd067d4591f3c2e9bc82ebf186120e76, 0x165a4fa15b4ece7704739fa11d84d785e8311a9da471f7c47c92d960190477f0, 0x193de391aba2f499bbe89403fc304c348d6a1d6ba56a561e89d070a0c65655c2);
Dbl (0x13b8ee10d8c63ccc1406374f50b83c6235b74b6e09e566dcd2899776e23a0e7f, -0x6d96efa76407cdcac813a6e1a1ac4d65bedac449785d51936b2bb48e3efe1b21, 0x184f8ed95c85e2a19b7e3fdd38788d444c2a4c37796bb0a951f083178c02f97, -0x6742676e436e78507d42f04417e4e9c18cdd6feec2a760fc868421c9dd5a29e);
Dbl (0xaa3e6192682f538d4b72a6099461c5e2cfe08640786f4558796afa7bdd1b4f14, -0x18de0e274989e4d28d93528bc3b1bd9663efcf2d866d51407d157bbe88a7fe57c, 0x7136e8c9da799892fe57ad06acc22775b7b3e5619e61c8c8c0cf500cf478a145, -0x13ee677e3fea057f5cd6207b294a4c384449264d0298cd52abc732ad554b3daf);
Dbl (0x6d40f867eb9969bd1934729f2455f97d4dfc8afe1a79a60beb99bd71d438f605, -0x16b258f46b6eff3ff98ea203f19bcbe228b8e65a4f5e34fab7bcf950ff994c785, 0x2ea06405a39ff3689127bee576c70963b283f14c3bbeb8fbb3bce7554bd61ed3, 0x5bd1388c934e3548460cfa6557b8cbc6411303ee9bff1efa8e966828d73267c3);
Dbl (0x41c6ddf7f1d7920ac2d440aa504b65fbd35a0fc0b352cf7d2843b7f37fa68e6d, 0x590a9846cdd31888c902f87d0233c3e8c8caf987e190c020e1d6415015672248, 0x10e6973404cf9952242f24cfd5ac7ea7f250c9b69363318312226dabb48cb3d1, -0x2ac1ec6ba0eb4ecf248d6324e51188c0ccceac04368fdd1ac8e6879ec513bf3d);
Dbl (0xf717c949c00a247330d2c209336c342191c46c4a3cd7e6c574cf6d0475aa1d3c, 0x43a2709cacafa95df55c3c3373958a311e9e2e3fac9324d444bdbda1c69cdc54, 0xee7ee8a21a18f8f7d7fe5bbd1333b31e85fa9ff5b76b144505155b2decee7726, 0x1c59416888fc0c6c5ba79677d0bd17bb05fb65ece6177db40fab4f14b53ed29f);
Dbl (0x1bddb5e9b6dcb12288dee8372dd502b817cebcf99239560c5bb02eae1f5b8d6d, -0xd823273fd961a5ee24a866a9c00ace930162ce5ccfaab2d179e991ad292ab188, 0x3088462e35c98599153265ef599c2d49ff73669f4ef7f5b6910195f1320f93d, -0x35e55855b64659c937d19fd3539b885c6499ba50b37b1f162ada39d8f54435b);
Dbl (0x5155e968839912f9df9c4d6591d7f05b63e0a833bfbf06859834b241f4ce2c97, -0x14a680fb7dca446f5383340630a5b9d4b540d7ee848496049e434a5b85012776e, 0x19d77a88f77dabe08dffafc94a8e9ce237cbfe28d3050486c0582b826fbcd61d, 0x2a7b61ef598c925423a03e619fb09fbf9213b3b808d857b46f90e02685576fb0);
Dbl (0xa6e9eb9d3da9c42f9aae6f283394cef1be5989de42d18f364787a82adcf070b8, 0xa4ad61346e019ce5c60c794d0a59748d49340b74f9990a1dfca29404b5e80efc, 0x6cd4334ea90c793f3a862a21c1055041debfff33f891c0f418cfeaf3813a755c, -0x8e095e621c87348891a7ed4d816d565c8671b9eccd6f5d6a3b44c7186b00e88c);
Dbl (0xbbf8483324d2a924f05c202908140e3f3fd6da9ac5f253124e8953d67d1905a2, -0x2df4166a8fc2356c87c071a01ace5227745cc49292f3f2bc81cb652dbda12631c, 0x8a04aa46af3fea31df1862522c0ee36eed73cf53ee7c13a81d894cd396b6656c, 0xb4dd5fd395d12a3955ce4f530192934a9cb2884e586d1b88e81353e154737dec);
Dbl (0xf606cc653fb2edb4402ff71980fbd71223060bd7ebc89b350e2a4b367515686a, 0xbb8b7e11129dfd70121b1071bcf5831ec81e05dbd54f75a38deb9d0b0535a41c, 0xec711100ce5c62ca0daf95b9d3b7c8eb65a9ea77e81b45e2a779bca10bf8e8ae, -0xb23b29d82b970970e2d6a6c5fad0f421e434b581b240984fd1a2b056e1076c78);
Dbl (0xe0a350de580db0ef003512968ac580a51a40c6df2112239e26ad8a411bf7301c, -0x128eed546fe55b9c458fc76549e898c2580461697e292f8aa993b82788144933c, 0xc51e35b52ec7cf36f554cd2268ecae0c9e7cb8adb2d1a09675b9e6e4d12df9a5, 0x85298a7ccaa6302b0a9574687813d27c760b20225f4eaa8ae0d89d4cbc26ce86);
Dbl (0xf0313f849e88f449ddecee7e8f30603b8b1fdbb3cf774d1188570c68388edc6d, -0x11c4a423154063f086d42446670e4100a59876e784426e2693b13b371bfa42bb, 0xe15c609209c805334c08d217b82ee86f8c439865219ace13f40f4fb63895424d, -0x7f398869f86e468f1d17e5a6cc56f39c4d1d69dca23ed0f2bb495ae6cf35a018);
Dbl (0x68ca87e5d24c22c2e1ac71fbd4d2caaf3ba53fe97f87e31de6444abafc9a1f02, -0xa58d488f43aa7d044764240911dfa284960617f56eab2ee1d6e8411a5fce1988, 0x2ae52ea579b1ee836888fb187fbfea08c5283f8bffa158c703c0ddd9dd31239b, -0x1199705fefabe2277e7c8754131b2bdabdb60cfdd3ab6e0ccb1452d4c613a129);
Plus (0xf768d3ed14ac5cc5b3b3b1c2a18de9fc043ac6eeb839a87f0cce452e651cea5b, 0xd075d4f63c648c4355e61a0bf48b40196cf883c55d860cbc2e24c561c753667d, 0xef1b73e05df612b44b23d1daa2fd5495fca50cdfb1a603b2ba67363ff0e1400e, -0x8deb5f4ce2d97d2d1f4a14fc5af6cad4eda8b353492023d15629330ace1afb3)]).
  - vm_compute. repeat split; discriminate.
  - vm_compute. reflexivity.
Qed.
Lemma domain : ecdsa_domain (cp secp256k1) (ca secp256k1) (cb secp256k1) (cg secp256k1) (cn secp256k1).
Proof. split; [exact good|]. split; [vm_compute; repeat split; discriminate|]. split; [discriminate|]. split; [exact prime_115792089237316195423570985008687907852837564279074904382605163141518161494337|]. split; [reflexivity|exact order]. Qed.
Lemma no_root x : ~ (cp secp256k1 | x * x * x + ca secp256k1 * x + cb secp256k1).
Proof.
  intro D. apply (cube_ok 0xfffffffffffffffffffffffffffffffffffffffffffffffffffffffefffffc2f 7 mp mp_ok prime_115792089237316195423570985008687907853269984665640564039457584007908834671663
    [0; -1; 0xfffffffffffffffffffffffffffffffffffffffffffffffffffffffeffff78e1; -1; 0xfffffffffffffffffffffffffffffffffffffffffffffffff07f4afce91abbe1; -1; 0xffff3a93160c6a3e06de850b5b6df1f562fe0d1e429188bd5eff080071e37754; -0x3f71212238668d2f7a41b40949a020172f3f6bccbab9a075ba36f37ebf947308f; 0x299b5720cb8f5235b702321e89fc9a0dbc9a44a2d9722c6327f8d9c219fe346; -0x549c93529ab670155b21f9ae52f6fa8633a7218d4d4619f46776234d5db629c; 0x6d2c4ffbdb14d007e38361d8821e8791cad456947d698e390007a2364bba293; -0x21e96d16100583deda27a9bf0dca6a42b328b3dc7b076023319102b9134bef1d4; 0x324cd5f6c929b3cb3db3da8b2011640595dd6e9fb9e00bef7f14fdc307ce2325; -0x1161d4791f32aa1699f9b78d6e424d54cbbd294e23d3c37baed18e96e7f812bda; 0x3ea44ec65a5e1594ccbbfc86d74aa5d523651ba2d9b0d14140b1dc70ef87d504; -0x5e53b15e6da34d00a82a318b20910c2db9616779d7210b3f4ba00f5cee571bb49; 0x81d24005a89d7dbaaa57d793a87a16da04cfaf07382163e3a1dceaeca3c6346d; -0xab2bcd78ef504927ea2d3ad7ddb10f9fa785cc584e515b372d83ec909fe49da; 0x8196a3e11a5aba48ed77da59d55acac55f0b3c08765ad177e2bd79eca9ed849e; -0x1dd025a0f710e85a06431a71f932c3948e921eedf1047deafc9f0ae919737312c; 0x60abc27c1387539c77d6805fd42a6553408ea628c6844957e6cbaf500f82cfe3; -0xb07eabcbf75c78fea3e982b153762d9cb2d91cc42626d2e4ee54b1fecf585697; 0xe8f327197ed178c4eaa7ebab59c16abcf59986b9b534e26ef20eb9ff3ccbd220; -0x258c89252f67fe6df26ef4d0ef07a6087865e9fa219ed4e7f532943e7fd38331e; 0xba485c16350e82e841597fefaa20af7e2c249aea11e50fd48bd394b7006c83c8; -0x63bac327a832f1ab80d951f1a32b10c36811bd44067b310102861b1e284440eef; 0xcad953c2259e8a92e9fc4dc8592026ff9595cf10dc1e7912581f640bd9772ce; -0x2e63ed89b98822b9be7726582d546511d8e337cd272ad727b0b23acd92848ae5; 0x32e9f43b2ff7573d02e45b20cf1fb4a6b71aa93067a06b14e65a1884e5b3f6d; -0x48e48b09a4e2d9d4ea3e47e40f0c8d937aa53acf70df6e0147c9651343010dff; 0x3e9dc98ba85ec15327e7023b1b2d8b83a30ae03c26a508e6cd12ff3828e57c6e; -0x14e72ca85b16fd38870ebc38ac10900fb0d9aaf04a264d5de51a719b4168233; 0x3b1c1d70ea94bb027bad1c12b5201cea9c4618e8ceb8694c87624e635e0c194; -0x40a4f813075a61614c805db240b77085275e1626d59c0c35ce01ae7d7acc5c23a; 0x8ee5190efc12644dfce9cb8df2e574bd273162b0a22a624eddcd993f8219a9d0; -0xc562cf5a44c89721fc073d26a22982e606ee754cf6e40d56870adbb165dfd8c2; 0x749a8a73b3fa02227c01ad499f731c910efe328674b8eb895d4ddba17552c890; -0x1a9a47f85871c02624b0dc229bfd5264531d55bfb45dfab5bbfa3494171342f80; 0x464604bd54bdededddca9c30e7a6fb5bc32e52baf1b6c61d8cdf09c989d5f0; -0x38e62ebec99c8f9195c014662822f0c4c2ea8e8d019d3b77f4d8e804ccf1cf93; 0x9784ba02d18d29daf9e143478a54ac15e431d0effb0e1d2ff1f38969b7724738; -0x60f126df36d25c993d4ef23083eca52fd1f1679bacda0be6b5e3c47224b3f5aa6; 0x36c07516198373f1d48c32740b4a6b7b1ac48d238b3cacc737e2d23ceeac7a2d; -0x688c60432c19f72868bfa69c36a374b402f5c70b3d0b73f8c544b487165490f22; 0x81b35976121fca5d36ad90f27b4765a200c2190191299184c789f4e17d7da39e; -0x6cdb4c5beebb2b42f3de6849f344fc6cb10a653de58d52f16481e8968fd590feb; 0x60248d798fa0c1b690a705c260defe11d6bb72660afb6734c78afcd7b1f3ae5; -0xc92661dec4c37fee5f33f689b6a162479a90042d91a801264087653d3b8f4c98; 0x97d02fdcce9aa09835f38311d3b6ce0d96743c1c4107f645cef6363132ce0ce; -0x3f9b261db9025f5c25a2c8698c24f9353c9f8b499c4748b77187e191a71401c07; 0x3275a5a8588b98338b51c51b5bd21c17595649a04b2c33b94bd004f5375; -0x84d1d5784c475efa3e2b98d82bffb717de2bf8dae671e6772355ec9e210f5bd; 0x3cc100f5e1d26ab9a00588bee8292cc5426aa5f3110a6ddb9bd6e0eb841191f2; -0x5ac03904a17f2168da6dcfd57e63e569ca203e52174e4be026db0344505193b8f; 0x1cf2081ff2956850002bf881fb3c0916e9c87d3b3994e00e700d0f2fdfb6d46f; -0x8585717e92696b174775c360fc12ba7249b4042345d24c4253efa06be7d16454; 0x1a8a38859e6337596d05fa135df8664eac4abd2bfe84284f7bb2eeadecfe0a28; -0x407ac7c26f4c7317f80ba1e537f048b0d2de4569184c1890e907b6da73061f8d8; 0x5107902d8038bfeafa9a34b21786de8d6bc538a89065f8d924a2a7a6481db3e; -0x104dbcb8b4a48f31f3edbfeb4b04c3c41f5e77993858a7c1345476eee228306; 0x64a336062cc036ab336a8e44715684c04275754d97896f664202565eef19baa; -0xd88e61253f8edaa9e31aa314e1df2aab7083206c6c88128461ea45b37ddf87; 0xd190f6d693e0f7af0faafd3b170c5d15f244da62d70cc49c6562ea68c46ca296; -0x530621fc66686f9f92d4467294376797ed9b142cd8397c014544cd1d5ab72f759; 0x59fa289976d345994cfd1c44a3fe72ade36cd814473cbb35d31f9379b65a0507; -0x6867fa9789694813df8d70ca0d3e99784ad5ca8dafe79864c65ccce8cfa7fc74c; 0x257ea4ba8a1a3d07e721b5b4be7b96927e5a24aa430a358f38ad344c993f1ec; -0x255b61bf8440cc99c92e8f4515c4cd029ce48b882548ce7cf45e5358bc964e39e; 0x40889401980af32e5067cdd8b4ae0bd02f8308a3157629367859814ffb9adcd; -0x6f5d7fffb0e350f114afced3ef94efef91385c35cebb99286c22c8d94c324c1; 0x8d2965011b9597ab43b0c48c76004f9c2b9c490a9f4959c43651ab7a1bc1209; -0xb8edf411731f0fa45e913b3c28d542da04735885580d7f66e8b9cb856515ff96; 0xe309323bae68579eb36a99ddb3a16fdca4ed0d254aa68479b3bf2b1535e84a1; -0x16dbcff118639d4441fe2d7ccdfd369a9b3aff6fed12b8a8f9c231ea42d7f9066; 0xe8d93fca364abc28b5565699e1205e8ce62af754ea5e325a4f9f682d1b1b9d1f; -0x3438c07212f323fdaa1f81a93b822180692540dcc3579eda1ca7ba239a6ca1d68; 0xec5c8cdcef47a09c66a5d558092dc9f06eff154270f6b746f2bad44db4fdcda5; -0x2ba54fff6b1f928688c250ef1de245c365462a675c2323ec23f2c8f23e212823d; 0x39c3e2969a06bd3987de6e33fa5ad9e446a53b7c7ccc3304f419e6d69812f09f; -0x851523119443dc30cbac3ec534aede6340f5d1b2e0ae1db9d54bf87c8d8c702a; 0x360455b6a913c20d7657be10b254b10a00ccf40f8e484b276e2a71ee844c9f2a; -0xb0975692711eb4509adf4fd10d7c0843ff06d91bf4dcb35e2362f3d90dfbadf4; 0xbe4450f025cae6491089f5cde3dae5ef746736eb6ccbb89f87bf01dffa8c1c20; -0x5d1313ae1907540ae56d88e45f33c4ae439ae53aed16e986f6275cb3cead720c9; 0xbd05a875c20e7d20a5e541969e4f6afd17dbeaf47d813a429e4c73522ca9262; -0x7faa68f1f01d0450e826b8ff0f6bf49fab7a9bb3ae21d93fab34c9ca3a707b82; 0x9ad02ca8d89fc6f36f0a55d6463ee06de29476ed05b50b75c9c1eb6372af4a83; -0x1026daf7771affb67370643092231e342b846fd31780191a68101768c60800ad6; 0x613fd3a8fba93d47650543a6a1b2e697424e0e951547b5959e64a5cf24384c5d; -0xa5a3dfaff6968adc0a6442f171585b20c8da94d872acc79aa6a6b4c196665; 0x3e4e3edd90143782005df7c2bc41e4ed96caf51f4db5dc9ff7b04c0ea387257; -0x1e0bf5a345a0f988d233928226b07a1a93c0933a4ad0796831865583e6ac8818; 0x69bc02f8ae8d8cbede86dbb97384cb05ac5718921729799d92afc1252490; -0x13f5f2295f42cbfb933358f47b112f195bd6361d6dac095cf1b3aa047e67f38cb; 0xfc88cb9202af06278e37a2afa4a3e01b7ed1736c7b04736e7330fdec75b5fcf2; -0x3bd7bf227640ab5035cc6e544353532514703244a9477dbf51fa19bf9e06a0bd5; 0x264d9a7d00f95f78fd840689b3429a0e87d9cb96a2f0c183acb38b556b8100d; -0xeadead0abe5c16a0741b74b9a0fc4a1d020d3e40fee8fa1ef149cd8c9419a2fd; 0xd864032b8d934af96ee98ca31cbc25fe94f8bdc110b0c3efe28861af1ae965d; -0x6194dd16e5af060f0d3b6867c38949851b115084dd0247fd48afb413f73c828ea; 0x157b5e6eaa96add7d7eaec83e75310331bd132d1c30306a488504823000bf052; -0x3a9b80270398a57f97e11988c4711ea992726c04e2f706ed998a93d1c920b70c; 0x202be3a1b0e07fca9a04157dfa284e228d58a62411881c13c5f3481671c4827e; -0x5aa48b81239cf885aab715164288b9fe131df170bbe3ff8c224d027d4a6395b0a; 0x494f2c3bbe5e0de9713116e8a7c019fc5a9d8fa605a2edb5fb90dafabae7b171; -0x8dbc65fb31e7344cca5227ecefc57e2504292e9107a704ffcd78dda7831ec4f3; 0x1bb35786c5f36d5f95a9a059c9a57be249e62c5d145faac6a39bac4d6f92fd1; -0x38e6e45cd094e7baf1dc4d8672938075f8fcfc1767fbb7f77308a4bda4f0c0560; 0xb9321809fae65bc8a24d448d01eeeb295e12bd48a9a7a3c8b08d92abc63d5ea; -0x620863b4013b8102e09765bcbec4acda075ecb75c1f70f3497e9eedca5f1c07c; 0x27a238ec38a3784d88e2c77266fcf68abcbc41dd614a91a15356c837fc815835; -0x29a2be405780adab3839f5740762fa63ff970fe85371ead92e566423609c3c351; 0xe5a959b8cb32fa6034735b6fe813589aa3d301958614f2e524a3b796301bbc9; -0x6eee6f94dd75a515d9e7b8c4e1f6f701fa23da850459639f0b5897ef5706e2d5; 0xaf8f285ccb5c91834d6760a40635d28fd4fdc2f667d876247af3ab9948f3420b; -0x1909e71c661f20cbe38b642e6acef66b1de5e4437634878aa327c379a67975f92; 0x35b6ef595425273dd3c3dd53b5d55eef193acd722228fa6dc0b3add6525a3083; -0xba0152d2bbb03927a5b9bf9c1a71d5d00ba653052193d83d457574922f040c47; 0x196ae39b045242f2ba2df4883d6762ef7b2aa43bca045665c467abb227bc50c7; -0x2a20311db26f8339280e9ca503b7de10e49bff7755cc5d41a76ba893af1e354c0; 0x20a5e69958c331f3b6c691f225fdc30526aa40b7b0b1c6a39ae41688c1878e3b; -0xb09f83eea5932765b31e1a237e0f5f9082954702743f8e7935121693914936; 0x3726cb0f54cdbcd8f3005ffcf743df296fb6d8e1d18e203d02e8961c615646ab; -0xacc292d06bb3cc06f9ccf0d8eb47bddcda24ee80fb392ee40866d06fbcb60f3f; 0x4acaba61bcf7255331ee4147bc2f290d1bcfdf243e3bd52dfb921f9b0e47a50a; -0x5ffaabea02839c22efcc65876ec340aa54bc0715cbd4a3c5cc67156e46fe34969; 0xe6a3d01a362b8bf337901cee5838829dd30f486400961681ec6e32cd7e720d; -0x18cbde5aa4d3916b3b7c1009935cfc8fdaadd906a294c447610036694c83102d2; 0x6ead3d1a2f69a8a7abae358766a02529caf9d512b1c0316fce31c0b6b4b8e120; -0x31469c0fff8811c6e6ea91808dd46e6442e830aa680615247e9f703b7b1867ba0; 0x2da2847ebb84cec200d17906d9b88b3ab6471537dd633256d154c748ae580d36; -0x3b6e9636fb4ffe56095f9e2e6e4ec86e7d6334ae068d08aa865ce1eaa3f139ad; 0xe20424fc1a0cee01c2fc068459d3bdb1b215aa42303185e55314f98c84c629c6; -0xb1069852b9c2e946f46baf182e1dd323d1e953808fbc491c1ba75acf7203babd; 0xabbb0a6caa3929b90742ec457e4ee080f3ffc49ddb01e0c6ee73b3f93d5e8851; -0x2777ad20b8f9daa2782fdc6a512d9d120804d4713c152cf339fc7cc7eecd2bce4; 0xc1e66a6fd77e83984e16d8c7ca695cc8fe24d4488a7598910619a368929a5589; -0x20f17b4be84b8b0ea881692991e4e91d39abef6f0e94bec01adb232702d262a1a; 0xf3703471f2f4cb46c6508294784df814cc8ab2245f10d127bad172a0182d03; -0xa02cbbcd95c9c631ea07b8a17ac26514303700c3bbe556828f6affe2ddab2b81; 0x2688abb30a16985236dffb3a72efc877b702c2e6855ac8102c9a4173df6d4485; -0x296e7f3505194d570b5928c003bc26e8486ed70933c5c661beb62205caad7ee11; 0x92a08e19c48e406b04067fa88199d1b0e4c1b68404e781a66faa2ed656c8b403; -0x23f7e88331ed52630d2da3b1895976b4f6ee63e363c9aa1ef5d0b6c0f4cf546c; 0x25b962c89930377523ab9355599521794bea464b0d61c648eda26c7638f601e9; -0x7cd9e401f3233d54b3925c2c062c106c12422bc574a714839bb0867bf9ee6c2b; 0x6c6f43c3704e86348dcef4ec8b65bf841e958e15f81db64f32ae1c51c4773320; -0x6bb09e9970e77109b101f3f0de0103d432eed4a743f838bcc4dd68b44e0e32c77; 0x46d029d0a1c6b87f482d3b8b254444de54f5899e44965c6fb111a87b2f0a8e6a; -0x24bdccc62d0caa7e8dc845f2c0e4e782b2c208542e2f9aebf9dbc2cc24d4ab0b3; 0xd7785264fe2dd75deba9d9ca1625c060b8aaef69de8691743e5bd35462ae4911; -0x2f82b729e2bda9f94c7c973ccddeacf8793a365daccf1cf99c0f9fe825751dc; 0x88b22d4a02db75f5f43842a3737a60951e9c45d2da7e408edd3dcca7bb1a618c; -0x6eaf2b3e2bed755b495089bcaef92e69884989967cf799d022a4c6d8b72260c16; 0x268a8859d4d9bf463d71e63d2d8a81f39afb4aa3609966b8fb4cc86c68f50d9e; -0x2bacb9a355b95916a0a07284d10a8e1164956852b5a246caec8009d58c86f03a; 0x143f7a1fa1c3751d81d9a0c3d086bfe2dab6d832a619b711096961ce8436e059; -0x8da07474f4306c19dc6b0a728d13af95560d30e56b70002d5e18a56f7cc10afa; 0xca4874db52ad2dbcc8643e9fe71e70c37a5e86fa80f365fbef29849d5f74b6af; -0x3e8a434c3dd42ee14c31f38bfddcbff8faf191f71dd27857f4f302049fe6e4049; 0x951347b0efc57fa93789f5f64f0ebcdcab6aed479f9d7703fee57c1c57e123a2; -0x4f135236a0382f0cd58c4903dd330b02a57131133eadf410c531717a6fbaa4ddd; 0x19aa38b35e5db6e7b0f5e6e646ba4363407fadb1148faaeecb87bf5ab99784c2; -0x8220ea08668682d03addecbe16865d7244ed08be1b7fd71c3bbac52e194d3991; 0xd44a545bfb6269504649acfbb25087df1b6b4af23a9636aac3048c1b38e3b939; -0x12e08bbfe71a80e97240a5fe1e316a64e015baf9209ee3fd152295e6700d7510; 0xbf808da874d85fad1ff129dab17d0ef054cc35f634a7af9191348d03d4e41390; -0x54771a84ea8b7d4ec850975a9d613531c324fc79fe77d1e8048a32e04b5e08b0a; 0x88e1d5d2bec885aa86538e7a521fc52b52c0fde18a935766c94817adaf1cab6c; -0x13731dbdf5d8411d72abb975b7bfb63adc15fe89b4c1148c65285fabf8ae42ff; 0xe134dcde89ab8b2a13b9b0371dfb070d24a4f8c8cd2db320ea045de956f581a9; -0xf30099d5bd0d5459c126437a620cbd8be5c99bc8441091a8a24087f0e9621182; 0x2ed92afe0777a632f469852353f07344434e7b07c84acbf2b29e6a441c1b8182; -0x652921dc4b29b32828e63b199a00ca89f28b46b580c8b2676ba41e3e715528dbd; 0xb7db638ff4faab92dd2b5e6e54ceb648460ac51917da72ce0045ea99ded3df25; -0x24871d31b2391ff4d6b8fbee1e43d64cded51162dc1b5b6386e850283d085ede3; 0x50fe465344ce4c51cb23fe5ed88b305ae45c493eadb327b68ba849635a422bf5; -0x3fa281d4dd8105764398e48ad4665ba6f7286799f72c042100ba607e97f1d407a; 0x39d768da20f8ab12cc466a737286fcf9759ee869c3c558a344ca2f8606a2a47e; -0x3af3583c9306f07c4c265fd83cdc618b5e8b4887e0480298a72bb580334ac34ee; 0x7e4c5b818d3db1ca01003fc3d2699aac0f9f2eeef9d8f7f8feaa847dc68cfffc; -0x1e70b7029ba39b7dad98e8a5af29d2e97acee4ca51f26b65beeeb3bba9eb9594f; 0x8bc2379ba967cf3351341a1b5e69b4e69ead1742dfef3e6376dcaf028b548ec4; -0x4f509fb38ccb70efeb9d97380fbc7f2df0d75fe78e61e56f47e6b748822b15104; 0x11645883128f91680c2e59c6f7135fed669540abc59dbc7d54a6c9bf534ef92; -0x1558b2784057492edd41ca82e73db0ff0eba79060dcc546d58b5cd80499be1273; 0x7dfa138035aca589f1a85b3b4d711779cee9ffddbbafb70ac2911fa164bb9494; -0x5118dcbc6f0fb044d34b48635435305b4915660386d9b4c828b1ea0811c33789; 0x802f30b7e20a414b6938331d590a4e624fb92b94d8c7ff55f5b936c3a0fd4504; -0x4e7cdfb487f06d49fa7cd11b304bfb539d7ba502b09c61c12762cc21b5606d93d; 0x5315d3fcb00665496019be5d9e8eb05f8c4a331182da0b5405634b5358a3cfb; -0x36fe59c71421c0c16d626ca4521d66956d907da133a9334ab09c7c2a7e92e1cbe; 0x25202f1cee9d5106084c1f907b2f7205e57214b780dff82cd8ef40cfc1a9b63d; -0x2540cd6e002f5289ac0f666128a7f99f46a37efb65c79fd128fcd5c1afd40dbd6; 0x30d0edfcf7e76fe3833036dea3d84b11072ba0ba5c84e4e2decf77dc7fd29699; -0x1de704ba78faffed8cc1e8124659bb4a09bb4da4a89be301754bb7d342ecc62a; 0x72fd9aba410811042e6f7e50f3dd0c23052e631f055634c7f10eb01c06554534; -0x2ac62d91d878bb193f1a17711b9a4439120070b3e544aafbaaf63b5b2c9b3289a; 0xd78b1fe9b7f9f3c241e905386ae71033cf5edcc0f0dfd3bea8c7caadea51344; -0x8c4aa1cc33bba4ee53a4c05589864c748ab102d922b93b0474609b999cfb231e; 0x20c03c2ef56fbc547440033d05bc1a0560081e7f420c733256a7d9e2da0150e; -0x638a909dec9b30dd602592f96efed3e05b5bed995d806cf0b3cf7aa94b065104; 0x706fb1ec1f852ee4b5899f87a1255f868e4d9f8ee71496a1574e37c54ea519f4; -0x20dc524737460ce96e3fc485b5934c1a1fb3aab6ed1d1e84076b10d0dbde0acbf; 0x1628c747ac71ea44cba991c2db21ed852ed571b8a66a392e69e09fecc1d23103; -0x19f4947bb498edd3ac64c2b8ebe75c0452d7c2eb9be997b201e6548d7b0d86462; 0x1e54e37fefd2c80e9072b827c5dc4bcabf05ac1365a4040fd7109bbeb2201b; -0x5e5e98a5e60ebae06e0e374b65c77b35968918f216553e861ac2045618e2487ee; 0xcdeb59e8724d5a8746d6de422d3505a7c854b5a634727945fb0a064ddbb38a19; -0x4f519b969c5d7922d1e59539eafd5cd13c188be863ed3eb4ef5f2ede42336e6d1; 0x59e25b8f7334361dc4b95294fccc498cdc177d4ff8e44622f3975f0570ff87e; -0x6c7a319c3f1cb446584ee4a29f608c4ca11a98465c03db46df37ea51e45e5cb8d; 0x18d5bbf53d245e955d4ceb2a245a9b40b187c11808e7d22e591c3b1c8c20c31d; -0x2b84a56b451f45f8c198b538deef03f1d3f5362ac2bb39d6e5cc4160ace1648ea; 0x20bcfdaecc2d98e2ec348b430ca36c1505c845862ae04c7893f17b540945c03b; -0x60f4215f6c82e958c7feebe3c2c308edd4cc6cf380b5eb19da16c10fa998e9bb5; 0x2784e91f14c8274abf6dae0b8f3ff33a762f1f49c883a602ef2d782b79165321; -0x550074be5b6422c87bf637636a777d4ffcd074207bd1216d6109357ab5de8b74; 0x5966946d4af5fd81492f69ff06a6f5fc68158b1b3956742c18181057701c4c; -0x243f775bc832215fb08a49b580f7b2f56d8994366983283c8b2e80e8bf5fdaf66; 0x7704cbb2cb53b0c1a73b9e78d6218fa679e96aa58aec588fc744be18d1b96fa; 0x3300201f13b30296bcd8bb3012ffe1420930b7383b36df5931a9aceab94298c2; -0x3c193961a37f70d713ea81b3737aa6f7a75bb91e04fa3fd5479a9ecb1ca1199; -0x1ac78cd7931aafd72a0ac5b9df3714ce354f15352468d7eb46b2e777d75842262; -0x6712ccca4d745532a6b75cf8fa8ecdf83c5bbab0d7fb494d5243945c931f2dbb0; -0x48935d8c0679c3ac6ea6d685d8e586ac88c33f7a63e7afff6dc6d97d4c2a636ff; -0x3872f0ffc6a7fbd5d3375692be047d6758a030b67a5b6f6b58473344f968ec37c; -0x547e7a7b045322c1befc97ca33c53ac289b1d6a41a0b6dfbd553b780da1266e5; -0x34d3043fd73ef088a50f63cee297d04e1103b707ed6ddeaecfd123881019bed6e; -0x67b5d78ab4ecc73731d7d4d5c1e47440c3bbcf7483f36e7923401dd8c0bb18009; -0x2b7a47ea574b6ffef4432d4d4caedacd12d687ba92a3357c81e9988afd7891463; -0xf9d7e5027b8019ce150230db88ac0cab856f72239a8c6214c92fadca97ddbda; -0x5db99cb9cbd6a31d07d69a5853d09917c6503013b1e39a1311a78d89d30bd359; -0x37b56e4f02644e3889a262c923b3f41155cc432f6509c2ed6c0aad5989d8f7c66; -0x6769420e154b5a31d5a24eaf16b65d8d29ce7932a67bd69f149608048567e59c8; -0xabff00f20de3b6924c2db9948672952ea63b28643fefbc13f14f762eb589d322; -0x2979811f5d1cc26835553f023f7e6b3e084e0bba68b47161a497de828fca482e; -0xeef94e4ee4ea1a993b706bddd19ed7c858945a52ffa0b667e9ad3545bdd7f1; -0x62b905a4e3b7011490ea69265fddbd4b460a5e9a52760b84fe7a70e42df5e113f; -0x1fa4bccb4ca1039459246202cd97573efb82601939b24a888d06ac300dcc7d1ff; -0x101e76b53fd01cd318c801b13c6e3e23fbfe9a7dadf36b266db5aeb38ce4e2f2; -0x37bc309e70c3716009ae6e2e3a727255fea6fba19c4b36650ceff25969825f7a4; -0x5bb516b826afa104dc031c7f67b3a0544791a6dca915e634eb42e094f8a7ae18; -0xdb91174c74c139b0dd00d8c3e526188d607f9a8e3bd9d9f800ade219612da64; -0x4d37adc5c132fd0ac21a425fc3a51b9c9c03b24cf69c0e467ea19e607b1afc1a3; 0x21554a9f638bedaca923d3aa2801fd69c39b0f0ccc387a644f86892f840abba8; -0x13649c94c1ac986ac2920e774abb9ed390c621b4b8c94b2eb2b4a6724ed26a675; 0xf7c46d9b3bd959623dced73dfceb24192646f9199f54561d094457fe1d018f02; -0x2640b3ca72e1cff0e553d2007a88a6a238b4253c5d82d1533c4564b169cd50f0; -0x3b83b98205461d22505c457faeb79e8bfb5a210bfa598df9dba52c8cf727588; -0x127a823d18358187ac5ab99b451702b5ff0e83341101764b94ebbee5d66f41412; 0x913d6bed31c4b5fe180e8d5c3cda42365268890d9ff05eb544afe60fe0990b96; -0x481f4223f450dd72296a3c690ee19bc5970bbb6687ec7028745efa49618907a84; 0x453079ad00c8dbc59e170c2a32c63e4ce3f557593a5eea99c02dbdbbf22d948e] x); [vm_compute; reflexivity|].
  replace (x * x * x + ca secp256k1 * x + cb secp256k1) with (x * x * x + 7) in D by (cbn [ca cb secp256k1]; ring). exact D.
Qed.
Lemma points P : on_curve (cp secp256k1) (ca secp256k1) (cb secp256k1) P -> no_order2 (cp secp256k1) (ca secp256k1) P.
Proof. exact (no_root_no_order2 _ _ _ P good no_root). Qed.
