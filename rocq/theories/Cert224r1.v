(** Certificates for the curve secp224r1: its two primes, n G = O and the absence
    of points of order two.  Written by a
    script; the numbers are checked by the functions of
    Pock, EcOrder and EcRoot. *)
From Coq Require Import ZArith Znumtheory List Lia.
From Verif Require Import FastMul Pock EcOrder EcRoot EcSpec EcpSpec EcCurvesSpec EcCurves.
Import ListNotations.
Open Scope Z_scope.

Definition mp (k : Z) : Z := Z.shiftl k 224 - Z.shiftl k 96 + k.
Lemma mp_ok k : mp k = k * 0xffffffffffffffffffffffffffffffff000000000000000000000001.
Proof. unfold mp. rewrite ?zmul_ok, ?Z.shiftl_mul_pow2 by lia. ring. Qed.
Lemma prime_2 : prime 2.
Proof. apply (trial_prime _ (Z.to_nat 6)); [reflexivity|vm_compute; reflexivity]. Qed.
Lemma prime_26959946667150639794667015087019630673557916260026308143510066298881 : prime 0xffffffffffffffffffffffffffffffff000000000000000000000001.
Proof.
  apply (check_ok 0xffffffffffffffffffffffffffffffff000000000000000000000001 mp mp_ok 2 75 0x1fffffffffffffffffffffffffffffffe00000 11
    [0; 0; 0; 0; 0; 0xa2e59ced3f0e1a1254092112e995286df410911ba660703df1ab81; 0x1d93b820ca1bb45427ae25b8fda4beca7f1785e0908063d591562bc2a; 0x8c6060913504c8e264eefbee75f19aa836fcc6cbf645eec45a409a9bf; 0x7a28fd632cf18ed23589c00e3bb2f36a3ae38051a81180e0ead0dcd9; 0x3585d601fb56c05fd194cd48acf709abdf38b4dcc3a2b041940b8e8fd; 0xa927367218ff728498eec70aac05c4b45dbe5f7b7933d2fa8c5a13e05; 0x8cf15a71a64cc2ba8a90315dad3faa9102fb9981892021e10a0c8674e; 0xabe33fc1bc5accb2cb68ff07aa6a9785608b808c5fab4f73f50555fa9; 0x28debc16c87cfd6e2b7d8d15239ab1c36443cb193d4755525e1ba52f7; 0x8eff5006035f5c5e1e04649c6cc65dc4e5410e27f140bfa666759b839; 0x906747f23378c39bdf58ebac72a0b4d7feff31bd6cfbb5061b9ec989f; 0x26c392d19711987add24853b42baf16b01a24e992013b7fcfe917a045; 0x48b7c693562983dbee78080ba3d4c9980cc49b12ba9b15f2f19b14473; 0x16f0857c176ea1b12844748f9bc7510cc7897993cf68e2bf7ddf0d5fb; 0x255e584c7621791b3f4d74ba8acbab3e066a04f36b619267740a9204a; 0xfbfeb1987f5276b210204e2c3cbfb0f67de7de1a58b005c2d92385af; 0x7b2f3caa6f11841c6f6df949ba964d04fa129bd44b7d88cd9e3f64570; 0x249207913b91bb9b6c7c667cea55eb5229167d99ac37a1a1d4d3652c; 0x46d1b975cc89a46852340547596389ec88a541e1b3c5e769ab69c3373; 0x16128a5fa45283da521680228e45d8cce0a96cd5cb9e00289ad933ff; 0x3d54285b3792247e73cc1692cdb51f72765d0f1cf89c5eb59eea49344; 0xeb3c40383700266fad6f5b66f60e2cdd4b4e39dd3e6fecf357f0c662; 0xcc9c578040662cb23f87e4e9dac8d0c0e07fff1ddce5c69f355f2d30; 0x9c2748c8cf325b0010f245ff294c484a24bdf0e43f949388802da5fdb; 0x11c9ce82ce7ad5dbc56a3c1cd9b269b6b7a2c6c0c4729d6f9c63a5b; 0x8baffdcb859d8ef2bcae3897c0b90aaa6d845eb659913273cef6b871b; 0x244e331ba57cc55700f0e88e14c5f10bd3350275f84bb66546503572; 0x80241053e543ef16dd7254b91f194ba19b36c1f35547037fdb0ff515c; 0xfb7416d94009e9fecb82d11217c669cdfe19a38eef18de74c6ddd451; 0x2b2b1c749d730f30e658c54c2e98868ee99e567b65a426a14afcca72d; 0x4cf3be39f3700cce54b9ee91be4f126bac3a6f916daa60af3ea853c71; 0xb315bbf5f9685f935dadb0b94aa7b90a00bb353f7dbd81b6f92ce8b8; 0x2cf0a0ff461c2809754e35c0a07a12093dbe3ac529f0f55daa8b06f8a; 0x3972453bfb676687e42b62b929c42c930872a206986424886289add31; 0x46aab3c3be0761f05a56e2dd3b17bb93f0f3427622b3e2f59fe588cb4; 0xe49fcfb052b784cb616f386d13db6709ee3d327be837cbaaa3b137ed; 0x33b9fc95dcf02a8f903e532155374e3947598840ac50020ad15b75d74; 0x8430b9380b08d5528067f65a531d144e20a27464cb8c49668f9a3cbdf; 0x10e9e20b2e082da8a87bae15485d2dd0d8362ca1dbc3724415fc85324; 0x6bd314842afa2655c8872fdd8c7ab58ede8b57b42326b26d6104e9bcb; 0x6c18c43a2aac50372695e28c9b1c9b9d19512af14ef3d59f1970a4716; 0x843f996e0c71c770b8f2dee924f9595da615cfa30f28c707b0cda7d5; 0x3e22c61dbad7b32c76be6da019a067b23ca620aa4e38e9d680dc8158f; 0x34395ea1328281cfe8167acf83ecb6f4fb793d9b311f8a05a9eed742e; 0x792e9c214c627f93be65d2b63ad695cab2be778f342d0447133dfb86a; 0x7d1827f9c053d13dac683b94666f4b0f7a58ee391dc6a1887803a536; 0x3c3fee3ce84ae04bb728513e75529695d1f9039b47d09694b1be66665; 0x1bfa53bf313d11dfe840e9e7e2def900f610b77dd2378609908cabd0a; 0x1e2485aaa749ca3c423179730f16e40beab88a79099355d7c424bc520; 0xac746a9e7eb394633deb807ba46d72fe1f99c3e99ea5ad1c9c8a53651; 0xf4b8ba5080686c5d709f3f56eec0a8312cf396f41dd507dc0723c697; 0x10aaaa78e202628df6471fd9a3daefe491b334419fb1a8aae2f48243; 0xaf2b3d35a1b7d0e987b493c919607e09da97db132318934b086f3b975; 0x1ff293dabcb34d811fa0bbcac472cec0311acebe68724e63ff3ac0523; 0xee4ccc8d0b724ce503d0e2412daf8dbfa703673e3bfe4d68600edd60; 0x200b7b1b7c0b3e1c53a0da96a6447705ee172a1b72e396bc9a5a79376; 0x52d8d403c892ae7e87a02218d97fc63204b82de1fed3b1cee36b9695; 0x32086e97bf56f9ecd89634207ece0e6b796afb65bdc00bc8f3b8c8a12; 0x28a455d2370dd2823ccb7884c4c0d845a52461795e544ec9f57924c1; 0x94e6b108899dcb2037a7f1aeeccb5d4a58f0c9429f41d0a54f1c742c; 0x87f21299105abaa2d6b2e30c7a7e7a17ffb7d272b6bfe3a1799d13579; 0x1f3e6d82f6db5c99ea5e51918e6e452b4c51bbbba2375b27afa28acb; 0x5ec5cb1258d5440bffbcccb00fd1d553dc17a4c4ce9a846a8814272af; 0x617ceaffe3d51e0c7bcc2701816259de7076a27f0a6e18616fb6bac1; 0x3f3d59bfb25181e194e3aa07bceb2299348558cd2ad1da3ddc3a8b31a; 0xa6df9e592cb2626f243e198f0fb4ac85bf0f2bf84de743a55fccaccee; 0x2a0fe62bd2b32b53338afb18cced2cb70922602ac95108685806ec5ef; 0x917088e71dbf76adb3257b09c861101ad9b8b8964c89fa8ef1c7f35c; 0x79a9b0b680605506821a473962311e96f35b8fef8cf08d10bc9129ce; 0x30f92c977a80d448286a3c202e18a535f008cc01efa140e5f78569c44; 0x300289433427fd361c7ef9a0edd4436120e8d3703990350fc1d015775; 0x13bb21d70fe4fd7b82dd41dc780234f816af83a39437be11a71a5c49f; 0xa6b99e36313bbcf55ceb1f8eaa1c642087464167f0c1d3c7133f706d0; 0x97dbb53c910bfbc20418c5c3ce4fefb91c395cba91b24ce2e62d9c934; 0x6a90fdb3978c2b1c5ce40c532f1679426ad59270e3bd3fa1db4fcdf5; 0x30c8ba01fa5b2277b678f47ca7262184dbd5fdef11479235d52833467; 0x2bdb15017510e8a947d317ae5ce7baf1c3013b1aa0efa1f4a1e521734; 0x42617a884ecdafa91423d5a4182f123f518f52eb21cb15d232f219836; 0x1ff38ce578127680de605253b043c44841e2ac85b25feab0ad15269d6; 0x294a164fe138b6f575e8fee5ab204d28d314d9a258371e5ddb73e6cf6; 0xa05732828a0fc07c53bc4c2c2fd00df4feaa63c70863fce9ebe64a6e8; 0x5c179878abf33ac52ad8ca4731fe12d1c935a066aaafec71e61e9140b; 0x9c39bac0a8c75378ad9716d2577fec88f0b1e2bc0660494bc6669c3da; 0x7959e177a579f8944395696517c40ebaf475dc1cf41b2d61f89619579; 0xae11824a383a146e705c7b25ea33327b3192b4a42198a261fed224f09; 0x2ab4e01d7290ff18b8561ad919bb864e595465c9d2c63a545a8e5deb4; 0x1b040953f657692fef2cc265f5b8ec1740e855e33aaa5cb682cbe3df4; 0x5b88ee4fa14528171821b0957f45f595168886fb509b16656c96f6029; 0xab8e7e67c22dc5c0a5a2fa2511428cbf1335f652b1beb9b8b35f02950; 0x71c78b85e91f1ab02d1fe26b0eedfdbdcae656773cc41e60923a4ab; 0x2f1a73a27d6ed326a8a003eacf00e1c4e74700f262125808dd6e35634; 0x3711a6318a877caef5f51f705843cccb36662070abf797401df6d8d6; 0xf6c88d939e11213841f887b258d692ff4191e54444cb9093ae9dc76d; 0x1570dd8de1fc30305b2e7cc1ea3003601864bf35bd64b5fac78949a9; 0x1eb67387f6565846a36dcfe11d85d48d1a1e1bd9d59a4b4dd205e46; 0x157bc73bd55131ac38c15624056f01d7084af17dd413aa15b352d4956; 0x6a677d3ef350e6e668ad362ae4e4ca871fae12573a4b733d0c8e3f; 0x29cd70234c2a4f46c102b34041efe7e03fb5eba518d95fc0f3e5d72b1; 0x3826402070e24c4802ab32dea176d6c9936d2f5295aebd555053599e; 0x4d2f774290cf7defdb500c0ec4fd248ada330f68463274e7cb82a312; 0x2453481f3dcf28c73849544803427a46c01104fc00684b7a878a9279b; 0x9c122634c6081ed7f4313e0479f43e7096d342e8ee7470e6d55fcd55; 0x471ff932704a708313cf7b67cb850b5f7aeb905339ffef8a59866562d; 0x5191c5ec0c8c6752de948f56e339cc4c3dc433f71fe1a30588adacc0d; 0x4c1570e521518ae1e770f7ee7e9cf786fa075c0734beee1d3bf2d9c48; 0x3473874b93d5f6d04fd03bcf26e85708fc696aef1b4e142485bb0283; 0x7eac48237a1ca376935d3d90e27a3290e61d0aff09c4c30c4a6643615; 0x186e9792e299ae4314932a0503684d37b2ff807d22448e5429a2e61b; 0x2be950dc7f43185688cb0370083fba449681eb530e2817f869f95ac0e; 0xe71271c325278964d96c920afba12807887cea540d5c95cafd38d6a2; 0x24b043cecd8e4062425a069bfebb06192d8724ffc4b1847049533bceb; 0x993919f94f81a82356a0c3ff895999f133d5d704631c6350b64f9d142; 0x9f90a355c6ee39e2142dd1f396815f78c357fb1fa1e59eb304061dd02; 0x4ce5fb7ea12ef2a7010519ca9c1445c4f64abf7a0b1df0b9d48c39ed; 0xab0c3403ee448c6b82cfcd271d5a7ef041ef30913da4e17875f2fdaf; 0x114ae50674babf08c5d6fe64b2dedbd234ba4dad905c2a868681ce74f; 0x3a545eb053eec9612b5458f958852bd45b12e38d2c2709ae7e5ce219; 0x35a71b9d90e0b4a8c95bac94540b97b7ffd2dfb994db690d05cf7aa80; 0x104093e2138d2798f744ae805f422b6ad50b75a77682467f4e706edbd; 0x4bbd8f9a16737d0588b86c49ed22af7a1279212c170c049c48e2442ed; 0x5065f2174409ab2938acb5b7132ca470d395c376507f2b61def9166d; 0x1d12343e2458d1a35c767bf6bcadca7fb62945564ff4b09f203794657; 0x2bf130c349131ad6d0d8818ba8b75c4b1b6cbdca48b3d11a2af345ca; 0x1dc166a5201a919582dbc436102b775abdfc731ef04a438e1231e68a; 0x1bf018d392b7e2d8e0e32be47a24b3ef6aad8b45abea5eda6cfbb74e; 0x80b70a8b3732365f278eb79f293f0fbace3ad60213ed1f5affdd7d0c; 0xa14a52d160bd8944f53973e488d1d5543fb5540e9ef28816d754560d; 0xd44c3e741932219a6d36e317d93e7933ee7891e54307ef090835f733; 0x607af3446174eb21e35a8d87d01e19a3a99a83f52851d6892c23344d; 0xcae1c93ff6f66eaf613a8a6115253fc905f3a42d6ce635ef06e72c26; 0x170c4f123ac5506e9fb7514fe9dab6c967f01b00ee29d2d0d9414bf3; 0x3962600fe5280b7edbaedf282254d018fe5c7b0f37561ae0169bfeb1; 0x7f35c2e758d6e78d81806e908abba3cd4cd7b47511436d5069b388b9; 0x213f99b94b8aaf055bc37149414abfb41e4c2ef6e63f24013d5ab69; 0xbc3fd260a97d9f73e0f4e57b80a7fe602364dc2c0fc7c942a202b48e; 0x17518f0590e21c6bd7015b2d7c877164d3ed1a14071c55fc8db9ee49; 0x7169537c8b82514433b4460cd3ccefca09f62ca9192d82e34c8a13a3; 0x8e50f9f7504019fb3430d9a8a7d272dda6479efd2dd1f41ab7ca3245; 0xab443d424111bd68d133b354b1d1978d6a43709b8b9b4e6d88c3d5fb; 0x89c9d219a0530b28dc39b6563da21abb4452a24d8b12c2a9280d2f47; 0x97ed7ce5a9feeb9cb860289f13860fc784c41887d474ccb2e7c96f22; 0xcbf69da69d2330bd77071bd287a33c8a0f86c313439da0ef9433d6eb; 0xded4de13395b742f8663a600916046f9472d026012fe8f01602f0d0; 0x51020c41189c667480b7bde089846612db796c058ff604e7bf95bbff; 0x36d752adc067e1cd94b67d9dfba5741a98e10448bf64edb04bfd2213; 0x219c9274cfb4e5d346fc4e08b28d4fe6f59fd11ee9fd21d5118d0cd2; 0x3c51b145f3e1a5a0c9239af89d82e5b8f96eae28db983bd19b4e481; 0x9d4a34b0e9c9102d0af220fb5238643cfc54d51fdc2f33030fc461; 0x8e474135b139e5c5506395f1d7a25d2457bef0c456cabd3b0105c95d; 0x343da107d0fc365f21688ba00ff9ffd83086f6a774bd5eff76e8a158; 0x47cb6beeff1049f6a03686dda2155bd9de1fe8ad09c6ca90e60af251; 0x64c14b062a14f6a4c0594a15aae0dcfdd86678b0672617d244e2554b; 0xa749787afc9e1a6e660f7ea0e74b1d7d04c70646ce23240aaa39c519; 0x67a2d805b85e368041e43f7a70386a24a394a978015f31e3f66ccc9c; 0xb45fe185defbd3c9eadd4d03a25e0fdded644ab844dacd925c824856; 0xfaed86d209225fb039c61377f7f5676e9585ee98628f5affd4b18af; 0xc2a945e2b2f19210001a5f4a1f92925bdace7fef2d8d5238414fa0e; 0x4b3c3dd79ccfb0a50e19f37041d3ddc7caa477b4daa63b9b550ac50c; 0x1bdc4ea78ec77339298684e911071362be0585b1546695803172c6a2; 0x7afa323a956fce8cc9e6056ad7f2dd9c5c9fd482d5227ad1b5d8d090; 0x88f1348eeb88e7c6409d1d21639415479dea7b02678e92261efa52; 0x19efd233aeecb2b85c920c308ecccaa2507318edc3e83264efe5a28b; 0x8fb49a931b735d1eced3e7c6f6f760e8241ce43fbe357cd09d8b4755; 0x262abae95de19d4ea29ad8a34f01b4fb7c279dd436a5847933f539d; 0xcfd3aa6ba4d30fa6347c85e1fbb53cc36ccb05b5022746122ba99eb; 0x5c82ed7f0e21f3b3921bb202cd66ad09d8d84d75945cee4b436eece0; 0x318ee7b0f1ecf5e95290e0d0906454c690a16ae6c7c5d1b4aab53508; 0x12d18ef54d360b7fd3c0d184aa70d166737889735bf3e778bf3011e2; 0xb5ffc762b5842d17aa24c78f69e3f53197fe9eb4915a69d73bd5eeef; 0xd903ec7508e309d764ab6e36f7d4b54c8beb91e327edd1cdbc01b421; 0x75b099727f0b707d59c638345c9c33a9e4ea80d77162b78c27e9be55; 0xf3f253f6c8ddcb968cf81290682227445f864c999e8e7340ae252ef5; 0x702451477009e408b4dd885ce93ec7a4a699f398289bc886a59e7f80; 0x1dc3dc9c694fb3bcc0065c020ee97f67999d9df79794fff983d8650b; 0xc61a90050e3f07a880ef615e6846996c2cd61daa1560a57a370bb436; 0xaf397fd3b0d6296eca3b863d337abb072bc375c500e1b66af6a437a; 0x85b48b098ae5195eed4a9b044654a912a956827028c03534464d03bf; 0x91e8b8e971a0f7bc5ece91053dc9d571a658c0f839f81b18afc8c2b0; 0x21818ceb012c2a481267db5b189abf80f10f1439030b45d8d779f675; 0xd51d34dd3b2e13b36a5d4109c6f7e4c6ac858284a01260c76e5e67c; 0x16fdb46e61bd370beadc00c1e545f87e5515739531619bf6d88f7a5c; 0x46d10c5db17a9252dd8a89557c128d12a360f1c2a6803a62a85b8060; 0xe0221207168c9e6503f58668344c69e50ff0b2bf25c5f44bf83b39a; 0xb1a9b6d5843127df26cc45f067d1bb51a17c50149d2558c2ef77b1f8; 0x148b1ef33369ccfdc1684e2231fe03b34a1ee7b6a412004ee00c1176; 0x33ede50827cdf0e37ebffb8e66d0ffa7564c7b418feff0363ee85db0; 0x158728e9f67a955291ad8e228073722baf0c76093d263b491c7b8a00; 0x44d6cd256693546a814e66d273be86a6984cf7fab0bbc9909572399; 0x39228667e192ecef18efe43274862c1823fb9551c6056aa64cdb9dd5; 0x9d8d320d60700e1960f4fdb6f2b388c8fbb4d4ab1e583c3229b934a8; 0x15b12c271c65bd02ef7a4d55e8b1ac8fadab1c33d514709a860cb3e4; 0xb0f4c62e08c7449c1b2b26fb594a90503f86c307fdfea84405879bfc; 0x763463232c23eeba2d07436c819681697e8051b8ba08a0d827bf622; 0x3f472d4fa9282d39c0d50cf85f1ceb8c995ac58d15ad449f67f2d657; 0x8285ec55f4d04a04e567eeae09ecbe0459d565cc4c0d2b49885efb98; 0x127ada81fceaa2703a6523f8d40e6f4efd1c113230807701391bfd26; 0x10e272bc041e340ec1ed1ea0ab41ac38d4b413b48c18b29acce71757; 0x12273562b5797686dcf9759747ebda4c7ca4142d50d020a191921f51; 0x5574339405e235e8cdd9a06213d3f443853a2e6d69f88f26c11c78fc; 0x95e3988cbea71b914f83cc4391919ce2583c5cacfe550d908a796954; 0x12b9f13748e491ad8923d00d43452ccbe72398e65ee219dc89572188; 0x2ab0a58fe28686e9ad5f68d462ff80681f2567e0a8a98ad316f8533e; 0x9150e804d27ea48260262320427d5fbb50a99e5f5b280399c8bd; 0x4da3e46f11d8f8b386247967916975fe02ea893e4ed6719caac95468; 0x1a6cc51de153b4bdb7010d82a70ee2d4d0c2cda54a74eb7ca6cb6d2; 0xd6acbd6cd995b24004264eb0a3862e0d396502185e61e7a54ec90d7; 0xb7c88dc26b89e13c63a6f5ba770fe4ef0a4a2d3523c834bce904a6f5; 0x265eeaa34aba670b8264066b6fc1622826cca8d584374f4cea5f4033; 0xa3afa8680024aac14c06feaef0a70396eb0a022bb359b50f49e3f7c5; 0xc8a24356deaf1e72fd9085d57ca1534e82ad6756d10e5fd50a26544; 0x7a3f8b328a915889ec178f66dbc90258ca175a589c6baa9c3fcb0778; 0x9b125d6d12490d42de71f1dcc85bdc6839d18d7ec74ef69bcd89d6; 0x290f3f8328ba8dd281cead30648c9a32a80ed32acce1405f7076e926; 0xa17e7351f478f5306cb44db2a93cbcfdebc232aa9799835830f4b2ba; 0x99e4a378149bd21474f90ecbf229418fb22ef597ca09102763797ce4; 0x16f184ad07a47ca09efb9d14c465ceb4e4377707a138beb212307f70; 0xc486a5d58d9c068046b523909f44e0a2bb14b7dab0872a1f95bd1e71]
    [0xfffffffffffffffffffffffffffffffeffffffffffffffffffffffff]
    0x7fffffffffffffffffffffffffffffff800000000000000000000000 0x7fffffffffffffffffffffffffffffff7fffffffffffffffffffffff 0x7ffffffffffffdffffe); [vm_compute; reflexivity|exact prime_2].
Qed.
Lemma prime_509 : prime 509.
Proof. apply (trial_prime _ (Z.to_nat 27)); [reflexivity|vm_compute; reflexivity]. Qed.
Lemma prime_11105363 : prime 0xa97453.
Proof.
  apply (check_ok 0xa97453 (fun k => zmul k 0xa97453) (fun k => zmul_ok k _) 0x1fd 1 0x553a 2
    [0; 0; 0; 0; 0x60afd; 0x16036; 0x18f41d; 0x2d9ca; 0x9c3490; 0x224f3; 0xe27adc; 0x245f0e; 0x1255ea1; 0x41e5bf]
    [0x2cdce2; 0x1109e1; 0x5dc6b4; 0x46493c; 0x29a7d6; 0x4042b8; 0x9896c; 0x4f465f; 0x5a53c3; 0x179056; 0x82656b; 0x25d929; 0x337823; 0x373baf; 0x3739b1]
    0x18b467 0xcb624 0x1b7); [vm_compute; reflexivity|exact prime_509].
Qed.
Lemma prime_821796863 : prime 0x30fb9fff.
Proof.
  apply (check_ok 0x30fb9fff (fun k => zmul k 0x30fb9fff) (fun k => zmul_ok k _) 0xa97453 1 0x4a 2
    [0; 0; 0; 0; 0xa7; 0x2de639e]
    [0x81c83ce; 0x17ea227; 0x433eace; 0x2fc7f827; 0x2fd01419; 0x5f68cfb; 0x1a4cc30c; 0xa482285; 0xc830f0; 0x88d7d8f; 0x2637c6a1; 0x1bcac819; 0x13b17aa7; 0x2850db19; 0x1b12c60; 0x1caad087; 0x390d9ef; 0x1836a4e; 0x149afa6c; 0xd772d21; 0x14b261ff; 0x271da8; 0x86dd7f8; 0x37d76aa; 0xf0b5516; 0x4c1d9bd; 0x27de709; 0x79de1aa; 0x102dea52; 0x51fdc7b; 0x3adade; 0xad7ef3c; 0x11e0885e; 0xfa7d383]
    0x18fe264c 0xa2ba1d9 0); [vm_compute; reflexivity|exact prime_11105363].
Qed.
Lemma prime_432621809776543 : prime 0x189779d4b379f.
Proof.
  apply (check_ok 0x189779d4b379f (fun k => zmul k 0x189779d4b379f) (fun k => zmul_ok k _) 0x30fb9fff 1 0x80862 2
    [0; 0; 0; 0; 0; 0xa68f; 0x46317acb8af0; 0x2ef1a30ef38; 0x5b385f77b; 0x1b68bda83540; 0x185cb31ad7453; 0x11b854f6af9be; 0x66d4945ed5b7; 0x2bb37e5431b9; 0x163258c38993; 0x137c291568290; 0xb1ba42fcb27f; 0x17404589b4d86; 0x475fee954fb5]
    [0x17adabb27839a; 0x642f24efb20a; 0x1cc00821b580; 0x673e4940250d; 0x26027a9f9db3; 0x481b6cdc4397; 0xaf5d760c8f81; 0x15d50dbb733a5; 0x15b608201a0b9; 0x107e60cd681f; 0x2aef83d692d; 0x20f3ec5c1376; 0xf1ed1d63673c; 0x9b1a6a39cd7d; 0xb97e5ec597ab; 0x109dbbaaf8a72; 0xe7f59b8855d; 0x25ff0a00d4e0; 0x16fe7edcb689c; 0xb0b117cabc46; 0xddd0cb7f454c; 0x14e0278f6c955; 0x14996c410552d; 0x82fdb075741d; 0x28016b1ea043; 0x1dc4b6f3cc5; 0x3378960cebc3; 0x2185305ab635; 0x52340f789f10; 0x5ebe5ae12a62; 0x113071ac6d83d; 0x9a7acd346c4e; 0x46bf169a5c1; 0x7ea8532dcfea; 0xed4c9095eaf4; 0x180b6aa3a5983; 0x65a823e3b603; 0x148e838ae16ff; 0x11b0afccb321; 0xfc7d8eb7ab4; 0xa2906e966569; 0x71ac851c125f; 0x5f5cf027bb6e; 0x1106141b534fe; 0x115accb49ff8f; 0xa0c5f40a5895; 0x3a5ba92b0c9d; 0x5d40c12a99a5; 0x1681c795bd263; 0x4f3aa31555ed; 0xce8d16a15670]
    0x1e15cdfd0cc0 0x1d856f33aca1 0); [vm_compute; reflexivity|exact prime_821796863].
Qed.
Lemma prime_136401162692544977256234449 : prime 0x70d411d89618dbfe3ebdd1.
Proof.
  apply (check_ok 0x70d411d89618dbfe3ebdd1 (fun k => zmul k 0x70d411d89618dbfe3ebdd1) (fun k => zmul_ok k _) 0x189779d4b379f 1 0x4968b9b030 2
    [0; 0; 0; 0; 0; 0; 0x91363001cec0b2a; 0x9375513f8d45853fd46ae0; 0x96c7f225e8281a689682e; 0x339350e5eca4ca1b1e6691; 0x65756ba3f2f46a592e4cc; 0x20e80b44c43d6cd9289cb; 0x429ac7c9632afec6bbae33; 0x1673c19f0ed304c80aad4b; 0x487ea673cba4385c729937; 0x1a81278d48ef9afdb020dc; 0xb52f2e3ac30817c316d0df; 0x31723407170cd941cde3f5; 0x964309702b1eee49659f53; 0x6aa8c109e7145452cdbc22; 0x4fa48931dec96dc6aac5f9; 0xa11b82d9670f28a2c5007; 0xc6d5dc7f55b2a9595b4e88; 0x6244b765bbcfa9cb8c69bc; 0x4b5e4bb82dade484bb8369; 0xb9b996f540a48114cce2eb; 0x7039f8bdc111473b7ad610; 0x1ec9c30fbd902ac7a46313; 0x24e8dbc2922562e512f824; 0x3754faca4ff6fca07874d3; 0x579485164384139658ac36; 0x62d82e8e653f1e699e7ced; 0xb8114ccd7551576ac26604; 0x2f31561f5b209706fabb; 0x6d9868b8ce40881dd50987; 0x3a4c0d6628e484165140df; 0x5a50d8d9fab08df1f79f; 0x405cdd7ef2fb2010d8742f]
    [0x21d2d1ea872734bb17cfce; 0xd30f7ecad3259278100d6; 0x5d872521e1c06738db91df; 0x735c6d85d8f98238d6fb; 0x1f21142fa55d4f95ca126f; 0x6c9f41fd9622815c295142; 0xf05f6a78b78193f51d15a; 0xd17242ac4cf3e10fbd962; 0x1e66ab2a4ce6e3bc0fa1a6; 0xf82e1965c9a1ac15b81da; 0x278cc29b5c98f5f9b9c5e0; 0x760091d08d81db322fe5e; 0x2648186ce80f58184e029b; 0x28cafd5fea85cd11409731; 0x3f5c9e0f1760ece10356c1; 0xb0c2772cf165c5a7e7fff; 0xafa1a3ba027c06d6d5cc3; 0x1df6f9a08babd3fc10f862; 0x369fa26c8cbf843de1925; 0x24662b0b7086df229d6a8e; 0x2e2834f567eef127d798d7; 0x75a4eba4c614e102f535f; 0x2ac004d5ff12f1860db3d7; 0x402a7c64ee743cdfb536e9; 0xe03089520f3b22751c9d; 0x35ef7ca3fb28b22aca10b7; 0x2670750cad6648bff8dfde; 0x35d9c3a275f4834592b87; 0x9f343bab5c4505b44462b; 0x14600dc3806f6736d563a; 0x1ad54413a990f55d3d8cc1; 0x1f29913267f1ad06e0924; 0x21bb88e4c16c1cd97e0e44; 0x3ad4b70d8b8e8a38b816d6; 0x59ce472fee31f43ad981f; 0x40eaed7acd5d7ebf7639b; 0x3a6bdd9cab0fa2d4171e7d; 0x2047a3e1099281945f4d3b; 0xc493fc0ab6d9dbb11ed; 0x2d8a71ad0abba3b3e7f3e; 0x3a7c2c83023c6a551c2833; 0x3669d6cda17a098f523ace; 0x1f0563e0c619709155a897; 0x16919e2bdffca86d66f958; 0x3823d699f9864699e85eb8; 0x507a397989b3a2b36bbd94; 0x1026680642f2a2af62540e; 0x28c014a627107544e43956; 0x1956f012f98c3ed97fc033; 0x15be61fdefd9f5d6bee0d2; 0x635cbddade15df5af1926; 0x15bdf4663adb67f5a8c86c; 0x184e76f6409a701606cf60; 0x32def2e6c4440ee1acf9c2; 0x229c7bb0a1b0ee8077063; 0x377729d11260a82935c0e6; 0x3619bc26f82e917cc52eca; 0x6cbce2b7ffaa25583d1074; 0xd5bf7b0b981c9cb3abe00; 0x3f8ca845f1d145e634233; 0x31b11a61f1bd74c158fe2e; 0x1a51ec833eda96e23206f; 0x49d51834796c094e6d7f0; 0x1c52a3ba79810bf8f30fa8; 0x2b012a3b770f5f6865c46a; 0x6cf1d7a810b915a7ec001; 0x21da24bf72eb52839c29ae; 0x3e6b2b5b411112f7946ffe; 0x30aca92f7fea2649b720c; 0x34b093b213d8d6d55fc1e0; 0x1744a3d53cb0c366eccaab; 0x32ea1ef69b6537e9e92165; 0x2627d27ab7cb78c7309d04; 0x4d9426773c04366207ed8a; 0x3a3f7fe5bb38e8af78548f; 0x2de4b908e8e387e60c8cef; 0x1fdc4544c40cd94cba21f4]
    0x2f46db749958363cd0f019 0x19e28f1f90e409a8a9f373 0); [vm_compute; reflexivity|exact prime_432621809776543].
Qed.
Lemma prime_34646440928557194402992574983797 : prime 0x1b54cb03ae59ed185e2c4486e75.
Proof.
  apply (check_ok 0x1b54cb03ae59ed185e2c4486e75 (fun k => zmul k 0x1b54cb03ae59ed185e2c4486e75) (fun k => zmul_ok k _) 0x70d411d89618dbfe3ebdd1 1 0x3e034 2
    [0; 0; 0; 0; 0; 0x95dd7; 0x1a7cf69899f73331561a7799f74; 0xb8a8d0f9c9ebbbc3f868d2b3b6; 0x1049759f547f3d006d7b864a7b8; 0x6219c77020adf1d1a44c74721; 0x425a09193e66580b1d6787dfe4; 0xf3775449abb7655d5f2dd7c90b; 0x17af143dab265b999d4d98845; 0x36b410f89aa3d98387f26584b4; 0x1251caac7a31815b87bd4fc1241; 0x141f16e595909f54289394a7e01; 0xceaeb111c53aac3f3af95f2cd3]
    [0x7590e2a5c7d4056dc83d45daaf; 0xd611ff8aad2450a6a239207449; 0x4f38fb5aea66eaec4633fa3010; 0xd756b1bfb6a124a87068320f61; 0xe6bd286cd168dd2b2da17d26ef; 0xeb396bf5d3ca5df2c668cd6e6a; 0x95d9c210759630579afaa7de0c; 0x60de091286c250f5f520639265; 0x3d545fda35362e97e9920925dc; 0x5c51a8493f7e9b8d2835ceab9a; 0x1a25c4d40ccf32864eb58044e3f; 0x97d39c9ede615c756f5e04770b; 0x103da23495c43433e72d61aab57; 0xe42d2f4d534d368c0f2e4960; 0xe08d04bd1ee1f4fa30260614de; 0x488cea99cb937c39c6477e658; 0x18a9e482cd56b01fe177ea0ffb3; 0xa7b48a5d1b13819219a0660470; 0x728692985a296125fa149dd816; 0x6092ab1731cca63bc885e1b611; 0xd64481ffd260eabf2e5782cfde; 0xb8b9cce9bb3eb4202219059cc; 0x156d6d6ca09ce637228a24f43e0; 0x4a4569a3fc753537f16922ec9; 0x91eddf48abce9a76b5204059f4; 0x5962a997fcde18f3a31e8181a2; 0x19f03dc0c5224819690a7e744b4; 0xc64c77e06dbdf44ff05597a94; 0x8e373696f798f882599bba596b; 0x9840d014e1f7a319813315683; 0xa00dbdf6f3b2b73450732126fc; 0x67fbe69da4668727e868763593; 0x2c09c95f00a170732f66a6e564; 0x76e19b494aaf736962cef97129; 0xa24abce60a5db54e68d58f447; 0x6005d7b2122a88674bf610488; 0x2050ba0e8baaa38ac7ad04e4bd; 0xf4dcf34230aa8be2a6119e06c3; 0xb0163754a60d5dd325e9e73a9; 0x1b148009d20292092772646ae99; 0xa7548a8eb308cb7b7f3b60d14a; 0x48b04ed85328a32d4d1dcf9918; 0x48d11b0dfb572231ad17bfa932; 0x813829969fc9ba1ebcc7f067b1; 0x122079d9a18d32ca8f77734a757; 0x2369b59ef8470b093a1e659a5c; 0x16e91dc7d9ac27d2a5f5fbac43d; 0xc2e9bf8b0b4fb4969d11ab7acd; 0x7c8a154bd7018b953ae251197; 0x8f1e386a4a69f9ec780ae859e; 0x4d1f34c511317cce836dfea526; 0x494cb9863b294890745b932928; 0xa9366b6dea13a040db97df2740; 0x8331f62b33d478b4cfcca705be; 0x2986e4106517188be0d35360ca; 0x36e9516e6a3f2208ef73d82986; 0x8ed2e936825de05a268d776c4c; 0x133d4021b2ebf7f533dd53de37e; 0x69d9c52848638bb055e2d74f0d; 0x16e9f84322cee81e7b03966e45; 0xaf722c6292f0fa538f5ddf6e48; 0xca1d06b468ac2e95a4e7cd7704; 0x3afd1a094927b9cc79289bd722; 0x6b6a3aa0668e3f338c8c823eda; 0x2dfc8bb99751e37fff5aec67; 0x34e1beed4e1b12ea10912048df; 0x16f596e30212489396ee6634a81; 0x1096cb567f458218b8911b82fc; 0x198a20e9ca54e160d23129df8e5; 0x70abd7be7eb0a3f494565a0b4; 0x17f837a42e569674e879bcaede; 0xe16d05e7a537f8630917d15e75; 0xcf6def985d6f288b19195e2fe7; 0x19bc27eb331cf9f97f3f2901fd8; 0x423dd01a6bd4265edea0662f67; 0xe2398026852456ea120bd15ef0; 0x1611a1b09983f48cf242bf2aece; 0xa27eadd60da558aefddf8df9ee; 0x895ffcf27577d2a0d35681594; 0x5a9a959b1761ba541ed359560d; 0x174eacde510bb34d4829dd85eb9; 0x394b6cb47b8c0ced16f75e1449; 0x332668233c875ae36975656d9; 0xd08bb09610cc46627996fd22c4; 0x77f5e4432dd31d5a0856009c; 0x8bd9864281b1f25de28788fedd; 0xf76c39e4a7cb75408141a2362e; 0x56efb7d454ae58348250c1087d; 0x16a8331dd8aa0a8a8f9346dda1; 0x63d25638914d7abba64ca72f65; 0x167ee0960b38376fe825859df85; 0xa93542393010808eb63e4358e2; 0x16dd56f002278f8f9cab963d524; 0x35aaca8bf984b4c1acd5e0d572; 0xa42bef32766eac44ea6991c853; 0xc3ad8b8c1f95e2afdba4ceba7; 0xc07b94117f0cdd2eb77b3ef3d2; 0x1adce6cb09333ecf818d8da9bb3; 0xaa987c66f04cd839710e52974b; 0x4ef2d13886b8224425bfb2c36; 0x1577ca3bc5d428554c66745475; 0x3255e63e4138e6f49b118b41f5; 0x4fdc85070004b2c79b0ec65d99; 0xc459dfae9673b2d8abf9a08a7e; 0x613216e159abfe2526736914be; 0x28e9076daec870b5d8bd50258d; 0x9be410f4f4fc375c690b3cd239; 0x514f61e737311087ea48ffbb79; 0x18c7f3a935518a3076e0c00f5a0; 0xddd85453452c03e635365905fb; 0x82d8c3b0c6ab90579fdd7cc89; 0x659ef0960e6028457f4d82dd1b; 0x10edd7474553bcb78d417714a; 0x69f39480fca1762b85dd47d31e; 0x92afcabd09e9bd496e3e48bea7; 0x121bf9e524d9e05f579f5a5f2; 0xbc2fd31bd28ac06d8c3fe3472e; 0x1052d0b136c021d3c4eb925b411; 0xff3fcdb8c2686cde5f9cec61d; 0x4e25076ea3f35051b44e71e995; 0x6e2bff568a88b5aa2da67b2a64; 0x6d3f3ffebd3e91ff4cacf12f2c; 0x59394955c78ac2a9564d3e0a6c; 0xd1d27701c02458c04eb91c7e4a; 0x4ab050bd5148fb7283ecc27f9; 0x5bce2a5bc6f4cf61f0254697fd; 0x1ea953c4dbb439860d73dd6c3e; 0x5faeabb345d8731cef0628d471; 0x5415391998595b6d5a94061a82; 0x2e106630bb27c4996b71df6ea5; 0x186cc65340447194ca6db1d3cd; 0x1aab26979be86584dd28732d6b]
    0x3f93fd0876fdaf8e634251b0f6 0x20f726171a8bc99077e9b947e3 0); [vm_compute; reflexivity|exact prime_136401162692544977256234449].
Qed.
Lemma prime_375503554633724504423937478103159147573209 : prime 0x44f817a026114c922427bc213ae265fafd9.
Proof.
  apply (check_ok 0x44f817a026114c922427bc213ae265fafd9 (fun k => zmul k 0x44f817a026114c922427bc213ae265fafd9) (fun k => zmul_ok k _) 0x1b54cb03ae59ed185e2c4486e75 1 0x286012578 2
    [0; 0; 0; 0; 0; 0; 0x76c71e; 0x3a0d900719443c16b7358520f3d507e3983; 0xebab4883b9d0953f074222811e37c964; 0x28b1a2e31be83bb782b65ec45e200bf8d7e; 0x21bb2ef7c8cf05445d3d4afe92840e9cfab; 0xa2e6e2c02b79307c474977b73e6d063d01; 0x3c0a8213c0ff3a107e12fc1f84253e7412d; 0xe4485bffaf48d6217b632fe82873adaa3b; 0x1a7fb42f6e1024676383c501106f55659; 0x100d20642f2c065c530e50aa6ceab5e9c4b; 0xb884348450b37d24b6e3324218e4b429b; 0xa8f4acd5511d4b870bec305be64c9a382f; 0x1a9147fc4f8fb36345cfd8ee628d2150; 0x19a2b67ab1d44ded4455af4a4023edb8d22; 0x34954f0370c594af7114229091499d3b16; 0x38fcee114001632310fe0db114245cd9053; 0x4c5242138705ca433db7448fcbbca703c; 0x10fc9ef879dac83d5b4db251cd897c1033; 0x7e01f01e7151c0f6af8de59df5fbe77e3b1; 0x12a5aeb5a994cbbe2372fdd6567571cb0c0; 0x283cb0c3bf6e63b6f784ba4a2d1a5f6fdd3; 0x3facd1714b445eb19a407868f4f37eb20; 0x1dc21c98abd0598a215d62e591400cb66d; 0x5d5f04e14440a2b5e4eed6805f36f6da42; 0x1dacf9eef0cbda7391a201925e708819a6f; 0xf38b910f85fb5b2e604fa2d94485af735; 0x11b3ab30af2f3cf18a0b7254a50148a9ae9]
    [0x28b822c873cc8288550c1c34a40d26e5a97; 0x1ddc8e182319d6dab082e6b491648dff3e1; 0x12fec677fc61dd3b36695b10e4c5305d41b; 0x1bffa6530f25f314534870960a60956d25a; 0x3216e875225739d259f6ab5d6dce67c45d9; 0x6f0eb9a71221032c63cf25fa018418915; 0x27ad6989cb4921490e1fd51222e4eeb6465; 0x3228509d18644512bf3174ae7d4c8fc27d; 0x1033ea1e7cccae41c9d1ff5eca6c32e81df; 0x15a4e3289d27271d4240a69c44ffb77882f; 0x15b08b2bccd7eaa713a37c3b3d0b9ca8f; 0x8f23752b10a3bb968f7db656a12cc43d4d; 0x2f499412e14423d8319dce7b419304e326f; 0xd9816074b13effde46127a7f1962dadbf6; 0xf2e1771ff5fa24b8620ba75ac592094ca; 0x1dc72af209773983f1e440a6c5f2bae4b1c; 0x33cceb7972e904c1b4d3e03732f86a7012a; 0x1bf3b3c3e757499336077739bb29720b0c5; 0x1f747cc123a7514aa2094239f5ac60f74ef; 0x1f9e1e6eab7ab4e8367201fbe4197c62f9a; 0x2b42452ff30c34bf324ad4c6ec3849dd419; 0x7b11f7178f89e22b805f9e38057b10f063; 0x7592bde7c101d201c632c0d20f7808124b; 0x28e9edc90eea80a637830643c253b8bae; 0xd6b3bc5f7d24e0267ec706ef5daaec7f0; 0x15fef621f5f188c171f4940d4b921a49d3; 0xd86741e454c5b29efad94cfa44aff7a3; 0x113d7355938e32280bf915c36cb99d03a1f; 0x1e8d5a59f396f1004fa8bab9a5a615dd2b3; 0x296f5d6770241cbf4168cf8963718f89595; 0x2ade017d17b757f3a0bdaffbe525adf9594; 0x44ec6b1ba061db2b050746a8dd38fa66ffa; 0x217cb82f3595b63063a072735bb2ed54059; 0xbbf1a3847d8a9c636e957e5f0856ef9f1; 0x4471630489daae8bfa82f508c9137f20fc4; 0x25efeda57956647bb16420545d63507161f; 0x66aa4c9877a7a1d4000ecf3a2db2bbc74d; 0x21272f3f3acfa4dfc3b2584a4fba178ebbd; 0x3120f7550c61d528feb18060a69b9101e60; 0x16b6b6860df8c5fae68acd3c54bc44583ba; 0x2f68ae29a8c02e6172ac66d084e42d5e632; 0x1cbf3908a43c5054bac9422696c88ad9a; 0x2bc1590884543d0005615ad91eea0e7c691; 0x7da2959836a3f60e2fd0502158f8907465; 0x1e041305cc7e1d78ce0e0254f6a9ad4bf70; 0x2f563b7bc806853d60fe767cd5cde79e926; 0x20c67bd682631bf61dac3115de6473f6eac; 0x489057ef02c35f77e3dc752860d245e; 0x122ae3619b43bd8982ed51b70ec80ff738d; 0x40a2264c4870657c043229b38e1a845222; 0x309f26c374268c7474c3ec4a5d4ab66b3a3; 0x24b4125b4e624ec9f5d75386892a4465ba2; 0x8f85687d95fa1adbe30069325d64f2cde9; 0xdcb34c353351ddc7904c58d1495fe46334; 0x37954bb5937218cf28087cdf237209a4e84; 0x4323d106c354b6aeb16acc31ceb9327c0c5; 0x21760811a5f19cd54d7a368ebf815db46a9; 0x28d042fb6ccf9365befb4db0255757e7d; 0x1256e47f4270c7d6c22f12d05069e872fd; 0x1d2fd6b5cc4ac539907bce49b787e97b6d6; 0x124876ea814ff309664b5f9a6b84ee7597; 0x1247d3c15be25cbb545a1241c7b60b7fc41; 0xebc85de8a8421f192376552894d8202e21; 0x16cc8cd5bc9f273015783b503d3e67f2437; 0x9406dc07755b910b5e31d38ca23cb172a1; 0x57c2455e32cd180833689b4ddf9e94bfce; 0xc3c12026e39857c2eee478ac4e5bc8045e; 0xb3fdbd0e704374ca7a1980d4a87cc9f91e; 0x175bb632d2bad7209f6ae032020cce9b4c4; 0x1f34e84d3cbb18fa5251a05ef5477212ca5; 0x40d8fe6fc176084c9932836366abc52152f; 0x6d9d1224d0727af2660c6884576d31128a; 0x363559725c0378623f2eeea1b7816bfe65c; 0xd4147fd63bb937ed48b859fb2715d653aa; 0x2de82e83a7e9a3e276ed49111d4a47de5d9; 0xc35f5e5bb2d3eb21d1ca904d0ebdf8007f; 0xb651f5a72a723562717ee936b23d175c84; 0xe87d0bcece450be81f35ae36c2c305e2fd; 0x3d96ea1ba28b3e5232f0ed05d90b929baa6; 0x213657b95ff6ee9f2d5c7145f5ab49049e4; 0x11fc36380d05c0ff316e216e8bfb9528dc; 0x2a4e3f29510d5675423534da4eaa04e26e4; 0x77f755ce722043569d9e8576a487d23ec; 0x98de59845aff84b7cd684693909079fd6; 0x195d29bd42535168c9e8d0db77719767519; 0x19e542c591e9babd6cc0c0d6abc154f69e0; 0x5fe29dd3fc993642ed05ac8696f55ee5ed; 0x26b87688fdd45e0d0fb54a77652262563eb; 0x195fb66847b1d49229333fdd4fb13146422; 0x4cc6071dcd2270f514b938f6f1b9befb1a; 0x2587e280afab71e375155687f3b92e02c62; 0xc0728223888278cfa1f13955c2cf830ab; 0x33640472c4b5014caa3b48c5c579ba28ede; 0x3c85c88ea9b20c2abbb96f869520341c50; 0x2826101221a30ba680fe11abdfcce803cc4; 0x1f6de6d42ae5251848e1074e921b33f1c85; 0x11b0a8b9fc5bbf7d98252b8548350fc19d0; 0xacd451f44a17bc1ff184d9833b4d8e042f; 0xf9a9386b44a6916a6c9ff2585b6bdc86e; 0x26aba329ef85fad1a85f420e31e058a190a; 0x111148e05164b8fbba3b6c3b56651d833; 0x1a5a753de236241b3288c7b2e4b998e1260; 0x2c5938a2e44cc6d9055895c6ad312b2c8b; 0x105465d1c8463ba507b55217a859571143a; 0x145e2000ca52c6b0f4ae7eedca96dc2c4; 0x26201761ad903c8ef0b0ed51780910c8f18; 0xbc68da143b20523cd470868eb410245dab; 0x68995e2e5c3d29e64661dc49edf967d1dc; 0x2f7c1efbd7008fd548969e50985e8f7e037; 0x9a833442b888e459baff380a0c80369043; 0x3e7d854df1b761665840ce6dbe4589b2e2d; 0x1df799f8e1e095344efccbda46f20ac1e38; 0x18c12ee678288555357f019a971478cf9c; 0x466282dd66e3a87ce549766f3123214389; 0x1d3a281a6cb13a17a5589b98b014df1ee45; 0x179197687a42b9debe3223cd00d9cfa5342; 0x3310dcd87543e09975e4ecdcd2183617116; 0x18c20cda02532b41769ca2aab75aae99160; 0x111d7ef834098d82c867c7c54e3ce99c869; 0x16cfc607477a90f73c2f66c5299ed7c8c5; 0x2c3870d2346c0c84c2df65a2e592f31e64; 0xe4f0b2df352b60a4d8ce7826d4de278e1; 0x123a13ca5f0e35f5ef422d418918ddc6a3e; 0x1c68ac554cfadf6736e8153c226e972901f; 0x3ffef6d19afc2630e67bc2bb0e03f492367; 0x33cc0c5cf3ce38c852fba30c9a319a30bde; 0x30d2e6cf588e99709b1dfb8bfc6da2c9376; 0x120bbe67672270b492b24a14b45879a899b; 0x4d812afdfdcd172955cfbf210e8c2cf02; 0x6928deed87a99df05848b0c30d68b1146; 0x30ffa3f829d2fe171fa8bd6971e1c9acf92; 0x262d9c46aa52fb1eec8f9af0586f141ed0d; 0x151b7791f3dee866c23022ee0368f5c1d1d; 0x111126a75b903e2f1d699a0e020655749ef; 0x1b58ed5714b6e8a3ef2a1c55e6f94e404; 0xfbb8d9c6d6b66a32342a9757cec8e1ae9; 0x98d3db01ca2236696e03c2ec54cb509150; 0xfa034d37032df01dcf9b69608df2888f3; 0x292e6a51771ae086a2a0b1ae0cbe1583e95; 0x276474820c32ff3976dd07b1660fbb89; 0x11dc6ec79f1c981a27653f7dd9d057a392a; 0x9964ae3569462b936d09da08888160ff9c; 0x146de8d1b294b5487ed4c137a8e139925d8; 0x2eb87e3d5279874899186424ccfda09490; 0x1a5ef796377612b117d37408f3ff361ba4; 0x114a3d593f9cd6587ff61c438e208d01b; 0x1ade2033607e19e0d4572f1649fa7ccf1df; 0x7d87946f8162c4ba5e0a92bfa8a284b410; 0x3e6fba5eebf8776d45474318e60566859a; 0x3fd394eaa0e8f7af8469b9060c2a5cb6736; 0x1e4ca4baccc2b879465c73b6010e81fb795; 0x28aa8e5cca04d5d58480469d54c5d32b074; 0x180cceb362f5d0d3298fe964c6daf9f0828; 0x1899fa9e1b7b739b0e940ef831bd00e12b9; 0x273bda333488257ddfaf778060c65c04707]
    0x3a683ca4e58d3a88b6da2dd9ecdd40b0606 0x2ce0e97d8ce3d067994efd00fe27e7a550b 0); [vm_compute; reflexivity|exact prime_34646440928557194402992574983797].
Qed.
Lemma prime_50520606258875818707470860153287666700917696099933389351507 : prime 0x80c63bd8a8b2da59fd7b637139afe83defb38e5bc128c6a53.
Proof.
  apply (check_ok 0x80c63bd8a8b2da59fd7b637139afe83defb38e5bc128c6a53 (fun k => zmul k 0x80c63bd8a8b2da59fd7b637139afe83defb38e5bc128c6a53) (fun k => zmul_ok k _) 0x44f817a026114c922427bc213ae265fafd9 1 0x1ddfc48c9455ba2 2
    [0; 0; 0; 0; 0; 0; 0x7f3af550000; 0x34dccaf296f9330; 0x852a5098dc8d1d7fdcfbe052d83cd202ecf4b041f4e7eb49b; 0x8063ee4bcb6d5b59c3b6036791ab4892ff11f13ebe5301e8d; 0x2036965959afa3521be0e5b38c661522f9f291578820adb1b; 0x53854807420c80c61f6274477f48a690077447bf76ec4ef2; 0x19b681e7ed90a58c6fcd98db0d6120a64247d0a2f023e8db; 0xfb0f5cdeb467892e22da02444ad2a6a71e4b4e3ca26e0c4e0; 0x14ecb5af727f208417c830fb8a2d8a4c0f3e8932075e8833f; 0x24b7633123358b37818db12acfdbd79e572f9325e2df8ffc3; 0x5568ae530597c01e7edd7352d9041ee58b09e37588696335f; 0xa5852241ccfb894d9a38423ae300c5fae29a5ba4f7a760ca3; 0x67d5d4bd660af54f9ca75856160e60065e63b3eaad9c096ab; 0x3671fdcf79bc6f8be818ac303346d6e885fd327fcc7d41a2d; 0x45abdbeecc22faaf38e25b4338fd89064195e7ace8035615e; 0x11a2ca124ac691a78b73fcada393ff75b831c6c94d29230a7; 0x124479fb8589d5a85489dd5c8bad88cdc5ebd2cb3d57f3301; 0x3aa688bef2557a6663dedd266ae9088a3beff326b230aed8e; 0x261eee9e486b9350b8f83f394317d33602d38f640647df387; 0x2abefb7cbbc0aa8dd76a3bcb802681e37867650f164b79f72; 0xf7fd271dc5c86cfee84df6c80ce45ba0cda3ff03bc016897; 0x71e5159dcd9cf9fb3c429362fe686a83ed2de2424016294b5; 0x3e569950b0e70e89062d55cd48a24182d12eb101c5663190d; 0x59c7a78c9beb2b3894e8d3ce945becbad667f9662b3c899; 0xe262c2d0d6dc35d3b711e8576466a83851f94c92d958b468; 0x3b61406bbb4b0361b50fbe0ba4e1bd021e9835638acd8a990; 0x84608565a537bf2b577d2b9edda483ba4016e852cfb76509; 0x71e464d85f8ee1f451da04a493e16eae8348898649427e281; 0x19c08446775d9f6d4420c35e4ce49ecec74b60d51247a2b28; 0x21b5d9cf5b62cd8b3da3fbc94a5c50faa1a28ab6bb865403d; 0x723a726c462b880a69e3f03c1ad26baeb13f3e4792f513436; 0xcb4e5a430debf8192a522745ee65ef0fcba1adbe6804c3108; 0x610a49262694c4ed4052cb6b888959c7e6c8cf9936d5d610a; 0x123a39d93cdd5ef9f405db9880d2ca5c741ba865abecc24c6; 0xd9480104c6984ded4f8781324dbd02cb617985628a9f85e4; 0xf4032328c18508842f779ec28fbccca7e10ae4314b86388b; 0x124a18e63a634ef0f8de98ddecb0ddf4710ee72224261a14; 0x75c52fb128e3e189c1631158814819492d2ec36e7e530f698; 0x7304c48a5e45f78279b194b2c70f8bd32bdb759d4b9ae; 0x139562bce2466901f99041cf25310a868494ae97e08d336; 0xa53a9b18790d7df55a79f9f189da3268170af7cd16f3a2993; 0x1823a48e447b0850d37a032ae42ea6e8b55e881ce2163804; 0x1ea2a767da74efb3dc57f50ffc4f4a6ea3cc312c6e8e37dc; 0x6f3641982732a6cb46ff1c190b43eb490a146e5ad40113b2; 0x4b0dbe2eeb745d40246b65392ef21b66911e29383055a41d8; 0x39bfbb944f0a869b7afe8bb6f3ca44e6a49f9e9f684780007; 0x6dc03ada6475d2477349f8f9427c7134c539d2d1bc0b5aae8; 0x8fa7b68ca9f0f43e3c748fe6a6ae848d364f962574db400f; 0xb5574170d77f83aad0bb93b1cc65b63e62a92ac06fb07fca3; 0xac50044d46cfedf2238c689c332ec81e7fd78c390f30b50c]
    [0x5217795fe70ee6754110f5f2ee35bbcfc4e8a11420591fec; 0x449ecd10503e7844d59171623cd003283e9d4f309dbdcc965; 0x2da2bac99fb931ef91d1e16a2a13e3832465ef351210426; 0x13190ac27e8501e42412521e7392f17f64c67e9c755c953e8; 0x5e59dd8261359a8aea4a709ab60457de6828463e8b1f1351; 0x4254fa5f35c9a1c639b5e343f4547f70cbcda0928c9b7af8e; 0x7d0e36fefd3a2e812bd3df126511c55dcdf19353f58eda83f; 0x48ec7228fd7f233c21b547de4bc6cecc2217faa3208bf4ad; 0x9588dbe47175781e89e5c0b2f5fb83a4665d82572b21d80f; 0x1602ca2ad74616fdbe530eec43dbe6b589f541088312f8e4c; 0x21635fd3b05c09e2c4ba16c8dd372d9321bc48ce0e995ca9; 0x49880648e261d1dc5f447feb2ca5aaad9fb5a9ead5a4bc06e; 0x2756b19fd29639d526fab9e47a3f4c65f669a98dedbc7151; 0x6ff8d7c47f6d1385b174a59d7beccc0af22a977f5434e8a68; 0xa137ddca0a18ef03a7825c0739867d766fcd7bf86241877b; 0xa59f41e1a9da0a5910ab502e82bbcec6605855e55335bdfb; 0xf031abba3b4f3cf0b7a066237f46eff8e0ad26de692dcae; 0x5b48ec50f668844b2e23304f1777e69bdf1cc269ee08e2f7f; 0x2161f0408b351444261637807b0872fb9068a328300844aff; 0x51f98a12d41b45cc77d10ed00a5fd543b140fad41f91a1a51; 0x8174c759b029d2b2fdb77d7964292cb197be9bfed4c856d; 0x3c3cf7a77a49e20127205b2717e866add6e83ab32895813; 0x511e375bca6d24f3bec10c6c4f773466251f534169149344; 0x33ecaac26d209273e4d34e49fbdda5e7f02050486c17ec17c; 0x99b4f0643d9e8da5bc952f67407817d3383145943c23ca43; 0x15393b69eaeb50a81f98b5247e084ef5ebf98f9220ca190dc; 0x3eae88f0078e39533e324e39ccf3f483cedec6bde6cf6307a; 0x8abc4b187a0de41c7a308d8532a42e762300a5238ba7cfca; 0x43f9846936c24a2818ddd3187792f451408cdd53ceaa3e08; 0x1695fefe6193b09c339984d25df53953c655c3f7956d2e7eb; 0x1efb75b9554c92554db61e29fb4f6ac11803d52c393e60d4; 0x18cab683ba02306995205432ee88049b9648d4a92e9990271; 0x79f3d04ac2a539ea4932a05bc7cb7a41caa9880156bccf6b1; 0x6c4035d7db175ec901306e3042effab1f08dcbb7d995f759; 0x54aca1bb759596193f4086f37af470d3c77d35c1023b3ec6f; 0x151f329e958f211774a3e24b216f9ef183df8f97a5deab98d; 0x8de9d6ac76d75504cc3f5e14af7ef6aaa58dd271878f3a3a; 0x2387b9bebada9042881923ef02e87a90d96e88abd68eac73; 0x21c75121327ff5f7a17ad70bc6d291f6cf482634db54a8403; 0x5a03b5f933972a7fc7075b3df2c73c2d24c0767ac773ae3; 0x1eed90c1c2b60119a64103720965a0e8c22514f03a733f3c; 0x2d3c4d58d6e658d485494a5c1e79154cb601051b2fae403c; 0x1766f6d766e257b98c4659c110c7aaa2e2ca786184d0af211; 0x3ba0750ce8a4ca8801eddda702c3a5c7d486160a9bc7ff52; 0x5111feeed8ed74915534788cbf05ea5daa5813578c81c16; 0xdd08a2353020dd32cb9d1439186f414e3962b47d48de33e6; 0x11e75b99851c38ee0312f6198ed937c505c4aabc85d1f382; 0x1ffeabc0fafbaeddb5a3781b34d50ab0c141dc141b3f204c; 0x594da3ba963290c84d720fb11796feb5b05f8895faac60ab7; 0x13f9b90ca90fa720e7c6bda784629c5a2e24c741a1b0e904a; 0x632e5365488cdd580d1f8d8f377cff11acbbd0045744ae7b8; 0x10304c8f3bb96ffc879ca5cdbce4ea1d5605f1c00f99053b9; 0x1a45ede68f22a63ec5a84c8227fd6d2cb0a54a49814dfdebe; 0xcffc55723462ab738c6a37a600dcbaa550e627064a8b990e; 0x96300c7b4b3406f1db6e969a5ab66fbb80ea680e9002ad4; 0x78cdc682bc1dbf4b35311556900bfb154527a77a2b94c7418; 0x57a9de5ae0400263e1126d0d7809031d633eb2b8b0ff2b5; 0xd35af49f8559f95306b27ccd98c0c076a5268f3ab053253b; 0xa9ff2e3e46d7ca65327bb598e988c3ee7a7547e7c4a85c47; 0x305e0455aa41ee34f2eb9998f6360bfc16d5d3979629abeb; 0x2bef13c0061292c335f990fc992bf0b32f0756363f26e333a; 0x71f27c6742b4d05016f9c0205906bf4b509217798aa2f8183; 0x45423d23f5d72453b45d575a1d97afc18c3fbb95d4e2d510; 0x27d7e4021d476fba95c0da631a3be8390eeb8447c605fef9; 0x2c59e3ca8071dc2ba3a790874ba5ab7f5091e3a6ea608e2e9; 0xea55198d288d1d92de261bc6236a4541a2bf6972c1124055; 0xb3ff052fcf66105c8a39241b7e2584f64965318122d50fd; 0x747610522e9db76299f260eae4ed9cd7b7dc75437418b37be; 0x18127f92a8a8057c91e19dd5847dd3708e681bef3290e6aee; 0x152829a8887b83d5e302a7e58997d77303da71933a38b457c; 0x2858f9ed995802f0a1f70a66af801c99466399c3ff6a1706a; 0x181b999931ca845559c1405d54683d076a37bb08ab00f5305; 0x2e5fc2b7a69f555edf671a515693fe58ed1380742950a68; 0x2d3998290d5f51ce8f3c5a1dde78d8c4c108bfebf11ceb26; 0xc9ec25f3898a34f2ad05253e94f6cc5fae87b709d35e6743; 0x172b934e8f5d4027fa2bde34d5fa0e9aec8d14d8847c8ad41; 0x1f6f5ac7da56739ed9d0403d25c6a4f91f46a81c0f8b8c06c; 0x3276090a5846b9bdef060b78460dc7ba15351d2b38f8e9535; 0x17d08bacd88ae5d2361444be07d5f1bfbbe5a1a230c32a64b; 0xaad3a25ebcc3f8ed47d52de1b962521ef3af89b83bcf567b; 0x3f47ed401961cbee1a7b055825b3f29802aea89fc25f85dd2; 0x5c007a629e6a9f715628a9eb772863a0d03d56245c3b07052; 0x2ca4dc2419b0794b02e5cd3e5839f04c550a57b875c9089a; 0xa2986cf241c22bd184932b8a3901fba8a9556f8ae30ca6df; 0x413eb8e07acf4deb0f854867d4d3e58dfb369cc4ddf137a2; 0x3fef4f6e42ef19df1679aef8c9ef5086e553c8a4e236883f2; 0x4a5ec1fa2475b10cd3fda48975ea52b2a2c521368723ee2cf; 0x97360c5a32f9dfd7fb72e78eb9bb16701743afd03d9e077a; 0xd7ac41a9be2eabbb1fc0945e1bd138d60d05fc18d8c2a8a0; 0x6ce331b7e7d9317fcc01e3c1cc3a7a4c1dba9db72f8b42e66; 0x1efeba41da01bc74484619c91d6d8c20c3fc95e825e7a4f00; 0x416011059b3b284ca6981eb616e41596587c7e8fa8088b7d; 0xdba80c1f32fb3f9793e4446c13bf482a3f588398c759c7f8; 0x2e932b27d571519369193c58abe2b8bc6b079291f36a6277d; 0x274ef91d4274889e02f9630daf887f7c413820adf2ba9fbcc; 0x5c19e7054cbb1e0b82dd26926c4111eb36fe9c0934d9a73ec; 0x16205bf585799561e6274e5e405f43e357cb050da092; 0x2975dc507ea011e1c14c0e6ab56bb6ddf486d3af386f4f4c; 0xe93db7a0ad0d36cc5a35eacf2df40d27c498ad0c753e3aa9; 0x725463dc4171f75a607fd7f8802e691aef458a02acd8f4515; 0x4abbd3a54af6f87d808ed8e51c04b6350259bed7d0ec9b365; 0x41984ffb8c2af7148145771e85f4ebad3444162b4a5aa418; 0x1076684bace96b8db8dc67b7bb40a68ec0e2e1b73d6dccbc0; 0xd8912b3a158a3a82e4207903d2089c61be3522ba7fc29a61; 0x348a1bf0be072f398b6577df9e260d03d74e71feaccb44a4; 0x3df43f08581c15ecc1440ee2a251d04411e46b737b4fc14dc; 0x12aba990ed706436ac2548b497267b6bc860da02ea3e8c6b3; 0x64ee8faa76720389377277009247df0c48ddf0c2552877bc; 0xb94d9882cea8224fa322db32d39a9bf9fb53c9c89599fd4f; 0x27a7d114003819c560538c5cd2e320b2917b0e6bec6929c58; 0x864030eefce6e61b7584820c014d892d6fef4c19ab7747c4; 0x18953b9d6b63e985006955c880335aaa355f85e5738b888bc; 0x28ba0ec93a1f2e3cdc85d8e730ecd88b45b5d97226c0efca6; 0x282c7624d9a14aa7c9e4d554425776f44cb3c73f628b836; 0x23c84c2e1ca145303f4b8061a4d9b8e3ab6740681cdbc4bac; 0x2061c39af1990c1945dcb70ef10c8c8cbfbc81228271d8aa; 0xe74fadc8f375d87eb22094778985b01e671c14234f01475; 0x113cc02ab96ebe9fb96ff522d97cac6b860a5dd3017faef88; 0x1bc9d68c5195a1735a9399a324b6c30aeb122cb0e3d7c7295; 0x2fffe5d9d3ad76031294683afb44d0b4d56157dd1ca42b740; 0x3cac748b9f7513eb58f8631dbb09ee423d7d518796fef6d89; 0x4871713ea60ad0fd955d75eccd6878cd122766edf8fe9a37b; 0x3f8c2a2296c31ce0dd7b4db623dd13ace2560cc23eb7f507; 0x7314a8d99dc8aa5562859acce86ac5528dad205a667a5005; 0xd9e38f5bad6ad83d9d471d68b7c144c540e433227ad7cf; 0x318e4e3dcf14640fbf2762ca5a36bcd1ff159ba38a86f7; 0x2a8ac4b006607dc474a2c9a451ed51111605984b2e0750f65; 0x134b9e9a7eb04c6c6ea90b202915c09be3eb4d3da7707eb95; 0x4b6234f5b79be2ad1d11e5042b9ffc89e928d375a91a5e064; 0x6ee4cae89c3b1536f6416661b020bbeba6f069f48d14ba99; 0x3c9c7bc15867f09358e38b4e639393c86050e0b6943c2de2e; 0x49c00da9702b643163a20bd8b238827fdb9233bb7ba4caf6b; 0x4b40f9c8ab73bca455a0341d2d970ef6d0fd76697b53c245; 0x5ba76a2bcfa9354dfd71b01c399995c5c64f86b82ec003d3; 0x1d9f28317ee2ea2ce4530d0a38ae1380a257ed9cb15ec3bd; 0x62f0e663d135d8012f65883d0e1ac4143c056aba40c22f8e; 0x384ec44269c1bb75215c7b6e1ed1260c714da9cdd80954c9; 0x1394513f8aa1725f9852fc39320de33d7d19dbadf7f01eee; 0x2e5c0d0aa6e640e4f71e3488a9d8f323fccb79d88fa0e4a9; 0x8503d44c642c920ade8d1df1f8fb7149a57f5d42c1865981; 0xa931db0b458453a3a8fb27c95a1bdf3a1c9a1466415e0d6; 0x40e4721cb1074074f0d0235895fa1b9c1ef85d42c2fe5f40b; 0x2267fa47d19eacc994651e0e5ca3f355b3c76051122f64c57; 0x135a0339ee720c32385275bd2d0135e12060aae34786e8ef1; 0xe2a9f175398bb6693df2a167be12173b346ef890b4fb09d2; 0x638e332d858bfb1e5bc77891816e5e415c0370bc402296b2; 0x269e50edf5970e64c195b9dbbe70f957b40903b7b66b8581a; 0x871fdecdefd2dd45c707c05ca80fadc74adb6d7ee2721780; 0x2df2d61dd5de641dbbefb7de9e3de8466c11fd7103fe805; 0xf1924775292ee0aff708fef58335b95f0b617d997f470a0e; 0x72c0a7b9f410224ae3623e8f7d4c9aee5ab8bc4ce851a9675; 0x19bbcde0d65d633e3a2291e1a8a0806c952a8bab176cebce4; 0x9b449aff88034b9c5799e23ee0fd651f4a766b5575e5f3fd; 0x73fb1f72cebaf383eb20b0b86eee5a0094b7e92c4cc537bbc; 0x6112a6837d378e866a42b596c359fa78510578d238e03533b; 0xf27c5b7d471ba0d9bb2ccff21604aac3c7002a91da9c0dac; 0xc531d8c4b4e07d644ff2c42c3647682e525234cd53c865aa; 0x15c64a3c4f8e2c2651f06b0e370217e23d4dcd1822cf44a7a; 0x164d37daacd4910c60564545cf74bc9d2dc4f615493acc2c1; 0x226d39f0a19e74e65aaa0b16d3ff522bc9687d7369b22e78f; 0x5b4eb75e447e7ba1b32a52d14efdcb1da70f19e78003da7c1; 0x775217f71a9f396065dadb8c471a619823b3438c3a1596284; 0x246e4c196feb366ea7afe943059ace0b657b53ffa3da296e; 0x73d08e34f9b6e1bee0db6dd5e04208c25cd6ed0ace68ba57e; 0x346f936a053485d0c8db10535ce8807c919af4579db4670c; 0xfc758368d92ebdb6f74a655c93a1de66b78b2d77bed4ec08; 0x474647a004da1dca826ea8a4a676b1a022d709b1c038868dd; 0x1724f9e16f8dcdf48951f61a0aa14764502518cdc01ec573f; 0x3b1abe89cf20ecd264b909cf4b58ffc48676cbee3aa248d5; 0x185bdbe3a03d35c3a3b25ba011962ac330e4bd0a51cf1c142; 0x1e973ec64e1c89d7ec60241374d892d5c2633852d897f196; 0x13966ada4980a938b6db93e5403e87fbdcfbb0963bb87e6c9; 0x40007f23ca38e5c38eceb6c013a66e70a06fd2724c1d15531; 0x6caa209b279f3faa4b66cb1829e2a559474c255069c5c531; 0x2cd1c21116f4aa273e231fa175aa5c87d244edef70c8e027f; 0x50a8fa70c973d604e1d2b271df63088e825887096e784c0a; 0x2fadb2e4b38a3d8c6c7dd658923ce90e8c874f4e10c3e7413; 0xccfe3609c85321887761123489a19dab076dec05ca600892; 0x12836bf392ae69033da1d3b0913489aa38f4fe262fbd26e49; 0x47cb7ef237fc4294a3c77d9a028f12f1cdccc1b946acc9ab4; 0x7ec2079b24708838002b2d6bbbebd2cef74675c0c3b314bf9; 0x2a3dda3e2cb7ef9d7c8d5912d61076df3a4031f576657fb1; 0x360f426bf705c870d6a206dc9bf20c39a459ec5a7e94d29; 0xb6efede87bf5e7347005c2c64e2bcb72d1b289b4c95f36cb; 0x4f8820d0d719615318535f198894c8e02918fe44de03f0ab0; 0x2dd6bb6dcce6db39dd7644a128d3b043a4d660194c4e3f68; 0xb64cb75368a259d8152b7741b77918ce89b50af70540f4e2; 0x48148b16dee7f6669a538c285d22356c895e784848b1c38a; 0x5685a9159d1dafae756d27161fb84fd214a72a140d376526d; 0xb50f248c018a222fff60a42cd1a3facae5959abd453cac62; 0x74e10f0a7a0f9f311d7713b5fd8e728fd61b4232d6a564b44; 0xd96f673484287b6ae1976b3e92c96ed74a5b884b431beeb0; 0x58e50ec0472ad31880ecd9692de15bcb38b764093e7e9e969; 0x6431587cec946fad0ba178e8cf040b0d8d92b0333c1b31c45; 0xe86f9fa6e47072a3117719e234c5f45f2e9e4d3cfb750402; 0x19f1f19b0b46c0473132df48153a0979b8f929c9496164c72; 0x9996de89be25c91148fe4b5b1801c8607b373bee1369711a; 0x6710c4c7c00831cec274e8c3e9d9af50426fe1601659dc7b; 0x29009b3aa5202f3524b7cb1a74452b5769646d6ecf28bc78b; 0x490e9f7ade4d982d850e9b044d1e9ce979a6c3041a4147fb8; 0x8a72596d13b124ba53dadd33bea41c1e3143ed4faab9af0c]
    0x3d86b379a57f6868279dcd96ad8f1b542941515c949c682d4 0xc47f1b6056c9ebe4140780bcbcdca0c7540fcc50a769eb75 0); [vm_compute; reflexivity|exact prime_375503554633724504423937478103159147573209].
Qed.
Lemma prime_26959946667150639794667015087019625940457807714424391721682722368061 : prime 0xffffffffffffffffffffffffffff16a2e0b8f03e13dd29455c5c2a3d.
Proof.
  apply (check_ok 0xffffffffffffffffffffffffffff16a2e0b8f03e13dd29455c5c2a3d (fun k => zmul k 0xffffffffffffffffffffffffffff16a2e0b8f03e13dd29455c5c2a3d) (fun k => zmul_ok k _) 0x80c63bd8a8b2da59fd7b637139afe83defb38e5bc128c6a53 1 0x1fcebd54 2
    [0; 0; 0; 0; 0; 0; 0x40000000; 0xd4baa4cf1822bc4; 0x766cd2a4357414d814cb49b6ea77cfc5ea8e013c0d2fbd5ef46adbfd; 0x2d397c4a1d7afd5ed17e2880203ac0916948b222fe4709517873a66; 0x1b72adbdacc32865945b07c0a64ed919392256c120ae2777f5281d261; 0xa7c327581cd2c1302bba56e192ba4e54b660843b1a294b7a9e5fe0be; 0xc64e1faf66acf83aba041de0d4e7a34ec492c79b9a02df07b0fc6691; 0x4319e62a28be57f5b44cbe6d3cd30feac727dec9bdda2f47dec5370; 0x1bc86012815acd5908d47b174a0a0104c6cae734c27d790e25dbdb8f; 0x14649bc647209cedb0452b4718251e339a60989704991e16dadac7cc2; 0x67b65b4495d9a928e4ffdd3d9fbc66c8192d35e737e7954871ee0ebb; 0x4947cc03ea1a1467d4cf2c0ef17c08b30e573665bfa863e225decc08; 0x265dc293acaa846fe789a65732d1335ae524c475546a6a82c061bb81; 0x905eef80dc337a4d8a1b51879fe9b31dd85a7add4a239abb3a88b29f; 0x2091f9c92f2a82c845807b696eb7987d3cbffc52884c3802130127e7; 0x3e553d5930cf0467f4b10132a6d037a7119800dc2a9db097b8d7b24; 0x42df0070a07fbf4b1a53c1bd74c9d3f855be8449cc520443c7917be9; 0x15d3dbcf3a0289950532610b546e4a9966cd433ac2dcb0e1810dacca2; 0xee66047d22f7b379b932f8dc4358c9a251db0e8922b9ce61aa68a66; 0x13c148a721e99009a2dacd1fe46edebf9bce5297fa1495ae4d1423603; 0x1caad945d995f04e6759c97efd43e65d46af33efccf11eb5550fd32f; 0xb9421b923ce36cbd86158d362183fbdcd4ad9bc960e4b660ca743a2]
    [0x51be8ac81d1d13f96b01606602b629cbdd3efe655519a6cc56d63b7c; 0x5a09a5b157482e8c306895853bcf7ed771d50edd87aeb61a66018b9; 0x6a354316ef7bff2e2c3e1c2cf6cf6adef2678975286bc522aa52e023; 0xdd18ab95fefd70c0b9d725b99062d21b9e13016e477f677a4f188fc7; 0x5bdf98e49d75d700d7104b6d6dceb758a8e338abd5a8c8084ced336c; 0x3e3ea012a0d7bf18a3cfde090ae3682b9797e2d8da244bf92dbcbc61; 0x4c2039ad49a0a6c35de8a387105c16d2dfeef629b8441731cf61bbe5; 0xd56043a3a5ed82ad0d0e7b992d31d26c95480ad9e81fcaa3e226f3; 0x48ee14ba45d15791438b02911c3fba51cd117def63b2a4dadfd504b8; 0x198f99a0d63ff4ac037cbddd851c1ee886974486e27daa47671b9d1; 0x5730d5e222cc40c231d062f5172dc0daba755c19c8c5822a0c9b1f7f; 0xb95b9d3bfdc860573d418d7a39ce7566a7b8da9352757367b0c4df0f; 0xe1de25c34068db992e3f91b73f117a4ed456cffad1d7df6642b5c1f7; 0xe80354e0b442f9ed3328b0440e77c274f147d74b17377b84cbacb1c0; 0xc94532b7649a0a8dd69ad23ed1b01cebfd3a532a13cec3fb42ff05ed; 0x39012cc16e735cb5e8418104f0fc226392bb2f4583ff21d980bf80dc; 0xf490e51a3eb5d1d6c138dc73c1475bdafdf422c673f8edf8db217f36; 0x568cd42e061a280489b450600153e7f417c5682961d0e7ae15336b39; 0xcaf538bf993cfdcebfac63b0fa02cd1daac7142cb1d3a39334c02502; 0x112b72b70ceb8280cb1d62dcae0238ad7a2f05e723d44130f01eb1da; 0xac0232550cabce5369e386e94067bb7721fa37149316e8a43e30f575; 0x1bb5080be4e7a1f056bd790546c93b1ecd1a7e0f74a8dd3ef3647910; 0xb49049ee552dd3747b4f0be70931c2fa4f3d39cac83c7f4d62ac433; 0x40787e8a97cc6a31d60507720a8d2d2db7240de8d2e61ca9e0a389d9; 0x171873fa4c2ad3bb522354c2153e0dbf5a77afcab275a2c2d20c880e; 0xd8487acdfe21f8827b86a22499a0f5bfb8cae3a67af1566bce30d171; 0x12dc03be0e9d3ca0495d65c20e12985ec1345efe9c666b58b05f35d2; 0x10027156253f11b36c308bead23dd60c5a113434ac51c8beb1054ab9; 0x475ff8157f3af34bc562e3285631bb78d09af354f812580626a0aa38; 0x317690233cbcb94a67ede37804c87f5b6b1c97c552743d9067a1fb19; 0xbe5ec0ba1c6d82b03b581c96ba289037845e224d97b4cdc09d9342a2; 0x4bb601debb8f0136cdcbaf20a6fe4da9430eeaa72b87993266d600e; 0x5a1687b2ff1b501c02e74dde3e8330cb49de903dd9c55e2398aa72b9; 0x7b28b1cfa73373135703dbd1caa512b929162dcf8a2f64a3152075d2; 0x3dc730671789e6fee8f3ffc9cb65ccd7f6fd869a79c9e2a85e61b8b8; 0x6a85df20b0335d64e0508a61cafd55276955c46eca6b57fe89b0fd85; 0x879794d89c1d126fa0e0671d1979f2cd88613a8817af9c79001cc; 0x13d42c21d91e5045d1327b5287b352c6934afebff463c5809d5708cb; 0x72a83e002b6a91713d87bf31178f1455b47a26021eb576440c6917e6; 0x3c83a9f3d2c5012d800a9640134392ac4611f33e64b59cbfdcc60c24; 0x5cc309d482f780ad8ca54136b99e5fffad2b817047d275d9b7890aa9; 0x3b4f9644411d0991392a914d8409771e0a45333b22d8f674d7eb71f7; 0x71f4e2e166d492fd25056a3a118207b7b839c543c3268f27cadcf280; 0x1cbb8cc0dff2b434bc7ba4c792af6b42ae1be9ab6216088ff262fe50; 0xe54285b092d87aab0d73e690fe0df48c57d9096e9b9ad7fdc16bb3b; 0x38904182aad12c484eef65279a31e7041343a7a1e8fdd48529b3cc92; 0x7cb235896470327f20b58973f10f79e525f1b575e2cf6d27b1cb0981; 0xccf62d7b4a6ec461ca1810738d66c913aa4bc4ef448ef7c0d37f0fef; 0x16ac58647212449c5c621b0865552c3c8be6ef54882391bfa31a9a63; 0x2b2e36df2f40aea7ecf3a2c28a18f217163c19005eb1ef873548bf83; 0x375147b1decfa2a958c5105412f973260186507ea9cf09d118019e; 0x3ed26999f1f9f3304d4a0f12c288c3d3e642f20f9322f5b9d89e5ff7; 0xff3bf54c1001f26d71e1ae5fd1cf570855e12a55eb8add7d97cb4e32; 0xaa1da266d90a9bf8751f393a9e4eec9e25e8769b778aa74ba9bf6f77; 0xee9d9ea518553cad03dfe4c4adb3bf7774346d591fc5f39a085d8def; 0x237e218cf41a964c45f18e4667ffff042f5bbe1e398e0c4494d7135b; 0x88ece3a2cde7741ce812c09bb2581cd871b1cca7a11dd1729d72a518; 0x13da642322b6f47418dd7a2903f680a87d08ff5c568aef12f2fff11a; 0x59726e35bb95ddae52c252d89544977c9f5fc5738a9589e1f6ad2cda; 0x5f4295627db6f1edc28f58ec35cd4012e536af75983a58c8df455f56; 0x789cdefcf899021ba6a4d34753953944e3a68625367a61f303284748; 0x627551d5566198d2ae8dff5275a1b897d91c7fa1be7f698416d426c6; 0x7581634b2b186ab46ff5fd8ceb28ae3f3bdb0332dbe569c3d515ab7f; 0x2aa9ef2f9b6b7a307afe50a039da0d3e508b8e7adc0dab4459f33144; 0x40e76d0cd1fbddd6050d9db838a2d6198485780d6ef660b2fad3bc1; 0x27f002c319749beb940f51eff7916a9267e523c08122361da0015368; 0x95284d20102c6754a118c24cc5ac47d639086e17c3b7c7820871f9fd; 0x58ec88721c3723a29a04f5c537795913a8cd260f67f762564b86edf; 0x89e6641246a36d8393c93186bd7a2e5f2085284805818a064628e004; 0xe9c13085bf3d20df6b7de469d230219fc77c8f8c551ac8e17f33bb81; 0xef13d52325721398f6d98f7adc4300e357f65d504f64fe4116fb9ed; 0x4050f0b05e559352e41668289b607e595b6dd857acdfb7d715138aa6; 0xe8237ffec0a8dd4be1790a14669e3d5feddc16c92a2e4812ab6852e; 0xe35b9569711c5d74231ed3712ee0f3b7c59d45469147042bc8e4600; 0x3a3f224e27951079eeeb6c7b7554296f24e0b835d5991b90eb3b9f6; 0x528dcf1b3480d4d56fe6554efad768ebc397b4708f932262cf4c0d98; 0x78a47d7c2cce28af0bd3d175c37aa7c65b8a0a84934fb66c1c23eb; 0x97655b5ba5b32c93b349c44c8d6a1d85e7a363b711f4934ec7fe3756; 0xb75e476dc439519d82b4ffb071194eb34efdfc861a90ca7295683b; 0x5c447908cd2c2e243639338b3af565ba810208d95ed4f9715b513136; 0x80dd28a625666437d85170361163585c68ed6fa074a422567a59fb88; 0x4e8c6f5ea407da64692e709ef8a799ca35fce7525cee4767de84330d; 0x1f51301f38b4c0e1a4da356cf524068a6b123c30a910058ccb2e2125; 0x176fd77467a10bac79689747d728d73a63945e2620b2df857130e6a0; 0xb3854b2f72f69237f7ed8f960e2c742ae967f9f6c9e0d7075af4cb2e; 0x70e92fea47c3cf028193472ebfc46d2ca306709984a33e1bb5410832; 0x294eaaa2148adaca271e25ece8ceecd4b6ef72ba6cdb18cdf2bb068b; 0x85fcd4bfe6b30fd8720c40762b4de782cb30caf70488067d2e8a47b3; 0xe6dd829b18b2b6acb8ccc1ed3ae1ccb4180391c55ede51ebced93218; 0x566ed1e33f7c9b9798d0b28b7e8bc36a8daa2bb4aafdc6d790b214f; 0xd5618530dd11c287e5824c912fc15369aea9017620782a0ee990c248; 0x49b55e4ae8c6fecdd06701cd52afee05660c5cd1b13d1773f3c5062; 0xf6c42f52d9d958289b3938b03f704daaa01b6020b1009d68f1d002bf; 0x222ebe65ce8a8c1e42d17c2182025b63c7855543171d993f986ebe96; 0xe3cf1ea4457ef1e3691356f8d48a03ffe94e8baccfb9d5ab3afcd9; 0x817a597cf09b61c6ca236e84ae32d5bfa374c8d01c8031c251b938ae; 0x496c9c06728926af34199de17cccb3d82a49db4bcc7f1e2d49daf1e9; 0x6aca15012185205bc323481ab6e5e4bdbe9855a2809b5b405a4f10dd; 0x2c9155d2a7583eab7f814fb4a57f1f2788605bec79362bcad5b611ce; 0x17ccc8014c67c8d0e3333606074db7d4e3beb4c3a18223490c025439; 0x24207f2451cede6f86268e97ed9cc72c50013b56e5e968c409fc9353; 0xb79c0bbb980c62bfbcdb997b26013799b81713c1224da71c01249bf; 0x89053f0ee1124a1d7630786e2d3188b97e5e4617b00dddbc68bd294; 0x436c787e0127701b76373c413931aaee1f6dd8d93309edd39dfa1a1e; 0x9e103905cf7879fcbd68e419db5aab2a56dfacf88633b7f1fb4d9a8; 0x1f83fafd549a930d51fe2a328620b77a405cd89b587a8ae867c079d1; 0x1330625395573beca02115224fbc7d7f56daf96e71ad6e27c1dd47e; 0x78137d175e883a253d96a695ea9e109335c2b4104308f55ccd2d25d7; 0x321b8dd47c7896ea3186c42f1f1b07b8d3f01432980c0886509a73a7; 0x48e3f5993ceacfd6830faae75e9827d834fdb888b89a553127c59126; 0xa68706719c15403b9df04754d1b91bd3c109272faf571196cfaeb4ee; 0x3fb6b0c8c93158470ba5c3288eddb503e5b7ddac236366ff89dd4838; 0x2614717a06663b7eccd6b9636e945134b4113b3c437f1b06cf1a3fbb; 0x37232b7207507f59c11b1b5c26a71c9a4e0be30387ba465b6439e687; 0x70bf98eb943d1bb8c7ea17f000f81da4dfd269aa56f12fa502bb57e1; 0x5464c43d5cdba8f3c1e052886cf1ab7bba7075d145c6960fd75343e4; 0x24e452c7c54775b2e84373179650d17249f5a5b08cb73ff963877d81; 0xd462c0f2255e04e54bbee96f068d0370af94cf626b23aa6cd8282b1f; 0x8a8154c254510372d748e62f2422acbf141885ab269e353613c6071c; 0x23c871cbfd74257973f4773d4e66d4639401f4517f7da8c480ced; 0x6fe238a476f41aeb49c1c20e661c02e8e40abd656633ac17e558f4f7; 0x62f708e29d509d60acbb717c7577747e4c2a18c26fd5ee809d399723; 0xc66840dd98892639a7231760ff3c24867ef1cd511d38b19cec540fe; 0x35e0d04d1826ea2a8a5b746b1106298ff889a75e424e9faeb1a2718e; 0x59b9c6d76bf7dc1065b4cf87e974ed25c8b9534d04601ea4b0970999; 0x6d17f5c4d5aa158ef6273e08b1dd0a8491315619f7de91bf0a4a35da; 0x960823feb0b1f385e50cc53249b7c0bb6fc600f3580f6d7ada20610; 0xca5ea517d414a7c22ae8abd66cfc9a855bf8043c86605a6c7bb7397; 0x223270f63babc879e7c016e9bc2b4fd97351794fce5796cb35316cac; 0x12af0578c91f8e842be7d96ad761ea4760ca2638141bff118e2fe63; 0xbf5c279a45315040989605c2931730f51f0169fabe486e0d3506265; 0x1cee597fcf0e8f5893e936485bf2b952d36fec365b2d9037c43ea3; 0x23b80264d2ce5b2f26d75f51b5194029bf88c992b48f8831db0b922c; 0x5289b9370f853578a0e596eb4514b4150baa54f97d6a603d378e00c0; 0x1264db9f7dc881b9391b9016c4b50e69f48ac56f9bfe8cbc9123eb48; 0x105b8f309cae613869d1781a97521dcf1501f903c982f0bd12a4b184; 0x35163f0c944331dfc8d6863c495abf8dfabef268fc2bc6443b9194b; 0x3e3100c42934ec460cf5c01e4139861c15f47d1d43ac370ac9717009; 0xd79b8154297d8f1dff567e57efeb396f61057a0eaf1c3a3def373846; 0xe34b093d1f56aba8486e8b0dbb75bb4c31692b8744b135ba97be6bf; 0xb2901b3d6a5f66cfc58974fd1b83efb8e5a2f582d1214540b077f89b; 0xee52c928187ae006dd37c5db26a7ca3edee982bd2a09b51bf917f11b; 0x7b6f21294628a5766c88ddf1937a0b74544d4b2ca4c2116082a5b841; 0xf8f2a9f05cac0b3afb15266fcb667b927922a55efd60c5c4ef15b93; 0x587fd1dc74386d711b18f03f663f2504f5e9176d34f48508be2c67d4; 0xcc4d65734933f855d463be84804ad3fceacc5f1793ea7e3e2a3a6e7; 0x69f9a393cca7ca3a984a68bcbd1584a2e4000e1adc146a85b6789309; 0x8aaac780137fd17a35625de8def00f7d1c0a4eb5e7fcb8e8fb05781; 0x231f0d05dbc395f09110b92b6fcffaa3f06f60a693e70db86a126592; 0x7f6d0f892621a56337157456cc8f161add5b0e4d0f4e558e9efa5499; 0x485b0742c406aa68ef1749f81ea3993e2c814b9115f50d5d76ecc71f; 0x916be5346adfb9dd0030eae799a01e47cef35fd4c8df8be895b7f7b2; 0x771aa7f09f875f86988a1b0189057999358400bef52b922c8e6d6bb1; 0x1ec8721971d9d98a5a8a4614cbde921c634636905955e3a3edc75dd2; 0xb455d33901228ad8b21d56295231c864e73728ea8e44690fe63ea9a5; 0xb57c843b37b76adce4a3c99555611bdf69852c1189a71b74f66d9662; 0x6675a948efddc9b24b275c3d67411ce213451104bac5d5ac00de62e5; 0x128be360d5b9242c5d4fa2e9535286405c0782c49349f2325a5ed16c; 0x6a11be21ab28443caff3b02a0b5a62406877b5e071202565b6b69739; 0xe6c8ef040f51638389df7a7c962446babce078c5b99cace76f18aff; 0x6403b708ac2ff499b767098bb51c82d0595777c286a0cfb947079ca4; 0x5abc5abdb83e2c7bf2a60cf23e120e37b4e413804c1eba16db5c2b00; 0x37d9dc03600e4fe9ecaff1fc3cedfdc9373ed9f35ab756938d6eeff1; 0xa6b65a21e3343fd50f44533d9f280db8eb4ea0bfab2c5bee2d5a51a1; 0x8d935be8687639e55495b2c9ab29d9034c15d72806c996a39557253d; 0xbb5ad4d160f5f9b3c76c83b6de20a6328b30858bb655415c4da85eab; 0x13e18386993d54bd0c654b7b27867c2299879edd0063423decf41d29; 0xce1c9289dc1b970487d359b5db9bc704c00e7f98b48ac05f0f4ceb0d; 0xb1a2fbddbc07b1540e646574a01b898cfe518e0ea3b8290ae851309; 0xac19c15d225b346ab4dbcf50c5e5a1ec6faf824767fb6cfc7a1dd1; 0x2451b366a7a3b876b96df34952552897291583ff0fa1e00244bfed31; 0xab26f26a6eae234485fa36a9a44dd54369358a726c826422445b14; 0x6f209ac9cd28f388f6c3b35eba38e2ba0f4d4a86f50a84728608f3ce; 0x797821c28acb09fc00ff498275898af532f977f190fac2db910ed93b; 0x7a05bdf542feae788bc5747e67a02f640cc8dd7765bbead63fc18b8b; 0x1fb128aceb30ba73b5110ce744de2a400f1bc61f051c3124019ef1e; 0x7efde75b6d86d3bc13dcb48db342c8accbefd90b6fe3375f0203c938; 0x3c14bde4f2d86354a5c0417102f2f1e6f5e5c5dd1642bc4662a8aaee; 0x1fb61bdf5bc5a7d7f2e6c75897237bd0bd3c22b9a03bcd1d8b5b4183; 0x3bc11894379041e457414892771a44d1748781a01668bed63a906d4f; 0x4ae8b7f12d2d15b3d98dcca1bfca340020c6e813348261e81fdd124f; 0x65e1a4308087d34009d12a83337c4c9a150fa2b8e503d0ede93466e8; 0xc2b70f64869fa896a2cc148c16d173ffe7d9e77060c824e5b8d34515; 0x2788f1a63641c09325280e3179ed948b773701be352677c36379ae1e; 0x910614aadc67bd683b152b59de8bbc9ab7fde8f22184dc3c99fd768f; 0x56b944c9d2b896820c478b300288f76c9837fdf7ce5998a1e9cde017; 0x8fa9434964adb2410246a2b537ff71fecb1d1fd710229352be2676d; 0xaa70bfd11ed6a47332d0c882ae2c5d2b9229959e947f702d1844cb69; 0x727595503d2ce2593e3cec8561ccec1f990321091abd125505f42041; 0x42bf7e6ca59a4411f768487e79400448409ac78aba18c9bb8d80449c; 0x7de187e46d55eaeaa7693ea245328f3fe1b66490ec1ff54786e45de5; 0x99d1cc79f8160ca76dbda8b4dd1b6c0a8990f19fe72a849814fa5842; 0x5fb51535d5d989377488af8853f32c6b6a3bd055e4948b067b4c6108; 0x8ef4068bb24d0bb7401186af60e25dba321985698f2f90f853cf2379; 0x5ed319cdddab7f7d5f8f427780ac29d068b4165c2189685d4a1af40a; 0x37c35845ac66e50c15fac3e7567217406c268c1667996801427e7620; 0x50466448f61f44441275fb521fc8db933a246be2661a89aa72aec7f; 0x3beaad05b3e7500ebc02653aac0105133b5cb5d174c0b257079b99c0; 0x3c9408869c3e0cb9873a8b6f1df8d5bb222a19e56be2d2f64aa313f6; 0x8549df696365d633027cd533be216dc93fef8cd09c3143da915fedd4; 0x851050b0de74a695240a5a7c6a4a47a07bb06e1f83281d9a61587b66; 0x3b3b732b5adbf42977550c9878289403f1b4e6ad93d77c928b866721; 0x672ef79e9327cb842e748d38f40c66866284737f9ea272c56efc0d8f; 0x8956feacf6e25f128c34be35fc9249a00c048b72b325e268b73bb9; 0x4d23755ebc791a69d8d04f5a2d1e3ae0f6c048419b4c7272ee64c9b7; 0x3021e2826f8e9f99463e8a90c4c210636871a3746214412641352f5c; 0x77bc2fb2a2c8ac92a85a17a0874e6e815cb5c589fe42094ce6aae71c; 0x82cbd9698165d2aaf38e58e0fe0c8b3d3a792cd9d6ce065292a4cc68; 0x73b3669bdc7ace5f86d439863e61458117460f20ad94d29abf24404b; 0x4e2b531c7abcdcd50d0fb6061fa065d7f35aa80501b8095dc19a39d5; 0x5395bb8a269dbf855f0a7c82c970fa55b57d7e7fec1455c4bde07573; 0x2744f5461bdcd579b1d85dfbd4b79dae4cb7e8eb1e8905ddbf4e8f0; 0x5aae33e00285a108609b9e598272a3e93bf193a0d94572adaa53774d; 0x61e05e5072f1eaf646fdd6d183c80e1394856a194088347e2d705f3; 0x360c0e54d7b7c6e2fc01619bd2f931903336c6093c24136b5e1be58d; 0x531bb5d709ad4238d9ec1e612347f06fa638b97d6c1d79a905a0eb93; 0xe27b5e9fc7431a481a70042324cff98542d8ac6510c55ed007dbca; 0x24646f38cc64ba01348e187a027ca94a63ec285bf07f7092441aa95e; 0x11e9c54a878421b33b9a0896f3c6f0ba4c5f8c4f873db64ba07db345; 0xc4c7a2f347da0180e06656c1bb8d3c776607efcc7ff55d4fa2637c18; 0x599fa5df4668a38eff83244a4a5ab40043e82240538ecfb240243d37; 0x76dc2bcaf77ce3faa421a2e8fd3ec875aa32f8e84aef53e3fab323d6; 0x17d03c1e311b6d250af57be48a601cb37457a867ea31de70827519b2; 0x4c93230cecfebb22e6640dab717eb210c73e57c008381ee94e34130e; 0x109b2ac9f798753ee7bca7b7a557650b5c0b5054bc8a564bfce5d060; 0x8173eabff17c00ae4d61185bc155815fa2d7bbbc20a23c9d954f18a3; 0x5ec4d5cea4d73317c3d45871a1442b5a29a416818d748747f9fe8225; 0x282ce8258ff50f0ed9b2914cdc8e7f33b0187024e9a120aec0dc6f6; 0x170d536e7f322dfe909a81953fa53e829dfecb223f505d4f50fb9f7d; 0xe494fa5ec7485ce215e624ec677ece0be9f177dddd8f7c5e00b77313; 0x23c198d2a2e95df3f4b4e47e0ec1c75fc68de106d538657af8969c01; 0x9ed0e407fb764209d30c2e54553dae755b0c4738668fdb3fe786b83; 0x614bf91c7b421607ab5d732f6ee2c5abf0cc9f6cfb16049a76477c77; 0xdd66ecf0f1f85c14f4e30567eb9d8d2a29f01e78e3950b88e9eacc56; 0x458da82460b0fdfd44ef11e0d5435c3d5dcc402cfdb7b39d09d3483c; 0x64e956ab55e0dec16e8cd2a552707fc43ed05efaaa3d23d24261a73; 0x14288912c0cb12009789187af6c4fefdd0453b71deee36905670d275; 0x216269c808674d2c164c9e2bd78052aa18342df64ddff514f80a3df8; 0x7a9bf530e2677b5258ea976c5d5078d329bc9df3afd5fb177a8fa112; 0x315c1fbd170bd9c3c0a9990fbc8a42417137017ba1350d8b7a100335; 0xb360ce244d717b2b13605bc65318e9d17314aa15ee9837a5e1ccdc; 0x3c04d968c17c25ce0bc70f41bef61c0340f10edfa2def830fb517cb8; 0x30b93477b4e744a7b857b754e3317c0785714146c536855e2249b012; 0x868931424a8d909785a3c4e346afb048d8eaf51c85b8e324a447ce96; 0x57f2ceb79b7bc9a65c9c289b882746c226982b259e1118f754b3b95; 0x29f94d4d90c1c4b3cbca4004e675a1bc9bcde7ef1a6d1ac32e5c15d; 0x53730d770a866f1a1a6191eb7545fee0bf70ff89523c347ab2770edf; 0x18ff36aaba0ee15999edef4758e194fe7222dac0d41d6fc157f44feb; 0x758d71e7a240ce2c523b4984711389480a6fd790843d3a2829a2c338; 0x741c34a2da4f8ca9ce702c1d5238b87a494a04c39a1949aabf3ccf7d; 0x336dbd42ab3bfcdf67bae93c21e5907de0ecc57f71e36173277b4354; 0x4118752c34a50cafa0d54bbfcb7fe2738227ec4fa9d24dc0b9489423; 0xa57165999ad25f81e2836edb2cd3386d5e497ea31e7089745e5484c; 0x52111c2578ab04de699e1defde4130868119c15d3752141b583a7947; 0x9c9ebefce9c2b03b2906df4a4b7c057dcecb1ea36d8e492025b3c739; 0x78498078231ba238e9f641e6e922cb3690b2d9fce225ab9eeaa0d1b; 0x223f3dcaec45b3aa996587e8392da5c2e6a02eebd0736662bd45d1a4; 0x9f002dc8e73d288dff5bc5baa0b0ae544ccc5cfc8e8288efa4242a9; 0x363a638e44e10acdca484a483dd31f8113c04f6402f664ca6b8e08a8; 0x17abb27ac64f806c2f24427d531e1a50dd32b7c8c1d362814664bc0e; 0x42a9790d8b6697761d9a6b4d7016dd44123971bc6e6434cbc07307b0; 0xea3470b08be8c7083d5bbced4352b7fec438314bed5f25c50cad8906; 0x3176e794a28455b6fed227c4a6464bd476ffd013c3aac9d6041e9fb; 0x9c5d9b105cfe8f361e8e94bcd85dd8004617613b7f2359e2fe29ed3; 0x5654e694810520efadd20d1479877e22d58e374bfc3adf9c8556920b; 0x3104b09c4a91f16d6c6aa2c911b34cff3e2e350ca1a23424a2993d6; 0x247135d7a7a6ba4107c22038eb4dbf4a6223c05aa7090e5b703cd409; 0x1b33a02a1c5ea392569191a20030f229db513f11fab70cf270b7c1f0; 0x83acc8cdbb45a3e3f1065e64c634b844f5ed20575ea942afc8f66eb2; 0xa5b7564a224ed5c02d73f97c4b573bc675b181876d68e184ba50b; 0x95ccbaf2afaf1c90ef494aae7ba555a288930b7a0485dcd2706c9dde; 0xa5b238db3562ac7fe96e64b1ac0fdf5cb5bd922fbe95dbe1061842; 0x2c254cc897d5eb620c905937395b19902525f03b9420e96af2345a8; 0x657f8a0db1ec500837d0e34314d630591d7fbba2e42b72367c000c05; 0x73d93d31559ae545ae6075530734cf0446e31dc856784fa3eb359fa4; 0x6a6df116fbd520ab08549645f28118c9b9d93009c4b3a50cf6e09a4f; 0x45bf60daaf5a6f0de931bd3b0ea93f370bc09b560e4cd7853c013f3; 0x27af64ecbb41e77f02d495207eea53c6b26d2c834a6b64c63513fc5a; 0x2eb665c9a0b0e100ea8993f4215995c2e03b1b4d7eb4c583a010ec60; 0x3d52f65c2024f0e021631a451eb494681f59778c3a8eb1b1f853e44; 0xc334a9310cbed3cb0b31b44ffc83f1a698dedd5811d9d0cc461c4bb; 0xaf31eaad48ee021a4dd2e2875222aaffd55ed5fe899a5045a96c9a63; 0x1dc22dbfb3ac38e69c0c819c33a5e252b63206eecd92bc3a519fdfc; 0x8e94a25ebd8d5c8302edccb891c56e7c01e62102d6f531951fe12cfb; 0xae31a85cb6187d08c8b213c6343fd400af8a1438884df037675f8a90; 0xe121394bf2755f4d1368d7e60501fa69247a2a8c78575440eb5f6d22; 0x843ffd0f1990d6f17919c806e2da44ae994dfaed6f94cd8ad0de440; 0x2e461c07b38f1f1b409065cbb91bb7fb7fe73fb1d33fb06819beb7b; 0xa9a66412877acd5f1795d6526b174e145b0375c46ce4b90e951c2e24; 0x3b4097d1f92fc49b5100a9d7a45f07a02bf96a92c993a7ca1a3d3add; 0x1d6180888bb9f2ea9665e65863daec1665dba7137091bb2d31a1abd6; 0x1bd33ba33704626b7fbb0a65bd2dba4db11b3de5d0738961b8f07f9f; 0xa1aa72bc56b5e612d32b905f528fc02822c28b035d8895602ba4e569; 0x677d98994fd634022f1ada85046fb645fda0fb138e9288c63d0a5496; 0x9fe2688913b3f14cd22f9943ea5c8b604757c21b18cbe097401c02ac; 0x1a2b46c579681563df319178fb7f0a2550ab3310c18063b6a225f636; 0x425e4d09a9e8d0d164fd98a6321d187d109958f2da3257016426f683; 0x1433e62e1014554b124b679866215adc630c3df65ec3c83eec18bcb8; 0xdb9f7ad9f8a2990d55695a2997331e159181617355a8e658c0ce1893; 0x5589bddd4469377e547677c82bfd3c341e16b6dd8a2da088f254fad5]
    0x507fe8f410f6181985fa2dd138092e0c8db69ca813240a0478811d5f 0x2d7d16254395ca4f88c285dc2bf5f07b0468e7846b7c34cbe6c2b2ee 0); [vm_compute; reflexivity|exact prime_50520606258875818707470860153287666700917696099933389351507].
Qed.
Lemma good : good_curve (cp secp224r1) (ca secp224r1) (cb secp224r1).
Proof. split; [exact prime_26959946667150639794667015087019630673557916260026308143510066298881|]. split; [reflexivity|]. vm_compute. discriminate. Qed.
Lemma order : ec_mul (cp secp224r1) (ca secp224r1) (cn secp224r1) (cg secp224r1) = None.
Proof.
  apply (order_ok 0xffffffffffffffffffffffffffffffff000000000000000000000001 (-3) 0xb4050a850c04b3abf54132565044b0b7d7bfd8ba270b39432355ffb4 mp mp_ok good (0xb70e0cbd6bb4bf7f321390b94a03c1d356c21122343280d6115c1d21, 0xbd376388b5f723fb4c22dfe6cd4375a05a07476444d5819985007e34)) with (l := [
Plus (0, 0, 0, 0);
Dbl (0x81894a5cd43e9f735cb032bfb02eac39918bf057099fd7957610f7ef, -0xc9327f6f1132c7c870d36742b1d8f9e6d089cbaf73e7a050fe257da8, 0x418ba6923adc14165e0bdba4ad6a21ad9082fec35452493d04d68739, 0x23be68e03562eed66d14eba0896aee2b4b947c0872a9e6333b311be6);
Dbl (0x4a65b9ce4f0552973990442c5291d9ab2b194231164487a7de9179d0, -0x83b7fa962c9cd7ace617c48fe7fbce3ff90846c6ec3a6c6d7646a909, 0x159ef7d76955426b8eee98e83b7fc383e06ce6af60d50c07827136b3, -0x1212812a9fd201e8e9e47b622a22153c3f3ca0c9efa5d65674b2fa74);
Minus (0, 0, 0, 0);
Dbl (0xa28be146d7e2ddc5031cd6da28344af7c32057e46c471f37289cdc4b, -0x15f8734996902c902e17c7dd72956c29adef8b91838c5328af1928c3a, 0x6735558c12672c21bbd652010c6c8070a9b0861bafc9d766d31902a7, 0x1a0fbe1547df5bd48dd175c89437172e9d82d35fcbb89202c1423598);
Dbl (0xe818f9c50b94e0343177f2ba83dddad4908adb11ae7a267b9f5f67bf, -0xc9000c6e48748d28df836780063ebc2967a6ac9e1347861cf135d0f1, 0xd26d4724eda0ea7b133f68d787ba20926176098eb25b37ab305a4f74, 0x6eb89cbe9a947a4f668a754196d13505a95eb0f7d3efdff4c0d57761);
Dbl (0xacbd40270e88ecf7e48b8a5071f6a1b84dadf39ad543dd39d35f3306, 0x441ae1d3c35657211ad1d6d0c925ec2a6a97942cc9134e2f3a4de2e0, 0x748eda1c454701d4e62a60db7b5421c8cb56dcd214c6137dc943efb6, -0x73c4d8b661352747a3d735c54f506cd23d485385a01f9c5d2efb5c03);
Dbl (0xcd257afe3df7b4ff71ef6e724b470e2030dec81eb6391809f2312f8f, -0x4af424abb76c41b77d967d7d1a0ffe62bc71ed4a50186fb1bb8503fb, 0xa4650c77f7d3f10a8d5f0587c72fd77ddbdfd0ab1db607a7e27e92db, -0x1b512028647aef74c0be58babe65210282daf29372f1590fbc83b9a1);
Plus (0xfea2d71cfeeca5a72432452fdf2c0810bdc74016e9fd65ade3d88872, 0x21dad275676d831554f1560c169adb6881b49c01ca5b2933aa77d7aa, 0xfd478a727f51f3b3933affc06dd6bed4cd4000e3db593bf785caadb9, 0x67ba10605f20da4366269e8ef7150fb403f5e2e9929a4ffc1e5ac5fa);
Dbl (0x1587fcaef443814efa8bd917a0029e9d6d39557a570b8d61ba4601f7, -0x20ac707adb96c4afef97ceadc0e1418fbc69685f0bbca5b2156b63631, 0x1cf97b12e019adf31cf36083eef3bd30a340903a1e012fa0235f88d, 0x98bc55c19aad264fe202dfcf418314f389548337824d5b6f889e0fd);
Dbl (0x278494b039cfcb2d72fae1ae884078caa665e603558b141885feb941, -0x5a44442b91c1b53a0371ec84bad10d03581222c6f3da437f4f2326ab, 0x619a9f75db52a592d992010895d0b746cc84e88f08401be9ac410f8, -0x1166251e086970d6d72f57d8853bbddd72cbccb7951a7285637210f9);
Dbl (0xe4cc02bdd94b471db085019a7aa3cc402aa90255afd2d2b1adb4f9b4, -0x1d94dcd47cfc6af32a07d8ad5e0d8341a20e07e4faa4cf0c29cefd0f8, 0xcc7c077689a7ead5f8726c21857a66e656f468f8b2790fceba3d7be6, 0x9903957b8c0377f1e837429fdfdcbcc1f65e2f1d50173827043ff087);
Plus (0x8c2f1c95f73948374ec52f6e06415153d804334ebf8bf9b79ac98e0e, -0x1270ba9a28028711f5b7da27c4c07c66c3561da736e01ccf1e2a2d1a, 0x4cc38fef88a893f341b058108c27c1f8ba5a560d651e6220f8270e66, -0x1d548295d9b74dd93d804f669838fd60c9d0a1276786d482c2800744);
Dbl (0x7d9b2126727405b8c6a90b55ba83db9a047fa189f66b1d460403c8f4, 0x7fed7e6ae55983fb122d9586389e6ecffc6acb84d98e1aed875a46f3, 0x3da0dc60b49ed55d76d88585c1936c1557b3e25351c781c9afce7157, -0x1d2ca60dda459ae46518e1d6d2408c3308e67beec76385c95062b35);
Dbl (0xb913015ad458f598ac309cc160546bcdcf42ce134ef47d5742090a2f, 0xa96322025eec557eba6cbb821a7eacd6c0216225a36a78367939310a, 0x85cc795e7a65ee0dce232826d71a84be662ee3ef3344f609dbd80564, -0x647e2e9f5c1ba6d3db8d5050e9f0acb3d7aa0bf05f8e3e7715610a0e);
Plus (0x39bce6dfc89b1ac71a0e7246e126f112ad07aeae8ec9c0b0ec9df72d, 0xc83869e110751370d087a134c9d418538f65c0339debee9a912fb14, 0xd05aa33903a95d1cd91d59d4b7da8cc427b44834471fe707ba6ef33, 0x116ad1a6bbeec71e424fc13a64b03893be314cf37af24dbabf7567ca);
Dbl (0x116d9d340fcbcc26818164a5caf52af1e5f6c5b53a0ff162ad42820c, -0x18dafbd983401c7ebf09c96cfd91f2015ccb390838eebece869ba5af0, 0x12fbdd028f76a9f5a292634f73393f7d70cdfebd0c50e3f5e5eb89e, -0x34b74711244884067863f8fae28048082241543cab71a1b17c1c343);
Dbl (0x19936f53daaed7f577ac5910083a7f2b52bae2783501e405ec631eee, -0x25fc0f69ffd0895aa2a6bbad4ad09c7156a8c6b5624e400debed17f55, 0x28e20a76b6d1e151cbc3f7ed0b0f7e6b9e990ca0ef1f9e5db976229, 0x2514e812a087a39b50e89b67fbdbcd4ef41276a1bae1912f5e4e543);
Plus (0xce941643e0ee7f6fa771173e3cecd8c25eb7a7a120d3d2b3b43337f1, 0x7f6c3e48c60994ff73f61cc3c7443da39aed309566da745f75863f68, 0xa6b2a97efe6ba5838af3be98b745b389aa19081104a950db0fcdb280, 0xf3e4097564ea0785ae4396a7e1600d0652ccd350f1f0785244e4a8d);
Dbl (0x9b169076f3896ad1f14cbd19a11b41926fde0f2d6b6f095f2b78b405, -0x10f690717acae2473e7b246bea672f9f074bf3c1037aeb40f7f1277ce, 0x5df454ed30e04c3898d139bc62585616a21b6448a2b5c5b62f8b9674, 0x1dc3c29d251ed28951f8c9f116a8af2611df8b7b297d025e09613454);
Dbl (0x326faf90af4e936921e9610e5de1b15774611edbd2c5a875a06ffe04, -0x13947f15c8a9086842ade7cb3585639034965d6ead48bf5a84dc88ec8, 0x9efd14e3c59d92c0466aa96e5b00c89d01ba473ef1fad1e8db0a214, 0xfefd08ad653056f4192a1926e8106fcf719d61e509603011fdfc9cb);
Dbl (0x6e073b1a082902ee0280b900fa853ce6f5dde29886cc937bb2d49e4, -0x509425fd7683f583b566cdd133e2b2b8961d852b8f9185116857dbb9, 0x2f4a36fea814b32b431ba6479d31a96a489403efb868b302167670, -0x1de17655f2a98488f9a20b6e68568f29796f3b2cb828179cb3df10);
Dbl (0x32ca7051b945a4b0493c601f1851e209688cf5afeba461e9f4299527, 0x1947b20e8121b60d38a601f46fe46364bdd3819f12ec4a174a27bb7, 0xa13b3f55e9f327077115b6ffdb57b2c5c65fba00b6310e605121267, -0x4eec323b982a486c1ec908b5c8f848aa5caf9932481319597e49643);
Dbl (0x24ac1b2a184f89432375a824e89c8c698dcf3266ee30b0c2381bc785, -0x6b5f5e0f70ee67d99a1207bf7c4cdfec4c2b8a566e6436be6ba7598b, 0x540db585a48f188178cf3595ec66ebbf0d1d7c63ff3b129fd1a3d93, 0x367adfeb6adaa76c3da9cc0f84d363b18c46bd1f83faeca2fc8bc5a);
Minus (0x1fb65a01a0a370cc4840fe2861a6ac2a0b69e736a1bbf06bd9929448, -0xaaca3aa1b07df8d13afeb4b8a6fbb9fa7a8626e5432aae2da8d0762, 0x3edabb07edd22ab6d59b3b59c703a5b2eae2b5714a5a9778527b214, 0x7cd5328f7049beca67004f87a2da5d77357758b3181f43d2b1e4563);
Dbl (0x8d87a42559634dc78dbaa130cedc42f539fc67d17b57aa29a21d9247, 0x6d9e09acbe76dbb6a057185d8f16f090c682e91b7ff2e407a46147c1, 0x4e3eb2afad1b8a640c296c45dc56f8739761ab4ae0e239bdfeda5da3, -0x41d1277ff85b3f37c1a188271c2ad7531fc1f0f96a1a5496d829e332);
Dbl (0xb787438a3d6b21c9ba31fe72f8613d95cf406c99e7a99133cc1bc099, -0x1a5c8befd89e798836e2ab6b930ac3c53417463943430649cda540dcb, 0x8392aa07f16d981864e21a650b469896a0f607f61fae033caead0576, 0x2f57b1db1b8fac5b60c4fa22f8c14d3fd97176216af0c2978afdd065);
Dbl (0xae1c2225c713e65141775057985af1dbc608890a8cb29f60ab9bc46, -0xd968a78dea36dfded0274b132c8041574832e4f1b333c92c522cbfdc, 0x766a4182d770a7e546829dcf9726c48150b384ea5a89f9d9456439, 0x37e68853112ade642ea0c34ab40251861f72530f183533d45d1f7d8);
Minus (0xff98b4d66741f3b93330d6667f9602f0abb79c7ce504125f61994b0a, -0x3448b53e57d621b05e48d4e819c13180e05cfec4c8621e8e30579649, 0xff31935a600e36a1ea8e21d9c2515b454e9518a29944c7b4cdc7911f, 0x435d5ae1890a2543eec983cef50e50c0e9d507b83f1f8043ceadf7e3);
Dbl (0x42bf624237162003e8c5c39cf572395866c0af77abe00a0b9d2f76c8, -0x1f0471bad173198221cdab34b085aad209f9592af9302455e4ef3a08, 0x11673dbde8ec5ed32da153dd7534252904bb4ea13c15a3c706380a75, -0x1211d01262fd593794970254bbcffe9c495fbdfabed21d43ee7d4897);
Dbl (0x208fb438661e80875c9069062489c46d68ee1827e8ac23e241c0e0b, -0xbefcd9366fa41dfe6f820a8e82f224ae9e28a50cf837d2661aaa41d4, 0x4243db8ef69123d29306b08aee242c3367627f6e38bcdd845843a, -0x4b34d19ac64a7121e6234141f1bb04387b04a005e3e0f5c7781f3c);
Plus (0x15b5463ea24772695733e6384738bbb9c84a1d10d6d09bd700439169, 0xaf6aa5143686caf87693e53927ee56452ade6a54bc87eb0b158506a, 0x1d73de2ae7781df254f5a9d623c5a674439c0a217753f48e9a88b8a, -0xa5a5947bb72186ec7b02aeb95a8cd03c7ea275af8c14dd37e73cd7c);
Dbl (0xa2403269d58cbb63f878901dd6387ff66224edf13f8733085c0bee32, -0x7139b62a20e2f4750ad6dff527f287667291e8fd868dbbc1e6a2c700, 0x66d54fe7311e66b4113d14f0973816158aa386bdd8fc4d43c7ac85a6, 0x40794c2b228e6815e87ed999bae075abec6a770cf25dbb20f2cb9db7);
Dbl (0xd6410e5f309a0c14ad61c099542d6b895a9f810a010908c82e2a53f3, 0xfbab64064938ca6e073f4c555181f6ae9feee2d8ec5030faee00a6d1, 0xb350d48f7266c722a940d52dd0ad999e52d8659b74fd540ea90bda7d, 0x296815f17684295b58e1f5b21aa589a4355d0472418d87bfbe786226);
Dbl (0xa383b8d4da062032ce8304cf0b0deed9efa97d741b447cf1357a2d84, 0xa8b4bf1699a69e851e1b292e51014419e868839bd4e0834eb10d9e7b, 0x68710125bced99a84916fe3502083545a49c01b7dedbf3770dc44456, -0x7839faa81e251d07e3b19f0ade8f243d17dfc920cbe4cc261044d50f);
Minus (0x772b0bfa25ec1734e8c70982c653f3c7f7adc04f7a906b1140c5f708, 0x49bae564e7972d00efa9582ae2e45d6d110ec4e9d01db44cbba7cd83, 0x37790c5f95d9ae935ce9357c9cd1c1cb1681c36281b65d33ed295a45, -0x3612faf1e38cf4cd16ddc54025a2a356f77ee29c2d4b8f50c0f44c14);
Dbl (0x7a2053a3809ffba272e0ad447a79d5ffec8b0cf0f9c8d128ff756349, -0x1c8f7e8e7164eaf2179b21fecef5025b215fb9c98e913423f6990cca5, 0x3a42d3ccdacc11aa87a104498e551fc280d361dd7f0eb323b04b7201, 0x5466ab89b7986ef95082e2df711bc42f6241c23ecbcaa11c28f13e68);
Dbl (0xd1581c7db5d411f8e18cd2f2647b901642b5b9128301c249ffb8f2ab, 0x5693160e32948b737fb43d45437a3c6b32e68be3da3feec95915195b, 0xab30fcd8dc7d04a6319090bb94cb905bdabe0bf3ec61ff4a93d6e30d, -0x97e3426b230f30cddb714b1228f0de9fb9366c7929a5c1feedf94de2);
Dbl (0xf2a5f5e5b99147647de8b0c29e0e9548a65fe5fa60ca9d3d90599519, -0x1a6587c8f319d632b2c6f6c805d60916a7d02bac43f9199ebf5139a51, 0xe5fe307d392963959ca99a8da40de61c92b15574dac6ced2c38298cf, 0xb22bb7bfb8c5de5f07b4c995085cec590dd4c0eb859059e17dae9f8f);
Minus (0x216511ad7d96aa976325d5c0e7b6a181e47b2d6219fa527eb194d75f, -0x11dccd86f6c4ffcf4197a5bb7d40c8db75823df255d3002341b6443e, 0x45b3675ae7e711ea0eb24019f62fd879d4f553aa7dbbbf44e918371, -0x43264c3f720ef57f78456eef9f5df5d41a1b0ef550cecedb2499b19);
Dbl (0xa1a424f7d7bb2b75fbfb13f1abf51f655a7f422ce569b9522fb8da19, 0x70ee7196840d41e7df7c213be9369b1163f04a6ac64cd62e032b2cc1, 0x660fdfbf203c7918bb4fa12b1709cd9a95b7a7f075d60ed57426de6b, 0x3b7aef9e5cdc7ceb60e26d2dd6e3f0da4011e40415ca63af1c19d0f);
Dbl (0xada7c713a7d498cf45883bcc687de80b6456870d88310fd45cfa0d3e, 0x4f45117b206508d7379c89918de8b23273ca4b605d8a747849b89347, 0x75cc3105e749de565f8ed55a4854dcbae2cfb2cb463f90d0510d86af, -0x356bcff58a924ecb4f4a82c3ee733b58756cbe52f7b723e8d7dd026e);
Minus (0x9631747a482119ed9d615637b94d037a5d95fa4eedf130ddee482aa0, -0x387674af688ed1b32407296b43678176ef3bd22dbf8efc72fe2b7784, 0x581dfe0d185572d534c30043dfcd757ad799ee2d31307cdc78f95deb, 0x48eb15ae2e4c6b7a9ac0e1ba9b5656fa083a57dede8ab657960898ce);
Dbl (0x31f56a900e6dd5e8b3926c0a673960d9038b3f14fc439132599b51d4, -0x565b159b94491065d4477348de6eda9805333a27e7a8093d96bdaca0, 0x9bfde10499d4721b5ab50a35c29b0eee48606bb1b6801ab63b9751e, -0x94d2da06226670ae060239deb731a90cc8e40f76b96d31b63a354e8);
Dbl (0x4879fac0b8c0a9946f67cc5f6af5e22ad8ab71da23310b12b7a399a9, -0xde1681de6e88618a74748af260839041630a36d077729a9e5a94a525, 0x1484d72b67b7ff71be858016e45bfa546eac65899698b870230ef15a, -0x1bf6c9ec8824014e4d44ff550a50365c0a27184763c33559bf1564fc);
Minus (0x6e49c9d5ebf2935af6066ba9925496039d343a91214d11f716ef4cd6, 0x4b2ba48b42c89b7099e5c1dd94bdbf7a0362eca6d3bb66b8b7f600ff, 0x2f837eb891e6a63f9bd3204688b019c954d81367b5d493b58b717d32, 0xee76624f373f88b59bad6352ad99dd9b0743099cd799e924d78a72e);
Dbl (0xb9cc92df609609fc81d0d3e50c0fb60930203e9ee87d025961c10a1e, -0x1d05c96688c856c43ad19ec690c7260f32db1e71675661b25c2900734, 0x86d94fc141de56a36b49007c31a4d2c5795f8d2c45164f531a2580bc, 0x945970b49814797bf62cbaf9840c0aae35948780023bb500eeeb5de);
Dbl (0xabd44d3097137e8701406f93caded8146d6ef20cfbc207b41e502dfd, -0x2608111f784bc9cd8793b0b182730be845859d66d7308b77a898844b3, 0x73554f2ed994876ca5dad1e8c323d4d669f9d271809b190919699a07, 0x7f9f98aa6d326872190932b06d94b6b78e904f203bf7d66bcc2b1e17);
Plus (0xa5903ea2353bfdb0b47508c5177e5295adcd4386e8cb860eb6adf4a4, -0x4caa57a949a544320517827d0face9324258daf8ae951f67933e3a7e, 0x6b1342039e6e3113a94a711f17f437a0cb6bf34d1829c9135f17fd38, 0x346f456f6a04b3a082442cb036bf22320765936f408f1c487c746817);
Dbl (0x2f3eacab1c074fef48a3749216a5c8d31b82212ee152c6177ac30907, 0x38680376bbd8df24d40a8b2ebbcd6c4988a8d9004e2b78f226aa337b, 0x8b812beeba2a2ecdcd320f29a052a91c71cd2a36a6d8ca9fec13d7f, -0x1cdbd6acce0dcf92a382628b31d9cb238645d3c528892bc0f5de9257);
Dbl (0x53ddd90e90e1d60ee40c9ed52b5be7c80a02f2e8981ed18ff320f27, -0x1bef7ea9a09470a4552a4155f84dadea1c02a2a2ec55c91f39caaa6fb, 0x1b799affed22492c452d6d1186892ece67e9241c17b61b2dad69d8, 0x273599c94018cd969012d55213bfca8b6ca21c3125582d9061c9c35);
Dbl (0x862509c66c097ae4e09c93bbda8ab7539cfd9d0617b1ec2fe3b7b0e1, 0xe8624e6e347a628864677fad84aa17a15a3582164b3945a4d0366fa, 0x464acb978cd4b4c9183309ccce48fa5798aa21500d8eca2a467ebb1b, -0x423351b48c6f0eca7046de5d35f5689cd427c7ff0c3c90d266bc8a8f);
Plus (0xfb04e0463c221116ae0a4c728e1a0285178691a0d8bd4a5ecc49ed7c, 0x7b1d6b385242afcb33fc233a954aed26f0ce32e93cb901ec77fec8aa, 0xf6228fe18097ab1390a6a7bf6664ccc70057c2988b34dd2efe962b14, -0x553c61bff9c077f9c7fa1865a60f8c49e74a9bd577f8f635df76f0bf);
Dbl (0x689ae91f514ed5e5225d6753f473c6d4913a24e92bd83052710a4c13, -0x1bb576a2199bc1a470082909862d8f0f00f8a766a692e08470368bfc3, 0x2abe3b26c007e679cfdf1e02ea6d2abc11f907d1d687740c3804ac81, 0x3c24ee454f5070ebd704ec055b86febc12773ef2284a4dfd36112e83);
Dbl (0x8ace03633ad99515b60ecda6d2c406985940e2325bffd9f7ae60dc94, 0xccf37d37112e2a1988cd4e04d9c419220809918ccdeb18a0fee45113, 0x4b42c1706f30c4bf02881715e81b249b9c0e24f2a29a5113c107f077, -0x35fa79d260bd87725e70d60453476a67bcb755673a0d92aa24bec969);
Plus (0xcc252218a7950f37293147e21e23f73bf4f9c770217ebed215be087a, -0x72eb9fc9a8c74a3249b35e035dad51c56bddaaea65b591b93a82205, 0xa2cb33ba2ac09039c149c4bca69754b20dbc99bb0497ffbdb3a7b530, 0x582fb2fc3ac7568dbe551bc49b98ee7440b960dfeac7635525804d8);
Dbl (0xa9788c56d214dfefc0293f7d7a1b85c9655e8fb7607f1d0a3fc1dc07, -0x10f8cacb2c63c3045f66ffc38dab8b73e2c8c4b03986f6d525ce21796, 0x7030620e7fb3967523d58cda829ffa39eb77b757c3180f060e3bc6a4, 0x30e118d415a2bc2c2da68b8a49bbeb40338967f3c5a767fa928e10e5);
Dbl (0x70ed4133e1a7712b0fc029185049a9cccd4e43c328f61b8516d3cdaf, 0x411a0735422e2b5ac5c024b5b345c5ee1e33e91d507a6f42f2b23894, 0x31d074ef301db627ee9a055bc29935857ae451af061e242b9c69f620, -0x34181b930e0762ada772ff59095e83c0fb1191994d0610d799f132bb);
Dbl (0xbafdcd0b7d8b8d7783b630f6f5f751e6804ae115c99396173dc95a67, -0xa2c42e0eea6ca2bd429e451a5b7d29e1d919aa7bd6db50da923c91ca, 0x8895c9939f6056fcd1c03ab466371b8f5a8088ceae445a3526018fc7, 0x3f4c8b60db3413b68f9b5f906ddbca9da5bafc37607d170b0628bb2b);
Plus (0x1dca737f631dfe42d8269f724d6efaad8028d50f2d65bfd4a494b7dc, -0x52d9026f7bd007ba7c8f56ef46c2a20407ef69f483242ee0b7e5801, 0x3777e455598e960d70867c3fa5bcb5ccc3f34c898c640437105d895, 0x2190507dbfb7f8509091c5b2558f8499d3521eb2fa29963156ffb4c);
Dbl (0xf81099be911b7a4a5daa2e3e96ea0b23ea5867b627b37e47473a849e, -0x5c774fe875498dc5015bc9e28e0691abe049f8caca5e96f233e457e1, 0xf0602af4cd4cb7adedfbfcb2c451494cd486a71e80486959b5ef135c, -0x1f4b6f2d3fb12f5128734cf8f3c7740d458a9a748978503d50b1f17b);
Dbl (0x87118f2044dc22bed372cfeade4d86e93c148d278d6c6cc5a4db7441, 0x11b81024a33c5456d033e968cbeaf5ad7bd3ca629d702bfdf64726ef, 0x474386285aee62e118babc3991ab53db8dca38062860d8c9e64c8bfa, 0x3829bc032e8f5f34900b42e269d379d5d2f8328b59e4437af5b1d345);
Plus (0x415a6828c7b8df009b7f17951ac7c6e482691d7c61c590a987383a7b, -0x19afeab8e4f23a8abba73e603f895f05852bddc07786742ac8663552, 0x10af08d21c797800562afe126c31f816231dedc658aa6d8c3d386b1e, -0xa2436ecb1aa32625223d2ab65b5002e69107797637167fa1ee00706);
Dbl (0xee8020743b6d7fa6e5232d8431f7af8a3e3f6a513cb6f3f0db4adfe8, 0x6ce5116b14b45e1957f423bf2d13df173613f35a0a17c26566c5cad0, 0xde327c7896d84a7b41e39c04a5c1297738032787f6756d79663ac6fb, -0x17e489d5f4c32f4c6336352c40889ef096fb866d0d8cbd121bc9cb53);
Dbl (0x723e2a0b587adb73d02601032de5e5a6eb2d664d4bfd8f93d70ccee1, 0x6684e09ad3352c76ac63b5447f506951770dedf240946dada878bffa, 0x32fb6c8a7f34007e7aa03965339ffcaa521a34d5af924e8a5d88779f, -0x2391c784463020b8e9a9ced499eb2bba934c0da02cad2010d1742f25);
Dbl (0x723bf0abcad4cf2aec2afa44c47437ce85041dd16d817864e9ad9d09, -0x6ae5cb42a0c9e5d312ae79c46d391897b0f728d66ed878120eac7c97, 0x32f97061d21796315590e8b434c6c2c11729939c1f5a1a26f8a9dbd6, 0xf5821fac6cd4828e843adf7ffffcd18ccd7a26a5af9167cdb9cf6be);
Plus (0x6a0a3ebea464f04f2d5e47cb793c41980afcb7f764acbf48a2015ecc, -0x1cbd549ddd867f6a2cc54eff45a511b702338cf680524057c20ac080, 0x2bec7c5ed669547dab8e2a0530954afaf341a972fe91d03fbe85c216, 0x3c0a8067ed0c7cfba11e6147bb5ee3ded3fe067c17f789e163aa3f77);
Dbl (0xdfe03f55f290f4d8308d14afe8d435c9a7f212d9b952f6d77a33519e, 0x8fbb47a2b76cec54ada0c5a4041d622c12d90f6a6a903ab952a507e8, 0xc3c872c6a2ac727b718621617285a7700779a66e905ec71c993fb262, -0x4e758053f4ebcba86a5c2d3b97384c7f2c2c165ac61ebd0daa1c19ba);
Dbl (0xa16bff82ea489ad4890dcb44e261a2a28cf5be5a5c1c5ededd0056c8, -0x1bc0b9bf6223abb5c1d6d54720e080326841267af7664524f46b98aed, 0x65c904f241253d202ea763bd3d086dd7618218b4d28a8c07a75ca0a8, 0x4a75acb8948c6d13375a6a3f40028ff32efffeef62a01877c1dc1c9a);
Minus (0x65a9f51cf647a6c380d1666a884248910b54c63e9d806d183c70c9c2, 0x12e6aee9855d40f6903daac231f963d349309a90b848da10456b4ce2, 0x285f8c3e654226dc6391c72beca88a3bb5d41ef3c2b45b10cd3face6, -0x143973e4e1c01c7bde2cbf5ccb72c163923d54e033cd1c0915006f99);
Dbl (0x1f3ea9b202b7125e0fbad472e37dba01a5e82e9fc346de053b8b3422, -0x4c6e7175c7d8dd58ee7025dbffcc164e7c0fb83ffec566f2a8d3e235, 0x3d03c6fbf5e2a7d2a3bf8ba03188946391279cbdbd522a2db7212f7, 0x3a08ce9a4bec424cd0dbc34de3f4bfdb45476bfba5e14c3079baaff);
Dbl (0x402c3775708fbc63ca006c740e3f3c79e678308a20932edf3a2bd4d3, 0x4f4a84c443290db0154709739fced49c68c64903353bcfe48a22f8e6, 0x1016235dd4aa3bd87f20cfed74e0472330255ecf57291fbbc1876455, 0x4fa59aa34b11e2d336d8cfdca8987ec34b327a78b06d3f97b3f0982);
Dbl (0x3f7974043969a8e9cee8cc5cbf6d3c076a4ed0e79ac30ee27e2881fb, 0x5426d8fda8e0485cc31e1e9ffbc7e0f9cbe789cb732c64bfd73edfa3, 0xfbd00b8f4d41b1e5a1d904c63c24444376fc7a1dc18d851f2513954, -0x1d24ad7f954b2a46b57de78edaab06faaf2e6a367e77c31b4049223e);
Minus (0xd4878c94e647787d27f666b12f187b70d0715a7abd5595e82998a1c2, 0x35a7a543b5da48778d1a153fe23fc69532327ed29b49f3932781f35c, 0xb070c89c2fa471699bc0f4d66c093e815a05ff77878800d49972d90b, -0x74c7f8f560bd93eaecb9846af7f0b13f1af040b406e8155d710276e7);
Dbl (0x3e2d1d2901c2771b2bfbfee5df2ecd8c1f425201426ff3e13ef26b0b, -0xc9b53f82fd036966efdfae67deb6ba8aa184689c2378e42250dd6c76, 0xf19e21320972106a824ed611653c3e8fee54f47e0291ddcc10d9b72, -0xc92c7d04ac1c3ba1aabd064eeca2b2e78a8b0d525ef933a26286f13);
Dbl (0x28826be3e3eb976df43cb62bc8b03d327465fa7fa511881d7c7cb693, -0x1a4080a904b9af4d2a6f06cf2271815ea7092f912605e8a2e2c5c47b8, 0x6690428f82565fd174f251cf3b78968cba56094f1abf88c1f8dbce7, 0x1cfc1ae021eac059569857e00a48f251ccb1c3fa9137edb0615158fc);
Dbl (0xfbbddbb8640c80f411cfa47b21a9b1e8601422acd99cc3b4961830d, 0x3b38b7b115b065c8ba1fbd139b47549f21115924a7c71354cc7c651, 0xf78dd9a9bf093f52610433d0357a728146c8295c4ec4c5c96f7150, -0xd4e3c2fe4b82d627ab1b0dc6ea094622943830c00609abfb5feaa3);
Dbl (0xf914b76d948a2ad51584d44d378e08a27fb5402f8a915ea5485a18c5, 0x11c747d4e8dce3e7d1cbc6247149a87b667331c661728bf23dd7260ee, 0xf2594e805781d62e923cec10328d8f475975543b47746cbc2664627a, -0x3edce2624dfa05846c37e1fcf2463e215d7eaccb84ab2e5065a83103);
Dbl (0x7bd65d9c1e45240f3a42613bb39a2d1b28508d294dca09724fe69bc9, -0x5d07c7cb7737dbaca94291242aaecbf058aae24c4ab7b60fbfae2f20, 0x3be7b174a853d9720f7c7a6d30e38e399b627ca06ece662721a34d61, -0x497c1d3aff55f94c72728290b9ac957177ccb8a301fb3360e42fd69b);
Plus (0x55502722b16203b03337663ce2d2417f47a3a87096f0098c15f42dfb, 0x4740acc9098befc418ec19b5c7854b6369fb9d27877f38e11cd0f49b, 0x1c6e531585758a74c634258d4a5284741c717c2ac35e554b7fdafe6f, -0x16688166d71164672f8b4a501ca77d87c507134924e1960a533328b3);
Dbl (0x8a1defcee8f8b84a5daa79b2c18caf674da90ad48ed296e52aed29c3, -0x2ce8a783483adc2a20cc9b69190613a7d5859b339f0ad3b03f7946035, 0x4a844a0b48b0ed461a3c3613b7489b2eb67ded4a776125034c8190bc, 0x15f35a6223372674845f5919a97644558db8e2f30020014de8ce7261);
Dbl (0x8bbe5a466678c92cf2595d34573f2c45658cb48c280a769230a8ca3e, -0x1de82e8509501d068a05f356381448503002232f473b4227b5d23d9c0, 0x4c484392939cd92a8e6ae0259831e85320583ec223879f14d25918a8, 0x40f05f95c8b7a1b3f70435de7a62a26d874dae78b33e6ff0db896584);
Plus (0xc815999a181f326b9672e2c6eb9af2907b1d5660aefd936aa84a5c3d, -0xa3948f601698109d0a41d7bb87c1e52fc950c313bc11a16b428d900, 0x9c61c1d35522417cb2cd51b7c6418db50a348d3af1786de6d2ca0d15, -0x422cf722a047f270abdd38949b485aa2770ab301c98148d5498f5e2f);
Dbl (0xa763f894ebb622f36082b9035a9985f08403b20f6498043d88b09d30, -0x2a2224a2ffb5554987e16cab695d25c40d2f923702073cea35d97aa9, 0x6d73955c8016cfcad77f0ca2e06b917655887c8bd6f450cbd8d37c27, -0x55f4c4f42f058ee82774a590df1f5e821f788397174ed1cb85445510);
Dbl (0x5134f65c25c743943f8b28206769d9b3479ae923e3ea29020c8e9a5f, -0x22805369e8c183cd2f7473779d2b9db4bd7b8057b7b9c4965d0821dac, 0x19c28edb526cab7d671c913ce86e0fdbe0533847bcc82fe7a8088045, 0x3775187309fa73a37521183e3ec0d22737f9c1724756feb4596ba753);
Dbl (0xde389cb460fd9a088156fcc977874591d6f679045e6d1109cad54f9b, 0xcda9b7c01578925d1f9487d5a48424cd1bf53f7d28d1271f151a0ae7, 0xc0e63c4dc70e9b67c1259cd41c5b0c40d352035df1e808714da3b35c, -0x55a0d23e20abcdb5d7976a9c1ea7fcc230bdbe69145bf4e06c5a51c8);
Dbl (0xb70ad228d0a4fb2ceb938827d72ca5bf830c4231449c6dff87e7782d, 0x37e8d482f82179a9d5d60989ac15e7cbc05c1952a3f654f5a50493fe, 0x82e078eb720328ce6200073309093e0a1245988a004b76bb0159a9f2, 0x24d935fc98ece94275f5311dd6efcfb0e33cd4bd1705583f24dcb646);
Dbl (0x8edebe9bf33cafce6f6a29f011835d11cb618dd0008035c62e287b53, 0x952ea206b856c89568b26b442d02199f2fb84b8e6d646d1803ede73a, 0x4fbbdd44263d0c5875329828599ee5f5b9e87c30142678ddf6f50757, -0x55371874ee17e4750a9141e0053c5d2f4b147d2446583cddf0edd6a3);
Minus (0x6fd5dcf97b078beb64072efac8595230d1ebca8d01c78529070d4f76, 0x878dcc9d1200100af852883aaf424d56f77a27a398522371c379877, 0x30db2849ce95047a7ebdb333bb3f1cb6b6afbcd688152d38bbdccd62, 0x61740c9bf591b2deeff960fdabf2df837bee8fa2948af01d5fb47479);
Dbl (0xf161d376fa5474e82690180f0c36356360f852952a1cdf73922efee2, -0x1fca773756b73a6ab542aa222a05d2dd3326e01b19212a1c59e5bee41, 0xe3995587f22a1010a3e40c45fdf240a0c1f9a11a0d9c7bdc7c458961, 0x159fe4b6c843d37b146290d04a5e39575673a6219e17a299c114863);
Dbl (0x579c82c00539d560f043f16979fbcbb881fbb108d558e22dec91d397, -0x22fe041c355404202a077fbac76c2c7fb488aab409b1714eb9f69b568, 0x1dfbc08e205b42da8504d5b7d0f727a847b66944ee257b6d24fe987a, -0x27262a9d6900708ed7667fd43f53f6f25ccb95e33646506749edf4f);
Dbl (0x2d1cd54db9a03accdbe4a1f82d3b183ac742bf237f8c0139be166be3, -0x2be1cb912625c2e984bf63317f163e9ed44428a710ee53624db2310c2, 0x7f3263cadfd5e36b4f3b9610ea5dd777cfa1b33895f1cbabef658ff, 0x33a0432d9d551e85bd7772d13791e62b42c5fe89e489959249e5bff);
Dbl (0xb17c4c669d44c21dcb62febcefe4eafbc16342d45deab803e2e285b5, -0x22c873adb405aaeddb8c424c974780c2f8ff15d016aa349865a233f77, 0x7b0d1dffffae858bc6c5b5392362c4782904e6860b9ce6a48523e92d, -0xa873edf5b1c9d860262aaf8b0d9021042aaba8e26f38699c0fd951d);
Dbl (0xf548c4f42ff6a8b84b1815956f89708e48d02fad0598b6f5f9f5ab04, -0x284e8d7da4314a92cd3f42b9e8aabf209d904be8cbe7bd2edbeb1f81d, 0xeb045daac4afec0cd0eea8c48f7757d9a3e558573f436d822dd1d69a, 0x57342f2a98ead39aad603f79bc405776af5ebf83276b44c9b600386);
Plus (0xa8119f9fa395c9bffbe2d7740e802fc13a0227fffe70bf809a1e1f00, 0x247e24369419248adaa6a181dda07e6757f472d253e406696c10a63b, 0x6e5722b81d700371734e5cd68f1915d242e97b0f6f7f89a1f8c23190, 0x19b4e46fbad6e444ea4a5be298152d2880ec1acefeb400500e2b7bdb);
Dbl (0x16c68b574519dfca31e7ed2a54c6d5c2d20859d0bb4a11991ddc4ffc, -0x29048d36546a5be83e14be43e2ae8afecb930a4ee5a3200ca35de3589, 0x206b9eed6b73947109bb266634322efb1a8484283082e2ed6881411, 0x10073b4448defdc473525efcabfb493afd8944808fca3eb69e055027);
Dbl (0x4276a6752c795550a12ed39f86e908305c743931606029520176aedd, -0x2cbd602925afd968797561c799d7cbb504fb6951225760e6d3e7546, 0x114164d24b2fbb2742b737dae1eff545339886b48959023936b6ab21, -0x1fa86c0fde75e0b48b746b81a62886ed9061b56cdd3d7fccfc624864);
Dbl (0x740ee0c2158e8b124178e0aff0ac18d511466ea4d066e253a33ad599, -0xd94e5ae0214678e25c17a99e234b9c0efdec502d7910c87414b44881, 0x349d7c8d3e17c27de29021465c4e04869e4633f42418e4689e433874, 0x46612ce73e719be05f595b53073bc18719ba594e41478c9bd6229a54);
Dbl (0x6ebc5a1263a23752e8e952333d745c9335ca9ac4c38adb16ac52d393, 0xa254363b17659ea8f7082662eb84789157b33dee61f767e45c4db9c6, 0x2fe667fc3852ad2cba6b8a55c3b5d0af14e03ad4a5f84d5621d622de, -0x23833956750855e5ed389d0bea9d85af6f60f6d1c6496b6844f4ca13);
Dbl (0x4017ba08a33dc82c300c54a261333a925d9e0c261ce4e36baff163c0, -0x66c33a7e2a61cb0c5dbd78bf8f70c76c4bdeae0166d232c89dc64c50, 0x100bdf37465cc6b072cb40ee984c003d38210fe6b8f08cd42e2b5233, 0x2c9168d08cb4448276754375434e220d9d0d35900fefb80b8da36bf);
Dbl (0x8c66e1ffcb69e270ac6594bf18ae4527c8728d9499bcec78ed40aa6f, -0x1c47c637696f9a1674b460ec24312929636ba8a0f62d1d7ae397a296, 0x4d00b088a5d58b32acf4c00fc73e2bce2a3241e14cfbf98691ea9ecc, -0x1d30aa5c82968090b0d544742078f8d5c8355a34188e31bedcbeb977);
Minus (0x960a8cf3fe524a2cd2c483cc20ed1f8370eb9d944e076ff68a12a2ff, 0x57fa37f37822f7253a5ab33c68ce3d730af7b4f0c09cdb98e416283d, 0x57f05d9d3eb41411207fff112034da1ef08cd673d3d6f61c6703d580, -0x257e77ea14a5e25a7b2633135e38483e28360b798d1e486ce30697b8);
Dbl (0x307289485a4a9aef3b1511e4f5e95d0ad6ae3e1b773300f6bd1f8103, -0xc8320e792aa9251f13e6762f97551f17fa05050ef13ce7a850f96b68, 0x92b26b9afeae9a276dc43f5bac152211df57ac35e9e0bfd66002450, 0x110bb5d1afd3425c4e6f202add3bf10b7777a69cf81ea7f2cfab9ad9);
Dbl (0x7f078f39080b21202f667c1258926723bf586d4dc45fb9bf5ab97bcc, 0x6fbed21d0c470a385db49a926e34c4f6d75891dbbc579cc152ff7fa0, 0x3f088053bb3a3f2ac301ae8c7725a44a78c1de55b14e9b11c6c4779e, -0x4b62b563c32301e616174c2397f50312afcfd6887c6926e73933f4b9);
Dbl (0xa12a20f046bfaa6d7554835b4c2358bb966d3d6ab53a0af9a863eb57, -0x1520b781187c19923662cbf6ac9f4dca6466b82a3dddb0b19d7867689, 0x6576045d0c113e763f071838abfb6a005cc076e5783f4b9a7471da19, 0x1ff913af8263ae056fe24bbaa7a7553a29dfb9e9fec9337403f7dbb9);
Dbl (0xf22d41927c6c167be19f3b0799d025dedc67239a87076365b1d8416, -0x12bed75cd5e29d4eeac17a3cf9435d980d73d98cc52ed2571f775bb41, 0xe51997f91187cf83294bcee05224f1d1d2392e86ae605ca9e82066, -0x1a0879e4118dbba34d39cde877c76f11cdc94749c4b3ddeaf6ab684);
Plus (0xd9ea188fc570687f63e0639fedbdf55683600f565bdae55f9a42f6c, 0x25809e1ca5e0b6843d034564464a3084f5b0b59d5e57c38f204cb27, 0xb97eb3b4a5e8c86a3fa7d256929e70a6fefa85fc1bedb15a65b952, -0x7f1b31a58a93f337ae76bbe837276396bf6e3cc34f96c8e053ef2d);
Dbl (0x90f59523885ef245f25e4ef82196727e52e5c4e017e8262970c37333, -0x1834719cbc59832f4e87b8269703134dcc0e77e5a268447b077bb3257, 0x5215335ec65037f7832cb13d7c9a7c38610f5d1fe6a2a503687754b7, 0x18bbd5f3073a7e455c67eeab9f91771369fcea90a6d81d85abbbdd52);
Dbl (0x33ec1d01978a8f125fdef8c7fad4769badf08de211f5a09d96655758, -0xb1e80c8695840847471ee0a3e8928459d3d71a574cbcac83a6bed719, 0xa87ed542099f8d10947a1dddfa04dadb419622eaac9fb2f704dcc82, 0x1d7a210b90634fd4faa81a950db4a8039a183ba5cbdfafa16d089bd0);
Dbl (0x716909b43603d8563a66d60a34675137dd031cce6dc94e0df4d5719, 0x319d4923d3f6e2b0ed8b7434da8f5c6a92362289670588ba975c1, 0x323de5aa0de1decbdc4e9a011bc648cb3e22b003da65a2b7299339, -0x6287fc4ae6b6874a23cf40158b8fe83c11e313ff5f54a3173503fae);
Minus (0x3a80c38ebb500a3fa0b7a61d48f628851b1323fc17a469595e17fbca, 0x24225174b556b2eac15134e9bd2397cb9b3e0fdba184b5398981dcd4, 0xd5e9960d0fe559f59ea4458d21f2dfe48b76c48abc7ac2aa8647299, 0xc022340d324ec4b746f32a33b2b8d639e293cdc887e9657134e6de5);
Dbl (0x68903bdd9159e6d53d66af9d4836ed41b9af91e2af871f87b4c0432b, -0x21b15bcb40ad4b16a891d301b7530c6acd2a8a434e7ecfb3d8dcdb9e3, 0x2ab581e76d5c7174a9ee4fbe93d273b2820a5e58e95d1bf1930783ac, 0x32033313b3fa3af994ae265ec08a077ae9c335758decbf0698a420f0);
Dbl (0x6c7fac7a1b7a3ff1562ccfb0a7d621ee3cfd95a0d081261c0cb14f7, -0x7937e31d52bcf82a751bd7e3cfc303ebf6e3d8424f78f41c9542da74, 0x2dfbf9339c8ab8698b8d916362dacb7134e42fef6094c3bab4f6f9, 0x190358124ee315d003448c1e7eff7df4447a34326e7827717b44a05);
Dbl (0x3bb4471fffd536d649eb027faf9f7a07fbb7edef3e2dde0ca0006d6f, 0x43dce705ad198fb0c9936b8b93c1cd1d8a07852539da7287041592ab, 0xdec97bcd8aecf041d22df5bd4683375ad2534d6fbc608bc7da01689, 0x580742fef64a92bd660b6672f2f3c20b6d2b2da46ecf94157dfcde1);
Minus (0xe630d08a41cc54c2ad24cfe6f09bd39e2d2932b45fea788a2b3fbf90, 0x50ba210ba636df90bdf5574f009cd72d4260f1effb8cef587d64065, 0xcefbc0074bf4ca84a31034c17abaa092aae7ee85d7d2d96ef50b9659, -0x23b40ab1fe37ff76d333c5da2c6e932929c881bdeecee4667f61a991);
Dbl (0x785f31f51d9758833e128c6fb6402f3d9de9b25800118dab8ec159b1, 0xc7629aee4238e9d9d4d18348cbca553a29ac53bf38f6fe79b53a8d01, 0x3899623be96999545296c1ec2486ed2cc6f8beaefe08315a016cfc1b, -0xd6a29d512e88a0c86abd6f812221a3f2fd2681e6954c67553534dfc);
Dbl (0x95de49d2af9731e798454388e38ee8c95e95bd63b326ce5746e9ef04, 0x1ebdf1394bfe9df9c09481d5c0ba4611e441143d77a6b883698446cf, 0x57bc82f35f185fdaebe0bd125794b30cd2560f5fcff4a6122d42febf, 0x14e55ca6c2581814e1c32492846ab36889048aa655158770c3a8d4f3);
Plus (0xb345a7befa739b29bfa1ff76fa1560ddca71963f4589aaf002fb8359, -0x64e807a3b6f45e0a1ca6c015d44399215c42f5a35d9672dee2f71c24, 0x7d8a7b88ed1b6689938ea1d437774b3cfc59154829a703120981fb14, -0x1c95d7423e9c53995adbcada8bfd79b6f1741aa9669dc807b8e45236);
Dbl (0x1a10124b26ac00cf36a5bca1936ac039b56ccae4e69a059ecc10e15e, 0x1545939c0607138a2772d12e3967f1bb163f8afb1f4b00f0aca1c8e0, 0x2a744b98e8e6d2a0fbd9ff05472a63a02dff78db7cb570f787bfa8b, -0x373092ab692455fdef8e22198b0ead12b0b73c5d610165b2b8690d2);
Dbl (0x6abc603ed8149cae56cc7c26a334c22855de26953b2673f658c3f7e8, 0xac771c15e31a8230b7adff0900a45f2bea11ba303295bdd031e713e0, 0x2c808a518b6da18355d242c0cdac155d4a2f568e9f215c70fcab5bac, -0x481a764a404126d0d99dbde71403d84f60c45f6236c30be2a608f699);
Dbl (0x5a629be81e74e47c77fdacd74b31643c6b77eaecdaff8938f6b1e6ee, -0x1a6afe6c39de34458c0d85b829dd7fcfdd48ef5fd2964e97998878ded, 0x1fe97b9af214697f37d6b19369a46c38dd3b651069b726bae1eba100, 0x24476cdbe7f69890f764c088ec48252761fe4e233abaa8c1a003f6ce);
Dbl (0xa7acb85c3682a56afa2f13b4de1222a29cc47984a64df5d65bc5e406, -0x39bb166c2b7e047f91cf1ed0d11d602a844b34fe0110468dfce8aca1, 0x6dd2cd108fcc62f2e175a7f58005421df3f5161295894f7704130543, 0x9a1024f774b03e5614f5ce873af7804902519fde28de9e1cf8ad883);
Dbl (0xd6db2d30d974997fe4c0fe06de73d607516826011b24b870b3d83211, 0x8731928bf06ae2b65f9c4c1025467f08f89e865dcb7e7e3036bf0994, 0xb4532b34051d33e5b5ab729e07188dae9483f8cfd6d2c3077cfe8ea1, 0x2063a215a849efafa8d89b34ff3ffd0aab940c4a234c5deb9304ed4f);
Minus (0xab600b4a79cedd06a06c5c5f8a745aaa8f102b5c2ddba5aec4d1634f, 0x65df8864a2f5441b22bb1abc985626a032f04b5d20e4995b2694d56, 0x72b9731df715328f0bd4a263b259f464549127e5c14b588f1987db8d, -0x47014225d743cbe68dbf80628aff181d2081e04312d482345445ba6f);
Dbl (0xb616bf84fe8b2d21808cef23cce02d47c74091533fec2272cbd2c7e9, 0x3ed20e793b3074d1d026bbb57126bf12dc09791e45696e588fe54c0b, 0x81845a5694115d028e817dd765120eb6d04d04b1392dbae29b84bba6, -0x19cad0a04f4d44dd80330246c309ef11f287d49ebb3dfcdd12da16a6);
Dbl (0x6c84db2f362a905d0cbd8ee9166eb2b38c9f2d7282dc368105925dcf, 0x1b72eaa9eaf2068074db3c48d6fda572bacc969c9f35179305d2441a, 0x2e005de29a0d951524cb4601fcbac58c5548f0f77684fb7ad83d3763, 0x3584eaf02e3ec0817409270b4d0325743732f64c6bc4b059ae51242);
Dbl (0xab2786ef6dd91f01fca85191ff2f9be7b6a78b2cfb8b1707da8ca7e7, 0xe20a7d8977939fa06178e163d07c5499d9754d3840d76bdfc935d5eb, 0x726dd45e40d30e81b1246f052359a68f2665f4e4f19e83c0c17dbbbe, -0x533321164f7b193fd20e2f682afb313c0e0d7fcd39ea5a8e090c3653);
Minus (0xfbc57c62c01f969ceb453c448fab518f915e034043bf8ac414d2d38c, 0x3754535d36b480c61a13c898e5be8d8056d9ba091f0012b97139e604, 0xf79cda425129722bc522969d9a28b8582324373218281eae488dad49, -0x17397761cf700ce9470b93c3a646b1474d36eab32b08b505c824d3f6);
Dbl (0xc2ee0e110d78496bee11517d5e15ac38b6da1b5692aeea69ed1ad739, -0xbacf1d95ff8de398e9129026553b30db014d86618bf022fb12b4fe14, 0x946daab000e5398c0c37e60eeb56000d8229882771bf6c95c9a17f2d, 0x91c8b99102c38578955bd96ce52eaaba341bd164666654147716fe63);
Dbl (0xbd70469da106946a22278898f88b7618e61daf021c765bd0c6652532, 0x16409713381b61bafa2f5ba0c6986a3e2bc838138f58a4ab572477a97, 0x8c2ef9829d2b320513d19dfdb202d11e986c35ced1530cddeec4200f, -0x735d55921c25e9ce04439f8e84e9d35e6ccd22d4777d37e0c1e0d8ce);
Plus (0xb3343df3df87096a11daf608e877d98e857f58be644d8db3bbedcdc4, -0xbd222925c31ae2c0d25316f9d2ff8fb4380b8cd6f73a773329cc56d, 0x7d72194c44a7c6dea0146a8660f84d67d182866e8643fe36dd14fd9d, 0x74979920b149fa2bd74c1e3bdc03fcfcb33d45b9a7c630ee2abb15ab);
Dbl (0xa2c424232b435bda34993e0a39fa79beab0157a7f627c10be8e41496, -0x10284e4f2a1e5060813b1e80300e75772627d06c641d0c63d6aadeb90, 0x677cd403ddb568649e42ac35ef3b7f2aeb5754d1c4aaba8d2cad4d35, -0xfb99b6c3de4b65be414495bf2b5edd2d2ef6d0afbaf679952b6c8be);
Dbl (0x71eec0f3991a519243b534b287250f86a646882ec7cc69350e6ae639, -0x1413a5beb27619aebaea23fe085d8e5b9c8d5e8b56e3c6a0aa46a522c, 0x32b4a50263883666499e96e570f212782940b681134f63b63e7361e0, 0x405ea56fe24566a4074c2ddfe8adefc9c39cb381d0445bd0469e7c43);
Dbl (0x7fbb9dd149aeeb60334c21acd16d1af9dafc37d088c4d8862205ec49, -0x261bf98e7b1a1770603c37a021b2e42f4e6de7a420a5f3dbe7227846, 0x3fbbb0159827928f42f606637a52143df6d53e5e612be98951471589, -0x1ef85973e087130b5984a1b95e98cbceb92c8e468fc129dc6ab6b5d0);
Plus (0xca7e575aecfa0a328480b0d79747bd666e395a30faff32869aecbfe1, 0x48a46e1bdaf9834014c325a819b18a72c10c9d4f074656c662cc79f0, 0xa02ba035994acb9730f0fe5c01050fa6d0ca0e5b491abb226a05fdff, -0x5d1016c4d061f039f29a1c1888c2e90c43d99ffc85bbdf6cb7369de7);
Dbl (0x88653d2f5db047e2570c5e997c1bcee2f0ad43363c70bed95c987f67, 0x1fd978108f5abdd0d5a7692451e00ac90de23d224f1add423547ce47, 0x48abb90ba98ad4e2c05ba47af33f5d67bd64447c80ac6efebc7d6877, 0x288795c2237085cbde5f789c66c89f2b77bf7e94a680377555fec488);
Dbl (0xbfc50f79ddcf5af383cc9cdf8571f9bb575814bb4a289426745b75f2, 0xfa69643b4b6fa4c4e87566e4efd207444ae1d1498d440fa514632f87, 0x8fa7a4c8ab7a4cdb145059a032a07d0eedce265ee2c230746203e025, -0xae09f0739b94eeebbd8cdf8f96430091f8bc7e0425bfdd6bcb4e147);
Plus (0x840936d4093bf5d4b2e4318cb71dc9732a00b04e9bef5094a0d2c4df, -0x2d0f68e5a4a6ef49df6c3e482b2844e1b0ae2b2cc4972acf8d155e2b, 0x441980df902c9f3f38ca1039584455f3555d6ef61ddfcfa63f79dca2, -0x177e0153168789ccc0cefcc3247da4713d7993f02c246acb7f5b5af0);
Dbl (0xc689d019e7867a4cde24b40b2472dec151256632e7b841844a149b4f, 0x6f79c90da34d637ba0ecf5ad62ae008c4af70ca7d23db4e624c392a6, 0x99f978187707edf75e4b4d23f3d81f16106c7af8dfa5c11d1b6fba8d, -0x8618e71dbdc535152fffe381957f3c870345354d0b4644c4771d6e5f);
Dbl (0x4299721f45dfffb606ee44da785c1097422b746248ab82479211403a, -0x267f4d00da608a930a303aae86e7f090824921374a905c8e1c5a88a35, 0x11537ad1bc48e3a70237b46874833e2b4af6331594f0700a713ef4cb, 0x38bc6c21c04e4c4a9d132d9dec977627df6440e67ae73cd33e5ecd20);
Minus (0xc032c11b42049f75a9e2834804bb405a8f89be8a299d87cdfce8bf06, -0x7dbc34d90953489c488a4f948da98c256d60dc8ced6d4d39c185f1cd, 0x904c2bb8e356d570bf3990aeb98e7be2370ffd5d4ec118e4141b9971, -0x29801d166ebbc2cedc3e476e010230da1d071607d3b20dac239a3eae);
Dbl (0xa8374ec12de744dbced7ff758412da32b430efd4ee8e8b41f5dd9a10, 0x4c0a2821c6ec3b8b1b5e2f26e3ca12249f26534de07613631a0dc808, 0x6e88a3507b7b8d7f42d544b6211f0666011f02b653e8aef3dc2b5a92, -0x3048fcb18fedf229df407663ed29dbe1c3aa6b96442f09fc230c4f3a);
Dbl (0x30e211698daf0c34d0d4f549b3b2e93a760d9d7a7c5d4ffed9d1115f, -0x46da6404f546121e874e464be60831973dde56e6fca994833fb327df, 0x9558e2a54aefdfc2331e6302f9e7780ef2440f2f14a27208804dfe1, -0x130e7ae9007c6aa039f69b7f7dd7f5baf86cdeea8be509a56928c065);
Minus (0xf668d3c75b887dcef5f3b31fc23e87fcd6caccb23fc63f1de43ed9a0, -0x2f9da53b6da165e19b4d5749e0370ac7497d55095ce3594a079eeb12, 0xed2da1efe516ecd2672945abb9d92d840c109c094567dbb333326825, 0xae70ebf3144d365cecb16c7ea5d0663d06643834e1c6e1391c28fae5);
Dbl (0x2e3ad7353a6871de3c1be40cc6042cc1aef84c73b25d75e100658c56, -0x155a88dd220199df063ea73bdacd186dfe6b986d5ae575c6e2b12f97d, 0x85932dd5a06736c22232fc9140087daedd03d8437d89d9f480b8ede, 0xc668a9e8817fabdc86612e831b772ae51f283911a142873c24ce779);
Dbl (0x15de73dcf45939577a0d27e7e1b30239c25da13f94813fb6d3d992b3, -0x87f29cefdb95bade1df29133029c2da6230886ce92d39950526bb977, 0x1de404f67beb064d9d731c685fdbf9de7f986968c66991cbfa8622c, 0x5fdff9af99e5cc2cb28dec996c2d7982b4e7bba3c6359593d24836b);
Plus (0xef8bda5d069a1171fc1177ea4f0abf9207e0bbcf03ce3d6435afe989, -0x8664991703b0b0ec886a511a7f3123bfa4d51b3f5b635674a0dbaa11, 0xe0266e208d9b68edf842bc88f318831962ab7ae67c8f8415c15f6ab1, -0x2c8c853188d0130b46b129421245d6dfdb7513f4f0f1e63667ba14f4);
Dbl (0xb64520dc764d22124de70d099cbca66432fd9fd6d40db9b09882ff83, 0x5c1509e4f536a43360db2201f904518dc04f0a87d0613ac3e6a10006, 0x81c65d6433454d753864daacbdc845005a10e695ccc661852aed521e, -0x548ce81e8cb65143e8593a769c887607b8853b576e2cd4223c0d5272);
Dbl (0x43d34200690a25071a2d459550d95ae22d32f9d27cb09258e58defba, -0xf90aca3b37ab944993e9fb1a7060cef16898c140acde8b0aa2596b9c, 0x11f842e214acac442799d552f1b845efcc94e2321c774620a3b9fe32, -0x4e27d534e6da8c8ae7f5fdb23586482537d569e74a1d13c4d6c4205);
Dbl (0xfcc45c52c63b67f67c0d097bacf307e3f55edbf1d6e110848e4ebb4e, -0x15284d6520688b23159e0fd0d5670ca922ac723fc61e60bc1276cea95, 0xf9932c60765018e2bfef544d36c3e10a246895fabb0a512630148021, 0xb43598589914a75fde2be039ac656b7b0a8c0eea008b1a24447533a3);
Minus (0xe3ef1c6565106963139416c5c7fe01967ef7bbb14d7c3548a367f566, -0x2ea2a88a360350bb533cac7d20470e055171862225c511bd791e4e26, 0xcaf1ebb1d9b425cef99df790a304d7ca8f231ab8cfdd8dcd9fe07470, -0x5c3613a65288cf4499998d0949dbd9164290eb9aed7812c2774502f4);
Dbl (0xfd46dba75ae939ce8cf19ad1c1c85d02db0bbc1e2be16210207499ba, 0xcfb2141040dc1698f9c1c83fdcb42fb74b3f028ab120932ae79d754c, 0xfa9521c5a5ae76c0a50441e407faf2b52719b1dcb7affc09b4f4d480, -0x1d89ff3cfd53c3d36bb880e254a777c1d1573fc0d16128db187b6330);
Dbl (0x5566afc4adec6001e43dbcea322f933827e062ca2f1c9b2529621d4b, 0x2d6440e34dbab4159ca5b20c5cfa33e965975c0875096abf94eae505, 0x1c7d59e924e80d01b671cd9bacbebb41552252621c97d14720952a8d, 0x689c6e94e6586786a3c16d4e26d5b14390f0a3a7d51f37695d8f9f7);
Dbl (0x4d4f85a043bd8caa4b1f98144a8ec0fb65ae45c7a0aa44797a417974, 0x1ec98a93716c4c824e6b34ec2fde889b9cad2564c9ac018e9f1d1db3, 0x1758ef162769c052f550e9e2f0f33cbb8bf77bd343a86bd2861b36a3, -0x1560effef44e14a82f777fbb11410ab765741dbdef2564fd5644eb40);
Dbl (0xf60adef2ecc2ea0b9f7b059b32f1e744a4e5dc81554aa2a8d8f2981d, 0xf9bcb77826f1711f50643aab7d87fb911156c8e8745df5aab0d02234, 0xec78e4f10c2b522f28cf7ee295fa72056c87500c1f66992dcd356d02, -0x13f2b4b2804d22fa94dd2c97bc95a2658725e85811fd9fe7d6fefe89);
Dbl (0x510d5e1018c94a406944b8719ea58a89bb33b089e30a3501bba7d9ff, -0x624d01e67ab302720d529cc456d64f955e739598210db883bddb926e, 0x19a97638dfe1b8a53b3f1f400464dac032fd2a15874cb8a021b79f76, -0x1332efa3eeb1348139ed1ffcb85fb04b75ee2d85b5b8a3ea41eaf222);
Dbl (0xce4c12ccf0a4fcb30826e5920083769de4724fab3891a0e6d668bc45, 0x4b4baaa50e8bd1393cb9365d772fe5d15392c816d1c11b84992b094e, 0xa63e84dcfe59de8dc81d1f2e2be69f415c7f7701a9b189d5f46cecb8, 0x42eff5092796eccf792694f0a2b71cb633f7090ad724fdb0622ba15a);
Dbl (0xf92d0c7cf1e8d8088f0b69246d8fe4c38e18fd9e10a6d656cdac02a1, 0x51876623ada3b68a7874d895f81cd0ce8fb0aa0010a8a95415f8c6ea, 0xf288aa38731ff3c5abb0ccc7dbfee77d14ee7bcc7eced7e329fb2066, -0xa64fe52d3b61bae055a33929c1cfcafd93f79c5e2d195adacf7d0e83);
Dbl (0x2fe1ff443a0e772d46a840728e1f4bdf3031a39028848467c83d1205, -0x2d4313e16ab89c26b0446468bf8b8b07e383783d6b35397d3e2563eb8, 0x8f4c33dc1c85b07d3ce0d0dd7c6dc2a803ff92a7c5f6198ad93db5e, 0x111b39a264ee0ea5a0ee82f0019cf5cb66ae92fd193014336119d2a0);
Dbl (0x5c8269097158ff5b88338c5022833e91157c1b347f2f77b16e29e1ea, -0x123065e6e733bab217dbbc5778a559e25379a8fd086525adbf558cad0, 0x216dfdeda227d5414ec61bbd52cd9b960efa3a01c218e468103aaaec, -0x1f96f930ffeb58f6c13f98cae4dc2a2acdff7d642cb282e7ed2d4c0f);
Dbl (0xf219b2f52dde973306a8159344313fde778599ab719ff7bff0fad7e1, -0x1d0acb862d6e836cfacc14025b713c37c8e9fb388eb7f22236e1c3f67, 0xe4f498ebfbb5a9f05f15753da58e64361d725df02c904ca9557dded2, 0xbf59012e3e9774b46e3f360034dce18511c05ef10ee1b8b8db739bb1);
Dbl (0x321adc24876a4a69353088cde553f32652dbdbeffd52c276c6647299, 0x2be2519898c5416377b3b5d55b1e7904a4ace7aee5c7525fa7f5d2da, 0x9ce80cfb99fd49d4390caeb4309f6905dd04fde9b043d144f08f0e6, -0x13539e3e57511fec2655b109e25bc0823917ea9326e220fe6cca5951);
Dbl (0xdcb4a6938465c1795709ad0bd2ac531f5159aaddcefa64930571b3d7, 0x223870aa6687ed52d2b28c3abb7830e7b2274cd7dba9a156430ce9dc, 0xbe46fdc83764b855e879ad3989f958d59c168387f9756997f375bea0, 0x67c84548e6a0383e00cc000270b435f07b772096c5060b9f3b064db2);
Dbl (0xe32c539125b7665e2dc04931b67803feab8390c7b5ce4e9cfefa001b, 0xb5f933643f165bf4438b5bb6dc9fb63ea695132c657cf87910c41c9c, 0xc997a3e03e0fa756e1344b3c92c6e4263361ae621ab1ee96e6b05942, 0xa167858bdfe04c69b22aa355afeeeb5c7ba84c11ad039d9080b47ac);
Dbl (0xa4fe2c00e4d3e880c5dcbc9f6426e6a9eb6f592534eae3ee4925d40f, 0xd188c14add709277d5cf6d0b77fe890ead7c62c676845ff70b9e8798, 0x6a56a4bc7e85e5100181dd44dd54606a9d264962f4523a977fa22510, -0x6a7870636f2caefb754b80f9c6fec8a3cb114b2382b73144f13914ad);
Dbl (0xd1363b9b4eed75f71766e658910ed2d3447adc73581c48129fd47461, -0x14a3d1e3d6b5fc9c582af43c752b8ca50312281a4ebc057427e23232, 0xaaf998d0ca45fb6558b631abc31efb61c0ae7e2a8750926174ba9870, 0x12d724070af03dea6a890cb58acc57a371948d79fe5ef90744eab8be);
Dbl (0x778faeee6eaf8534180b2ae0ce540b1877db8a6fb36eb651e0df32b1, -0x65969795904942842d85af7efad4e427d4bc065eba4d225faedd04ca, 0x37d6e54690cfd275d5d70ab2f1379a6271f8365a9420f346af9b1d63, 0x4245f644c4eff4e77b16845d6355a2477951c4f1cc8ab070332e5c00);
Dbl (0x46dbdcf9a98689dcf3b185fba89c699f28d458765e86a32582fff1e1, 0x55066c5a1081022171c4d1fd5e4714ac5731e6dd3ee660a6282b050b, 0x139cf9ac5a9bae6f2a3ce26661b4ef00f4a324d110931e7d3fde07fa, -0xcd685962120c3f550180f8bc30698131b2d21285332fbfd6be9ffd5);
Dbl (0x6ecb4abd020a7d7239b8e5d3b65ee34d3bbff1adb777cbdd3cdf1b4d, 0xa888b24296c9f5ce3e07bb367ca7ec8d75508903c3b4be81994745a4, 0x2ff355aa0b54112b30c9df2a61aaab3c78d259db52f7a9d014bd72de, 0x19c2e0ec3057a2cf66904983c07103519a35a5b5812c9c45209a039c);
Dbl (0x1153666eee6e3337d675f84e3fe77bfe8cf2c4ce0dcf6359e8f32361, 0x17b18fd02b1a7292209f59b9ccb44b07d008bf8199523981afc98130, 0x12c2ec65095d454364655079778df71560bdf792a6602cfadf810c5, -0x69477e2794e59a0e554501861b5f371efc1ad75d512c5e41654f636);
Dbl (0xb84ac50d3e4a757e8bb5d99d2e0000c984f2d654f6f4b0983a0e0a42, 0x56494064f222831d3ef264e1cd3c3cd32ecadec78a9831295211142b, 0x84ab91198ce06e7fd18b0665412460b152d133525259d5f9ba473d6b, 0x2be8b1d57136b636ecc7056f1dc30357aa93b84dcc9bb9d19434693);
Dbl (0xf00c80f88d19d855ff3309f3af3a78b72abb1087c84e8b534b7e6856, 0x716f5bd4090f3affc9ad5d4504fc6d5e8d51fac76ed8784b51ee3f50, 0xe117726e60d72e790ebe402e06f853a994186e7f30100d0306701221, 0x7c2159890afc68842f79f1f1c5718cce5bf08bd464edcbc81f87a43);
Dbl (0x2b8f325737032e45efe88302cf3aadfe7c9e4b2ce68a5752f11dfbd4, -0x56f4c5db204d3dc2727414ac835eb702687559cff480164390c3f218, 0x7696b0293d0b64cdec944f15d0e1beeb7cb28af5f209c18a1ba8709, -0x1b2712116dc3fb349ff31875ad28c37fa36d6947903985d24a6fc7b);
Dbl (0x368e0f6a481b4ebb84aa652e98e655cd1c0ec8e3ff5214a2bb54cc22, -0x1322e2b066327754202251a1a898bdf6851c6673fddb1f0ff456c7a8, 0xba03d55f141241572259bc0eb8eaf49d8fce37dc31512f932f9560a, -0x2e0cbb97e0d126b7ce83c04e3dde1bb32c60c61f0dbdced15a31393);
Dbl (0xd1fde178db86c1271c19f03053bdb9baf5a6a3fc37178034ba106ca2, 0x4bcfba673e415fb34b07c8a18704a54ada2933f3cf4ada202c558f37, 0xac4085eec5e99aad0d4b8eeb49893939e040eeb333d939f53c145d49, -0x39241b2f205b257eff61800736f5ec853bea9744269f87214bc3ca85);
Dbl (0x1b24ce4f0c4e6f94a7533618f1c7fb26749cb3f718096d81f0c73863, -0x16c0b82ffa03bdbf4e1e6724b357d1f52702c9e1a5647e577e921269c, 0x2e0c8cf591751cf91ae2a57c957baef304577cc8c72867af608066d, 0x10c87c97924e4a2b749f50b40df34f75822f803de12dd01bcb871fa3);
Dbl (0x77c5552d4119e9faaeb1c265c64a2227ba931a37585a441f18cbbd01, 0xd847713001878ff9ad7fcf8c7dcde33eb907c7105f335521233a2a2b, 0x38090d4c46835ea4534505e41a18b2378e36cb2d2c54ca3a24462132, -0x23d5d721078fbbad8ab5a7e992fdc67602028ddba3c875579c01a1e7);
Dbl (0xf00c9b42ebf612bf1093dc1a1c9c7fbf9c363d53d107516bab7e3fd7, -0x66d27eb85cb54606305eb505ddf7ce5c285898802dd0ad903f6e4218, 0xe117a3bc66dd9d728011861801dff981deb71cfb5038bb64989f35cd, -0x2f2457b07ab210570287619f2b7936f330288a436bb47e9517dc7352);
Dbl (0x403d1dea9cd020f830d6173bf9a8930cd40675853b49baf37811f518, -0xf3d8b557d2549f8e9796a6b2e8b6d396c3e2aa77bf2161c583704c19, 0x101e9d8c93b5ca3602b523d2eb22991c2f64c2660fe8e94bab1fd3c7, 0x4ca2f30aba5debd249e52df1a1c477fd390a434b72d277c4c9a1bb2);
Dbl (0x38300db96c94cc4bc5f827bf39a9fc559dac0c5e769dd9e8bee54a12, -0x67e73ecb47b459b4d33aabe2ebaceb2776c51e80d029ee4d4315e974, 0xc550f0645c62c82fce3a8eeaf51fec92254dfd5a438208e25dc5148, 0x1283f196af44e8628c4a3b90d227fc2ce3f8556417ac399bfbaa32cd);
Dbl (0x2325dc7201604070e15f7664a5a506a00aab53d19366b221a1e4865, -0x15f1648d4ec83b6a0b271fc0b22423db366b8ed2aa8c0623f214ead9, 0x4d35fe0a328dc9426be8c8dd189d8d62648a99dd12587e45443b4, -0x1b8452d60cd8c151fd3c716d623ac4e823c8e23f04ba6993d63b333);
Dbl (0x5ed889564d9ec3ae3e7af62cc0e8ec2bdcedc21822f62c0c3d81e0df, -0x2ad3be193b90c05cc72e9ac7f99d97de044524acb9d3e279e0154a140, 0x2323bc036c510fca57909866d187e4b0e965a24fd27f6a9a25cbc1ae, 0x66372fb8f0212d285c32544d8623ee40cbc6d69ff44d6e78a8b317c);
Dbl (0x8786b2ee00e2e57a307006ba6ceefd2bb3e36d4c9fb36572fc183714, -0x206be9910b72ac78b14d3f4cc0acf986b8e7830f59de966ea3d9752c0, 0x47bf5796d3281210480240077d27361acecb847500b58f6115b49bf7, 0x8e3a9e9e83b4e63aae7f8d53e9bbfdc18f98970b95fce9a30c2f8);
Dbl (0xd781f6f0ac10fd151464a39a277ba94d5f07646da53bdd0020a67fbb, -0x114687400e6c4c45d0772803df9f5810f705075a7cd50cc1c87d2f508, 0xb56b8ec30dc55f2c316578266708fa63da1668052a21d46d728f7b66, 0x93b94c08dc21f508805be176f0758747a75df9ab5f9442fe6c13356c);
Dbl (0xd43357d25e10063d9ab25f781281470dd873d7a2fd8b51f237ab88a5, 0x12a4de753386519109868ef02f95e37395148417a49d4304697a837a4, 0xafe513c087bcad85dddaf2fdf77b013fb7dca2778bb341645baa6b77, -0x3c35f4b1f89300001576e56cd0ff901452218346f642a53787021acc);
Dbl (0x34df2bd2ade1a46500273c18cb8df7cf14581c7588fbadb6320a7552, -0x74cc9ea442337b1f7caaaf2e835d0748e80d62f030944f1e6b054d21, 0xaeb6c5af72f0db0f98c979919c4174e16c7b0dca2697b7798066996, -0x8c704de6b21b6e3ebbdddc6fefaea02bd77e1ecf058290cd67194ca);
Dbl (0xbe8640fbedb683f385cadf4ddc32150e80ae2f952cfa3ad9596167d1, -0xd76743412838deb547cde9fa1a298e84bede5807fe0bf0e9475bed8b, 0x8dcb8ede0d16b5b6e02528b7ebd4acf786bd3acadd57b3429a09c6e6, 0x397bc458625bff20e97073a36b576fa807f7a4d762c106f17fd23d);
Dbl (0x517b673aa264b3d2ecd5271e97a989a77e77be98a00d8c7351ae56d8, -0x12122d2b4440dea748ef907a0efe999ce313099538ad55d6c46b9d670, 0x19ef52cf76bc02ab4be748efb846cef249dd7eb4d26348bb1bc8d318, 0x1f7a02191cec3c99b87d4138ce989acec2efa059906dbfa3a26e7431);
Dbl (0xcad4954643e16b83e5d7260b0ff1b3e6b9edb242714a50871ef701e4, 0x15049283549acc6d6d45d32c0e14f4dbdd2b840adf10c8170da7afb77, 0xa0b42c1a768b0953d19a4ed3d0bdaf0853ff8a470447817318607ad2, -0x2c130650546b4543952f3e893ea29ed67153a283a37e9382b4c26779);
Dbl (0xee41d199c6dacad1fc61205111f6d4399f45b5a394dab1f5a6c4534, -0xb0a5619da3cec61566a97298708e521cdbdf34328e2388a9e271af21, 0xddbe72a609723f49fb0f3b3a4a2734200ef92e95308929fcf0f2ad, 0x2c46ee7c8c704fe74337d23f9d170ea4c3485f87514a672ce0d8bc5);
Dbl (0x54691263d75c9ed66ad8359c2ad45626d40bd5629442bd114b99bc15, 0x54e6adefd52d6e48f18aba9b2020d0557aa266554a9eac9ccda33bf4, 0x1bd51f319c8da3704f273db6351b3c73c79c8711b3865b9a90f8f8cf, -0xbedf16cc025bfee69e0331222e065eced6d00fef9fc61b4a994be43);
Dbl (0xa83cf99ee466daffdc5d0a5845b9bbebf295633c3126d981c7608088, 0x5ef4f24fa683fa6dfb4db66c54049229759b003d10fa36eb3415a53, 0x6e90162681a88a9549ecd71cb59f09e843963883926ab1046962c56c, -0x4a8385cd520634a640408d5c6e7e60b42418570abe5ae5d35513d545);
Dbl (0xc3a0d26b3109d7148b3835a17222e892c2d46d62b744304debc54027, -0x2004cc98606363fa1fbbc076d9de941dc1d4bed4a08723448b99439e7, 0x957e6596ffa6534c5241ec42481a60239a1fc9195418a5378dfd93ec, 0xab307e0a485bc6d8f267bbdba24948d082308999991f3684ff04a26f);
Dbl (0x802114c0d0c0a9356c9c7f222c1510f48f1d8b2af768eb9f4f44e927, 0xf36af26687b10c95f499d347b6fa7de23303fede18c07e693a22fa6e, 0x402119072c252cb8f20a4c8b61f9466b9a2bb7743d2e5d76ffddaf7a, -0x1a0a66d48b3ea3f84d8953f019755af45e5bbcf3ea24e7235f4ba5ac);
Dbl (0x6ca3f920a0fecf80421edbb5b8ff75faff3214d12fcc613aa9166b9a, 0x10ebc5fb25c23e1693b2dfd5ff4d626a75a408efee1055b9efb8de94, 0x2e1ac33ab9d480e8c9b91e5e69fa033aa187b410e16e59cfe11f576d, -0x27ede44c7e1272042255db19ecd744ba5adafe7d078f11216f4c5e89);
Dbl (0xe110eea03a32ac59928ff253530033d21954732e4da5187e0a9c0d10, 0x46e2cab06e76d71c84a7def2da9ec86883a9f2706be660822597c528, 0xc5dec49458c2a9ca03dc568ffa4187ebc50b49b1e939c2689390f7df, -0x139b0ba1fce98d137d2cefab1908c513aaafe0ea1f7a061ef671c6b);
Dbl (0x67ce0e20c0e1453185437adf18dc262e38b2222241dc261e07768672, -0x8ecd69c836ffdc8803e4b3d0cf2ad1d56eac5b5dbc6febf1c8b7924c, 0x2a17753918b34982a2242a72f3017bdc64350da53fd443dbf6bb403a, -0x16eba6fee13702dda7553cc95ad0228cc643d48a0261c4838797e2f2);
Dbl (0x2f72b2e783ac8a754645e333a38660e979e2a9a5f55fa66891bb36bd, -0x1d0d116322876c832c75af92b2196101754f92a78b74a51a6d98d7dc7, 0x8cb5114d59164fd35e73f07b0816bc8dda394ae0f2450e20b2bd867, 0x1b6a483450f9071ee72dd2561e4b33b4289bb410b8c6bfe60fc438ba);
Dbl (0x219884e9d1b75b21fa47c2af2307abf4931b1c85d0ef5bacb464228a, 0x135ab71bc79c8bec609e73e883d7a9fcb14b022fcb6a0fc2974009eb, 0x468ad2262bc450f7c6b897cd414bd4abf3f21bdcbfb1ff81edffff8, -0x12da0373cb31118f92a3a396d84120b057bfa3cfcd888035f9ff95ad);
Dbl (0xb7d46d4cd2a1753f55d1c4e29585609dfd632ecbaf6269ffef970760, -0xa35a769eb76716dc23affaeb04235d092914e9ff9dd253b7ee0b56bd, 0x840164890b0a3375f89ae1ca376b3be13fb2a6646ef478a308446ca4, 0x56a9cf932a3586f6e8681e3706885b4ff7894498dd3d0d2de8d3acac);
Dbl (0x7125b0dc7d1b9f9e25a498bc169f8773b7dc78e06f4589d2af18ae52, -0x1547f6dbab00f2595d435219262a5a456c7196ad54c33b244b4caadd, 0x32024baf405e76d30109f8d8b6e504689669ba01926865bade69cbab, 0x16be579d7b04d882c697fc717ffbcf2f8043821d17cdfb888216cbc0);
Dbl (0xa3d7ae5eb98ea751b3f4173d18dea15d3b291cdd5f64fb69ff7399c5, 0x12dcb33138e3471951554cdde6fc5b4a1dd9c13733bebd5dd4c663674, 0x68dc5dc2fa2c3df9cd1a8788ef398558fea65d02689ec69c4d78d43a, -0x22b581442d646e0cf9f8122240e52dec00142023817c83aff64e3bb3);
Dbl (0x214b3630ccfbb14175bd18612117607b1e7ead0826be98cf28b5aaab, -0x2bf326c0fbb9adc8a5563dc65dd5636179f11543ac251035ce175b0a, 0x4547a1160e99ef46e01ed42a5615e29a6e45a96137b4e0ebce83ecd, 0xa2ccbae67291023b215a5f8416345bfc1a4edc82814d7119551ad94);
Dbl (0x7f787c7070f9d5821fde8f8c48147507d61f85c155de73be5dad2d34, 0xddc6f9f41db0cbe91528725cf64d54e9b59393400d816948c3a58437, 0x3f78c42c75feeae458e9227225ebe7995b61c79898fa787c4dc9008b, -0x60b1f857915bcdd6f530a31df6c19a838285e24888457714ff6fe643);
Dbl (0xc7d6887ee38a52f9ba6a736f8bea60a4355f7033caede67651e397c2, -0x1122ce2edd97b003d427c0ab88be21e7f6734a0686c8dc0733f1e2d24, 0x9bff3bfdc2ac88eab7e6c739762f2714de13d30d6f32fde4236ccf0b, -0xc8f7b42c3f71ac05254cfeda146f1a0723c46e89941878c84007766);
Dbl (0xb14906877b18d52eea8c0b124e251e7c7884d9e807e8d83e0b5caf4c, -0x1f6b02e20277754b0d51a14f851f928db6b217373f52652c192509428, 0x7ac60fdc11a72c6cae7754eb506e1617fb29919949d49d466ee4eba1, 0x3179c83c9a954396c29336c2c9425e50b78ba8d7ad0683ea771192e4);
Dbl (0x6673d80cdc6f819fbcfbcbf3760da47de2e4dffb68ad5bd3d1cb597f, -0x7fc4fe821d0d77704275dd548e410c896abf0320494355f67582f7e2, 0x29008496118c9c1b531dfdfe158dee67b9a1ee8db36af0d83f1a80d2, 0x37f71fa68fe2b31a408a9cfdf7b5949701fe9f53db88ac4b96d7ce81);
Dbl (0x43ac6c67e2a3e77bf4ca9cfe0d4c8e235f64c0e0e0646f9013931e17, 0x3c27e79fbe09d1190168350bedda794d3ca24339353db9ef524200b4, 0x11e3b4e03a2228cc648da861553907ec27fb2861b3b08788a05132a8, -0x16274c93a162d5b404411c055e58a916b8aa6e6bf690f908960380b5);
Dbl (0xe7cecaf10d16c7b7e06229b3702f00d5da4389075461690db774ab8d, 0xa77d45aeb06d1f7707e781b20c6f56489eba8e99b147be5d7a6d7cf2, 0xd1e6d94a427178b8db9bcddbf012fc1211dda218d7d7c9cca23adf79, 0x4381cbaf007b9d4ab82beccd9014fbded2433f61a60378db0b43cf10);
Dbl (0x2ceb6d35a8c2aeb42df6bcbb378f06d8738c64698b49cbe19885cf25, 0x30085041bc220bd89e45709b65adb862a8b2a746be1f33acea1d144f, 0x7e1c60c211d7e6fc73b12f7bc55acbda67fd50e4309de27be66603d, -0x1f4373b32d6ca9d94c2929b8779db7617c40bb0fd7885f9d608ffe39);
Dbl (0xe913b3b0d1dbc4c33159b07dad7df9dbe21f206998e65224536af040, -0x87f32c62e960eb55c97c677cfc0efdccfd8595c014992d7fe602213d, 0xd434de9c0861f265142eaded345fd8f99fcb726789eb1605bff7344c, 0x4414aae92455cf09ea0c5900c5c4be1412e59c56feeded60a58f5fcf);
Dbl (0xd3ba04a3f301d3aaa82605ab8f0604408bf6849d34ac9b1f3f462b7, -0x9292934fd31c9e3c17a276bc4e87e21e05c76f6fcd773751e73388f1, 0xaf1c2ad100e7aa2a4ec85d05ad3896b3c092270a163c2c96095ae2, -0x367b2821c57a6f79ea53d70325d4dd49c97d9a6f047829e12cc3333);
Dbl (0xf79e152056debd37e3519125ea8c4144fd0f37d01767f27e9cdcd1ae, -0x16177653c97d4ade5d409d5cca3302bc24252d0ed2939bd8b1c570740, 0xef826e627d4b5e69c9d8e0f8d1214de16554f0c28ad91b8a56008a1b, -0x402f0afa2907202cc51b89869eecd4b61be81e892f1b3577a628841e);
Dbl (0xd37d6c68070fa1dc483b928e7bfbcafe46d7748a7e959357736caa2c, -0x173a4b751bc2c179cb8738824cb165004426387fdf842d320cfbbfe98, 0xaeb7fe2687229a501da7f97f5daffa4b6442caca8386c154c933d7e2, 0x442fe29a6e29c630ee233c61f38b6164e981d50990b7e8b8d6d501e9);
Dbl (0x24d1ab4cddfa64082960ea58467869d520fa3ca22263b98f78393759, -0x1260d4dcd4ac2562b7069df83458acb193384dd9576845770df301aab, 0x54ba3e6c490a69aafbf63e5210a876beb5cc4614943f3d3e20cc742, -0x18a434711fe09b98a86322a1d2e16a0af9d75228f608e320f7a3540);
Dbl (0xff57386950004d9bb68c9aa8b84adeae43d630d01da027802e677a6, -0x160a3e7af15e80123146dab9e31d7b4882370888b42b0c357d6e64b00, 0xfeaee01931633923d0b629c7ea7204bc0bc46508dff3502548191e, 0x334b001b9114c228435749ac13bb3989d107b07ad13d5e136007b34);
Dbl (0x5872e92b95b6f78c0efae677938f314ec3cba2d0135339162ab2d0f6, -0x96903dd85804351fb491046d6804c6dfd70b7bbdcb61c9aa07251875, 0x1e8f33e2761f7f1774ac71272bb5e2c3d8ff3db08059b0a512eeb433, 0x22adc6480cfadfaee1a27e7af723e2e345c95a031c1499e915131297);
Dbl (0xe1acce1f55b38140a21a5a110a1cb890540f59d3761a2a387b471c0b, 0x1479c8631735d60d118d1121dd259633323823fd141405ec2d069e0de, 0xc6f136f8b4b7242c0dfa29f7934bb3c66fc4e9e01cb7c87f04e540fd, -0xae49e3bcea909d58d8390da39bb122156de5d6e7700383380fb038fb);
Dbl (0xeafc8ee5f3dea85967f448234aeda01f9293f85bddfbc2748aab43ec, -0x1382502b52d5a3c728b143f035653d55b9af91223f5e5df3db72ae7a1, 0xd7b2ae66064f1338197c1157aaa5a71ba6c94afcf18c6c479549d432, 0x71c9c2f602c4b2f419f2604d5e501f817f5f191c5785f156c284688f);
Dbl (0xca22664825fd86974c0d1be1f2e8a4d1b2ce5ed884a00e0dc42c49bf, 0x106522a697c371888985ed947ed01500bfdd6f1d8754af1a7d1b8712b, 0x9f9a4e092ffbc259efb46d2c3ebe3f924fbfe28599d4be8fc8e194b2, -0x65675dc23b08ad23fef56ee2e30e61a3f26509b93973cb67935c3c11);
Dbl (0x6d2e24f736be02c03c07132d0328cfd2ec54518da08a2abdf4c8ad35, -0x194dd2dda16bc58a361dd0f1df625aa52cc305e76954bbac51a3fdcd0, 0x2e9053cbd2cbf0c0cf57aee63a9d3545b7f41c097eaeeaed99f4616d, -0x92d8663cb58ece153d9d98a3972da4b5262b1bb0ed1f75ff9e771ad);
Dbl (0xc8095ce912739c468de7c23b5c4a94428559742b25ecd14e4979a96b, -0x29f6ffcc40d386ec73e60f6d5bab0a7a2d468e496939d58eba15bbbcd, 0x9c4ea183d6f049c4eac9be64fe996537cc188ed1dfb6ba6b2283cf73, 0x98297ebeefcfc7017ef45b5dd6a9f4116e50106668dc27fbea4ac0dd);
Dbl (0x80d0153f77b568782b7f813fd08ca3c205d72cc3c7173c8da6a1e18a, 0x77fab1948b819e952bc75e265ca1d0995c7f7391bcd1d4b9e1f3749b, 0x40d0be62009b68a1d52d7a66c93586229a1898935c695523020467ca, -0x4280d6ff5f55f607744e977fae4c59be9e5b42487a146abe6c8383cd);
Dbl (0xa7665d4cdb7847f3ff733037bf659d00e0180e623c5e5b805b9f1c1e, -0xc48819a03d23002d90f49dff63108699c77268f56b467fd12f66d889, 0x6d76b6a8c196c0421d90dccb85980ab794fef5b4be0f0421efc8b754, 0x779d76890caaae82a39bb7b585871aa20379d7d3c4b4bbcfbd127902);
Dbl (0xfe24b48e344304086cd7b42c43058ad9b060a67ed328c485c85bfa7, 0x9ebdd942f294f2c465d707c20801e5b2532d9cf11d817a76f5ebc4f, 0xfc4cdb8d770bf7561d0a43c91eccd63a2cb71a987f13e620f66e4e, -0xe69ff230787d8340bc177c93ac76d08e14f388aa9580f70c1710ef0);
Dbl (0x9d4d8e414cbf34e8fd41f342c9f70bfd305ebe17af0e40fd751a08f, -0x2887c3b2f98b28d28beb42c891d06383ffb4d21444ac3de83daa319e2, 0x60a837fafa7733b7c998ab8c5c3aaf123788030a23dc8b06a4eb9c, 0x64d91bec2fd18191b3e2e8399ac07509a59a9e8fc9db39394179aa5);
Dbl (0x377bf4bb10259c403c75a11c1e847c2606783cfc89f9cb6c188d59b4, 0x173d5f347b224637087636b88b4871e99303a4c2fd0379e86b0b89b0, 0xc067f2d76a6ccc00986166a0697c1da8cf1cb727146ea334fe9a02d, -0x2524cb8256bb9212a8251a6efe31624c1d3f36adf312f13d4cac03da);
Dbl (0x67683c9833f677dd4e6732d10b45bed773c1752e1f2f7d6a94a63ea5, -0x267043451c8b20932f5afe5840e8e638cb460442264c4521519a0fea8, 0x29c50b33c3d23f8ec050f357bdf8e88c07eef8d87841d2128492526b, 0x4dc8093c27aaa543454b9bc397efa929380d6c123e6637b223613a01);
Dbl (0x24bced12aa2c3da99b8fd91e9fd603385afec1e841290a793e1a18c2, 0x102291abeb92214799bc095b4f0a6be1802639f5864ee9cd4f39dfa3, 0x545ae1a4ed1f2c48e606fc43deef9cdf46db96b455be3ce5eca8c9e, -0xa98f67188a8a6f91b4e47bb9153547a0d7516c9ca660b5498f29f4d);
Dbl (0xff54a0537127db72ab8bd6c015d54a1c727d434a47808119904f6327, 0x11590e383e9c844fcb018f7177f3f8e8ef51b0edd426b5cb5771cb1bd, 0xfea9b35fd69811fad92d02517729b6869114f7506187fb17b022de63, 0x71c35d1733ad2b88ecda1687df0aff01c6b27343baeaf140e7cee340);
Dbl (0xd3e9227cbf7f031d7d552dd2925751725820e83bc449f838ea16a128, 0xfeaa1efa8d0ff1dc4451f9ae639ee6c4a6ac5f00912934eb44873de7, 0xaf6a23296f6553fe17662e1ca98bcf4bb4152e768aeb4130c31c861a, -0xc9402b5390f138c512f5ce88ed9e9dc06d48de3d1a7bd24c26480345);
Dbl (0x5e75af6900b2d40f7ba113191378f0f15fdc8af963d479c1cb330ba5, -0x26a4ffb0309fd772828709a1521baa4489d755ce2ee364039e511c9ad, 0x22daa2eaeaaeb1374590e7e716a822600396e6b40771b4a8ce1bb126, 0x1ce8f4490a046a05e85c3848189dcb60ed88abe22812b7c640aee044);
Dbl (0xbc25ea17b3357d4394ee956e9cda85438c4fe7f9b5c7797669e06b0f, -0x19e9d6d6f2b55323ae3cdd4db8f9b525befd3948f449e88351dc218a, 0x8a47b570501fb340f2575f3431f3bc90c96290f2a6b33b2578cae1f1, 0x12d04728ede7497210ba039edb11ddf967942193bae2c836f45e7120);
Dbl (0x90edf8ebf97c61eea2fadb2e4f025da005a68b092c18430271df6968, -0xc66cfb0cf770ae4d1c3315d69297915c1aa20810f21be322ac79bc69, 0x520c95404fa1eb5ec67155e46b89ab294d4a90633cd44440bc425fcd, 0x57a510557e3d9686a5b5efca9cd87f404f751945c2726f888fc021d);
Dbl (0x13ffe43f37eaa0fe3131ea68f16d95bfcbacdec2160a63e9fc938302, -0xd7553c9d3e3411dd590cd68acb42cf37baa247faa97b4bbb2b6fc06c, 0x18ffba9e3bee488f62a1731a017a61a81abac7ea1919d711c887cad, -0x622d549649efddb7574f609a3441cc62dfa425158ccaf8fd7ef7191);
Dbl (0xdb5b646378f26d99db27a7e25d3a41b21f1cd60db3fdf20b79efbf5a, -0x1376bd95c6eff2dd834677f4eb51ea44808c4b4421056c102faffd7d0, 0xbbf57e62b704a103529ccbf8c5888b30e58e1a450c54996f725455b8, 0x914573b46f08357cb1d838a310e4022b5e3acb16a765cd3f348fc283);
Dbl (0x7b84512082cef27743dfdd0f95a1dbde2002fc50981ac7ad7ea7950a, 0x763e4d546a0f40ee6f23266b20dd9a7c5af85cf091d957723e2cb513, 0x3b986a5900ef5950923a0999d23d45774422f454252641ad29aec267, -0x12071995b4b6011e82b66c79e2828c22770cce1bf8a1a603128a293b);
Dbl (0xf9efafa52caf5a5b1fa28b09c1b0287721b4bbf8369f3d123011d5d6, -0x4faa9fe96e0e45d4d1ac40d9faa0493e01e4457248f1f4ccdb05ead8, 0xf4042418bfd9cada590f11db93f839ba0393899f9675592fc9e46b58, 0x497152a9e18e44b2d843ba3f11c9babdac06912c6219024899820);
Dbl (0x17ee45a26270338204cccd2b1e16d42aec45493f1dcc28c36877f046, -0x377e969fa27b6b75b1822e46cf9315fb816461319bd04807e8ea6449, 0x23cae48ba9021f25a3d196c5d2f05979e5e8269c8b611ba2d19d85b, 0x7a898520d65c1fadb208ca983305d1a5f6066a455f91374ce22eb59);
Dbl (0x5e7ac862afeac40da762f09d3b0270d233575b17aed3c36c8bae5644, 0x4dbe9bc5228bb45875bd52f9ee4da91c7f9cd64f8c10c99aa101e440, 0x22de660c141a6ca6dee6725536dc1ca3cb1ef28fb3457bc819256378, -0x2a29c5d861f5f7c06289493e3b7bc69aa775a1946b70edc52bc1a1ab);
Dbl (0x35eb3e9b2da1ba4ada81a26970d8dd662e4e32d54857b6fd4e063c40, -0x62f4557fd059524e4c292779bbdd149844f4c872c3114b4dc8d5f2c9, 0xb5b4018411a4639a41cf165647dfdb94dba92ad47572ed148cb76a6, -0xe0350ddb29050a4de0de6736b3272fbd7dfa1e574bfeca617e0b346);
Dbl (0xfdf1bf321aa1991dbd44c08c1215030febc3be3edc4ae3d94a73fbf7, -0x5a966f39590670ca78dac46b1b8e23549e9322fbed2df66156adfb21, 0xfbe7b83293c55a729e77a92de7126497e22e1ff92e2954cccafd57b3, 0x3c7817b5e4d758ae932bc6a98fbc403eaef340b35ee694291540af26);
Dbl (0x3d4d43982798dc4240f8429dfc5deca2b1e9d1ec1a7f8725c48414d5, -0x5d9bd4e41a15b809aa06f1f789cbe6b6c69eef93b7eef5c257ee40d5, 0xeade9883e3faa1521c19028f2f71ce64c3bcb78f89f2cab424e26c4, -0x1bec1d4d35e3c6d02f96b2479c33eaa55068347493a833ef162283f4);
Dbl (0x3d2ca7b40babe98abc71a5b13db3dd4795b9fcf21ce7450a227713f9, -0x27aea65f5bf9511587ee6b47643eb32fff9cbabd091f5de134f578c82, 0xe9e4fb5e150563f1a7a968072ea874ed72742b9236d8ecd7a843c3a, 0x3323bed58d46f357d8d114db6e48760909fdf1df8d02218f4cea81b7);
Dbl (0xaba077f369b158dfeb02149319a522013ff4c33bade398cb1b0a7127, 0xc79d180339ae87463750d8c05cdbb15f8709b59850f5919ba970ad3c, 0x730fc4d557ab3e1eeecc656e047bde20a7212360bb0afe00afb6a4cc, -0x5d44f0f1d48fad162792d042a2d52ec8f75a915ba4526b4bbcacf077);
Dbl (0x6ba10334f321d53a71a829744eb0ca189fc404b10d1ef28a8b2a425a, -0x837ddf7b90a195a9dab76910a70a16033a60fbf90a84675a31112c3c, 0x2d3ffdf34be26173862cc5d919cd2eee17599c2082307e5166b5caa4, 0x1e80be2dc1de331efb5a3462a318a23a4ae0fa8f3ad42d54bb774bed);
Dbl (0xd0046cfa18131d9761e0855de09583bd65822231032a1adc62b46d3e, 0x1133570c563cd27b58eb4177a13c74339d43554615cd9215b7981ee5f, 0xa9073129fd53c952145904f71d2bf1a0379ed2db72593c1a9e924641, -0x179024c3f64f7ba8a86c6426acda7b968aaa392430e16eb47b5dbd52);
Dbl (0x13687893478bbc90546ecea553db0a5db2d40b344dc5acb90b183b96, -0x950d865f6be8230507e113bbf98c38538123c1ffb146303c77fd3b38, 0x178ac880d134754e10db87ba8386a53f17bf61519a51bdf3d5275c4, 0x7c04cd29bb4daffa00f3116976a70559f99387d6a417b29d64f5006);
Dbl (0xd18547a19df0c28d894df07038273977d6219b926ae25950e8067282, -0x2bbea5c52e98ed9e07935b325dccccf88f38f85d82c19c9053e51a1, 0xab7ae45965dc4578d77256d1f756ee4b920bdea0c629d3eb68b9726c, -0xb84e0914cbea6d163f8bc7e609863e1801ce28064cd13aedc1baaccb);
Dbl (0x11df5897b447e54f8c174fb14fae4bb6505cfa1040c7a8c5818d948f, -0x2c7970f5264769d6f4fc72a45bb97b5db1ce9d80948702fda6e63dda7, 0x13f6c9f9ce6478daa9d8c028a4fc802f73da690e267eb28fb8f71c7, 0x186b198e47f6ea7d8ee6288a1fb588effe4013ca38468d413c2a632);
Dbl (0x329e7c06815a125dcb773ddf4c3d34e305cc655a7c9f78611ef1f138, -0x1fe08a9e9133a5ee7e5f09dd734bc18abfc610e255810359a78e8ecb9, 0xa024a8fdea527d4e2a15b101943cbb5a57fabad4da03c2d7378c641, 0x1121f3ce93e2d20e3ae034511b8fb3ac20fc49bc34b0ec502ecf5bc4);
Dbl (0xcda3a197d0fb7030157264d94ae68db4da26a446cb5441f7bca389b4, 0x71322afd5829dff273ecb6b178b357a472283df0a3e769e91be9b680, 0xa52f7964520720c255e8e626f0c4f71819d740800f2acfefcfafe74e, 0x17144bcac73d48bf08c2b5c6207141d8189c5566eb53f22d2016dfe1);
Dbl (0x95c57707838dea179cf7934d323e977d8f2fca0a030420f7b0b194b2, 0x85f87d95028d3e2fe52b413738f25749fb9244068f6fdb5a05442b, 0x579f74df280ba7702a0f13f9307f7a380a4824428369d7a7a22c5ab0, -0x157d4b3bfec3c13d047cb66a782fb72da9361d6c3a78ae478e985f6d);
Dbl (0xb89648db1fd6e1e6884244f00a5f5023f81de585e4552fab71d6a4aa, -0x129f7a37c3f7a366926a8edf52f99524860e3340df160bf07efe6461, 0x851860f4734a32047ab4dce88a210a0880ae2fc0c2668d1d8c07a0b6, 0x5d19a2939c73dbb0b663d608c1f71d86cc252ab9af5baff0b6e9c3c5);
Dbl (0x53200628ce823ecde0b1fb9fcd5883ddfdc1668dc041f81cead2003b, 0x18cce4d44f94c145e4fa5de599d544e1f78ac73be4178b531a888637, 0x1afdc800004205787d66bbde44a3df53ebcd99b86ebedba9f03c2f12, -0x39336a85935f13bc419662420d6ff9ef4257204a27ca98a59fc5a4eb);
Dbl (0x5f93fd9c204ed5e5891e13ed3b309422a661a8601350d0171ad62b58, -0x188d7868a886fe837c12add16d3d771c8b06b985e9cf9924646cdcec8, 0x23af2bc71c85945d384ff9d9f14a0f243cbd9867d7a645e914a87bed, 0x1ccd310817484e8eae725d7363c15690b70d46d2f05c42037061ee8);
Dbl (0x8cdadb49d7250bae9e2e7f3ebe0dd89e00275952e9a0813b9b0c9fad, -0x1427f74b6e2abc55a4acc611c40f8ec44dc26f6f5e1013956ff558f50, 0x4d801af2f8ea5b44ac54ed92c9a90b55b28743062caf7d7fb9550a9c, -0x129b8dcf81ed6896c1fa20145047c39f909da982108d9b3ae6d1bec9);
Dbl (0x762bae4ae5bcaef6181e59c2e276850da2544e635a684c7805ebb7d0, -0x1b1c9978186b9890dfd70309a5316984f6108970921a2a50d40ef20d8, 0x368c4c210f9d04e3c1fee016bbfb5583a22dcc334c55cc3dc46317c7, 0x3bd7d2ce252ed655ed83ded80f9ae62852074e899507d5d6be4bc814);
Dbl (0x2229eef17a7d75191b1f690d27c846130b56be3c44ea2ab35edb99d7, -0x3db3239477c056d40f1cb9fa29399ec99fffcf0f1f4b972d94296132, 0x48f2a568ce872d34dcc00c21b2e938ef4d71ae8eed17b7ed91dc899, 0x235d452e799df0908b46f88269fd1e7fb688c19720e7319b2feb490);
Dbl (0xcba30460b3b60feab25c6c80417ea89858e0c92b5d1117a142f419a2, 0x4031bf957a2928c958dc0c96b991d74c3c1397a1f281021784809cff, 0xa1fbf0bff03ac13b72f1171b1407dc21091b1d566f6312c6971e7e19, -0x528fc3d7c05306381e7ded03e0232ecb68680eed24be1600e8f3eae8);
Dbl (0xf6334a178ac56931eae92904134d255c442c91bef3ef91174006b35b, 0x2eda02eb96ab393ce562c9e27e6a478e4c81cfa2e0de5c0127599878, 0xecc69cabd9864f3834dee42611a495efc1907c45b5a5f0cde007c81f, -0x606781318bdf2c6c5638370ab7dc7ef4dbd616db45ead0e030565e3);
Dbl (0x3c80b0a68e31c30f3559ee17a6e86a14cf6748ca7511cd159bceb4ae, -0x189603b08c3dc595f9aaf5f5770b1efc8b6125846735e359751f5326d, 0xe4c937f331af51353f0a0af2587830d9a329af26a5d894ae63580a6, 0x3affeb742d4125e28865484de4d4123c80c928029d3e4079a74f6f8);
Dbl (0x6f02e48f8e11a027754d4161ae3c6f983dbb5a4ccd37328807116b1, -0x150d23c2b89943551b4a61da87498ab22b621cd6774dfd21189993111, 0x3023823cdb8186b8242597d0d2f4ccb4d3a0b5f996276f7726f609, 0x1e47ff58c59fdebcf23b87e512842f0b605c2faaec9fdc236943e29);
Plus (0x17601c7a3da6a5fa0d43ce1b534d3d1584daae11eb3ca85e96b249c0, -0xcd04e2a2b257240a17997e308b22792f02a4f296bf52dce4d7a99f3, 0x222693355ed26aaafe9deb3cd6494ab9d10d8fb9da94c683de19954, 0x75c6a856691c57200b8e7cc6a7c48934b0c9ad53ee935719161808d)]).
  - vm_compute. repeat split; discriminate.
  - vm_compute. reflexivity.
Qed.
Lemma domain : ecdsa_domain (cp secp224r1) (ca secp224r1) (cb secp224r1) (cg secp224r1) (cn secp224r1).
Proof. split; [exact good|]. split; [vm_compute; repeat split; discriminate|]. split; [discriminate|]. split; [exact prime_26959946667150639794667015087019625940457807714424391721682722368061|]. split; [reflexivity|exact order]. Qed.
Lemma no_root x : ~ (cp secp224r1 | x * x * x + ca secp224r1 * x + cb secp224r1).
Proof.
  intro D. apply (cardano_ok 0xffffffffffffffffffffffffffffffff000000000000000000000001 (-3) 0xb4050a850c04b3abf54132565044b0b7d7bfd8ba270b39432355ffb4 mp mp_ok prime_26959946667150639794667015087019630673557916260026308143510066298881 0x4e762f58b209ccb257345975584be13b18e8b6a6124c2c068857a1e2
    [0x2bb2d7c85ddcf41eaa3853af4932d22a7087152521a60d7f7f1c4024; 0xce84722c236afa260eb3477e29e542e14b41e637ffc7546d1cb078b6; 0x9eb19f33bd6942c1f98010434ae606af1cc3e816590aa8042f90655; 0xa916866dcc502a7c8bc5d41ae079538183408d060ddc09eda2c6a77; 0x5b932e7519458193553b6de39778d85fa2d349481471d449e3670bc0; 0x5cbc0805f352e26008568d01ae8c6c4dd297a8b98d85ac4caab32488; 0x33bdbd3508de50b599e4964079608ab12ac65e511471eab913dcbfee; 0xc8917d2b0110a2ff53a2ccd02325bdf786ac315b73da0a4d0c13d5a; 0x5d1f63a3e3d3900a1a6a8ecca8e03aa477126747997b7d696bd47010; 0x13a506457a5acf6a2a269b90205643c59bbf6139cbb3802a3b34a528; 0x3d5ec09c8fd174db38a5d0a1b667d8a542e2898763ff3b73e13b809c; 0x37b2fe1839e36ea3ed88077fcbabfb05c75d6a55e62d4e37fde5bc70; 0xf429c220c1c3d9bb87f38d3d745a7ad9c2246998a8b3f1026f2f1d6c; 0xaee1374bd341c08546480f804ac574285f102af456ba6e88a01ff126; 0xce3e71859464f3fbbdd47b9969f0b9572692140744fb82d635d091a; 0x171d253fc18c06b053ebb353e48d0a68d23dbfc3b31c04c20d3b5ad9; 0x60cfa034e383121678b1830f878de44b1823711f4eed7e2d68a646d; 0x44429d02ae2f4ec87b138c37d9fff5b47a77e905a22ea8146f1ad7e7; 0xabdb647b57e69af21afc579f09502013de866340745bdf4846e87599; 0x289f11566e940787a0bdd72bd0acbcdedef816b9b30c9bfeaf62a74f; 0x39d651be6f6bca7ebf9b71d0e7f1e2afed311d4ff306ed7f83969fd1; 0x678ca315b500cdb19ef3cb2940462caa407ae65b713e6dcf705de892; 0xa709d0cf929c7126156ac9c8890f849f3b4a11614e74a4ab30add1f; 0x4426bc28d779c6fb174730eeca215d420dd8d75c59fd09b50bda86a; 0xecacc13848c1efa0f279b1a52e5943015a6b0b8b1e87a7fc3a68ae; 0xa542f1e4400d2209453be7b3f8daf9cb009006a15d685def9797d34f; 0x57fa5a3800ee6a484426d8aa25b590e3dab0ba18c41ca3084d51532b; 0x46057a3d952edd9b96907a9ead5e81c198d7d314f74a42e2f29f7965; 0x35efc0aa5b51b182cf94946057feafa39d603608f741d43448c22798; 0x3f5fae750c18d63586b12098bdbf6d6275120a17d84f1a550a79856b; 0x1ba532b4261bafd2b01c4148091e6df26bc7f181977c94cb1345faef; 0xc3089da189d98e870cbeba54826467adf7e9c27d9021081f23fd718f; 0x4a12f2a6c8a434eaf9880b0c653391c10e43e06e37a33ba27c3beed; 0x2327a1a64125336a6eadc4712e8f3fdb9ccc3eab70a8351c1dad6823; 0xee815e4a041dbf17034f239c9d4d19e227054e6bb4e30c58ee025244; 0x13ab87aa5a8e4dbbfe676713ab837ce43cf8ac6ce86526a9abffd47d; 0x6dd8b632bf73b7b8809169805ff16243e2d5df47a0d53bc124fbacef; 0x9537d956c944b880a296d850b9a842520c9b1cc31115c6dc93071c5; 0x41a7425026c7b4fe98ace20cb703806900e81fe1a687d473e8d681a9; 0x8adf338e729a5b0e12bb058aedfb885eb9b630e0fe88c7db1b723fec; 0x8eecd5675f5c2fe9bf3b54676b3f87f8e449e344a4740048ecd6c72f; 0x2ebdb96890a6c444c08cf91c3598ec9819576860af5fd881a67a7ff3; 0xbbd050cedefdada3c14dbdad9e7dc451a24160f6d15719761850533e; 0x121eafbf0ac9cb5ff7e553ebc8702b263df3270826a1c2f5e53ccaa4; 0x3bca7b3ffd5741b9a5228aedc3ec49bdb772debfe86c52ee01a8acc0; 0x287537edc02d66832c1d21d1c40f01922032d600f89e6773fa03; 0x16c45aa83981f7c59b30404831f73e64c000747fa63fc697211903; 0x3f3c7e9fe23c922300b465174d5dfc03b12d8279f1dc251bd073500e; 0x17c84d48e367e7b067a22be3515c26081b6fa024a83465c78650db32; 0x545a3ac9743928a689181d9cb9f058f3c6cfef43e77a4c1c6cec2b69; 0x4c380b87159d31de2f502718a22a5cf044c3004dd324ab44d1d09007; 0x3edd15e9ad4bc9b7f96c8e37f856dce5da671f38fe255010f481ab0; 0x50358fb456cb1148aafbf2f1242c0c810ee17f38de71e76cd9a8ebd8; 0x183033bec96c4782568154e57ef0397e698f41fa21b7b5fa2c794f51; 0x1c86bcaaf17f0a236b43eba98f994f2a762765325ca6bd5cbfbd7b8; 0x2bfce2376b60262375980eb434660bed79be79a17dfc0aae378e9ff0; 0x4e9cf1096d9d7c80d65dcdc9ddbc2a43ff036dc5b062fc07c28c4a00; 0xee463f92005cc8ff4c2f6b240e9b84720433b5b4db3e9797dd349708; 0xee1f7d3fa9146eb2bdf60086b1ba88dd86bee77e04b5bbeb7723c370; 0x618a42508743c8a8ccd7cf10411f6318d4ea281b83d4b4b7457f90b0; 0x44e33f5cc3d3a8bf123b3c82bdf43e294acd2d96770a72dfc0cd18a3; 0x1e9acdfdf1a1952688afb83a1eeb75a71c4c7b167c746bf9ed4088e6; 0x6888290256bc2d381afcb2057b43becbddf7a3daf3bafe551b062576; 0x8804d2a464b2a5cb4cd371f82170e7b3dcd8b6de70337358e42d12f6; 0xec5bf2a74518b16d694dd15958b6249ebb733b83d933934a9383d46; 0x370e317cb221aaf7f7e3563fd9135c8561a916d4b18e5cdfb087b658; 0x36ae59a8dc618302289b13b8aeb88766e63a6a590616edfa7d4bd99f; 0x171b2cb843903d58eda9fb4047ab6f83b8ce700b6c7acf61ff5509cb; 0x3b0372fd9eea8686a2561713a3d77bd79bada84f55596a30c2395036; 0x8aa5b3e50d51a976be43024434de1cf4196509d7fce6fbf511bfe7e3; 0x7196f1d49c9598bb19bc66d25f797f524c742a3361e85c98602916e; 0x17d4dbe9e0ebb132bfc34a7700fe85f53f72b13b023fae6c43eb18b1; 0x69c1ac60b6a1c27180639e5a3fd4f5b29676a3a218de26daed8823e4; 0x14a8ed443e795d06f04380d4126ba8bace034208eda67a5047b1ddb5; 0x394b02f3a19e1cb2b8ec8b14aa172c91cc2cb71910045a5043749db5; 0x3946a7418120b1550dbc92a198fb576466874b6d6abd4311c88362e5; 0x538f938b473dac18d2278d40d525e905d3e8a69d46d6d3968f94d4c8; 0x43dd5924dbbbe31a7bb3fc60f600f174573cb8f5b00918823d2df4b; 0x45c6b07a4c5391472f29079df43dc692b7afd028518da268a8961732; 0xba74934a0c643f9f5a7967b3d7a19aebfee9bfe3127ca80f2621607; 0x4ea87173909f6ef5a27809f4f94f244e5e68b11b5fd3ef912f8e6417; 0x691097cfb2c6be2a68c77408251ff174d409bd315141a839957068f0; 0x5483fe081a7f2cfa901973465203d73422bd52941a1a10d8458b089; 0x30fcd547cbd2760364a603dd769ac848cf5467af3391d5b1e7eaec61; 0x36569b76c111c029bb4992a854dfb21390a2582b23a15c99e5005fc6; 0xad2fbfc76303196521e63b3fcb18e7c99365f3ca6811cb95c69b0386; 0x39ac6cfdafeec472f76df2c97615ece831e80c9c1556a6a2e7abff80; 0xec776d0998da272e6d0fbc7cc6027416e14c274bb1ac2383d70daae; 0x10bf526460781473db5df418b7b67abe06dc267a88883f6fb890eba; 0x2f40f3dca849e59b50cdb994fdd776bac56f0f4e930d050a5bbcd295; 0xb052c9d73c2160fc682ed5ce6f109e60cd163a1c5a47776dfdfc60f; 0x1b2d61382bbe9786b261856029dc643f4272ef8c34b0f6cbd9f97fe6; 0x38d0ee1d97336edf21de8bbd9d82ac9e9067c02cebba03e8bf787511; 0xe5bfb00dd7976bb82c5484525d8d8b7a6f8c8675e313f00ed77bc8d6; 0x263d6e821531e4e79119e1dc6bc2d63939a0a4c648751e02acfd3736; 0x46c4df0930255c250257e8ab5a72578f90e488fa06e54d3239510375; 0xa1d792e5ff61a519fd9c32bee8c095f6ba522e6d2b977bba4158581b; 0x5862051ba4da9102a3dc5e72ba3311c3f22cef4f259b5cb0db70be43; 0x65ef1373245db3e80f07d6a8b11a596b7748027ff77bfc58cf4a2672; 0x8677ecd49b910e3bd95eb5adc37a4c49dce914a809484eef21ad2; 0x217cbb5a988233deaf13dd79bb222c1ba45e41151f7e8d75a5b31; 0x67e6c7d6fd37d57771a3f4eae49785e96a4a3ba6e5b1806bf98697c0; 0x6d0a4cfbc2fc8357eaee59f90cb4f64a49647f5434c57cdcf9f79172; 0x2ca44742781813339eef5b4b251e67c111f48b7ac15e8b45e7514c14; 0x6726a356c565650ee6ae4578d092e49c8b4df2dbec5fd751f2458063; 0x32f3e8930f44f6dfad00732055b350a27a2a796a8118e144bba9396f; 0x794acd806b72b338bf6868b5658bdb74616b34835f0dc19d943b8ea4; 0x17046a59b16469a686a2a59d54bf25b1722f908cdf292b895c6654de; 0x2d6ffdad60010940662fbdf4872963edd9400fa377ebdfbe15a56d7a; 0xc668b867036419d9081f0be9f73227621261be1eea887e3f3c9820b6; 0x3fd913861775740cdb9ac26f775fd1486b3a5a7e376951de74e7f43f; 0x1fe6ced5a7263469c8bccd23030a3ebaa7a546adb86e85b941d3f8b1; 0x5842136d3aec321743828a5bbb1b2a7c6cfe0e81052ef5f896730afd; 0x4cc6c3197273b0fb21184b106bbfedcf9d78c1f22c29b4aa7339fbd7; 0x363f822afc9e0f11c51cb7b3f916a8dbdcdb325096f785eb2c540bb; 0x9caca1af02a2ba947dd7efa919c58b8dc62d28d0913a2d80cb5abf7f; 0x2342dae2c2c411f8e21c737b97647af919833d7648ad421cdfdb63d0; 0x3b721450e75bc45aef0bf15e645368556537ce66b8e47a3c697e74b; 0x368fc0660d6ed3cbb3fac06598ab97bf8621746827b3a1a5129c642; 0x600b556945e8766aef30d50923410fb96223406ae748dc1ceaaa9a20; 0x19d31f9d53f6d992f25d3befd1eec436f9fc6fff818c54eadcdf6d02; 0x3a67f89f0417f8628fbdc6d6a531540a7feb25ade2475700ea559bd1; 0x3e825b72c773f868c17d94e61f794e644938ffb08e353cb11d4d63b6; 0xbf42610266d9f0f83f0b28a3cb33fb0496a0c304de4d97a5bfdf23c6; 0x1814ef0b8c3de1081044f485bc4ad02f7443623c09e0f517702d41; 0x5c8abe2fdbc6b4016ed079f30c64ae2deb779267ca2d1c5cf788b84e; 0x6e5b689dde7d9b9f28c1404b70ead4b58213358e5b9d28c9158ca2a3; 0x37ad0b4d452e8d6309c072988b8c67780a723c2c0d2e5a4059d2a6c8; 0x4f96813532a5e125b47a226fefbd44aa79ed0b251d90851f6bb820be; 0xc2bb4f1ca7fe3704306193107ccd193b1cb92162fffa72616f734382; 0x674dd0701ee818f0a4a4bd462529e48bd4b4fbdf5a5a865e0d6; 0x580ad1b948d3684eda2a51d2afd7bbc1c7314ceda70f59c0bac83fbb; 0x77976395b6432dd7431282e85f897d2e6d13c1d844040a2b754b4a0; 0x138fb0aca19628e66ae957b61e1ce7bc4a681226e814dae4f1701369; 0x37d7c4fe27742113f33eea49ee0e4bd304053493fa34a26e6c88de4a; 0xed7980568348cfb4052ea38f6d28ac089500241272509d4d566adc3b; 0x9509d3b025b2143ae60e5a44c0ce13636ce706032303037b2c868ff; 0x46245beccb0daea5d0bb300cc6caa7e71ac0d4ff36f9e040b18d8b83; 0xb14ffa99cd117396513743e217c6f345f362a0407f58bb1cf72b3edf; 0xb9b91b475359420932bc0e0c683fc7aa85aae774edf4006da698edcb; 0x3298ab831e4eaebe85cd09269fd04c5ca1c8cca983b972b5833ca75e; 0x1f757d7c66b81fdc1dc8d1933c5ed9b1a873eb3720a2729229da3fe6; 0x7fd2b893cb4ffdcf0970c7bff17468608f54265fb93d74adac310499; 0x357678efc3a528e0bfa0a1dbbaee45ab2fda57e3b8aca10f99656395; 0x5e902b4e53c303bba1762cf6e7edefbf1a97ccd42e904a1c8c16e58b; 0xf69652262fee77e66bfe311594ff896043f393e87560f47df3a6457a; 0x2a88837b54ce99ac9b3f7d17febc7a4bfa0b45c4a3074af80730e7e3; 0x27a9e3984cb8959bc1ed7b7953d58014a08b4a4bf0c40aca6e39685f; 0x11fcbc7613f5ab8fac970b21d566d2e7cddccd53c06a833b3a305bcc; 0x107a56f1f53f12f291f7be131d528aeec6f5115b98326cfe5526b092; 0x28609da32c4243d83cc27150406845654a162faa528c4bec70bd5bbb; 0x5ede3b82511322e38cd6e2f26300eab9c06ac29602a30b30c902eea1; 0x421b24b1c9e3360a38867659b3eb5125a46b99ac2803acc28ce176b6; 0x5eeb448f80c4d21017668817db156da93443e58fa81a1b0eaaa5125; 0xce8a55398b05d3d4e74afe77fd5fc2b0533928fbbc2816ae06938638; 0x558a8f67a249e59dc176c6a9cee56621f86b8fbdf3265e5a83133de1; 0x85efeb8d79e6325aad15d4726dbc0c0629d146ed7b94ece3ba315393; 0x4701506f591b91a28490389b97ce518f514ed7cf75913a5f68302f66; 0x36775a455809ba3242630b00bf3e3229a1f2b0a1bae680202d916783; 0x73b175ecbba17730eb1930f02ffe332f406094326f043fd2905a828; 0x20c948f6dff9211c0a525e1b763a6bb502024e9aac729536b4dc7aed; 0x53df584283de0a9cd54c1356d881182a2d9ed1420263757ab8537569; 0xba303c69010b9e816d68aba9ba49798a76761b3f9196d84c10ef14c3; 0xbe5249a0603399d9d999f05cabf2f4a66ba0f625e9a96a3cdbc535e5; 0x458ba0cbea33682fce865586165d7c8dfcb61b0c28325bad45e8b10b; 0x725602f4cecc10d03ff1b2989cd8c678be2c4e4a2f4e5b60016bd78; 0x3ec260cf52792b9eadbdad1607e5eb6c3f9e4fce590f0f38399a1395; 0x2bacbeb2360c43a07caf66a4fa010cba3da986cf520e6b66fff14d6d; 0xa34f85a4a64e0f2ce3fa0b5fd76ba3455fa25c7526129a526dcec5a; 0x96fbfc918eddb66d0eca7b63b777d1c2657e133b36748d935104d484; 0x62d486ec1b8d57519ac17c74ce6a73e576ac7c128cb38662b96a82d4; 0x5bf585c8388139b65f9f77b581a3fedcaef7d092710edd9dc63aca49; 0x1401ca9262b7f559764c8d66bb4c100163a42dcf4e60b183db66fff9; 0x4a53923ff995ac4b858f4181994cd4aa295f6986072c2c2247241d22; 0x750f440ed719571cb1b755fc2c31f2b6543b86e3e085a46f288841e6; 0x29b74019051ccca022e675b68f5ead967c157fa8a1078a528ff45772; 0x4bce9d8e50a92ceba4b2474b2ead49d61c3136f18cac625ff78e02cb; 0x53c02e5eb8de3a030e99b3cc2f9e2bec9b30f20c53cb0ae69e7d8201; 0xa9c03c3ceba44c9a5f3414e9202e3ee4f66cb701a076a7499ea559d2; 0x4e298992d9a73923ad5828c64f9e51ae26b4ac39f67ee95272262b4c; 0xd054707d906a47fe513366dff4a5abdf1128f2cd19f6736408687a5d; 0x4bb904be2d5ed51d912dab2323827477698c937812aa6580c834786d; 0x417a70f81f823e9667c8ea1de3d49fa10cd579f9d7b2db589f11268c; 0xe242aedce3a0447fddd6c66726a543aa8e804271c87b6ae42f6f1275; 0x3ae6159dd40190ea97c234b2188604b774448117ad42a09927f7f8a; 0x441a5c52a11a3627d766ceb27dd880cfc4e785781f1f3387ad258d54; 0x9cc7421e15e9c64b1c4258f20a1124be48869225e926d73542381b80; 0xfcfc7da64f43d5c9c83c0b7f8db79e4cd88b13ea7ded071bdababd2b; 0x4b51239743925a04c2a3b9ef5cfe5adbb1a86720eaf3883db879f1ea; 0xb2985c13205d3ab46a307ffd7f23848d19313f1a45242f7201cc30ab; 0xc83aaaa61c7644c3fce428f901b2d3513db3080de110f4f4f21d71ff; 0x5a114a70c00d74da31a34480a79932d54ad9365c004b8e02bacb6d68; 0x60cdb6bb3a1931edfc7cf0b275a221652554e8001054b06c9d4be0ee; 0x2850193c0de3fb2f91099ba1ecab8c6508d2e261725f2ba1d5e5b4a7; 0x2b16617f91d2f34c19e5dc378575e2bbacc6f6c37809574fdb8e066a; 0xfc85faee18be5e7d798dab683919aaa876ae3785ffb0adf1cc739ff1; 0x70475c8a56090cf8da85e5e7c61a9157dea9a706482e46b9948b1f63; 0x183a3270f412def866222f926ea5e3a97a0225360e536d82076a665d; 0x6bab86689dfbcaa9d32364b51ef6022b2f6e15cbbaf1c13b1b55e4f5; 0x6466546a8fe735135fc53ee4fec004f78c9d0e0ba7e56ec2dcac17; 0xacc550a33f03941ef71d1b829ac23a1dd2765176b10a1f54dd50047; 0xb6aeb05080d5bdb1a112ce066ca35fba41ad5df690fdf78a33b5ac45; 0x351377b748cc4e3bf7ebf1c762ee1bfab8fe1729deb5f690f6319f02; 0x7751d4b3a822aba9f285809471c7c6346cefaf02249bc53af6e3154a; 0x8db25c5408db8200983df616b262db6659ee00a0b59a520581ebb88f; 0xa13128ee923ca70c1d0ed7be90469aa0d96bb7773213a39472b53b7a; 0x7047e7c80634148557b2b17bba5045fe84045741a82fa470cc7f4102; 0x38900160f69ea52941c366595e6e8db43fc98e55dfae967bf01555f5; 0x1bae0c82acf1357c406c67b846fc651f137a01f0a7824bf2097c4920; 0xcc72f488676eeadf40e45aa6792779225e2aebb16f2acbb5b78fb59a; 0x850b33f08aa4c90af0ce7519926c3b98bdf9471ddd0d62652bcb4e63; 0xc046769749a149fa247e2a5db3911bf12cf2f03a4f4f2fe515115f51; 0xa7fd0c1ddade413f538599e998016f16ca8dce9c34315c8d0854365; 0xed27fdbe7f35ee045ababb1500c47599ee0dab3941f38abc528f6dd; 0x4ad04fb8af48fd3b5e9fdcd5b433b04c6bfa4decdeea770a0c1e769; 0x8b7c5b2062f5e4c1c82f76b11da5c382726f8906bd41ecc58673e98f; 0x86668e1379637789d731e82dbb0ad646f59638a40234d687d9d5bbd; 0x5486cd9279f8e9b19a24f028f26224fd6e7cd968f179c698c6babf65; 0xf0eb910700fe2eec8d486682397a96c3b21260be7fb6681a6a70de6a; 0x8c1035f7312027e9a80d406353034d9f444328c6a1b3e54ec20e5115; 0xbc7159f997c1a3433df2422e7fd72f17b5e6cddef0204206fbeec15; 0x442fdd4792b31e1f6371925c0f5c821a3c2e8450b24af03ecc70bcd5; 0x2003d580e6db95c5008b4711707b2dc14345fec58f800e5563680b7b; 0xbb2e2599e8674f252941ab3c59427c018e041c6addf0cc8e0900092a; 0xa461d23dd89a9a3f6c1e8e6c09e62f89cadd0dcf5f34253c03e29168; 0x41af644be6cc2e67199d9892f3a609985aec8f170ff245879d183be0; 0xbe482bcab9952084d486ff3f71e0fd4eb04e7570ae822646a3e68077; 0x2bebdd284710a21712d47149cf30b7e8679a92ee5a00f2959ba642aa; 0x87ee89ea5e72eb453280c5962eb901dcfe3aa311e44524f811f046dd; 0x7192c0605187c6d2afbdaa75ef37359b3488b361e6cad8c91dc2f247; 0xa1b07d4a580f12eed8843ef37fdfcf03371aaccc081e6316062e12e; 0x2ed459a26671faf59bac92da271492e2f0194419d96ea8ad1de47ae5; 0xeb3e6089f2f3847beefb6f5eca7a933253d315ec3db7023639e81fec; 0x61b41233c9cffb652a3cd0eda37cab788e5d5d829f6b572b8c7d368; 0xf8d5e62ba0cc843871db5663e2656aca2112f985fd8aea236a1ecd; 0x65e1c15b2d5aa7cd8759da4b85b1c1c6609f7c304e371e21849de90d; 0x617f9cdebca79b89df5b89a7961273a4448748dff67732fe23e6da68; 0x5b6f79e4a4c7af9f701f2cec8a65aa73f079dc3b6c06a3c60f525bf9; 0x91c71c83c0bddfa603192ffedba104cfe947bc27161dffaa5d95e57e; 0x204e78db51db835ef520485c6972b7129369fb9476872ef97ad37736; 0x70f20b7a8576d8c328cd7db5cc26d3e5b60b8ec43d421172592b38f; 0x28a0026c6753a6df2ceec7f9fb37920c22288902f7cfe6ef59b21ec; 0x9be1251aa3cca5031ffb5c0e89902a3d179e0663abdccd2a61f1d94d; 0x4823dc81ea42dd1e941ba1148ae7e5255ee77b1a21750951a9f9886d; 0xd5eb48246adc699084e4fc2b61ad78e4349a24d6d26366f891eedd9; 0x4998f542b7a0f9f1288947e8418b70312dc81f591e8e4b879638e0d; 0xace0eac1a2ca9f70407845a573a8e0f09542db458bfb48b80a4801b6; 0x1f48aabc18c5cd64cece85dc47451eba65b53da9c834d4a73223fab5; 0x96d0c1e63b09d9df80375a5eb7f63a158523c09c7907ef103bcd67; 0x506b10d97baf47c93f26fae8b8f033fc0f0d76c01426003eea6fe277; 0x9f1e083d378aad752faa71d09fec2d8fe9a38068ba3c76da478b5c32; 0x38b291908b8855b1c0d1527aaeabeba9570e990751dde05442ded730; 0x4d5d00a5fe61494f657e824c679e8f72e4ad46169b3a0dec0228addf; 0xc1f1768a41e6bd1702f8d133c3172edf002e253d5ddc80065702a81d; 0x45ca46013724430875574a77bf46ee7e387ecd1ae2d2c60686495351; 0x5c6d34a283797a57f0f7671d51e1f6059bf588470f19b3dc5746380c; 0x77badb1a1e47e6f1e0880745ad29fedf4105cc8927c73e1834682423; 0x679f8e1d5a6e0208be0fb79d608b0eb915f19bf5d0246aabc74301f; 0x60c4dfdd2afd51b3e6a44137285973b6f59d629afc32599de15d7a92; 0x3526b03c67a6910c33a5921456167c0d4d0360af541189ea0c0ddca; 0xca192f70389bdf9a656422ee1c91991199be292346c8929dd4d028a1; 0xa5afecf0548585af1e822cf5b73f470f56e233c8637b19b3ae10a8e; 0x6240a16a44483f60ebfbe4aa5fc2cbbef7155cd33ac56f58cecfa3aa; 0x69da21b7253c04c251e6703bebfa4610be1d1aee76cdb5c0bcd5654; 0x6109b6c0e4a4464c0547094b897f6b2d5c8017609df8165b0e26d410; 0x2b087d445cf590ffeda5a7fd49c6401e311106cd997dca2246251a2b; 0x4e47a9c4bde791eccb881745687dc0b52b67b46da62cb5f9cca9fe99; 0x40fe2f4823e16fdce38fe3cc1feacf4813476f656b99b0ff8174531d; 0x50898d9e84fec52214cba0a457e9f634edf22a3a02a698b7052bc37b; 0x66934b5ac8eaee95d13379c376ed63be9deae45fa3cfd5bd3c914ff9; 0x40a96b04fd3f70d818f1b04d8b4d2b2b5812baf3fb83086aea7d188c; 0x18ee5848b5971fd6c9e9e115c553e6bea0238e62d4190694d25bee15; 0x6168e3701a0264c1fa31bf91128b1c512006f8b152db11339c6e2dca; 0x4b9ed40547a27f501674ebcc2151330e17d3f93a15875dbd6401a2b1; 0x58a33336603ddd4cc7543d6480e60201b9e5b9c935d5f45d92c611be; 0x56e00f3e12bb8ea1ddbe9948b094bc69f5b72a71d8fd722aa89e6789; 0x244f50d81c92ae4ad3cb978a32b2bd3e5e4cfc1a42a110b15144852; 0x10ebc3bbc1cdfedac227c34ceaa0ba198aea593549732e06ee168be; 0x1cc1712aad2a8cca205d27ea1da7d45471e47ca9a01883ae857cd503; 0xc85a3e4141cbcbf2ba0adce7806aa98f92e2ff7ae348f7d371a66703; 0xccf01baac7b0d298a28ed2879c6f4ed4b660a007bf66576a131e8bc; 0x3428ca32ce5ec10f53ff4985966db8cdfb5b597e57cf9ead0d46dad5; 0x51e16e9e4229f736138c2ffb4820312aaf9b43f7a4074a0b81f106c3; 0x98213b35fd37e6106aa88c46c4248cd0cab39cdedc769b65f44086ff; 0x55cd95387050f5418cbb4e5f03c8d031328853e5ef75de0abf34d0bb] x); [vm_compute; reflexivity|exact D].
Qed.
Lemma points P : on_curve (cp secp224r1) (ca secp224r1) (cb secp224r1) P -> no_order2 (cp secp224r1) (ca secp224r1) P.
Proof. exact (no_root_no_order2 _ _ _ P good no_root). Qed.
