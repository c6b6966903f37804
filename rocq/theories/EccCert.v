(** Certificates for EccPrime and EccAlgebra, written by tools/ecccert.py: chains of powers
    modulo a number, each step (multiply by the base?, quotient, remainder). They are data;
    nothing is believed about them that is not checked. *)
From Verif Require Import Common.

Definition c_p256_a : list (bool * Z * Z) := [
  (false, 0x0, 0x4);
  (true, 0x0, 0x8);
  (false, 0x0, 0x40);
  (false, 0x0, 0x1000);
  (true, 0x0, 0x2000);
  (false, 0x0, 0x4000000);
  (true, 0x0, 0x8000000);
  (false, 0x0, 0x40000000000000);
  (true, 0x0, 0x80000000000000);
  (false, 0x0, 0x4000000000000000000000000000);
  (true, 0x0, 0x8000000000000000000000000000);
  (false, 0x0, 0x40000000000000000000000000000000000000000000000000000000);
  (true, 0x0, 0x80000000000000000000000000000000000000000000000000000000);
  (false, 0x400000003fffffffffffffffbfffffffbfffffffbfffffff, 0xbfffffff40000001800000008000000040000000bfffffffbfffffffbfffffff);
  (true, 0x1, 0x7fffffff800000020000000100000000800000007fffffff7fffffff7fffffff);
  (false, 0x3fffffffc0000001c000000100000002c00000058000000500000000bffffff9, 0xbffffff3bffffffdfffffff900000000c000000c0000000640000001bffffffa);
  (true, 0x1, 0x7fffffe87ffffffafffffff200000001800000170000000c800000037ffffff5);
  (false, 0x3fffffe8c000020bc0000300000003a0c00000fcfffff9fbfffff39b3ffff2f1, 0x3ffffc66c000106040000c8180001121c0000c697ffff8f53ffff34e3ffff36a);
  (false, 0xffffe33700cf9a10f9724f1c03c5e05e1c3894133fb5395e5a07db3a3deab4b, 0x9db5c6a40739d31937ff415f77e319378d5f37c1d54dbb99f6e00800a47d132f);
  (false, 0x612876b81019bfafd41f3fa2f69a7dd0eb59ce74f459cb55449eb2e039f2d4cf, 0xe831fe832ba79ce80fa0985644a50618aac7023049a7a98b65c220902f48d770);
  (true, 0x1, 0xd063fd07574f39cf1f4130ac894a0c31558e045f934f5316cb8441205e91aee1);
  (false, 0xa9a2a23a45486a396101626d322aa8e52f35ddc0ff046239a1a38d7e8953162a, 0xd8d04dc9a7cee672ed1c72d66f6ead8c6c79d49c405c9891d4d71357abb7eb);
  (false, 0xb7a02cc38220efa69ce8ade4a8cc57fc551f8a28bf1d214646d8f792783a, 0xda851d2b0fcfe8bebd5b6f61ba1988d0b5e3d8b445cf47a684ee77ebe9a649f3);
  (false, 0xba86fae563864a24c53d370e746a8db288ea2e992f43f9fe690cb24733539916, 0xf7fdfde9a90f484e6a1eea304b1bc62553714d5f80b1c535e62c7f0985d415bf);
  (true, 0x1, 0xeffbfbd4521e909bd43dd46096378c4aa6e29abe01638a6bcc58fe130ba82b7f);
  (false, 0xe0f8783f1c609b50cfce736f505a4fb4a0460ffb6166998e5e0b893611a0942c, 0x68a62970084e6a7ec3edec680804b410c1180d1714efb7351f29e44619b47d2d);
  (false, 0x2ac76d84f586fd6e4955c0e714f0a6417fd82621437b1ef431e726b03838a696, 0xae9f3fd923dbdfaee50028bce2d140728b9cac1c996e2cb2c09282ff46b5a07f);
  (false, 0x771cdddc0382e4e12ed1dbd123e33630f6d66a4e41695d7b67977db5dfb95770, 0x1b255669faeb1222b113030bcb41cf9892d2b8395891905f60d20b59abee5671);
  (false, 0x2e0e5ac759c63e8bd10d713bc34a2acf446f4ccb57d8d86e5baf4dcc88e4f01, 0xaf750f5e9113f2ec92c36123f1c87ae7dc91b65cee347d6ef1bd0ace95da6ce2);
  (false, 0x7841408acff75ad507f1195cc825a1af98964940feddc34225ac071438cdd25d, 0xcd0fc93d7d9a4ebcf8e67c063e676da531739656745b596b0320e7e8ec0549e1);
  (true, 0x1, 0x9a1f927bfb349d78f1ccf80c7ccedb4a62e72cabe8b6b2d60641cfd1d80a93c3);
  (false, 0x5cca002254ddcae8fcf6727b6b54174328e30ec935c90cfa5685044a606300dc, 0x9da7a0baaa4e852541fdfd622b9e6468d0774137ad9c7eae16177c7950e88765);
  (false, 0x611708e86e6f67a788ba6e765f4867169e244f577c02e2f1305c14cdd65e4380, 0xa26804a6f12f204d664f2a25d893e6be73e911bc56b49d29b90e121ca509f159);
  (false, 0x6707d02778010fba6ab2a44edaa8a409af2457e494bd96a8297f806159894f0d, 0xf5304ca26307271d18269e8b0c8f66e1dee6041380e857d1bbea158ef53fffe);
  (true, 0x0, 0x1ea609944c60e4e3a304d3d16191ecdc3bdcc082701d0afa377d42b1dea7fffc);
  (false, 0x3ab55ef3240dc8496ec67bb9fb9511d327736abd6c289e811b5d456fab5887d, 0x8da0ca7749d7f35fa38260203d856ee9707e54e9f6ba048a9bc38d080575888d);
  (false, 0x4e5a84056aef2c2b3662b8ec77b162bcef0938bb35b7e4c6f9071300c2f6e5b5, 0x152a425ee71f012195e1b63638830ae1cc95ebe30c1dff778db6bb1c5eaf035e);
  (false, 0x1bff5dd6c03f493d3e352696d4618a7035f045a6b1ddb40c59ba8e5337925a1, 0x81e84cb5ac50c2c550bab3403e976352ea458cf1833a20aba37cb793d6087c25);
  (true, 0x1, 0x3d0996c58a18589a17566807d2ec6a5d48b19e20674415746f96f27ac10f84b);
  (false, 0xe8d9236250cf8681c3f6a310be10d77f9d00729be663af10584dc23a2c029, 0x67fc5f6cda175f6ec2093cd99836db3edfebe37960dead5d8f0f047ae5d42622);
  (true, 0x0, 0xcff8bed9b42ebedd841279b3306db67dbfd7c6f2c1bd5abb1e1e08f5cba84c44);
  (false, 0xa8f436570e6cca2ac7a080f5484e47a6d6a1509b7c6cfd5fb87c05bbea4e54b5, 0xa94ec384e8cacca6582cad3ea5c7a65bd86fcddf33fbaec37f56977bf246c6c5);
  (true, 0x1, 0x529d870ad195994bb0595a7d4b8f4cb7b0df9bbd67f75d86fead2ef7e48d8d8b);
  (false, 0x1aa94b71f36e9ca52f884665e67419150edf750a31b36b806c9ebbed0102751a, 0x750d7bc2f3298694b2adce2289dec61e337ea829b8266963428e448bd262de93);
  (false, 0x358553d6356ae530ef8d4eb9bcc2da8431a39604ec498de05fca29678c682f51, 0x54a180f681c0bf53acc9fd9258eb0e580f3d983958ed3e27c1605061e27777ba);
  (false, 0x1bfa6285582783a32c583922c30934781ea951eaba78e4b69b8208c016a8cb16, 0x6e6740d24d28e5deb3bb58a576b5482df4e70212160c67aecb62ad905933e3a);
  (false, 0x2f9ce55a238ff52570e6ccc7fc4f5f84252f02bee8759948cc97fe6382462b, 0x8ea6bb265a8d86bd7a9ea9690192b81cb760c45f8908d2c7776e33712d3e6b4f);
  (true, 0x1, 0x1d4d764db51b0d79f53d52d2032570396ec188be1211a58eeedc66e25a7cd69f);
  (false, 0x35aa43dffcd721d1c3206e2dfe671031b6300d4cb77975f54d17d1907579126, 0xb68470a70dcbb209aab108a8bb9adefabfeaff44d66173a33987259d714dc7e7);
  (true, 0x1, 0x6d08e14f1b976412556211517735bdf57fd5fe88acc2e746730e4b3ae29b8fcf);
  (false, 0x2e70902c672d5bcc3ee8ea8a7410670d877ccdfe3d63498280285a62a7163f64, 0x65f673a7383c77aa630b2c339d54fa73188fdd1a3ddd9b40d223d69f988928c5);
  (true, 0x0, 0xcbece74e7078ef54c61658673aa9f4e6311fba347bbb3681a447ad3f3112518a);
  (false, 0xa2719212526f639e61795aa33a1c7dc96f9bbb7b2a0959fa021a463cf59ae712, 0x78903fa927d7f3815a048848cc62ba4ca592f40499ace79bff46f0af5afb8576);
  (true, 0x0, 0xf1207f524fafe702b409109198c574994b25e8093359cf37fe8de15eb5f70aec);
  (false, 0xe31e33d9f10e164d9248abb78cc93cb7b68003a407b3d352fa0d93e272f5cc10, 0x3067cc6aa5ee8771839d097cc3b0939083d38b1d556e776fb5fbb50a3ed515a0);
  (true, 0x0, 0x60cf98d54bdd0ee3073a12f98761272107a7163aaadceedf6bf76a147daa2b40);
  (false, 0x249c5af8a1b0d16eaba95896974a571fc256dbadffdda7e699103b0202ba7ad4, 0x4daa7fefc2c03b6d16b053a5a603f5c0b796a2ebad4bb9a25aa79c5bfb090ad4);
  (true, 0x0, 0x9b54ffdf858076da2d60a74b4c07eb816f2d45d75a977344b54f38b7f61215a8);
  (false, 0x5e400a11f458456b906d7fd3f3bdd7b1dd07ff6532276f1e908814ddefb80b09, 0x2d8d92cac6406473fd3af8fdba870b988dea6ca30778520122134df3dd2d0949);
  (true, 0x0, 0x5b1b25958c80c8e7fa75f1fb750e17311bd4d9460ef0a40244269be7ba5a1292);
  (false, 0x206c4f9965601392a70c7bd9f6c43c74b672c84c8fa6c9a4b45e067d42fd8e9e, 0x80d942127c42f1836190cb46437e3863e36207796d57bdf2b06758a67afe69e2);
  (true, 0x1, 0x1b28425f885e305c321968c86fc70c7c6c40ef1daaf7be560ceb14cf5fcd3c5);
  (false, 0x2e18454f8b565ee94b089f06d27ab3913ac110dba4c8284d5e1679113b6b1, 0xa75de9dfe7099d341d9a7e5cef277c2be5c7f68bae077df7ad33ef683e1a0c4a);
  (true, 0x1, 0x4ebbd3c0ce133a673b34fcb9de4ef857cb8fed165c0efbef5a67ded07c341895);
  (false, 0x1836fed8a09f2b70384dafe416b5e7792cc3b2bbbb818c1ab8ff15645f9198b8, 0x4cb438ee4bb760840cb76bc41cf1b0ec34ff4ca33a4e74b9b071f5eeb675df71);
  (true, 0x0, 0x996871dc976ec108196ed78839e361d869fe9946749ce97360e3ebdd6cebbee2);
  (false, 0x5bee02b6becfeb334e35d42e1693460bd9e2d0317d859936a10597814a4d2630, 0xea196557a400f40e42f802ca17741d7f4c814aee23eabafeb3a3d7dbfb8d65b4);
  (true, 0x1, 0xd432cab04801e81b85f005942ee83afe990295db47d575fd6747afb7f71acb69);
  (false, 0xafe429c8747e1dfa1e5b76fb5645c7f0e3914dd1f8c1ff7608817f6440071f8b, 0xfab19d77bf79d43a3a691ff1e356adc92faba4d95dfaf9533ac94d4d0fad09c);
  (true, 0x0, 0x1f5633aef7ef3a87474d23fe3c6ad5b925f5749b2bbf5f2a675929a9a1f5a138);
  (false, 0x3d5fd8b27dfb0d284d742a0292dd44dcf21d4451f150808eca90b17e16c4ada, 0xcd69b384e97b3efd9a0a521ff0c8d5dcd3e0245c71f389360002b77e4c23c71a);
  (true, 0x1, 0x9ad3670ad2f67dfa3414a43fe191abb9a7c048b7e3e7126c00056efc98478e35);
  (false, 0x5da3068c68c50ea83eb73938f8b7c05867974a357d56c2e5496e25a77b1e12d5, 0xae67ab37e38e17d14eaa529288c38526625f3923315832827d2ab6de9b82e9ce);
  (true, 0x1, 0x5ccf5670c71c2fa19d54a52511870a4cc4be724562b06504fa556dbd3705d39d);
  (false, 0x21a5ae0e1853e754eaa69722c8b440dddfd95a5f3ab89dac68103a3f6e684a56, 0x3e2a60f0bf812b83bf69171c117ec0a1c272c6de55e9b476d2f3e320d776789f);
  (true, 0x0, 0x7c54c1e17f0257077ed22e3822fd814384e58dbcabd368eda5e7c641aeecf13e);
  (false, 0x3c6237e27e3d9ddca9fbd773a329462c6a1460de698e0c330fcdccd8ee74313e, 0x26c77d4fd19faa14fd9a1f23442a25f66e02beb5600be3052ab72992e419fc42);
  (true, 0x0, 0x4d8efa9fa33f5429fb343e4688544becdc057d6ac017c60a556e5325c833f884);
  (false, 0x177f529f1e28b3e5877fbc520059d8405b66986f4c09161f84083cbddd466d51, 0x2bb93a6b39ed2fc4e9fd41fac1b8dff6adda31f1a2a8c585ec34e9c1131e7161);
  (true, 0x0, 0x577274d673da5f89d3fa83f58371bfed5bb463e345518b0bd869d382263ce2c2);
  (false, 0x1ddefe9624efa6a698004784f653cef74bfe3b1c667cd116628015e3ea8e7a43, 0xdaf2b9bd0c63988f20e50203d57be0a524f3909b0c4e38efefc50b896599547);
  (true, 0x0, 0x1b5e5737a18c7311e41ca0407aaf7c14a49e72136189c71dfdf8a1712cb32a8e);
  (false, 0x2ed0929e992287874683ea7dd8077651099035d69f8d90ac0bcef3813f8c32b, 0xbc3eb5b9e20f484c463af08e0f391f7848b08eff22258ab7b95d30996d9fa9ef);
  (true, 0x1, 0x787d6b74c41e90978c75e11c1e723ef091611dfd444b156f72ba6132db3f53df);
  (false, 0x38b5d22fcdb4d0cabb7d3693390f035a03875e5815b968be173c9727cbd6f245, 0x68999f5977b2d9eaf002cd42e528efb3561dfcd7e5234d18f159c16db9134e86);
  (true, 0x0, 0xd1333eb2ef65b3d5e0059a85ca51df66ac3bf9afca469a31e2b382db72269d0c);
  (false, 0xaaf4b6a2e07f51d220f3bfd842226e5fec2c3028c390ee38d456db9069bd75a4, 0xf1766e333ed1e471b4e544b5be35406f9f53b425752ce8255b9627ca19a52e34);
  (true, 0x1, 0xe2ecdc677da3c8e269ca896b7c6a80df3ea76849ea59d04ab72c4f94334a5c69);
  (false, 0xc927104e9f8deebfd35dad7c201990a2a0952de42fadbbc0c3a2994d07c8b63a, 0x1e8e26d3a345f6e962d9302e7bcb8ffd5e174ca836da8795e304f7206bd8594b);
  (true, 0x0, 0x3d1c4da7468bedd2c5b2605cf7971ffabc2e99506db50f2bc609ee40d7b0b296);
  (false, 0xe968022da5aabd28f285317b7c3a7ca49a505710726de5a367b60156a7e3185, 0xd3a75174209390959842050def218470cac8359a617d90e3e729d90369532169);
  (true, 0x1, 0xa74ea2e94127212a30840a1bde4308e195906b33c2fb21c7ce53b206d2a642d3);
  (false, 0x6d57b0b46e287cce719b4ac681591d427217198dc159ed91cc47519aa9dd96e5, 0x5407f0c5b5f2cfffdf118ad4cbfa2b46eea8ead3da0fe0147727111b90f310ce);
  (true, 0x0, 0xa80fe18b6be59fffbe2315a997f4568ddd51d5a7b41fc028ee4e223721e6219c);
  (false, 0x6e54d903a0ff3f839845c8b4ab3fd9406006ccb8f5ce363febf5b7279b532af0, 0x8e6da60505ca07c6c5e790e83e5026faea31abdba51df69b2d52bbba3c0cc200);
  (true, 0x1, 0x1cdb4c0b0b940f8c8bcf21d07ca04df5d46357b64a3bed365aa5777478198401);
  (false, 0x340b47d9f457690dd8c1debc396de8a73ce680253a1f32218eb681432a4db61, 0x7b676cc0d6f52fb8e3ab934022e404af4022d693c197bbe7be65e5482ee7e362);
  (true, 0x0, 0xf6ced981adea5f71c757268045c8095e8045ad27832f77cf7ccbca905dcfc6c4);
  (false, 0xedf23128edb1a05058216d96f318aaaac69af79a702fca346faabfb2889fae10, 0xcabaab0961fc2bb4fc41b386d3b9ccc97155b41fa113a8b51c504b3ffbeb7420);
  (true, 0x1, 0x95755613c3f85768f883670da7739992e2ab683e4227516a38a0967ff7d6e841);
  (false, 0x5741cbfb24634bec6bf964a3ef8e633a09a79ca95c59398131bb73bf843351e2, 0x26cc3fed856a3533e26ef7c95f096896a0a030e355f6b9fba25278d411953263);
  (true, 0x0, 0x4d987fdb0ad46a67c4ddef92be12d12d414061c6abed73f744a4f1a8232a64c6);
  (false, 0x178517c1f000cc2ce999498549168291ec7d66bc6b6c6d2cffa77f7a2fdc961c, 0x51d406120224ca9bda1ccf2398ff9e8efbadeabb4e9a5bbf4b8d2ded8c7fdf40);
  (true, 0x0, 0xa3a80c2404499537b4399e4731ff3d1df75bd5769d34b77e971a5bdb18ffbe80);
  (false, 0x689f6dc635ee27d6b0ae379f2748610b547e373789cf445704773f4b8de00529, 0x15272735e00a0d1df4bd5a4fc5fdc9c1a8846c1a6cde104e4fe721809ea24529);
  (true, 0x0, 0x2a4e4e6bc0141a3be97ab49f8bfb93835108d834d9bc209c9fce43013d448a52);
  (false, 0x6fdc9af43b344f142bc9e96571a2d944c42aaa2e146c4d80a579aa398357730, 0x10e6f3d76d3a2d82efd817f96762bee30603ca2c4d773cfbebe9578c7281f974);
  (true, 0x0, 0x21cde7aeda745b05dfb02ff2cec57dc60c0794589aee79f7d7d2af18e503f2e8);
  (false, 0x476bb57f87f9ed4ebf7459b00570f36cebc0d62fdfa64f5b563cfa7e5797d9e, 0xb0236aeab357cd2637f50f33b8129db4d35f5ce2fbdfd8a90dba9bca8d64efde);
  (true, 0x1, 0x6046d5d666af9a4b6fea1e6770253b69a6beb9c4f7bfb1521b7537951ac9dfbd);
  (false, 0x243533fa95178a2b739b06ca32841e485c54957cb7b6759a06130cd4aad20d1d, 0x288250328631884da9ac0b431a05b5d00fa18cb7e8759ec156c4557a2926dea6);
  (false, 0x668fb655cc85e23b12725a74ed30017e293e28ee1778bbd30ae4def0883642b, 0x6b8d01bc587fbdc4fb818851e9bbc20f8b289dcb5fe3a4c4b662395f0f6fb7cf);
  (false, 0x2d2f2d1e88a675bb2a64f2bef1b4d16038bc344f4d8a7625d6cc71c4c91d7448, 0x11a151146892cc5a217a735213e259af1ad3e776d2cd462d1afb53b1f4990da9);
  (true, 0x0, 0x2342a228d12598b442f4e6a427c4b35e35a7ceeda59a8c5a35f6a763e9321b52);
  (false, 0x4db49af31cf1808d01791a022c26384b292cb5baac86ed3a828b10d3d33ea8f, 0xe7258e0e9a60ed59e160a79cb535d3016bcb9e658293c155ae930e03302650d3);
  (false, 0xd0b4cbe18a5c8c565161c300ec7dc633638bb37d8802fc7a885f847880d8e264, 0x20436c1c87629535fb148ee68b5e3cad31b999ebd38689c6897ce175b901704d);
  (false, 0x410ecc8ea808519928577cadfb70952c6b45ab6237f1781910582d640fcb567, 0x2ddef333daa9daaec018c0f28831e06a666b91a68b26218bee0897899cda2c90);
  (false, 0x83823aaf81294c2f612eb4f836144e3cc5877b493ffc2cbaaf55c9c09023aac, 0x89027dd50baf00a86dc9db404d779289540ca8e0751c60acd6258efb76040bac);
  (false, 0x4953aab48502e6d9dc371525c8d8e54a71681a0814b4d723288b627a8b853f50, 0x4bc2ba664ac8a1fda28412f1a0536e1b7622163e866054df378cd095796d7ae0);
  (false, 0x166bad5710ff61e25555a8fb2007a89acc4c313eb4edcf1be621bada179c95b0, 0x52bfb5e8cc2dd3aeeec3c68c5b3e93b0a1d299fbc9e9f87f05d77093b556d9b0);
  (false, 0x1abf601a30306c8388acdc02090ccf4b90c17aa5477adbcf3b1e631b323b655d, 0xcf111c7a06b001081dd480fa9a93a2f616dcff12a7d68b7816a50850d973e5d);
  (false, 0xa77cad32c9ad1dde45a98aca9a9181783484dd3633d00fcf29ec5e0cc4232b, 0x82acb6e94ec2f0af79710b90448386c4217ca386d121a4c4d5078eb01fab50f4);
  (true, 0x1, 0x5596dd39d85e15df2e2172089070d8842f9470ca2434989aa0f1d603f56a1e9);
  (false, 0x1c9d87d085427d3cc15934dc876f2df985fd8f30ac1b322d71104f072568e9, 0x46de8bc59cb74712a7c1db87ec5608b5500235cd5077b64dcc130a10e4184efa);
  (true, 0x0, 0x8dbd178b396e8e254f83b70fd8ac116aa0046b9aa0ef6c9b98261421c8309df4);
  (false, 0x4e79d79b717abd77682ae1d8d117a8235e93df38a38acb229be20bc24b232421, 0x3f6d7cf11bdddd6e265ae42aa70ba69a0c6f6c431a9e66581214e4b3281854b1);
  (false, 0xfb712525dba76517df6f53bfabe27a4d6173f0111be87cef0f1dff48f7fad89, 0x93d61b4fa3e848efdd0e4359a270823d9b749e573e631a017fc33441dcb44fea);
  (true, 0x1, 0x27ac36a047d091deba1c86b344e1047b36e93cad7cc63402ff866883b9689fd5);
  (false, 0x625ec7e4f0ffbd9ff4e7e7ee4e3f33371eecbca31622dba18fef6685ffb34ce, 0xf5b656d095544b9342f50241ed3c914c60fdcdb52d5f076c0b33fc2a7ad57c07);
  (true, 0x1, 0xeb6cada22aa8972585ea0483da792298c1fb9b695abe0ed81667f854f5aaf80f);
  (false, 0xd880b4eb896acd0afd327cf826d82dea4683e2e03f4099ffebd3fd69c3707744, 0xe5300fbc69c7f442e3cdd6cebc819291a88a5542a4a4a1b38076883cddb98825);
  (false, 0xcd2f052dca0e0a393986f00717abb84da826b670a294021d815944f3cc88eb86, 0xedce86dcc2cae69435f9bc73803d679433c2f44a7059917d31e41d1bc6a40df);
  (true, 0x0, 0x1db9d0db98595cd286bf378e7007acf286785e894e0b322fa63c83a378d481be);
  (false, 0x373a0314bbfa4505d7f3fa8947c8847d4cc2f6147a67098da70af8fa7de32ca, 0x769e420a2536b0029228351c5ef8f3e9210cfd858fb53e48a7ee458cec4f3bce);
  (true, 0x0, 0xed3c84144a6d600524506a38bdf1e7d24219fb0b1f6a7c914fdc8b19d89e779c);
  (false, 0xdbd91adc9b4f7046c8dbf8478355da99da610c2b351086b73222d96a93459f71, 0xf82afe59dcbd226a17e39679a78410eb1b1bd94f455657772a6569d1afb80681);
  (true, 0x1, 0xf055fcb4b97a44d32fc72cf34f0821d63637b29d8aacaeee54cad3a35f700d03);
  (false, 0xe1a156b586de0fb064e26871233495c01d891a5cb46689c52c2db6baf9d3607b, 0x89658c8fd4ae5f25117d4ce77aa9eaa4e3de3d4015e1ac4d0ea19540971cae84);
  (true, 0x1, 0x12cb1920a95cbe4922fa99cef553d549c7bc7a7f2bc3589a1d432a812e395d09);
  (false, 0x16130a9757639c06963301b8f875af83e86a2ae6372745dbac2e56604562465, 0xb9f52f977d9828c1bbeb9a73642a5352f2b34e4fbd4868a6e82846c1d027aeb6);
  (false, 0x8714499d9b6993865ed6a9e2fbc6e8a84d4ff785cbad04f262809130084a7880, 0x7f075991235387d7dbccfcb1e1b844e9f1202cb478df029c140209aa7afa61e4);
  (true, 0x0, 0xfe0eb32246a70fafb799f963c37089d3e2405968f1be053828041354f5f4c3c8);
  (false, 0xfc212c51156d5d1af8a97f8aca40657526d2efb6418ec2b4394e8e5917296754, 0xb6e5ca222b5cbbe6e9cfefc07b46df3b74a8a7b5c2241fbd818d225bb223b394);
  (true, 0x1, 0x6dcb944556b977ccd39fdf80f68dbe76e9514f6a84483f7b031a44b764476729);
  (false, 0x2f16fe27b6c8b75e42a0090dbf37fb21e211fe64465a1bf7c72aadefef398b02, 0x38b7c3100eaf5a66e424a2438f0f65ffa94325c66ad966f025a9cf1059898f93);
  (false, 0xc90e93f889416e0b969136b0955e32aeb6bc500b898e19a43efbb4eca007b6b, 0xad4173d8c8cb81a6ff924d029af86a182b7561942118a63218b8576dfbdc09d4);
  (true, 0x1, 0x5a82e7b29197034cff249a0535f0d43056eac32742314c643170aedbf7b813a9);
  (false, 0x20004dd9d16e18d87fc89ecfc0559323517a90f49941a003315c5d6608cee940, 0xd7a08fae50c50800acad23ab595e151c9b006545c42c4e63169c76d86b416ed1);
  (true, 0x1, 0xaf411f5da18a1000595a4756b2bc2a393600ca8a88589cc62d38edb0d682dda3);
  (false, 0x77fa19736c38b2cdc2b40f359382243247053ab36fec2a97f2138a7a4ac577ee, 0x43707b63f214b59cc846323c371f07333656bb2b56026d3e2d73260ca8344db7);
  (false, 0x11c412029567ecd6851c1f4b0fca7813bfbd7a010bb5bbf9b580fee4ea50ea0c, 0xc8b62c05f013b16de9a586bf8ee12e5ef0af00e23e7b7d98694cbcc44082dd);
  (false, 0x9d5d266c847f5251f364aa9a44adad0471f2e873818f7e0e4c2498b9f58d, 0xad2671ab5b4d61991792e44c536a93e6c8d524115725e36a6a3e9160b21f2856);
  (false, 0x751cfb67ffdb6596d8279675a58b5c1a4245324b31dbcae566073be757992fa6, 0x2a8bedbda0503b4e4772625bd4761817b201f822e2f478e986ae4049bac82c8a);
  (true, 0x0, 0x5517db7b40a0769c8ee4c4b7a8ec302f6403f045c5e8f1d30d5c809375905914);
  (false, 0x1c48d9f92185217c01b4560fa9dd5e4f4c73e6ba285e4227d38c5ed1095986e5, 0x5c6ba821c59f61509f79c96081602a6f2fe140409cc9b46c74c3ee99a6d87075);
  (true, 0x0, 0xb8d750438b3ec2a13ef392c102c054de5fc28081399368d8e987dd334db0e0ea);
  (false, 0x85763879883e9c85205a229eafe9da398333c46093e6d31ee5191acf7f4f469e, 0x853270f6f371950f3564aec5dc74fbbef44b5565486066180469d8e4aa99c82);
  (true, 0x0, 0x10a64e1ede6e32a1e6ac95d8bb8e9f77de896aaca90c0cc3008d3b1c95533904);
  (false, 0x11535cd44c2464f346ba0d2f12ad13471a3a4410645dcc4a8303294de4b3f3e, 0x6e2de1e253b630ab90fb6c14c9913e3f79353ced1be9c68ed42e7ee18b96074e)].
Definition c_p256_b : list (bool * Z * Z) := [
  (false, 0x2f6b7657e03d15766855d162d1bdc06c7e8890002f3275d2fcbada906a78c38f, 0xcddc511f363c3bb8116b46458a69d7a0274a503b440caa7d25c8bd87ae161f53);
  (false, 0xa58a978829c10ad340589b2f0bcdc85a2a8151ab47c48abb8f47d046a6ff34fc, 0xf79fde8fbf89aae855a0596c22b0b85f5bcd6d8f9b65645e3aef7c4ee11869e5);
  (false, 0xef85e3508b2f19088d059a9693e05f77a932fb61213d936da095c7a018306358, 0xb9fff8a3207a46dfb0d53346f1588a3844976383743c1d88b58e13a4a8ee0a31);
  (true, 0x500d52f38701cf683bf0692edc452fe1fd772d14e4a85dc5fcc67f8fa13c331f, 0x2424054e17717adb6c1cdaedeb038be8a41730d82100f79025d74a6d2fc0a50d);
  (false, 0x51a268f79c4cdc472e23335965bb1e0f2a45268eb22d8bd8b12855b2f6333d7, 0x879bb72ae39322e9f2c313257d2b5fb5164c8c9c6532d0d59b48e3fff34cf680);
  (false, 0x47d599e6d4d8b57164d90447d8c13bd2833321b7d7f521b6535896987e9fb5e3, 0xdc4c84ad702a12f7d6776a29a083b34a51ee48870c3f49e1130ddcb2c7f9f5e3);
  (false, 0xbd939ae9e219d5aa8ddcdfc5599fc46b5abe89e87e243ac22bd3b6a1df833417, 0xe8bd22ca9a7a6b714b7cd405ae19ceb3a1a52f229197183b29505ea509457b60);
  (true, 0x642afb8e8ed07add914b8a281905217eea7aa264be2b19d629fb7425b19eb7de, 0xcca2c3e3e84998a223ab8395c3faa652766f97b865db3ffe07d5a5c2d569ef1e);
  (false, 0xa393cfb0602016dd366bf1a6e4f1089e58763a3ec46ce9c4b1e6859aaca977a5, 0x4946130ffc61cddf804f4e56aec674a27bb4d0ae18dfd60af2870ed09e9e7f29);
  (false, 0x14f90a0da1123769aa569352ccd040035a2c19d7f36ac863b455aa1ee9508f8a, 0x995ff5dd604f3f3d47db2b4b08b5583a68e2a6c39a99b286cf52cfd6bb16441b);
  (false, 0x5be3d7db5f71860a4f06ffe6604b03e7b2bb28f3d82262d711fb991ddf3ae954, 0x208e0f34995d95423846c2f121518fc58acca72d9f480e2db15ea9b117fd442d);
  (true, 0xe02e03af793ed28907c9772fe390fb2c0a439ef5329d838c50e087fd2ea1b9d, 0xdc738799e5a80a6e1026d7c1de48f0f1108146a39029b6fb3d91381470501c53);
  (false, 0xbdd6c5345ca798d5b558b6eb46b00979f0fc474bd2d4ca9cc61eb59a43438479, 0x46eb558697c152de4da7a455b7f55d96a915e0ebbbbeb4633453a46c9a45c762);
  (true, 0x1e85d4b18581250078367f58c5c723f2e13e0ba387242990561641202e5c3a0c, 0x4a77d791d7232e39b7d138dd4a507a02a39eea337e8ac6e6cb8a13b6217ea7e8);
  (false, 0x15a980ba8526249b49b5e9e1d8a9fbeeaf07d77e9e94f02e4fa449e8dc0fb7f7, 0xc756eca9e9297003f1c395e1dc4812cbe6855c9d3b050a71b7295dbc62903a37);
  (false, 0x9b384174a0a90c1b7d8eeca6c60f2ba07b13f3c45baf9f63a3c1e7bc800609d0, 0xebfd0a4a0d0ec47f95aea735206a9322caa0d096c1497f9c9f741c58272301a1);
  (true, 0x659106210ecad21a7430b159789f9b596358aa982ea45df2570d80850a505237, 0xa2af4fd7330a952d6c745ae4208e4c44776cb1ad8856c122d19b29594b5c3845);
  (false, 0x6762591b051a0cc75d1b10e56853d4143983188bf20e93e5da37c6d83596b773, 0x2e5da62d398e98793b7975551b28cddff9d6cd02079d1f0fae1a2b03218cfa0c);
  (true, 0x13f48cc70586c0246a1dd91c5f86914fe360693a30ca3ff74265ecdd5c69498c, 0xacead5859071a32c4d5df713641d54fa2b7e5fb53c437683aabafea7773bcd34);
  (false, 0x74cc6656f928b164da6b4da1ac2d7fe5737ec8fca63fe7a3cd8ec45981faaeba, 0x8e8005e3af3431299cbf16c138022892c11d33650add48727fe054f0146f014a);
  (false, 0x4f52468ec98210a20613bc2eb057dd1399a1baf60b5291ca5d8fa8ba2e1d60c6, 0x277d7da423ce6211a92a99f593266875ff1d881a545abcb35ac2bcfdc4b0a2a);
  (true, 0x10feffe3e35bf2242f98876d642ecc8b2b5924d3349c891e3bb645ac3b6e6c8, 0x915341fb411034e524984ea48a0dfeeef468d1d04acd46efa44bda1cb2772594);
  (false, 0x527f6bd2cc2185e33ad9afb7f08f1d6648c5006a2c9237bcf8c195f83f412a08, 0x89111d07d11cd7e2efead86c984b6ad8d2397c8a99ed6f350ff3c60e045d4798);
  (false, 0x496352378588bcba705ff7dcb39586dd8ac94d78118099b45d451798f0895fb5, 0x176c1613fbbbc6718d1d70a477c9310966b694db3ffef5a2dcdb1872c8ff09f5);
  (false, 0x224999a3c242e85acaea9fa39006d927830f37cc99e8503a3b5b0115d29e71a, 0x4c8f69c5f11fdeb89dba5979b3d8093bea95b215cdd207b737b5fbe903a30b93);
  (false, 0x16e57724f4e7bdd670c660d69e4524f7341d31b7e97537edde6c8f9408ee5a5e, 0xaf2a25f3e42207674cc8996c83fc4f93d556da72c14fc2d8bdd51d4738a650c7);
  (true, 0x4b638146ab216ad3b844f952aafe14b010c78c137d5d92d1d6beb38c6f4f5e59, 0xae09b3f24bc8108c473d4b812170461c7804d36bf7583a754aa902029fcb6bfb);
  (false, 0x765130fbfadb36d88310a5b1d636ccbc7a4754ed011519944e505b9ad12f1e75, 0xd0b7aaac9dfa38d28c33f25f099ddadf9c4fce0e0060288a0c52494d08cce68e);
  (false, 0xaa2af91e9f7527665353e5cd52e1417adb86173943108ae5a2cc90f348300b37, 0xbea97a7bf5cfa9402817ae32191605f7a26d5056f5af5b11ccd1b0c86a2381fb);
  (false, 0x8e00020381252fbbb4422fd399abe2cf63778d2c568bcb5772d0c71fbfa5949e, 0x37a736700bee4f9b82ffbd9c48bc23aeb938141d5b4f94a68cdc6be0684680b7);
  (true, 0x17f3d2e3f96fad7f5c678fd66bacc69400f8bafe1200c1209f5bbd7184399d42, 0x84408e080654661d5b71a4010d773258e91e0775ef1b23c6a5c652b4ff73d604);
  (false, 0x4452a2bfdda9bd86f509089e831d1c1d92a9caf836e5837139f4a244a107e3f4, 0x4f94b3786b8db5a18c1040363dc69878b40e98cd0370964fdf0c20aa938a9404);
  (false, 0x18bd1d246c2c8e2538b561052e50956ceaf7739cddc847389a7fa979d53ab868, 0xbc835037487eaa230f7bdc9923697913f8b312002f78ab1860f5afca571f5878);
  (false, 0x8ad1212cef01f5f1681b1ca6df3a4dcce248e17cccf23d3aaef70ab48b8a26b3, 0x6401bde0057f26765f42d8aa5a458b229c51409eb6dbab1e7ab90a0ca72cdef3);
  (true, 0x2b0aac22bfe7876cc81b7ba26f4859284088643818e8606d97209002a3d8208d, 0x12e5b1dbcbc8b52ed76225e1685307004a8e000cd5cc98d51cccd75b60feb397);
  (false, 0x1651b1a98d9962b29b44eaa261b02826cd77a1c053d5b11886d107b6cb398fc, 0x1bb12710fbb9dc04fc59ecf8b0e1c76c186b78514d046f18b49063ef8a541c0d);
  (true, 0xbeb155c64d9c0aeccb9a1849b6499e443046585adac5768818a0306382dc7a2, 0x1ad84f481a0014d03f7e84224e99a64d240058618d72ebe8decbc8bb2930ae98);
  (false, 0x2d0a6e08a521f98a35a919c2632b10cd558e6f4b81046bcb41090e67349ee17, 0x5dbff9ac4b35894c09b7c765bbc5085378d59af341e085727dadc425135ce857);
  (true, 0x28594abfb086529cf9aab587014aed5c45b157fc8c39d57ae31304573501c745, 0x7724127d6951a3970ec0b2c8a78eee01425470f049fcd69788439c3905a4f2c7);
  (false, 0x37728e4603f7f391bec7c386e893bf768923199d26e4fc4c257b97c56f07852e, 0x21a4af4fcf0deab03648f938a648283f195da14ec655d8ed351c18272a3c5bdf);
  (false, 0x46bdf23ae1cf5704260b9506a52d1fc49028814378341bbbe01d0147d97c691, 0xd53db63e5c30e0595f27298acdde3de32aea1a78beb945c9635f7a66db1812d2);
  (true, 0x5bc6bc4ff3bc67e20a44c94ec92e8f2fcfdc011c623c99b784aab8450e758e4a, 0xca7e627504f29ff3d561851fd5a1326f48f39586baacced4ac7d2c7e855b0846);
  (false, 0xa02bb1c65d09424f45f6e1d05211a0459bf4e49968439e3de95059a8df6f2be3, 0xac7150bb7cba0894e2f0c1e60c8ca99c9f4919811ce64490e39845887d779f07);
  (true, 0x4a3798c41725f9cfe59c528fae3a8d804ba208a233ffbbfbc636cb9111ccf353, 0x36438d9c8dd2a52f131fa8a00314994af7f4bac63fb6251da846652c8cb29875);
  (false, 0xb809191859d7f7afe132f58b2bbbab9c4cea11bfed00fd367c8ce506f67b8fc, 0x158273403d49ef2f1fa172df7d6c7e0694a2faffd0b7f4dfeec95be0c4e6de75);
  (false, 0x1cea961ccfdd0e592c403a6b6af9c9a815f6e50e0b37f1415c6ede364f4977f, 0xd0b428dad5914bae87d1207e2294b43772e8c19e844c206a431fbd7b087fb8f8);
  (true, 0x59d2d1606b4222564046d4ead6ea5b40f193b71ab51d99e9a93a9829d1e5dbb6, 0xa51ab19a5a81de748c16854c8bc97a1f1e1f01bb58d5bf9cc0a4a71ef02eff46);
  (false, 0x6a7b6bb9f1b805158d5a75fef010231990d2773b28ef744f4e364e0887e2703a, 0x55ff48c33a45a85f9be186701acf00a2f02abda9e2a0a1d9dd4f9db48396f75e);
  (true, 0x25031b0538cf129bf29e3962e171f375719aafc9016fdb146c267df452cffdea, 0x94de782355901fc6ad2c89bba0d4bfdf585e2390e93f1054b3443af086a6ee8e);
  (false, 0x5691fc3dc72a2c09e5340136bf2c71cbf8d856be40b0f3c948fe1d1a9e8b9dfd, 0xf883b636ff47b35f0f68c5b7f34caf64ccc74c321b9a1a42fc58edf184fff4c1);
  (true, 0x6af522ba8d0195498314feaf16ae63bc7cd0ffe20a8c2631c4432f087b1270f5, 0x80334f77ab904f3f6b597eb98a469e87cec4aee39b3c074652b34cc134d64ac3);
  (false, 0x403359c0ae1d18537094ef63cd60698327e8785de3fd37490940a9767201fe0c, 0xb05023910c224ab5413888d39192a77719ac4c6be1b938ae745aed3cbddb4e95);
  (false, 0x796e49fe29b601a5bb17a3e2414b07841d5e96498c5f5d521ae0f8eeefc27369, 0x37e823a2e574044019fd1a9abd92a2e09b9dcb74c8d72339febf3eae7ccf9622);
  (false, 0xc3591d0a7034050c7cf371978fcfe104eaee23a76cf25ff903f7ab280850b92, 0x7e46d6e51ab6d55c47cbd0aba6fee55319ff7fd0f2cc743382bdcaaf938ce816);
  (true, 0x3659123654cd3cce851f768094dfe00219b8a104a07e894a37574a6c065b370f, 0x207db5725ffc0e7944f7a9b0f3f5810f452fe454c62184794aba9eddc48687c3);
  (false, 0x41fab174e6b59afcae85d52939110bdd6b78d888c07a5b3b01280c573ed039e, 0x647682e233756a0af1116b35ef90356423bd0ac525f0ecb6aa27e20874104227);
  (false, 0x276ccd1dcb127c56176bdd4b0ed950e37e69561f229c3795725fbcd24dd3eee6, 0xe2f8935d905b8ee0c26ec9cd043a2e39a508d47531e110d90b1783dfbcc10d7);
  (false, 0xc93bd58fd639c53411c552ad72bf847275587a0b42519a6b41cff921d20f16, 0x3e3fdfe8914536239fee579f8aa891e2ee55616f4e1283a2db43321f9395a3a7);
  (false, 0xf230064adcf070cb9dfdba6263ac123c8503c3e22e240aa2a91465254e1bad7, 0xb46526c4e2493976800f1af7fe491a8f52a0b5652617e9e5153b562e07e5d1c8);
  (false, 0x7f1e667cfa8ef7ab7c3b64e626aa7b9a85f200e4d283fea533077f2871dc13b0, 0x32a0c030fdc68d4374332c68b78266edcb7aad36c101ac63f4ffa2d25d943ff0);
  (false, 0xa033003faab7d6cd849bf87c3f8948ef6db0505f1eec3d32f811ab1564b1158, 0x14cd8cb0c6d84d136bf7d1e13ec443ea6bfe7a98b16aa9f959faccbfb3c31258);
  (true, 0x8f40cf0c662f79c1a8b2a0a63ad70a765062077f63a373760792f7a0a40cc3f, 0x7f2a2cbe2d4643ea18cbc4862f6823c46b3657c58d561ccbe2b57e67acc0cb0f);
  (false, 0x3f2adf57a64f5e9f5835de4dadbeca63c511841ab0d24196fc31eeaffa313f7f, 0x9454d787a0950c520fc0726aa7d46de3142786f9d51c7a90db01bacf59c20a60);
  (true, 0x3fd70a681e83dc2a93da91bf78a08f3dbc13d12fec1a1958dff08764dcb957f6, 0xd9e21da083f8b4c4272f7a9c7dfa4d5f283d38b2701bc0b73b46fbab8612136);
  (false, 0xb9711df32c038611bb34f68191fdde9476ad957111edd93aaf88526f865423, 0x6c395732953106aeebae2974e6d14367df7eb60b99c18ff1f5c63623ec14b87);
  (true, 0x2e94090a52395febf217799d838ca5c74ec4ef64ed012b940962bec268efccb, 0x930c1a0f4bb0082ec7dd8fa41c29ef9c24db0e39d7d090ce9269b07e1c9eb0ed);
  (false, 0x5476e680597944b03998a1d6e6afed103a6f7fbfbb2f523369a71b0f6becf195, 0x71db2f36231edcfbc4dc8595fe697301c368f6dd0284d11542c03d6e22bfacfe);
  (true, 0x310096470dd5601889c34a227617fdb23bfe5138a9515cc336faf8cec2be9954, 0x1524a9e613146e82eb1314ad7561ccbd7e37c66b6843b98de9e231cbddb440b8);
  (false, 0x1bf091ffa5754f7cc070240925f3e1075efed4ba9dfc19ff5d658aaf770a43d, 0xcbdb791efcd38f64cd0392bdec08032cb0038b4fd77e3999875c2323ba8d287d);
  (true, 0x57bcd78012b096ed515338ab474108aa93d3e25c308e407891f3b94ee97de229, 0xaaf06cb1fc86aac9a57feaca9518a476bc83d471519c5d778caa77da34d9a33f);
  (false, 0x72243228d167324d3492e960b0e320705776ddf0adf122a1dcce01b8b7a67a2b, 0xe8a1dbdf5dc41f05ebff118bb678ad1a6f09d7cdd3637fedf7d1be5c788dc3ac);
  (true, 0x641f3e31f1e2752fb0e767e0297233db400f54b806688f7bb3a9bccffcbef579, 0x9d69874fb5ccca2ccc1bd3d720731083b928ac63e539968d053982c3a31247e1);
  (false, 0x60ca9b786cb0180089ba4dd34398f951c2d2ab6dca3a3ce4be0157faf4139ac0, 0x38942b114fc94eeed19bd538272381038b58ee128713b2d1f0eda597a9e62e81);
  (false, 0xc81289972ac4dde782041e2c08da6f0fb2f9bf6b4210c7442064ecf612104cb, 0x16192940782bee1c8a7e88943a538645d656b78690476556d31f2d5b4b5fa1cc);
  (true, 0x982c5a5a42cbcae2e1a261ce08c8af598473d2a4761fc347c570da19fd9bf77, 0xea069b51b6b676a169b72877fc64ca3a8c3901c9ead1eefe22d711b0c5f19f9f);
  (false, 0xd5f0141dde0642dfc27074363b272085e349c9ca47ff07a2f959ac35b84597d0, 0xbe431b8e50607ed14ba7516e4e41de40f968a435529b09c22ee8088e5b2a7c91);
  (false, 0x8d67ae7f3c2c51515ba7e30ddf41eaf757230ba4ac573c53968f2262c1124045, 0x66c4d94ba1a861ff00e8d5eefb3be2b90cbaf4373c25f0b964c19edaf3430a66);
  (true, 0x2c3b00a6bc5b0924dabc6232bd68849b52534f82acf6ebae1bb916446c607635, 0x155960672ea75a156f8a5c896fe554e2e60259bb79a9c60733cdc134d9da6b49);
  (false, 0x1c7c9051b7b3abd57a2d5c90290e6f0da865c90d057ea94dc3dc53aee82eeac, 0x8ea6b187767641e2b12bf621f9db641e1d2afa934fe35e86550b711f95cd097d);
  (true, 0x3d65317446f22e7187f7d5f9f9223877e1997f0768de008c77262a09fd431558, 0xe0f72ba0f84ab2b434915a85a13fcc3f36363aaea5eb2574ebe975e9ab3c646e);
  (false, 0xc5b17affb042cc7f8485db59d93103f96aa28b41a2d81958a054fa915185f7eb, 0xefa183501ee1288181e3049cdaa3bcd6d5ea05da4e98e927bed61337807c172f);
  (true, 0x67225941b8d7c61173d946182cca43056566b5ce1edc34f3f5a0938f0a7e877c, 0x26067a24fd12823013ad5ae5aa425368dd02297a4141a7bc71951e96af79e0ce);
  (false, 0x5a5ec6cf4ca8e7f1ab50c1ef27ae76c2a1dd5f9ee5b216f1487ed3b026d7deb, 0x766508d308aa8b1c609fbe03f37e9b9a42081a94173f9a274c1f8202ee92a3af);
  (false, 0x36c14c02b991395462659fa952f0dd8495ca50837fa33e32ad653200eec14bac, 0x55322f7295f5a7afb65ce67cf45463f675bd75c51bc57c8dc0a479156f059d4d);
  (false, 0x1c5a5d58c57d5902f313a764a676dd61aaeecfe0c0dd55dce6c489a4b579c6dc, 0x5b1b8cd13c461e47e54b37218306040d976cd5ce57352492a73100cf01235005);
  (false, 0x206c9913e2deae556c6cf1e5ed446ea60360d8be0562fec21522bb2879d7cc67, 0xa7e5c9a7391a2a54de64697746407b1b7d8abc442af8d5c414296ebd7e38ec80);
  (false, 0x6e1d9b5afea1ec4ba9da5ba93828fdbec3efaa78770024356d17f71f40f0edce, 0x86d9bb3dcdea0ab15b2b201e9593445ab67702c4f40a0021b79f4195936d2dce);
  (true, 0x3a09b9b74842ab20fb33a9fa8f7ab3849b354acfbb0dc243a6e82ca3314f7a02, 0x82802805119348987a5f9f7c23c9016e99538142cd41af52bb6e8f23c98810c6);
  (false, 0x428668cd73b327685d959cc7d7e4c6846e02350f7cfd9616b74ee7dc9b0fad1d, 0xe7b476ebd980d21b0c72ed1286337d082f185152dada0285220fa4a95a890641);
  (false, 0xd1b72dd5e725cbf528edd9bb8229b1ab735beab15135b4c2c531eac9f60c57c4, 0xc83ec017dad27096805096708f889790c3382caa9431a60cfdc216595bc57445);
  (false, 0x9ca21b877e3cb3d548bbbaa7b465a6845c38393d696c5af694388d0afa0dd9f3, 0x48bf9d0e3928795ce8b7c59d953b10bb7b9921abe1e9977a0ef939fa2f0e748c);
  (true, 0x1f4f5f5b915adc63af0db9136f57bfa8c25b0f524eafeeb349f6b1a7785a79ec, 0x8fffa6867af8f8c0fc4276ef7cc2e39a7d95c2bc1bbcf7a0d4d9f5f781f9d094);
  (false, 0x50ff9b57ba9d6b5e6e378db851f815c41aa7777343746ccf079daf28e00986b9, 0x6b762ab9f567b245be3c62b1c3bdd178e8f2fe2b36ca86dbfdcf2cbd71e25c49);
  (true, 0x2e4008f37565aded35f336c74a2654ff17eda27edb102625ae1895e3ed728c4e, 0x1a3401e2c8490ff858d11ad75f211edb3ee42bcd760197f24bc512a086b6a98c);
  (false, 0x2ae9af2d7825e569394b2c6fdb533b23d4244e4dc7c15fc76cab0210a8e924e, 0xad6a8a6e58841020b62444bfd6459a5c16035d9328491ebfcb520af51de8b6de);
  (true, 0x4aa2dc39fe7f512d321e31cb2ca662a83ec3969875fa578b581d2a2410638093, 0x2f1a6114f5dc8ded73082c4672be9c5f8aca94ab5bc3231c93b413683a5f4a37);
  (false, 0x8aab25d980483500df632d03a3211598731442dbf59ad143463c6086e561474, 0xf689f0c63e9928a15432759ffc6790f938f7a4d9bb5b1b715b7b8dd184abec45);
  (true, 0x6a1b753e1edd3fa7955bd13c14f8a6c1c5267d313b70e9ec590d3409d0bda383, 0xa0bc6a67eac99307424545eb465f9ddb571e73d586db77a2472ad92bd8038389);
  (false, 0x64ec0faebf431825132267d54a0955f634f8bd817d0eb3f95b7b4bf8a91d9e44, 0x30a3b17e1c062a0a4bc7cce9c927cf578f0ec4e0eaa0bb32bee1ac0231e91d95);
  (true, 0x14ef0df5578ed93c984c1a844e04e564f6f0a61f68c61181b215802fbbb6f0f9, 0x6ea696028ca52f70e2efd3e96c811614af5b683b8c5cc5750271fd48cdb075f);
  (false, 0x2fd3955143e6ed27b0f1df28199cf139ae7e237a88d6da64db46e04d0c6495, 0xe4310871f9f352e316d0cede8cea70dc0123394ec21e3b5aa7dac9add1ccb9d6);
  (true, 0x6235f798adf962440ac834d1c2f71181131a55757fb9488dffacb139f32286bd, 0x340fcb9349b4ae5e956cc7f244dcb7ef0ef5c2524b69a2e27177a4de8dfbfff1);
  (false, 0xa966bad5dad615276237630afda8bf951ddbd94abb307955ab2fae2f698e408, 0x2949f68e998c5bc80fc7d2fe4bbcd3d71bddd0bca0b050b97e7d38de5310e4e9);
  (true, 0x11c52e60314fd7b3323f69d26cd50925ad25f7cd23bccecdc61488383e8ace86, 0x3c2660cbcdd10e8173c4f3232b6d28f67187e4f6224e17292e8aa734a778ec84);
  (false, 0xe22032077b6989a402dd9ffc7922a74b206ac1e45389d41ddeb5fb9d110b74c, 0xa2aaadab4f00d6b4c76fbca9a19cbc26d95cf32a730dd83c877eab0c9f545b5c);
  (true, 0x46027e283b93b9cde396106503d0226de16992a7c353316210a1762f59f713a0, 0x4d3183fae0434b56549c13834cbb05078ed875bfdc68c4fc0c72a947b0126da8);
  (false, 0x1746d2f8cc43df6d21eea8ad6052456060e65b2ee10561d91cbbd33cef4e58d4, 0x110fc39a6f81d7188a4171cefc34cd51473fec758200c9d5fe75ce8789e6d714);
  (false, 0x12318f305800bc5a211de233dcaf64cac70608561c4ce2bae4162a91be79dc9, 0xfb07d6f0b54bf595c90f8c4bdf71b19441452d980dcca6f2346d4c1bb08a3759);
  (true, 0x6c0a5c3c752c5ff0ef5faaa53cf979cd18406bc4edb9cbc0c2018fc2a70d8b7b, 0x2d014a91e13c37bccd0e1b0b5267edd616c0fdd52033969d302e7248f9d3d799);
  (false, 0x7e97438fbf50ba1803759973404405ab7739e1a592521f659eec1e103584c29, 0xf299321263cd877b32c781ae17032622fc42668d1872be95be614a5c120a59a);
  (true, 0x68694e813c1bda11323bff93f7bc79663f2f8490abf9720f6bb74cd1ad7e98e, 0xaccfaa6090e8a66fd4b9bd183844f8742b4c914758388eee734182fb7d8d947a);
  (false, 0x74a7b56730ef122c288ae04f710d368c0289005b4e4b864950b58f7d4e8a0a0c, 0x13bb39dd3f298f943006b6bba6b719f742844158612a48ff8eaa3005570b5430);
  (true, 0x87dfc2f451e3aa2a30cc65b4bb825fafcdab1ecb25e8d3c41bbf1c1f6660375, 0x6505492395be582d61f23727c235714188fac98deccb75b55f4f7e4d2f46fa15);
  (false, 0x27dd2bd22c4e872e1d6d6cc8395afbd01569cd89ebb7692ca016a76a554c51d3, 0x3ce63214e22a424b7b7b83007328f5393af1074877042a17e6a6e78dc315578c);
  (false, 0xe7cb677dfd31386f328a075508dec48df01dfd599e412d7d4866915369b43cb, 0x115df260b628047a39fe2fe6fccfac35e25de73964a83b8dec410673f983b85b);
  (true, 0x7797afc1d637d184c6e36af8998b6dd3fded628c03629d51455053cffb16aa5, 0x7867315e55cd67f6f5ff6f41fc784e4c6da387997ece3cb1359cb2a80e30135f);
  (false, 0x38a0e7e16c7fc43e249f379837309fd77157c5887467aa7ad1a5487ed3d25245, 0xef83ffa054513a2034bd06ee73229d296e7b0a301c3a50833e401c547ce98f86);
  (true, 0x6715a561ff05358a761f3ffa1bf9fdee09a23dbd20d6b1d311cfa43f5b84cd28, 0x893bf489d07add46cb1a363d20be8d3ab4905c1cc6f1b259c371aff5a81f31fc);
  (false, 0x499139c66bd1d2d8e95bf0aef4fd380a3fb4b94da0b4180e41f9a36588aa3e0b, 0x78b9258ad14f06927d4fb79073fcae4b64d5b197e24f028c2ae6cd256d74ae1b);
  (false, 0x38ee1919a54c1f416dcd6ebee83831fc3a21cdd957ffb8992ba197fd7637af04, 0x9ac328c5d6cdd77e0255b747f2d0db954e6fec258e907fb09183bb3cb31865dd);
  (true, 0x429b9861c96a17fe8a0647fb93b2c03fd43cd86462330a5eec40d5ec13f828e0, 0xf6d1b56db13df93594af93138f6f71888a8e822055cdd1d2439c0827feae3d36);
  (false, 0xedf7b4797c4a823e7d73c09a6ffd7383100c7795f1e9a791372ecb698da46b3d, 0xe9986cadf18c447af9303dcbeea94dd3a66184620c845eb88f4709ebf9af32a1);
  (false, 0xd526d096b38a35cdbf4ad53da7b2bfb8a6deb1dffbde795d6d77936410dbdc58, 0xacfaf7baa1a4eabd6dfb56f10a1f52c662b789970126279e0d82215d84fd2599);
  (false, 0x74e232ec065530701de7083c7d3d129d6993f7f862df211de13bee722f2e3f26, 0xe3bc4e03e6a3ff88b66129cb18a348ccea5372416f102d58c354bab54d1dd497);
  (true, 0x6203ba919d142ad04dc4903821c3f3e8828f4711bdd1e81a35ca99eab78d0129, 0xc09bfb58b25bbc8663e56845844c8b41e1b3de8e1f4435fb96ccfee394ede82b);
  (false, 0x90ea580ff0a2fa6a3f528de1d6cc4da29332caa9c3199c6a73c9c22e1c3adff5, 0x7358b2ac97204531a7aa6f3e8a92fb330705b7d0fb9d3bd26994c3f98666d72e);
  (false, 0x33f8cf42971c2a20deb6dd9135bb42c6915f02f37ba0157896750f41ceb6513b, 0x3ee10139ee581fe34a0275eb76cc19a2c0c48d1a64be2a5486138d52243c9d7f);
  (true, 0x1b0ff38f8fef69b1930c77285343266eb33e864ff7b575813fa92dcc7bc67aca, 0x26e07153ce144a18a807f1c5558831593e9fff7f29aac6e831e68f786bf6f07c);
  (false, 0x5e7666b6be927499380a3bb26a1e2c203d184bfcbac7b38fc3f732fe27d73cb, 0x6060472c4f70e333496a09ce2745378c3d8694d3ca0e7503d8c3caaa9ab62fdb);
  (true, 0x297aa48b8977b1cc4e63e8709e18921553f79adbe18903fbe08b6bf675ed7dd0, 0x8d2dae178db8125c2347e54e5137bf16e09659187417c9c843bd426388110f8a);
  (false, 0x4ddb59eceaa3f7ad8e870cb77e25b5ae13ab649bca8b2094b12a80f7501cf76a, 0x64955bba3320eb868fd4b53b4b388a19165dd8123bcd6c633075cf5901626dce);
  (true, 0x2b4a346b7f5af9c59d78a60da042c5ccf3ae274026cc126d4f769d6a8cef5106, 0xb3f5afeafab8a7485f83235bd7ada25e20a187dc758936611a8060ebdaa167ca);
  (false, 0x7e817fcd49c6b9a3f5315d18eecb6a483b9d643e1f337dc47c9c5e31a9ef249f, 0xc2f30ccfba59bf3d42b73122aefc6d5e31d67f77987684997b7fb59568175003);
  (true, 0x53e7603ecf111f5f7e2b207b07ab69069ae34311a1cd4b1fcb1dc4b029a8f4dc, 0xbc5f7f6a3eedb0a9317832128677e3b07f68631405bc70594176a0cc06b56ac6);
  (false, 0x8a9c66c4674ecd2d7c83d09e34d1a43e8e293e6b5d471d768a4dd37c06252303, 0x11e49c839b73a174c9008578ebaf26559faaa75490269596fb9c809d76a9b427);
  (true, 0x7b37039d6dd256a0831d6be11ca289abc463cf7962374ea56f84a4e4337f4d3, 0xf748b3b73856f08e0cd598f836457183fc008b8907730f72a0b1fd0ecab3e9b5);
  (false, 0xeedd5f7212ce9075bdb54e2663a3cde1ff6ad4663c9e7592d2bbcf7eed6fbc46, 0x2e3fa99cba0804fb99f4bae3be02d39a47c1d3461ed73f34a7238c8d39e8b63f);
  (false, 0x85af0c946b9b017f51264532f47c70fa76df85e1a53124943365077e65d9a56, 0xb8bc1ad67fe344b126b68ef766deaccdc745b44509b85688a9376e90c84b3dd7);
  (true, 0x4f81ef99d838bf6213c26457eef3319ef6ccea45506b1637198387bd783dc78e, 0xad086c82e29eb027f711e31bb8c78a7d58938c34402cc3d0cd368ff586d58010);
  (false, 0x74f462f0516bb911b94e26a591ed40510853b54537a93ac9172fad13834d64f6, 0x688e905b75a4cfe8f945a909e6a220fd5e7f58cfdfacbe129eacdfd29dfd65f6);
  (true, 0x2cffff58968cf3d3dc8489f8f99b41c97b581de0c1a88e5c4520c2e8817d91fa, 0xd01c2ffaf667844ea9ca12f33c72cff2073ca8cda9a7417d77369172e2a05cee);
  (false, 0xa92dd113017a0b374f58254270ee6ca126158d6e5b403a3ee9269d81d4c8e4eb, 0x9d37ff9f14fd0a4ae3b8479cd59baa0c1f6f6dbc135be0ffaa4686025804d22f);
  (true, 0x43aa3d67c4292fc5973782495dd88ae987c346a8486257271f062807689808e1, 0xadb9e70c82adecf22a0530d617fb36841bea00388b0ea12b25791b6808595c33);
  (false, 0x75e4c9471f204f58d0a79eecff47e6db9fb2bd3562713fc50e54269357b2efa3, 0x5c3d713b144675ab46d9acef87d15c9d276a62720bb3341096dd86f7c45da1cc);
  (true, 0x27b2eed7feb839b1f047d148bb94231b8dc4457316b51b121489f9fadbb8fa24, 0x794723a7f272b49a318831d92d443c6572b1bf833f6206b7661b61d9d134da4c);
  (false, 0x39745379c8c4984d1451590efa83977f2afa8d3ca802d079daa40e59d9fabcb9, 0x1d4769ce1e7fcdc8278c4219bcafb504641ec253220d821adaab128b5b004349);
  (false, 0x35941e49251dc61fd13e3dd590246a4a134bf375291b5dc91bb561450773c40, 0x50142f00523fea803a74f52b19f5f8f650b032d56adf6e4ac559db3048268711);
  (false, 0x190c9ef7ad2289b7ef303de7da67af79afe624245ae6e6914f9b6c7dac97ba5f, 0xd9b2da2165ba7d53b2b1ba2804ea3f1339df0bd60326b39c714cdaa39ce6a980);
  (false, 0xb920b2c167e5382bdc0ddcd254fd7f0a0166a72464887babfe6d004fb07d886e, 0x51972436a3bfc04eb31ea63e4d89e81341edb2127d13ea0da900c7b8b2b7c86e);
  (true, 0x231d911ef404ce5201e500ce4f7d58d9913e608919e71d069972d5a6cbe6b6a3, 0x566529d688cd0ae5d8d46caab59753d7753dfd596064410610598b0170d4ca27);
  (false, 0x1d2820164b3040cde27a48e140e9145c0198a91099d423fa12bd59e641560518, 0x16dc234240767d05b4922375a3085ad4b3f2970141830990a8c629f5d18f9709);
  (true, 0x9d6b00464fcedfdf9d4a913c93b619597ea923adce09995886075cc7e72f5a2, 0xd7207c0d84f54c1ec5545501c706f50b7edb70b23fa7213be1e0e57aa79a3960);
  (false, 0xb4c7947ea999f13113acc464e8c39378d0212482892f9e0e2876ed9d8b35977f, 0x6da2c434f401d4ba9dcd9bec65de3a47987c68aaa747e1ab67d5f0e1df917b7f);
  (true, 0x2f2f96a86954d1c47bb36c53e22f4c4cce59ac1a8dcd715fe8ba805c7ed11077, 0xc29d756bf4af3bd10d26d9152b86f088db37fac101d02800a4b51c36e8ef2a29);
  (false, 0x93f306d16f129797b2802c3075205dda797e02bc46e22414edd89cb06be7867d, 0x8c5ff4782b016407eba716ca8c43c35df2003a1c1be2d3067de3b9d67b67010e);
  (false, 0x4cf9175b16a7d22eb084ba041602c263506bab3469f58f4e3d8b24b24dc0cf8c, 0x2d679aba040c5bdd39a78b01298a4da80b537e575d07d1b73397488f9b05ec50);
  (true, 0x138aa7c26747aaa22289a8649b9f32f9c32bea42b7d3c4e84e1940e9d9ceae08, 0x9edc4db2173b9256dda99311cb7e987f93377a757c0837d48762690025f2de68);
  (false, 0x6294ad7dd8eec2625c3fe62fe6e639b059ce860e39c2687f2826a72de9eb4373, 0x198bd011cd409bd597c21b08ee7de4431d083d6dcd47c8645fd811e137c3cdb3);
  (true, 0xafea785bbf956aae0cefd90a427f8400c7c62207d10a9bd96414f2295e37211, 0xdd706de015f301b5c40ddf70f8aa1baa0bcc7fb2b13f38770a51cc05a60e039b);
  (false, 0xbf8b4f15f8acab81e74668577895a47b0a7ded3eb0250092bc148065655f46ec, 0x981a54212277741d6b970ae3f0804974255733ba7e2f58995e2bd9e4ce6046c5);
  (false, 0x5a5f469ce5ade3ab5caf05712f9589d9f73720978759394baabc9735aa9437eb, 0x7e726dc0c544c972cb88b8aec6d8defeaea8c6dc434cfb7596c1b637dde48b84);
  (true, 0x366bd4d8b2e679088e867516f4e67bc0d767386893cf5ce0e41d152a5b4bfb2e, 0x6c1e2b8f0eb24dcd82b27e71af372707c36eb9df972f9681d96d3efa2171966);
  (false, 0x2da9784f1f00ba9fe5f67109130f4fc96074ab2c56531568b569015fa5f47f, 0x67bda058a28fa7c2fe685a455654d7ef8ab61829305b764a69de37b00a7f0923);
  (true, 0x2ca612c4d35624c082bf88fb292bd5ac037ac6f4d3b0bad1816cfdc3a932da34, 0x5bac7aea0d184c2a12ee97dec427fdd9491fb4c1124e4f866df127d8b0a997de);
  (false, 0x20d41397eba8dcdb2682aad8570c92b8791d3c79e3d576a8e207abacdc443bd8, 0x584add1948d091acf95c138bf7509f40bd0c610dd7043ef222633777f977e05c);
  (false, 0x1e738de61215b4d88008b3cdfadf495e62439277663af9b58d6f35cb1b6a7d68, 0xc7c7123a4e3b0262d680c56598176346ad8439da797f4760e78bbde86d939e78);
  (true, 0x55fb581a2def8225bc09376762dffc93c9e8fad7466153284d91351990c69bed, 0xfd221e38a4b772d66a223381843ade5a2e4a457cf2143a8af6531febff662c7d);
  (false, 0xfa4c7448fa7c2121c8138503086efba9dd51409ad9ffec5793ec822c4d5b6a0d, 0x7fa644c3207d26c4ab093cedeee9f92008069c3a0db382464c232b12ceb29f16);
  (true, 0x36f052682228c3a5ca58a38ee59c978bb3462dd10605aed55479e258258b5d29, 0xdf8f087b8dc68573904f4ec00b6066a96efd3de7119d70a253dd451a2b356fdd);
  (false, 0xc33a80b27e8ab5781b755797cdb6d77945fd56207e49e2af0f53dc44cecd7cdc, 0xdadb57f718086f6fbc61d8860abdfb750792b97dd8b935271d58b5e48f30e1a5);
  (false, 0xbb1a4dc12f05aace8834e20e399c4b5d83af313afea37b473a6eb267a2a98dc6, 0xa4acd49f65c01c024a5f9674851cb55208c530e4c44110d23c1b97bb5d6d021f);
  (true, 0x46dfc70ba1ea3e1c8b7fd5b227955ffad61c731ef84984d193a7b1fde17b0e94, 0xbca07a3ca081f9190a85e2066335ec5e318c9d2ab8ae62451a2519e766ea8d06);
  (false, 0x8afc18229ce177cdbba2861fdd69fcd31d95326886b42a97e3971ec407c401ce, 0x35c846b11badcc676a2632fb1c40077e7352944f69af2f8a93888adeec6b9df2);
  (true, 0x1725b20930b2849fedcd2af5994d83e743fc450af9ff480cfc37aeca227ff798, 0xc724918882a5325152a07759db29d18b7bca3319274a4c60a069fab00e67b554);
  (false, 0x9ae9df7c17275ef646c3fddf83f33a5e71eddd7a282789784285487a7f219ac1, 0x8fbba1aba955bdfa795c82be12d20e8328e24429a213316a5efe2dd319297e51);
  (true, 0x3ddc62466788b77d228157ff30f4fc2c2e124df567da7c02a8ab6ef5ee27b3d0, 0x5c3e480d479d2511e1995014dbe228d2031822d63a1de4be55ea540eb9b6677e);
  (false, 0x213cd2f0a76beeac13d6f14ac39ddc3ccd86b5b345e66ec97b0f0743aa98b320, 0x89cb244a6f0a393f4fd211992246c5ff30e1ae6bf164cab8e3fe2c9717975524);
  (true, 0x3b4dfbe2f56447f8604ed3c0100c9bdd8ffe5ea49a347b659965c7f2175997fb, 0x59f77a3ee7c948b96410368949ab20662ddff4b21f2c172e82c80a2ad9e184f3);
  (false, 0x1f9e023cfc8b41990aec693e86b8c3882264e87f5448dc1663699d0d891d8171, 0xd75af310b424cdd3ea3da63b8d7755db9db425e31d652902c0ec52d8774f001a);
  (false, 0xb529e496924717456baf432a9ead93b3e417377536760b1020ecf4e8678bb8c6, 0xc43ba8612e6ab09327512f184967e1f1a2b1332de7203cbf79d85341a397bb6a);
  (false, 0x966b67bc7109dd1acfac5bf133595e400bf9252553ad795b76948c28b23a8af4, 0xe0fdef8e4a5aba451f4c60a7c266dd9a59cca9bf5cedf1a6cc9306944e7a92d8);
  (false, 0xc5bd5f1d27461a557efa8a4bc2edd7e7f1de9fa90f28e9ddfd95aec6b7aaf4f0, 0x9ce0d432118600e1536c79266977a22feec7cc8dae1ace63765084b2a1c60b30);
  (false, 0x6022c8116cffba75ffdbc0527e9dda8bc316fe329f9fc5e56e4ed3535b18579c, 0x2d6ef39a362b92a235e24fb7c5f035f0f951ff11e01e0e96457a955b09d5809c);
  (false, 0x81031ba7f70307571faa3f98ce4cbb008ff71facc03cd907ebc916205dc45b9, 0xf44e04104aaa16014d0c1c02946e4db0bbd1430d960d2505b14c4d644210a4c9);
  (false, 0xe924cf8671770c7c27b5d607b150a3583ee13efa151b5700b34a2dbb8e15cd0f, 0xca1e20ca225e6d1474c0e5b218f48c7ca2ae35e77015959c2dd06ad03547f2e0);
  (false, 0x9f938f4b5163c9c267c27b702dd8e3ba9d7c8b0b24085963c29d5f9b73929ad0, 0x24ca7edf1916fedbd42e8245f18b5264f4262dce9ed4102763c06a64d23eded0);
  (false, 0x54993db3b4c02f2980044d1cb3af3caa4311d8eb26b771cfa996e39e3c2ff8e, 0xd4979897a7f37384a7b143144589743020ff0fd423fcfef110e6f5b7d270688e);
  (false, 0xb08b6e813c93384f30d289e090da4a15d3b4d37342c0c25f75c6a7194bf8ad23, 0x69b8695b2f6d8a05a8a21289b3370fdd3210182ba1e4f192c6c08b01eaec5be7);
  (true, 0x2d802ff86ce0c613fadaf4e7737c041456575bee20d1616a5b2b67eb428516f1, 0xd2807e4a086316d192f1d3ed852ebecc88f546ff1a10b4e349cb445893666853);
  (false, 0xad170fb0ab2ef9e108c5714cbb5820b8a84f3734dfdd169ef1c1244534535b39, 0x6822d866e8f7723db7796632d52ceb854ecba2112b582aadce15ba1bd2fae622);
  (false, 0x2a5c5491f9e9159e56fcbd5d639b1b100420edfe068d26d5aae46f9f3affde40, 0xdd2e13e1a88be6bb172b87c000921cb6a7f9a241fbf431ece9aefa414c48fac4);
  (true, 0x5f3170cddec26a245e8ccc31e8f503887be62320d56dd2034aa51fe863931fe7, 0x59030a17bbb6fa2fdf776f0689e2b578b29463e162965d6db4445a12fb82e39f);
  (false, 0x1ef31d0ddc6c9a2a740b4b75dad3c82a9133fb98e85e69bf70a1d31ac9a53664, 0xbe2142a377d16d1dcd40ebbf43b480f22ced802d5500cd0652a78ebc8b849325);
  (false, 0x8d35633d728dd75d0cbc6d5a3236b1d5563927286242063c2f926eafc6bf2369, 0xfdf52928172a8a8ee84c781b34427a45e38735dd2516d8d827d6d57a077aa6c2);
  (true, 0x6d4cdbdce1f3008c7b3c5918edb7ac855f91c3987a7ad8a1699bb53376ba4bbb, 0x75fd2cde5f96b293ea5a1016047fcb0bb1cb7ea83e3ef70c54331d81245468d7);
  (false, 0x3661656531274682e1cb2c2e8fd8926ed898fcbb95c97d06155dd0075cf323fc, 0x228fb229af9f5c030e31c5eef9ab451b502f206250d894fdb5020806ccfa888d);
  (false, 0x4aa7bfb9de1037889e09762e4c39a08aa1367c2e92786c029db5cd7188afc2b, 0x76d234365f5c29d7b02bd8ae59dfcbe4d2204d7b0a625b719676d242ccc519d4);
  (false, 0x372674bc0aea00cd1f6fce8d9e8fc56f5bcc467919cfcc6a27aa55f6838f7578, 0x726569facb96e731bf6db8ac70fce2e34e21e9bf20babaebfee6303126728d08);
  (true, 0x313c144ddae1fcb860c5678058a0113844a8da9cc94d012f88b8151b233433c0, 0x9eed3d2a76328f8bc97c14844285ec3c300eca9558977c098e60b9dbf6a66430);
  (false, 0x62a9b35b1bcc3988263d1d72c8c5b164f70d9471404ab784622c699d23c52aa6, 0xed7313b6f47443cdc29fc8dafae75183fd6dc1faeb357e51314d686f793ab3a6);
  (true, 0x663201378bf56f808428e53bb202a7dcb6358587e5460057bcdded75f5cd76af, 0xd2cecef9af420ae5cec167a82d91c8de8843ba554bd2b787c94a4c93e5ddbd43);
  (false, 0xad97f2a4124d2462a5c1a6cc97911ef99e7e023f191421801ba357a2c357e4a8, 0xbe4f4dab003c4e60cdecbc8b9eaf978267f02d34ecd2c57c2fccef3ef2f1e431);
  (true, 0x51e82f3c6692266cbc40569c2747f47028fb6cc852243ed24b8131f7187635eb, 0x3e3d3e0658b41f120dd03a62fd2b49a32814663a161dcb76fd002d7d0b1d13d9);
  (false, 0xf21b8b1c02650b4c48a91286ae4839924a42ec61248e71a2b4a5ca6080019f6, 0x3bb4225da977495a237b5ef9b65789f4861f1bf369c8055d29258b922eb407e7);
  (false, 0xdec8697925cd56e77e305746542b2a5b20911a261a178aceedc33abf48bd3fe, 0xc4d086dbec01c178412d99d2ad7e3f3a80f1ca35a6fd79460415429a15a2466f);
  (true, 0x54b4e043cfc023ac3bb0117fff93a0a5c34a48150c56430ddcb44f7f31c30a51, 0x9a52f1283e0514f2fc91194da289c9510d053a7e0b5a13fd64523ebc32b8923);
  (false, 0x5d07e504289a8892912984abaa5ffae38c1fa6e904c2fd0c9d265e69d5cc70, 0xa453ef26855524a07cb0dc97b19f327411cc00af72dc97734bb3d8f3170e4739);
  (true, 0x46b98482eacfaedbf4d16ed384e0ae1bc967fa9f409a511005af9c9c8691911c, 0x98f18b4aa961063d204d8a8aa011cf38b5f6081da31f819a683746719f43d37a);
  (false, 0x5b5fb95092e0031c45e26bbc7a7f59fda6b5e449fb34df5c2ed1b080d8450d11, 0x7d7eaf3846540ab3f6c42ecaa3c7253515bf8af9311822a341da6cdec4d36335);
  (false, 0x3d84f5ce25863f81eedc94115c0d539faf195842cc4e9de743392a4c955ac2aa, 0xe20717bd99736d63ddf9f9d408eca2c54220ffed35704fb7752650ae6d2acba3);
  (true, 0x61478ee31594e323ec06017c1822f5d416f41e5490aceceeba4cce77d41bd365, 0xc47cb756a46391621c1259595e44df974dd872e130e7851109c990811539540f);
  (false, 0x96cf357f61c3e8eb134ba90fa8efd820939a656d6bb813079ab2c9a8aa8b46b7, 0x70bc1db5d9ec5bf4a527aeeaab7996881437261f7181a7eb8c5ad567aad31f98);
  (false, 0x31a5243af6debc6553a0e6fb8f4c8a7c3730031dde62cf552267b2402063e3da, 0x791ad97f48093b2e3dfd0ca3b9f430ff8c0bf7951a07d3a3d3bb22a318da0e1a);
  (false, 0x394a646b7206c7a5287c7f2ac7cd7af796d99aafa6327fac8b5564b6f123b176, 0xa72b0726a27df85f631e0d5d7488ab28d17920d54678cd1a9527de33d6328c1a);
  (true, 0x47f27323bf7e549dfd5015f8cb8b90455723d351453c556dea4c87f26c28949b, 0x42d1499609594e445d8c62ad7a267f1613318efe64609320a3408923469ffa87);
  (false, 0x1170950aaa64ce7b887377ab73212e581851331e5fa06e19ec933d4b250de806, 0x96ddc9f78ae82394466d8c0e5765a3843b23186e59fe952b7721d3021ebdb37);
  (false, 0x58e8a8d4c46d2ed17b4116d5a0f454ba74c3979b6544b20db947aa97de27ee, 0x49f83449c783c615b0dfb5871adb9175b211e996328b2c2219509a1af88f4dbf);
  (true, 0x1fd5e85d8fcbb89abbd48dc3388c5adddca84fae89ba74882691b9ea34ee121e, 0x5ff1e8d0fb4dae3fb0dcad3b5e2ec233783ffe68ade656a324a434fb1ea1fb50);
  (false, 0x23f56f636badb10ec1a70d0e1df8441023227885790120fafbae3cfe13124591, 0xb7a7035f63fb8e64a0cacc4d51558059b053e5469134b1da5d93e942e4683e91);
  (false, 0x83c033c84b31ab72adb3c21deddbd4a2b854901048321c5278fff6650176532e, 0x35125410b3dfeba9b775d48ef41e4fe5a66d521d6e7a0fb400f4050e2e90e14f);
  (true, 0x16d7632c127cd4021e5eba19ebe26d8c26eac41e139d6d5b1faf8641b4206b7e, 0xf8e46fe3972a911ab384e4b8b39c3ad1b7175d03e3d208c5e4314f82c3b83a90);
  (false, 0xf1fb64a1652a4902ff25df87e9c8f1a67578af1ce74bcc5feb3146782b076411, 0x453bf1b0082a073d4ef3a5a18d54c38b8f1587248e1ffa6de733ce83c76cf511);
  (false, 0x12b95e524270b202ee3719959c8cb39675e19da539edab636bc14160a93999e5, 0x6c103b9507a9cc828e527bd987f4a2017fbd1b0d27a0054cdcc0026c82b2506);
  (false, 0x2d9db34d6c93f55f27849c433d7b3f225a4c67641e982533984a20df223f19, 0xfd6d48feaed3ab490a33ce4af04aad11770c7ad3c8b0803da7ab907b480fb3d);
  (false, 0xfae130ef9e20b1735161fce9f7bcef4d57cbb8206357bb49425ac6c2999310, 0x44ffaf4850bd6ca2a697ff83ca72d284e2eb285bd7dae51a6cd7e466be2a3f99);
  (true, 0x1db23b24b9711ea599f263c68189319a21d32d05aad71f82df47a0662b2472ec, 0xbb92cb64ddd486e8e13df6c43008a6310f2801403c5dbb139daf97a99a67028a);
  (false, 0x896fc952862a6c6133a370c4cee308d56a5e15cb179e63e6fbdc6afb30d71e1f, 0x260ab4220b7b4e4031fa106e915493b8348aebeac3ff56d876a8a9b043e99083);
  (false, 0x5a72decb27893764bfa6d6670b8dc669c784113ffc0e8037e1ae2d43e9a8d98, 0x9e18a6ff7f207cecead35a711439298b3a4350ea4656fe1c202a3b130a430a1);
  (true, 0x440aed96d7d0b9fe41f8e8ea4b5dac87747a5a418cc6e4baad3800bd33206c2, 0x78d78246432c32dabbfa7ad41a4c3ad86310457d459d17909a82da7a0be33ed0);
  (false, 0x390abf8e2c5472fa205e6616526013bd7b14281ddb7ba8d6c86afc02912e711c, 0x71db3176eb360bde2cb1c3b71c3b17073781abe6b04143a32fca6b60e577da1c);
  (false, 0x32a33d58d94e1f9376ba8c4748c57ab7ceb187e312e0a288daa6a3d7ab1ab0da, 0xa40353dda0d53cb49b66281d1ea65f0e082ae5187e1951ea6ebd452a42f663ea);
  (true, 0x4696d3572cef5aa8990312b1b3f4f82daa1847045a8ae64f5e3ba247f4033371, 0x2c0dbbfd0bdc828eae74b789bb9cd1c94e9c874afe59fe229db0de45b0ed0abd);
  (false, 0x794b95ba5676416856bb3b91e245d16de438220a5dd517389721e9b3e26af16, 0x1bb90cc697305a65af08f2bc1b811d40418d84dc65602e9618007ebe008bfe9f);
  (false, 0x3008e755e8e7da436003ecaec41b4a7ffd0fcd6c13deddf74df2d92979a44a0, 0xd9cc08c1356ae237474bfae6e06e023b3bde180600e7497fe351f22515842b61);
  (false, 0xb94b89763a1484780433658e53fff4f8cd55a65e723da58a7d3f9eff99f8bc2c, 0xaaa38d4aece36dc67b4d668da916d11a001bcbfe59d6266712a88064475a76ed);
  (false, 0x71bda0252fc0f66e7a235e1263795dcd8b8d4245b6c9138dd63d6c3689b5079e, 0xdbb78c601595c16a3ec7e28b58bb0efd944b7fba7929f05b8acaa34dd5985f07);
  (false, 0xbc938dc71fd9de78ae453dc1b741d6877b3780d28cbb811ec0d4c834c3058114, 0x37b841bf3981f5e7677fc7bf47794a97da589ed730c3c0ac7cc3c53d649bb345);
  (true, 0x17fb28ce05f99d93358e2f1d141bf0a774c7ee74e2c5959a48ef3958697656d6, 0x510e95326e8e67d073b7d7c5bf1ec41b8d8087b99ccdcd8ef80e0303d43bd8dc);
  (false, 0x19aa3b3eac182f24faacd71cb8ef4562976ad35f62ceb42dda47f292e7fe53ef, 0x812469e1b68da15c46fd080044d228ed0296e50de83e1fbe2c75ce4f51a50ff);
  (false, 0x4125b7e3ae66bb1a644102abeeece581d8b31fc94772646700eca0f560fdfa, 0xa6e8071f940f884e54a7a018a9b2488fc4bf3105a4a9674afb35dc9598cd5bfb);
  (false, 0x6cd1bb8a4a44fa748c0f5481e98e513741b9335737d7ce6ab52b4e5c06b8d930, 0x971dc7b66ca4718c41d448ef00e36abbdb37764645a062f92d724a8087c34149);
  (true, 0x4109e16385057b44ebbb3a7f79578b0bee4062a5a5dcd6fcfa40e91c67f31cc3, 0x1)].
Definition c_p256_y : Z := 0x6e2de1e253b630ab90fb6c14c9913e3f79353ced1be9c68ed42e7ee18b96074e.
Definition c_p256_i : Z := 0x4f5b418eca523fb75369a24772ba6e620c00261d7f768df08143595c559af3ce.
Definition c_n256_a : list (bool * Z * Z) := [
  (false, 0x0, 0x4);
  (false, 0x0, 0x10);
  (false, 0x0, 0x100);
  (false, 0x0, 0x10000);
  (false, 0x0, 0x100000000);
  (true, 0x0, 0x200000000);
  (false, 0x0, 0x40000000000000000);
  (false, 0x0, 0x1000000000000000000000000000000000);
  (false, 0x100, 0xffffffff00000000000000004319055258e8617b0c46353d039cdaaf00);
  (false, 0xfffffffeffffffff0000000086320aa5f4e9c848eb42c14f66e1, 0x2d955aba561fc164b2392b6bec5961906ab8c68a2abb372e0f80d88a9a9fedcf);
  (true, 0x0, 0x5b2ab574ac3f82c9647256d7d8b2c320d5718d1455766e5c1f01b115353fdb9e);
  (false, 0x207764211dd340b1713ed1df3da3ec0429ef88f3fb7fad4e5a79759020c25fae, 0xfd6c1f1aa7391ee8c36c6a7e1fb4ddcaf4f81a539116b0009882e3c828d4976);
  (true, 0x0, 0x1fad83e354e723dd186d8d4fc3f69bb95e9f034a7222d60013105c79051a92ec);
  (false, 0x3eb7b8c97aea966d5471b78d3d5732dca6da456c28503a35775d8bda3ddaeb7, 0xe92ad347147e0194811fdb0fdd8183cf9a28eee6083e00580df72f82cc184ea9);
  (true, 0x1, 0xd255a68f28fc0328023fb61fbb03079f776ae31e6964622b283494429bcd7801);
  (false, 0xacd0a1eb937d47a84721cd878e689905aac41dcdfb887783a591f472ab9d03d6, 0x81714fff7d6b3ac55b11422e636948910affc1da0223475d9979dffd7ddccb4b);
  (false, 0x417364c77665dd0f444b09e5f7aa8527c2feb2af9a1534ef76fefb7db2a2e883, 0x65a0749d9b1d2def128a2b91a3199210ddc55a3be4d342bb84c187558888786);
  (false, 0x285800967ede20e87765ac663f1674ff5d395462b458a873ec40b4fa1c84f1, 0x4c9cdc50163ef399d1123e3d83f4ee2eda965a03e9fb459add6bd0887eaeb4e3);
  (true, 0x0, 0x9939b8a02c7de733a2247c7b07e9dc5db52cb407d3f68b35bad7a110fd5d69c6);
  (false, 0x5bb60bb38d5efe4c7fed82a7ea5124856c917676868147f327c606d917640ed0, 0x575fac5db8183f286b2f2fc7c6ccc1b808204ff4faa6e5cf289a9aef0a534554);
  (false, 0x1dd22ae9328f59854875de969f053fa8d7efaf2eab84789aa1ef3dc92ad2d1ef, 0x59ed24411aa24a3a67d6e0d8295aafc2c695d5cbc8da4d8e04aabc351ec56bf1);
  (false, 0x1f96bee189c94707a499b12bc6b1e6a57407e247ca4ed83d93cd3e3b73fb5c74, 0x4c1d497d6f816d6ff9b8303105e5bb0991a1c9c888fc8fe26fb35da3d2ac542d);
  (true, 0x0, 0x983a92fadf02dadff37060620bcb76132343939111f91fc4df66bb47a558a85a);
  (false, 0x5a859bf13169295d8af4373a6a25db6a090a367ba8cef91faf74f68442a482c7, 0x4faba57a2b1512371385eceb73e11358562425b6fe66aa5f2965100dcad1bad);
  (true, 0x0, 0x9f574af4562a246e270bd9d6e7c226b0ac484b6dfccd54be52ca201b95a375a);
  (false, 0x632d8cdfee3aa1c9dcd1cf8836a3500b0601a999297a8d960d54a0a1f17577, 0xf3988e7112bccc9a45f813e4ddcdd68612608e9a1f75fc8fd940a21456da6dfd);
  (false, 0xe7caf95506e548aef6293989df27744d9e2f5642eb4d4fa77a349e2e64f7d87e, 0x80d7483c5f91c4e6a9c0330544b31788648ae99b5b06e3c0ccc19e16f8b5b62b);
  (true, 0x1, 0x1ae9079bf2389cc5380660a89662f110c2ed8890ef628fca5c9716af5084705);
  (false, 0x2d429aa8a207ace43fd4d2df08275917c52bf66ff118cc272d93e85d3cd9a, 0xe03509c367e67eeb12a4f5acbf5d36a817a07e286c787ee22041ba3806ba765f);
  (false, 0xc45cdc13c5789214974f47545127f86ee08d7cab022e07e48cdf35f738ddf2e6, 0x60baafc5532acb30727daab4a393ead1b4913512913f562a9ded454043809e7b);
  (true, 0x0, 0xc1755f8aa6559660e4fb55694727d5a369226a25227eac553bda8a8087013cf6);
  (false, 0x92322fe0196379645afab415571c4039677191124443c4f6be010de325dc9661, 0x9c8f7faffdedd47845afe992d2d74a6e9be6ca22b779f4dc18c0fb1d7c65a2b3);
  (true, 0x1, 0x391eff60fbdba8ef8b5fd325a5ae94dd7ae69997c7dc4b333dc82b77fc682015);
  (false, 0xcbed17a166404adc4eeeec1924a7ea9c813cc8d630893cac3d9c1fe245a55cc, 0x8a3b807f94f0d0ba7ca7035f5aefe7af4879e2933821c08fa4acf662e035a02d);
  (true, 0x1, 0x1477010029e1a173f94e06beb5dfcf5ed40cca78c92be29a55a02202c4081b09);
  (false, 0x1a2cf79f65600cbf7961d71088ff5f9712db3cc69cb8e3692034b16ea7fc043, 0xb9e5a1ef5c323bb5c5283c351b9c8a5fefb6d830216ac8b041242637844c621e);
  (false, 0x86fdb20796e82ff7102ba318b5ad8a03146787bbd87b2da673359e11ad7c5a3b, 0x58985f1e45ed87e2991c147bbe012bfec1b27923fc6965001643ec938136e7d9);
  (true, 0x0, 0xb130be3c8bdb0fc5323828f77c0257fd8364f247f8d2ca002c87d927026dcfb2);
  (false, 0x7aa47058181bbc373d5b8323c391b1eb920260dbe8740d2ed5c2b62cf4796bf3, 0xe890c3dbee46a29dc541697a26d0fcfd28ee1b6e62e80172eb8c31a8741710e1);
  (true, 0x1, 0xd12187b8dc8d453a8a82d2f44da1f9fa94f53c2f1eb86460e35e988debcafc71);
  (false, 0xaad7c400c893c9905517b6ebe0155f179a91c8d1567f1191a74f5722badbe53f, 0x303415d3ee376274f6ffb98ac3240194ea3d8ae0e08be4b48c6ad1743e3005f2);
  (true, 0x0, 0x60682ba7dc6ec4e9edff731586480329d47b15c1c117c96918d5a2e87c600be4);
  (false, 0x244e4b2189764aef62330733b46fd9ddd5e4971da85412eef9a725f3aff53d4d, 0x2f8fe7733d1abe4eee72d9a98cdaec35f4eda4bd3bd7184fd04967bc2c51dcb3);
  (true, 0x0, 0x5f1fcee67a357c9ddce5b35319b5d86be9db497a77ae309fa092cf7858a3b966);
  (false, 0x23589f82f515a72210ec03761cf539101d0ad46013527f6efb0cf7a61c61c8b3, 0xba7a7bfe6344e36d97cd8332a38692c16c73a6629e9be82ec174cd1bcffd3501);
  (false, 0x87d636c89a9b5f196d8d72a08c65a173f78999d4faa760b4b8c3dd39eab84d66, 0x1203dd9cb0396d48b99b06f961d876fded3736d1151cf22137578b5d2f012ebb);
  (false, 0x1448b38fb90a81a2a1607bc215a01a66778bbaf0b60a534c821387bf0b49dde, 0x3173eca770b4c7ecf46a2452d238a687305bbcb4f8c9f848dfeafc8b372cb35b);
  (true, 0x0, 0x62e7d94ee1698fd9e8d448a5a4714d0e60b77969f193f091bfd5f9166e5966b6);
  (false, 0x2636545a6f9cc571d398f7b772321ce67c072ac8faf8d26e320352d52e87d08d, 0xe3e864c16723dddd2201cbe57dc7c0138bf196cbaeb811d664f3a4ed2f1d2bc7);
  (false, 0xcae5f5a68e022ccec130358fca4f460702c7ef4b5400bade4992a0a1613c7746, 0xfc12c67c6140f4a6a39008824782e75b053fc4a9967f2094bc4ddae77b21998b);
  (true, 0x1, 0xf8258cf9c281e94c472011048f05ceb64d988ea585e6a2a484e1eb0bf9e00dc5);
  (false, 0xf088c6a6e738d4a13c3729ea13b13d135e170d27112d32f2f0ee037e05fced92, 0xcbbcff340b746fd8dec4045c01ef7fa2a8f8a428643471ccb7a3a2c248aa5467);
  (true, 0x1, 0x9779fe6916e8dfb0bd8808b803deff45950a4da3215145147b8d7ac194f1837d);
  (false, 0x59a12442ced438e252d3caded5c8e6d74447a2336a3e7103783167aa026895d4, 0xb36b58a1ce335f92b79f16a087d9a5dc57cc6775b45ff6cd996b76a0db281ef5);
  (true, 0x1, 0x66d6b1449c66bf246f3e2d410fb34bb8f2b1d43dc1a84f163f1d227eb9ed1899);
  (false, 0x294fc94faf671811aa1a2625d6ec0056148d070d916592643a93fc2ba71dfde8, 0xf4f9ddb56a931ad52f00b0d6843bfbe233c13914d9945d57fa3baa6ee8bf2d09);
  (true, 0x1, 0xe9f3bb6bd52635a95e0161ad0877f7c4aa9b777c0c111c2b00bd8a1ad51b34c1);
  (false, 0xd5cd933877ba7e418062cb5fda60f8d40a74f86a2bff55392af9986609b35fa0, 0x46c228df1cd5c3c0f05fb16e1932122d74ceea6b9eb0aadc49c21271dc2197e1);
  (false, 0x138ec19c1001d81c3d2a8723854c3433d13655dd4e3466888a7afc42e42b3e15, 0x5bdb19985b897ca45eb2428b922424e6a1dadaf9a9143a037d8a92311a56861c);
  (true, 0x0, 0xb7b63330b712f948bd648517244849cd43b5b5f352287406fb15246234ad0c38);
  (false, 0x83d5fedcfd13e073a4cd7b560cf899d3c696728cb48e0c5d4368f191a384c07c, 0x62ac1dc0c791db5df3e20e08630df4445480719e2b1d5cdc1c74c150d77e7904);
  (true, 0x0, 0xc5583b818f23b6bbe7c41c10c61be888a900e33c563ab9b838e982a1aefcf208);
  (false, 0x9820e9fef5554355395934b0bfc54b1811d02c79ebcb9ba05449a39292c354f0, 0xa928511beec415cf65b98e524333f778b1d396142de0c8d92591a96380ae9050);
  (false, 0x6fc64170c37273a74aa600f9876bb5a718e82752b9e1084426c238286adf2404, 0x6d838284b8adcae43707cf6408d1c17d0cd96a2eceba3ea6240d3a358fbf1fbc);
  (false, 0x2ed940b40a7d51b75294567d4f04af4d2b5fb2f83088eecb4d78bcffe6774d6a, 0x78cade7ab0b8ede90ec5a73bc54e7bc9d909ef0e0baadb193be2c009f4894186);
  (true, 0x0, 0xf195bcf56171dbd21d8b4e778a9cf793b213de1c1755b63277c58013e912830c);
  (false, 0xe3fb455c66906619e4aea56e16c7ba0941ed12a8b0a2b9f592dcf132a5a17ca3, 0xd9fd26f8b245c0b6079edcf49b76cc876f188b4ac1a0e1b4848c6f0a22a049fd);
  (false, 0xb99f266865588b81c4f045a14dd1b586780e1384596f3b8a8d559ee58a6cadd1, 0x4ebd2f915edffc678c9483d1a9cacca8f57ad605ee88959168748ca2504d0fe8);
  (true, 0x0, 0x9d7a5f22bdbff8cf192907a353959951eaf5ac0bdd112b22d0e91944a09a1fd0);
  (false, 0x60df532fce1472e205c23f31f8703d29a4a029a537064c39ae78bc5d8e1bc0a0, 0x8e09670c44fa4622b0e9efb62db590a5bf3563683c6325417753ec5152b4f660);
  (false, 0x4ece6eaa53abce295e0dbd6c51ae720fd711931086755fca309df36b597fb8b4, 0xe70d74a3e520d7f9aa88e5e1ca23136038157c8ab3c78a5d245b76fc7f652f0c);
  (false, 0xd0894935a5d4c4e2af0aed88775237535c45c8b3c124f3f6b9a86ade41ab81bb, 0xe4bf1b100a7100cd0c5d1917e5bd43ba9846f198963589649cb435be3fc85565);
  (true, 0x1, 0xc97e362114e2019918ba322fcb7a877573a6e8838553744445aea0b9832d8579);
  (false, 0x9e976f39e564dd4afefb3fd7398580626b98044a72e1479df55d4f5aadee9c54, 0x4a361b162e0ea71605832948540699335775701a392348c78f2eabee5e8d589d);
  (false, 0x15835318585ce98285605f72a2cc8db6dd5d038fd12d0eff5d644efeecefdadf, 0x55c4dedfb0fd7ea7f5ffe472b4b18c85f7a07e0bfce85e14d1f236ef3cdad4ba);
  (true, 0x0, 0xab89bdbf61fafd4febffc8e56963190bef40fc17f9d0bc29a3e46dde79b5a974);
  (false, 0x72f14d9ac351a0662940cab7082cb504a0c029d015979a933d56654ee07a5d18, 0x73d5e825ddffc2b1e21909ffa7dd1dac832fd3f6882cd6db21e0b4bc5fbe6ff8);
  (true, 0x0, 0xe7abd04bbbff8563c43213ff4fba3b59065fa7ed1059adb643c16978bf7cdff0);
  (false, 0xd1a785396d96f735c5d3802ae9ec91bad8055cf33f580edef8af2215d4fb5331, 0xf1c76d7d737ce59f8d6e2412cd87c69d1057606dc6eafb8fc8edfb29b5e5997f);
  (true, 0x1, 0xe38edafbe6f9cb3e1adc48259b0f8d3a63c7c62de6be589a9e222b906f680dad);
  (false, 0xca46a81330abe0e02f4dcb98289caa1540cc277548379ba75f2e38bdd8cc8d7e, 0x6b8d42d8e3ec4d433a77601e992133da5e10df8d074528197cb8aa813a650c0b);
  (false, 0x2d2f63d430168bfe935b50bfd4f232a77104c4964b4d9ae7741972a306abcbdd, 0x668bd6a0af686bbf1820e79ac44d999fec5a0a066b722cbd22f94a4a29f5968c);
  (false, 0x2913bb6afb4a76ca69cf40c66cf5f285bae1702d2c9afe8c60360f5bec63c2c5, 0x25bc3fa9f082c082f5acf5777d1ff14ea1cfafec42f7461d0704bfe9e39a433b);
  (true, 0x0, 0x4b787f53e1058105eb59eaeefa3fe29d439f5fd885ee8c3a0e097fd3c7348676);
  (false, 0x163fd352da1056d456a40dba499d6ca324024fd7acdc66699867c9f428d8b162, 0xb19d82d8a43ee754f0e2b13d181f38eabe8fcbe9e024ec94a4a563810b767462);
  (true, 0x1, 0x633b05b2487dcea8e1c5627a303e71d5c0389d2619323aa45590fc3f1a89c373);
  (false, 0x2676b403aad5ded53262e3b59045026b6592aeef32f409db50abfdd5a699c90e, 0xebcfd1acd81e4f23b3d396bbcb8249bca03c3afcb27c38ec80b176c3a92cc23b);
  (false, 0xd93733a8ef40078c3a51e789db21a0a1171570e985729174184966185acbb72c, 0x4fe67f7a5290a8a54823213bb7b751be9bc661499266f56793246ae3ebb328ad);
  (false, 0x18f01236e72c4e9a2d9542e980d02590b058a658c349c303b5fef92538acae09, 0xbffebbb7d196ab367d5bdb2c40267f1d7565290b016c80896485b7fb791f2710);
  (false, 0x8ffe1995e526e43bd37a5d405c6ef0a7c69d468c3d423a7942b465d148bdf84b, 0xb8b590dea37115488dae3cc6110fa84b5165fb5af8d19692267400a549d67a45);
  (true, 0x1, 0x716b21be46e22a901b5c798c221f5096e5e4fc084a8b8e9f592e36879749cf39);
  (false, 0x323fc09f665546f59b04d4fdf708c20218771c1ffa7bfb16b9708fa8fdda915f, 0xc1ad8e634962e8189e19b2202099b88a0c112edfac75d9d33c8c6e146f5780a2);
  (true, 0x1, 0x835b1cc792c5d0303c336440413371145b3b6311b1d41521855f1165e24bdbf3);
  (false, 0x43665fe1fcbb6f45e276e700dc2e128c9d889bc3d4132108c2d1ce3831666218, 0x13327b6e610a6595b02c93124d75206fb64b1b5ef5a8ffe3b94524eac812711);
  (false, 0x1708846d6793c4242fe288f5a4f8a808b85545825f811fe2a904e4c0f80c7, 0xacfe41f9ae2424ae7be683bbe6416419dc38f914598dad6c09fb3cae3d9ead2a);
  (true, 0x1, 0x59fc83f45c48495bf7cd0777cc82c833fb8af77b0c03bc53203cae997eda3503);
  (false, 0x1fa18cd414e57dd85ac45bebed439b7cf07e42f0349939a4311dd39ee39fd495, 0xadaddb9807b148a3fcb36e49bb63a954dc27df7e6e09f6ec5514049b472b71e4);
  (true, 0x1, 0x5b5bb7310f629146f966dc9376c752a9fb68c44f34fc4f53b66e3e7391f3be77);
  (false, 0x209a5518c18285da2f0869697b8bc91b690c122e759be0a6f4e059b6810d10d4, 0x3b997ec55f2d416bee59718aa86e70ffd8982faa6833342aa5c638140711e43d);
  (false, 0xde01c77ce719e93dee130a6becd35a13084c6f58ed27607a2b7ce69baa23dd1, 0xe7349d397c0d924b9908982bf8d6466764c8fd19cd2f8a4928d919dc4d7ef268);
  (false, 0xd0cffe8ece9a7126fa472685749e617066595b0426388157082c247c37365a7e, 0xf89f173f4bd4cad1bac45f271e212af291b31c68bd5b7e73760835a8b9e7f262);
  (false, 0xf1749fe9771d8a7975af455aa0c553846f864af2136b405490b5d5c3e786713b, 0x11e0fe6e35d9b5ef2e846d55882df455a644ae3af321248d1df5927c68a112d9);
  (true, 0x0, 0x23c1fcdc6bb36bde5d08daab105be8ab4c895c75e642491a3beb24f8d14225b2);
  (false, 0x4fe9e23888ec3fd7c578043ae184aca9b2b6af4554ec0c69db6bbba3eab4eff, 0xaed72f61bf4f4c44cadba5eec62169c31dda5b6f04cdf7b5ea83e946f2191615);
  (false, 0x77693949f66d65bac563f9ef4ca017e577fa86d98ab146a4bf7eac5289ed88f5, 0x9be5efb82f180180cdeef3cea2d3f542b4276d083f68ff4dac8e044cea4edf34);
  (true, 0x1, 0x37cbdf715e3003009bdde79d45a7ea85ab67df62d7ba601665623dd6d83a9917);
  (false, 0xc293c5ee373f219cb804279958bd49b222786353c49c718b27a73be30c039e2, 0xe8a23b357fa241da9f2617e98cf58fe7cad8019ba2028215617e77667a62858f);
  (false, 0xd3667220c823c6da71103a570455743d5f1c133adc345963eae9832c1ecf9c43, 0x8b4233f99ef61266fb06d7e685c01e130b31d425bde2cdd043aafadfaffac5ae);
  (true, 0x1, 0x168467f43dec24ccf60dafcd0b803c26597cad9dd4adfd1b939c2afc6392660b);
  (false, 0x1fb06595ab5eb0ca52075196dd907114a4d2b6f752152e35274e2ea6c1cc1d4, 0x5f389d3566a90ab9500c591abca42fbfe8cce14aa6d95cfbcc0b19ed0d1fcc65);
  (false, 0x236b1132ed83fc2c06e5fb970c669ad8958aab4b5236f92b58601791da2e219f, 0xa6fe78e153311bda7a6478b869831f1a2c03266a277f9dd68bc6289b2db5818a);
  (true, 0x1, 0x4dfcf1c3a66237b3f4c8f170d3063e349b1f5226a7e79d2823d286735f07ddc3);
  (false, 0x17c2235ca75abf084dc89d7a2f90280100632b67147899038f8fe3bd83c6a22b, 0x90b0d8914d010f5066bea44b7012f43020ec8a35d4226103736974fb28d9bbee);
  (false, 0x51c76dce476804e793f8ffbda8efd3ce64cd81013a58a3917026c9caa5a00320, 0x2b3305dbc5ae91e534b6927501b2dd69d700bbe11a01623d6d55a75b45fcf424);
  (false, 0x74a2e233165e918ee2ac6b421e6e00837c8ef9099e8600d0ce63f68018626c8, 0x68cbfb8219b8d0c489e81efb1c70335c3b4c61f8b80418897fdeee66394f77c8);
  (true, 0x0, 0xd197f7043371a18913d03df638e066b87698c3f170083112ffbddccc729eef90);
  (false, 0xab997b8adce6d0af7ef6c34ad84eaf59a530966ae117c8cf3ac059c9e05a1688, 0x91d4830f586cfd49e521d8d0b583f59230cdace0db29a20156e9d3273d9367f8);
  (true, 0x1, 0x23a9061fb0d9fa92ca43b1a16b07eb24a4b45f140f3ba57dba19db8b7ec3aa9f);
  (false, 0x4f7a745c55041cd402c2da6e632feef1076af38545e13f7ecd9a0fff6eb6cf2, 0xc43d877e1ae3d95576400acd9d5d45c5102fce3dc0ac3cdd19cbd4d1631f1c2f);
  (false, 0x966e4643896a3a1e2d1d84b3172d510295a9ad211d57c80a6685f15cea597fc6, 0x7a0a5c17e42ae4cf2b186e69ac11a87883c4ac50e875858a4dc7599dc92144fb);
  (true, 0x0, 0xf414b82fc855c99e5630dcd3582350f1078958a1d0eb0b149b8eb33b924289f6);
  (false, 0xe8b780c94a970f6c3503f70917727e7e76ef8792bfa4ef35ecbe635ad30b5c86, 0x8859075d4e43ad5de77be9b3663226c511244a42cd47c68587255bc9ea6793fe);
  (true, 0x1, 0x10b20ebb9c875abacef7d366cc644d8a656199d7f377ee861a90ecd0d86c02ab);
  (false, 0x116bdaff26663de5256aaef2b0b57a574c0675a6b88ca41f32cac20b46148cb, 0xd30d87373b610d1794e961106ae9f778768fa29f4bbe938f5eb1026ab380befe);
  (true, 0x1, 0xa61b0e6f76c21a2e29d2c220d5d3eef130384a90f0658899c9a83a126a9e58ab);
  (false, 0x6bc71995061e41ff6c98928b7fe94c3459ca35758c5206388f0d08aaf88d0026, 0xf6a96bf77e6dc186f1e1576288af15971620b4e6e73bdba43ab1ffedb1757833);
  (true, 0x1, 0xed52d7effcdb830ce3c2aec5115e2b2e6f5a6f20276018c381aa35186687cb15);
  (false, 0xdc027ea24213e79a09c90825c2b91ce09401a87f279d1a090d5ccfe1213095d0, 0x9a9b6f92fca5fab9d9af443940df6d84a2623baec5907c1ca904a2e257c9d8e9);
  (true, 0x1, 0x3536df26f94bf572b35e887281bedb0987dd7cafe40959b45e4f7b01b3308c81);
  (false, 0xb0fc429153f50175fc7e8de13d0198ffa00625fad77637753e019c136c4bd07, 0x8df890d4b5eb3694f2f3e742c19bac42547f8781c6b5102ebdf4c30a23686ca);
  (false, 0x4ebbc0e38d3150237eed5fe03520e7731889aa2ad7729cd446cb8060889797, 0x5325552c7189a3959d6c7b212d6b1e7049b21aadc5b28f400374c7e93faa4d9d);
  (false, 0x1b013aaca7cfd7a57a6ed88ea85c13e569c602ac2f19759402b7981f125e092e, 0x6413dbaa965ff20cc54a581e9f7b092682a00c0c75df86c282dd1589362d44bb);
  (false, 0x271f8527c46a1b73bd35da4cb4faa9dfb4168fc320c6deecb88f399080ce0b19, 0xdaa6477064e9c139bc268ba0ecf7096516195e0fd8bdaeb980c88042b0bac0b0);
  (true, 0x1, 0xb54c8ee1c9d38272784d1741d9ee12ca6f4bc1720a63beee0dd735c265125c0f);
  (false, 0x806558f0ed998806c8e8bc03d1f702672d333606a888e3725f327aaca755cd27, 0x7139a96dd1a3cf9fa29a867758a65f5e126972685e51b7977fc50c31d6553c8a);
  (true, 0x0, 0xe27352dba3479f3f45350ceeb14cbebc24d2e4d0bca36f2eff8a1863acaa7914);
  (false, 0xc84fd24020c06acec82db8786642bcda0f32607b370aec0bf391fa5dffa7b60d, 0x9825a8bbea1913633dcddc47641d67b471fdc5452fc16bcfdb0cef14936c6e73);
  (true, 0x1, 0x304b5178d43226c57b9bb88ec83acf6927148fdcb86b391ac26013662a75b795);
  (false, 0x91c54b62f6927f247ce111673a9157c5a70fb9811ecdbfa8516414405af8230, 0xee2cc116a03cecd2e092a66b90d01d7f436f0d0f1af67352e30e445b72ef3b89);
  (true, 0x1, 0xdc59822e4079d9a4c1254cd721a03afec9f71f708ed54820d262bdf3e97b51c1);
  (false, 0xbda9f70c02d73baec2c65ed5121bfa93bccb1a65b755f88353bf37e01d529d79, 0xccfab0918fdbd150c32ece38933fdd0ccb46a5dc93ef3dc9fc1f58d0c1e06338);
  (false, 0xa4207ee5f77c466563d51209d97ac7e06800c2b139ee73bc63ca15ae79db6e10, 0xd8406629c39f3556e68eff042fd3101173c380dca07ef3f30a099923a2ee3930);
  (true, 0x1, 0xb080cc54873e6aaccd1dfe085fa620232aa0070b99e649612059678449794d0f);
  (false, 0x79b159c1ab453e4dfad68bde5c7df8c583856a27ef0cfd81803f1ae5e7990d6b, 0x1a61a4848aefe8bcbdb6f0c0663830f4fabd6218e71f0a94d6fa613192a15106);
  (false, 0x2b7faa9051c1660acf666b7181414666c2e596cef73db5f8ff8717ee578bdc5, 0x157e63c6c34ff695f05dec30bd6412f4a1312f9f05b45f256b48dc437d6047cf);
  (false, 0x1cdfac4fc64b152dd0b0e3d5fe835f9e39bb58387cac11bd36902566656f20e, 0x54c1d9f78721425e1bf2e1f98e7b865d56d70b1e671755fe62f0aa0dbf7bdcf3);
  (true, 0x0, 0xa983b3ef0e4284bc37e5c3f31cf70cbaadae163cce2eabfcc5e1541b7ef7b9e6);
  (false, 0x703f2753b633bfd447018fc712e215f8b30573186831c4e7c35d01e23f05a80c, 0xa0db3815a0f037cd61410c01c5de091e0c3bd81c3af2f04b9bbae3d51a1a52d8);
  (false, 0x6512c1d46f89dad1226cf6b145ff7d8c961f968758e000716a2a1826ebd385a3, 0x71f6ba35c773160ac7b831ceb31d5ad758041af234bd3733d5b8b4b37c683ead);
  (false, 0x32bbbe2e139cd9f12efc786b3b7a68a7967335a46d7c260ca8b93dfc40a6f5ad, 0x4cc5902b44bbfae2dce09bf28fa7cef6f7b07881c8855f96dae6f96eafab842c);
  (false, 0x1705e610fb9e00fb5cbf51364f4933e94b5cf7cad1eac42799fa01cfb10fc0a3, 0xf3ae911bbdd696c939751bec6ec18bacb4927d7ca5b24bcffb68f3e1bf28e4fd);
  (false, 0xe7f4de852650c089e9d4a047eb96ffdee78608ce4bd1fc7a89aae68c18cf34e7, 0xe04126fe71ce498db669c3cf8bc64a3669aa9e7eb71a0de4336bfc73c5981f2);
  (true, 0x0, 0x1c0824dfce39c931b6cd3879f178c946cd3553cfd6e341bc866d7f8e78b303e4);
  (false, 0x311c8534b7b059beae51b543dbb12a634b274ae7332bf4658f15ed19c59ac0d, 0xa4bb7b894a118ba7220dcb7818fedef0ac23bd470ad0939bcb5e2df46da2d1f3);
  (true, 0x1, 0x4976f7139423174d441b96f031fdbde19b607fe06e8988b2a3029125dee27e95);
  (false, 0x15151031f4146d3074f70928b42ecfed0abbd846950ab0f76fff5ac902b24b11, 0x9759be8ba3bfce9565bbe411f1eca0568e38afb43200f21c0c4f5c48c6d4cd58);
  (true, 0x1, 0x2eb37d18477f9d29cb77c823e3d940ad5f8a64babcea45b324e4edce9146755f);
  (false, 0x884feccef4b8fddcfb877d34738cc8151faa3ed546815cba6fb5f878973d29f, 0x2c6bf7441448e937e4b9e49551af11d9c952c1a28faf5c6f2771a0e0d13059f2);
  (false, 0x7b54a88106bc0e5ae70ca9b006991fab5c970f10228f9fec25e94e682b61fab, 0x9b50b0d352bfeab7dd28dd0127e1c89abd9338e7d0290459b3c9b47abd056ca9);
  (true, 0x1, 0x36a161a7a57fd56eba51ba024fc39135be3f7721f93a6a2e73d99e327da7b401);
  (false, 0xba87aeebf990cf81755cfed7fddb0793120291ea4e2e40d20d05b974588bacb, 0x99b227541eb10280c11500e42d834abbff1eb063e76551884f41b0897e1bf6c6);
  (false, 0x5c466efd9ffb6f20bc2772b6d7428821677128e87c477eaf4211d62dfd650ce8, 0xdc879897adf32dd85584e0998b1e88451cdb87db729022b24cad311fbe1683bc);
  (true, 0x1, 0xb90f31305be65bafab09c133163d108a7cd015093e08a6dfa5a0977c7fc9e227);
  (false, 0x85c6f5ff37b837d21c349c050251e3f48b99e1a4f489f1641526acab833f683c, 0x96da7c4aada084619a7c3b14b04946a3e714afb0be1923b8187178a8ab23af5);
  (true, 0x0, 0x12db4f8955b4108c334f8762960928d47ce295f617c32477030e2f15156475ea);
  (false, 0x16393107f1f940a7e744973e0153de15092c92a172c4fa29dc2e6fce3a5039f, 0xad3688ce5a4e8cb4f48e33137db7ad6a8c71b1e94e6493f22c69975eede69995);
  (true, 0x1, 0x5a6d119db49d1968e91c6626fb6f5ad55bfc6924f5b1895f651963fadf6a0dd9);
  (false, 0x1ff0dedb047175a4313d7692fa3267d74507f9c42f061f9c738ff9af0358f21e, 0x48ef2b37ecd7d1df3febd333e026d89becdb6c3fc7684dd6b375859072b6d073);
  (false, 0x14c767c143b8de90c21b463d86836c3831c43563ada5b8682031b5ae7959045f, 0xb9b23452ce25586e2c3ac4c40dcaf1e15266cd9b2a236479a74ecc1d01b5f69a);
  (true, 0x1, 0x736468a69c4ab0db587589881b95e3c2e7e6a088ad2f2a6e5ae3cd770708c7e3);
  (false, 0x34035d67d1605e129a2e67bac8e5ed74517db3bc0d97ba5ac40de507dca3abc8, 0x876d0bcf26f02df23ee45ecb13eb2201a3f7dcb000a498680437d5f0be4d7101);
  (false, 0x47a430e7d1a81edccaeba68b4fcc0394fa62b27c50a00441b9d88ff8e488d892, 0xb11d78ac9a34e6a4d622c2308ecfce9479bfc1861e78dfc87fa783196c41cf);
  (true, 0x0, 0x1623af1593469cd49ac4584611d9f9d28f37f830c3cf1bf90ff4f0632d8839e);
  (false, 0x1ea27110edf1080826b8c5bc4c30a3d71841d0aa89154e2e0337c2b4fface, 0x3a2ff408646226aa60f88c5a0d8beff8ebfd8f0e847c384ff6d5a6770d12f456);
  (false, 0xd39c38f5e6b18c03ee59763cecec2569defd234854c5deb80478b2f8ba4b74e, 0x43fd436342f2ece04b83eabd0c07911e53f8e013b468452c0d71ab25885c736);
  (false, 0x120e8bd44b092381d539acf44739e3112dfeb2c9802b7fcf457d2a480fc8db, 0x5705da11e7ef539d7a5377ebe67b6ad859acd581a95793fa43bd1b626369cb19);
  (true, 0x0, 0xae0bb423cfdea73af4a6efd7ccf6d5b0b359ab0352af27f4877a36c4c6d39632);
  (false, 0x7653e96a1ebcd333c6e3546d1562f855b09cee4bd04b8c6146cf7b58eeb3c0d5, 0x3cb5a042ef203e67ea4b8760c4da87289e2d224a8bab0d574f4ab963866cd55f);
  (true, 0x0, 0x796b4085de407ccfd4970ec189b50e513c5a449517561aae9e9572c70cd9aabe);
  (false, 0x39968fedc5da84f34753fa3451401be257fe3472fec3bef69b7b071a78158946, 0x7c9435afd63a45125e6362bc65dbae32504fe1902e3c72cab4aad33c9e4357de);
  (false, 0x3c9fe9d0b2ba5794d6515b4517a0708165501c7f68426d575d5b0230d82364ee, 0xfe51ce9d36e55aa9a7dbe14bec316c6c110849b12f606c7045e0e02553894f36);
  (false, 0xfca670255bd3b215e6a19c206e46c899d96c6e0b985255249f80632e1e32a7dd, 0xc80166e0309ce6f332a830d7e22060492100658e8b6fb7468f008a5b8d8d5177);
  (true, 0x1, 0x9002cdc16139cde5655061afc440c0928519d06f6fc7d0082a4749f41eb77d9d);
  (false, 0x51032781bac8fbd5052c8ab53a197d81999617f9748efc472891050fe1aa21d8, 0xe209d954b8341d947a3003c65893ce499f8d78e55ec81b214690c8cdebd7c4f1);
  (true, 0x1, 0xc413b2aa70683b27f460078cb1279c938233f71d167897bd9967c6d8db4c6491);
  (false, 0x962e2b19944beaf1624c90c18a274c2baa2c6b8807f6f1ed466f8e0e9bfa0486, 0xb3e42219d92156e683da7bd0c8f35a3b397275f6234659438b2024b1cf04cdbb);
  (false, 0x7e68d2fd66a3162f0afa673a43474b3ea4f2e2d701049e6ed790e8d75e583fde, 0x6fe5cd498a05f700fdda8b5d78ee60c1c6d2fa873053bb3a914d1f5ea72bbb5b);
  (false, 0x30e9164ee0ca0d5b03338875f6662f1fd0b66bf3c9fdaa9908285ee4ee2bad06, 0x3aeae95c3d3cc86a78161f8e25cb18162fdabb9308bbf8546cf7a61fb68a7573);
  (false, 0xd8f494d4aa7cff0954df671450410fc69edb6ddfb3aef7efc39d9c7c0eabac2, 0x49e49b3801afda5b5fcfd19e634a6a614501e3f47de8937e698db30531953047)].
Definition c_n256_f : list (bool * Z * Z) := [
  (false, 0x15542caae02a56bb899a604aecdf35def2c948fc51c5271bc0037dd43ae18421, 0x765efd1ec2e0d713442ebb00e419bad3921795cf87ce51d5d1d335409b8a2040);
  (false, 0x36bbb4976f3fe8dd97ad63b6f1afd03842302f57f1b4abe93a211981dccc9c90, 0x319f76ce9b5719ac1b62c7a0c4477a007936e94b4baa9017840844358e01b670);
  (false, 0x99e6ecfecdddac8539fd20bed51ec5d96517aecf9a042b8dd34d8fd53f55bc2, 0xc2c623f863db48dfc28435031b7f2c0470138d3e11192da522c1043b3f85e9e);
  (false, 0x9430e7e0b4d195d7934fa9bd6fa69b10cedfe08f1a0775f3c0fe2e486f26b5, 0x6990ad443da5847a7c3e536f810a2a41fd4ae29deb278f783c16da9f4956013f);
  (false, 0x2b87ffe588246e4964278e17d8d81062159b8395275e313e39f48600165695a8, 0x17a5748a9e8fe6a635346935da119c18cf384334b43aa6f5f2ecc07def56eb59);
  (true, 0x6d34bedb368dcead93301352fdaab9acbd91f398f49d936926f90433eba0b4b, 0xb447eb2becda0369328d2755c218d2266952f588b961de8b5b2444efc2888bf4);
  (false, 0x7ef536ea8e6ed905918d23d153af80962b9b3420c33aa950ddc3443d263762ab, 0xb2a3f4d70c751e58ed384e319d7002e8a065a4cd94826717ec71c08a3ad8f175);
  (true, 0x33904727efede31c59e56a6b99c746a8f35958ddbc2133fc0133bf89295400c7, 0x617345b302d6692245eebfd568707d06f7dcf080b739d2ea3d03e7b684e3e57c);
  (false, 0x25188eb97f0d93bc544a53bbe0f8eaa871835103405fb5dc5b31c969b06cde9f, 0x9117e2f2c9b08aed3b1ccd90275a69089c4c276ff0ce21a5979b532b7d82a8c1);
  (true, 0x29e160f6ba37c2032c05e69fce1970612519518a9ebbf5393d34d35920bc0c61, 0x110eb1d9431e139bf0911aab3673926fee1e50ba9ab78efe2489155da9690dd6);
  (false, 0x122f476cb5e718e16f0b553aa606415306467a40094b057398e9f342e74a031, 0x60e1c71b7d62875f183b4fd3dbcfbf473cd56c976d9c3d757e844ab7294aaa63);
  (true, 0x1bf6e59a2cc84ba3e449cc4e49d0e5b88a68daf4051361f2983db04ce98feae2, 0x4991efe181f33c16104c8caa5a5de6d6ce8c0927d1d1b48f1bf4b9519164d5f3);
  (false, 0x15248e004f7d5318ba5abee9dd0120a6c203980a5dbac6f0dd57c8f11edbb01e, 0xd57c6016642c3a2fdf777713693c31829ca4f61faa6eb286e7423b0bf715352b);
  (false, 0xb20834532e7ba5150f213590feac93c0b4a8b51280920c671e8c6d1aadea2e37, 0x23b6c117450efaf64d0a888988c6a243b7906b3497c04cb25b95bebcdb0d42d2);
  (true, 0xa4f017b1cd95b6f750886c449160ca050cf8d8e38d038371616360e525f3192, 0x810640500156ed2dc99836bbbae421258f515407938c0bd3fb8ffb5f9db01f0c);
  (false, 0x41074cf7f64911bf457f8bdbbef1ab23630a21256d22102f3b917e5969787b23, 0xf1991da345724009573cc929b394e98e0050706d2304322e09adda4a90cfe37d);
  (true, 0x45bc684ec9fbbbf1192d752812b38cf7baa641486d9aba80b932f32751840ab7, 0x95b66314382e4aadbe3db3424c0ab4a52d5252b6978b3cf93fc2ce4d4ff7b0c4);
  (false, 0x578dd146e80c3b13a04f118728c8f9a0afed1824d7ab30e3af9b146ce18b9ad3, 0x22ce8c34666eac01a90d6c20e036c6ffbda483a7a245771be7efea506e209a4d);
  (false, 0x4bb83e3e10f1e73f1fb4f5fc4d1ad66efe773abff04bb07214c92b4b4f379f0, 0x195016425a14aedd784bbfcc53ab9813ac75ea6da7a8a1ea4a01457c42c77639);
  (false, 0x280bd66e3808d298d54920f0087b566813f6d4b30add39cf58251a8096ac003, 0x6f205e247691a55c2d2ffb9338648e2cda341ddfbf418bc6adf5fc7dc98668be);
  (true, 0x2013770d472cbaf78eb68926a9bfd70a2fa04b79e1f5cec2f3598f82f079e1d6, 0x3ab240a8aac45cc7e557ff1852a5d3fdd1cfc5b8c20c1390dd3738dcba8a49fc);
  (false, 0xd75416a75b87908c4312074c51a09cdbec0661712de7387ec8f92166cd36245, 0x33ec485b3b0203d8e3e55a4b4c89d835d1aed41f69cbe89596541bbe204c9f3b);
  (false, 0xa87fee9e0b309dd7c0f45f92706e74a9299e9e26092859165cd19c95e15163c, 0xc5064ed8820ea0554342d770e8918d250aba06a77d4e760ac120737f33fba29d);
  (false, 0x97a2b5819a3bf7506492a90f6bb3e6a57ca8ba518c46d7333775b39daf78abce, 0xa1e49bd2e088c14ef0f095fb5be46f20906274ede968f744f2c89dc2a67bf21b);
  (false, 0x666158259346587d8bf3222805cf63ba910c4a38cde67b21133525482c97bc9c, 0x9468f155d612d304ff1d21648994d539cbf176a470d50a72fdb62c12044fd57d);
  (true, 0x2ad67444976299dda980910ed07cb9854675a754fd7326c13466cf8700734bee, 0x251e7f4d9a40a1feb7c2c5f9039cb6b9024950075e152bd4b153c81ae56e395d);
  (false, 0x561d46e8976c0fa65744c31e3f2724c33c4f359871db6dddf7e81cbad79235a, 0x253fdcca151ae4ff473c63051751f539a2e90b8b30f6435b7e4b49c11885a4f);
  (true, 0xac0796c1fa56df31ffb50ad6f624ef4c96960ad2e317b152f2e927b8968a4f, 0xa9327a4be6fc99dfd6d8ec6889d597cad822fa2e736d024979e16d48b28eadea);
  (false, 0x6fd3af6ca6dfdbebc73ce109a6d71dfc03a3d3e56916f322dec6c03ab8bfd229, 0x41e27db1801002aa419078968d7ec3f92e961b45e6018a82d3299f95fdd1adeb);
  (true, 0x13046b822eb42668be2cf5bb86218bc9b090102d10af6e0f0ca90e1070400a4c, 0xc9da32aa587043e8132dd2a2dd55b855e45a82a7659317747887ea3059660e21);
  (false, 0x9f285d8a722e43455692bc2bcabcfe73ea0641dbc8feab4329fc542c8301b989, 0x26c98bcc2b8ad098599d43af47f9f053ecf32b7c6077297d2c3c9dbde5bc1ee8);
  (true, 0xb321be249701a6de017ab76e5f589fac6ecabcab4761b5ceb238890df660a62, 0x9698de1550baf0668e78973cf6ed2b5e997c3595ec0d5e8eb3b2b69b77509f56);
  (false, 0x58977f89cd2b6909ae65189dc0e63e4831ee5697b915802b170385e1a78c8e3e, 0x24ae62cfe2080870afea272422f4020fc7981e87fd973d85f62b6fb08ee9f946);
  (true, 0xa967bbaef677180ce0faa3fcafd0e205954110831350efa3d7442ab65008ea1, 0xb46771788f20f27d4e8633294f777b854662f1fb39aaa9dffe1642924f51dc79);
  (false, 0x7f21a15e89b6ca02f6d2d88549d329bdb0954058d7cf2349fc761b4941fb64c1, 0xefad648865320dd4cc970407f4876813187e48ef36c0180eca59a5e4c7b46b20);
  (false, 0xe0653728952c4a5c84630b78e974f5c738b19d1d4d28dc2516d9321c8cecdfb5, 0x319c67a19b5210b8052bb5f6a6433f4d19faf969a9f81ad79bf20e510f8cd2bb);
  (true, 0xe51e6edfcd3d7d154715a83ba591bae01dcc1bc917d596329f3252f822f7df7, 0x992042744b4ce6c49ace8db73d9070cd046d281ef293f11ad75af5f540a7f3b6);
  (false, 0x5b9793800bec7e385d5b2c109a8e716df03b0639bf745bc835bcefb37cadf8ae, 0xb0aad0f97f88d7d515a31bd58df017085ce8c6e443c0381b07e03da8d4303056);
  (false, 0x79eb5151bf3b3e3ca0881eca14751dcc5ef391e730b7e38dd26ad087a55967e5, 0xaf86dc2c21b9529747f411331b4de020033709839ae85723f4474eccc283646f);
  (false, 0x7859a8100a04368efe8346a488a20d35a5a08a503314e24128e36837cecaf7dd, 0xfa5b438e0dd8f0552d896b22f75b826aaded85b75691b19025b7160f027e8a34);
  (true, 0x48439757fc3ee7bd3aa099ecd2bfc4d34fee6e637a2ce187d6d328cf25e323bc, 0x5799d9df4ec5b38f975396c4c519f91d902c7f3daa219a1c1393253f1c8999f0);
  (false, 0x1df9ee8c0bdccd3da775e5e443268ea92d1534392f11913959140dd9212e30c0, 0xdc25f4f0fa34d9ab401e059a8a34698a88832460aa383765ffd505e998879440);
  (true, 0x3f8b6a2242922f28b85c0f32cfbe5e00e67e9177df3aec0853db5b29989cb949, 0x7d510f12bb4812f834ec2fb2b0a656455f8a30b7c05a2887c948a662cf0cf0a7);
  (false, 0x3d58426312fa5bd68bc05e9a91808cbc7060aa50bdc6c66c40385153f7ee808a, 0x24f88bccbdabb48d4c3829223cf0af29e5af0509e57acf0a67eef30b78ef47);
  (true, 0xaabe3a4825cb0aa3b155d543844855e669b37b3633915d493b076c8e96124, 0x93c399fb5e6e2d76bbe1948edcaf3aeba666dab3c879ca41c97885a68ecbc4d);
  (false, 0x554a384af54d0a0c3fe4483c09aed6d019330123e177de18e019cae9ae4f37, 0xdd6f5489c8e5da4dc295f6585671d63fd3a9c298a4dfd4ef65e28b03609a2bc2);
  (false, 0xbf8968610fcd309d5c981402ea230189c3c542aa7b726375b77bf1d124d7223a, 0x2a970801c2a8a8db9051e90b07e6350030c10e2f2ee4c257da39df187088aa);
  (true, 0xc4b199e718939d4637c9656b260d331a8a0a5f5f5ffa4e5ea4da4cc8e6f33, 0xea504c93b40c336728972d4fbfb0544a60be18548dc36b18cb4df88871eb3903);
  (false, 0xd676e52eced5c2e632360c79cd3e7ee9a2513baeef13f91a5683dbd4696e5304, 0x383326b13a99672ed757bf793913ed0372c7a073964028f2c27631ca05c07dc5);
  (false, 0xc566b26066ff981352634780f5256ac286de9ec628695b485e594a65e611253, 0x174b4560ce5d4aa94d93cb5c0ed2a16aba8e67b158a12caf574a77c8e8d42e56);
  (false, 0x21e9c9920b99e8700508e053a4c266d848905b33047eaef7d9fdbf0881cb2b1, 0x7b90fc3ec50783518e0f85cd2597825080f06b0167f4ca50820e4c501977e5e3);
  (false, 0x3ba4a4814c23286ffc91fb7baebfa03e5ae458c9e6ba4d989bc59e2fb3af750a, 0x60c0464ffa1e849c6b0f689155f0c3c0faa27a52171750bc24895d398c2d6d1f);
  (false, 0x2490c525ab6eac26c5850e464fb2c09b9028e94f4731a0865dd6ae3aa98a1eba, 0xa11c5ee02e9653f20900eb5a4e88cad178b3e8aea5d6e7e72c6fa689de56cee7);
  (true, 0x2e80f602082997433d1b331abfe4ab01691bc9b8a2c4de1ac5fca3e07047f44e, 0x96cc15dd0d24401c5b3b07ca3176a1bd989c89dd1bb5daef67fa65e665141f63);
  (false, 0x58d3cc523e653c40f1740eb63bc3246e872c020eb574586c61d51cc18774ae7d, 0x6e00b2206cd010b169ae91313c9bb0e4fbd4e58ae063e96bc6fd39d0c9d6d9bc);
  (false, 0x2f44991488b882d989c1090d5138c526e1825d9cceb38ac027da2557c2a7db6e, 0x23ff3b2b6553812bdb233aba600cf51d58c88e254c13c2b48c02878cfa22ee42);
  (false, 0x50fc8a4d0e58261ced286e26ceaabc532beb6ca7f91148238a5a63925a2621a, 0x3b9aeab4091732efadc6e2cb8d4dd6816f5351d9fd46e273ab1855b626a9fcca);
  (true, 0x1134670a468702c54b9a46252beaf97bcaf9dae2303ced94a11807105304e1e2, 0x9d84ceb51cd33035fe83553d8ab8ce985c9d1ee8ae60c725b1a8225d9885d984);
  (false, 0x60ec2a7057f4e7e1905c3e2830ad3882d76e2ed830b2a67e18ee3ea9f1129c23, 0x84347ba87cff950c8ea122def5cff75d60119f8e6f98ba527a167228aefb95fd);
  (true, 0x2629062a071650f55e0a2890e926051eaf8ec044239d26550dfcc4fd7d5b119d, 0x23c7b6fbc32775cdd909dc9fa2797f3f5cd0e6d31d50df58bbb1cd513e13c57e);
  (false, 0x50037d6da915a7aa498181ac33f206162a73195fffa0d9d4893c57cc1f0181b, 0x47188b975b25bf5f55668e43bb8ef22203e8fe6c6d996b023629ec60fa2aa279);
  (true, 0x14857cc5faab8a399c8fbac13b0db487065e208874eaee87949898e5b936f192, 0x8d62b702077d18699183b6f48948c7f99de606f390293d7ca20eb9f06af4365d);
  (false, 0x4e15e3a92ab7530cced353ec4b91066d44abc9a2f354dc1bf32937d4606ef109, 0x39e8153f1113d0c0dc6b5cc216c46588bee4a4a1d5141c726f63df3c1267ccf0);
  (false, 0xd192bdca6c65b1382888775c7df5690045898e2b11dfb657e42a37f64fe1a4e, 0xed5dcf1b9955e872e8becc6e9290111dd864a53303ce09cace90233baad1c852);
  (true, 0x4483b787524d3699b20b657193bc4b055485a6276e6bb3919525f2aa504a197b, 0x62b3655f16d2fc220089f8c6ad624b1ce95787081ade308a9336082df3c617d3);
  (false, 0x260dd753dea576bec620e9b6a6f822e5684d52b383fe4d9ca8c45401c1a05a18, 0x3f33817abbe3934f457cba5d63661d560585406b0618e16f38c9754486919e51);
  (false, 0xf9a641750782f77efeb6de72926708f0fe89694708cae9b470a9178ffeeb139, 0x1560eadbb533a5b7f1d3d3af3ba8a69d6b69aa5b9e7a0a1612fe2e5e667bc598);
  (false, 0x1c90b3909c1cef7712ec4e878926c4707077cf2127c94230e654c8957a81526, 0x4b564ede6809e2e5c53ce8ca9438ae67fd66f386c46ad317fa852a2efba41b3a);
  (true, 0x15bee3097c9f5dc0eac80a12560321ed42448a7188ada9bd8355be409aeed874, 0x2040546a0e23d398d2d109de8d734f7ff9139f4698324db3eacb57e512a92c62);
  (false, 0x4102544d875f14c0ed2ec13ce548a6cf4ecff63e4740c4b56a652e63939b086, 0xeab95327303a0c46f7cf3b913fccb07588f76d4729570ce521cc4fa0cb7f9d1e);
  (true, 0x43c074160ed6d647409a47f1e52d5e27a7b642cfc56d299328f138c6e78a0914, 0x2027d4f996c660686ee548dafadd6c429974271e1fd93a335a6a5ad025976ffe);
  (false, 0x409fb70fef5d90bacd88f34c1d3a3ff086d98f541cc735efac2f54b08f0f7c6, 0x280840646288279247e1cfb6245f5c96f903b7c911cef989c488968959023c5e);
  (true, 0xb8e19fbc61d142f66d66f3b6bc609bb1926fd5e346642395c8b77856720e712, 0x500f025c94bd4e4c19f6c4673f22f4410e8de4160b540191f754f688c4e1a760);
  (false, 0x1909625b3cdeb54814af7e379a24eec9eff799f41f6be66674eedd13f8af8de3, 0x6850f9b8475fbdfa5921fe006abfdd856e29fb2ace6c2afee1c12f5a4257b02d);
  (true, 0x1e1c3e93ec2f49da9727d8bfca1b6409b40a141578987beced4b1f9f081471b1, 0xd1ba353c95bf750606b9f7730ab4c9062f2c0371da137416a1774cab4831be7a);
  (false, 0xabd1925eff6fee0007278eeb7251060d2363bb2155c1f30818a3a37836b48e35, 0xd06d4be4a863aa638ccc78da7cd9c49f9d5e47a733fbc3e2994058e0863faa5f);
  (true, 0x3c294a5bce0f547921213e62dcecd5d30e52ff82dad917ac49419663e0296d31, 0x592303ee600ba530ad698efdbdfd8c1a444d9def67d5991519d8ed53240e6ed8);
  (false, 0x1f095d85f10f2dc7d577a78a745a65de9618078f5629c9487af524cbbf956fd4, 0xcdbb89bf6574ba5b7d41e258dce76924d6800e5b8f4099731537915de930502c);
  (false, 0xa555e3ffb58f78ad5457684ba660b825ae71fad501823c52c44e208488281a40, 0x49e0dadb633ac1711daa8214a9a89083e718395ecfb5ae80ab2f1b903a5ff950);
  (false, 0x15520250eef18c78e0f0cfe43c8f1fb6170c4f7efb60c53c23572eaba865bc63, 0xd43c48046f61885cf63e1239d83688ab05495f7e34568cbc947a417cf178cead);
  (true, 0x3d42b6e8932930950b77287646a0a1d46efccd6e5725231ccc40efe278e5a185, 0xcf19878a14f4ec3adcb2651fb0e9da1a84c0f3f1e38c15d49de57b7633836de6);
  (false, 0xa78a4bbdb629662f4df2a8490bbd998e2752ba66afc35adc7644b4069f714a26, 0xa477a7a372d62ea3d8af1063b890cb5c1e0a30354301d7a42f86af8e654fb69e);
  (true, 0x2f78fd17868c6b2a3be7c5d18500388c68ed8f8462aad4099da17e2d5a86c022, 0xec58d5168ba22e74ddf369a86d6120be9a7bbdd192e6f0104489187bafc19110);
  (false, 0xda33e7b59c857334593ae844db319d1917252341f9a494ab160a03355bf51f7f, 0x84840ed82c6ecc64402a95d5bd46f2a4539dc7e61b681216d0d1f2d93419ced1);
  (false, 0x4498736e8234e3df8834ad47a54213cf55e273620fa774e4ed804028ece17d5b, 0xfc3380d146416e0db280e8d17f35b9f58222fc310cc4369f4b36aa325b3f35d6);
  (false, 0xf8756ff98efa300a9f92e79135b3bd3ce88ce84f72f6dcb2308d8b0e7bd73a16, 0x3689b99bde33162e45d03a985e02d0b4d989a81c7942c9676fc605e945a5bfee);
  (false, 0xb9e6465fcc26a7bdce6f946772a7d30c3679f89714cb9a35b9b9d11eab12aa4, 0xf68d70a2cd383ff979ea291d5b0e108e7eb17dcb466a7e139f0145a77a0ccf60);
  (true, 0x472a80949871713676d527ac5dc7a322666f8f7161984211d263f27297964b89, 0xc3fe3fe7487dc3dab7f3f387f55ed6325c81129f948d7a8a32ad32e491dbd047);
  (false, 0x960d51ddcd646a6edf7ddcdf60b90b67ad746965e5d5c81eef8c97a210730d3e, 0x68f249c05cee6f7dcd51bbd53adc7a7efb781bf2ed68808847427ffb74a24d13);
  (true, 0x1e4ace7350763460027db745ba4ed39301399a1a1b8b82ce48a0f3550cc445f2, 0x280d4b922cfc5c86d566a171f31cc2d7a995071390893019fd47ff4b99b9d4b3);
  (false, 0x644284e777a90ad2f906aa8e98b0c29f2c4daf80471643bebc4a2c78adb3669, 0xc8b40d6710aa5fa48e21a7e692f72a89c983f19815e3bbbad9b0f7e90c9a90f0);
  (false, 0x9d59d394810719cb390f2614a017f5bf3f5e283c6ced2220354e6fb37e05e2d5, 0x148caa1dac1e0c93c9e1a562169bda0cef98ce7679e2826e08dd07cd14ca529b);
  (true, 0x5ee763fa8582aa6594e7a7dce0194197d0b8af6538a545bccd0ed44261e5a17, 0xf22769ef3843af2f9f729eea9d60afe1ea857f773861816f07347973854c24b6);
  (false, 0xe50e8a5a9e27c1e0c3845b27e15648cfb3381283e3b34bc7592fb86b93eb4e9b, 0xf5d3e6f9f0c6a90b5f6814ee53245d5dd7b7fb65db9ea31fd823a10e23926b59);
  (true, 0x46f4f2a4580a96abe10baaa3ff4732e65d3f8599d807e255899361bb58867e9a, 0x5fd3b3ffc2771fe8f77845fc3bae672abad1ad5bf04856cdd9994aafd52124f5);
  (false, 0x23deceaa2c5d722f1ddbf7b47cb11b5dee29e19ff65532c35dc0352a54288933, 0xc751a17d15a3437204bbbd935234a329e5e6e76db4a2e84dc76cbcd07f1f0a56);
  (true, 0x3988449ac00d64263ab11c844445073203dd297bfd2e76030078d9d08930a25c, 0xa248334e4ff302d3d888a95a95f4e60272026149162540de87951b39c42b52be);
  (false, 0x66df754c6a6449615ce99b165fde542cc210db6b5e15dbfadada539a7c256689, 0xb41089603118cf6c3710a5538be1b471f3f10e574d897be2dadfe199a3f006ab);
  (true, 0x33f9831463a05c852df33ffc763422827efbaca481b75928edabaa6cb2d452fc, 0x1105a598fb6f09e006d51abb62e6964cc02ee68aa45127191737e7a9a8b83bb1);
  (false, 0x121c01e359ee14d05af236c6e175ed9bc39e6937ff3d26336cd4b62cf441b52, 0x80d672de5d0d3f66787be3f0b7d105d40ea7d826189d669d50b3d4087725916f);
  (false, 0x40d72682dd32c414656cca6a9805ef584a1e2560aa17012a370bf00fdbede8eb, 0xaa7d867234849f9db25643a372ccc290dba56e4b7bda1d3645e6737c2ee344c6);
  (true, 0x31360a81cce2cbac9ed3075a4cd3e5e631f4a80db454254e0182d96fc5adac5c, 0xf9d1495bc33be31116f1b692d7275dd7707888769798f1aa44a9530eadba5dce);
  (false, 0xf3c8cbce526d8989e825e0bbfe39e482a571562576eb786ba811e9cef74fbcff, 0x11e7843504cfbc3debaf7deb341f2bbe85fa74bb6a57520db74fcba2fc8eaa15);
  (true, 0x52b01bffa91c10139040f50783b9bb12c43846ded4e0a1ba74b5acb405c4dfa, 0x1212146f0abcc3e789b0892516a64cd9a6edb884ba75be2939bb2209da864db9);
  (false, 0x1468c2680082416696f22d7cf10ddd37c179001668fc894a82731239feb8a10, 0xbd628ebc076cd597cf0c567742f7da079853223bdf1c10efc132f755c099d0a1);
  (false, 0x8c1aacb3c69c31c08f7984c816b935e30ccbdfc3f12a704a26f99d94cb21f43b, 0x53a4a1a121484fd7e19a674796224fd0033b718d3a4631157d305394d59c3796);
  (false, 0x1b542aae1367c46216ac76d166f4e9cd0c7c98e4d7a86752247caca032d3a193, 0x6928aa5e4d841a0658bbbd1a9976ba1591ed7aa88bfcc5807cadacf08bb86d61);
  (true, 0x1e5a808f5f2ff85b2d1a652fc4ba9c9058f80e3594ec64c93d61515f95885b81, 0x543b4b30b29c324cd186849f00d62adf24b0ae82e06d7e280560e6aa2adbed16);
  (false, 0x1bb6f713cf755e004950b6c982b9b3059f26e214f73e22521040b9373fd3284a, 0x9d5c6dabf4bf79fb2c5a2f5439bd04bdef17b9a9aa870450f40d42d893f54c7a);
  (false, 0x60ba7fe44d81270d9d5f8f18bb7a32901ecdf427dbc99a53e7462cbd394ff112, 0xc369471798a0379a1db82b69becead3d38ef666b66b3ad0213556bbf243c972);
  (true, 0x38678584c24d9f8f7d2b96c4f352ecfa4c09b8b1893024380412e65e905afbb, 0x25ea8ce24c4ca376828acb5921a471321c6295a348f43485ac8e12f861689d73);
  (false, 0x59da39f4ae79278fc848763540090ac0949bc40bc8bf856dd069dbac9492fb4, 0x20aba8c1680f4113563d3652f21e4ba9e411eb7f40842c326a07b5058d9d25b5);
  (false, 0x42b5d4b3fce9ca317bda8d3edbf84fdfc3c35a5c4cd01136bb68c975816da09, 0x5f52b20464aeaf83f1ec2382201ae1d6ab576166609ae4e04c82a72b4d568820);
  (true, 0x1b83b435d4a3974a9c2a913c82b03850b32c67cbbbe3571fcef47709b32f09e0, 0xdf0c83ca21ec07524f7b696bf6cad1ec9ff2adfcb287e4765b1431ed37364100);
  (false, 0xc256ce37883baf69f88dd52cdf8376fe09d8be95bde83cac220cf9bba423c59c, 0xdf9b186f9de468e9bb97a6269a7fe31232f7500628ccb6d2c52309c2664beda4);
  (false, 0xc34f9289d1e1d22c6f8e5f13e9aca98dd864e394a89c249885ae2dc49f165c3b, 0x71a76eb8cb9bf05a69d0c18c1e703d3c163a925b60945fbb59c96b197a785b65);
  (true, 0x20ce3c9aacdce08ee7daa5100c7022ba8e8419695bfdf36709a0894072d05fff, 0x845358bba3de5731ff413d96b66572f4df2b6d1844b207569296fc3d79e20e54);
  (false, 0x44660ea46dd124edeebc88c7a3dcae99da3bea34e581ab9e2eaef2e5b3f22c59, 0x78b46cba9f8378ecb314e1b8176b31933ba9576dc3d685cce025cfc002a96667);
  (false, 0x38e9a518431335fb1b60fca5b3c081a6cebf3d9ea9fd57ffaf336bfb9ce16d05, 0x19ad3c647e337cb4357e3cb137e524f2714c7283b13c56d0326d97a0abf005dc);
  (true, 0x7695413fa87c7728b72204d6337d249fdf01cef8c4c34bb97ebc4669f6c2de6, 0x5b616dd79e17fb2fe2c1a8ba6243cdd97d46fb8ef62b26876932c117f9e81c3e);
  (false, 0x209e692bd78a9627763bff87fdbcf08928bb4120109dfccf9b8228db70a61633, 0x1e0e5cb3bb01a32ed7910e56862919ecbfad1b0c56d504fe07652516600239e1);
  (false, 0x3875e886895e18d72e35919b7ae4cb52b3b142bb0b8ce94aae6d7c60b867d03, 0x4e457e070a54cb68bde662426bfed64907fd05d901d6fa2062c5d06e52d1face);
  (false, 0x17ee6ba9901097affb99e4bb55ab77d40b5d5b81de69e80b901f0a8923fa10db, 0xa60755fc36dffc9a81d7e7e5f0c261aaabc0b61f1928f0026afdac15d2d30179);
  (false, 0x6bad83b95384747deb293845b8b91c8239be36fae112e9dbce4181fa958589fb, 0xa05208d8a05d677eef66b135698d6f26ac495d747eaa91ea9c51759ce5353bc6);
  (true, 0x2e468eca934b8fd55fd73175e5b8fc11725f1223dadea9552ca27d1fcbdf61b6, 0xa600c6f1f9635f3aca072adcd1c97eab14d10e7b6b5923878556abc381077b54);
  (false, 0x6ba50202d5ad13ffdf64109a097b7785060136bfa5afa33c56ab50fdf90fe784, 0x2c789a72b7a97818d876d18926a44318512147fd273e0a8b8e34bc0b0f777ecc);
  (true, 0xcd61a6b119143df738bce44a109e6d792a9e104956ac0d31527e0ba5198ed12, 0x2c5fea665b5d57783f90b0797b2e49e1f1ee9a148e8bb06c93333be13909cde2);
  (false, 0x7b11c8305b049ced1fd1d97db2adfcee93853ec8716bfe1527e3e8e5b01dacd, 0xaf621b1d8d43fab5cbbf37417f6a69c6f5d6456830dfb6f9a117cad49fadfa7);
  (false, 0x782746aba4c99eb1529ede5b7a497b78e12086fa0bf36e14674d879c4415a7, 0x187a370437c2f7ad236ca7095e43b956d78bbaca76f15b358fc5556bc74f621a);
  (true, 0x710b56094edd8f83154eed3642ee63f8c546f0e6c6d250c242d0389aff85a85, 0x8e6c0027afa25181599b9e26cb9ae3c33ed9a06a72e2991c7b201bd0bc723821);
  (false, 0x4f3bfdbc7790474368d4b00ad3757f336acc121339d10afd50cc498db5b4de5f, 0x94bac0d75890c1da82f2ab9f5d0d0ec16775bfa94fa102e3484b96175c975d32);
  (false, 0x566877361f0043b32617e42385f29caf3b8b7d658938e7e801a2bd50fc5957f4, 0x688075e58163301e3004c168b59cb8a2f2e38314b4a79e21022f28550d924590);
  (false, 0x2aa8a040bf96308ea0f63d074bb9feb61a0fdd17116179cd5342d30fdb02b65d, 0x29b35a450f81513d7f56628167a5b999698ccd6b9c9ab7f81cf05b8e48f8cc93);
  (false, 0x6caf091822aacf713eeec485670cb1d63dfce486eda7b81b9bf0c5d66addeb3, 0x437e93bb0aa4234eda2dbc8cb1639b07d3398d2c0b34e5f0b09b1273bede46c6);
  (false, 0x11cb7fe9babc3ad8bd8cd068f276254d3ae5366f5e7c7173e0ab31a5d306c72c, 0xde6569fb0da6136703dd3904ec99621a042fd399c696dede056f83f2a5068038);
  (false, 0xc1340bfcf8d8c21431f0486d6f5e05fb240f2c71ff8f0edb99504168196bc226, 0xb34054936daf819778555cd600c588a3c035aedfa74f70e2e803592057fe203a);
  (true, 0x33bd6a18bbc84c388d4d1e15ad29b96648b541d06680acfa3ac7635e24163bed, 0xa7a419086c4d06e3581581fc8cea9fd97004e8cbd03ae8c54ff7837cceee9919)].
Definition c_n256_g : list (bool * Z * Z) := [
  (false, 0x15542caae02a56bb899a604aecdf35def2c948fc51c5271bc0037dd43ae18421, 0x765efd1ec2e0d713442ebb00e419bad3921795cf87ce51d5d1d335409b8a2040);
  (true, 0x222aca8cbff325bcb731bab7b06aa94b5791e3105c6fe7c921596e7794653763, 0x51e16b128e5c27a7e548de703163a4cf9dbfce4c186c1d538ee6e1ed9a4a1c6d);
  (false, 0x1a306c3f3bad7fae72fc84bb29262ead8f382ee65f6acf2e9e3cf9c74a8392fb, 0x5c716e8a46e741211c825e779f67fbf8a684b31fae459e33e726dfdf133b3dfe);
  (true, 0x1aaee598e367d62174375b644329954834ae39f2c6316d4a80ae3e31c37691ff, 0xb17db7d495cbe25eaecc6d022ceb8f0ef60bde6782b9b29d57923bf9aea8c4c3);
  (false, 0x7b0f15f17bceecc4ede67bcfb0914f79a420b1910cb038120eeec0758dd253b5, 0x902f75dee02e1e085ede8eace430ea3b40bd2262acbdb905e1ec797a1a868744);
  (false, 0x51356d678b851b1367dd5e002d821902106dd8a6f585c8345c944c503a4d7a37, 0x29fe36dfd600a9726db31310d10806edad2358e034ad213355f33d39a6362ba9);
  (true, 0xc1efd84da9c24c66b151adaa2588c75157409bfdede1b08183a00176b231cd8, 0xfa893052a957be4e32ad3718f725e9ac215662db78d38beab1a136c942c37387);
  (false, 0xf5303be72987f5b2729c7b3c95ab10c5ad3b9d6bb5335e1f921f2db978beb87a, 0x4c43f9e395ce1d38827dbceebd45d5c788a7c929c51551f03f8ef4d89b9c9097);
  (false, 0x16b86e6bf8b7bd66b3179900366c1aff3b76068f488fe1f3d53080536dcf7a90, 0x74b931da6798dd809f94860d7e352fc7cf5d391895769b74bcadef6082a5a181);
  (false, 0x35385b273a79f4d0d8d7b17b85522a869f0b545dbd2cbfc359b1999ae309c139, 0x1c513986c6a46d53d2b110a603e49c4ebda297d7a1689644daf9d6f2861f22f8);
  (true, 0x82c72ea12a3353072ba58bae550bc1594e97b912f6cb88825ffaed7d47170f7, 0x27406c2ff6a84d4a03caf39790316a2e380d664d235bf77d3b75ad36acbc1a1);
  (false, 0x604b12ce8dfcdfa95af90101058deaa9421d3954aeea23165bb7762804a70, 0x90261abfeba28b4939fad790b4c6792973de33e4e6103b36627306263d2069d1);
  (false, 0x512ae3c42e074076118e4fa52adb9434dd51f10b6e8801f4c4a649fcdb13c40b, 0x521e32c969a57d8a8c545adcc1c7b811ea57ff4f4e13405a4e964bf369257e26);
  (true, 0x17b3f12b021bcf4412d78e17d213da0855cf7337d6d24324fa2ffef7b35ef93a, 0xb3720ea340c9fa59ddc30c87bf7e41ca080e56c68defd5678ca7269eeeaadf30);
  (false, 0x7dc8b349d49f1e77a3faefa48ea122aa47e7253c40495daf3e1674034a6a2d68, 0xaba32d76132970b6a40e5fe02df265ee1d7d156e036b8f393177f4ec9af44318);
  (false, 0x731366bf1d1be34a6f0be66b9a3c8d7d035be96b8ee4cbb878e935606cc530d9, 0xb8b7e82b431ade8ebff23a74fff27ac1a15c75a7991d434a6cb400046cf6c097);
  (true, 0x355164ff150068aa293bb363ccc881c46c3969c2096bca1c04135c11d9e9227a, 0xcea865bc53953085b8f995a607ff383514b2a13caeb7d222591ff66569812f47);
  (false, 0xa6d372816cf364e6420743954d537f12b8c54050e45ba1a0e3015f27b736de87, 0x139ca5eb339c2387b9e670e90a03ae96fb399a35d8eef3e480d91d60138e39fa);
  (true, 0x5a92eb7ffb57511e2e7b6c1aeb896a4d5b96ba97262a1c549f3e834a6d43bad, 0x8a03c4e498c3373ab3c50a3190b33a76d0aa1b77c1478476b9237561da251199);
  (false, 0x4a681054f3e4f27ea222320e2ed00da449f30f588f2e924953c5e70cb9f9541f, 0xa24bdf8873960e8921f8b797688b3e3bed0f78c67c1405bbfe2cd5a8be6694a2);
  (true, 0x2ed890b89f57988381bc94fcacb5cd31d4311a938f08a80d242024ab9e0d277c, 0xe8995ef735bf2812b4de797638f4aa935c7a6bb57b5928d0ba2848c050c92eb2);
  (false, 0xd35658038b798953a9e865a48c8f760d52390d6226c57fdd1bb3c3829d5d3515, 0x3cfce79e4c55b66ad05a573256538bb4d3e69cccc7bb013aabe9620125bf9f1f);
  (true, 0x119a9444f65166477eedbbd14c6b6d985d8586206669f68924f0c6fa510e53bc, 0xbf58384fca771006555b7ba7a8cb4aeea4ebfbd51b4e7a713dc071a2c8af471d);
  (false, 0x8f04c26e62609fa4f7b3d48a609ecad16345bc14394ae468752abb1a562849b3, 0x5e54449d5a27b7ae019241387f63b5a416bccce266d4cc160dd6de43d3c7e8a6);
  (true, 0x1b3a43cfbead4ae69060af600e9e5413d04f71cc86f83ad67263b08127467f19, 0xb1f4ac653935f65d90d07607d1eeeaa8893e161eadf83deca6d95cc90656d221);
  (false, 0x7bb4403d89de1aaec7315e8b09f23770fb038055aaa67f1afc1453b943fc8651, 0x728013936633d0a7c35e5c6a3f33e350f477db2be6e845ea367b0869b702f3a0);
  (false, 0x333651830f21e13326f6d4c7ff0c59f9e69aacec3ca689ab81a1d03f96cb9f0d, 0xf65d70871db1236509928495cde8bf73b39abe769ee978a2acb3718403e7efe3);
  (true, 0x471ca5af801ca087429eeca0328cc0120147c704bda387288e53ea09c0ab626d, 0xfc93975bdb5def51d9ab93b6a1709e24d908cbaab2c0c8b442cf09fd8cd23278);
  (false, 0xf932e714fe0f41dc827aad89a9d8a4a2d347e4d9ae5fa48215131369fd3c5698, 0xd736c082ed3952a91791d7357a327bbf13aaea09dc7088b846896c14216fba28);
  (true, 0x3e1ecc264453dacb037c7027889dda37feb2d1054f4de2d301c9e447070554ad, 0x8bca94748bcf2fdca83cb003993a9fb8a2a77707fc568cbfecbf114a3158555b);
  (false, 0x4c559d857a2c352ce43726b7c91ed5309c7157b050d00b1daf7c646e698231f0, 0x25a9c015d92176549c3dca955b47ab2e4fe4a3f7dc8a4724d3c47332ddcc1169);
  (false, 0x58a82158347a407b7c35b5055775e2fcdd7f6ee5018e105cac4bccac4f02402, 0xa712f82266ca1235aaeea67ab8a28dcb0561ac25809ca737a0a6a74c20916e6f);
  (true, 0x30399af407a9b951bdb31bcf65ba16ee61b62fc679d878caee232c6e56e7b499, 0xdf9b464fe60d1a8acfcb645d3754d3bfca684c58a49017f0c3e5f35f63102f60);
  (false, 0xc34fe2ae2e2b15885a4d03acb80eb4095934cea9ab8fab8ef2ed6ad0ba073190, 0x1df9379140602978255bdef68cf8cfb785fc833ff84641fa4d03c34a63a3e570);
  (false, 0x382693410b729bd405510c7c68eaeb9c204ede49ac18d4b9f9f5cef2cd2bc3c, 0xc9d8f2ede9d915deb5e7c2f1bb0b9a9fe1fd2b2d11c86e650ba2b3b91b2b5604);
  (false, 0x9f266555105e933a5199854a491d5706ed37713027b7bee20e708b324096abad, 0x1de9ec7b1e2a6edca9eeb7acd7c324ab7230ed7e64da3cfcd876e0a9f3db5d53);
  (false, 0x37ed5543ae49684404e85b73d362a4027224837485c6cda6d7584b7facf391b, 0xa9698f54d51bf0fb2c990cab8b31ba41c9eb1504d4cda67755bd827467c4705e);
  (false, 0x701c8ac55552220df718824674e82e70bdef6a9cef409b454856affbdbc11b7b, 0x2a219f3fc57fae9dabb88bb280aa207e03d118231c8abbee2282ecf3bf9ee999);
  (false, 0x6ef0cab653e2419876b7a2fdc9bf0f0ff6b6177550c273c598f31fdb0a9333c, 0x3d8a37a353505e67aa22ae598f0b1b9f0450e29bba3a8032c4a78c8a41defb75);
  (false, 0xecb2923ecacdec6c8bfa3ad6dcde73402305536dcc8d6c01fe3b32c5729b133, 0x56c1c3409185133b4c1835f951ef5f7892bf42adb68bc08cd8deb03a2a643356);
  (true, 0x190ab9d9b4386f4dbdc43689a44da366586e26a5149a4fcfc8bc4d1ae83723b0, 0x9b2e31e10185b80105547756d7cc4e1290f5fccab16c1d8ac247c0063cda22a);
  (false, 0x5e10f8bccc7d59f4a8bebb34544d04d6fdae3d4ecc7682930872dda8e1b9ac, 0xf7bed9640289fe6139ae57338920f25d3bdca11b76010d1c82b810a66d379378);
  (true, 0x4782a82e2a4f4da9381ae6b34242a1f4f1d139bd070fc34fe8125fd9ff5bb6f8, 0x7085fcb340c63528b5d8ff353a1715d3b069d14d94c98b37dcc9a279389a9d0);
  (false, 0x3175833d95d5a4be1e0525446d276b7385b5cd99df4edf06eec20ca5433096, 0x6b7bbab1037ebe0662e2ac81fcc6ec84b0f4d79c2859ebcfbbf6ec0d9efa3b8a);
  (true, 0x1f06439a4c7bd97ec854e1da52407c498ca12198192ea184b11e50162f13b4d7, 0x1a8aeb535713d28ba8ca5244f5a5547a6e37276764c697dab8a42eec25e183f);
  (false, 0x2c0832f7e9c8852d1bc8110c83856ea7b0f8dfafebde2d05529180f40aa5e, 0x14873be8a197c098cbd2821bf600d46b8343c940b928f1d1126300b5b62061c3);
  (true, 0x5ece4f9162eabf6beb2479659ff33c2abef177f28a6a92f470c0311d03571bc, 0x13c1aabcb45369b059676746ef0877769609652fc7d3c1cb5869851728c18499);
  (false, 0x18651dae6b1c3e8903e72da40bbc63257525e386cdbf0c06ed0a626d4620369, 0xfa0f77828978a7ef6c6bbc098f16259155ebad05216aaca245969d66f843e238);
  (true, 0x482db679040790f054b4a9453910d196df5f81f119e7023c345fb99ce8713b62, 0x9c86e1817c2ea16e672f4dd36e350d89357a575eec32ddc9aafdf0429f874986);
  (false, 0x5fb4a9e709405d3e91e1573d32320ea1925b3132e165f380a12830adf3e95069, 0x5fd5bc744e017ef979c616b9e564e2140d1cd88eaa7a211e06a02aacba6513eb);
  (true, 0x1ba987347dfabd01139273868444508e035f0b7357081dee6317fe1c720707b6, 0x4559363986410f34ad5e4366da9ea2bbc9d2c07d16af8b3a0f77c75ffcd2d797);
  (false, 0x12c93651d4a3f3513bbb43ec8e042e3fd6921ac83f69e5d25120790eae32150b, 0x4d7a456676ca72c95287e85cd58a08a3642f4101d86ff458bc4cd2ec5f26bb96);
  (false, 0x1772c825f3622f3461cb1335b82c1e5e7b82675c497e918f220db1472788c37e, 0xbbe826dbacdd5bc5de5bbbd62d42ad658c9edf6e95841a7fb542dd9ba5bb6b06);
  (false, 0x89ecfb4bec87a467bacba9124c9fe087e380d8b0b8b5110841f1c99c61734cda, 0xad60cc4f5b5b67aa675f1b6bdf48c329f309fd8e392cac855b85416d739d312a);
  (true, 0x320b6d9853cb1316aaa35cd48283b6b03efc8918b56a03117dd127e1450dfe55, 0x172fb8e1ac09178da09ed56cbbdb9726124952ca96db1933cfe3e9504b33c0c1);
  (false, 0x2199c1df76597ecfb9cb64c8fda8083c980db0913f991ab8e963475eba1a5e2, 0x8431eeb459e6bf8c301a06c16c148494068583aedd4463c28b363b97ea82eaff);
  (false, 0x444387e78097bdfcb9d1bec3888eb25287ad68662ee37dc4e2a36800ae2f9506, 0x2c19f1b0f8477fb690da384c6f5e67355a2413a0d51a2fa2bcb87c5727c9251b);
  (true, 0xcbac7c42071b5323a12aef6937d347c8b0b44f09a491ffff8a692031b5cb461, 0xa1bd445d927542211dc842216ed5bc6adf13c627d2a86f4354f15e7a378b42cc);
  (false, 0x662f9bec1cd3323f0b1d0c37f104e3da3ea49880443d839bc4814ff08f5b15c9, 0x4fc8d95aa0898a6e537893e13e1aa07bf04e3486f61a40345d957127442e0f7);
  (true, 0x1707853c9395ba6f1472084eacd17960854b034d8a10757eb7d596ebee3a4cc, 0xe5fbf134bef1eaf9d79c3d375f9f9e8a8ff2ab0e1eff6c7656f51d3f27c113f5);
  (false, 0xce9cb57c0cec4ca29d17c3e68cb13d7a87fb7e7470b936155b4133eb8878ab3c, 0x95bfb921160d384fb048066b0cbe5fc67dd7efdeb9ebf24b95319758d7d66e7d);
  (true, 0x2b39655753fef346428c7b376478bae408975f6dd466640035f905e1b86a2b3c, 0xc0915601e1a4a1534a1b5bb0f18a5be8c8606856c8892723c90c7158d2e5baaf)].
Definition c_n256_fg : list (bool * Z * Z) := [
  (false, 0x6dc781d9805168f480b8bca7b7d604d013e181110e3d8775b410c47612a6fdd9, 0x69fb1c3e5fe713db71b3439637ff35df63bb10c87479d273df35807719935c8);
  (true, 0x4566bea8105cb9410ae2df0c2eaadaefa983b8317be914a1e6eafceb0efe472, 0xdd2ba844e6a8d5c8a819e5e8e140fbcd461156625f96b90a9970323361090676);
  (false, 0xbf1467f9ab13e71621c16d7ceb49e07758674dfa6f5c3c6bb6efe9f40e1045d9, 0xb221ce90308050a387d1dd9c4e34b6ef6b956d0e6455d675cdf0987b744c47bb);
  (true, 0x74a63cd4023f68fae1c96d5f14f73f8a6e62957f700539fc46c46678f820dd56, 0x8bdafb757b66f6139a4101caf96e4dddcd370fd3874389634160cee199864e0d);
  (false, 0x4c6788631b7f18dd20205769d082911a36019917c86561caa28041d9762642fc, 0xaa36b5ca190b279963c7f772f07a3987a94c851bc9dde417b20eb505762a4eed);
  (false, 0x712cb5220cc97d6356e508a4f442167d938019829b1bfde15c7a86795fc9b18d, 0xd95cf20f796b7f877979725134b0d253800b20a9d2ba9f328773c3228f17b8cc);
  (true, 0x8e56f6b4f2f590074e38f1b25d0c0cb252fa6c1a4bb4b8521c9ebe67f7a5685d, 0x3888a2bd0307208289c70b5fe31336dd9dffe14b8e2b76b67b736599f108817f);
  (false, 0xc7c10200e16294e2647f3b95636b5f8e952cde87d6e23ac8ce7ed98542d9fe3, 0xcd86b7481d993fd088104dd1c9ad7c11e0dd93e3fa20cf3d591e137bf41cd72e);
  (false, 0xa501086e871fa3b26d3344fdc91ef1e97a8e1c63f12ef80ddfd7de4b1ff320a8, 0x865942438ed22835a4ab2607720c5aa7f52457e3b6db280c1edc67c53650af1c);
  (false, 0x4681907e2425c82e69be689e745d7050c72300efb923308b9545b7bf947a08e1, 0x135195c90c44210b9f41575f242bdbe27e082aa2660cd56c57ca87e1305ef6df);
  (true, 0xca69addc2cc73cc6ffc4aaff44e3011c63028e289e800d5223ff257029ec2ee, 0x115c70422e6f5b9aee875617c3e262723334cda4dd12b8c4b226de4effb14f79);
  (false, 0x12d6849ac238c3b7ffe909c84ec0f774c469ebcf3a5636b7100969e5171b665, 0x8f16816f8425631a7e37b0896bfcba589f0c16983c10b6d622c21df1e297983c);
  (false, 0x4ffa26956638357b42512f886cc0e230547296dbb766893296c2e3b78e9e5447, 0xb010d5aeb2a236c19437e8540d2d9d5b2a42566b830851697fabc0d763936099);
  (true, 0x734bd765bd9ee9e2cbdd6c9ae7e5cbc0ec6108ea65f838a384722415b9b1494f, 0x366e317a33f3277bb3287f1ac740d01178c7225914b6c85770709193c2042f2);
  (false, 0xb92ac4e2811e824ddcc0d6ec45d4c72c63e9eb9ebb1b1a1da039fa701b097, 0xa7c7613e4232f59b31776c4854458164b3ab3f0a2fbb743a97faca25398df9fd);
  (false, 0x6df5bc27fc0f61209fd73f5ab1d8253f56a7f4c0d735cc845534d444444a6649, 0x36266c42e16bffe606b83314c87c22f80f6c20a3985bf067e9c544f2384239f0);
  (true, 0x2375c688a80a0e71de24e4f8c5e4708fbc06f8e1db8a9af864e5b8ca1bf7ac12, 0xa0037d54d99917979abfd9f7e749cf8030a61a8d4c7710943eaa11ed28060cbe);
  (false, 0x64045cb6a15ccc6952cc4ed0d0db247fc4a089342371bc38b6daeeac7a98d9b0, 0x74416b9df63ff53e22e9a662d33bdbdbc684702daa7d6da46a8e8edba8a70c54);
  (true, 0x4c21327b7fb30aa09207cba5a71802443b6e09a247ae07917bf0254e78ffa2be, 0xce03783b3cbb37feab8c86c2ff7e88a6c28a2835af8906e3343992cc29e47416);
  (false, 0xa5c9958c0561e6b11cd95ab31f0debd5af73936bf7dabb74f89385e997804965, 0x624f460ffefe3d984309e49ea91520ba019c47be3d6d13b15b8ac2e9bf921fef);
  (true, 0x4060bb1a8be0b69adce2246757f77c979dd999014cdabde56d42f3656a727f9f, 0xaa1e77efc06403967e524507d2e65d9dc3e7efdf48f6634eef7d78c2f3639908);
  (false, 0x710c7aeb30f32c853d9c5975837db131b0aa9105dd6c6ea88c989d99a2966624, 0xc654e7933cddda4944a5942fccc021738b6d125aa27a9c8f384dd4bc9650adc);
  (true, 0x81e084daba14587d50175672ce202e2f43d1424c0ee7a16d2e0c8c746190c6d, 0x87311c9574a8794e2db2e3fe05f895c568626ca4093aeef92fc0c44d4803dbff);
  (false, 0x4764d591dcd636c65560f7f447b347cb5256888de5f7e7342c263d75c57e3325, 0x65bf88d72f8f9b186dead769109205c9cef87124a68056246b48f5356766c04c);
  (true, 0x42a12aeb59e70689af1a5d0bd1e3d5cede6ee5ad5b8e2ba5d15c0269debc6bc4, 0xe72f23cc227abd5ebc1e572c90a65d5f5b3e6580edac076197e8b5ec1ea0c668);
  (false, 0xd0c61b4960f5ba4f9881ff0ef77f1dd26632d3ebf4f48304a8ca7ca916a1ceb3, 0xb4697ef865d00dc351faa6ab122af8c3d27800b3b5fc570db15327c24c79c49d);
  (false, 0x7f248607350e134ae4900a5507e9079e7ac5690d3e993c05a1b930a5fda500e5, 0xc4aac8671d2628a6e934af16cf3f210ee9f8e93fe7d438cb1d601533cc8566d4);
  (true, 0x80c9795f4cf7989bcb83abb2514f6f06d46fdf87a3275e2fb53c2b64be5bf56d, 0xe809081ffb929e47dc4c18d86d5b8543a8b522d2d08f07ab04cd629a29db5637);
  (false, 0xd2505f0c5ccbd1f4f97286d093e119b4a258dad8949e7df1bdb423e7ae1a6ed1, 0x207fbb8f8d0653029b3ef5095ed64b36474bc53cbe75ef6ad827bd8dbdeebab0);
  (true, 0x1548285c6d4c2c3e13c6ca462978023cf9f2c8d873096754d961b3b8464bcdf5, 0x26aafa041ac44d78b16c3aa9d19b50aa732f952be499a5a67666b1976503d7ab);
  (false, 0x5d7346a3f690c7932c839c77164ab80217360bdd61e5edf8a34a975cc76355c, 0x5bfb7cc18aebf68f40290322c139ba7fdc43099e468f9fde32bdcf2db8017e1d);
  (false, 0x210cc1bf9a22fea627a2ff04eb89f9e579a7045b645d158c9c233fcbb87a3a2b, 0x77ce84887e86174c1fc9972d42021dd8c9ff10a6c2e2d15a5c3415420ea4f0ae);
  (true, 0x4e7484795c83b0725ee99ab590fb3bca92ae7ea386694073c0e6ab025645905a, 0x2a913fbed959fd0518caacce391d41e61ff0bfe817a987aba3bcd2170309d084);
  (false, 0x713fb53ec77378bd5f196dc6f60974a4a6a7d2d54be51bebb16772f5ab2f000, 0x39ace538676240a46d921442321baff8d52c9e34f2a9c75e7cdd9d710bd0d410);
  (false, 0xcfe72d7fc11150b313395350eef84e0fe91b4c693044dac7e9f9860aa260eb3, 0x8b12a8254edf0285fb413b9389a01f3b2a121745415eb34b7f729eaf7046fb5d);
  (false, 0x4b8d43f4e2e385030919a93c080417ef683690e1230b6eaf6555a95292d060ca, 0x3317172a021265bea402552a11564464357ce1bd8c56f6f2e21a7f7cf5a1addf);
  (false, 0xa32354ff2aa7c6c22689c65ee1632af8c2fecb169bf052700d260b32e159350, 0x1827ae31cee2343d65758057593dc13ff552ceeb15f56d528f853e9b9386fbf1);
  (false, 0x24776cfe2c6a873a7066ce0e763a62ea8fadf8dbe40ddcf53f4624f9fb156ac, 0xc00b96a0b69d3f905bd0f9cec85fc36f874b445ed8675aa44152c7d581173075);
  (false, 0x90116277ec6dae3869ce3d70151222014bcd05cc1c23e18fc7074c53909bcf4f, 0x7d970a0517a4f25d15b7bc11edf15e5f6c7090ab60fb525e7138f3197262127a);
  (false, 0x3d9cd8e6091a381d6e1236ca1efa1cf9c4f566a49da8feff468edaa9dcb5187d, 0xb9a39e45f90f79df96d9866aa71a7a101e5aeab84fc8459645122a58488f9197);
  (true, 0x7990bb3899f80b202c37c2b407558852d7b277a0f044621b17e7a23ca2984202, 0x53e04240f0944353849287bebab626bc41d772b053250430442038b2cded4a1d);
  (false, 0x1b7b2f6a3a45e30db7d8c64f1286d15d066a0c0dac5fcf74e6dd734e1f5049f7, 0x917f6adc80ee0a2232d021313167dadb9dcdcb73be5ab38d39d4c6b07f89ad22);
  (true, 0x5f476290e79dab78f9166a6805c4998369ae15f3a6db1df7b0af3bbef04b2f6b, 0xb70b0cf6e1af8bfb3cf55818d80b952b25e5080c5fe883eec727b4427e81c277);
  (false, 0x82e0cd0397693f7946bd147f3d4e00560a055da356b59ec97383ff43023fdd06, 0x56e9abbbe453a51a1c95937186f121fa6a7a920519ee08f3633a3037612dc66b);
  (true, 0x38ea25397d126dc0f43d273ebe3f8946f0b4b039430ef36ed73f503331c9a6e2, 0x3421589ef6490971107dd58df8ef4caa69cda086c4d1f1e62de1869e8335dbf1);
  (false, 0xa9d90589654670a0f260bc6c138a3408e6bd4627f245417a1d9655a1ac60150, 0x8ccaead03831d1e7d653511802bf8e5067201bea6d8000da04157a0b1bf93e91);
  (true, 0x5c329ef11114c2aa4b7c96839951699ec8d6a0871cad50fecbe02f276ddb7825, 0xa793122ee223dbdd83f289a068ac283e9aa070adc643657c83873f922d6c6874);
  (false, 0x6db136377bde54a3a84a95e80218269916a09cc95ea59011bdde1abe27ede063, 0x2bdfb3b6e650ea02883d936e7d0353f99cc2095534dce09d4b9ed21bd683263d);
  (true, 0x1cbb0dd5d83f6fd0d13e0707f73616474d2f8a79ec0c8151658773fdc68a3b84, 0x9d406714bf23fb0b0e8532d3a9b11ddc2cfbe17fa0d6f16692385e1a36fc4831);
  (false, 0x60980ea386eb76099c02df69aba52d655ef1c69895b5c1bb8d1681888ec2a241, 0xa0b017b9bf884f3ab9085d766cd4931d327ee97029f02190d4d447f0d8a7ddd0);
  (true, 0x6939e00043f703d08ab8e1dbb147a6ec154db4f77be8f9fa3a5ab2618fd1b160, 0x61d1ddf4221ae508ca72b6ba21a532bcd64fd3d19cd5b17f0a759b352b39f9f0);
  (false, 0x2560b63f5048336d43ede8eaffb1d8ea25bd74669a6f713aa8ee425ca95fb7ad, 0xb26190bb87b16517d43839f938f6c9235c92aebca9130400bf4fd4bf2028a243);
  (false, 0x7c4bd27444eed97e9ea11d603bd6435b669e33803bcd32cbe67659033ce412b2, 0xbc77fbca722fc38f6d83828f1b60b48573230d8ae978419360bf7ac2e153937);
  (false, 0x8ac0720df0535db1ed8e55d765a2467b8dd245a22e63247f545f1a49f7fbdc, 0xa3056758822509d4bf9d55420d9fcaaef634a3fca328453c53e296acfede0d35);
  (true, 0x6ac105d24094c30bed113f8f29f6624bdd6431d2fb502be3d6a7f0d9b00a321a, 0x9f1da5cc2c6f8129dbfe792124c3951f72eb8e65eccf0fe62014fcab62545af3);
  (false, 0x62e5d762fdbb3f367383af365fc2f4a2b000a08b8a6a612aaed508e9fb015ccc, 0x31cc5782e85b722bc469e20bd15e3c844bbfc87a69852a51ac8c43488b0bea1d);
  (false, 0x9afdc9bbd2f6ced61d0b52792d33549fbb46a8b4ced8a26ac3b04a6a3d0df06, 0xe6fe0cefb0b8c713a2b7cab32eac58cb6efff433f68a728118d78cd645f29863);
  (true, 0x9743cbc7a60609da1167735dbe613523e8ab13168b7e03e8db85a26d4baa95e0, 0xebedd67603248c9c7b263326393ba7215d0cceae3e934a7e28cdd513198b40cb);
  (false, 0xd96e84b44d5ef42f1895b4c695ec5b184b2ed995791ca2f037562cf5b0083c4e, 0x5a2e847a77c33e240848086ae7c0737110e81bdf95b6a7f204e7c0b3155bc64b);
  (true, 0x3b0e270a802e197c158600810b669782c005477da81e74d6e1320526e843fe7c, 0x886dd57c93baea09cd3932080ee575a44e631adfbc9977def89247d0d7f3bf17);
  (false, 0x48b4e1f423c9d23e0d41b2673eb60f44e0964efb5e8789a8b4981c6cc0baaee1, 0x9705b999b6e6a2e05fb400b80d65ac50d06ec47e6e39819ce16a874fe2f279e0);
  (true, 0x62e58a8316e0d543940d2c84c17aa3ebf8e2c674e61b06e26826920af13add2f, 0x1)].
Definition c_n256_y : Z := 0x49e49b3801afda5b5fcfd19e634a6a614501e3f47de8937e698db30531953047.
Definition c_n256_u : Z := 0xa7a419086c4d06e3581581fc8cea9fd97004e8cbd03ae8c54ff7837cceee9919.
Definition c_n256_v : Z := 0xc0915601e1a4a1534a1b5bb0f18a5be8c8606856c8892723c90c7158d2e5baaf.
Definition c_n256_ui : Z := 0x154af5d0cc57479fbc9811f668d2d15a1df4a0b040822adf2503fef7b3e6719e.
Definition c_n256_vi : Z := 0x72ca5f0d48545c9059c0d962203775545c6248bf5ec7809bba828ec3264e8033.
Definition c_835945042244614951780389953367877943453916927241_a : list (bool * Z * Z) := [
  (false, 0x0, 0x4);
  (false, 0x0, 0x10);
  (false, 0x0, 0x100);
  (false, 0x0, 0x10000);
  (false, 0x0, 0x100000000);
  (true, 0x0, 0x200000000);
  (false, 0x0, 0x40000000000000000);
  (true, 0x0, 0x80000000000000000);
  (false, 0x0, 0x4000000000000000000000000000000000);
  (true, 0x0, 0x8000000000000000000000000000000000);
  (false, 0x6fe4849cefe4849c101b7b62a036, 0x8d26628799a205e78779ac7e6b6f9ecd6ef5f01a);
  (false, 0x88105dd341037d77d72f9ecc2975840f4666add4, 0xdf13e0192b37adf2c82db25024a304500b24230);
  (false, 0x153dae2a357a1aec4e4fed836d930f365974f0e, 0x84f6174410b13b7c641bfb1c0429a24ea8e8db82)].
Definition c_835945042244614951780389953367877943453916927241_b : list (bool * Z * Z) := [
  (false, 0x78bc14a2c651318eab04e3530c54ea14d6cfcea0, 0x716368c5f08bdf6c4943d9ea39b018559b764a64);
  (false, 0x57ce071634e61f945ade563176736e7b08f643e5, 0x6ab32842e8421fff279f0be4d07f42e32b4acb03);
  (false, 0x4dc06609e8fbd756c25af536be8a67b99b6baca7, 0x4c80de5574152e7ca5b9f82e5533ff723d93fd2a);
  (false, 0x27f88754752aed654b9df28e0dd6753c460adcb8, 0x68797d6eefaaf4a280c4a0945780f47e1b03306c);
  (true, 0x5ede14315f05143eb7e54c1ffb6e58e4b06c0b5a, 0x375bdf1039b31d96d440f07c543a79530bce32ae);
  (false, 0x14edeaf8abcb1a803f3888b4ae2537d28ad2ac96, 0x3045d9bf8b8266961c7236aeaa8042b2cd320efe);
  (false, 0xfea0f9e91b59bcde0845ca1dc5139ee877afbe9, 0x2e389b2a6c6cdb1f0182abf9903d0d98c97ecbd3);
  (true, 0x29f88696f02e5881bd55904c37a24e83123d8e73, 0x20858902b4c5f9b5b72072b2305dad755e30911b);
  (false, 0x7391faca8059141a045018e6bf5b9c3d9e471b5, 0x70483f8dfaf875e2771b5d5c41c2f5a08daac07c);
  (false, 0x56199f5a2348b92e0247ea8614dfb0db297905d6, 0x635ef41275f547c6cff1a275476769946120798a);
  (true, 0x5a3bafb304ba18a48cd58685c02d8e80c25e3134, 0x1f13f69411b88372f7534f4676e60d2ba4e9c740);
  (false, 0x69899fe4c316ecbf674ac68a008d581e8ab993e, 0x5be7ee36c10b7c4530f9e6562c3af9f046e416d2);
  (true, 0x537464c720082cb1412309f7fded9c1875948880, 0x749a0c98ecfbbf2c692e17d8cbe57473d9bdf024);
  (false, 0x5cda24036ce06b76518921302e20843f5a2f6897, 0x25a1b534cc520de2dd76efd1ae6f152df54974c1);
  (false, 0x9abdfd21487d480c5d980ad2e752850d3101ee8, 0x433e5d60a011ed047d59f5b048abff8e8a2f5b59);
  (true, 0x3d0f6618c37f728b241e6c922f3d63f661a1ee4b, 0x27d7d500a81bff0dcdf4105012396383e4f4fe8f);
  (false, 0xad769d86939d961a5eca7e003884698788299d0, 0xbcf0cb0af1aa9d6f7695ac2d22ddff69c729b91);
  (false, 0xf3cc95121ba4b8547b690b2cd6ac5720d9a172, 0x3b89ffe2134df1c5fa1ee4c37d6a59081e6de11f);
  (true, 0x361067959a4ff3441b3460ab8ba21e1f5f7ed5c3, 0x35a484198144c5f52614610266ddcda1bffc53e3);
  (false, 0x13a6db1bedd9ad7b74c82078c93fe06b7e6d3054, 0x93554632a72a15c586ddb55c20502a5bcb36455);
  (false, 0x943eea28236e38fb320f294c9c1d10735f2e57, 0x58fb11f8740b19b623b544aa27a023915e67c02a);
  (true, 0x50cc654724eec5c3b6f717637d86437acf3389e3, 0x99e37b24122fd35adc1752ce79446601e50b59);
  (false, 0xa1bb40c42ad6ab8e511608fa52fb8b4d9c43, 0x2be0c2ebe1ee77c6151cd385aab65f79e72fc796);
  (false, 0xd260133fa24396a30b3859580f77738abc33b58, 0x1ba954278d3459e7e5818ac0cb1cb96670bb3dcc);
  (true, 0x191e2845f42d6d2c97ac21f8df5dc3159b773f00, 0x3dd0e0023af003206819acc3ab3c53e66376ae98);
  (false, 0x1a18b436cd4a83859a24299a1414d3260ea36598, 0x1cbbee3f3f7ec0a1195fca1871273ec6dea6efe8);
  (true, 0x1a178206ea27c9e7098f5a729d0ef3382e563374, 0x3e54a23f06ad5e6698eed095e17bf12d6c7cf8bc);
  (false, 0x1a886a3512ff5acf00565ac322283ccc38bd7ce0, 0x868d3a8f713c5ef2da912b7163d15a8a0f850630);
  (false, 0x7ba3e69997df113d84083f446f4cec958709e0c2, 0x30dde5638507a052d7ab803f4a04ac164253782e);
  (false, 0x104eedb7d30aa5b5c7dcf52bdf86c693e17e86c3, 0x9df401b39ddc2c183be935033e353a43e3f6c69);
  (true, 0x8f6dab40c162790228fb8c1aa11bcb2591c15a4, 0x62deed42c42f9332dce46eee14c9dd7664e3a98e);
  (false, 0x42c29dfba759729a7943c97bedcd83f4ce538041, 0x76f15929768f950638c673725b704aeb5bd6f37b);
  (true, 0x6c0158454f603b544d5bc86c6242990ea4dd0fbe, 0x924a7806dc0cdd10a6496c0f4993af033943b9c8);
  (false, 0x9227e5c43eeed00cf413f266497987f9dab6b78a, 0x8ac6af38e4b788a8b17ba3e658061d05b8b5e666);
  (false, 0x83869c99a64c5a08fc3ced37a1720e67da7d2280, 0x76ba1c05baaf556b0687764902bb901f34dcba24);
  (true, 0x6bcf2f7ecaa26d394cc6bc7843e80e945fc06e1d, 0x82e43bf9bad338697cfaca3c4e1d75a460461243);
  (false, 0x75014dd951fbe23a1339b48b6b6d4bd34b501dd0, 0x1e7d0850f8770f1d7ca385fbf35c9d9dcb9e6139);
  (true, 0x1baf4fe57c9a42056c8eff336fdcead1185f2da4, 0x3698856517d819f3c4696517c8c53c5494b6132e);
  (false, 0x145b39933095a34983ae805cff8044aacc987537, 0x2ff3e5f998c331b2311879f9f7ddab4930db3a55);
  (false, 0xfb43484c692ab196cd036ff938232025076ed8b, 0x6bb4bc5a8ffaf9f7c27167025146b1e3d126df56);
  (true, 0x61cd411dc9fc1aa1222deb6dbeabcd66914c46f3, 0x9102c1d86ea19c9ec7e237a39f7c3f1da1cc8e21);
  (false, 0x8f9bf1bbf4cbf95a8ec3cd240cbd32d4c2fbe420, 0x6afb5d4f70571b685878b54928bc1d364a4efb21);
  (false, 0x4e29c58b7a197396e0dcf2a261b8e1fcde226f0e, 0x56caa250a88dd3c28a26ac9bc9771bd558fdacc3);
  (true, 0x4ecf7eb795fb96163f77964ae86cd4151911e05f, 0x6482fcad59b482543add58d123cd79f10200ddaf);
  (false, 0x44fe98a17cde2cf6f7327fdc8c0b0d45739390d5, 0x32b86b654bd156395e042e25726b1e71d6ed0d24);
  (true, 0x2e0e6c40dbfb6f3fd1d01736da5b6445ed58be13, 0x811fb9d9ec1c878963c4b70ba83dfac874793a9d);
  (false, 0x71ddc3ae3d69f5690a46e98f81dfed1dd83bf29e, 0x63dec3fe04dbd8970e2832c71c423c682edd06bb);
  (true, 0x5aafbed2b101e94b57faecf8556a529f02e812d5, 0x8331b22c010952ca24b949e3ffe0812a6aca4179);
  (false, 0x758bf3998e486e3263bcf151f78cff91314c8b2e, 0x517ef1348e143bc13bc27cf74d76d7515ed10093);
  (false, 0x2d5b9e5711a1057fd40c26e07383544bc87d5915, 0x2982cff87dc61b9b8a243f8da3afaa81081679ac);
  (false, 0xbc4a49df85fd9a8719de39d238960b141c57e0b, 0x43534262f095a12f940694f60f200a71f1b4b62d);
  (true, 0x3d225f3b52f92aaaa5247dd3b2fa9d948bd4cdf6, 0x21d2ed2f8d03d83b8baf5624dc3e68d252d69634);
  (false, 0x7d02ee07b4f29d85362d0df6c1712110b3f4985, 0x123eab7e9fa8b5e85f728a494179895818667be3);
  (false, 0x245f81d4a7a4523f07dc37c6980cef41464c601, 0x1eb55fe4917d64f80180ff3c6cbfe7fad479e040);
  (false, 0x670b046bbae0c77266d46791c0c5f3403f88656, 0x2e8897e00232ec27228a43cb4dd30d9a662048fa);
  (false, 0xec9c53bf28bcd8917a1319a3164b91dd105bec4, 0x821bc9d182c6ae8a990fabae863e6061595fcb40);
  (false, 0x739c03e5192f9cba085ed20abdb0ede38558fe19, 0x6d6a9d0dab22a98f5ba36a157916ecb59358941f);
  (false, 0x51c2d9ea4ac8ec1d822ff74d7111d562aaadfb14, 0x481fcd9ffc6482d6bcf4b456a9e121d924a9640d);
  (false, 0x23869b98f06cfd05f992845845d0c38fcd565460, 0x53d4e43a4917587194d8aca9265d3a793f6f5149);
  (true, 0x4c1f6e778e6b21e69ff6acea0acdb034c64c7c7b, 0x29efbf7633ad2192d398024ff566cd1b9ebb42bf);
  (false, 0xc02b990057a18e1551b88c9f39ee2955505c478, 0x7ccf231b8662da7af35ac9dec811d438474a49);
  (false, 0x6a622dd387516156e7fcf8c83fe03f5a4ed1, 0x3bc3cc1695ebd61ac5e96c0250bf6cff61c35e78);
  (true, 0x3644e33027ba9ea479349e220f64b47d08f5e578, 0x45820cc6debc8148709c241a87778b38c876b7b8);
  (false, 0x20fec80d9dc5acbd7761df2d87e9f28af1a33df3, 0x21722f501c0812f37cf37f8567a66d796e3777b5);
  (true, 0x1e5ed6f312f3303c7c47d5d4f41ddd02885002c6, 0x668c7f8c3c3c29232540a77719a51e52735249f4);
  (false, 0x47d1d11072e09091cb58df41185b1f79fc5a1f4f, 0x59c7b9904edf1d2712fe97c7e836e5ec6f57bc9);
  (false, 0x370c51c2d4a13535d157eefac38f89eda18c96, 0xd6d08895f7472e1040c5c871e8217b58410848b);
  (true, 0xc30fa2633ca34666daac04be422c4e6366546bf, 0x1fc099957732a7cec78afd32eeb7ef0218360fdf);
  (false, 0x6e2adbd0f8e9981453f4e7ac6889d377878ddf5, 0x75c146ae0b75330c9d92297cb920fd313f01fda4);
  (false, 0x5eb2a7ad3d97b44d0606430d442339144c7f8a6a, 0xa1e02c9acbc62a4871d6b874bb48a391c0d0156);
  (true, 0x92fd7f48e5e446459c6fba7194bf83fb55c2c1d, 0x59e934f920642790ed3a8e67c50d190209f251a7);
  (false, 0x3735686c6c198df150f2f0c6e1e089792ed9cd68, 0x73a57dff9348cf75dd956d21de00b11b36bd5a49);
  (false, 0x5b563ee77a27617e5b41656fa54bf1b6bf854fcf, 0x2f2b2b83982eb38f40b5f8f0509a6b11b2ea9f8a);
  (true, 0x2ad4c8ccb0d7aa92167451f993f41803fc7f5a66, 0x589401711ddf683e3815bd7a2dbee609c26d867e);
  (false, 0x35957e52da56a7d30dbee9816e9849c4ad9d6431, 0x7f23a7f27c8b12a9425151dd936c892dbae9b4b);
  (true, 0x7372b34a5b4ce2486d20a242d7f0487e806708f, 0x4970ae5df68c4f0bf076d67059b2a59ac4cb550f);
  (false, 0x24d580d70d8f1f40ea30d65b455694bbb940ab2a, 0x3473efcbdcc3886f0de3c1a0944f50922d4a8067);
  (true, 0x2fa127ebc3a2c6c9a0f1d2d6e4b2187f534fc948, 0x571ecd38f19e6b29a7063ea387de9bcce0cc55c6);
  (false, 0x33d5ae6b1b3de6914c7ac4502ef35ae81c9eeac1, 0x7ad7c6eff20a3d6efecb122cea9d87e3ad1fff5b);
  (false, 0x670ed73475ca40c3c1717611347e6d56dd2a728e, 0x6e8983be6f8b691246a4c9be0c190a827236bd5b);
  (false, 0x5371d1b7e506ba60b652108f5d4df480a230dd9c, 0x22eef4c066fb6b3517fbe6bad55acac2e0c1e7dd);
  (false, 0x8558e148ee4fb3d866cce6a30ad632ba9aa8c85, 0x3cba5b66f66b3f793bba23a8be5a1b47214bbb1c);
  (false, 0x192f9cc89bef35484ebff63116198fae709168bd, 0x7f98602edacaacec3cf8b479a90fb7e36c74bb6b);
  (false, 0x6f2fa2c39c376aad3ac21a6c00684ade0a1cf652, 0x3ba8b862270209b191ac11ab05388ea2c53a1bd7);
  (false, 0x184ea2fbb4b918ba5d13d4cce10267d51ab866f8, 0x222963d76eda0ad9ae493863b277a8fc372d17d9);
  (false, 0x7f853ff0099c6d5b6496c66e96cde2c4d4149e5, 0x5119851e343c6ed40eb034f7c7e80ae1ffde53e4);
  (false, 0x2ceaff193861899320ed0b9b0a4d53590f4b4e0f, 0x23932473d60d24c7d2fd94c28acdcb55c325a989);
  (false, 0x8a49d8196a7bd40632ad29980abed2badd31ed6, 0xd54a333482fd759f8222ac415fac9cc235e87cb);
  (true, 0xc1ad31c17c5a43c1db5920c45402757fc7b345b, 0x49341f226084557c8b6055ab36ed99fab58c4fe3);
  (false, 0x2498da8ed89e69178621080c97e400577a4f64f2, 0x202a08ddbac28c1061e5c65ff5c38aad5a497cc7);
  (true, 0x1d34dd688c2f9e16d3c2edd9948421e8f4b0287f, 0xfdf52541623ee92d39c7dbfb4c5a81739f8c297);
  (false, 0x1b87520e00b84c791279e8fd467e5c966dabd19, 0x8768f1f2b5f183fbbac01f87aa2f0f6ab1b88230);
  (true, 0x7af54ab0f5ed90393e5881ffbf5378411e71172d, 0x8c772e921106c12291b55a0ed4a791cffe7faacb);
  (false, 0x86bf67d064ed6f49573b16888a5dd471aeb9544b, 0x640df61cb667c24dc34e48f9a338284c1471f56);
  (true, 0x5ada99eb10684b4e766611f5ad9e6968cfd4b07, 0x4d9c8fa695b7224f4c72988c77f891f732ba456d);
  (false, 0x29231e3be29717a048b4a2b8056094f11d1aabf1, 0x5dc5bb5a29b84a2b4826ceb9b657c7cf29e81ff0);
  (false, 0x3c0d751b846d21520162bb2225a4eafdcb13f594, 0x5a7485917d3938f93bf03c172ac52e27d8ff3acc);
  (false, 0x37e103b5110ade7ada76138a1511771325e3fe42, 0x67dc5e7becf937278457fbec9d184e54fe9fb83e);
  (true, 0x5e4f67fd469f6db9f564bd5fab321c00dc428e90, 0x4e2ea65a06f2e8bb73c9ee6f00701b5b0a0fc66c);
  (false, 0x29be8d8c4b5680d11a31fb0c261fe22a3ac43a6d, 0x3d249dc0e7ab781136993d49d4cedece1513ebb);
  (false, 0x19880d686938cdfb532839218ac5b304f0b485, 0x43261df785b8e84b3af7aa3fc3e53d022d06daec);
  (false, 0x1ecb2433ae3893943c1b934f5af29b5dff166743, 0xa3700254bc2302023b0ee5b72cfe3fa2c05a935);
  (false, 0xb66ce4bdac1898eea16334b0f41638fae96581, 0x31c55ea18bac6d9fbd2d5c5199ef316cc24bde70);
  (true, 0x2d31b91161e14bc7fca71335ce712a39ffd734c7, 0x9078e5ccc9ecd85483f472b9278e270a8f9896e1);
  (false, 0x8e8b65ac6dc156fe6146fa89c493e5f182d47813, 0xc6498707681bbf3f411bc9aa3a2fdbd35bbaa16);
  (true, 0xb40db1f130167b2d215f43cc0334eb41e2d5fad, 0x8118fed6ae80bb618d8c65ba5ff317be319aa317);
  (false, 0x71d1e5283a8a1beba9b3afaf515df685aa3cc4c9, 0x6d50d8d30f5abc9b6adc843469484544464de400);
  (false, 0x519c5c6c36d04f06cd6f3020422da66334fa8fdc, 0x244f1f39e8c3d6125e9f3af089dfe5506567e544);
  (true, 0x20f860f67962988223d35ab1a79290df49f94ca6, 0x5f4943b9999a2e44121b782322eb3d5297d848b2);
  (false, 0x3e01d26216ff8f7b6e9297b754fc4b202465097c, 0x3235b81a51e39d79c8ebe7962796abe17e841a68);
  (true, 0x2d97bdbf2a97df74dc4caf20a7a21b758b4ac3fe, 0x5a45ef4b7370c26d8053bd60e72518634161a6e2);
  (false, 0x37a7838b05bc956a76adcc37675465dd084e884b, 0x3912d15f2d54940afabd6640d36693810675ede1);
  (true, 0x33d343924e7a0cf71f721dbbd2f6e8eab98d71d7, 0x88cabdeb487eb941bb2c0297a5319309e9d7a3b3);
  (false, 0x7fcaaf0e3c97a576edfb9e4accddf363ef31ff46, 0x413d430af9caa7337699bbfdac386bd3dae6b7b3);
  (true, 0x3b3d7a985f293075f1b49c31ee8bff98d3867573, 0xf5720145afe145e803d074cf36ca409a53bd9db);
  (false, 0x19b6ceb3af7a777fb1ec870e4a85480c76815f5, 0xdb7ae4158583a120c056020a1db7170304822bc);
  (false, 0x148fb4e079793b4c3327e0fe6787cb7dfb3ce80, 0x8624c5686a04ec5c792fc617cfb2103340b3b790);
  (false, 0x7ae437f2d1a1c2a78717ab16d94569d7f12154b3, 0x69e11d0dad988cae6957c20b7d6cf32432b187b5);
  (false, 0x4c8f75cc481f2b6d6a07d7c9b6db95e9489b14cd, 0xfa29ec48ce3f5cec7538f7241ab8d63c4c0d9c4);
  (true, 0xe328e08dd6dc0df61195033750a8b192a7635dd, 0x24745635b5bf15f57251ef1aed40e71f75a53bc3);
  (false, 0x913644d425d6567469ac58e1941146cc45e51c4, 0xd724f5156e1050383e101ac4e2f03d3c23782a5);
  (true, 0xc35c4b7c02941d8191b36052d44f1a371a3a1b4, 0x297dd81f6b487668f8fc08d13e65c19f49b30b76);
  (false, 0xbc1d3a96c204bafa818f68c0451a72b65f57827, 0x59de5af47b1ac740455c2bcb2ff29ecbb257ee05);
  (true, 0x519ac7cc3e1eaa22e03377b832579be055bacc59, 0x4b1912cc7ab91bf64af11d01a581fffb79aba969);
  (false, 0x2684045a3defcb6e658e75423ebf6185418c9848, 0x654ddc4f25cc539ad3baedf03a95ce415c0a8a89);
  (false, 0x4616365dbe6c8d8f359da26ace6916a22c099b28, 0x86e4ea559671a2e86ebecb9166e3cc97815340e9);
  (false, 0x7c4541dd508773363fbf909f3d263efb6bb32c03, 0x265ea01336e221626fd28adaf62c189f7de388f6);
  (false, 0xa0dee305e4a788279cc6b73be794981a4c5e6df, 0x1d04d7e4e627a177ac8971d07cc6874d38d9e38d);
  (false, 0x5c042284255cf43c3d44abea1888b46de75131c, 0x2cfbfddca7f6314adb708ae16a035c8acb5263ad);
  (true, 0x28d906a1c8d2c79c036437e8e750c0acf89cd7e3, 0x6642f1f2223983a2ad2aa984191d06b0b38b66df);
  (false, 0x476aef8f9f505dd6709b675889714a3a0f590ceb, 0x1ca5ec34f1d91c203b232f83d5f32bc10a88bafe);
  (true, 0x1a03861237ad6d63b1b0056b3cd17d23ec613c7c, 0x1890e284edc28c2d4f2f6310821cac95d208f2a0);
  (false, 0x41f16aef64b9521fbd2625295508ca3f9a52562, 0x7c2dfeed4a5543fbe001361a7d0c28f24f09898e);
  (false, 0x69502af31f7c081d420b1856088c4f1e3d37be88, 0x4ac2800caaa56d90f29c60b340dc7b0e4b266ffc);
  (false, 0x262b6a323d67528de2076f328869fe8de8227dcc, 0x1a826642686e354c15e728648a69b663da8857e4);
  (false, 0x4cca0d3228c1cf612a611a785c15fe074e37c89, 0x29437c25e0fd538fbea1a065eb4c0de26979253f);
  (true, 0x25781ba700a965b21e1774358b542a082f6d432c, 0x8642f4d4880a1e936c69b30a4279e7ad4983d672);
  (false, 0x7b1b8ca4380102d9e213788f0354a6e07c621b55, 0x161b2594ca98475ec646314983e42488ae24dbc7);
  (true, 0x1412c0f298aff8becfcc938b2a46c53d8e6a2df4, 0x1139f245c78773da71443f3efb7a05c9cc8e367a);
  (false, 0x206cf5687deb98f159d0133271124fc4494a3d9, 0x696c0d3b5e2d8de4c84ebb2963ab7744ecf82283);
  (false, 0x4be68877c39618f479f154c0a51b34695a1bcefc, 0x2d3ab24664b5c0d33b26b0bccff6dab456d61c2d);
  (true, 0x2911f6ed7898e9311cc4415fb63e888abdecdf4e, 0x58482f77c94d9329f13c74951a2d0f0d4b918e1c);
  (false, 0x3539ea10e559333863654f30e97e72ff9a8a428d, 0x55ada54732b9bb589f7ed9f48af437ed32382b1b);
  (true, 0x4dccb68670dd9ca127c8fe2c8d9804259e94450c, 0x8e278a347fc1c6555055512e2d63b467e101934a);
  (false, 0x8a01e89cb54db88d86b05d919255f969866f7b2c, 0x44ec88c128a28eb8f74d8028663216d8b7b020d8);
  (true, 0x3e9602f4fa4a973164ee29d224e4e65322e241e3, 0x41bd6250464be1c6ded733ea2d39ec16b2ce85b5);
  (false, 0x1d83c246d0e66d0e2eea36462a46ae78ed17ce55, 0x3af3440e3f7c801337a5eaca9c362c0b99e557fc);
  (true, 0x35878824acf5f2c79ebf20798145aaf324dbff68, 0x5674e05f7ba6e986c2d0f41a837dd38085e3bf50);
  (false, 0x330c3f7f64af8c0ec8ae4170c316cc958be561f2, 0x903f0549ef10b70473c84994dc8ef04eace52d7e);
  (true, 0x82fb5b0c2eef04b784ca8ab57c6e396fc94facfb, 0x3425d3afd34e2b1e7855fb20634a0d10c7673829);
  (false, 0x12925e8e3ff6a5c7838be15585687255c5eb2257, 0x1f65e8c3862098ee592f5794b97d0dd8a5979e82);
  (false, 0x6bb90d22e10f4c21ede9d82ecac7bd0af6f6647, 0x7ae656ce479a7958c5f52e98e34e462463df4e85);
  (false, 0x6727479444a61f90b2dbc4549bb5b3657744832e, 0x100122f65c54650b8834349954e824af63d9ee7b);
  (true, 0xe88613dcb2b9e4d27b052f20ed92b4353334bd2, 0x3684d48d5c8de9512d41b4a60a981f83ebe66f14);
  (false, 0x144c8d35a19afcdf7642ad63deef62a174d582c7, 0x24ac14510c3c5cf54e78e6e49cdc505d09136d91);
  (true, 0x214cc9c3f2b9faf2e60941641293851c5b285ca9, 0x575e6efe6475727871c4d01bc0fc254b559e8fb1);
  (false, 0x34218230686e87076d920dd9d8f3f3442930c040, 0x4acae5682ef4faf236e0b0c70c7be81361673621);
  (true, 0x43ea38dd08f8512032e58ab242b0915d8112e409, 0xfb41bf36754fa2a3cebd9a80d5348d28203f671);
  (false, 0x1af2397d44963a4937e12b8302c50801a9219b9, 0x229f02d84f1d9e32883d5e8bc66209d14df74960);
  (false, 0x82f947855a3ecac01c8af210924a2b76ccbf587, 0x6d587af760960456b4a583938ee75d5abc652f41);
  (false, 0x51a7c2968b6c33c5070a39f8f284b2e3d0d1c959, 0x7e4b05a6f84682f6da1e2781e486797306518d60);
  (false, 0x6ceda236e5a7186732b98a31de375f910397756e, 0x895799fb52ffe8e25fa3e635da874422aad7bd22);
  (true, 0x7cb67622e2226874683449ab0482c70d072c33c9, 0x175c855187c468982d05a0c275bb31205c5fd233);
  (false, 0x3ba28168a4fbf628b8f2076d48324d2bb12b029, 0x3aff8512e887a379fc7f062fe54b9b23cc7927b8);
  (true, 0x3592a8b188ae9359e29ffee2b9a0eff9263521c1, 0x4189f9ab02a482b112b62c1887bb1dfbea488ea7);
  (false, 0x1d55ab0ef6f49d59050b17586e0b490d73357f64, 0x18d45a1731129f65ba1440806cb501a42be5026d);
  (false, 0x435d915f0768e390d8b41cbee048ef67c9b6d04, 0x514e37c031f5040e393efd9d1a716514884bb945);
  (false, 0x2d2571ef6678801ce71f1b60a9231fed6c7c8510, 0x5d4252bae27cb4ff9667ecfb110df8598ae7cf09);
  (false, 0x3b659b9b49594bea2f7570bd836d7cd68e88cbf1, 0x4c0968a3156ca3091bfe4965633c2af8f8de9dd8);
  (true, 0x450b72103ee944d674eb84c540039923335bd500, 0x112691762a072bccdfa9630a0c28c8654e2072b0);
  (false, 0x20242ab5923f4a4bd95db4ce65983cff9fd9cfb, 0x74d6708a2478355196b1ccf358e1eee8777f1d2d);
  (false, 0x5d3a6afd81c8167b796e203d82056bc90f886635, 0x1a1d1540256150bb35a717d413f0834424f2490c);
  (true, 0x17b6594bbe519c84bd5ada72031f909e608ba36f, 0x5376551079549132421e9a8de5c55711f77a8231);
  (false, 0x2f92b807cb21ae7ace3a85762a5e7f27285cdc76, 0x8169190373e0e7b8c684a646eb7314a628e25f3b);
  (false, 0x725f4fd2c421b81bdd81d06beca2b2974d15ab3c, 0x2a55bb6ccb381a00564cc3fe82f79b6be8dde67d);
  (true, 0x267122f10ca228da3ba49bbb2c4bbd3f7478911b, 0x42c1f61134c7a16736e4655ef35ab22d1b48a987);
  (false, 0x1e6f8c87069afdd596f11bb35f45fdb824fc2de8, 0x6612916104a493450a084aedbd746b56a189e009);
  (false, 0x47276d327083c09f9fb1bce278e19d8968a9c643, 0x45a2fb0b7982a884c9039dc4e90cbf7cfd7748f6);
  (false, 0x211e131abbcf3bb6672653cf9c51bef01e9c2d52, 0x2961fbd297ad3d84fa6aef7ab92519e9158ffa82);
  (false, 0xbb20eeae106b9b2b93e5dcf78f891eadd268295, 0x53802be4b224866dfba1437f06f18b44889459c7);
  (false, 0x2f9df022a2d8700a3d46d8bbbdccc1c3b19eb980, 0x3ca9352df8b5a46a909ef7dd3fb1e9bd2247f331);
  (false, 0x1921653ccfd4b232b4fe8b03d820af4696d87c24, 0xc92189a6a0ffe69c64b2cb01ece922fe774be1d);
  (true, 0xb6a2c2a5c53cb40c74d322c46a3ce23d5415355, 0x6fd948ba6c1c16b15d1e89ee3fd14598309872bd);
  (false, 0x556fc5ae2d23a40462809b5f38e11d44334fa656, 0x5c4e9399ada21e5fd1df0edf97562a80895cf883);
  (false, 0x3a30b5139c564081a35f583753e0cc9cd90fa39a, 0x51f456615810c05070f22065efc0b0a6a6cbb09f);
  (false, 0x2ddea9a6e597677fef4891dc99c4daa023fbc4a4, 0x80aa95639e230fa3df7f7bbd3ae65a9d395a4fd);
  (false, 0x710f87855f604ddc6067d4f45c4537161279a1, 0x4789190540db6b7c4a479422c377b8823b81a660);
  (false, 0x22f2bfdc6de0488f8546257a0646d371fc054ba6, 0x54432d9baa287068c44311746638abfb81de5d2a);
  (true, 0x4c83939d9e92c3b32155788bd83989e6eab3afce, 0x28d848cc37aad6b1c97a538b67ef037be60b2916);
  (false, 0xb64bb35c2c3e0866e25fb9916c6b18b72951185, 0x61b2186caab98d7d7be3f51ed8aa987e54658737);
  (true, 0x58b643b23770661e2db277ef6e378bfa8efe42d8, 0x200cc452b37ef752204f712cce8ac213fdeea556);
  (false, 0x703ddec1896283359c9bdf2acf2a0ed3efebfde, 0x29af21ae71a195d82af39a09a455c463b5c80416);
  (true, 0x25d9db1a3434e1354910ad106b74455b865ea99b, 0x6a1f7722bf1424ff76bb746d352614d8e88c37b9);
  (false, 0x4ce9bc6bc5951b03329ed923a74ec2207fe2a040, 0x707d2f85d5ffa65fe7b626de4e0b515731c2171);
  (false, 0x566ae24a9bbc3834d1cced3f77d49c8355d855, 0x18a0b6af83f9b468fbf29877ea1d3ec61ad9bfe4);
  (true, 0x165cf4eaaaf79eaf2c8b70d74d4c574bd5540f1d, 0x5da824ad16c3dbbbf609e2aba59b267ce14894c3);
  (false, 0x3be79552d28ea43b6c4bfb2770f20b7cf4a2fa5f, 0xf82a861f844d2eedafd9a7e6a15edab4e927432);
  (true, 0xe158811df4c4eb6c6f5b52c4850527d37ef620a, 0x7b4d28fba277d724b0a9071a60ba724506ce830a);
  (false, 0x67d429c1df22b9347d5f72e9c284ebb25c4a3680, 0xf8fc99a21adaba3e4a036faaa7517f79196d1e4);
  (false, 0x1a76230558e0ae10196b2a81215747aba52041f, 0x8172bbafd4a0e34dd18c6cab0ca79a44f40262f9);
  (true, 0x758b6c9fbcdf2e0c085c4ea7bcd308d30945106b, 0x1ee7c6bdf5a8d6a5dd470d2240aab53d2f7beaaf);
  (false, 0x685e599945f756abc3f2970863d0cd5e5ff7c35, 0x4899866e677c750505e5df32f4868884d949acc4);
  (false, 0x23feea2d17b975da066307f859c33a4f58f515f3, 0x2b6122b0fbbab64bfd3b3750176efe8040864185);
  (true, 0x2763f35409bc1ca38f156c9c60d863a5bee27f81, 0x34eef8bf46de469c3289a0ee28f5a4445040fc01);
  (false, 0x1322b80d198ccda4badde7cafd037fdba0c3cff1, 0xf7dd14ba51f50a3c0bc351c88ee243c45be388);
  (false, 0x1a3929579e89a53cf41d932e3b84561901908, 0x79666ca0c26e5dfb3ed0d1c578f8936a4b23eef8);
  (true, 0x6e3c92ce8addf3b35788b47e9a5ccf02d8422a76, 0x5e717b4ee5578dc772c5014336d95eed13f055ca);
  (false, 0x3cea3967270adbae08685cdb4e0ee79de73ea89f, 0x84bd0699a4bf8322f66dc60f83bc02943febcacd);
  (true, 0x788843537d7502e9e8f3079413c91bb96e7cc1cf, 0x66892f91b32341966dc147a93e7205b6283e8fd3);
  (false, 0x47cd2d621dd34f75936a9c221f9050a1e8babfa7, 0x159d61711fa013eda85b461250c7c208e484f80a);
  (false, 0x330d02d034e29c4a4f73583a04c11569ca90f1d, 0xa6e63c376fd96029af2accbb609fa7e0093775f);
  (false, 0xbe3c37c09468036a8eac05125d8b213d85bd1f, 0x8ac1e222fa0b0bafb5395e3695ebc925cf81442a);
  (true, 0x7dff6de65df0f723ea0a7327a81e0f6c3b5d6afa, 0x35ce0d92b6feb12125acbf9def4b23050b73468a);
  (false, 0x13c555f55f95c89c8a67ec45cfe15111ad07bede, 0x8601711f4e2bbf9f9be50a04a025b4a32c47d696);
  (false, 0x7aa385324c7f8e2f069a9e84469101717ebe58cc, 0x8eef6dd48b2e41279e846c91231c895d825d44b8);
  (true, 0x81ca9fac13b6a6d6fa25d0b317510f07265b61b4, 0x22eb4c53c092d37cd912820dbd3ae28a55e81a1c);
  (false, 0x853cf5be90b4de5dcac2441c5d760a3cd845b58, 0x70f1ca7e9208fe94e8a37f7eacfd17c41e0c44f8);
  (true, 0x668efdcb24f0e8e869935cb309c8a5ac9b2a76b2, 0x6a22a91106d82924f6bf7d635238bbcff02667ae);
  (false, 0x4cee5e169c5cdc752c46ba90a228611809f23440, 0x56fd4787d4d2aabec7f47793e69845610986404);
  (true, 0x4efd7bb3b1731d1498f5d614acc9b5ee6f3468f, 0x1)].
Definition c_835945042244614951780389953367877943453916927241_y : Z := 0x84f6174410b13b7c641bfb1c0429a24ea8e8db82.
Definition c_835945042244614951780389953367877943453916927241_i : Z := 0x915a3c97e1f064769fa3c1c13714e947fde75b95.
Definition c_774023187263532362759620327192479577272145303_a : list (bool * Z * Z) := [
  (false, 0x0, 0x4);
  (false, 0x0, 0x10);
  (true, 0x0, 0x20);
  (false, 0x0, 0x400);
  (false, 0x0, 0x100000);
  (true, 0x0, 0x200000);
  (false, 0x0, 0x40000000000);
  (false, 0x0, 0x1000000000000000000000);
  (false, 0x76030, 0x8628a4338786578dd9ded13769b3665fe53b0);
  (true, 0x0, 0x10c5148670f0caf1bb3bda26ed366ccbfca760);
  (false, 0x81a42dc33856428364e17df46156dcc4de27e, 0xd9c0f4bcc365cc1e1ae0251cb97518226f5ae);
  (false, 0x55624fbe95224502f9fbcfa291b96eb19ccde, 0x1697ce658cae82304d5437e766dca9dd9df552);
  (false, 0xeb4e5362d2663392691711702e90f858ac788, 0x62ff90e4f01cb8e3f6e12f418b91db75a350c);
  (true, 0x0, 0xc5ff21c9e03971c7edc25e831723b6eb46a18);
  (false, 0x4697c747b4d4108853dcf5b056f0b57b01e4c, 0x128f809fad3ed75d69fad653de6decc778c76c);
  (false, 0x9ece6118d07a300acac9b17a26b09b3f0a153, 0x160c1ea18bf9700df69d68536733b739e5de9b);
  (false, 0xe013ca894d5413f5fd3a6ee79d6e9eec4cbed, 0x1c7fbd07f030c224e16818378efb922128b80e);
  (true, 0x1, 0x164a205a184ad648d098a2563ebe5f01429a85);
  (false, 0xe5071ed59546e66fb6a107a7ec25fa23419d6, 0x6c251605020536978e2069628adca4de9fddf);
  (false, 0x150f5898ce6abf13616d336a99b9af82aac84, 0xd106ff29b435e451f1e4dca3bdfe96bc2f265);
  (false, 0x4ead7cc2430e1921426c6428c1bd391f839f5, 0x1b8b99020dc1e099875b60f08916dcb28e1356);
  (false, 0x15dc4b2adca71bd0b6ce94ae607a7ef02b2e6b, 0x2248a0fb990e0bddbc3411f4c2cd5cc0ec78c7);
  (false, 0x21dd3cd1731fddcb16fd1a0b33574daf6cca28, 0x822382de58ed20a1b37eee3e66aca3454a519);
  (true, 0x0, 0x1044705bcb1da414366fddc7ccd59468a94a32);
  (false, 0x79fd06240c592da9052a10cb586c0735a85bb, 0x83b5155e37fe44e71d8683df42be84a17977);
  (false, 0x1f3c9a01a16c9f5e6a73022dbc046388d55, 0x160fe0b0468cfa95024e0815216d86f0b69f2e);
  (true, 0x1, 0x96a67aac50347291264821163a248a05e68c5);
  (false, 0x28de4227a4e5839689c5d929f1c6493003d00, 0x13267ddf3aef52c45a9f0203b4f0751da7ac99);
  (false, 0xa90f3166f6336a7db0218c1a564280c8a0cd2, 0x20b78b1eaa0df7984ed6b5a13f1e510667a993);
  (true, 0x1, 0x1eb9bc878c05412fab75dd299f03dccbc07d8f);
  (false, 0x1b33201e1be742772e17dcd821e3a468f54cfb, 0x22af1f7008481457f0ba16394cc33a6b9db6d4);
  (true, 0x1, 0x22a8e52a48797aaeef3c9e59ba4daf962c9811);
  (false, 0x229c751701d7ee4dabe8f6f1c58ee2caac2a52, 0x736eb43b9f5f1b023651ab8cb238c9eed00c3);
  (false, 0x17fe715b997595bf39f42b5dec1b8d6e5dfb2, 0x24890eca936fac4a5fc0a31384e76aa9c888b);
  (false, 0x26756262da486bea51a43af855951151617d, 0x197542b7f69ff4f4dd39795bf45d784f4879be);
  (false, 0x12ac4e1b167a4eb93d6c66a21e8f7295981b40, 0xcba4e994ac23288f2237d1cc0453d6fe0d644);
  (false, 0x4aad6d372f8c57ee78eb2f1591e47e033dda5, 0x1fdb31a403dc49557f8cd426ccc3a8384dbcbd);
  (true, 0x1, 0x1d0109923fa1e4aa0ce21a34ba4e8b2f8ca3e3);
  (false, 0x183cba4c90167693c790d3bed1f8bc7a8fee03, 0x17a3e580faeb70af2a83329c9da530301af884);
  (true, 0x1, 0xc92714c2dc0335d62ced7205c119b1f271b71);
  (false, 0x48dc7ee91979f1efc97d88c21a5d815f9b3c5, 0x26ba27656a96c6449a8e6b8b215d12abd15ae);
  (false, 0x2b361431d17f50de9128be290082f31adf80, 0xe37b9e9fca861349a6dbee7d52ba7a2f2adc4);
  (true, 0x0, 0x1c6f73d3f950c26934db7dcfaa574f45e55b88);
  (false, 0x174bcc1552602a06cba28cbc624bbcb4710fb6, 0x21aa9acb69add24467668c505e36199f5345e6);
  (false, 0x20a7dde906ac26164bff9ca68522aa5bed983d, 0x930e05875e460521ebcde8683304661143da9);
  (false, 0x26f0d131b1089900b280c1432546cc8e1a19d, 0x1ebbf220e990ab7744569262562540d71e04f6);
  (true, 0x1, 0x1ac28a8c0b0aa8ed967596abcd11bc6d2d3455);
  (false, 0x14a1b7ca95b3299897473816b09b708bea122f, 0xb0477d90415e8f6b9d52262cffe019cd0cf80);
  (true, 0x0, 0x1608efb2082bd1ed73aa44c59ffc0339a19f00);
  (false, 0xdfd31a13313f8715e4309fdd473ed76a4c346, 0x1238ddf5abc8f8bf1c2a7cf96e3c99db4493b6);
  (true, 0x1, 0x1bc62358f7b437d461d6bd9fd406e757a51d5);
  (false, 0x163998d74d87083151965b30e0d8ff2d15e2, 0x1084c52cc0d169dc895524d909020c300388eb);
  (false, 0x7dc9506b0c57a4263de0d3c1f094468314bd2, 0x18c82a2ec246e2c0a550f1c255f3d5ae1714db);
  (false, 0x11b1c04e245a03b4bc83f71590e6b4e7668623, 0x17c543e449fe6676ca7ad04b05af06710eb5b4);
  (true, 0x1, 0xcd52e12cbe61eeca2be127d2c2547a10e95d1);
  (false, 0x4bea11d6c4829bcd0ffa1d0dc34a2929bd65f, 0x2153ce1950223f45cd3bf56d333844a10e7798);
  (false, 0x200053c1f4ba7dc40b6e952d4700ab3907bdd3, 0x4ee93b804a7a380e3b5df5d550f8e737323cb);
  (false, 0xb3686272d5151fcdd4f676fc98749c266a97, 0x168d899f89b90ad57365eb2a84d91452c8a0e8);
  (false, 0xea789ea8578e753752be63cd1e8c401c84507, 0x10b31e085e3a2a7860f0923d309e9a33b1481f);
  (true, 0x0, 0x21663c10bc7454f0c1e1247a613d346762903e);
  (false, 0x2023c20606c50c0d52219c872d42e3409f6a2c, 0x96b52160ccc04bb0a251c931abbdbe8f79310);
  (false, 0x28e6358354c31dceb341132067a42d724ab3f, 0x1a537b8737c14ea57bfa56254e49f457ccf3d7);
  (false, 0x13f7daee62aba71e598bdb3537bdde4afa1654, 0x1aa219fbb7c86d037de449ca54472cce3acf05);
  (true, 0x1, 0x128eda41a77a2c060991057bc955945b66c873);
  (false, 0x9ec34260c99e15f962c80a43935c074a6addd, 0x203756bae434b57f26d731abc0b2d6fe88754e);
  (false, 0x1de723b6afe930f4ed8aa769345b98f88d56a1, 0xc9c20ed3ae5d0f57739be3fcffd44ce6055cd);
  (true, 0x0, 0x193841da75cba1eaee737c7f9ffa899cc0ab9a);
  (false, 0x12533be3c767eeb72748d10636d113722d95bb, 0x51462314414741b454ff3f995621798553057);
  (true, 0x0, 0xa28c4628828e8368a9fe7f32ac42f30aa60ae);
  (false, 0x2f9407abeb25ce684bff74ff5b360917ed99d, 0x1efd94eae6545baeee572aee922683ab22f9a9)].
Definition c_774023187263532362759620327192479577272145303_f : list (bool * Z * Z) := [
  (false, 0x1babc3639a3c541bcef2417138fe0e3009e6a6, 0x1c08946dc19997275e62e7ab6fd315b48b07a7);
  (false, 0x16a46dabf5831c21405311401aff237f73a0f1, 0x97bec1c800ae5f334082aa2f16d09c74a1bca);
  (true, 0x877d9fa37ed82a20af124a4b58bf9d1e19cbb, 0x10d3fd2ea6ff7831a67f20d1cef80cb312c90d);
  (false, 0x828b167d9c710a383914d0a44a45cced4204e, 0x4e30ac3341391f28b5422ba660d19017576a7);
  (false, 0xb025023a4b0d3c3ffd00e87c2ee9ae2d7645, 0x118d2ba40022a8f63da5689cd4fd126ca6353e);
  (false, 0x8e01eacfe0e758d01af3c24eeae59a3256df4, 0xddd673c8a47b4d3a4482caad4dc351092dc18);
  (true, 0xc613403a20233939d429097341d39850ee0fe, 0x7fd789afdae2bdbf6f7426c6c9eea63589806);
  (false, 0x1d6e1ce728168d5a503e2500b7bbe8ed9b7cf, 0x1018b310c06595450a19d76bd9b157dba7a0b);
  (false, 0x7770779e6df3f608fde3ba9fc465c32cabb, 0xc0cf045c3b539444db3088c9ec8741a4d512c);
  (false, 0x42f1250492950aebcfd459d2c01db687d3be6, 0x1b50dd4eda940ceafd59074d0e8a4f5cec2ce6);
  (false, 0x157f754552da65c9835c80bb549831bc25d0b6, 0x13a4a466df439a15c7923f9ebdd11d0f06554a);
  (true, 0x1189fdb435dc2cb9522fa7d642ddad2329b3de, 0x1c39849ef6edcb0d9c4df7e59ade4f319279e8);
  (false, 0x16f3c0622cadda017e476229ed9c30f278d28f, 0x1e86da8dc3409a60b95092a9ae8efb765f4e7);
  (false, 0x1ad95447da6a62dddfe80b3e8f3b7a0cedbd, 0xf8f884dc36c48f549b64703a8abeaadcaacf6);
  (false, 0x6f9ebaeab644e90db8501320f3b0662d730ec, 0x7018e38db698bd4d5f22bca05f223f3894530);
  (true, 0x6416f99f8bad8e3c97fe4eca6e38dfa37c1cb, 0x188020e7fa07fd196ffdcde095a8376b0f26f3);
  (false, 0x114b7791c8106b73e1a7ede900df7691fef4fc, 0x19fedce09e9d519194a27d03f883641766de05);
  (true, 0x173604318d7ff8ad4db3d23df280a57a67f386, 0x168e71c9cb4f01753532722c07e7464c424c43);
  (false, 0xea8b7a72a2d2b0a0ec5c4306038cd7e590e73, 0x1dce0ef6bb76de83c43c4ab00fc5b8946ca4b4);
  (true, 0x1a9cc09b282e15dccaa67342c7fd795c7b7d08, 0x18b6f1f7df35a2bd97769f2ac17a959985671c);
  (false, 0x119931e4c9fa017452a10ce8a2fde08ffb6b41, 0x1a5999cf360ddd37e74b88d214631a488832b9);
  (false, 0x14012409e5a410be61eb7bcaebeb0ca0a43aa5, 0x1a3e8c9c45cc1c0e17917b74366d9e7eece95e);
  (false, 0x13d826253d92bbe28dcf05a012fbe0434d6985, 0x1d01ab48442316c6301915431f6258fc515811);
  (false, 0x183dc893f5ab36f3b768e54c2144b3ec226ba8, 0xa08028051ac381d777b78263155d1d9fd6909);
  (false, 0x2e632407b0d526391477d456ea1f92a98e110, 0x17d5b4cfa0ea163226ad5dec4f6061569351e1);
  (true, 0x15481cb4725e336fbea26f199c13150425799f, 0xc53fc4987d2809936e7f27dada5baf6c8dec0);
  (false, 0x460f946b04b91755638fa5247ac320619da37, 0x20a676253fc4c906b8419e280ecdfbcc00168f);
  (false, 0x1eb6d0fd1d54709309bff51f7b08cb5d404978, 0x1805cc139326ab6beadbdfd6becc4fef60b619);
  (true, 0x15730d3aa7ee7ed5b2f60697c7c96bb3e27d1a, 0x12210f70f8bf2e096ff58751ac3184fc2e1b2b);
  (false, 0x97826efc86327c07830951e71097b18bd65ee, 0x16bfa94cc97ec9c507e28d0c34538e3fcbf3d7);
  (true, 0x144fd9b3d94811cdf78c9e22d756d30c1331bf, 0x147b893ea525c015333cd4269a82c02e35d546);
  (false, 0xc1661dd601e5d324d6f684547f801d4e6f572, 0xdc6c4209feb382f47d7c1c63b7c110bfaeee6);
  (true, 0xc4cfda85bb409fe3c152e93b44028867d254d, 0x99a6d665dd6994459059c90a5d7224c815a6b);
  (false, 0x2a834a153e9c32126c75de5736c06d44ae7a4, 0xede46f3cd3fe8acdb474eb09da4b0ede352fd);
  (true, 0xd468fc57da7c833d0b65cee91c01945a03e1e, 0x7638efde79c1a499fa50c88b214d0c28c4453);
  (false, 0x192af4202d0e1f44016220e0e41464b57dc7b, 0x1a050d563a96224b7647ed7a32e5b1c404cf5c);
  (false, 0x138191cbbefe19bb984496e14b733e9355b743, 0x8f085d9b6936fb8ea5ec30806278dc122118b);
  (false, 0x24d6f5e83e170e0469c6d809912356e284cbc, 0x1782195c1cd30edb12d16a61336f92d03a1295);
  (true, 0x14fd75eb4537048437d87077d8cb0d139a5bb2, 0x9e44b4b504ff06d10b165781c1d19bd20015f);
  (false, 0x2d1b1ef5d3b5297bf335b7cb22046b86ffbac, 0x51e9a436b52897f492fb7d6635f0637e652cd);
  (true, 0x492371be2f21190cc56f7aeb7517b41989079, 0x63adf0af35436a71441122e8744db9b0029f6);
  (false, 0x11e45441f6e5e36ba09d113f50e2777dd6cc7, 0x1a329363499f536e9ae898c36c79d381e1fc03);
  (true, 0x176430a3b498c309e252cb23406fbfc19a0325, 0xa168f48c17a320b0ff5f36aa615f61e38a528);
  (false, 0x2eea165695ee744509938e1508e3f605e7abf, 0x1c667ddd9a8d5c1169c6993faa2a3d62bf4497);
  (false, 0x173d1fac35b6223c843198b24234b12cb83b5c, 0x129c0d9a420483b9ecf7d03d75b5b8c29c01cd);
  (true, 0x109dbe6d736ec196c3d3161d8fa61f16da1448, 0x2080ccebf480c70323a19353943f401185b6dd);
  (false, 0x1e701ed40aa79f2c2b9cc1e942a5eec14a9898, 0x1b8ebad2ddca70958d7acd58e4862ed9fa8121);
  (true, 0x189b0d0ba5d3635bce8db2f3839c4f412b1871, 0x1f6a1c6c267110337101dbdade3bde6c6ae822);
  (false, 0x1c6ee59b8c03a6fff3a40a81db1d5d291bb6c9, 0x46617dbd2ed8777b7a10813b0e8b8683996f5);
  (true, 0x3ed784b4b619a583c10ff764652a13af536e4, 0x1255283bc69ca6e0a8e18af9866f02d39be041);
  (false, 0x9aee178e85d98ef916f13b51463c8e67e3268, 0xb8e073cd17e5d8ec697f07f92fe965b178d29);
  (false, 0x3d8c25fe99e3d28e6f2ab4aff7b39ad034abb, 0xab18d85791b2644f44d569fd0268a75db8544);
  (false, 0x34b6ec7d6f789281a7081189ac7ce93dc2e54, 0x20b6264d701e5723db7ef69ede810c29b48284);
  (true, 0x1d352395a6dca312239a55f3d62823bb4b7bc4, 0x1d229dd57ed1cabea62e6abec89600cc6c7888);
  (false, 0x1874f9b560f8dec60987d784fbabe3ccb32cb1, 0x146b0742c65fadb6b365e2a33fb50576f326d9);
  (true, 0x123b207238d10399e654cc6a6f158a1c0631f9, 0x234b4b0bfff9e1a6246570a8b7a2b7f460f62);
  (false, 0x23e3c4259073963f00a2ed9f51b305c6198f, 0x1aa2ec7b345ed6c5184e040d167497b695932b);
  (false, 0x147113a905adf8e1758ece906a02a5e66323dd, 0x180b86ca087d950d219d89867c4a3c544160de);
  (false, 0x10a8612abb30c0cd6cfda0f9e944c66427d6f9, 0xf21267bf0b96e45337f9f9fc29899d16846a5);
  (true, 0xd8245844eebc4d70542394482fcfd910bcf62, 0x6630dbc92b8e1b61a426e6cdf4dbba897431f);
  (false, 0x12ce0985a7817f2af422edb8d3ae1e254089e, 0x1194c02d14d368e79110cf5f1901d7eecab28f);
  (true, 0xfb2a53e1da6e886e2f5537e25064834e67669, 0x20f074dc1a22fef0719fe5a51bac1af047c278);
  (false, 0x1f42a59d3e3786690bd9a8fc3278a2ba882e8f, 0x12caa0f3ff23455a748cf9dcc7f09f4267a6e7);
  (true, 0x10c75496cc514fa5785b4c8688aedaddb5ffe3, 0x21da175be5acd38b1df2320cf65c0249c60f9a);
  (false, 0x21043e1b801e9f74adec82fecd0c19d6e8b188, 0xc36f8740cdada93091315372ca6075ac4896c);
  (true, 0xae8051ee1097f4ecf1daaa8c646531c338476, 0xac1f69987a98cd70795a5538e728fc5b374b2)].
Definition c_774023187263532362759620327192479577272145303_g : list (bool * Z * Z) := [
  (false, 0x1babc3639a3c541bcef2417138fe0e3009e6a6, 0x1c08946dc19997275e62e7ab6fd315b48b07a7);
  (false, 0x16a46dabf5831c21405311401aff237f73a0f1, 0x97bec1c800ae5f334082aa2f16d09c74a1bca);
  (true, 0x877d9fa37ed82a20af124a4b58bf9d1e19cbb, 0x10d3fd2ea6ff7831a67f20d1cef80cb312c90d);
  (false, 0x828b167d9c710a383914d0a44a45cced4204e, 0x4e30ac3341391f28b5422ba660d19017576a7);
  (false, 0xb025023a4b0d3c3ffd00e87c2ee9ae2d7645, 0x118d2ba40022a8f63da5689cd4fd126ca6353e);
  (false, 0x8e01eacfe0e758d01af3c24eeae59a3256df4, 0xddd673c8a47b4d3a4482caad4dc351092dc18);
  (false, 0x589de7b67e183ea758f2355ef7f581021f7a1, 0xd2c78f4f47eacda8c1f1ac23b66b495b93d49);
  (true, 0xbc33981392136c70383411ed7e5a3be77f39f, 0x20ee8833192934423ec4ed4dcb71e812717868);
  (false, 0x1f3efe9f8b2265f5f5484e010f255bad4f24d6, 0x13daeb96145f91284157d9bfd12817b768e206);
  (true, 0x11ba747baf09e6bac191142afc7486b174af33, 0x1f34cda3a303d17d0ba54aae8c64d1d57e45e1);
  (false, 0x1c0eb8228a504030fb567815b93ef4bd391d3b, 0x14dad42aac4dca7b9400ff9a183c349052baf4);
  (true, 0x129ef393c90e52c3184f2a59e7295d08944c79, 0x1bbe4347445e18b4cbd687c1e6f1263424f6b5);
  (false, 0x162d0013021290c5aefc74dc55d54324a8576b, 0x193a302c3fa67f2f6637360768fc7335c6c4dc);
  (false, 0x12560a5c390ab68517fba5786eb68906bd22bd, 0x17233372b5cafcf1f171d33307c076f8e4de95);
  (true, 0x14a8ba49ff1b0800e603ae03a52e0c68b7194e, 0x207e111e899c2b5c042063d11d7d0ab60e0a5b);
  (false, 0x1e6b005d9d19a12d52549e3cf797f14f631f93, 0x1dcc94a80ccc7fd4d05e9ec43e47a82c984da4);
  (true, 0x1a9b6ed25d3565e8ba1dee6080d48bfba67e29, 0x20eb76b502afdc3e0ea2b101baec52a6d3e15);
  (false, 0x1f392c52f981cea236f84e34b0ed67355987, 0x18b6b0c73d64db3f202308e3459ede60990c18);
  (false, 0x1198d50e7e1dd4d41a44448b3d750b1e5558af, 0x107ea90ebb5e766f00d493854b998b458f5807);
  (false, 0x7d6c54b0e8a2f4a2f649713024fb1e2d49b6c, 0x107ba7523e4c5eb4ce52ef9234ea769f76477d);
  (true, 0xeb7a8976a847ada511cc737a29f7b225a9c2b, 0x15f3350ce63bc61d443aed11437eed317be228);
  (false, 0xde1a840c7feaf503f281b4f2e4b4e1491e434, 0x3c3e8c122eba8b064b9dfba903d7b3675c794);
  (false, 0x689156dde7aba37032f9c41e47f722c37d22, 0x1a8ef69085feacdcb2ea85d4dedf47d6975482);
  (true, 0x17b6ae61cca9f7fb2c9494f2706df0c40eae23, 0x17ccc2ecebf75dc15142a187b21e20a5e7662d);
  (false, 0x1051dbeb7eae2fceeac93abd01c68d64136569, 0x205b244b9c02deefdf467185ed08d9306eb5fa);
  (false, 0x1e29bf82ee5c32154b292902b423eef9c7cda6, 0xf2ac81989baf75d0f1cb50721d947ac2a0d3a);
  (true, 0xd8adf0626d4065dbf752564d5aab8e94a58cc, 0x1a74c4341dd268259b808b5e005719f07008f6);
  (false, 0x142a789b4c5d4588743c1c5788818ac3427316, 0x1e4aab14cf7ad6216d3d7f03da6bc8c0691c6a);
  (true, 0x1b0c03b0d571fb729cc9a5489975c61bf31959, 0x1f224c6149ce683cc3f661dc16ed8819c1db7b);
  (false, 0x1bed7b7a4e129fd0040094e0fe3fe812044799, 0x4234ae1930a82152eead44272f453be2b24da);
  (true, 0x3b1d31d92ef5bf0296dfce5f6dcdf9979f814, 0xb2dadc9799ff89d66c89cd16e13845cd5661e);
  (false, 0x399a70d729ff09161fa5812eadabd353c3984, 0x10e04b4774e22d45b9db84195f0cd97b0f2aa8);
  (true, 0xf1184cd1bc66d629763531683a6b6b6ac6846, 0xf9e62eedecd79f063b0e4e80994353388d19e);
  (false, 0x70743ac6a74b9d53dc73332994ac5ea25266d, 0x12bbfffc74878810af0004f5a7dad78bab0239);
  (true, 0x10ba44c532bc4c0ef8538a7710c66a07c59f37, 0x80d68b4da5779af3f60c0935e16f138943c30);
  (false, 0x1de3fa96bdb3e2bd5b90fdcf51e967b80e8f5, 0x15a925462911ad8626c2c816002a499863477d);
  (true, 0x13572b18345f648e9eaa5866f576819b0de34d, 0x1bead60c775a7bb33db0883b2eb0862926a31a);
  (false, 0x16747b17d5ba041a53d5404d96d8a20bdba80c, 0x16888939c40a0a307cb0cbe154ecee29980390);
  (true, 0x141ea14415bcc374873ab77db46710e2bc1232, 0x5384390249343199ddf44567463f211231492);
  (false, 0xc8f5cbae6605a5a2d640080412375bd5fad0, 0x3c622a4a3db2b0c75630fa512d30f494d2294);
  (false, 0x690d20e7c42848c9a506b2edb5645274bd05, 0x1d44a526a3deabc1db2f34a4bef04cda4cfe9d);
  (false, 0x18ae3c2059e73464458deafa40644212790492, 0x2e27b73fd66952855c42b014e788aa648c02b);
  (false, 0x3d6082108455e32caa514861ad638010b48b, 0x883bc0d65048d3ab166911f894749d1c4623c);
  (true, 0x79a3fafb85e333b27414e039b4c7fe3faa501, 0x132515e5891f00536e2bd554343dac52fa0d05);
  (false, 0xa8f65e96ced47afd2ee2f569b3f1c7caafc6d, 0x1874e859112badb206d53af518c4725a95ecce);
  (true, 0x15d642a574d66af4e32ee48e6cf581ddd77667, 0x67d83104e9f0f7ed6bf3fd6147ed0ed6d283d);
  (false, 0x136b1938082fdeacb4d1f828316771e48844f, 0x200559367eba49437fbcd90cf1335cbe1758f0);
  (false, 0x1d8a9e875a48123fe59689fbbf5a5bfbd5d6d1, 0xd62f78be36da542d85e09249d49c912ba46b9);
  (false, 0x529bcda1f439316e6c2c864d74e71ddaa808e, 0x14d57d9c5ce206206682bd6e54e0292a11b7ef);
  (false, 0xc8176964f4f3d506da9992486c7c8e9dd71ad, 0x21a35d3f61c0dda04627bb553fa3f1083c9316);
  (false, 0x2099d39de523a01efbc791df384cc5315e6e3e, 0x2ff256b427fea8906903062415db13101a952);
  (true, 0x2acf8d90ee0bd7e7fee1cc56398a15b1c0440, 0xb544c07cd03997d4f06bad05cfc14b21dc762);
  (false, 0x3b2b21681f07b7b135b832d1176e08b076923, 0xf6436e169d2268c9a3a34659285e340ba5edf);
  (true, 0xdbe26e480a696878df8182569786ce00c0cf7, 0x15ff5c89f0e8bbc6b63c05d07c388ef5865f86);
  (false, 0xdf10bff7d53798c1dfc5ff754647a0b3fe9cc, 0x685756a93796153fda03d5e36e0d63a8b16d0);
  (false, 0x139ac38a48450bae3a00b78fe6104f47cbd55, 0xaf582bb83f757428e7871ce08c702192702dd);
  (false, 0x375d3e89ce8adabdc312ca737138f26613d5d, 0x17d1bb9081237c59ed1d3a0dbf471f85de9fee);
  (true, 0x1544906c1c68106f1840917cce0cb6fe1b3a3e, 0xd56257493b7b5a4663f2e641c51daaa39218c);
  (false, 0x51fddddb02ce4bdcd58381d23e3af255e94d9, 0x1a50feef975234938960bacc4b8f62eb3d0b91);
  (false, 0x13f4156826756b84c8dd9a96330499637bec52, 0x143c1b02035d585912c56f91b9f1ad316b29c3);
  (true, 0x12113ae7b8acc138c28288e7f08abcc7515f9e, 0x144b36b8f7f7de6a0dc4f165a9dad00a116089);
  (false, 0xbdd9ca4121538396d8c81a4ceed6fc466a01f, 0x2f72c4e9a5923c0fe07fcc55b7e2ce24cc08);
  (true, 0x2a5da5f7a2e9c30eadbb45c07fcc3697b908, 0xf18a2fb6bfc99608b8175a8d69c30baecad90);
  (false, 0x690e74a3cd2019086fbf946416e105ff6b564, 0x6baea45186f3a33f5c43a007378048842bf04);
  (false, 0x14e1504469c05d301131e2a99b7faf27e9110, 0x16fe45da0f440d1e5c235cc52cdca1f65d17a0);
  (false, 0xf3b79c80c7fb19d4f8db0beb2eb3a46e1e3f0, 0xcf63cff873012aec54b382799633d836a0170);
  (true, 0xb92ccbfb35c7f7882c667065bbde4ae06d458, 0x19039e702af65832163d655de7c91793bc6b08);
  (false, 0x12070cc1c0977ac82d1549ffb9a78564068eb9, 0xc1667f38469175d5acfee4f9f7e2b54c39421);
  (true, 0xacaf198b2dc04682b4d7a1ad69a0856720d3e, 0x2236f1209207aeb19496253774cdb48de47d37);
  (false, 0x21ba54ed19780f974664a8e5d63787ef5d19fc, 0x1cae3f5d50749ce41bf668b6baf442cee5c22d);
  (true, 0x199bc55109e4eb844d3e237d9a9084485c9a4e, 0x1bcdc796fe6991e513d2143f27a516ef3f0ab3);
  (false, 0x1645d55440a1af505e6ae9452328450afb0ae1, 0x15f1f25350823ed9e76a98eb6338c56b1dd972);
  (false, 0xde0101bb4b876a1bd904e90f6d6699e9d75b3, 0xf08a3cdca2787bfa45f6d552dc530d3ee1b2f);
  (true, 0xd6c62f58803906e6c540cc60d40498cb6da34, 0xcf83ad19827e9538428b746f339523b9eb05b);
  (false, 0x4d8af7e91e3b13420db614bd0bea7da669cb4, 0x17bf50bf9ccb599d20dd9d2467f450a3110e2d);
  (false, 0x103f7077cce06205e7bddef1c1e9ef31aa2bf9, 0x1df0c57dd217f3c1ad8417569421d1ae2ed70a);
  (true, 0x1abbbf3d2b933251eb62b526a88815b711a8cb, 0x13234524069ae7d52ca6f505d316a7567338dd);
  (false, 0xa8d654bb8b6efc1573d159098e38aecac7cb0, 0x1eb69f98f879877dd624fee315cc02001372f9);
  (false, 0x1b2d9d6eb2ca9ac1bbfbf82f7adc3550bb841b, 0x1c6683e84120bfff76db69e292ce2c8c995344);
  (true, 0x195bb8e40b48725da4266767a80434562d9ca4, 0xd0ddc14d2adf6ba2f702a58507ee671094328);
  (false, 0x4e8e73e24b7ca4ad5482dc55c134334606e41, 0x42610b4829316b5849017396788fd7142d8e9);
  (true, 0x3b44ce7d1d2941386f5d445661f3a421943b9, 0x298deb2c348bd915d5a352899b82c8caff3b2);
  (false, 0x31c02aedbac5d26353502d213e975aa7dbcc, 0x1bc6af13780d78c3b4cb544ef05efcd14c0670);
  (true, 0x18cd02eead545f685b4c21b4ad328535541ca9, 0xcdb658f31486a89d9349612f52e4fdd9fab41);
  (false, 0x4c33b1181c2c78ac34ad6d03503e351eee741, 0x17d725805fe3d3843a19e925936054266c6a2a);
  (true, 0x154965e704827fea2ce70db7bc56d78487724a, 0x2cbe55ea53ac8f31a83a9d88b34f81060f414)].
Definition c_774023187263532362759620327192479577272145303_fg : list (bool * Z * Z) := [
  (false, 0x3559338c550d9ba1953c2700799735064e30c, 0x81be818209fb696ac209a42eec5f3870ae3b0);
  (false, 0x1e4ffcecb69129ced5da906e2074b237ca4c5, 0xae79b35036abe2d065761578250a188de7fcd);
  (true, 0x3613e0865fd5a26173e0865f42f688b8806f0, 0x1704a5ebbad0e51890d7405a72e71f4dd2f8fa);
  (false, 0xf43ed5814858105eaa60c6a94e6fa65e1d72b, 0x11cc40adca75ff42f7a1b6f8d895a620b6a2c7);
  (false, 0x9205dea1e3810236c1c87a8f668b91ffce51b, 0x5d55e7f8da168b200928bd65cf27aef2fdcc4);
  (false, 0xfafdeffc21d59ae7cb6850ca23d440ae89a7, 0x11f993ab8450fec4ed6e9f7d6355f378bc518f);
  (false, 0x94f14b96178260662f59d4795c0f34e6c805a, 0x15005a021f16b7ccc6ad4bbc2756ec8c4d36cb);
  (true, 0x6825e88364d1a81c5ace894490778a773bf9c, 0x17e4abcba963d26eb30d1b70f43c13e73a4422);
  (false, 0x1072b6a84b9f725474263ad67d33da907f0a08, 0x1431b79473d861ab501ec596b13078cad281cc);
  (true, 0x64252f7e4ac21c9d95c89031e391752bd6e27, 0x94a8d0f62f99d4fbe36956cb97facf4e43d7);
  (false, 0x27cb9076ff4b5e8db96bb66d11800c9b295, 0x14f902bd1b7179de9206130c8a37b63949efae);
  (true, 0x680181032c76eefe3af55098ed3b55a9046c5, 0xf2d16ee533074be6e36fb59fab93778ebd7c9);
  (false, 0x6a2be0a1efa4421ff0d6c6b7fcb36bc0f0539, 0x671c35181856a6d65252d9e5b302c2296ba32);
  (false, 0x13250b07dbd4f2bf54fad664eb99cd238cdc0, 0x97559d8ce7b4aec3e5161480fece1bed29584);
  (true, 0x2ee7bdafa1372278c84c7c7f7d516cc596181, 0xad8bb0f678ec8e4a1ea7a576fff143c90edb1);
  (false, 0x363bf26e6b0461f6e51620d496ed36c36c12c, 0x8f40c9555aa82281efc9258b5a27a1c63a76d);
  (true, 0x2c6684f1deb2beac45db0301f11d615ec5ac8, 0x4f78a57b0a41fd256c396086d6fc6827cd9d2);
  (false, 0xb5f6d0b416d9afb651198c40a2afa501c273, 0xce702948a02878cf497b2764eba1964a84f6f);
  (false, 0x4cbd98b44336c08feb6a69f054b284d685503, 0x1c049be6a7eecaad5bbe82da82129e31e60e5c);
  (false, 0x169e040dd50ddbe996461875560fafdc278046, 0x174f52303833e9122817d29264df4c834349c6);
  (true, 0x739896f05269520e04c23f09cceeef57d7e15, 0xba4307067d3372eb3d4485e9616dc44962c49);
  (false, 0x3e791dcfb4ff863afec76f8d42b45ca89113c, 0x4d79887f892047f45d5c667bced5d05bd166d);
  (false, 0xacefa3f10d9621f7cf63ee4086fb7f023ef0, 0x1dc3d40b0b26842067ee86ea32b9ed37181ad9);
  (true, 0x939b8d3066eed231c36f063ce3c29e09065c4, 0xede1730edcdf018d6ac537101860f17e446);
  (false, 0x65e5c52ab2942722782579d293ba3d463, 0x1e7b7d4a1aa9215e30fbbc09df5e3fc65e1dbf);
  (false, 0x1ac55a7b8b5f8c3e5d556612d6fb040961f033, 0x27a3616c0ed303f96d3803509d4d8344fb76c);
  (true, 0xc491f4c87ad4585c640478b19befe79ea0af, 0x5926f2ee6c43bfe64ab3e49baf8e3083a16df);
  (false, 0xe4ff1fb54b74974569a02eb953b28642b975, 0x77cd52b511d875e8cded97500ce4dc007593e);
  (true, 0x2521c7c57068c5c6d4e64433745b328d37f6f, 0x124b09ae0de628908d291de9559a88c10c9fa3);
  (false, 0x9a433cfb3475b2b9c96a6d895f83ddf0564f6, 0x7d00bb3ed91157d7c9259f6c1c9391c30a6af);
  (true, 0x26be71561ff7cccba2401765b030022cd5177, 0x7aa447ea244287b706b2168456ffd553217d);
  (false, 0x1b15a6361b877cb1da9d5a624e72f81df43, 0x121698c4049d45c9d12863d83afb8170680784);
  (true, 0x59b3a11f7285f04ca8481990728871c71b6ef, 0x205721eb425d4d9799d585b635a3f0caf47cf);
  (false, 0x1e2246591c2c061dfcad2b7e5601ae4b51c1, 0x261c86481d86699cc408d6219e038b625ab8a);
  (true, 0xbcffa8b2d4d3d4af5a1b4b5e65cad10dd912, 0x33d12421a0dfcbec8c3a00806811a95a6ca56);
  (false, 0x4d5bd47af0606388eec97d3e13ca4127872b, 0x1c68c2413f3fc4818bed392c2e5f9682525387);
  (true, 0x8ce2657e11216077170ff91ef359656f069c7, 0x1ce01bc1be0b78f444675572ad7dcc95c9487d);
  (false, 0x1805d0cd3c8f7d951f7752e325500ced75de23, 0x1756cf8c2fe04210258e54f1c609e13f8d6764);
  (true, 0x73bdbb5492845a10bf7e941316f66864c215b, 0x105f8c9c8f344a364eeb37085f35d60574cfdb);
  (false, 0x7b94f28549f4a6f3ec0f3b67da4b9caea0fa1, 0x1725c824c8e1a6879237ab0662707a6a5db862);
  (false, 0xf6fff92a8b6c37bb78fc5a7f6ba7341546f02, 0x3c2bab6eb7aa7933dfeb4df557dba46bae156);
  (false, 0x684fd8d8c722b598437ba0b4341151465fe9, 0xbb1af442a5bcfe76acde185f7f3485942d975);
  (false, 0x3f0a4a44d4cc81a838897a2ecd8016b956b76, 0xd89d5e2f775dfd7fbc567f43b10db950bfedf);
  (true, 0x432373daf24426d4416d35cbe418a6f03e17a, 0x51dd74134a1793a02a561c0bd3eeede30c218);
  (false, 0xc117593891e9ee4d43afe623d8a7450fd33a, 0x1e62dfe8208d387be4440929f62049cde7890a);
  (true, 0x96b0478decbb29f7c57e998fc9d767b85d730, 0xbd7fbb8dce9da197be5190dfcbfff6c76f3a4);
  (false, 0x40a9d9ba9638fd28055c6925aac83a7eafa75, 0x219074807c22ac22d0fde3b0fa34b6edadad0d);
  (false, 0x207536f67f80f4c5efa908307e42823c2d056e, 0xd092b2bed262b3b6f4162ac70d1593c75d8c7);
  (false, 0x4e56087ef4b54c8e84aa2044e4cb25212d193, 0x1ae8e4a5499deef5da0defd455ce664af37dfc);
  (false, 0x14dd0589367d9976150b4cd6379e6c1f7974eb, 0x1440706cf9a6453577885c4dce491c6ba29273);
  (false, 0xbd10676fc0682ec58d16aa5e2d849ee83cb30, 0x1d0b5d2e47e62a8f610223405f78062ae79659);
  (true, 0x9008c5ea05934be6f5f1797e8739a78fa3a6b, 0x74b1cbb8b26086bae4867bac5da71775461c5);
  (false, 0x18857e56c1f63156d2a3177f50918daa5acfc, 0x485418889254afa7adb04c400132332302cf5);
  (true, 0x166af51b3dee7eeaf64e14d3a809bef39faec, 0x33fdec163e38e4341ddb4eea82d6b44be926);
  (false, 0x4de1c3db0065a46902a6356aefeba0332f, 0x2120fd9fe5b20277d1ce88cd4e4c6adef3e5eb);
  (false, 0x1f9f0868d4d1acaea91b49de1eea069414a63c, 0x983e8b9af1ff142837dbb926ff32504da4c55);
  (false, 0x29bcd4324cc2a3dbf0d78ce4487f2555295ed, 0x1b6d8ad2495555bf851d5ec8915036551bf46e);
  (true, 0x88049625d56e105bdba152a5cb27fddaa7595, 0x4d1ef73c4cf96208969dad530c7bd90957899);
  (false, 0xab5c3dc92fac67ba56577732a81e30cdb922, 0x13371a982d6e5da15341e9af00580604ac4e63);
  (false, 0xaa34feadc6e2b2225b5ba28d74d11ef035d34, 0x5854227c38b163bb213024efe2bc170a83c9d);
  (true, 0x1b60804b1c51c2272a16456f549eddf0a2275, 0xa7426a066697ddfd05a84378ae4e2e2c9d27);
  (false, 0x326058198e22cb5c41600e006e9be91b912, 0xdc83f1dd104399b24425e7e5781c611f4b853);
  (true, 0x4458f4a9f7955760e09157e5b4d0015cec368, 0x80bb243f173ec20ec08551cde7b07237bfb5e);
  (false, 0x1dd744f14375c6e32e5c598616fcce0030f3e, 0x927b04b4ff15dc71448a66017bf0f644e2f2);
  (false, 0x26a31d76c271649d0613b622aabff1c4492, 0x1b4e396ff133ee193fc495dd856c6da10a40a6);
  (false, 0x157b4da305b5c0f1382fc86b8e1456d14873cf, 0x2397d01e53cd62990cf4ff80c8a164ae1e18b);
  (true, 0xb08276f2d4ea51ef785dc13a57c3fb7b2329, 0xadeb4d7ba0d6f2fa1dd29710b4e86f751f477);
  (false, 0x3677c50a85f789d91d0678b39f65f9caa55dd, 0x8753b39d7b953e34d6e576b5e94a04dc188f6);
  (true, 0x29f19dbb1f2fc2876c508edd4da5266fe0727, 0x125cb401fca8ea7dbe52ac2eb4d3cf6db7080b);
  (false, 0x9b6dbcd62112ec150239aa11ecb0963aa7e80, 0x2195d156b079c9942974164374db17ce2992f9);
  (true, 0xa68d81bb2f610456f1181b87a4f6c2dddf63a, 0x2a3e710b645dc170b61e921a15cf7a3a586ec);
  (false, 0x336a5b2b418ea19d7d016b02034025424d2a, 0xc0d48926be040316f9326217f75dfb4b873ca);
  (false, 0x42f4fa18e80dc08c1ce2beaf82bcfe4d25817, 0x19fb7f2c55a2a3125d6a1fa8b6b712132002d3);
  (true, 0x80d97dac1685bc1799ab15d6980ddcc670236, 0x531e3789cb4ac849ab243df42a0020b8556dc);
  (false, 0xc70c1148b97802903aff6e6b8855734de3eb, 0x13d7484ddd8e55481a4611d54cb20b52a29673);
  (false, 0xb578e43d2347c6cb21961b90b6234b1275e93, 0x12e204e9644abc2deccd6b87d306c2af03dff4);
  (true, 0x5da46c5b03501906947504ce0e2a3a6d5a08d, 0x14ff588efeb4fb0a1ffed2d4f86cb9127b437d);
  (false, 0xcb3e87f88db8f55152575570e22547c95ec42, 0x22a07f38e2979c34a7a04f69ebe809984b661b);
  (false, 0x228bb1437433b392b2f479b47a7d7586d11da8, 0x20bb7dd5317e52b3e956ae2f7de99d425640c1);
  (true, 0xa252cdb787684816c494507cd2c84a5320aea, 0x467183b32dfa8b0f748b5747d9e15eade582c);
  (false, 0x8ef86dfef2617e644d0bb5f2e6750276e505, 0x13b64f65674f1afd50339034c60ff44eba089d);
  (true, 0x61c132711282e093edb1809cc67dabffbebd7, 0x10c8af04c8eaa6b92dd49f95c47b138a742259);
  (false, 0x81dbeaa54033726c10ce921bae192bf0dd97a, 0x271e49f0103c27924e9fdb973e08c0379f9fb);
  (true, 0xc1fdf09cb7b81f5f20a43206f658fbe97bb8, 0x5967b6123a447e6f3147b30a76bee4ade7afe);
  (false, 0xe64c4b0bdc4786e4054c5356248d73b69d32, 0x21ac3c24f15f4de9c410cda2f78aa5e761c186);
  (true, 0xa6fcad16a0db555814ac1f49cc2c0256fd58d, 0x1)].
Definition c_774023187263532362759620327192479577272145303_y : Z := 0x1efd94eae6545baeee572aee922683ab22f9a9.
Definition c_774023187263532362759620327192479577272145303_u : Z := 0xac1f69987a98cd70795a5538e728fc5b374b2.
Definition c_774023187263532362759620327192479577272145303_v : Z := 0x2cbe55ea53ac8f31a83a9d88b34f81060f414.
Definition c_774023187263532362759620327192479577272145303_ui : Z := 0x1c57608cca63bd0dec0bb61f90d77cc342f96e.
Definition c_774023187263532362759620327192479577272145303_vi : Z := 0xe62dfc289b94889baf37a7ecd87a1cba8a4a8.
Definition c_2624747550333869278416773953_a : list (bool * Z * Z) := [
  (false, 0x0, 0x4);
  (false, 0x0, 0x10);
  (true, 0x0, 0x20);
  (false, 0x0, 0x400);
  (true, 0x0, 0x800);
  (false, 0x0, 0x400000);
  (true, 0x0, 0x800000);
  (false, 0x0, 0x400000000000);
  (false, 0x1, 0x784dc162f62c19c84d55cbf);
  (true, 0x1, 0x68e94428e2844d58e80163d);
  (false, 0x511c39c659a9f614ec4c93d, 0x839ab3cdb8b43d74bd39b0c);
  (true, 0x1, 0x7f8328fe679494b1c7c92d7);
  (false, 0x77d26e75cf6bc9868f1241d, 0xebc5155135261291874e34);
  (true, 0x0, 0x1d78a2aa26a4c25230e9c68);
  (false, 0x6669571581e792497a3e86, 0x6414ee648af98d1c919b83a);
  (true, 0x1, 0x40779e2c0c1f3401708cd33);
  (false, 0x1ea09eeba657619c617b59e, 0x63cc35a578336bf8716010b);
  (true, 0x1, 0x3fe62cade692f1b93015ed5);
  (false, 0x1e1708aa5eaa378ac52de2d, 0x8f341b338b8abce7e80ccc);
  (false, 0x97204b0d276f6297d044f, 0x3d9a4c2f1e3b8028df15d81);
  (false, 0x1bf7527cc3ddaf05965b942, 0x5e3899d1a7bdf69b66beb3f);
  (true, 0x1, 0x34bef50645a806ff1ad333d);
  (false, 0x1480ad808e41d4876fd7f8c, 0xdae331d912de605527d5fd);
  (true, 0x0, 0x1b5c663b225bcc0aa4fabfa);
  (false, 0x584529a1139055b73bccfb, 0x72cfcce15fefc67cbf31369);
  (false, 0x6124357f50892f069292c18, 0x74e3b6a93a175dbb25746f9);
  (true, 0x1, 0x62152eb56a5ad53e983eab1);
  (false, 0x46e530f3c924173bf0bdce9, 0x6845f11995595bcf9689c38);
  (false, 0x5020735f975c4e1f0b2a4cf, 0x205dd76ecbe42b8e192a6b1);
  (true, 0x0, 0x40bbaedd97c8571c3254d62);
  (false, 0x1ee16d7b63399fa5df60481, 0x2f61c588e52e1078938d1c3);
  (false, 0x108b6dc208dcec08ff89aff, 0x4372e8d3fd33d5a5b8a42ca);
  (true, 0x0, 0x86e5d1a7fa67ab4b7148594);
  (false, 0x861a98aa3451a9131222f77, 0x4661321f475662988664b59);
  (true, 0x1, 0x51025a184d8def95a1f371);
  (false, 0x305c91b701e5256c0439d, 0x214217bbc050af0ad019604);
  (false, 0x826be1ab5dd25a251edd0a, 0x5d81eae1dc91b9bc6b93286);
  (true, 0x1, 0x33519726af4f8d41247c1cb);
  (false, 0x13687af23082691efae888c, 0x3befba2db70d889f613e76d);
  (false, 0x1a794175c7209a09d295d5a, 0x153cb7ee100a0b0daaee28f);
  (true, 0x0, 0x2a796fdc2014161b55dc51e);
  (false, 0xd4b801da8d202f022a348a, 0x57b5f0ef320ddf7e2c3fa7a);
  (true, 0x1, 0x27b9a3415a47d8c4a5d51b3);
  (false, 0xba12a92f8f3cc6c8625fa7, 0x54fffcd2c36ab4a7fd924c2);
  (true, 0x1, 0x224dbb087d018318487a643);
  (false, 0x8abff2f342e942977e3156, 0xf412845cdf5bf3a414acb3);
  (false, 0x1b70135ee9af3d137531ee, 0x539c4fe3f63c79bade0cdbb);
  (false, 0x33847a5fc70ee295604ddcf, 0x7c890f213d34f39a127e80a);
  (false, 0x724adfcdd2c301c25839968, 0x78241331b98affca536f4fc);
  (false, 0x6a5e6550866380de9f838c8, 0x2ce6579e04498de3fc39548);
  (false, 0xedb4c584cb4929ca8a9f07, 0x7abdbdcd50b580e230e79)].
Definition c_2624747550333869278416773953_b : list (bool * Z * Z) := [
  (false, 0x6f05de70755868e7c12, 0x4176f414a47023b4dc67e9f);
  (false, 0x1f951c195f16c8d8aab64ff, 0x770190754e741e054ebe502);
  (true, 0x6ba4faac50bf53cdceb6e, 0x743836039c7b937dd408904);
  (false, 0x6389d49901121f4f4f74c4b, 0x5a367cfc83be0267da92805);
  (true, 0x5199a0fe15e71b54528c5, 0x85b565a272da0b0fcfc6758);
  (false, 0x83c000c8a2e27538135a8c9, 0x6de217ca5bde736a1e61837);
  (true, 0x63647a697d2a76db2d608, 0x3e53e11cedef4bcbe9a03f7);
  (false, 0x1ca0d008b97006e6160506f, 0x74e97154ac203ecd55a9f22);
  (false, 0x64ba52484075007a23ca464, 0x8762a058f8c65bb0859d720);
  (false, 0x871330cbf72a60cb27fb467, 0x1d82692e657ac6290d660d9);
  (false, 0x66ad52a9fdb675f556f5bc, 0x5121a2c5271976ae10c5f35);
  (true, 0x4962bba628d09edf27481, 0x64934306575e74613652e4c);
  (false, 0x4a8b5542d3bde96e1f73eac, 0x21edf956e4b4e0c1f70f8e4);
  (true, 0x1eb0b69b1ff46dae76d4a, 0x5da4c215196286a1db13dfa);
  (false, 0x409f873f107dbf29c9b579d, 0x11b32ab7ce4872cebb8e247);
  (true, 0x1002921d83ca04b52a02b, 0x58761572eaea761ac73c9a4);
  (false, 0x39ab207834678892b3aabb9, 0x144f739d0482193c3948c17);
  (false, 0x30a3a88a1ad16e485f7f8b, 0x5ce6c85e7fb503e6cfe46c6);
  (false, 0x3f9a5d411985dd1cfc99fab, 0x4fb04d147e006b0168f75b9);
  (false, 0x2ecc3bccc002331362fdda5, 0xdf66128a94add9a67749cc);
  (false, 0x16fc8d70a520624aec9808, 0x62efdcd5333d83ccbe4888);
  (false, 0x4822b2587793f79327bd6, 0x19d8d1bfb3ecd6570a614ea);
  (false, 0x4ec593e1b9bb13d5b41d47, 0x16a88805bf6c3820527c1dd);
  (false, 0x3c890053ea9e90ad7bbba4, 0x6c0345be60f9320dc58e825);
  (false, 0x55fa1e3e918fd02963cfb75, 0x1ebea99a08a0abd9229bda4);
  (false, 0x6f7429b29e9918104ce8f4, 0x3ca2836cd6276e0cb210f1c);
  (true, 0x36d88f51180b62961185f, 0xb614bc3a50eb5a7185ff1d);
  (false, 0xf452412b299e5b1d572a9, 0x498923a70a1dbba9a6f1160);
  (false, 0x27d99b04c2b7415e05decae, 0x33ca56a0e584dc35e5601d2);
  (true, 0x2ed88c65ed0b24a134e5f, 0x571507dd1b96f8d6c12f523);
  (false, 0x37e2665f597aa22613dd38d, 0x3ffb8d1e0dbadd5692084fc);
  (true, 0x39dfc67548eab3546632c, 0x187d7a1839cb95bacdc70f0);
  (false, 0x46b80208e25e09ff2aba23, 0x34ea955fc8308387537551d);
  (false, 0x14a2a5eebf4062ae1ba7b93, 0x409d714924dc8043c9c4bf6);
  (false, 0x1ec49a1144a7815bc0d7a6c, 0x50e429ec863aaaac4336f8);
  (false, 0x30388d29e9a1c34f591fe, 0x40497f25427075845a2c4c2);
  (false, 0x1e74dbea2ed1d447b2f0bf4, 0x5e24ad73b97649c32b3e10);
  (true, 0x5527c18cfb06c442172c, 0x727a3412c8a65ac1e444f64);
  (false, 0x609392ed871b300ad0ea0ca, 0x47a2f514f3e441405836dc6);
  (true, 0x40cc1d4a37a87309b0b8c, 0x3505df3fb286d666881a40a);
  (false, 0x14b7f3dded4245200ae770d, 0xd787d99cbd43cbd1f54f17);
  (false, 0x156558b3152a7b5329b012, 0x5d20180d62f8004d6d0097f);
  (true, 0x543c0cfad6c0a4438a4d8, 0x314295eaddcd94f06f0c2f);
  (false, 0x11e1dc85c955346b3c700, 0x665fe186eefe4169ffbe9a1);
  (false, 0x4d3c3e4ab88dcfe58688167, 0x4d684a37d7510c04019071a);
  (true, 0x4604677a574b834937f3e, 0x5e5ed8704e37b902121fe8c);
  (false, 0x41a15c9c430741ba6bd8499, 0x4a069b4be4cd87b6f8c06b7);
  (true, 0x42f55e6827d9ee75b1312, 0xc3ebac4a98a123cc59e0ed);
  (false, 0x11adf9ed6d39a74b21a4a5, 0x443a98cc5fcb11618f7be84);
  (true, 0x3db70a0d4adcdd0167503, 0x67b8c143c68f3a8d7dda5a1);
  (false, 0x4f480a30d9091b6a4f83e30, 0x3c7733da5f8c7d69aa29511);
  (false, 0x1af176321a094d7384ceb80, 0x49b903ff3ba91420bd67fa1);
  (false, 0x280d8fadabc04b351efb36e, 0xeb9982dd8c50eebfa58a53);
  (false, 0x1990e0100cb5c8099a3810, 0x41cdfb56a12c172ef412ad9);
  (true, 0x3b85acd1ceb95ac7ca878, 0x3aff75d4da8869fe934f019);
  (false, 0x19a6aaf571d9d9211f3446f, 0x148b9e51434a2d1eac9d542);
  (true, 0x129579e516d114c518813, 0x3e1198c4f0417ea089fc25f);
  (false, 0x1c640cb35093965e0321ce8, 0x502d3d669431d12ea651059);
  (true, 0x4885ab790ae227dcc6058, 0x64965e0d529365b422819b9);
  (false, 0x4a8fefd8ec5366ab30d6141, 0x850340b27de1fe945699330);
  (true, 0x7850566779f3460660705, 0x3a96af8661a3a5056513a6b);
  (false, 0x194be04e2015314736b2bea, 0x757952aab71790abb7a844f);
  (true, 0x6a422f82b501b9d62727b, 0x5e12105351ee68632e0791c);
  (false, 0x4136bc37abbb8a7f269657a, 0x108a68952de883b2de80916);
  (true, 0xef624f15afc7fcd0b4c8, 0x7247a81ead497120044409e);
  (false, 0x603e5cb4ea54191017b481c, 0x561108f65fe6df43c703e68);
  (false, 0x3696a516b0c9134acfd345d, 0x725923d89b61c87ff5307a3);
  (true, 0x676e65ab4cb84c82984e2, 0x627533e3d65ded388b7e2a9);
  (false, 0x477043fd63d9cdb25b807ab, 0x1a8392e851d49d53aa30026);
  (true, 0x17fb8e4814b60b5464704, 0x2a17fc61d47852c618791f2);
  (false, 0xd0ec47420ac1a4312cdb62, 0x65f2255fe77bbea8448eee2);
  (false, 0x4c9703691c610787da49c68, 0x3c396379c8ee550f697111c);
  (true, 0x367978af37c2753a8dd6a, 0x2d743be682427a2aaebe852);
  (false, 0xf39c6fd816374aa9f3639e, 0x1bab60784a2fca8e03ad526);
  (false, 0x5a459ec493c763c98a8eeb, 0x325604c1a59987705f456f9);
  (false, 0x12ac04e7f139bc0836b8d13, 0x15dcdc41d6c7bc482f4535e);
  (true, 0x13c6856d3810672c4377a, 0x649e13822a93c9500bbc774);
  (false, 0x4a9b5e01ef3e66d746a805e, 0x725d1b190c7365a66ab1ab2);
  (true, 0x6771fbfe57c8871eb8dbf, 0x2497e9078ee6a975645bfa3);
  (false, 0x9de41dc5069607b8962dd7, 0x7fdedbcaff1bec011bb1932);
  (true, 0x73a99f02d92f3ad1d9af5, 0x6137bdea165c6bed9454d6d);
  (false, 0x45a67bc2474660bfdd0bd0d, 0x42de6d18b1e5d0f00ab791c);
  (false, 0x20f3ac99644ae7bdeee8985, 0x8380adb0b903c1911c0e14b);
  (true, 0x76f2ab84982e0e00c0db3, 0x6567a02b7f2cec207972300);
  (false, 0x4bc76e3b1b985a327c4caf7, 0x414614e24cf7511ef103249);
  (true, 0x3b0abfda54d611842a280, 0x1)].
Definition c_2624747550333869278416773953_y : Z := 0x7abdbdcd50b580e230e79.
Definition c_2624747550333869278416773953_i : Z := 0x693de961c10a589c336a85a.
Definition c_66417393611_a : list (bool * Z * Z) := [
  (false, 0x0, 0x4);
  (false, 0x0, 0x10);
  (true, 0x0, 0x20);
  (false, 0x0, 0x400);
  (true, 0x0, 0x800);
  (false, 0x0, 0x400000);
  (false, 0x108, 0xd80b836a8);
  (false, 0xbca53da27, 0xa3de87853);
  (true, 0x1, 0x50507f0db);
  (false, 0x1a11fc570, 0x853393b89);
  (true, 0x1, 0x12fa97747);
  (false, 0x174aeb17, 0x568c4c174);
  (false, 0x1e4631190, 0x22a42bf60);
  (false, 0x4d99cf1a, 0x335fe4462);
  (false, 0xaaad4440, 0xb985b56c4);
  (true, 0x1, 0x7b9edadbd);
  (false, 0x3dc3b9147, 0x41d71113c);
  (false, 0x11852bdb3, 0xd65b74c1f);
  (true, 0x1, 0xb54a59873);
  (false, 0x84d563f84, 0x8a33de9fd);
  (false, 0x4d31fbe04, 0x332dedadd);
  (true, 0x0, 0x665bdb5ba);
  (false, 0x2a587af00, 0xc77bbc624)].
Definition c_66417393611_f : list (bool * Z * Z) := [
  (false, 0xa0d4e25f8, 0x12b699168);
  (true, 0xf165ff40, 0x76124bae0);
  (false, 0x385812e46, 0x1e232d87e);
  (true, 0x184c4a3b0, 0xeb027c928);
  (false, 0xdf37de6ea, 0x92796a4b2);
  (false, 0x56b65a4c7, 0xbc858a8f7);
  (false, 0x8fa44585c, 0x4913f695d);
  (true, 0x3aeb1ecd5, 0xeb3f0c72d);
  (false, 0xdfaaf9366, 0xa249a8207);
  (false, 0x6a722d8a2, 0xa817bf5bb);
  (true, 0x8785f19e3, 0x4788b8c4b);
  (false, 0x14ae7ca54, 0x7e45d015d);
  (true, 0x65ce62588, 0x359eee43c);
  (false, 0xb9ed96ad, 0xb55661fe1);
  (true, 0x92339c9ef, 0xb73af501f);
  (false, 0x87b10612f, 0xcfff2827c);
  (false, 0xaeda2638b, 0x9f56dc7d7);
  (true, 0x807740129, 0x812e0a1b9)].
Definition c_66417393611_g : list (bool * Z * Z) := [
  (false, 0xa0d4e25f8, 0x12b699168);
  (true, 0xf165ff40, 0x76124bae0);
  (false, 0x385812e46, 0x1e232d87e);
  (false, 0x3abbeb08, 0x6afec86ac);
  (false, 0x2e44c7841, 0x99ec46905);
  (false, 0x5fc17829d, 0xd6c56249a);
  (true, 0xad2839f5a, 0x22a803f4a);
  (false, 0x4dab0899, 0x46fed4911);
  (false, 0x145f0dd75, 0xbc8558c5a);
  (true, 0x97fe4261e, 0xf6b013cde)].
Definition c_66417393611_fg : list (bool * Z * Z) := [
  (false, 0x4371d4ff5, 0xf219ec56a);
  (true, 0x7e669b641, 0x3fb7e0f0f);
  (false, 0x1068be0d8, 0xb7f044f99);
  (false, 0x88be15c7e, 0x1a641ef87);
  (false, 0x2d0a186f, 0x4909b682c);
  (false, 0x158f70c7f, 0x3e11a5ddb);
  (true, 0x2067f7d3b, 0x699c67b7a);
  (false, 0x2d144529a, 0xa8c819006);
  (false, 0x7322a1872, 0xeac47cfbe);
  (true, 0x7a9266747, 0x1)].
Definition c_66417393611_y : Z := 0xc77bbc624.
Definition c_66417393611_u : Z := 0x812e0a1b9.
Definition c_66417393611_v : Z := 0xf6b013cde.
Definition c_66417393611_ui : Z := 0xbecb15555.
Definition c_66417393611_vi : Z := 0xb8335656d.
Definition c_11290956913871_a : list (bool * Z * Z) := [
  (false, 0x0, 0x4);
  (false, 0x0, 0x10);
  (true, 0x0, 0x20);
  (false, 0x0, 0x400);
  (false, 0x0, 0x100000);
  (true, 0x0, 0x200000);
  (false, 0x0, 0x40000000000);
  (false, 0x18ede2af217, 0x15ecf5b7b67);
  (true, 0x0, 0x2bd9eb6f6ce);
  (false, 0xbb413be728, 0xa027eda446c)].
Definition c_11290956913871_b : list (bool * Z * Z) := [
  (false, 0x9c1c961dc7d, 0x521e687d87d);
  (true, 0x500b8b58055, 0x4458509b801);
  (false, 0x1c6dd62ae54, 0x6df74044a15);
  (true, 0x6b305e1c307, 0x39366e91e33);
  (false, 0x13ec07e5517, 0x524fa406c90);
  (true, 0x503b889ca4b, 0x90cd8ee061b);
  (false, 0x7f9d9c17b36, 0x5e5de7e3e2f);
  (false, 0x3632d4b0336, 0x373b86ecbf7);
  (true, 0x35d678bfbb8, 0x2b0c6c6fe6c);
  (false, 0xb47644645c, 0x636e8e2472c);
  (true, 0x60ebc500fff, 0x5b4dcd2a35f);
  (false, 0x32bcc39ae89, 0x5ba1bbb407a);
  (true, 0x59515f30d14, 0x3ed02cad84c);
  (false, 0x18036365e9c, 0x946dbafc66c);
  (false, 0x8616192f48f, 0x74232dd99ef);
  (true, 0x7134661cdd6, 0x5b9b3c714ca);
  (false, 0x3312f797aec, 0x4218152fa90);
  (true, 0x406ccfdf0ff, 0x95bd437f28f);
  (false, 0x8876ff73b00, 0x92f14a7f6e1);
  (false, 0x836a2eb6832, 0x414f41cf953);
  (true, 0x3fa90ec0321, 0x4805c015755);
  (false, 0x1f921d428cb, 0x93483e67214);
  (true, 0x8f90201c4d2, 0x40f1ab8d2a2);
  (false, 0x19ab8b5e2d0, 0x2cbafe10854);
  (false, 0xc2d6ba4a19, 0x485c4ccf559);
  (false, 0x1fde2b79de4, 0x403160edd95);
  (true, 0x3e9265f45b9, 0x517d39db245);
  (false, 0x286a6378e4f, 0x65e0b3710b8);
  (false, 0x3f2b66a9841, 0x4ebcd658bb1);
  (false, 0x25bb7bcc213, 0x510c97f6f04);
  (false, 0x27faf79e033, 0xa0432c95ad3);
  (true, 0x9c3724ed118, 0x26804fcaa9c);
  (false, 0x9059b4111f, 0x4196dc12ff);
  (true, 0x3feeda220f, 0x882e94c5173);
  (false, 0x70df5dc63c7, 0x883892f47c0);
  (true, 0x84c7f63b8a2, 0x13cada1c202);
  (false, 0x2625bfaf6a, 0x724f9b3194e);
  (true, 0x6f6ca21ef9d, 0xe70122b8f5);
  (false, 0x144c7c46ef, 0x397554b5b38);
  (true, 0x3801e2fd0c4, 0x51ccff1d24);
  (false, 0x28b9aa900, 0x4c9c4be8610);
  (true, 0x4aad0a8c47d, 0xa1283581ad);
  (false, 0x9e11c4178, 0xa184b7dbee1);
  (true, 0x9d70918d39b, 0x881992afc97);
  (false, 0x70bc8d5c7c5, 0x23fab1eccc6);
  (true, 0x23121a9a6df, 0x62252026937);
  (false, 0x3aa018ae858, 0xa014384aaa9);
  (true, 0x9c09602c43e, 0x2dd4f06ed2a);
  (false, 0xcc8d32b639, 0xa11eb2376cd);
  (true, 0x9d0d1f70719, 0x65d4a6d5945);
  (false, 0x3f1c764f3e0, 0x608e6cd5a79);
  (false, 0x38be281a596, 0x86fc6bb80e7);
  (false, 0x6ee614cd5e6, 0x445f1b93377);
  (true, 0x42a51d3eebb, 0x77b143994ff);
  (false, 0x5731744249f, 0x7961a8c9570);
  (false, 0x59abe10b881, 0x303e5ae84b1);
  (true, 0x2f067afc5f7, 0x9c7cf98a7f3);
  (false, 0x950b0fa3ad5, 0x587b02d526e);
  (true, 0x563f0571ae9, 0x1)].
Definition c_11290956913871_y : Z := 0xa027eda446c.
Definition c_11290956913871_i : Z := 0x3dcf4686688.
Definition c_704251_a : list (bool * Z * Z) := [
  (false, 0x0, 0x4);
  (true, 0x0, 0x8);
  (false, 0x0, 0x40);
  (true, 0x0, 0x80);
  (false, 0x0, 0x4000);
  (false, 0x17d, 0x1c471);
  (false, 0x4a69, 0x256ee);
  (false, 0x8265, 0x3f63d);
  (false, 0x175ee, 0x6062f);
  (true, 0x1, 0x14d63);
  (false, 0x2867, 0xa54c)].
Definition c_704251_f : list (bool * Z * Z) := [
  (false, 0x9ee, 0x6ae36);
  (false, 0x42731, 0x2a859);
  (false, 0xa841, 0x9b936);
  (true, 0x9591, 0x486dd);
  (false, 0x1e82d, 0x210aa);
  (true, 0x1fc3, 0xaa647);
  (false, 0xa8dcb, 0x877a8);
  (true, 0x823f, 0x2581b);
  (false, 0x82e8, 0x60961);
  (false, 0x36420, 0x10b61);
  (false, 0x19fc, 0x8f8ad);
  (true, 0x89ff, 0x8c557)].
Definition c_704251_g : list (bool * Z * Z) := [
  (false, 0x9ee, 0x6ae36);
  (false, 0x42731, 0x2a859);
  (true, 0x28e1, 0x244d1)].
Definition c_704251_fg : list (bool * Z * Z) := [
  (false, 0x728a3, 0x331c0);
  (false, 0xf315, 0x12469);
  (true, 0xeeaa, 0x1)].
Definition c_704251_y : Z := 0xa54c.
Definition c_704251_u : Z := 0x8c557.
Definition c_704251_v : Z := 0x244d1.
Definition c_704251_ui : Z := 0x4ad94.
Definition c_704251_vi : Z := 0x7d07f.
Definition c_78283_a : list (bool * Z * Z) := [
  (false, 0x0, 0x4);
  (false, 0x0, 0x10);
  (false, 0x0, 0x100);
  (true, 0x0, 0x200);
  (false, 0x3, 0x6a9f)].
Definition c_78283_b : list (bool * Z * Z) := [
  (false, 0x252c, 0x128dd);
  (false, 0x12031, 0xe6ee);
  (false, 0xae64, 0x117f8);
  (false, 0x10053, 0x5b6f);
  (false, 0x1b56, 0xf6ef);
  (true, 0x5619, 0x459e);
  (false, 0xfd9, 0x7371);
  (true, 0x2840, 0x526f);
  (false, 0x1638, 0xf5b9);
  (true, 0x55ad, 0x2ab8);
  (false, 0x5f7, 0xe263);
  (true, 0x4eef, 0x42f8);
  (false, 0xeaa, 0xa572);
  (true, 0x39af, 0xb909);
  (false, 0x6ff6, 0x1243f);
  (true, 0x65e5, 0xf78a);
  (false, 0xc861, 0x12079);
  (false, 0x11022, 0x2c3b);
  (true, 0xf6c, 0x1)].
Definition c_78283_y : Z := 0x6a9f.
Definition c_78283_i : Z := 0xb0fc.
Definition c_46076956964474543_a : list (bool * Z * Z) := [
  (false, 0x0, 0x4);
  (true, 0x0, 0x8);
  (false, 0x0, 0x40);
  (false, 0x0, 0x1000);
  (false, 0x0, 0x1000000);
  (true, 0x0, 0x2000000);
  (false, 0x0, 0x4000000000000);
  (true, 0x0, 0x8000000000000);
  (false, 0x64162b7fd835, 0x9d2b172d468dc5);
  (false, 0x96e61d7b4a56ac, 0x3183130116f205);
  (false, 0xef9b0cb4f57c8, 0x909f832eb98261);
  (false, 0x7fc54d3ea746a3, 0x4d556c2f923554);
  (false, 0x24889f067abaf0, 0x45b2c5c3b8f980);
  (false, 0x1dacf9ad16d918, 0x1c32b35f2a8898);
  (false, 0x4db776f6578d9, 0x648ee9d6c39fe9);
  (true, 0x1, 0x256b1421547123);
  (false, 0x88d97f5c379d5, 0x2ed71fe2b43c2e);
  (false, 0xd671ea28036e4, 0x9146a3c7c9a68);
  (true, 0x0, 0x1228d478f934d0);
  (false, 0x203b5180c75a1, 0x3092934ae731f1);
  (true, 0x0, 0x61252695ce63e2);
  (false, 0x39a65ad23d821a, 0x2e3bef22dfb7be);
  (true, 0x0, 0x5c77de45bf6f7c);
  (false, 0x343b87b669e13d, 0x797f63240ab55d);
  (true, 0x1, 0x4f4c06bbe29c0b);
  (false, 0x2669867872f0b2, 0x329e58c583a2cb);
  (true, 0x0, 0x653cb18b074596);
  (false, 0x3e9bd92a28e736, 0x317e18588eb1fa)].
Definition c_46076956964474543_f : list (bool * Z * Z) := [
  (false, 0xef6ade1bd54a8, 0xeb9a3b9b7994c);
  (false, 0x153172e5ca07a, 0x6334fd142c0f2a);
  (true, 0x1dfe87e8414689, 0x9bda5904ab635d);
  (false, 0x94623364b48060, 0x79e342235e0e29);
  (false, 0x5ac191b20b8b7f, 0x27d567e9f1f4c0);
  (true, 0xc0b15fa996323, 0x413d9b458ad493);
  (false, 0x1a004b68e43419, 0x742e37ee321152);
  (false, 0x5274c2fb8cb6c6, 0x91345c1243b8ea);
  (true, 0x2be6b2f58f8509, 0x4c092c68dd2f5d);
  (false, 0x235155efb981ce, 0x3c2cfe36d5c7f7);
  (true, 0x12318c80d374f3, 0x76f9603aea9219);
  (false, 0x5678183d01151e, 0x4d9d15a27cf2ef);
  (true, 0x17773923cbdb9b, 0x174645cf36a371);
  (false, 0x34f24a39252b4, 0x5e51df349b6d5);
  (true, 0x1c84449bd6c47, 0x39b8f6600faa79);
  (false, 0x145a956b2e7a9c, 0x3adc733dcb948d);
  (true, 0x11cbcc63fc80fb, 0x9b632bfa4e691d);
  (false, 0x937f9c652bfd6f, 0x64d0bb1a253c68);
  (false, 0x3e16971621d201, 0x5b9e55bc038d91);
  (true, 0x1bb3304591dc79, 0x20bba145066be3);
  (false, 0x68b9506259c37, 0x17e6368bf37fb0);
  (true, 0x739c82616532b, 0x44e18981ded7b);
  (false, 0x1cfbd8a8f353, 0x659912c0a9d95c);
  (true, 0x1eb796b4a499d6, 0x36b8c0c213828e);
  (false, 0x124ae6b1d404f5, 0x42f6a5bbe1fd49);
  (true, 0x143ee960a135bc, 0x862963b25cec6);
  (false, 0x6df45959c56c, 0x48a1e9bfec6450);
  (true, 0x15f5b006da3ab1, 0x301773759ab921);
  (false, 0xe20e22cc9e4f5, 0x103c4aa37a0cc6);
  (false, 0x19c3812f981bc, 0x7d44606bae31a0);
  (true, 0x25df8f4c62cc7a, 0x5efab9bf4422da);
  (false, 0x371ba74622292e, 0x2f4cec33157732);
  (true, 0xe4d03a490a801, 0x5e0ec2c5d65225)].
Definition c_46076956964474543_g : list (bool * Z * Z) := [
  (false, 0xef6ade1bd54a8, 0xeb9a3b9b7994c);
  (false, 0x153172e5ca07a, 0x6334fd142c0f2a);
  (false, 0x3c1f7bcf23fc22, 0x9de85e62353ba6);
  (true, 0x2fbde98313bfb9, 0x8571d4bf6518a5);
  (false, 0x6cc846b683fb10, 0x5d6ac1e931da69);
  (true, 0x1c3e648fa455c2, 0x8f991b2ab327ec);
  (false, 0x7df749627083e2, 0x7a662a1b13be12);
  (false, 0x5b84eb97396516, 0x9bcce139eaeb3a);
  (false, 0x94488f643a5718, 0x3c3dac1984afbc);
  (false, 0x162b2bdb39f176, 0x1c69ed3c8d8e66);
  (true, 0x89733563b4470, 0x6e6986cccfad0c);
  (false, 0x4a78b5b28bb747, 0x7a87755385cd07);
  (true, 0x250ba4daa637d0, 0x2ce7dd562488a6);
  (false, 0xc518c0c4efeb5, 0x53253a895107e9);
  (true, 0x19236169eece31, 0x5880d1f51b710b);
  (false, 0x2fd960271a7dae, 0x5b445a5802c887);
  (false, 0x32e25fcfcbc86f, 0x5807e0ade9e150);
  (false, 0x2f56f32b935a12, 0x14af6f3e34aab2);
  (true, 0x64105d60324ff, 0x65e2eb86764783);
  (false, 0x3f6a1be485aadb, 0x492a203b1be754);
  (false, 0x20b363206689e4, 0x190f4a0d2af8b4);
  (true, 0x7939993a71c5b, 0x80fac8afefb793);
  (false, 0x659fdc24f21559, 0x93b78f5c114892);
  (true, 0x2ca92a154b42bd, 0x3505c3c9f91b61)].
Definition c_46076956964474543_fg : list (bool * Z * Z) := [
  (false, 0x360b29ea2adef2, 0x9cf4feec3e95eb);
  (false, 0x967e4fa953cb1f, 0x3a77c06fd69988);
  (false, 0x14e200b3fd93b0, 0x78151ccbe442f0);
  (true, 0x44ff36fc8e6769, 0x7625255efd5de9);
  (false, 0x5544ad36ff4362, 0x4475971b213213);
  (true, 0x2755d88be90c74, 0x73f2b8fdbb7773);
  (false, 0x52206515ad4044, 0x12826e0f50772d);
  (false, 0x217c731d4cfac, 0x574330a6c7f55);
  (false, 0x2e8454a1780d, 0x76b258fb87eb56);
  (false, 0x5610f8472bdcf1, 0x6d8292cb330a25);
  (true, 0x3eec17bfc3b106, 0x2284c341297a3f);
  (false, 0x747625f2dad10, 0x4b857001f1ed91);
  (true, 0x2b64991484e81c, 0x3ea2ce532c94d1);
  (false, 0x17f768787b17da, 0x5c8a85ba6f989b);
  (true, 0x352c17006546a7, 0x46c32ba4e1063e);
  (false, 0x1e96b498398020, 0x2345808e7aa124);
  (false, 0x7998e3d110108, 0x33d547eaba2898);
  (false, 0x10698ff73fdcb1, 0x4d5a4c947f8f41);
  (true, 0x2c71ff0b4cda13, 0x96aee08aee2968);
  (false, 0x8ab3e99267899b, 0x72df9c1a4aaf4b);
  (false, 0x509c794c32f9bd, 0x837c05ccaad1c6);
  (true, 0x4b8c5c6416d934, 0x2591ec5ad76b12);
  (false, 0x89f634ba957f4, 0x1f73c211d29578);
  (true, 0x12126026d4a8d9, 0x1)].
Definition c_46076956964474543_y : Z := 0x317e18588eb1fa.
Definition c_46076956964474543_u : Z := 0x5e0ec2c5d65225.
Definition c_46076956964474543_v : Z := 0x3505c3c9f91b61.
Definition c_46076956964474543_ui : Z := 0x93a72f8843276b.
Definition c_46076956964474543_vi : Z := 0x3382d1c86f8bb8.
Definition c_191039911_a : list (bool * Z * Z) := [
  (false, 0x0, 0x4);
  (false, 0x0, 0x10);
  (false, 0x0, 0x100);
  (true, 0x0, 0x200);
  (false, 0x0, 0x40000);
  (true, 0x0, 0x80000);
  (false, 0x59e, 0x9afc7ee);
  (false, 0x83d83a8, 0x3ce16ac);
  (false, 0x1458054, 0x47c58c4);
  (true, 0x0, 0x8f8b188);
  (false, 0x7118388, 0x2f8c288);
  (true, 0x0, 0x5f18510);
  (false, 0x31a2a5f, 0x3fda607);
  (true, 0x0, 0x7fb4c0e);
  (false, 0x5984005, 0x48b6081)].
Definition c_191039911_b : list (bool * Z * Z) := [
  (false, 0x1d04c45, 0x137d2fe);
  (false, 0x215b2a, 0x1d4c19e);
  (false, 0x4b6102, 0xac44336);
  (true, 0x44c02b6, 0x45bf37c);
  (false, 0x1ab36f4, 0x9c136e4);
  (false, 0x85b4780, 0x7fdd690);
  (true, 0x3307bd8, 0x20bbca8);
  (false, 0x5e1930, 0x7a20ff0);
  (true, 0x30bdb41, 0x95fb789);
  (false, 0x7b77ea0, 0x93becf1);
  (true, 0x3af6e4d, 0x1cf1c36);
  (false, 0x4992f3, 0x34d73df);
  (true, 0x1516a79, 0x2ea4d70);
  (false, 0xbf1124, 0x7021e84);
  (false, 0x4503a25, 0x2f8ed);
  (true, 0x12fae, 0x5ca16eb);
  (false, 0x2f18986, 0xb0cf4f);
  (false, 0xab96a, 0xaff2c3b);
  (true, 0x4638578, 0x92f2073);
  (false, 0x7684dc4, 0x5c454cd);
  (true, 0x24d3248, 0x6124655);
  (false, 0x33cba11, 0x48b9e22);
  (false, 0x1d07d77, 0x529f4e3);
  (true, 0x20f9615, 0x3a9e1b0);
  (false, 0x12dc0d0, 0x46c150);
  (false, 0x1b7a7, 0x6910c0f);
  (true, 0x29ee5c2, 0x1)].
Definition c_191039911_y : Z := 0x48b6081.
Definition c_191039911_i : Z := 0x424d3b6.
Definition c_3969899_a : list (bool * Z * Z) := [
  (false, 0x0, 0x4);
  (false, 0x0, 0x10);
  (false, 0x0, 0x100);
  (true, 0x0, 0x200);
  (false, 0x0, 0x40000);
  (true, 0x0, 0x80000);
  (false, 0x10e78, 0x200bd8)].
Definition c_3969899_b : list (bool * Z * Z) := [
  (false, 0x10f40e, 0xa3a66);
  (true, 0x56934, 0x7d354);
  (false, 0x102cc, 0x34444c);
  (false, 0x2d18f2, 0x34136a);
  (false, 0x2cc4bf, 0x14ff0f);
  (true, 0xb1b8d, 0xa5eb9);
  (false, 0x1c676, 0x24ac5f);
  (true, 0x1366b3, 0x30cf57);
  (false, 0x27544f, 0x30358c);
  (false, 0x265dfe, 0x292166);
  (false, 0x1bed5e, 0x6445a);
  (false, 0xa5fb, 0xf6ebb);
  (false, 0x3ee80, 0x370d19);
  (false, 0x3207c4, 0x1ac185);
  (false, 0xbd162, 0x2a0523);
  (true, 0x163ad1, 0x3e2d);
  (false, 0x3f, 0x318c94);
  (false, 0x288795, 0x22fb49);
  (true, 0x128196, 0x22dce6);
  (false, 0x14107f, 0x144c8f);
  (true, 0xabd1e, 0x2d781e);
  (false, 0x222142, 0x1356ee);
  (true, 0xa3b2d, 0x1)].
Definition c_3969899_y : Z := 0x200bd8.
Definition c_3969899_i : Z := 0x223c42.
Definition c_1002328039319_a : list (bool * Z * Z) := [
  (false, 0x0, 0x4);
  (true, 0x0, 0x8);
  (false, 0x0, 0x40);
  (true, 0x0, 0x80);
  (false, 0x0, 0x4000);
  (true, 0x0, 0x8000);
  (false, 0x0, 0x40000000);
  (false, 0x118d23, 0xa18256835b);
  (true, 0x1, 0x59a544e71f);
  (false, 0x226f8414e7, 0x8d92d8a880);
  (true, 0x1, 0x31c6493169);
  (false, 0xa9db850af, 0x1891d694d8);
  (false, 0x296331e16, 0x4eb3ef0d46);
  (true, 0x0, 0x9d67de1a8c);
  (false, 0x6a2ad8fa84, 0xb6679efcb4);
  (false, 0x8e916f053a, 0x7cdff4c35a);
  (false, 0x42d1a82a96, 0x19c658f32a);
  (true, 0x0, 0x338cb1e654);
  (false, 0xb63031c9e, 0x9f25e6085e);
  (false, 0x6c87db848e, 0xcdf1f5a0c2);
  (false, 0xb5bdb85028, 0xdaba9af36c);
  (false, 0xcd0108f62e, 0x89ee9d6e6e);
  (false, 0x5185e8fe36, 0x70a7683b6a);
  (true, 0x0, 0xe14ed076d4);
  (false, 0xd98591c2e3, 0x33a6dcaeab)].
Definition c_1002328039319_b : list (bool * Z * Z) := [
  (false, 0xb6e956d98, 0xa30ebd991);
  (true, 0x2416d1931, 0x2fc1b816f4);
  (false, 0x9c5d60610, 0x19e6555520);
  (true, 0x5bb79b757, 0x2ac04ef0f);
  (false, 0x7d4df3d, 0xc1c654f2e6);
  (true, 0x2ae33f807e, 0x97694a8750);
  (false, 0x623c2cfb26, 0xc80f63bb96);
  (false, 0xab80b2424d, 0x5d32040d79);
  (false, 0x25377e5616, 0x46859c1237);
  (true, 0xf9bc2e181, 0x7ab03beaa6);
  (false, 0x407fe66fb1, 0x30d83d933d);
  (false, 0xa39204a69, 0xe7a30a819a);
  (false, 0xe5e9fb01dd, 0xa35094b449);
  (true, 0x24256412ef, 0xa9c2feeca);
  (false, 0x7b7d448d, 0xe18e6fb539);
  (false, 0xda007be530, 0x44ae62a761);
  (false, 0x14367780c7, 0x1aacc6a460);
  (true, 0x5e765721b, 0x9c9497933);
  (false, 0x690e9771, 0xe3d9d3d82);
  (true, 0x326dff7da, 0x5b8bdfda40);
  (false, 0x23e951b91a, 0x421862bbaa);
  (false, 0x12b826c37b, 0x57b8389a57);
  (true, 0x136a2e3392, 0xc338ab20ff);
  (false, 0xa34e93f5ac, 0xa4c305018d);
  (true, 0x2477611346, 0xbd748a06e5);
  (false, 0x99cd6bc06d, 0xd120efd58e);
  (false, 0xbb673a92ef, 0xc93d9fecb);
  (true, 0x2c8a45139, 0x2e21555bfa);
  (false, 0x91e5276cc, 0xb5d328e9d0);
  (false, 0x8da9ba25ff, 0x2a0e8dfe97);
  (true, 0x94eef6968, 0x18f86cec85);
  (false, 0x2abfa0eeb, 0x211df83b7c);
  (true, 0x754688525, 0x1)].
Definition c_1002328039319_y : Z := 0x33a6dcaeab.
Definition c_1002328039319_i : Z := 0xa75f7d650b.
Definition c_208150935158385979_a : list (bool * Z * Z) := [
  (false, 0x0, 0x4);
  (false, 0x0, 0x10);
  (true, 0x0, 0x20);
  (false, 0x0, 0x400);
  (false, 0x0, 0x100000);
  (true, 0x0, 0x200000);
  (false, 0x0, 0x40000000000);
  (true, 0x0, 0x80000000000);
  (false, 0x1627ce35, 0x26783b9c6b968c9);
  (true, 0x1, 0x1eb874757aae457);
  (false, 0x146b50b80e6febd, 0x2c54c37c3a6702);
  (true, 0x0, 0x58a986f874ce04);
  (false, 0xaa15037814de4, 0x130b9efd9456884);
  (true, 0x0, 0x26173dfb28ad108);
  (false, 0x1f64655833d0a5a, 0x13de2a0b7b15b82);
  (true, 0x0, 0x27bc5416f62b704);
  (false, 0x2229735e7f3b036, 0x25a0c73e2a11d9e);
  (true, 0x1, 0x1d098bb8f7a4e01);
  (false, 0x123e2db58d0ee51, 0x44e796a3f9b256);
  (true, 0x0, 0x89cf2d47f364ac);
  (false, 0x19ae6f04a2eb98, 0x271a74b2d4ecf88);
  (true, 0x1, 0x1ffce6a24d5b1d5);
  (false, 0x162383d46c84c01, 0x27f1e8747acc9fe);
  (true, 0x1, 0x21abce25991a6c1);
  (false, 0x1887a9c75c31aa2, 0x28df7a83b3c02b);
  (false, 0x24253c5223929, 0x2a30a9344b565c6);
  (true, 0x1, 0x26294fa53a2de51);
  (false, 0x1f8234ce2bf3c52, 0x2d591a7aebc4bb);
  (false, 0x2c7e654042308, 0x1fb0eebede665c1);
  (true, 0x1, 0x1129daba604de47);
  (false, 0x65fabf116e2bf9, 0x4d417f088e904e)].
Definition c_208150935158385979_f : list (bool * Z * Z) := [
  (false, 0x812291eaaabd0, 0x1460cf196caaed4);
  (false, 0x8fc1fd461de664, 0xa2b6172b0a3284);
  (true, 0x10ff9d577190b6, 0x8e5940891ecc46);
  (false, 0x1b66aed047569b, 0x243934fa4c2e6b);
  (true, 0x3c8c6490d5d54, 0xbc353f0ee50e3e);
  (false, 0x2fe675276bca2e, 0x8940f8b3f0a86a);
  (false, 0x19798a0cafa4e8, 0x1b95903b10d826c);
  (true, 0x2e1b938fb9d745, 0x20c49e8779fff01);
  (false, 0x173b55c89625633, 0x3ff7506b24e940);
  (true, 0x6aebbd3b3cc1f, 0xc09ba77471535b);
  (false, 0x322a844bd23d13, 0x2471b69a4b677f8);
  (false, 0x1cbc9d7bdaaa901, 0x175124346a005);
  (false, 0xbc3609a3be, 0x2bd8f7e85409d4f);
  (false, 0x29991202803c68a, 0x20b15507f377a93);
  (true, 0x36a58b4080c7c0, 0x224005870893f8a);
  (false, 0x196179c7959e909, 0x7b42f69a042c51);
  (true, 0xce08e52097e8d, 0x219bb17202d5d2f);
  (false, 0x187035937ee59ff, 0x1489eb256f85ddc);
  (false, 0x92084a22bff75d, 0x23e9548881f79a1);
  (false, 0x1be71b6af07a280, 0x2e62f18514a3c1);
  (false, 0x2e8e08281d986, 0x124ca1696f279f);
  (false, 0x73ec760fed81, 0x190973c8730ab06);
  (true, 0x29d98e824148c1, 0xc32863a5ee0a59);
  (false, 0x3380c93ab81a12, 0x229502d015866cb);
  (false, 0x19e00c343491739, 0x1ccf2fb642f45d6);
  (false, 0x11f5230f71a9a1e, 0x23d2623507fc3fa);
  (true, 0x3be08568bffc8b, 0xf47eebf1bd7323);
  (false, 0x50d5fc724bb936, 0x202b2c18291c957);
  (true, 0x35c54ad91577d7, 0xfb370c9ce89ef5);
  (false, 0x55570ad8c903ce, 0x1089e6d6cc7bfff);
  (false, 0x5eb093f351e7bc, 0x1edd0b03fe30bad);
  (true, 0x3396c985e2577c, 0x2c9b000fc28e922);
  (false, 0x2b0c680465346a9, 0x20b437066f42a91);
  (false, 0x172418e7c2759db, 0x16c01107bfd71a8);
  (false, 0xb32c739a60d902, 0x2d6c02f0bee0ca);
  (true, 0x4bec81a2090e0, 0xf1b3508ee559ec);
  (false, 0x4eff7fc9677dc1, 0x2a02f2bdf814915);
  (true, 0x463928e24886c1, 0xf60e2503a758eb);
  (false, 0x51decffa523cf6, 0x67c5e77ede9d07);
  (true, 0xad758f7f791d0, 0x278744e714d9d32)].
Definition c_208150935158385979_g : list (bool * Z * Z) := [
  (false, 0x812291eaaabd0, 0x1460cf196caaed4);
  (false, 0x8fc1fd461de664, 0xa2b6172b0a3284);
  (true, 0x10ff9d577190b6, 0x8e5940891ecc46);
  (false, 0x1b66aed047569b, 0x243934fa4c2e6b);
  (true, 0x3c8c6490d5d54, 0xbc353f0ee50e3e);
  (false, 0x2fe675276bca2e, 0x8940f8b3f0a86a);
  (true, 0xe56c4f41d0bda, 0x7a57716dba630e);
  (false, 0x143d6dbbd360fa, 0x20707e0e3d70926);
  (true, 0x363929a84d8f2f, 0x1a073ac03c6a6bf);
  (false, 0xea86a82da52e25, 0x2631561dd835efa);
  (false, 0x1f8f76d20b43021, 0x2d485b8625be789);
  (false, 0x2c5d8eeed7e020d, 0x2d9eea8a3c30552);
  (true, 0x4c4198456f7c3a, 0x5278cb521c6b9e);
  (false, 0x93293b39221cc, 0xadf8bcc241cf80);
  (true, 0x122cc3fad39bfd, 0xeb5c9ef4ec0cb1);
  (false, 0x4ae8ad3b387be3, 0x1402f0291ce5e10);
  (true, 0x21731de1705a70, 0x107943db8fb2110);
  (false, 0x5df2736df1ede1, 0xd08a220ac30125);
  (true, 0x15c943b0736b4c, 0x13eb608199212c2)].
Definition c_208150935158385979_fg : list (bool * Z * Z) := [
  (false, 0x21ce748c7d3623d, 0x1828cdd568540b5);
  (false, 0xca0e86b1de6168, 0x23965b9ca274501);
  (true, 0x1e6f96be1e9387b, 0x23ef6b46aa333d9);
  (false, 0x1bf09277fe56584, 0x2c27a9aae609485);
  (true, 0x25c366ef853510d, 0x10c6a089b9bdbfb);
  (false, 0x616ce9b62d3d23, 0xfa429a6dbdea08);
  (true, 0xd608a5def118e4, 0xca6ff2b12ecd04);
  (false, 0x376abc1bb0aeab, 0x15774bbb845d7a7);
  (true, 0x125bd32506dee88, 0x62187c843ea846);
  (false, 0xd03338e4c0971, 0x2abde9434692919);
  (false, 0x2786c5a64958946, 0x6f5f281324934f);
  (false, 0x10c5e46241bb39, 0x24d6886a732e73e);
  (true, 0x1f816abd28c569a, 0x295671a252da89e);
  (false, 0x24f8d7ada3fb10e, 0x165020a9721fd4a);
  (true, 0x131544e25020ce5, 0x2606f59cfe0ad);
  (false, 0x1f49946ff73, 0x167a2edf7b5de68);
  (true, 0x13393ca21a294f5, 0x8e56e6f06112d9);
  (false, 0x1b65c73701d768, 0x83c554ce254ef9);
  (true, 0x70b244175c2ed3, 0x1)].
Definition c_208150935158385979_y : Z := 0x4d417f088e904e.
Definition c_208150935158385979_u : Z := 0x278744e714d9d32.
Definition c_208150935158385979_v : Z := 0x13eb608199212c2.
Definition c_208150935158385979_ui : Z := 0xf8b5a170b33cbe.
Definition c_208150935158385979_vi : Z := 0x1db8cf470f45437.
Definition ct : Z := 0xe6bc85a78096c1f9b695d42f2c755e0275c2a78c319ffe2632a254c7351713cf.
Definition ct_c : list (bool * Z * Z) := [
  (false, 0xcff74afe5ed2862cd48a46c85f0a104e6de277cafab7cb40e1f29a920060920f, 0x61d47b76d64196bb1792403096f6d57a9a8ab2ee9af1fb8189d1ceac471af370);
  (false, 0x2562b5ecec1eafd573184eb69d86d746ad6be0a60afb5e1889a968e1b7816973, 0xa1750393225ec391e6f0f4e9457ff5c7dc23814a26a2fde6e648bd4031bf3a73);
  (true, 0x91860770d1bec543fb56cfc730e6074c49d379b8b7d3cb875e493a07423455c3, 0x16aa006163b7c63dcd7c9559f148177e882bcc647abc4c321d13f4dbc8021c0);
  (false, 0x201a8f5407dd427dffe606afba45e9e4847f68c3dfab3df16a1266b7fcb0e, 0xbbeeef7de7a836ea33170a8638f84b4ee424ae39f8cd91807b13e05a2ff2db0e);
  (false, 0x89f6f0e4a88dc25c8321676d34e57d406c95a50f18570f5ef590377a9877bbf7, 0xb7b250b51544256b4673dedb2a55f68fbc847054d7d86999acb9d0249e60b0bb);
  (true, 0xa5917b5e712e633b619fb9fb845cdc174c1badb0f1c0ed045f18caf4b2b657f6, 0x5523784d18a80186719a63cde1b97123860681c0f2d666c74f5bccf587d0202b);
  (false, 0x1c5092cd6c4d40165b0f27b33b2833c2f7cc2a24da8f20710a2e7c6a2d399005, 0xbfb2a377b8a6cf56ec0aa83428e74719491cd4c4d220a50d626fc1d9d124573e);
  (false, 0x8f8c0c94eff36b1205cd2e70577dac8342c4022c6b00b1459fac201738511fe6, 0x5f555d7c1bce896ec19c873ca39343b9f2d14a5a7a74d08dc573decf1b7c52ea);
  (true, 0x55ece67438312b01f0cfd16bb45607cbdb3304b3fb6b03140b5adfe03d87c489, 0xa35abca54639d37cd3f81c126205445c4cfbe9fe6ea2358587ced99d963c2dbf);
  (false, 0x683cac640ee2da35d8c6cefab6ebdb5024349f580c82d271407db17a776f386e, 0x7097e248863016f75dc79a44b29bd2957a2e60242c53bb3f56a2f81c523ecef);
  (false, 0x3185401c6081c26862cbd88cdd44c7b775f641ac16d9c523d88427e6c715c4, 0xd91b26dca3de4e0104a9d6803b9e4b7fda80a30192ff476c46c95eb8616a9ce5);
  (true, 0xc3ae4634b1e4c073db76958f584a25f45b0b33225fd05f6ba3a2b89c1e7a1b81, 0xe9e482fc2be25e899edd5bf5b7fcd15f9db3585d95f54f52397eec004ee6f7ac);
  (false, 0xd5b1c26971c712afd99af42e5ce4a1f365bf023c2c34a3dd9085fbd3eb7d4635, 0x72a8762772f04f5d8b9b950a136246943730f64dd9408d2de6ccab22b42aa1c5);
  (false, 0x335a7816a007be37a9c86689cf6185e8779c01d8da903bd7744ea5c8f59c7a91, 0x5a7ac5bd86a4f4236fe1627b12332777f1c29b2891b33d1e9082c6b37879dc2a);
  (true, 0x518cef0ecbf9247d94ce5d470600a1de209dfb22c2b0833b014255084024aaf7, 0x6056875e90f2802f843444178d44514a404a07424e65fff2bb5d4c452fcaceed);
  (false, 0x244102c64c1525a672421f4fd4e64542cba94ee22651c132c0e9e8c855be7a1f, 0x56f3792482d844279ecea8b651dc46014e014088d1cf4a028e3845309104c188);
  (false, 0x1d887cf3da15ba353e988e1f8588fa5ebbde230516401d75db3fae90c2e862e1, 0x69d07214eabc7ab9d966e97c6aca5d2b130f4c0e5cf9b3c0ab01f4e37176bb21);
  (true, 0x5f5f32d17906be71eb04e8679d5de68bb400a761ea296c6664a9341aeab5a19b, 0x5149d3304378ebf48e548a66b9bb1a1e148342d5d0e0575eecec2a7f1e91644a);
  (false, 0x19cfcceec4416588b212675aab0928605639469decba3f4e49acdedfb5593e06, 0xb83a78373f072d3c46bb776b32a32130f7fab97db4f493c6aeed0e5fd077236a);
  (false, 0x84941a2aa0aad1742016ba9305658c5f735d8d7794facb6bd1226eb8fa396d60, 0xb54bc38204f2d0d572799a0c70c5e47d663c37314f99dec8e57420632bab9544);
  (true, 0xa36793f2036519ca69886d81e55e06ca5fdb24baf4210ee5a13c54db893c9e81, 0x6af0d409d8a3f648f239dd4314c21b651c08f599209f41c135e0ab77122a5c7d);
  (false, 0x2cac5226962a9cb91da19d3c778db5a0b72c4a8f86bbdce61818a163ffe28ced, 0x278f1e87bffe46765969ad57985e77f9c46281b9619669743113979e0e50a1f6);
  (false, 0x61ceb5081e8fbd6e9f19ee252110d356961981226e2cfa1436f9379cef0c0c6, 0x54770473b1d6d0a087adf19f838ef9bc48284a97d9d6370245589e3e5728192a);
  (true, 0x4c2121809c3ffd85f0807c495db282be0edd00f32cbc344187b221cb60d7fb73, 0xd62fd2f9e26ea46a9d9b437d290343108e29890350e1498b56bf3021c8e87269);
  (false, 0xb333fda99f6508935418cad9037b4147ef90ca8c166c8ac249722bf8cacdf316, 0xb6c0e3448f6870f1925c2114d56a991bd9b6e46b1f1d524e22a110de6c3fa227);
  (false, 0x8276d47baef91a6bcb1711da560c4a69e3e4cb1829c293fe394887514bbc9d48, 0xfd1f522f0b57e1a0a6473ab1c551ac0f19e314ce60e1fda66abe639769a3ff39);
  (true, 0xe4248afe67279b0fcb1f385e5cd1b80753130bc87937af694ecda9a3edf67112, 0x40f93dce65748aaf751a1ab1792a8020ea48616b1ed90129de9f8cb40a20b29);
  (false, 0x107d91908da5365efae2799a6a561c90148f850b6efa442fbbb6e34b60c223, 0xbcc09076ae7e6676ec1a6b021ab38f8e52aeda30ebbd834a514c460febc14eb4);
  (false, 0x8b2b6507df00847337ba652902ddfbbc8ad84caf55e724a279fa1b04b6a9a507, 0x6078cd62621e591cbb1a14ee0de9351f9b5be4a0e5cde1324da83c92f243d397);
  (true, 0x56f3939b715234aed78379457285331eafc9fc1fe9b4681d61f4340cf98a3b7f, 0x73072ec0c76dff8693343e62932ce0c6d1bfda2bd63d20977e8cec212ca78798);
  (false, 0x33af7434fdf108a2f40e6aa05506b4a014c2927d098f91354da28866b3dee0c1, 0x61d953fd1372cb91501d81e951ea0f27fb375da51d9275dca8ddc1d524008b01);
  (false, 0x25666a256cbc75d264c70f03036a6cdf47be7222657b3ee2f74417e9e4127453, 0xf75586474890d8e0c11c391283845a64a2c6def488a103ba068d10ac778c8a54);
  (true, 0xdeecfa94ca4273a9c3ecbd9fa10e46b5b6c38b7b6bcf3b72d359415ba905b03f, 0x945eac622befd03b1a23d152c86268f966f8b88a7e3f6031c8b0773f9379c62b);
  (false, 0x55fd9a54e4f737e5bb8f82e0be4bac980c926363791508ca51df97a964beed29, 0xc1934aa1f249d36f6a57a17a65d11b68fc12ea81a4e25d391e202e55b4cb7862);
  (false, 0x925f6b478d7103631fc5dee0e73820d7db9d55d6cd3a48c540d63fd0f68d4eff, 0x958879d1934422f0111fd87db5a2b7fa5e7ce187f684e528ff662be6ea955483);
  (true, 0x86c6bbbe056bbe92389819766d597c855ded04df5858204c59233ca6d1dcc9cd, 0xa258384a667a5edcba08f52aa5fe20264179182f1b8598989d088b864ca6d8ba);
  (false, 0x66f3c5a5502dbc4a6db25a2d8f240d674f25bb73b08d109a6fb19ca7905bdeca, 0x673402ec27641cddbbb57a6ae2176f32ce63cdf703c3db6da449f8cbc90e45ee);
  (false, 0x299ae4eb6145ff4795e3bc4afe2904ce3812675fec43fa95dc23f162b04ce29c, 0x5db98ea8c87383d34d871017505c85c928a7a7169a4326c2cfe76372256f0be0);
  (true, 0x5479bb5f76c271f4dbf5c156d0882953660b3483f7b516ca85dbadb6f2dd8b96, 0x79ca6a5186ed0c9e5cdc4cdd9f54c24f5337280b3fdc9efa2c4fa559e6a9c5b6);
  (false, 0x39f0f88d404d9a459ba193de83cf82454c8c8817a854434b33fc781d9944eea7, 0xc92e13bd9e67e9d2e8b82a119cef88e4e13ce01e805ace6ad50e0c8344428c0b);
  (false, 0x9e19634b7a832fc6c9cf9f7f60c9e793f11a48509af2509aea06eb21db197c41, 0x2cbd3a590ffbfa62e788aab965f3b57b537969a081bac3bdb4aab216356184ba);
  (true, 0x2852f4be9b5160198b3bed20d41f1e5afdaf86c30364722ea27818b0b2268423, 0x96c79121f0d8522219c10f4509164c9d017aefd7d5ad2b36ccd0ef6f8790a489);
  (false, 0x58ce79a71417e18b69e1ceb0f505a325fcb282d205b905aae342e2ae8cc571b9, 0x2b9cce95caf15b8918dc4921fffaa1798d734b38de6ab67384533ebe8ea5430a);
  (false, 0x76e0d72c6dfe29caa091bcfbace71b59c38072f01be6b866ecd1adf1a70c421, 0x6b2b3740aae6c62282abdba7c4cd0399f7f47a5c43dea5be508d36c5aee30085);
  (true, 0x6097bf54a05af2f0f77436db232e752ee5eda732459fdafb05843f91439629a8, 0xb0e2579b756f75f985e92b04644c8ee10e6b29e288bf56b3886f6481b207433);
  (false, 0x7a3800950827a3d11fa8359c51e94a0ca1b4a1da2d2149526d05ae81179722, 0xdce883de3b0139f786a9bfc2004daca1f04f491b1163232cec4442fe8495d94b);
  (false, 0xbea075d5fac2b4fd614782414875708ecc914870bba639807041666e36b9e5eb, 0xe0bd29eedd6b493ff7e1bbe5370955db19f6fe913bc85eeeca2a230e387821e4);
  (false, 0xc54b9529ba58a78fdfc1384cae7f750fd57956886e1ddfdc543a279fbcfb9b5a, 0x83c17345faf6dbe3713a354669802664ea0250f5a93554ee55e6fbc347382e6a);
  (false, 0x43cf8e28e6148e05fdbf4000602f20f50f80e4ddb9287476a6eb52f7f9e410cb, 0xad93f6f98bd4c3dd673aa07413ef1b20843b0ef037c01bf22fce1a871cae54af);
  (false, 0x75b151534d8a04633e55c1e0001eb2f4ae4ea74834214b3098dea42dc0acd250, 0xf3afdc462af674a76156190b2d86e871039baa25bcd034d7d0ca19fd429421f1);
  (false, 0xe7f754fd02fea0787925191d74c52c100ebad01c411d55148709619e991cfa50, 0xbb1d238a318951dae13b71fb85c50a5adeff1041f5d97a5d501a41302044ff31);
  (false, 0x88c3953d7f6080144544bf63a43a25c2d88c02e721b2c19f4092017abf347726, 0x3c668e0e3f294bf15c8d854ab6d998e76f85af3824ac062ade0de83f8f9f1e87);
  (false, 0xe403bac3e09bb0a9fdb01bcf3cf0f83d6077e47bc570f70acf4adac363cbb66, 0x5cebd427f5852241cd9244b1389d90b0547bd7ef5a33af052e38b1ff792a697);
  (false, 0x21ba59bc0b6101a954fcb92c3c707988f9a9f5dea5c2cdcc8c6102b876e2a5, 0x76d0efb208f30a2ae7c7c80c1568708a57b59911304b45911e2f050e8b1b0fb6);
  (false, 0x3725477eb921c854d4a7a9b6a89596b208469536b242c79aef0d919af4b13e11, 0xe68b3f8fd948da69f22c06a180fc3a70c98d40599611ada7ed0acb6eea0c1375);
  (false, 0xcf9e81f5600b7d4e71f1d1a3e3fffd76e1439544d12fd87ddc7a515c0d41f867, 0x3728ba1d586f069cb76a8bff640fecd7788b30c91475195922d4ac0bc5b48be0);
  (false, 0xbe28673585c85db3192d79631c34aeb712e82dc00f0980032c150ad90c99299, 0x862e08731813f6da5074015cc6740f6dcf7a9e131e2ed4248fe9b48950369699);
  (false, 0x4654391fcd2d2bf8ad287af986e924e4921cde0ace05ef9bd190baabc1c7f733, 0xf5001d65b37b7dada2d9b02908f0af5bfff2dcfc4aac14b499693c3142eb9ea4);
  (false, 0xea7938459763c9e41e5fac07b810ce880904c6d3a2184f326523c33c22cc6c7e, 0x322f6e059a98470914cad153d0f6d6fd2b07fe79db26af93b1b9b4ad5633458e);
  (false, 0x9d68fc3cf91a067ab8a1125edb28ac2c55403cc023fb842b369eacd8b1061a3, 0xf5f313dd3e576f6dc8e794a5abadf629a7234818079f70354ec819b9bc8a3c67);
  (false, 0xec4b2ad51d2d768f8a881d1914cfe631a1b3adf94cd85aa13ad02b137a192b18, 0x4c6cab28d1cb5c511ca728a3560bbb99144d412c60921fa96a32e94def659c89);
  (false, 0x16d0b3c1304204ef0fb3a2416396de5a811f171a0b44c5cfd64a9beb46285fcf, 0xbc0f1a12220f45f39df9421bba48f704fa0479e588eb3f8549bf0af1f7f9a120);
  (false, 0x8a262f2f3cf44bea9e441ae0ae45afd2194a8afd4a6e500b983d0743f3f7897e, 0xf7b9008e09b5d0d0b3b5a566719a516e3a16fe86f6d1abc29ac88dda89a0cd7e);
  (false, 0xefb684c4d3bdb54d3285639417a7d8c21ab1630ea9d195316e914f5e5847664b, 0xd7cbf95af8176385e256d0047cbf471dda93c307a57254cfeda996e8b6ba704f);
  (false, 0xb5e83f5cebc7148fcedb5baec8b61777e4e3adee347f27789ac87047db4e5711, 0xf80b41443c7689a0ee1c655dcba277ff78571e06669c9f03590c32ef935f8f72);
  (false, 0xf055cef3d1fc64aee1f6ae61051a831a6ae23c0f27105f4a8259bee87c33e258, 0xcaa46cd007d7962b9c8c24406616389ef637d4825f7e106f0e57002d2f30711c);
  (false, 0xa067e55485925a33c55e845beda30706cf6da635c76e314ba3c1cf62687cad1d, 0xe33cd28f414273be4396407ba9c03c30ff480fd5f1032ed9348465ed4cf6682d);
  (false, 0xc9b4ebde37c6b38219e231e5ef868c3f679f6777e6ec73074336a683bf7a9f3a, 0xb1eceb199f8f26cf560c4bb4caa8f2d3b00748e1c5b7ce70ff3246dcd85b3723);
  (false, 0x7ba9785c3973a9775fb737320ba327a3f173478e89054bb1a1ec3cbd3c2b4505, 0x545a5bcda866d73aadb42a9c3ada4cd3e1b4f3d010839ea15b6032708aed53ce);
  (false, 0x1bcb6c23bfd52ca1bbc9ae67fcf6f67393548de9583a11bce0dd21ac15510264, 0xd4e6af30f6a9e2bfeac3df06e153914a40e08cb07020d62abf27a84a742c3c28);
  (false, 0xb10ee2090d7775735b793038495be1d56838e5eb33c4211b739fd1c7e88be285, 0xfd98315dcc10838852789f11057c63ffb1ab20041f85f39ae50f3710e46ea8c5);
  (false, 0xfb362c0f09762e21ec286f077c581251800c40ed5c38e6bab9b5b062355c5b2f, 0x2b797670ef3d39601cc24410b6238f68e311f2a10f4f3ebd8fabb7695eb82c8);
  (false, 0x762076b254f0ef04a7ba8693540105b9ad0063294b881f062f1d67378f3a7, 0xc343aeda76f4e82c6ff984858e4a97a8548fcd88a25f36537cfbb11ca178afe7);
  (false, 0x94f02e4663f1404ec4d852c179307de6f130951b656a38ba344811e186f01170, 0xc6f632c79e8d58c21f03717d1d12116a86d3ad06726de41186bf008f765db3e1);
  (false, 0x9aa1c353059bb5dc60a57a391309584c0b474b5c7d19cccdabdd95927d1fc2c8, 0x270cb29dfb717136d6dde0475687d2e57570721cb58b813715050f1018fe2e89);
  (false, 0x5f4df0d64011556d234bbc2f71bac59f4ac01dfa4e3fe844647a78ffe0a15b8, 0xaadb8982cb054471bb91b41802a06a72037536a10b65a0e37d4c2bca0e5b9b09);
  (false, 0x72084ee6b74fe8eee298a16ec0cde5036b8f6fe1a4bf3c2b59ca115ba6f49e33, 0xad28ffcf734e9431b3395f8c60ef83e2f94686511194ea39a095e74c393e8484);
  (false, 0x7520704fc76b9cfb064d166c43fdee5bee29f3eab5f6db42e89a2cfc262cec80, 0x17f941732dfba2bb250c670f7a2ae5293687a25395f29c770753f9a362b55090);
  (false, 0x23ebc73174d185f66be5413766d72852dc7c47b4be2089730ab0d35ac9c1018, 0x4ed927ae52bb82b7d772a7f7f4c7f92906e8c9bcbda998bcddb716aef1966118);
  (true, 0x47112a4a724bd9f5c2ea7bc04ac557712e325e3e1ab910cabdc3d3cb57a387c0, 0xa2d2415ba885f0eb14254abe5b1c74fc6f1a6aacc948ec0f222b57738a98d228);
  (false, 0x678ec767b3e874755606a67931a0fcd9eb936b265c5d5a4d8589a8668a5a188c, 0xdf77edc2a74cbc166e6612309a52621f1c3f99f893c09e806e26c623e65fbecc);
  (false, 0xc3122868ca535f340a557c2ea1fa585dbc63bf49c594c26fafcfc7e5a2399427, 0x180d91866c978911ea8d4c187b6ea3c6114eff8a14d598388d01b2535bd506b7);
  (true, 0x15ade744837f83beece58a63c81bad87578f4fa9b778f599c45630576e591dc1, 0xaac1dbcb841b450cb1867f491b7d159c352da61a49378513770c3057fc8a20ba);
  (false, 0x71e60ab7e2ed495bd980e8775ec623590ae0f80d46ab369d1fb92c3942abf05c, 0x438511d7ce65009dc5b7e6f8da829b4b3d551e7acb428a8a8871659abf62f780);
  (false, 0x11ceec8293529f1d791418b314fa41a9967bbfb161737b356e29ac038c3c3aff, 0x487fcd921eef68ea91ffc2b6472bd058756c1d9b4f45e61ad69b4596f9847aff);
  (true, 0x415836665608a37904e3f883a0662978cad53fec1a035f53c55089b1a32254e5, 0x962572e077487e0441a40708b5aef36303f8dacc9956864166f623e1124bb616);
  (false, 0x580fe819cc4805c8650c1aeee0f54b7c44ce6c2cef09d3eda55eaa39fefeffbd, 0x6a13a4b1f6c69fefecbafaa47f0ce1dbf244cab7730e2296fdd57ce5496649a1);
  (false, 0x2bf445e568afe3b953da7fb72a82f10db12465a14b2d4d2373f7f02b9ecbec95, 0x3358026dcba380d4f3f00acdc36cb92c060ada873c59805b1412112324523d6);
  (true, 0x2e46e19eed54318c39669f9c0da12f29be7853e26f5e5ed44519935d82fd576, 0x7366c92133e9f207c193816d564acaaa059777b2fc54b8a676798a325fab180);
  (false, 0x340581f8ed2437ac5a1f1db9e2f9b9b7ad70cd029ae0fd87c0d7ac54c85ec1, 0xc2ef5bfdedbdab3bb5113cd1173d933989bfd2f37ebdaea072694d7a7dda9ec1);
  (false, 0x946fa73a55f389ca96d7bb3db1c9dd3dda8f0ba6da5bddd2166fa56bb7e23e13, 0x66aabbe4acb10bfae1936f26fe297ec488ff2d927e6f881dea80491af5090b94);
  (true, 0x5c88ffcbac2f163f708db1d552f2a7109b6dc3835da0ab52b99ed00423064660, 0x792e8c27c2c8366f4613c4f2415244b1716e22bb1387a4e3b06a60419f7e9f0c);
  (false, 0x395d08f47a83cf94ea20ff8af181ff096b83718f8891fa0dd8a4a09dc3e43ca3, 0xf1107b78a993457db668d7c6a8d8f37f779afce53b66e1536788ece79e842533);
  (false, 0xe3000989bce9b09b2a3d940d0dc794e159ccf033f6a143ff2f37269aa31f903a, 0x7701c4241e4cc1901082febfaa48e6632c6bca5f233ba93ad89fb2c5f91f5863);
  (true, 0x6b4339a6b1d71e80e69fdf5354921ac77251bb041891954ef15f6c116eef7d75, 0xcb9053b382942e0941100dbf8730cde0ce683262ea145bc23626bbb5a2bc4e82);
  (false, 0xa1de361d9846025f61ada9c70fb36c905963bbb2d108c4dd314b500c4041048d, 0x74013ff0022287333a6df195b91e910a4b1745a926c6cb89f84f1dc02f447e91);
  (false, 0x349121f3465872cf8c6eae3c81fe59ce5cfe2f1be13cb809c486bae8fb9084dd, 0x533d8a645ba9ae42b24c1cfe25def74aac2c67f8a93921b74629a735b52b92fe);
  (true, 0x4b0696fd86ef8f93f07fe824a086f9cbdf7783fe2ff935a45da7d7dcd87318e1, 0x724a9e811e7f875959fcf77ac1dc739aa47ee930c859989616eaf0875d69ce43);
  (false, 0x33068aeb36f963f602fb0214a95ce8a184eeda311dd7bfbfae23400a6847f15b, 0x561c9c990968875545705b0e64fbbcd23ad2545332de11de4f0a764bef6dd6e4);
  (false, 0x1cf73c69908e6527fd200b402e8c9fa2f03dd64df5f77f68272d2bbb1f62be6c, 0xe1626461fe1a66e962b076b41f7875d06ca6f11be4d1114d15618bb189ecb97c);
  (true, 0xcb24601e23f30585ed27836a00ec7025f57a9b3942fc4ab50566e6a11cdfb6e5, 0x964bb645432c4c034cd98c5fadf6b4a6cab146b94cd00b02577f4e7b8b31e629);
  (false, 0x583ccffdd150a34624a7adc166100b9985fc57d3bf57d1e5d5d24c30983a33a1, 0xa5d434608e7afffaedb345f6dd11167fae7ca7be7fc67aed8663ad4108d9e632);
  (false, 0x6b6b3b6badb92369d3db4cf0b5ac63c64af10d10f6d6ce844812e1b77cda7d21, 0x95fcd5b113d9188f6ff6e8cb64d35652d7eca8a745dc9b18aad3b2f6ac9c5ee5);
  (true, 0x872f9bf90b5a5feed3286c4129149243f3c6e1326bf5bdc19e8347825272e49a, 0x8f8cadff89b30a62d82482603c85ecd8fa3e8f828d204851df7a157c6f819ec5);
  (false, 0x507e77b29216784fa3f6999471aef58637840196f04b730ca14d8319ab72ae05, 0xe2253b3bb1c644bb9240cc9d6fab1cc692e0d611638c7ca4a5414d41e674719e);
  (false, 0xc7c5c2005a9dc8876fd09f0140e62518b8d3a5e0466f32798897e8f257bd5112, 0xb306fbf9cccc550de276d4d1e0f845219883c4f6185bac19c9c4184d695a2e96);
  (true, 0xa15c1cfbdf322a8a5f3124f3de994b0341cb680d6952fb674f51c49bff30baba, 0xd4ec49ed18b2379c08f007a5069257bfb13a080f280e190e7bc2bb5f1e0b8804);
  (false, 0xb1183489c47dfce669f7aa1424284bce3d03fd841e04d02d77799665768a14fc, 0xa268fcc4356350b820c510510eca128e33a8c337b47530079e5515c35f26550c);
  (false, 0x67090af71398fd4e9dc45b854e0e3d34afa6e6d69de80c7614788247b6793468, 0x9d7f30d7a207d673dd368e9569b025513e16fdbb6de75643c027836bfa4a2cf8);
  (true, 0x8df44184495786130afa5d3d88a0ab4febdb250af3f9f6ffd0c031e4429224fd, 0xf463228a285989c78867da75f736b7c00ae81d76810464661453a688882ae985);
  (false, 0xe94d203c01bc01675445ffa9408ad5b274a2415fef2739c1e2d249d057577d76, 0x8ae0d22b4325d6a1b6e7a44800e6f275eb239be0c159176b3ee826f1bfedc8f);
  (false, 0x4b57280767fc771ec54b5fec5c0faeee3ffd73b36fbb30e324e3155e20abd8, 0x10ce4404b26d28daf2573bf64bf7222eb676651ff9e68bff191d2357f1eac3b9);
  (true, 0xf25b15c633ca3983fe5feb6aefaa88b9a5f2dc6f1e854e336d7b0e6535d60b7, 0x949b423a8cb966b5a9feebf9948f16fb5eeba691f3eda1f323cbfb633f575e4e);
  (false, 0x5643e2bd4d02e7f50d9d2556db7cfbd66151a1f50db7448696fc73a13554ea7d, 0x17a4acd72f05514de56b9fb363980e4612ed55fcac3285a2dadc7630d5164a41);
  (false, 0x22f00fc95081077e6b2892905e190f3a3ef198b24b2a130d9fe17a0d0e9442b, 0xd77631f47822749b12622719e3c2582c5aeaea31dcdd67fc53e3f581d39ee8ac);
  (true, 0xc232dc2c77f29e9eb7cfb91b5b823d728b83382180652f481e67f40f5b083eec, 0xe5999cce847e4aeb768c14a1d7c48ca936e783c058b250bd482551e4c73f2600);
  (false, 0xcdec2eb715dcd7c8829d0069ccc648ee023bae48084074bc81a26cd1ebe58589, 0xd9649d50d064cda47e6db58ed916106e43b2928701a640e6f73d5979a5898589);
  (false, 0xb89bba3f01b5a6be5cd2efbf8f26e2919d541f1040026d86b809140776cc157f, 0x6ae1086ede1c4d2d104e9db0600868c9dd35f02a363cf1d23f37218c4315b8d0);
  (true, 0x6054e2a3052afb87af9f142f5108032269d408d139f012fc2352bd43b14131fd, 0x816ee2433c04540a9839e81745ff8a19e6a41f23d2a5e9574008b68f3739122d);
  (false, 0x4170f00f3dafa819ff7c9f7f49b816e44f6b49c891a4c9233ccb3f5604940b75, 0x2ef7609231cba2ef52bec25d76d997b419f91175c646fd04c31f1c2473e8675e);
  (false, 0x89dd5c0110d1418042665b17a74ad24bfcbc6037cbcf95a72f3e75fb41d8fa4, 0xaa46f94203e3ace66f7fc34725d9b3433f3f682dc4381e98542c29a9ac3a5628);
  (true, 0x997928f73ec63ad32212b1067221227c9d22a5f9604e44a426efcbdb019cde89, 0xd397baa8ce4bb1422d32c42fdcd3a3fbd36b322a870fefbdb791ba019ec580e1);
  (false, 0xaee377a0ae315633990b980e314d72a40ecb5c79a960db717b0345715deb8973, 0x5bc7583220f6da8404f0d7ea1c82611ebdde41a8d5fdda62c72f9ea8b5174f34);
  (false, 0x20e753ee00a8938a0f6aeb2d60ff77c7b54fff87f05baaed021abccbe7daf07d, 0x622bcdc91c6b79d75cf26bdff1406f6e04ec04464bb24925e3a8d92ac3b4130d);
  (true, 0x587ba64f2581859b0fea111ec59fadf97abc32616b59f38f04f345bdceae2a3d, 0x8f93032d611edc33c0efe599456f7281668b564d76fae848cf69fc12d1de88c0);
  (false, 0x508591f9a92dadbe107eb91656619d101713fad0f093f329a3d1f0964638640c, 0x8ba57f6e00e9aad5407d1b2cd41adef62fe25f799ba7f76c9de448513c44f40c);
  (false, 0x4c2d235f4466644563757835cbd6d0b21a2a6afd5ce66eb988e038bef27e0f9b, 0xabad2726fca1571724bfb7c59a44081171afab53beb93ab0f159cd4f2184f02b);
  (true, 0x9abbfdf7abddf17de02dc4fbc36903492ef8573c805274a33774c99dee795293, 0xf06cc04ca101b28079e232be6cb63d9bfa2dd90c19d85f1febb6022e61a7b658);
  (false, 0xe1cc16c360ca275489f2dc352adc47db8f3e41871ae7b525ffd7c0f2f448637c, 0xd6ee7e6ecad4dfaa7c22a901c72e04f6d2d2500a609cb3a0b1572ea10cf9a1bc);
  (false, 0xb47399914401e2edf3e7b70ef60add8393ebaacdca0c573292fcc4f9964fccad, 0xd6631ce016d8a14e99e69dfa87c993887fae37fba549b37f818a1e073c35cebd);
  (true, 0xc13aeca90eaa65ada35a6b38f38434838237d9be274b11af477c92d080a79df0, 0x2c72648c3fc84f7157b76e20b0da194bd86d4a63228971e3abc6a9afe27ccfc3);
  (false, 0x7b785adf20b0e0df27859ee93ec41defbca6a693f77bee88b0646ec7d126873, 0xdb18c28cb035efcfd09d4845ac6b9ee39d363448280f213aa7fe6534b69756fc);
  (false, 0xbb835f427f3a3a0f3d5a8a86f94bc0bf175a7ec83c508637fd79dbc51de3a9a2, 0x6fa5c75f09cbd312cd395c65625594706d162b9eb1af53237be3934b28b9f1b2);
  (true, 0x64a129285f078cfb62fa85675e6404f580fda737d8a0d70639a965528a8003ce, 0x113fe9096c6fe94e509d9037e13bc6abeb90ae8ef01dadef7848843ad6c8a8bc);
  (false, 0x1298ce7c855f0b586ea9288dc27ca94d96981f55abba8b4df734865646362cf, 0x4e3c4b06f082e7c7d7bce9a43d20330d9730423722ce79d0fe55b4f7c95aacdf);
  (false, 0x17e8cbeb93b65fa2c4d97df286742950fc1a417eb4770514c92292f84c254a1e, 0x38f8f1fc5a1a2b758e28a27d3f9f504638f8ddd87227c5b3c7ab44de7badb45f);
  (true, 0x33599df93e5b48b22ad3d2b024a455cd09887b5ebab2dbfeb85f2d19795fbcd3, 0x3f127464312263485ee30778f6531f01d6bfcdbd5473389bf6e4d4f93ec0a2a4);
  (false, 0xf8a169df2bae00f0e573433cc0c81d72bc85141e5bfacf4e93ed39e95ee7004, 0x7e5c4285604e03c16cac17de7c849dc890fd0254fb4421dbfcdcb66263426914);
  (false, 0x3e5ef2bb6a5201a5b52ccfb577e3c38ad7e3c880cf04a532a0a2f087d570f3ed, 0x4e12b7bb7c7a2d29a6ec93d158d42fcb685be517ad0f9612dc04257a6e25d7d);
  (true, 0x465e4f9474c516d81ca0184caf0bce595ac9bac6c14c5f475f01742ccdccb50, 0xef0b72c03ff3c2e1f42f882d2a8e888088c8c160e00b98e4687cc961d211aa63);
  (false, 0xdf3660c6e694ceefc3e99cf246c14b92f436eda7e72f19ea250073df57346a3a, 0xb2f3cdab27d09af035bef83fcd5b56762df30b86255ac710403c05a7d5c20c83);
  (false, 0x7d17f232989f2fe0994fc39efe96af86ee4d4f85ce2d6a7b341d6fe894c9e16b, 0x54aef0ff679e883cb329402756c7f3fa82a3e18271abda74bbab5cbb89f26c74);
  (true, 0x4c5389350ad94ea4b0f7aff036fd94bdb976c111adf53042b93884f652bd6180, 0x1dff1d491a814dc61c5fd6ce3408a2026a94707e225d4a0769835f3f9e3baf4c);
  (false, 0x383caddee8188f72a33be377ea7e325300aaa6876a4d7f96091d5d588a296d9, 0xdc4056b400e968cbcb1f48d06db4a1b84168f8cefad18c42afa23f899db39569);
  (false, 0xbd7ea531966db5319e9784a943b784c48fb17f159e4c0ca11992fb58167d88ef, 0x8ae2e6b298c1225086aa6bc95ac445a7f3609b52034e11ec4f5c56f72886ee00);
  (true, 0x7d2e22691f365a792dad26efcbaa0fbd21544f767de764c84c076b47d758043f, 0x3bce35d24874b7eb5ae55920216b6758219872e97fd3b358b0b9aa89021c763f);
  (false, 0xdf8b2e9a51bda4359f635f99fb2e30f42bd6245b12ee866b329a2c649424294, 0x8bd7a003da7c7daaec922dca623438497f7cdae6ae7cbd9149be533759a86615);
  (false, 0x4c63dd62a624dc1f8239f648e783513e2d8ea482c1e93c8785362092b1b1f64d, 0x917fcbf339f7b87d59d664559f3258109fdfbde49c17f29bde5621596ff6b406);
  (true, 0x8323f70d6840169be6a8c53c461aee9d38daa9f2df353033976e7b86c919c44c, 0xfb95589039a140ef22b0569261bb01e7ea775eef3efb7cf5a6821410b7bc726);
  (false, 0xf73e32cbfec6f6b54af3984e9ad1bbf8da2f179878713ac1752af9b1c0fe34, 0x58b75e8601c1b62e53de7c00caf54965c7facc13e38f06c4070bf73bef3117d8);
  (false, 0x1ebe94548670f3f6d02f110fde8b6a302493ea741d2e414f083ea8abd0f4393c, 0xb97ed376cd0f46135b796108767b57464e0acf7ad5c8d72dc0ef2a2b43dcbf7c);
  (true, 0xa7308bf8f1702dc6b53d654ed05f08c98fbc080a198199b9faeb714765c58db5, 0x5bd7e0e7fc0b769d15696b7bc4924d5ca2916de5061553a80f45162a879e96f9);
  (false, 0x20f32ff099637cd245ecbd5bff22956fa99d59197d009830c43b6173ccde6758, 0xc22394c5f519b9b8d430f05963a5dfdc2e669b54b4a33c8f5e4a5ca11f432589);
  (false, 0x9339f26e9f4b716bd9357c872997bc45e0d850944283bf79e95070fa183ed644, 0xe21d92572dcaea4e56400759bdc596cc9fa7f2cb1f357ccad1c573fff175b995);
  (true, 0xcbcd153fe6dcb8430a84c394fadd94c3b97b72b3940510eacf3f2277a90292b4, 0x7ffc3039fa727e1716bc5ac8b3e073128cca5efcaa0214495c32252a295cb12f);
  (false, 0x3ffc3048c1b4a5d81304babd93e97750158248427a7688190212ba4dff0a52e8, 0xa976f70c5b5bdd3ea792200a514e40a4bc72ebb29556eb5c64bf460ae1745989);
  (false, 0x702e49776e9aa527a393da30a23ea5b4b858f1ebbbc9fb512cf65cfdb291d46e, 0x78b9d00faf8b2364ad4731f7e9c1aac893725fc71d61211bd40001f5c80a5fbf);
  (true, 0x6ccfd86ad6fea535429bca9ef70d38eaafb3fa2112e020bf404d45c286ca34f9, 0x72295520c553bfbdbcc6893ef445069d8c9f1bafd4ae84b3884c51923171cd6a);
  (false, 0x32e8d67dc375695181d1cbf2b808dcdcf97d833fd68fa6d6edb135f9dd89e53d, 0xb135818639a8dd9bc0132dfc3e82248d6c9486b400f655abf7f95a1b6df0d521);
  (false, 0x7aab084af982f7243a0b951479a1bd797f03448627f630f38b1330be6e078701, 0x9676f1a45b011a6ccd586ade0ff094740acd012ee7e0bb0b892451c2d7577542);
  (true, 0x879dab01e4c99793aaff5e3c9aa99dd8cc5599fe3987073ddde117b531b148d7, 0xf753116bd02e02fa19cfbab39f3dfe2148f34c901c49b31952a0ecad020aff35);
  (false, 0xeef1669347c2ad34b0f35f35bd4134ae10cb24105f7bd1bf137238c3a809786e, 0x36e631995817ea8668768912c74dbf76a77778c8d320d206131d0adb6a981967);
  (false, 0xbc5ebe9e6165d678a94646e7f4c3d52ce81105498e8f6590684ebef035c99e3, 0x8264c1b715272149f6c5e3e2c2cf4251e589e75a4d75bdcb8074bd907c31e154);
  (true, 0x75868c1cded8e3dfa310da51944ccb0c9b449cb9a1491b52db755cd36194bc7d, 0x773bd8f842a513c2408a802e35a971e1230895d57a3c47403d7b924d242f2b69);
  (false, 0x3788b1b4bfd0c361fe5a3298b1950ce1e87ec307cfba5eb9faf1ad10636b5b72, 0xb41e3a9332c0f500bfd57db3d9b415498303d9cf2b97a5c252d8db20e355cc83);
  (false, 0x7eba85f14600cb5603e51b20e0de03a6da123242317ffeff1f0311addd9d08c0, 0x1114bc9133a8d7e36e643a51d294fe53b61d24403268b486934f99dfa1fc13c9);
  (true, 0xf65358ff183b774900becf3191be0dde14df056abb056b7ff2dec4c64798002, 0xd2b0298c3545bc659f76669e3078cf7e9f518052e0c01caf8d3b042378d46a89);
  (false, 0xad657d63dc535c3799fbf137e284bef2f970d7226bf23f200563048270409cf3, 0x208570d838805555b8621d2a012298a78aa9ee1a9eaeae62f0fa42197f7e5a44);
  (false, 0x421a1c484aa5482496637a28495072193b64b3431180fb141adeb0548add374, 0x539f3d5fc4d857751594017cd69c28d086a5fa292ee4b0105b353839bb71b584);
  (true, 0x4b5ea5bdda523b494038d7d50ebcfc2b57b6730b96eb7acfeb8096014eb2d751, 0x59a1188927e8c98249dafe115fca29ba36f307e98d2da89d4a2f2100f2f9690d);
  (false, 0x1f61686f5bff7850ad02165ca0c34c851dc00c63ce9c483bb0544dda8e08c9db, 0x9c730572c2cf660a5319f247faff3f4ffcc05d6d1e0cd922facc2574a86e7484);
  (false, 0x5f9c62522241dc1234260976525b4d982ecf320b8d6952b3b7bb717a310dce46, 0x14399ac54a76c53805629ffe0fd2e40d84f4652f90727383ab459afc785b256);
  (true, 0x123aa5ea2529372d01d1f955ada97dcb2eb60cf56a80cc09ceb54c56b4da936, 0x12a82aa9c6f3b6970f0478461509c836142bc3cfc9961da8885f597f805f3ec0);
  (false, 0x15c1477e7479fe50a9a6d09f5de24981a728f96039165588153f97f8949f685, 0x2d0048d721ac3d1652a778f98cc8c7c8525a60c1221ba177ec551e2f2b2b8685);
  (false, 0x7e9199bbe795ed005b82b5af1f8d8b3c7951482c6fef9cfaaa2c073fa289e7c, 0x81f629e3f26786d69ee6935afe02b3c0da262595633155314bbef7e11f861f95);
  (true, 0x7522de43f0f243ba1e3e2c0ef951a99ab8035be9c14e7df01613ebfe6588775e, 0x1a0084f199d8858b585fff4fe70140ec376001bbbed19a65fc8e1ac786b70fd9);
  (false, 0x2a41b015aee20cbf6152fe86a8e61cfda0844275083f7d0f3a2d8e96516373f, 0x2c6417299e1077cf03ea8123ddefcde9f285db7b61b88a33a715b7c63a4f5d30);
  (false, 0x7b28f1870a43650246b3ac70b30b7ba22843dd03bb1c72043b506250eee5899, 0x3a3dbeaf2263f8eeaf686d5c71cef4e64823cf80a74ec5b5e4dbdb39747a4199);
  (true, 0x347e5d11c59afce6d9b347b38162afaff65014fbcb1511a59903da1fbdd979ef, 0x9a347089029ab087af05164ee326de7a62a66431f460e89e9cb759b99151dfa6);
  (false, 0x5ce322231d2678f8da03025678dffb0d81b24c8afd47e3681efeefa045535fb6, 0xa57a4b6ac2b9cbcd908719acf65d807f24cc5b3c8010ed7e76a773159bc1ff5a);
  (false, 0x6af6dfa401f3b40f869e14ef8c6da3ad813873c8a67f71a9e2d7dfc11f7c74a7, 0x7099d13af3aaf13057a38299de26e944a5053c355d07ec873a471ebf1fe4e04b);
  (true, 0x657d1dba9a4dfa1165e908394190157b4ed6f12637e3c288738629eb87eadbc1, 0x20b8d280c13d0e365e80a66e13b2ec49f499217f2fb637c4a90f6c20fc5ec966);
  (false, 0x42eba0f7aab432b7681130e11e2e4b15ef37c66bfd96fc1250595d6401d3b1e, 0xee4741b988b68df9d6326e3a39a28162ec0521db234e3a257564beef95768fc2);
  (false, 0xddc8920b5dc5952d5fcc22f43be8de82e92df5b091efc58e740c7c9311a5faad, 0xc3fe745b34d905699dbc991c7b4ece0175c73a5ddc4e1be7fa41b0fbd3849b1);
  (true, 0xb0a6f1bb8500abb3b6e26e9280d8f01d2913b56cb27a1aed959f64b06f6d87e, 0xaa57517854596215c10318fcb4ca1410db8b66e34c6a3d25b09606f778d9919d);
  (false, 0x715815fcbb157ef19887365c016738e89f936bf20be11190d6332943191789f6, 0xd6b2803437037ae1134ca49d9cb421eeb00b11ace88b4b05f9e633a47814c43f);
  (false, 0xb40eeace88d97ebee22b0b5214c9cb58cc15aa924f8f6f5bbad1ed89cfb75fec, 0x6e2a3d385d36dd09e268022a14a03bad5f3269cd3f5120674325f1ec1fffe76d);
  (true, 0x634b138a032109727f93987d1483fdb9452f654737a4df7ec6971a45dcab8c88, 0xec0d4a4b95fce61340ce74afef761c8155cccd9dd6ade4d716e7c336168fc4ab);
  (false, 0xd9a881acd76fce964a4ad76d30c7b91b0958efebfcf329825f4c1e5cd13f1f72, 0x694a59d59bf5a2e3416e1b209ab2fa69b7d4a7bed836f7cb3c269f0b835f69ab);
  (false, 0x2b4e13497441f597910878d05a778e14035b521adc889bc4635191cdf973ff45, 0xf9cc4dd62caf90a67615691ac06a1c3c8574496077b53286fcf5da3493fbb77e);
  (true, 0xe12582630cc45d1bb3083d4e9f862dc5922dff93226ad11de32e3019bd966e3f, 0xba957009d1b3375d95f1f2e069b15553a0982f1652bf40908524eb25a7102721);
  (false, 0x87fd7e0a692c9cf98cd525277daec86bb512ae68ac30f599a868fe5b360c61ad, 0x1853e2ef21daf8cba3984cd6ccd2cd4260eb871f5357662e5338f7f72e2773ee);
  (false, 0x24fd609c8e3efd423eb0579ff8d39b03a76313d5de70190fe65d0b77fe94da5, 0xf28cc5ef482a031d4906455059de3d31663024d387b034244aefdb98eecfee9);
  (true, 0xda9d17d907ab7e51049f2765e62414071d1cbcdf2b88b598def3e761b635f4a, 0x5b59844a42812bc4b7e572254d22a96a9b1fc7faa7095dc4f9d6b04c67dfc8b1);
  (false, 0x2098c35a2bdf80680de2c0db45b54d249a21a6511cc93d0490b61e7df867eefe, 0xebc008a717742701fdd756e5a828b75df33cf411a8ef4a39f59a7eb3a81af95f);
  (false, 0xd91a1ff099176c4ec92481168b0224c4d42536c0e81eb0a0c1dba22711e5f30f, 0xaa9c5cf66107abf5f4c256f27073bde3bb7e20eb3a4de241afbd4b255c1be450);
  (true, 0x99c61f6d17e1920fffb5a0db4c26b178963d4a299170ccfbcc9cfde09d5be0c1, 0xb22203ab7b8717e1d598d759d4a24cf45a7f47ad744947164ae64de23d0b6d71);
  (false, 0x7bf3519fed55767b430bb7df9a2abe40872733456601468a45f0e9e1031932c3, 0xe5a79956dd4cf8c487c6817b4c33b51e8d5e99e4e2a0f06cf78e920f73989ea4);
  (false, 0xce05460fa11ea78a6ecbb51ccbde125ae2b4e7d75d4fddf7418bb9ba98809cf7, 0xc3878789b4b8564dc1dc3c1a8016c03ec51580e81a1398908c83da76b58f7607);
  (true, 0xb03bc1634ac4f55aad68a1cb77a38635685efe04cad45dbb2b3c469da1fa5bbd, 0x749bb236937f5cf9311a3effa2aa576d735fbd19d39587d80afecad8245e5066);
  (false, 0x351d7832f4ef716ed6147da89c336207d8dcd2b942ed9ff01ceeb507b980be34, 0x1c2f460ada29ffb14f8631c417c356e5801f5b4bde163961da8a02838da8a6d8);
  (false, 0x31a600d2df99b2c946848fe0cf3ffd89451c875aba85837c5ead779837f797a, 0xcf13a129f00f24dcf82dc90ff8ce6117c5224f5c30013fb472642f6edbbc4fba);
  (true, 0xbaa4215373aab6a0fb31945e3f4f55d66301c6f1efd347792414cad8e4f7e03f, 0x3d962b48a2c232d171ebbf23cf7ab267016a8fbf78ca950aa4f1bce37dd25a5);
  (false, 0xed0e8b76cd1abcbed85ea26fa12ea13720a32d442e3e44b34a1b7fff2b072, 0x2482302a9c402b845e832fde2ae9df4a67ba63d95b239b674514ca7aea5dcccb);
  (false, 0x534dfc0f57d9eda120bd1cb8807746352d7aa44923f79da54d412b2aa57a667, 0x3788d6698dc1ff534185726b1e7bb4be0fb0f8ce96eb7b2201b33cf035a9cf60);
  (true, 0x320dd61eea7c10f307b806f5360e30b927b941732285fbf8377410ec60da77fd, 0x277c423b0020102a67e19ff35f09ab89eef8d13cfbe0addb8364d8f3e12d469d);
  (false, 0x617187e3a6b7624602d14158493252c94c392666fd00322cf0d071ebec68551, 0x52093ca7c5db1005a4aff4c8ebf3ecd4524085bf244fbbb650e2a34e9f72c19a);
  (false, 0x1a49eb30e7353d8df70e0e396f9080c835b7ca17c781a99a091f7af59847a411, 0x4f18715d2c10c8e3fd10fa68380fc11a5a993c8bd5366361cccf50bbe3d934b5);
  (true, 0x474a3518b0dfce84d4f99592d4bba9cf94ea4962a03151d86731616f0994035a, 0xbdffa925027dcbdb2ffd1d7427cef1a24ebcdc82f8bcafe5a48c68659a6210b5);
  (false, 0x8d037f139a2e1754a03a77b7696b4affb47a54d13e9736924802419cdb34fe0e, 0x656223d9fd87783cbe11e11ea493a0acfb78089b4639c6d15208a2196ae01e07);
  (false, 0x282695e9a21eeb744c137528695ddce3688783cb2acd4e115b736f751d897117, 0x1e6c400f24d96e09d89e4caa911ecbd415b88e5d5f0198876a4885e5794f1548);
  (true, 0x1b6ba8eee6d3c400d7d819db807e9cf79790df71e9b8a58d8278bad6f82f9160, 0x1b21f8a484460cb5e55abec0d121d2ea22074884074ac83f25cd77dfbf2e1e98);
  (false, 0x2e02ef4c2b039b3dbcf5615296cb6ea57f0179ec1a4385f320b0ba8904a8b67, 0xa6c0a46e261badd2893b4c81969efa0b228d49b5cbc2132fa30b826e629285a7);
  (false, 0x6c9e663654e0c55fea347aaef134603dd9ce427c9df85fe8a13c0a1676c41860, 0x87b9a799999d46a5111477ce64665d15a77a1c13042f97ba733303cb0b070b51);
  (true, 0x7a54bfc7d180c02dcd94aa0396ffb8701ae906b36e84c05b01586273ccf1fd01, 0x63b2279818cf0b65e13291c36de84f60b4cd9cc015fd292e2ed9586406c22680);
  (false, 0x26d3469adfa59b43ec6aa8e8457fcaa902a45b4877527c7171c0269d1e7c9b7e, 0xdab7145c35a53018d2c3ad35e429f0d7eb1d584318f379277913e7a97e46db7e);
  (false, 0xbadc519be3ace3489cbf6bb584b91c5caffc700c9932e869307121e3ada0ad99, 0x360e91f1c2b068d85aec5c9b641b527162aaeba1cda5f0eab91a25ec7ab97f9d);
  (true, 0x30b8e60b83a94b1e76d1d0fc7f6c4b95544b14749612ca992ab28b3d395f6f73, 0x6418439b0935f58bb48ed8a1e490f04fac00bf67a897be0ad4bae7b131f14666);
  (false, 0x2722f71e05415dc7739329035bac760deceffbc7672877a06688a29eb33ced1b, 0x1231723777b2deeaa88050613319eee924c6b7f458bad193292e50035ea4ddbf);
  (false, 0x14afd9cba516a0f03e987fe51cbdf3dc3cc066e71a11a4b21c3e98e59717fdf, 0xa0a34ed35760f7ecbdfb87113dfc28a2cb886f16cd1e8f1e65d9f90d7a3cd460);
  (true, 0x90c9049e47aac7a787d9cab13f02db9f3f72893bec314e077745336099150b79, 0x9600d579ba0f23c5155c2ce7d26875340813b0a3e946981f4a3ebf67e8a7e519);
  (false, 0x57e4fa2baff28194e82552c20fc35f6c11b3b3b839a2dd5de81ea398c42174ba, 0xd39f36e5bbb30a509b8fd3f87484c2b66734d2815f80288e6a10910c7c5312b);
  (true, 0xbebce2bba4c3faf2d8c84dce4fa4a3ea98c4f7e1a65d17e7ed1a227e945eba2, 0x9d9af041427d40fcbfa79525c3bae090d4bd1d950cb98904ba334fdf663bde67);
  (false, 0x610768765c93762bdd6feac3a944a0f834c3bb363e76106099089ec7cda171d1, 0xeff2f626d747d97364750543051a270f9c4a176d29baa0ad1a776b7426523f42);
  (false, 0xe0e78e33b4fd65b21c1a5b4c5fa6e9c052f0b7daf5f3d8f5f587b2ce04729ad6, 0x4b1a89b4674ad9c39cc1430864290d342190c36b4af67a35ae0ab7d2325c27da);
  (true, 0x43b1266b668e4eb139dc4f25c6b64b9790565d24320b72cdd4a8fa94b310e4d7, 0xa6b150dc882d5f65618d3a3a7b9c6002d969d0d6c5630c8691f25445f9204c1d);
  (false, 0x6c8a6faf57a4293b01d956f85b5a4a558be6e837c95eb700a0ec4ef539b2fda9, 0x5df3d01484720b63812c76f3d2835eb99e01e0a0d2feb342d18c36bac19438f2);
  (false, 0x227b0d63bacab309cbea767e3d8a41e7df4d50e9407660c3b505b7d815814337, 0xf88c4550bdb97cb76b4368be9398a3fe1d29acea38c93a8d877f632eddfc07fb);
  (true, 0xe0050f0dd221b4bba31c0634d2ab45e832e27d01824ddda7232255e25220f019, 0xc641f289a9f30eed05347cfd9b32424717e988b5faefa9b41909b2aa3410050e);
  (false, 0x998a142a9c1eec051a2f95db591e6f6d8272d60b11c0c28d8c534f59827223a1, 0x5f2dea20ebeadd838f3a9775722740ba68fa155881ec45ea1a3400ffd44bb065);
  (false, 0x23631c00b82e907f4a6e386524ef4fded3fb9e41868bda06e507e4fcc6aae6a9, 0x32fcd0b1df2abcce346216e78e0fca9a9f7c9940d14762e7b0e6c0bae363ee82);
  (true, 0x2df4afc7f409f4e306f4f4ecc2b150368ab0275984bbf208c07bf36473940f9e, 0x637e95440e521899f9a65e6afeb11190d153f58c81bfb925cc72d6cc13c390bc);
  (false, 0x26ab260a0fc508a464cfb2d2edf465b7008a1cdab2ab85444b9e4be80323c5ce, 0x5f959f5eda1e8c354383f921dd3c0c64a79957c3c266302f4a3de469bb5fcfde);
  (false, 0x23b063bb7133ed70e6113fa7fd215528b7c7c8dddd1c3b20a5269561235cb03f, 0xe39d97cd8c1ce4ff93822a0db20b8176152e8c537ba8ffe7f4f3a70766e974c3);
  (true, 0xcd2734f4c1fcb780b76f5c91f6e6d5720699cc50e0ad25bf5bbd4fe3f83a4194, 0x78dc0651bc0defdfa29ca79efde484fecc4bbd45ae7b88f69f4f3f3e5f2f2441);
  (false, 0x390f0307b5ff3ac69ff7525b04902aa2fb260c53e8ea898a0acd8a24a467001d, 0xaa8657dab7196d342fa0adcf07a6780669bd77eeb2da56a29afd1d373767589e);
  (false, 0x7196b32f03e28a25d6abebeb3057b851d76fb43adf00e9816c6d47f17dd29d67, 0x60aee8d65f482baed6ab9a2a894e9061085a685f4390a0d2f132b9a1cfa39eeb);
  (true, 0x5724581e0fcecfdf52938ecf928c25c00332fd99dee908c1431687e22e5fda2d, 0xb42e2c2ce29c7f9d2e62cedf2cc2d7e5dd33fad36ae46796cb73d0692695cb32);
  (false, 0x7ed0f673853defea66672eda46777ae134cf85c63bf20e9c698ea8f283a907d3, 0x7ab2111f84434090a7714ca761784204b53b9aa80163adee5b5d67ef85255d97);
  (false, 0x3ace342e15d76eafbefc56a56d1aff69bcbc167d6c4d4e60451633edcecd9f3b, 0x4006dfd4fd3f8e33cb6dde558091caccd03ac45d05f1541191204e92e4aaae4c);
  (true, 0x39b553936c9537faab8a7af2c648362325550e03be4feae3225e226f0e160276, 0x78ac2d131b8fcf40b9655b48d33ec7e6e3f67bfb914c85953fd2e0ae03dc95ea);
  (false, 0x38e1de0ebc5572b75968e5b98d518e872ff73711f23be9f3ab7f91bd171a8fb5, 0x4f1c4665028c45054c4533fcf9ecc70fbdbb7be3c44d751211abc56a9514c999);
  (false, 0x18727691e978fd19e7b5c5952c75512769090f7eb2db2354eb3efec96a62642d, 0xc1aaa309e706152dd107c266dccc01aa40fc2c96b484793659f29fd9a30c019e);
  (true, 0xae8dece7adaeeb209de033c40c6483863a1af0d9d4df0ef0505a706a70c0ca68, 0xc2308191e663cab0a672e0a3495d036dd28b957853a19d80098f14bb06c6d32a);
  (false, 0x934d8d928cc78f8916a7a47a670602ffa049114680da363f6b9540d7b34db2f5, 0x8096ba6f3515eedba6ea34bc2ad95cac594d2d784e9c32ea40263c84fe73f5d9);
  (false, 0x4097132e77c50130ba9e25034ff363bd97f9962bb9ea87727e1c7aebe0a3b4e0, 0x6139ae2021ebcc0cd56e04b761024022e1c7285e936cddddba460b1549b2c6d1);
  (true, 0x57a16b8faaa18f29c084c5da4dd77b7e0932381010586c655f05435b29c066fa, 0xc69027306dc5279c8d234d513be8fb84ab2fdddaf2e28cd02d1d90ba27d7acf9);
  (false, 0x9a034dcba04b8f792bcbae452b9e0398e0513251f45da8c126f32fb8bc82c83e, 0x6298b7ab21d2bd07ea3b9b308bb60b39b3813a5c51abe33e6f9015f499a0526f);
  (false, 0x25f947b9cadce775abe145003016b8d0b7cc61c44f4f91824758003df6b54d90, 0x530cc23ab7b841f9f3da234663a29dbbfedfff643bba4008c98c60c5ca0099b1);
  (true, 0x4ada9f3ba6fb9517bf968f688d2edf5449d82cc9a4aef4ab5b8cdace506347c5, 0xa30554ae69b36ffc5da7a895d72925578db5168eda8f0f1570bc9b31262eb0e4);
  (false, 0x67cfc9f2ed3d57c1e19b3f32817d883da4c65ee69341f50c2415a99e4a481eeb, 0x480e615a0a0698049daa5a86e39ebb95e7d0a5a28e0b2f7ba0bb5dee067269fb);
  (false, 0x1448179184ca4110b5ee21d2c31e1d579bc6ab97597d1b427a846ff1e161baf9, 0xbf126cb2dec258c9d9d199d04ed4b55958c08356022e5a142d1d6cc034cd9712);
  (true, 0xac3742f2cb2d07c75b220858b19c32a2eda3ea29816e020c1fc702da7919a23a, 0x5f71558766d5347e7683aed73ed5b2fde3acf22d28d5f1e1f89ddbedba2b1fc8);
  (false, 0x23954fa7400386bc83108292fa582b27f06a7488c881dc2bb0174e050b98677c, 0xbf3c7702551e469fa819bc4afdab8149b79b0ae8b430c97c2f0307c75cba73bc);
  (false, 0x8edb47de0a498698698a1903bcea3f4f962228bf8bea2f8b5479e90b5b866fdf, 0xde2d5a1b7efd75a56be583561bea79756631dbef53bcaadc90acaa4edd08e1ef);
  (true, 0xc8405c429788eaf9ce4778a763ee523c4163ccede137fe5f28c74b709a9bc0dd, 0x2f0766298db4003abc3acc374afa90e64712ad0e9854cf48f9299af8c5082e1e);
  (false, 0x8a3b7ba09b6b351b7ad856b5207eb95b029759a97dab22589e2c26b87b108c3, 0xb387bc7b086deacf11de94450d35366363ac790e7b826c26da79cbc89ddfd447);
  (false, 0x7de7198ce038a35a267a78ff0a08688b78aa6662cc005734c1f114c780d84260, 0x98502bbba86ad4526245ee7f4ee66493166354de4a697f0062cfabca1a8fee11);
  (true, 0x894831b08feea910cd30060e7ae4362b3cf86f4d0408e71f2080efe23fa51b95, 0x4b7616d4df872e8197127dbd5f52d9f9b552450f814479e98f96aab55138de54);
  (false, 0x163e67d9df7ef526ce4cbf070dcb647669666c669376926b95639169ac4da7bc, 0x40f3717d3586b2de6c5b825cd54bab36a9c6610202d4b6a5734a8d84da23734c);
  (false, 0x107aa03f51415de443da4a5b4aa05664c5d828d8d08c2d1c2680f9a1e4f72f27, 0x4f905da34dcac493c92f2fb2c5b471d2230f9bad0b147065d1e1fd480fac8db7);
  (true, 0x47b64bafd3518fd8bda1c7b8bc9dc35e01491b8660733852ab08f9c5b500ea93, 0xbed9b2aeab131cce8735d32cbe877b9299969ceb443e102b0cb9774cce7d168c);
  (false, 0x8e47de5c3d0da098a9f7c7a2b2f35c3b52ec1ca6527cb3d608ceb3412ffb4547, 0xec78e9e3354077ce7cd0bb79b38124ea80e2ec22771a70c94aefcbc986afa1d7);
  (false, 0xda6f2857df4f5242e21420801641aa8ae6240f0e1d5ccf0550136e00f5f8fec9, 0x5a85b1411fa8a3519e6dc6bdc5a29b659dc6f441b2d152631cd8e18ab43b215a);
  (true, 0x5196c6b1afa127c06965b252da3762d72af2771aab1a47dceaaf1d3d5a0f2791, 0xbc7fc13fd8c0c5e8b7729bace89a099b87d494577bb06e93816dabf31a6ecd57);
  (false, 0x8acbe397a0616a4850bc0b5460538e51785debab5db6bc4ddf3834a20564ee7e, 0x6c8d4ab9b2a903d1ddaf4a6afb392b2b90a01229c4342bafa0b4f376ccdd620f);
  (false, 0x2e0785084324d06cc883b7a864fc54a8ec9be5d3d3a5da06f17ff304141e23c2, 0x3eb891b1f081c7e0ac29dc1f55890761c3f8f470de0a867b5ec866926f93a0a3);
  (true, 0x3888033002e2f19e6a24af503269f9a6ed1f4eddf7ac7bb6f8a1d8c32804036d, 0xb7b41a0eb7cc6bffd9fa13357ddf76de7b6cd8d7dd4d2e2dae2898ad82f4003a);
  (false, 0x83d2fbf635f2b4037fcf75158143049e846decc0f625d3055333c9db8b735224, 0x9908b9cfebb7ed773c1c79a38d149ca5503e2940e631dd143e5db10ae2035f48);
  (false, 0x5b7b6e67071a2f4ceaa019e59f56ac63e158f585f276766d6b6d5135d20ba906, 0x71439f3cd6bb58e26902f9385c73b448322c8cf850e18f469f4c471c51322d46);
  (true, 0x661629dc3d6c2c9c20f704d1c9d70dc95964f0c508c8e0f3c6d1f928c5427aed, 0x4932c4bb4fc88f64764010669f53007139db33c36961001866496b60b57b4887);
  (false, 0x14edfe4458c8e59c55fa5930251fd1e58bfbdd25bf11144830c6a3f86f1fa185, 0xe27f3f0b13c97a59c729d615d8087a04f557e4f7f54c67f0cd8373261b65d8b6);
  (false, 0xc864ea8ff3d8bcb4f33d861e5e7be6415c9628fc6760224cea4c9d1e0f2c7ea3, 0xd056928ff648f726d252d94ac4f273844ed79a3bd7755525d66f1b612a3c2007);
  (true, 0xbbc73407000a00649085725214cf903300cb16677941f47f60d17783cd579546, 0x2c040f93e4ae6230ce6c1f87b768207beb5b99bd7d623763c8d740b0bdf6ffef);
  (false, 0x791656b5bbf26dc08b6f1969bd208fe77967a25399a21b0db1e82382bda302e, 0xf6f7eb4ceefee1fff9c88cddea50872058f58a4d83a2a4536f1e8f0ff10c314f);
  (false, 0xee416850b04ec8668b6fde5fe34995ed7c0c0fdce0657788da9a950a7b34a371, 0x7a4bed8ce8afcefb2b65d38fc0c493ff9ec484baba2e8aaaac9a93b7e21bf9d2);
  (true, 0x6e3a4708f22343d77ca5f17adadc69d6990cddd52203c345f88504d594392b35, 0xdc446c702bfc336a4cd76f5b0dfffd57c7b43af8e39d385c666a51c76840c203);
  (false, 0xbd85acab52a55947e94826083af3a9f76719cbd47e0d493fd83a2ebec75c47a0, 0xba5b11c2128fc3a039fdf7d1b91c1723adfa67c5c57dc6ef209e636ccbe4d3a9);
  (false, 0x87a876342bd5ea44c7940985d64ffc8171066c15637e50ad03458e658c6e562a, 0x95bb0e26a0d644be5d00b3210cc5245b1ceb0ca2f117298a2f0d8f3546765bbb);
  (true, 0x86f45241c668f242aec12cbcd0c74d2275e6a8548e5b59a2829d0f0c83ffda1f, 0x5bafa00c9e933c5b1acccebd5c7912633bad5119460ee4d5a4054f583b4fe754);
  (false, 0x20d654454ee39551c3231d431472894640ada014d73ba8c93293bc3a43508860, 0x99d28d89647fa170ce99a82c030ff1d4403b9d9a59787f18014e8b8b92313bf0);
  (false, 0x5c6d5a5b1a376d29c1b5b5ff4436f5f2bfbc3010619965c103010c9797ffabf1, 0x436cb0a13ff4e2e8f70957e1d754cef71acca51d218f1812f54af50d57e82cf1);
  (true, 0x3cc54db6682f55ebe382eb1012ee3607aea6670c24d5491a87720136fdea99a7, 0xea4d89b44dc20d7ae1a4c6725de22c0a95d5b9a63d658cc3d601f083ca3d386);
  (false, 0xd671d73a9521d8d1a20bc30388262917fd7cae022201f007d24898fa4b987a, 0x658d17c9f06412a0a1c219b733884dbc5c73ce9dc785cc200e2728f6d5b5c29e);
  (false, 0x2848a288b6a04ff52d26ece1fa8f86bff60f30ded2510f84d646dbe1ee52aa65, 0xa8ea85872214b5e668d93704459863c15c6e187b4b3c9677a2f63a71a1b283e9);
  (true, 0x983f18626d4fc70bcbf4df098926a1fa7acade018ac88c49066037b1cae1be1e, 0x79d471d8ee961a15fb117f856322a24a25b7f64f7597610b18fe630be0f3b285);
  (false, 0x39fa83ec0d70cba3cde3847fa06fd4bebc5fe9d119e9dd99066a28c1a61b4711, 0xde29d8d95d8c95e85295d8e68044a49b96e8c059331c449fcd05be94cb16802a);
  (false, 0xc0cc9af0ec5bec6416b34afa6495a7bf19a1f3ca38c067ff30e6e6706658ac48, 0xfcd821fc3b10a0b2783e5cfc40a5b178558c4c684ed18404fea203d49bab32c);
  (true, 0xe3e461442fd7df4b6de226be0ee9349b9bd4f2d37c05dc20f7d1ff8d28127d9, 0x369c031003caefa8b674ca1d0984f6670ac91745ff28f1e830babc1280b84c6d);
  (false, 0xba6305e88cdcde4fac98cfb9b9c83da661c0f0dce5d35f54fa8d4c53ed19daa, 0xa535ea2c6e1649b9adb219be355622a5c396e29fe9b04c6248f07d3432528413);
  (false, 0x6a9e8b387d221c72b91504d1b428ee0ec5436aff341d658844eaee3d17350ebe, 0x73d70a47685b3baff45146284fca39877ca25feb453e94dfa8ef7a256384a827);
  (true, 0x686881a2a069a6f873cc35ad93ffbd56f98a0af39e76b56d0d63379383eba84d, 0xa51b22763af081257c7798e307ca5a48c956345cba4533ea0e07ac3e032b84d6);
  (false, 0x6a7bfd4d1c0a10c4877f5fdc3a1769f8c863922719f93ed8cd919ecdeb0e9830, 0x37ae29126a3e217efa82354895563f3dc9d0c3f67771ac417ce392f8d3dffb14);
  (false, 0xc1c4c21d1625256e1156705034109e65123dc99c30251cf9b64b579875cb511, 0x7b34007417978f0dba18316b47c5454e27dfb0e09ab42ff0ec90f813e274eea1);
  (true, 0x6f0b72ebb28a1ac879922667e0c4b66af796521c638fa6ab0632632e4b9778cf, 0x72eb4bab8771d9c99569b76239ccda640fa5319808763caf54945620db515ffe);
  (false, 0x339667a8fb806cf11872d3e06c44476752df7e5d85690edeecd06342fe78918f, 0xaba58a87f14673edf1629f6695ce7b8f285241a624b670cad73b5edd75331193);
  (false, 0x7316921ded9e8e1f1c6b6cf23a25e1da02b3d14eb39927d02ec9a3801f6791a6, 0xe2472d9fef8f19995c9144ba543081a68020f50184acb2804347a78e7f2e6c0f);
  (true, 0xcbf29567076cc640856cf7a4b31f97ed28adebdd97e79933ee5c6085c7206bdf, 0x94f7beac0a2ac35dc6dbaa4a6ac22e099216d272e15ccf3e9ce76562e007e900);
  (false, 0x56af6438c0704756fa81b3802c75a73f36dc24c0f88a4d343698b4e4d865d577, 0x97204a3c73acd6de34df573ef3b136ae2eda977560ce46693c8ef0e36a76d577);
  (false, 0x59371ba64e50ed7c28886f0ee700bc8b83a4f3b286554d6e3408956b21513797, 0x7bad0e5c8b92d91161e7ff90f1ad6a8d5a9afdbb5cee7e959750e665290474e8);
  (true, 0x6f788e8ff54ecc99af81927ca1bf09dd6e45ca8d7a257f9fd1a106ac9df50840, 0xa9590beb2f09c3fc858057f5aef7e1d6227cc531ea69f4f7755c7076a614c7d8);
  (false, 0x7006b0b63e36585db7720a733b146c80d261819a2cfe1fd2fe266fcce8cf77a3, 0x7d55e8eedd7d384b8a2550989b41c66b7fdc06c38fb9e88dc72a9fc8de90fde3);
  (false, 0x3d5d024e043a30c2786e633bf34a7566dfcf0d00bcb52e6576b5c3c23a613651, 0xd6fd4f9eaf77a5d9f09e379a4ef60e93b4da4de35c57ded24e9e3ae6898bad9a);
  (true, 0xc1c5e7ce118de77d37afe5e859cc872f73e0e2c593d5ba9a899110db19061028, 0xa8f6d13370588055eb2a248ea5afd50e35561423f64ca6658f108ead29afddae);
  (false, 0x6f84e08aacc9fad81d295a6117a4a56e4f57f3712a386c2d0b9f0ee810413e18, 0x92aa25d3ef68890b6e98fed04ddee93b4bb3e88dc3873e7d9dc781e6a01b205c);
  (false, 0x5406843c542aaa0bcb4d1d0b01a127f1d49b92fdf0472b99122780e0942a4614, 0x1fd712ade37b4d4c5cfe27511e185cfc63c6c3bfce51c26da4ac49836ba96724);
  (true, 0x1cb2ad59a0c653736fe91f936dd4f44bd580943002e75868f7655472394fed33, 0x990b082f15919ccdad37d669681128de323c179cd077ac294b914242922dff4f);
  (false, 0x5b7e30425795123555e627ef41208e0b6ba683fc1bfe8763ca475824b7bcbc2e, 0x5bcb926f8dfb33a0ee19bd9f571db887ec2ee4b99b756714b69a385a9421368f);
  (false, 0x20ea5bfd00898da41f981dca8692cf693e4f9e78c4331378531aa4dda381202e, 0xe010a5d25cc89237f9d2f63813d3de7c753f05c85001de345015fcce17ffc40f);
  (true, 0xc9f3f630d15b09b9e26f0c771a55cb27044e90b21b2794e38afbfb4dbd464517, 0x4324a7f72e4b5decfe09b0589f6866c4f4eb27e8676526e5e3a720f5d8fbea38);
  (false, 0x119c352b1f911a9837ef0929461fb5bc749f9ad5e6d4e47602803ceac0d162de, 0x79c74f3c451f1a8370b96b2989f525af08678088c70cc908ec369f3e60ebcf1e);
  (false, 0x39ee04137b7f22586614fb1859fa272c89ba3603c78dda3272baf3623704621b, 0xa65cc2a29f883a6ce5bb17a018696ca2f27a3f3fc46a1d0525943e769fa9e99f);
  (true, 0x95f1d9d8abe535123d35a9f8be891754dc6a9fa71e50709c6e828277af954dda, 0xc8791a684f9b8c35a088aa1b7211406a1967ef0cdb447e2ac0151e774e99026b);
  (false, 0x9cfd728d92b51957aadd210028bc0b619de98fdfbc7c0f358594c92a21edd83d, 0x9042bc9b295061e207d7e2bb8509cdee15d8670c7902c5127215b59139d9b0f6);
  (false, 0x514b2594aabb23de3894447fb9d9dae641fd98c1d90bd36ab7e0ec99ce3e779a, 0x76826f239918f1ade294c89cc3fedf25cdf8bfe8f7fb5f854225e930d59da3fe);
  (true, 0x6ad0758352dc4d844cbb1d4f5e22d6dda82a36e35979f23fcdc5059dfa53df2d, 0x74970d5aadafe25683a38161a9c94d6c845eab153ef87c23546dda84b9c9538f);
  (false, 0x35193d3b242bdd98caed37741c40cb7b1bb14c988b278a179b7bafb4a4943d21, 0x336d05d92f0071aa599f0be03603e3c70581e44973af90b39c040045a4684702);
  (false, 0xa549ec28e230683ea669bf5b4304090a9e11ff6e6055a12a1c2ff8193690e74, 0x13ac8c76b3974f8514688469bb6a9dd93a5831c1e303339d539f0c09e8bb2a78);
  (true, 0x11bb832f62ac80b9f922138afbf30fe429281a323e883db5609fbd4180d33f43, 0x45db1b127f418dd7358982f09fc6a5fbe352c2a69728e686918f416e3d197e4b);
  (false, 0x130fd81f602bd0ebf69325bbba2d5957972faf547fcc07df2e04621dfbef7070, 0x3a4bc20cc28ef26318d62d28a840266a029b0c9741f3506ebe6e294ba2e35a69);
  (false, 0xd466a591c00877374ad992e28563ee71cbd3cbfea8a90b7ff084a691ce85831, 0xd2439c6ba30d52a75841bf3fc31977b2741a8b75bd36a90f39156e45770c5742);
  (true, 0xbd8395f70509e3142897a9d3a56635b474f4cbaa1b218920a581278150a4c69f, 0x77a07a614ad0be30a9e11363fc899d4cd6d4edc0ff83a02361e535fcff073afd);
  (false, 0x37e6965fdf930c675fc3ea5bb396eb0e7c34814b0c4bbc5b13dcb8c967e4bd90, 0x1fe8edf0ac6d4f95e0f97b818dc0822d63fe9c3f923696cc69370499b5525b99);
  (false, 0x3fa3d906f1cbe7d1dba7e37f0e76a90e2cc9e5852611700e6527d2d532f0f8f, 0x1e10f36b5f7a4399db7c2b425714f310df612e5f0a65015493cc52147bf93100);
  (true, 0x1b195ed7d05b176fcf6aeebe3a8f88b91bd14f4148d69832a83b6acd905f091c, 0x703b49339e525c12d76203d9f8a200fdbf5e3e1c55972c516d42019b480a81c);
  (false, 0x3133edc82e75730259a3c244c181072f51b14b4e1ebfba4a40cc7533d6fdfd, 0x93b39fe5d0a27b83f7674ccf654181fe1022d25246f1ec82730dcefd1e3bc10d);
  (false, 0x5537c7ab42136c35f7af98783ecb1b4cff413b403663be9a7c2241045d8e9fcc, 0xbfbfbceb6e9a962f2f1d2025bee15da398a18763c3b8e03eb5d2cfe7f7213a75);
  (true, 0xacd378a702a2ed3f7c979803074583d1b820b61d55b5bdba7bba3a0b326becb4, 0x4bfd0c5757b2734accced937f4e5eecffc41cf812edf1121b4ac77fcf723e04f);
  (false, 0x168e3f5ca92c73a7bc9c5f372da3481c5576e757a51ad28320da749bbcdbf41e, 0x1621a9ea70e1187fd3f2cb873ee2dbba0f11beec7d7ad8407ac3c20349004c7f);
  (false, 0x1e9cda18c88f79b93a0d46fb3d8efccd8e8db9453e864f876fb66c3c5ef07cf, 0xa8070baa5c9839dd60f9faa548575a753c82f85b89cf6e854b38d95e4acaaed0);
  (true, 0x97721161d1cd6cad56086d2956e7902a9180da14429869e85b4bb93246680a98, 0xeba0e4a12afdb88616db3dfc8827bf79a73b76464c96597f57e44e148ff4d4c8);
  (false, 0xd8e0c8df5373d0d65b2f4b33a9169486888b8397c531644ae76b9c6f82b6b51d, 0xd38c492edd2012157a26f2cb786455ef3ea05a4716b8f0d5dc8a2b8d40d2915d);
  (false, 0xaed08d840f81091710616d07afe5930a3b0b3b031290c149e63a0b0413cbf56f, 0xeaa75d25c0e06ba1f853134f9727ab7f9a45c2dd7651949fabb15f5762ea7138);
  (true, 0xd37f2b1ba2f2afe34fc07d61417dc1b5d89c4f029da3bc4c9047b893d3d5c6c8, 0x242bebd1e9521cd0f9d05f54761234a11d6fe286263972fe9df01b9cf9d67b10);
  (false, 0x51c61dc207aea081d7659a319aca9757d3c93d3df2b0f1a27c247b986827269, 0x5d8c5b23ff6a25772979b2812cb65c3714fd214b8b4184e734f09250a06ad369);
  (false, 0x222f472c19945f22d25a797c1d8499c3f9973216b719ed8be73e0e6092c54770, 0xfceb93f1de258a7bd4272ed94a6e83bfbc9824732f31fb97748ba8d7944f8881);
  (true, 0xe3f5e7f8b7bfaccc219f2195fb2ab3267400cdd0c447b0256e33c3f3e0b925b9, 0x684d8ec5a3fa76148c6456cfa580c5b9c0f9a9dd5ed26025cbfb84f5acc11908);
  (false, 0x2a7f1b7ff23f1a9b25af68c886ef63138a576b0f376f3266cec3026a1b40cba3, 0xf8507b3476d9d05644e92e6f02903e8723fb2efb89efb4fbd47137039bc35be3);
  (false, 0xf0dc0803d337c8c20ba7ab18c776965fa5e6f4c3dfe354d86077ae0f3f7d6abc, 0xff2ee5ee21335e4dd54908f355e8c1be5ec5e59629085b9c6db385bb3e4a9605);
  (true, 0xe6000e4007ef0616b9502c442467d222ac08bec1630de6b651bab2054335748b, 0x2031d1126b264d1c0e096afe25369f159ad66b15907d3863eee705b1ae1a2196);
  (false, 0x40c7df652a22a2e9ef917a0943ec661a1703cb214ace6beccc587572d5b7c8a, 0x9d9fe2e4fb77c6189282f8927aba23faa6b994bb5e91b67d8d535d15ec3b806e);
  (false, 0x610d8028df07e0bb12555918cf66af83dbc4a9aa45dce853483bea42158a7823, 0xe83347ee5277d6a7c7bd5384ebe9b3255ebd52f07b7a655192a0aaed58aca767);
  (true, 0xd149118454da6ba46a869063475ae78a3702603ec02faa2dfa4a33298a2f647c, 0xb2ce410b3224ec6dd6453f30120ece659763bfbf0b8cb5ae97e4a9e56b7865c5);
  (false, 0x7ce378a0cd2a34c9a81269673a5db51c79ca1fe296907f17812c7a2f9b415f70, 0x6bbf3fb5ad4b1d483cd14311416db8cfb7c96158e1cb94e596f68453da666909);
  (false, 0x2d596e222d29baeb8e618cceae746a215bac0c7a6c09e686f9160558d9317532, 0xa6b9c22751e182b95202dbf7766197fcc918584d0788d3a576dfd0a0b75d783);
  (true, 0x9645abe617818e64acfb1987dc231ebe4e33c46feb45cf193f296ec685c6a6b, 0x12b428d45164c29162340db4c584b2165e93ccf7cfbe8dca27e0eee7696658);
  (false, 0x15dd4874de57f1bc059aff8a48a22617801dd44dd9a8372f13d53599592, 0xfb40c3d2907bbf52ab6f5127e68565539870a7be13a06161e869ef54073d3d2);
  (false, 0xf69810625cfd6cbb0df0a500c47e6d16f96385447cf75fd128761ad2242e01, 0x80ca1f1fdaf69a679d1a33d8fc70c4bae0d29d5c2c097ce230653c5fd0140645);
  (true, 0x74146fa334e98d935d388c3f537a57ef22c5c91139082bd9508154109f552179, 0xe7443ce27ce0e44e0828564ce1e32f66505ae2b5322397d2fbd19cb735305244);
  (false, 0xd0ec3811f5175e79655a97e9448013cf59cb501576db6f80a871b9047beb0be1, 0x4c199e58cd1f7933f0a44f2852a0ded58a9e05f84f2805384ddf416b97daadf1);
  (false, 0x169f38951fb3b4b20fb5e7f05cfb9f46d58b358f6cfaea44966c02e5ddb55664, 0xe67376a63d00eb2375a053e64aca94d7ff119adb444659a7f17f805ae058f345);
  (true, 0xcfb571b61251475f8d1df960e2a6a32ec36c6ebfb8af72e4a7c54f7fdf66dc26, 0x812e12699a3ed8dee92d247f8e14243846cec055e4b02f1bda328a00594aff1);
  (false, 0x412f76d94de941405ed20168505629df9fb66771995bf14d5c64d298307366, 0xf5987743d08227b561dd5f6bb02093991726401963f9709aa538c74de9c3d447);
  (false, 0xeb9d2f1690ce0775c8c5f484c8f56296a9a8c87281507167b5ab3e80e97c115f, 0x8e31cc53014a35459e9e8485c4eee3ebf35815de335ee5490405616d3babbd10);
  (true, 0x8029746209571fa412134b7bf7e06189a8e8883de4a70ce91e2986555eb36055, 0x569be83a243f5ad93e3532e6c1fd521197c0fbebcfbd295fa3928b18aa097045);
  (false, 0x1d4d1efa36b903a358c9c3b35cdc38b8241a0a12ed415b67ccabdc3b277276b5, 0x93eeeebbfa4bf6dd260ae15a5591b06a7ede6954de588b604c00609fe188e94e);
  (false, 0x557c452cfb16f75a81343bba99322f9e6a2ba397ff09d4b38e3115f980b1f3b4, 0x3732166ddc2f09b00c1226127040abe1ded79a0a93151aba7bef583154310778);
  (true, 0x31bfa5c0814cdc7156db4071cba53e0f9e6b72028553a5e23908c658f92786b5, 0x298ed772726193f643dadcaeea19cdcc143b0fe018a88de70879a4b7342278bd);
  (false, 0x6bf10b667aaa5a5606570b2a9f033d3a62de1f4fc8da4c080bfabe3f6b612bb, 0x1119f6c915555a55e8aa407f10a90900fa8b0a02864069e0320277cb09dbce44);
  (false, 0x1247568d72709066f1cb4c4d563cf9107768447365dbaed64974c2fe70d5b75, 0x5ea998193db5b59d14d4311b2a764ee349ffe3f17f4ee2222a64d5433d96dd85);
  (true, 0x5552149ec18087e784ed6d2d63ab5e36fbb7cb461f47c3903d2179a68a1edbd4, 0x3ccfc7b4af4dd47702a16d58bf465abec8d0dced4e6bf5809e688364f97fd95f);
  (false, 0xe720e41529c71c8a3ab9d6ea0c4d46c73e2ea0348bc29dc01b723fe59547684, 0xe872e5aaa78ecfb90dd5b273e60b9e3adbc861ec184663a9a6a24ea8c28a7c5);
  (false, 0xd31073d77ccb490f8a97123248f307ce6e8f764eab7c1f517a10ebdf7f08e7, 0xb042d2ca70cfbcc7172c050deeac2d3aa74e6e040c2047373adcab043301a680);
  (true, 0x9eddd67b5887376ac9edcfa0957e620407a15aae83349b6d166a6741e4e88b4e, 0x4d6ea8928adb86cf62388a8e0ef623312e68c59bdef3e53fd964598eb819acce);
  (false, 0x176bc13d8be3cf20de6dd8e19bac391015b91123333c9ac54ea3caedf304dd6c, 0xb291576c752479319dc77571f109dcced1973a65210c1ac0269ba67147e65330)].
Definition ct_u : Z := 0xb291576c752479319dc77571f109dcced1973a65210c1ac0269ba67147e65330.
