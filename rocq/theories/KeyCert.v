(** Written by tools/keycert.py: slopes and quotients of the ladder for the two keys of
    src/dnssec.h:7-19. KeyTheorems.v checks them. *)
From Verif Require Import Common KeySteps.
Definition ksk_first : step := St 0xa249bcb3191802d3cb56fc75a8731f848e7b2caf080f3477a4e4d904a671af9d (-0x211d1d206a8228ca3f068bcb77b6c66e965b291a72799fab76713dc1b6ea6cd9) 0x66e168103bdfa57cdd53063189a61e37915827bb44d670bd3c287263db86185b (-0xb51838d2fa990fc8a24a572b59edda8bd8fcf1612aa22bdac765f9f95e4f3a0).
Definition ksk_steps : list (bool * step * step) := [
  (true, St 0x28cdb0fe6681d140c59fb73f85f16459ca4cee083742bada762de4ca226a8086 0x2d882df6b409ed6234c5e881e9c20fb2dc0692fcfae9a7e7d26f83701f5a790 0x680ec94785873a3e3b5f2f6b1a9b192c85a45edc90a674fd52fee739f691356 0x1f5be5a821184fb883718cb4d32fe46accbc8708b1c3cd98536982cfdbc6e2b, St 0xc2489a9eef61dfa06d3741ff3b405300988bd0db42a937859069b9cefb576e35 (-0xab9e4db4a865c5d9faa5ffc347a001265457740d67c4105697320488b09397cd) 0x93721ef0cd0cb79b4714ba2c81dc32cce646a0350aa32bf6c06d0cf8f458a449 (-0x4cf01d696fc77cd660b950563834767fc99586c7873df1c1e82cf2a1c41e1447));
  (true, St 0xba77e145a317c0f788ce2cf76a4904293ea165fa3fbcf912de8a37fe731b54f8 0x5fcdf7589ca503d230a5f8ccd2c9cecc64504e80d494e134a352c4ec23c981c4 0x87d26b7cedca0b9a92cccefc99ce32612940930f1e79f9bc63f9d36e8aef0821 (-0x229e96ab0efadefb3d3b163df4db3e4472666375ef8b73f30af0a4bc179415d2), St 0x3d3f7094389059fb29d62c12aea203c23c53ca0f84ba9265d34346d498d0ce10 (-0x1eca2fe1da414cb8c30bba9b799e871ee53e653d6a1b8f5b127328ed415e611f7) 0xea74b5f4c11f49cfb1c996f4a267a7e24e2dd3ab6a3c80073e4f8c831980337 0x1e7f9e38231db0eee368954cb73a3bc7d5c1732370720bc48adfeac55cc17054);
  (false, St 0x9e99ea5e6de2b5447ce98cd180a2878a5380e7255da30b1b2e09df04cdad3de9 (-0x1aef4a6f031e4e9d6a70ab9ca46607931a7084c2ee4e06c0c037fb35717c75a6) 0x624259d6ed564e4b162ab738a6a08cc1cd9cd83e04fb6a294d638aea0cb02584 (-0x3cae4aaa4464e07431bcda53adc83219c03e36ad1c5fe01d52e62a855eed3efa), St 0x4a9ab06359263e9d745cb65a2c51ac731df3819a1bbba20efe18e198a5073626 (-0xa9d14f3025d1be7853b620595c58c3adc7aff055ddf7cac829e7b103b6e0ea18) 0x15bdcb723657eacb26084358113590b733cd388a8269890417d413328a59e9ad 0x10bbd84d07c822316bf54eb7d82b4d465e62f712aeb0254191b553422ed9cd99);
  (false, St 0x381d060a458b0da1f5c50e2cbca121bfbc9260f87e19cf10ffc17e334f0e7c12 0x220e239ef9412d7b956bd74c36ae7e45cebb1fb1feabccadae2aef2631fb1fd9 0xc4cb5eee931c912d581e10a421f7ea1d23cd869dfeafc33cfd804833ccd0c15 (-0x1c7a4cf67348849477c8162913cd62bfc42d65ede70d3cdc9aa75aebb83be9dd), St 0xd812539c96dc846ec1596e85f219d7bd46d24f996182d48debe38e911d262895 0x14a1cc5e8fc7c22a9268cae9a2289e2ab99838e347db5e2acf8646feb5c542f36 0xb65eee68d2472e80d54abcaee6824aa583878e5ded98c0680367cea4392a4bab 0x17aeb2f56ee3355460cab62234abee24782cbda7a4178003064d0c48c60062ef);
  (false, St 0x8b58b45a99e1143a9e5e8036112e245aa923fd703280042c6ec5ac3ae2c48e56 0x55fde9dabb09ac293829f6faf3204182710832d25a0e07a2e4fee695ff932a15 0x4bd972972c4d31c183eeb75c14242c83e22e8f9b891f5005012fbf2696ca37d0 (-0x4a291e1e4e8072a32c8ea3a7a8bdf84ea7c92767ab4e930b0f7c7812854501b9), St 0x42adcc94c2313db729551130c3b9e208032c50d49057c4ac31eabf906d21055a (-0x4bfb92bca2548866abe20b71fd6fc97a2467fe3925eb9ab1bc6d330f4f19533) 0x115e137aea0b59ca4a24f0cf68531e7c739c44133f4807875cc0bccd070adc26 (-0xe43193f300cb8de0fd646f2e4c1b2520e43f84e2650e4b8a74f9a005743159c));
  (true, St 0xf8a5d462d412f0ca9d9f3efad0855a79ef58801d263ac1cca89ed9c6015e126 0x4f25b0ae57bb72ea54706d54a8b224cf07d390eca8b407ada671be4660c3107 0xf181b6ebe3ff9f445610f20c57aa91fb618b6bb6446f4ede59d6e123895014 (-0x252fb5cd67b17876c49d2741545c0a554762879a70c49da064a0f260cdff10f), St 0xd9b56ba7f5717a4669d14d4b146ffb51812da8e5c7e9b3924c6f91f81dfcd411 (-0x2824a51130ef8a774e2f14c340ef1ddee5e52d9e6066a0d13410007b6b054edc) 0xb9251114e0065a356f6e8acc1d03c2fbfb4ae45ee6696eb6d17f892f36788546 0x4784a254ce586ae1e0e596908b553b0ad57746fd9c2a4dcd013eab867c141f87);
  (true, St 0x9c27b762906feac51620c60629185c55c296aec296644f24f0c1a70df4bd07a3 (-0x18f204eae5258244e6d3061e33ae6f51a1694ddae8e0d671c52c82a8e3b77c5d) 0x5f406da9e2aee6562746c5930fdd740b7c79a5125c82fb0d8cc385cd6c2916c6 0x136925b15ebbf341337c5d4856c1827209250919eb5525dd9079c62e32ed04c4, St 0xaed0ea16b075f98d85f68c25f3b8f0dbbe4dece7eb82214524f2d28cfa195572 0x14e77db1c2eefaaea5c92bed2be1fe05a909ca4c2004d05a5d4e84ae45fef4 0x7760a8b48a2d444075017d6da539361a063b663af2d5cfa555b30426d77d83d8 0x1e7ce4d6e6554d2f22e2351c3aa9148159a8614532e167cb9f1fae71df05ef6d);
  (true, St 0xdac9ddb1476d3baf3ac40e1024d26b29d7a606c7235e86a0f7b6844445179efb (-0x2de9472edd028ebc118cb279f0abe8ef50472e0c826edececb671e4e73fc88ab) 0xbafc6cc089003004694acc924b79272c5758593c9f9f8707b381cadfa69985c6 (-0x71839e01a5b221d8cfae04f3b720df13bffc2324023d9a156342cf7ea9aa93ee), St 0x51a647bab3dcffc7a1b5095a9709eaa88874274cf9b82636226dac56461e775 (-0x267d8faa178f3b5b9d1da0f9da3fb7184978f8cb593b13169fe573c28578582f) 0x1a0aa5655a16d9cbbca9b15d08b5406778b02fdc7a2f8fbe451de7392665e2 0x29755c871947d1ff7e7913f39a9392d60d4ed907ffb6c5ca170f57026279e2);
  (false, St 0x53d695f7e3660ebbf36b1a460573c7cd915ac374ea5be6ddd474faf3839334b5 (-0x3fc054870ff8dbc9981b8b749d91d7c389d4ddb06d3fa97b7daada46ac081347) 0x1b74d91deb33b409b7e6a3e096de58fddd2ca5aa371ff6dca20b08fc8aae4810 0x3612f8c905989207e127f44e7e981202adb3ef5c0ea23b7e8d48c6b0d26ce494, St 0xb50bf1d586229e9f9c5d4c90038ffdbef6ba415821d5ced3c7de399b8bc78ebb (-0x27ca17bef30f2bdb6e6b5003be6927fe9cfeea80291cfdbb39f31c581988c1ef9) 0x8009e4871c8418739bda4ef432894d81573dc5c3da07d7961f4ee2722555be67 0x10f452d8031a75895b13164270876403ff3137aa20edfc48cd99078cf1d7fe71);
  (true, St 0xd5acb7b2f860ca49cde4c468ee9ff741d67aeebf8b28afa38da8ab6537676b15 (-0x75ce6bf9f76c18a5afd8e555cc8c8e7c118c2fe4b5689b3ec18848257c2fbe69) 0xb258de37dff90d1e8a3608abed61315c718e99d16f3724a50cd4b42a2da3e14e 0x19e764a3c4be1a807d866ea3527e433f9a593f7bb253d20309a0bb8a0956df04, St 0xdff30dd2f72c7bf754aaf8256b8bc2bafaf7b86cf0bac4b103a6a6e280a87ed9 0x80912c095745279a7f217b845b6325ea5ab573e104b23770ad891c60e556ba57 0xc3e958d98dc93239ff25d1971de5d2317cca9ad51288487a13e2ba0ad695ed15 (-0x56137734cd7207aad326ca782b64a49d7a3d2187e35fe92418d74d5da7d3a8d4));
  (false, St 0x109a02276c0ab2da8db0c639a6c8e8de26e6020f3d4693eb4687d830da7d7176 (-0xc26fda1cd19619afbb1708cfb25145d956522ddf59e120bed2378eb2ceb380) 0x1139ceb860793e84943789b41fbd8627216dfc8c1cd57627185dfbb528e71d9 0x5367fecf8e87cdeba283cbaf67d51b58786b346f6ce7b4a56db7ae69a413edd, St 0x6a97f6b172117fadf53ef54bff7eb5758db7c50177e6889a13b846178cbc5a41 (-0x163730149a1f9e1b64b9fc2dbff8e817099e36449d08ca0e59a56dbf3b1f134ca) 0x2c62328011e6c319243c7ccca54405efda1509a4d635a266fd3711b91b65fe70 (-0x12242de3449a285197170cdb261753264bbe2cdae7a15c8866c22fd057f9b899));
  (false, St 0x96eb30b10ad0fe1e4557aae3d56741cc404ab9fd37d7679cb9fb7c314a95bc0 (-0x4912cdc1882f1234bcc8256828da8a8befe0b5adac715b6c0d8b88d10adf760) 0x58f875223ff2191e408f6d87cb277d294dbaa14680aeea3851baf7a20c060e 0x1e8ecd0d9241cff1e36f070f03e90320e13976ee6b5d9af2bcdd3930cd3202f, St 0xbeaf524d7647fd714b18500321e0a582dd09bbf0416e2050b61fc0d366eaf6c2 (-0x19a5c96b242a5a03e9b79da038d046b9eda10325ba0f6c74f31dc8bed7facf2b0) 0x8e08b63d29f90013c49e87fe6614a4222a4220d94f42f6d7e9903a0d01f2a1dc 0xcbc584bec7b45751e207c8b6fc50dafeafe9c78a0352fd3333501da331a5688);
  (true, St 0xf2f490cc09d66f763c0e36f906c3959020bc1b7cbb10d814675fad21c83f0985 (-0x20f76810ceac5aaa4b981953d88b8c84be1d68330ef17ecf776f83defce70a9c) 0xe6934b670005a49707e723ac324d157ebcaeda66777249a6e8cdc3d3e953d829 0x41337f24ae1d2708e8c98a8fd571a7896c0e3b625be98b6b5410c26a90935069, St 0x54a5fdc37b54552a3cc8a435f50fc33cad1cce9a89da3951b9b21d6a578b5e9a (-0x19544ff3fa31ca629a162447cd99f6348f03ffee08ec7d72ab8575f67a11e0f44) 0x1bfd5a297e75a3ccb107b0260da4e02c328ef3f8085af4444e0bceeefa80bbf7 (-0xb137f1c6dfb431cea0c1d2faac1d992be38695a61b014e35c9fdcb8d6ed6a1d));
  (true, St 0xc893a5fc42d0b3431bcb1d449c9b235eec98ab1eddb2a698dec8cb9b85330ad3 0x34db7856784a42d0138ce09dd250793c164f8ffd2e5abdf2121d65a68f2df8e8 0x9d270882d0e102fd919ef7fe82c11700b95c9a2a329110ebc4d4606b6ab3c82c (-0x2809079ae6b39eea4b3643c8004c9a4bda76d39ea04886bfd93ee64aae7ccdb0), St 0xdad43572e3abc727747a44a89d59089be5e7f392b9430fe9625d89fb7a5c08af (-0xc64ff8a11082a2c2c84ffcbd508f5d1214cb6882050aac07a5d8c0412897425c) 0xbb0e1af0f8408475f8d95cc7e360dc0a3a73bd226037abc9bae6fb56b6d6d100 0xc590e4556fb96c10c5c4155aedc8676b1343ad01a3fd7be0c767d5296dad52c);
  (false, St 0x1aa033891b6e052fded5827a1c15b4454c9bf100cd81ab366d6988e88afa3868 0x331cef67f2aa383cfa612b5e8cca7348a65172a954515da2a763ccb21770fc 0x2c4eeb852197ba8b9317aba6e31415da2902a319a69b88ad6c498c13df602cf 0x1e07180967b963d02e6207a8672e7eb34d56d1f15a54f4e188ba77353e363c7, St 0xae14c5c8fc09d59f38cb5adb152846a685d16ae7675c8e3a1652343e8c2fedd7 (-0x1a97e7e2c03a20b21801a243cdfc9998854f7483123b2d9f7c90a8136b3018fc8) 0x76603e8d2d33f02c7331340b2fd327cae3ae067f159a4a7a626bfc92a9a9e25c 0x72e213c190cdaabae2e1358f36a52df56e9147faad2686c8b153ee28842c8c72);
  (false, St 0xd3d9f2473e56bc20910163dd9ae71a0b2e95adadb6cc09513edd5e80358c0259 0x7ce071efb497f666a8e43050095bde699e2d7c598f48c21a5a66434d6f9b12db 0xaf50feeec2266dc6500b9a8beee10db41b17c96b2661a0dbe8ce47603141c531 0x5a6e0e845cfb79152dd6257ea3e0100fa129e0f5ae13a0ab11bbc1b17c78509, St 0x3aa77b258a6a558932a6a92adf336590666db89105f751b0ab1309b1b65ea140 0x2a225792aa54adc3ef96c3c0c318807174cf35191179f64d4db2fb3e9f840240 0xd70515ef6602f6028a8d8d0fce546f4ea6135d6d2130f7aa0b28f4afd5998b5 (-0x13b958ed496e73d90885c8f2320d3a5f832dc8163ca57acd86c1f16819300fc));
  (true, St 0x1a41bdd965f57e802ea8d024e434cd7fbe9c59323eaef63dec6a69435a0ead0 (-0x140992bdb9c3eb056f04760a449917b89065a396031ddbd3f752a6f9f1c576) 0x2b16b722097c8f8e40db4f8d6c0d1877a20b2f58f5d28e97c7bc577a996d9 (-0x158f43af60c4319181fdb3b9638ac520c64d72486f762fd23f67e16a99c57e0), St 0x43fab9db2a9c9d822ace940d2f85fba15820674b20756169cd96c0119916f612 0x3370dbbbfd3bcacb7cc02029718903ffa5106343610b346ec0e57e8c8732a8e9 0x120d32d85158e6664ea2d298eaf01be122b2f0dffadef903d47b56d9dfbab6c2 (-0x2169addd42f78b41bd0d54e2ba23b4f1b3924af08ee8f7ab3c6d2f6cde9b5cce));
  (false, St 0x56044dda64a1c3edade7920d5413260cf0594b16af4832cad594fd125ebe968b (-0x207400a5b7a08f2c75ea760f7c416dc6e48d5be03fa5db79d84966865987cc6e) 0x1ce6e4615f03d3ebed4f679b4639701a4c285dcd493c9b724fc5d05f365a8077 0x3c56ba1686149bac5da39b70bf271e0bd2b28e444699c59a9c691e717de9f7dc, St 0x6552fa298b444f328549df9f0f0dcdb2dbf30c66c257f79262966bad877694cf (-0x2975451257d9c8eb341cda894db79171b80fa001dce0e684b0e1716723658f17f) 0x281a944a2710dd49ead341848a0a780cc4a578b4bba9f56cfe6971964fbc340e 0x1724d3cae87e03cbdd8496a6a32670cce36f70863d976d13d4e993592dcecabc);
  (false, St 0x64568750b80ef169f3bff8b96e9372d2cf0b333745a2a4c1e864326ad477742e (-0x2f775538040acf4e654bbd705d910881cb42d7fc24308a3aa68f9b5af3d87c2b) 0x2753b6f668e1492e8b756eb8877ff02783c9b0baad9ec3c236f0d74de3f237e5 (-0x20018126b73f6f0743ef60259daf92ebce8f98ec013d72abb7230110e6ec4b8), St 0x30815cb51f5c076fb137e8cc5dde8e0ebd850920c2a1487f119afd4d4e4ce131 (-0x1632dacb5b7b7d0ff9630a2f4fab387ecadd1a57ee100f4743e48a4732075c9b2) 0x930c422850f905b5e369411481d5eb85827f00fd41c757b7b474c9920c00d74 0x75c3ec1e89e626e403b322eb8b914098edbc5474d55e9d9a649c41fe74c89cf);
  (false, St 0xcf7cf4095d1d5f67001853af89a5874892f30cbfdd792a4e4c0064b33e3bd59a 0x239f11c6b3ce042734999edb7218e302fa878616012d234b26a01d87d27ab729 0xa82b4fa51e74de3920046596ec685f0f115454488f437f7fa079d178522ff4d6 0x2f7641379321a63b290bb9838fa4dacf48efd0bd8aa77e59b43076f43b264b85, St 0x89c1c100f6d6372ceb1db2d33739588eb9d73552fc0bd836ac9bd26217c6ad80 (-0x3a767dda0d5fe5b043899bcf58e50f87cbffbbbd1aabedb065ff980ee70aa710) 0x4a20f337e748dd74cfba56380283158548aacf3e7706e3a8956c32c6b1db0ed7 0x2c91b4d4fcbf755d38165b48184f4e2e3eb7276501030edd40e2d23d2a7122a6);
  (false, St 0xce49cc1eebc381b4fa4bdd5559dc555d345f9cc737a17578ebcadb45440fb6d8 0x138dd31463ed6a7f9ef2fbf71c7f95763c5afa3bfcea9c737e55619714aa348f 0xa63ad9c8760d3f82bd8697f8904194d801563ac7332c636c938683401a11ab84 (-0x153b3375bf8931b34b405989ba6c3db728f6d0680e8a3d49ae327cc1008f16f4), St 0x4b9bd664d8d2db49805fa73dc2b92fac566bb9cdb78fd6a2221dc58233905fc6 (-0x2277bf99f4d4267c20ee42321894701bba35f92f3d30d4d0e1af6bd70f935e70) 0x1654ae7c7f0b8c89a7ef11a49d2a9afc1fed7d6ad178d1fe4787bbf0b33cd01f (-0x2a8df45b7aa088e6e1808f8049ec70d30eef205c9027a16f6bfc42dec49170d8));
  (false, St 0x7e46dd1618691b9813b994e0954b6cef7da7f2b046357b7c39bf4aceb0c24f69 (-0x3a1348ebbbc00e7923cf65689275b966d05aad0c51113f8a1833746f09fbcd1f) 0x3e49d53fa555cdf1dfaaa142b07a78d0d60bf38706929cc95a926bf9145aedfa 0x3ee934bcb41c1e017d50289129c4a5547aa6eafef63f86409d695732e3c97d39, St 0xff1b34254eea84050ede49bc02f97f7131a13fad3e10dca3dcbdb7d15c52660f (-0x15f292175712cfdc3983d1c93575dee68eafc32255f53248135e31435c3d71ee0) 0xfe3734c75bec3abf7824f6898467f498d602d512a40d0dba805c098f54dafa16 (-0x8cc0ba026f2523771b8759b4982927746a11d09cd143f6774b4618e1ce5247a));
  (true, St 0xcbdd488aaf7d3c3cdc578737b7618027a6cb80d1c9de3e12cc405637cc16a8a3 (-0x6c985446ed5b2f41ded5e6f5e3f135b3590b005dc8e3f06abc29d1e04972bc81) 0xa258b052e8aa99ecea0ccc59b5b1ff54c706d60bd439d7fa6020dce1fe210575 0x9fdbff88ac6a52e83c882923ffde6ea3c084430793a8953a8a191a7112488f53, St 0xfa6c4805b1b443221d4a988fb9ac147f3231ecb55f466f150fe2861806554a0a 0x1935ca9b3734edcad153ea300680f319df35a3918f813e14c9ecf1dc7fe329ab9 0xf4f7aa78ed1ce1c5104c33c853e81909291ae6e51b3d5358552d2faa77690964 (-0x75cc2cbcb68b1dcc5678c5ab2c474e5a17083dee604bdb0c38c9fea953413c0c));
  (false, St 0x729dc2301b8245cd30c10a232d7d7b3f71e63f621e41fb923a5eb68b74c651ff 0x52bc8fe108ddcd060d896fab9b9d276c6bcb7480f38e06e3cecf420f46b75926 0x3350e22ace1f98dabd825858ce83e83fe15b88da37995a1c30d948028ba1d2cc (-0x4a387c7366e9bbbb62d9614d1e0455080a7a2389b0bd5cc54dd4b7501adcb492), St 0x164f42f0f77437b031706ab39cc74424485376d2d7ffa28a28214afb886516da 0x1711d744a0bf297af2f85824130ca544cfc56209c985b8d26137bcd8a67bbdec 0x1f1b80bceb38dc149d0678161e77458b4f33ab8cb7d66f029602afaead0c4a6 (-0xf65f8dfa8f70b625014983f80e4349fa74e8c8bc3e019d8057033a47f4f2832));
  (false, St 0xe8f35c2e0fc405c29af9d7456ebda7f7e795e20fbb6e8b38dcfbf977d7192c02 (-0x9ef99d86311a9edb2b6cd22ad6bc4c60ffd4beb4c251b8a6246cbb2272a6ecf) 0xd3f9fe6c71305a9dd51be8c6cf3e92fc1396d8829660c2518f1534c27cab786a 0x680be6b9aa3ec2e9f5c23ebacaf9779466ea1e65191b5a78c728b2e668e1d530, St 0x2ecad2652ba26c610d304814e25cc968315bb60ad60523e7e409a99457e32fcc (-0x1ba0651ec678b4c92ccccdb25f443ddb91af7263fb2bf9ece5720b372853ad0cb) 0x88d844d18cee324e9903e9ea4900361d7605472b91fb3925e8c28cb54b1f7c8 0xcd46f6af0e590d82d514b30501e308310cc5b3c0a74c26c72b9065d8137c641);
  (true, St 0xb992f9c67232c06662c4c0bd488089bca75098fab1b35e085de032ede53da0d5 (-0x200104b7af5e79dc08494371b5f7bd727612ad8a133cac2a960693dae1275d3d) 0x8685c16331a10155ae5e4ede5747b0ac7b344f6510a6e55417385bb7bce490bd (-0x4c5ad0887fea054e4984db9ea438a6e6731907236ee45f7d68ec917f4c88581c), St 0x5c0270dbff65b20a2d8696dc87f6575802eeb4612272031a48869a2d15a6affd 0x27c901b933c315b77c96056b40bb3b9b2f813721212c3bb6307a052a08d164cf 0x2111c12435d4133a20370af4ae616f187ad38d257175a5cf6f03ad9926bedf4a (-0x3b093eb0bcb57dc6a74565f3961630cf863a247f7b8e673d4ef727f5ddbff5a6));
  (false, St 0x565e62cdc3637045932f82e76543ef59234a539dffe826e6fd85a8bd2c1c5e4 0x4fc34263bbbcf2a18086d023f793e952580d00e50acb781d65f86d122a1302 0x1d238d2f11a8089ecad8360f72c02c228525d849f73d7e32544b25b0d95764 0x4e6decdcfef0980091707e082e08eeb3628b6c817f4d8a5d09b45c283a6ebe7, St 0x6d146f1425775ca81ccbd3bea8e349b238fa1e83d90bc089c5a2b7d2b43f1ccd (-0x1d2fbb64d6f406a9c524975fdb05db12bce45cdf9e085410e964c0c81f95c0773) 0x2e7a6838e1ba61d9b88607776806f5eebc51c7a242b0f14cda3324aaf779e93f 0x42976afdafea49fdd61f9a2ce37dc6506bc2326ca4917c29ce3d9c652a6c27a6);
  (true, St 0x114e80262c04eb275306caf94c1ec53802f1ed38a46b041aa4a6d2e9a021b58e (-0x5267c195ebe89589c07fcf17d18d652d50a0a6a1543381063090bb8ff8017bb) 0x12b85176a6d3107f26dfeaa7acafb2a6ed75f43ba7869ccfaf7bd2ddcc7d4a7 0x150debcc11c422f1eb4868e179693abb2f956adbb0e14016ffd05fcd8eb2bdb, St 0xe8003b080e319e3b05deb36b3f31a85263b045a3e441f6df7ca2b4e1b2b8d50c 0x12eedb4f6ed1019e9f35e1d04d6acce79709a1c4d919739b65f0af6a0c25f7f08 0xd2406aff7997109564ccda19bb67f429863440fb3cb4c2dc94eef950d869e74a (-0x47a74b1c36f10186935f5d3225170b15d64a2a58a0614751737161d616d137a8));
  (true, St 0x6f981cd9a5663a8f87bf26bf375a22199211e1018bcc3d85b02c1a01b264c319 0x9bdc1d946e1713e50f6eaaa2dae8ca9d6e821ff602cce2aa2619845c7160a16 0x30a5436733c8a8cd3447f95384dca7a974b27013282d8cde011b592008037797 0x2d50786b3898eaeb41822028a09abd16b377b7b299e4bb6f81c0719ab5a0c99, St 0xd4b877b63d3ba6f150063f82248299bc74d2c4084ab50bb5531aea5887823a8c (-0x262185ae356351116ad77ca8169491f6a1d51fba3e89a3fff5f0edb6fe3a203b) 0xb0c20b32d41fcc1a5f76560b5b0c53b09b22218f4f6640cd8a993dbe11058cc0 (-0x3bf28f2658bc48a6b5ce4fe27b6ec0e4c4587757ca50dbf37475dec1b5f49e3f));
  (true, St 0xbb66d3423a53d0d86b4102022581e6f5affa1d2858c7c1c2edbbfe548ab4560d 0x49ed4c701b26398eb1ae8907e8db9a50cd9b286eb41ec2ee1eda9c47ff266a46 0x892f61f051828d1eac402262b563397192004760d457e4ff12b9f099684eab34 (-0x3b7b6ba0b57433006582f1e8b119e31ffe3e24fb1b73bda7684804f2fc6f59e), St 0x17fe4b8d7550a3b6879f26b9548ccf9423a92c2355d77e65a39b5f539ff7b103 (-0xfed86544dea150c0017ccbff2e3a235efd4f0d81ab7113ac04c2ce3d5b3d704f) 0x23fae2d70552884c92d4cb1b68ca84e7f0dd80a62ffb2599621dde703df5e10 (-0x2c47196c5994d1f907f1be53e3c00e76f318fa7c0fbeac3b3f631717e75acc0));
  (false, St 0x9b86d35c9ec60220e1c046d5294bc59bf727ac6ef19b80c3c5a1ca8de47191b4 0x4c34a887d57c78e61d2ec5cb00c38a4baf127c690ef41854f4dafa06d51ca0ca 0x5e7c8af47a38580f0fd3b7b7f545bc2c212dee4e6f333e1387c788e6504fb78d (-0x578bd79efcdcf2a3a664596129f045ae6bfc40476190a6440734699caa0e0c2a), St 0x3efdc979b4d566d8472881ffdebb676ef5acfc1f6336b76ae5302c51aa419bf3 (-0x853392d04a60adb5018b9b4840057205c2ad289ad332f3876edec782d803e06) 0xf7fe92edc370ca063a30b2fbcc4225af3c16efabd561579484ddfa4dc8faf66 (-0x1313de3e364bc8b2163c86e582d7394f6cf6359756cbfbd7d3ec8a7763223f46));
  (false, St 0x5a5057e9045f4b8ecf784224cdc17e647d78e63739297314f1e9cf17419f100e 0x177c3dbc6cf079815a6a4a94d76fdbad8d06f16b426c38e23a71826191904434 0x1fdc970706c288c844ede43b7c7c26a672c376764d3b00179e6fc38965a107c2 0xcd2a2d023768ebf1f78090877ec46ae914ca1033f35bebd73613a64d8158a01, St 0x6fafed147567e54e1ec8784fc016e08b8333cfd27fda94a18ccbf1ef8a7d7500 (-0xd3696a390deccbc4348396148919d7876202e901f28c2c3100d2247591d9d648) 0x30ba087dec118867e77e094b59844b36eebd0acd9815052622bae8e739cbf34e (-0x26d169e470181f1b325979a3caecefaf4aec524a9a363c5b21e6192db770ba1c));
  (false, St 0x906219230349aa7b56a94c018b6ec4fc31f476adc955a46494156eb3999e5307 (-0x46ae7224a456b12eaa2306ed7662ae4ac0c815d41a2d40cc5d74caa0c54afa8f) 0x516e81def667c17e36619297810fb40635d7e85000487a0fbdd58ab314181a3f 0x47e0eadcbb98a7e627936b1ea8ef779cc7a8a7fed62a59e2c69c0b1112686a4, St 0x97419b4fa6f2e9d1a8b4e3bac010e68d748e1a66e05a5e0fd8300fa361eff1ab (-0x1b005e12f7e18bd91e4a2377ef5df66ac6a05a9cfd3dd7243c1eb1ad7d7dede7d) 0x595e76088cfd5a2ae30c1410419dc26f3ec0d65547819d25a97e89f65bbdbe88 0x54566a2513e6a15350735a1c7184a2151b36fc2135dd5b14cc4e09a977a9f3eb);
  (true, St 0xb1e0897a5af7475e389e6681bd0740b2dafd13fb86083abea4ab10f4996bac36 0x5da570c2564323a42246b404cf33b94e3b04b49abcc73b601c3929349499afd4 0x7b98430c8d559450bf511ba788a0f34bc842eb7d0a5d4ad63e62a5ac93f7b467 (-0x7780f4620ab473a71c569d69a70c2a5adb9642c680807a47fddcd52c97121ca0), St 0x41b1d32e20589b7114582da7b66e171293f4215f70ac16eebd568a1fb6f2dbcf (-0x1d7098091cee0d68a078bf513b03a3e0ae306cd0156d4508610723b4de9cc38e9) 0x10dbc8c3314693db33483dea7ab8dda0b78456bee2b6d50c2134345c1fcc9117 0x6f8944e406d7185b45db3b7f085a88720dc583cf6e7f09f1ae3364f4119109);
  (false, St 0x876f545d149b2230be3168bc962994ca6d656b328b81d03e5f3d0634a2262e71 (-0x149602f5c0720f0e97eb4a248856d66bdc0e0093c0eabcd2ab11b0cb2943e0e1) 0x47a69b64b7e74f5947ed2ed8efe0d20bde35804950f5e1916fcb48390c62db27 0x4a873618e5c28e540ed6db9ff68bfcad5105b2b33ab3ddd34a6faf5f69828bc9, St 0x196c4b8349677e25c371a4a46a902927d14e307cb82b105b342524ac715ab9a9 (-0x2e39654c0208c2527b578db3ad598dd3313f859af6db4add614bab005a58451f5) 0x286548f73e8aadc1a4cdb4a94b8601eb5c292d5311f3f7261c852d21ae5ea56 0x10c0ed6c856c04a555ead3b1fb4a184130f29d3cd0a138e19b6ab39bb0963593);
  (true, St 0x177806f4035e4e46f1914c4d3a95141f39150a280e91ad410aa0f21896b78a95 0x28d1c0f3a05e8b48c846a73e19d9ef62e2474a7ea1f46d35f166068d17220d8 0x226c9865fb53cbf56f4ea48ea6c923c181cf7b502e01f16151700e4c0166823 (-0xecf2215ef51bb454530173067d2ce89b8410e094c83177da2d286c25b3f5321), St 0x7351875a2a8cbd675433e787927164265b48cc51e8efec8e35041c64377e5e93 (-0x8f0644e69c1131c830a9740a18de11546917d4d29a0a6749f3ba3cdaf293a7ab) 0x33f2599224cbf16f03ae25b4bfb5648f5b554268b00431344347ee036928c18a (-0x23a378a380ea1174e38bb7644baacb4b07b0f22b31879008d99743b9ebf4233b));
  (true, St 0x389042f8cd6f7fe78ba1db7f06ebaa33ecd5042bf0adf6761ef575efe1dbdcc8 (-0xc101147b83d0035285a3a8480b2c965feab6e2fbd433c21badbce479b3180ea) 0xc7f6e984fcc8fb99fb7ff46d0f4f6affae9e55c910d891188c0fe562444a4fa 0x1f56ff870d0c8afade289620a6aa12359670245af564a3cc804df7d1158e31ec, St 0xac20a3f6c785f318fe4fbd17db9642888f8d4d262d954b5382261e0ba13f7bee (-0x11e7a03ed6a6dbf7e7de5a8a778cdc270f03d42282b801563b1ac2b25e73e6688) 0x73bbe07d768df09c034f580f8806adf8a401b7248a8c8ec300d533e7d26fee76 0x6f5cf9b10c0441d4c21983b345a0b8dc1ecc6f81bef610066b5cf8816e353e8f);
  (false, St 0xfd3e9a0f428c525429e69e23178cd337295eafc9dc2327bf78313f56989de2af (-0x4d89a06b01365cbc4393556034bdeb1dfc648e4d5412f791ef10a8e73814485f) 0xfa84cbd22028bf7d1205a394d2d42a8599f325f39bc28b3250b5ec4e54933d0f 0x1748aa4e2ade2c58063c09a8500764b2975195c3a16963958b0e4b5c2fc543d7, St 0xecff12410d8e17448db66bfa8034cc674e825e2b9560a61ac87c06cf0d7292ab (-0x4fdbe866845cf33ea3c273e5e832d3c42a51b7e292a144963930f08e9e64b193) 0xdb6747ce2b4b7a35ede40ce12266851f044dfd77b07f3a2f7f9b01d15f40b154 (-0x3f6dbbce041ab81385a8a437558f40c3f5348098a326fa750171a1c95684657a));
  (true, St 0x86c43f51972d44f8dc1b78aa49092c1c8e4d788df4e9c9e36e012f654c7e24db (-0x307584c7cc6fa0e54c762c2d59f07f66e22710b90f6d26092daf7b48641419a5) 0x46f208bab5ce2ca9de388181e620e1a14cb953657137a69f7f5d2dee74b4cf75 (-0x1de455a098bc21f9b05e9688dad64618c28a8a3e85a571e7be2bca6798373423), St 0xb0770e420d26427c17e491ed4199ef2f8ccc3f9bb25ed54b996d2e121c197e86 (-0x26409af4592b0db055ba41f718a3854f5c7c476e57f3de94a36ba4179249e1f3) 0x79a3eaf98dec0a707c2d61ae8d61b5e4e88a476fb0409cefbb0b8d1a4ebb77c4 0x1f35d2381d2792b5fdb10d0b3dce20ba711701164b8b38cef08444408f344774);
  (true, St 0xba2c83eb242f8d8f89d4a6f3ab165939a782af9095dafb00b4ef2e63204379da (-0x8d2a6a824bb941b29548171a5ea508b61865f612595d551ac669c9bd3fbea85f) 0x8764b76fd4c8c080aa50a200a4eee8a4c379e949cd53f4a8b30af4c5b1acecfa 0x495b3f814cb14a858adab75d6ebd520a2c5c90b0971f4520a410258d3573ca01, St 0x83b9b4f0e813553b0f0230da38df37bcc7566e45d74d468ebeb115cb95e6d7bd 0x8f9c0a452cace1d1fa5f123f211edb421a6b4d73be4dc77f6bcfce02c26ca43f 0x43c795e5d55e742058ccb52c7c2fd85096f5637340081a4f18f8bede3ee2c367 (-0x6f9dfc0a3b672c85c4f6afadc8da1e83ba964699ecdb31030df5912a90d4e042));
  (false, St 0xf3e7ff08a1463f2be4be9cbb8d803bcd919366973177a0399029ee7465b690d3 0x75d61bee896dc84fff7d37a85549ad645bcd990cf1c5ee59296a1b3066ec3f13 0xe86240698a32dab063201aff9b7efa5fcafe6a1d39eb087ab8c5b052b53a3b0b (-0x23fa2e3ec38f250ef9a74104f0093e9a23c6be2b7e091caa3adf20ba26d259a0), St 0xae9631612514d3cb2ae25a9eec93c3edf0e09553ed75ee085a7f959eabb83775 (-0x1b4fd220c47d286e362d882ed238c25f97a4144bf8bb7f557adedac2da28435a) 0x7710833e6cd69c9d6e635b1ce4f9087ea29d3db5518569204365e9984f599475 (-0x202d9a17c86731c278ea82db86c7a9278eb3efe831d2b53181abaa856142e857));
  (false, St 0xe0c5d36935f4ded1ad17212b24dc9da37a663e65526bf4f4d565df9d9fd3ff29 (-0x845e0052e78563dfaf0694a0c2fe0a630bd9913f85c8f424c2caac50d051943) 0xc55acad7f24af5d40018c4710baacdf0f2090309b7baef7d7f51b699d6acb079 0x83b1150acb166b016b9fd1311c4cd19a1c27c8f28cd59433a92b569646dbbfe4, St 0x39c99c503f61a9f4a1a50b09ef0b525cfa36104058852de81625406bedb11b8c (-0x10f1cf1b89e1ee806187f0e0dc0dbdc69fb97f11ed79511081b163ff002d3eb8b) 0xd0b66629eba51d517add4570b61903397056701788b8dc770cbc5aeda1fcd46 0x209829ae7c01c9822fa16088a6274b3640dc5c810bd7ae6e4df5408d5147bb8a);
  (false, St 0xb4a233a78d1ec4c03a62d2da1d65103d85cb6094fa93fd4c635f1887f48119e7 (-0x3f264705823b9730b0af624a2ac86e8a7078a5fae6a8c1e89f3cd2a1f9ab2d4) 0x7f747f6988628eec0ca71f961b2f58de62caab867b2644f7822b6ed77ba763be (-0x8e9bcbdb622e26e85ab8c4093d2a75631c7b77521870b5fbd535ad44d4cb7fdf), St 0x33e6ca030708ea9fc31a4cea7e51a03bdf351cda9dcc853d76cb8935afe28d40 0x4e483f5c46aad414994e0b389f6929485bcf01449bd933e4eba889ab31a15329 0xa85c48cdc2cbd314d2123546653d9b84c08daee3b1d6132f3a830fb2a2af54a (-0x24d864194f76130db3fa519e93bfd1d88c99064f12036ce9fa7ae1a004ab5777));
  (false, St 0xb8360cc6cdc063b952a9c911d9afda9b0aadd8255e8c34cea5444b9721782140 0xea8ff5faa3f8388607670d8a47f9548a25c9f8389dbee73bbb16bcf33432ef6 0x848dbdc7b0d457f8999add93b9f0a0db88a0a7a264d8fd50972c2f1d389f722f 0x3376819aa9b3cb106f9049818cdd232a0ec30f17e0bf0e5944269197e2fd7984, St 0xfd7bf5bda07f422a0e05e1b8529b8463b982ce1fb651806e39112f33dce625d2 (-0xef4a3299ae069b0aa0f13d8de3132b115f752f96c3cb53e0a0f4e7199ad8b53f) 0xfafe3fbfda56847988a4e16e27ca347a97e89a2c8f05ae335d55e38cf11e0ec4 0x80ad9de2a8e8696bdad92b04b01bec4b432b6c47989185d10335407c1373db95);
  (true, St 0xdbe1baac92b8e8c296421b7ba38bab637c5761e337253cc27a2eab21fbb14480 0x32312eb6b2bee747d9182e7193341d51b6bd7daa62ed3a416fe91a78eb2af66b 0xbcdbfc6dab5d7d3d306db2e8b5b7ead6281cdabb88791cd32976ebc48d530b6e 0x271efde15b766eb9c236f9fd123300bce02ed3ffbd1474e09f2f834ab66df2de, St 0x846b68ebde0fe183689725e0205aaabe7e09a21b135048e045b1b444ae5e07dc (-0x3976575fc09e32005598775ce0bc8046fb3d8512ecc8041d98b96bae0741b4b8) 0x447ef14461ab70d87de42555d8ab8cd6a78fe1e3e27b6780a9edcab9419d0733 (-0x2c0a39eba2ba646e102356c951356fa3aabbcbf752f0aef544c8d2d611e87790));
  (true, St 0xb719dd3398a1df7633ef1cf1bec03f2a790d52b8674ec98071cb3172fcf373df 0x8744d305f1aafecdb1e0c33676ded893826cbe90a87e296b64ca6867c24a558b 0x82f5fcdd3a6359e302151b95ca473367bf327f7c84e851b52eddc324f853a729 (-0x2406fa8cc172bde284ed2df2ad077bff3fe82047e5454b3aa2485405721bde2), St 0x313e2c566478d5832055e05738383712e5e5fd84dd9d5378b4e054ec3bad481f (-0x2069544e82fb3c796dc246ae343492ff1a02ceaddffc6e71ef4421bc78c22e3d4) 0x978dc129d75980763e46c7d61492972783c9492436b4b7135bcba77a64f49ac (-0x21cd70bc9a9e1a8ec2ea3c3912de63bd5c4d1fcfd6f42d37c936968de48cdb0));
  (true, St 0xef7d4b485c39e3ed5dabab8dbaab38dad2b9144131ec6f18f25cc23e873bbd6b 0xb8419d2b85b3408d8004f86901e233d942d1537ff6f189ed29c6b2ccd63b6dd1 0xe00b2fe4970cd27f6f0c99e42fff3bd177618d6260e393ab2115af285e485df7 0xf23df9a1de443f0289ddb49d9511ca5a33514821e5409eff13e94b5b4237b34, St 0x24af184d8595cdbc883c56502334e558bdd6f70d3f020e5c58a931a0016a9961 (-0x2646f746ff70f2aa3aacd8a5979e37a9f46d5a1ff9b786b26b1231bb7ef8f7d80) 0x541b6980f1f1bca1056bc5ad9865b2727f3750d9c452e7819e6c8ac0a19737f 0xead5c12c434e0d62a8545d60a87dfd21938ae2adcab66164b3b146b49873366);
  (true, St 0x3e9c9d8c93b161ebe7ad737d89cdc302eb9fcbca8bdc3161c069dbeb450d82d1 0x1b143db0a59e767487f8daf2969c6e07c92246872cf08af1c2ec1bf42acda07b 0xf503c208b23e21788e1aada2c97e1c34f222beb1137b1b978b307a100dd1c58 0x3bd371619ec266fd9006a26e242bc3333288364b564461d684a845e360d5522, St 0xea75b708a6eca9c5cb0600d2cd271641da9194ca8733768895be091602b07388 (-0x6fad536b2a85e060f51c002f9dd2a87c867423bdfd5c6980326b63c847232507) 0xd6bb68bd78aa025e9e3c5234836b93be4145c6e518e4941fbbbf711157101e5d (-0x166979bb505780d7ce3f3d6fbe5f9ca80bf0e344b0b3dda7997873adff2bba0d));
  (false, St 0x5ab832a0d5e3f3fe1adb4b69618fb13e5c3ccdc3c27f9591c88759566fca001b 0x3553332765defbdf95409ee4406fd21fb9e7058c2390cdc7bb9aa5fbb9f49a49 0x2026082207c0fff86ab923379481c7de998303fd617010b7a516e18e7262dc46 (-0x2dcacd30be2a903f96f12f623fe3b342a618138dc1930951202ad231da0f4227), St 0xce3ff82fba22d7453dfacd161dd8612a7823121cfd0bb9d8069b4a85104f9a8f 0xe4d5c3e2e33821d603391652fe3e76da70019b155b4410fe15cf8832fe346f85 0xa62b03698dd5348bacb62db3d8b85772e3e53caed3ea8a8f76bf956436bddfb1 0x581460217df84536a720383ac6bc53a14988dbb3235b9edc0ea5dfff5c4b238);
  (false, St 0x58149613676dab72bd8643146868c905d3ecff1384af12b78ca021ba88a0da26 0x2ecf9d7a6de7e2b6ecbec7c47b21fb74049bee5680ff7ed0c5db391e4408f5b7 0x1e4e28d5406c7683d75390da59733f3a78c22819bdda4ad4a6624c0e81a4d846 (-0x16df630f0b822adc4b25924e0f7f7fbc734d079539977eb19945ee717f871318), St 0xcc18980c0a830bb067973f11aa6ee7dec66a6b7dc900befc1e51e2a09608b2fe 0x7d73510e90fd8246c1655c28f40905c97877827e40ebc186b59067e81b8f0d11 0xa2b734b0b00854effe16acab593c6a4b1595380ef6a14547d04337a9ad8e76f8 (-0x7118c80266669c587d2e8b7536cd0172ea3f441b3b0df31a4b24feb90e192b07));
  (false, St 0x600c05c8e7916e81042ef4bc36a8258278b05f375a84daba535b01ba9f27b5f (-0x1c481a1ad80698bc8907d15108461cd91ce4051333af227b4852c98b42cb8b5) 0x240904e75cad4420aae556f8fb2faa7020cae31332906d43f3a54569299b41 0xd94cb7c4c936f134507067b8c36c59885f6d09c11f164aa93fcdf7a15e1ade, St 0xf4bd355edd36a46692519821e7a29cbb6e42de3ac3c144cb6b6c264d18c3b6bd 0xd0a73b2b9b1f186ee7af43d0962252f81ce2143b595dd6ad3060d459d9549dcf 0xe9f9399598dc7066c89d64b88dc2e7aa1c34d1246b6f086234b7da8e883536d0 (-0x5a11226d17285b25941959d6bac3f30f42513b7e6ecde32284ac70e7b3773d1a));
  (false, St 0x3895a57240a6595a35c23034cbc726f2104ac8f2b76ecf8e5af933c099b23a08 (-0x1cd330e7ef51101ae866b5d5f056451a94c3b50b2ffb862a465cbb3f5ec2d19d) 0xc81cfdc0ab652eb8c65829c06712d5db43a8222e65cbd9807503eb3eaa3fd60 0x5687c0c3d30d8480dcaadbbfd2662be569daf869eb66e78f6548856c206d526, St 0xcc8c7647366ae1129488d4c43947c2b5c6cc70995dcefb15f63abcfe38b03927 (-0x1bfdf126e06f828016c597b4049dd56322da82b4d5083ec2a7c2b709774378b14) 0xa3702993b6b3bf289ea75b25e1d5eff6963a78f827b7e60144f66a23d4be8ebd 0x4369f6d45f4c877a7c255fd270c33ecf323f3c58991ead0db5beb1a8601d2ecf);
  (true, St 0x880116864926970271118a2b628b878055194c51714d964d7eca36644c1a2b9f 0x1fd31e1bfb631fc1ab53a62b5a68f270aaf985f574bdbdd8d5ff77800465b2b9 0x484127f0250215b2ee29fca1ea9879c3f5809a33d34474b76f6c122dda5e4fc9 (-0x2461bf8f1e146e75a59dde6750c225b423d4a2fe36f3c070463c38525049c3a2), St 0x6738d0a6149cb3c34d8d4c204d906d0c127f1ca6d739d9f1e7250004efd8f8ee (-0x1e3071586b95ff8b6e9ba7419b3e3067dd2c9bf914a339d78f6d264f645e5b5f0) 0x299ec481c0ec2ef4c62666d69918e24d3050725d1030b6d4cd6e81172f536e8f 0x34458867ac82e2844eec89a3e7196294ae0c5c370b4106c317689e81a113e3b0);
  (false, St 0xdc382a890044fcfb7a946f66e469b7006caf87c585d2334c79966c5df8a765bd (-0x76e5ec9037fd6b9b2b76b91ad2ac0f9c27e308f0b98ea43114fdbf534e0d7d3f) 0xbd70956ed8e883d4f1060ac8f4bd5608fba6b9606b477181fe39c92703175afb 0x35114995e7410f617b1e9458309b933c968523554cdc2e3b2d67997963928767, St 0xcdd050afd5ffbb7a36ad37b8c270e226a36852de7c3177093581caecf0abd9d5 (-0x1b373c85ed16ad25f9b7d448d9258d430879beb14bbf7e5dbec1019d8c945ce86) 0xa5774abd795cfb1551c235c3b5709677d5ac1bfe746215c410b7e901b5b1bca6 (-0xf1980fdc107b02c85b294a3aa6d303416b0baa7b08c3550666c2024af9d01c0));
  (false, St 0xa841b514f6b4ff981bf8b6f41743650a8ef73e799d0478ebe4989aeb317696b0 (-0x34e3d75f410a93724482aae092447fa87a630f6229513dae7645c7c46e0f06ce) 0x6e964e89671fcc7dd3f384e487bb73bfe909ef9cfd0e0427a21ef0692da1030e (-0x8b8294794943241366b06c13c1cb4783ebaa0f46364c4f0275a14dd07e5b1f7), St 0x71540d40cbc40efbc1f8bf5fa3a5be349fe8585a697b8bb2bc9ab4135ff8d5d7 (-0x22091556832831567a1bf16384b3c18f64cc936c5134947563a66a4a0eec5cffe) 0x322b4f4c1943c2486b4aecaacf144cb631581037d4cf02f6037c779f701c23cf 0x24d9ff8122ac28f0308f5536835bc4c17a08a6ff0b8dd8e1b966d7e901fd46a2);
  (false, St 0x5272b159962afa6e7d88fc27cfb151653b0079f9977e7ac6b3435890103c0e45 0x1f15292372a5004c9a51631d347b97406cf59d502cc33847a3ce61da8bdb18e5 0x1a8dacffed67f4b6d5f3265c4f55d9e97d6997113313c8ca2dcee49b0f3d9f53 (-0x2656a19391983822fb45e4242fc89e3776a1e6c9e1f9a0fe2cb6bc0098659cc), St 0x245375b5ab916c3f5e07b5bcc4bdfbc902add1546814bca8277b1f3d256d8db4 (-0x1031c283ee901751a4a1d494992acee1d6be580dc42c9f6e57fc9eda3d6660647) 0x5279450a7554acda147716061e109e464d70efb1a00723745cff69a24e0caf5 (-0x37896a0476372ced40eebfd8d7876001e00d3c2abe9b1c87889d629aab08e));
  (true, St 0xd4bfc40113376fd0fbad85cdf4d7107fb55e077617971750f39ebb420702904a 0x61a870ad7efa18abf39eefd5043f097d42e6d6bb43c9ad0a5bfcf9370cf7471 0xb0ce2c48884e4fa0dd473d810a0dafea06f363a6d1899a03e6f8defb587a8c71 0x39a76e9328f822d7f53154cc51e0ca4962656f3c0641fe21f33c2444952bad63, St 0x465ada8f5c4594197ec1a41fb9a5a3c2941fb26bbd904b23b1f6ca4107f4efdd (-0x1194133d743986fdb869409c44294bf867adf276617dc5756092a2b71dade2c7a) 0x1355cfc4e131371d985362fa5d59acf501af2b5e6c8fefc0c9dc0895006f765a 0x1fd6d5f10970bc140afa10e0877c32e38a4e12b9fd07f6a2ed1c867377dc9244);
  (true, St 0xe81e4c5d79fa725b725e495766e1d8ae8f6a1c928bb9f051782598fe21109424 (-0x237baf0a6ba04c0d3854597bfadaa6ee267ea7b9cb2cb31a4e5d60e83a1dc8ae) 0xd276ee003c3d1686847bf304f70f94c2d1952e20d699cb66faf7b8143b765583 (-0x5a22628126747f62bbe2ebf00239bca69dd04584e6b874447f9183db01261c1a), St 0x8f19c710b292a177b636b77922370d50d5160acf69412db33f744ba9c5ab519c 0x55cafef78c679f4067e24694f6f67857743b9126e63d00e663279ddf8afad3a0 0x4ffdcefd738b76bb306ce82dcaa09c22d4b7a54243754938dc1091c06e986261 (-0x1181152abe264ada806bf604fe8c1df95f545972a33bf0be4cb7d2094a3124d7));
  (false, St 0x60c3f8fc325d1e88c477eb6eb0c8c1a212e82ab6fad3d0517fe7aa1401a7ebb4 (-0x2887ec9797738fac8101710a0c1826d679abd4487a3af9243f2c685425b035ef) 0x249390c28cb7bb8d1c3f05c602bf13f030d904d47e324ad8a0b1209d807878c7 0x1b88ff2f1f950ddd7b0786e1d9016282dc7226a433c77548b069e2848d006e05, St 0x26276484a3593ba51177aa39e3318ed3856d0cf75d89ff115cc09705f1dfee8a (-0x19908664168e104f2447ab5785e738490ad2bfbc7e5b7aa0a4cdca63bfd1a0f74) 0x5afb7e72e0fdf22e8b439290309172e2e8ebdb1177202eccea6ec1e9bd1339e 0x95b9e6eff5cb137ba1bf1937ff9efec1e8637113f07b5cbde1b37f66d04c29e);
  (false, St 0xb2cbd946d2cfa975161d833fa9bb6c5f513d6041c6ad45bb2212b97dbe71fdef (-0x7064ce9e76cbecc3ad4f0c29b57a2d63a16cf2736653228e263859d4c53c640) 0x7ce01c7948c45e7262c8e5497d780928faa54811ca5f33315ade404a05d1bbbb 0x4a6c9f5fe48c5f94828cac282597ce36587ef71424683352003441770d883261, St 0x93a5240bf2d54ad6d6783ed7b93ffb42e9a77f6492436ec5042d67e49283d5b8 (-0x43cdf024102fa1eb9051fea172ee6e0fcfcc8d3ab56efca010ebda1c0745ebf3) 0x552711ed8a8269ad2a52b4e86d83c81920354fb03c17c5aedd419754dc82692d 0x4105d3e51c47e1793d5c4af7b4147e9cc48fe4eb7950ecf147497680b5f3a2a1);
  (true, St 0x41a1dafd837c153b11e257aa142854377bbb2e3b17dd1e5e601b947c15b1d30e 0x195b784ac9435cd243d1ba4a5eb6e367ab0cca741ed3ff8fa0e4ba98282c791 0x10d39789fbccbb61194d5e239da3204e85745a341ded4cf4c147800fa9237e10 (-0xd9a7d847790f8649872d91fcd3e3a43d4ba17927722b5150a8faa0e2c0b48fd), St 0x7fc395845b11d7ea1a6f3601fb5fb598155e5cd51301f8fb30c3d95ab8e5aa97 0x2c778629f04579a70b9bd989605b3b4e963e839708bf766a93ef8469f039e3ea 0x3fc3a3c6b1156ba0765341cb8d376274fd98e12ebb02273f87e941c1b932c2e7 (-0x291cce8e21a5970a43acdb6cf563f040c1520e806912c2e4cfd4fdc6401b3559));
  (true, St 0x2b481c5964cacb874df80b61b331bdab5dbb575ca6a76790f63b6e53c5197f6c 0x600692e3e66e0d8f057159e695c4f776e8bac01cc097653d346921a15f1bede 0x7514dd60499cd8b86cbdbd8bc8f8aa1f14e7643816d5c13593782e29c2d0508 (-0xac8722c2a9b1cc69c63f708bb9194bb9a776768c5ea8e4cd29e64355f6b041f), St 0x894615722987d9453ad37bed0fbaf93d89a76eff5e6f3e2295fd44ecda9c7027 (-0x6380fef2464bf635e941d22018a232f30a85d296d6774a27bf7d95d7b183e99) 0x499c1624364a20b424e039d992024f12363655556ce134ddd197b3c97cb05b95 (-0xb89f77a34a51beed40f8703ca44e1b8de563b1487c968b67a75b094846d1ad5));
  (true, St 0x79ef773447116ebd88a23068d4d2291f5fb45b7ca4fb346ac01bb9de2c8a52e7 (-0x3388304de595185ba1319c4ee0af2e1c4a592bc7dc6566bf89cfd818da1dc52) 0x3a143eaf706110aa4f1f2137ad6cc66aa4f1d8c25951f3f50332a1b9faf3250c 0x9dbe2f564ad14dd9498570719896e26c54cf29772473e2892a17fa660f674e4, St 0x35803d71daeb0e7de924f262bc1d4f980c0939b1ef6048dcfc7d516ad6e2c58a (-0xab7b3d91e097cde1af336ba70087ee86eea9e47e3f8e63f5ae009bbe0c395937) 0xb2e59aeb06e0db449521e1a58b4538d5ccbdb72284567b08dd06cd80e016f94 (-0x14eda463680657a6dd23f6c6f05784de33fdfeb6c8008d053fcc5209a5223730));
  (true, St 0x5ad78ddf34d6fedf49ff8fd28cd8021b86edb138828e8bf3276b40483c6a2b24 0x287b0db8f5687cfd9b93cd348887b6698b3f6b81a852b03beae0bf3471496609 0x203c4540acedd4679601982ac88e1b54898f9f0e94bce3b87835586ad491bd39 (-0x2f4409e0d4f85a36932f81565a64e595ae9f56d75e7fe140d71d65637548766d), St 0x6cf0eec7051758dea9bc0d63b195fa9b130dbe9a40fb59572e3586ef8d7767e6 (-0x222d504407debfae70d5dce390f2735b46bed80e7a3ee72f86e9276ed1d684b83) 0x2e5c2c38ae88132b5484ec3733803b91f7b5f204ca49f18540154afe7345b9e2 0x5ceec206ff9619eaf760b356a4e7b867834e1780d46da94678a5adc1fa1dbc3e);
  (false, St 0x8d1ddad895beefb3130913a0ccbe74a8ed846e815265e5e29fba70d7e5bc3a7c (-0x82eb93fc2a23b72dcc359a47ea89e30322b436f796223d2372597a60fb525fd2) 0x4dc9e68e32e5be21b0af734bc8e98e01600006ef23a76e4bff35678c49723278 0x25e370be4eea85f4d951bf22724c1dc97df59ca8549e73c4adabfeb3918d30d, St 0x7c5dfbc05044d97356967e903a0d34c202b37151b55fe3c7877e513132ee7286 (-0x227d39ac0cc035fedb45df35721f957192c05bcea796ed7186414a78af5c0b757) 0x3c6b2e636b7ae0f06b97d9b9ff29677a405fb3b4b9e514c261fce9a9be19f36d 0x4272e361be047e2cc6ccfb2c9492a9c51c90991e5fc9b278b8e24bf83253add1);
  (true, St 0xde60ea26f2fc3828f3764d5802e7da10c5cca5bad6ccd0e10b8f80e417aa19a3 0x73158dc26ff390c9623433280e682bf967d7caff52d8561ee63664ce237f3df1 0xc12c3accc1fb237f45f40b79c0c5fbb73f0d2ac1c65ec20426d26494b0ad529c 0x50560d4b7d12afcbd607d4b50d02239af1c4b58af61fd71ea1fd184ba6fb7d45, St 0x915040433a5e6fba90e95b67370e39a27f82c5bd05ca8f5ed4491358bc0ab1af (-0x1d9a21699806f208de1667a95348c1883feee39900fc3f5f93d6321dead390a89) 0x527c01f4b4c1266261a2c165090b0f29d6d01e263f8679b5c9deab6e1b8efa82 0x7661fa2df6da7bdb7c73785bfcff1ae036888c9e990fa43c2e3126ececd6d5fe);
  (true, St 0x21b8dc0885b3278ce52dcce7305db83495f82b2394b163e79e601e42c8eb7de0 0x22961fe01eb81a145dceb1a2b935a43a11d7c57c04f0ea6095c6bea56ea6517 0x4712e3740483606f6768fa7a34c83bf50cdf3d7be029de026fbc07c6365d609 (-0x1d96511e89308701672939c71d1a4ce713d3f52ed53a2c65d17477c4ebd6a039), St 0xff8083b674d3c4cd9113696e695f20cf6c6a5c92d28660ebfbece8f03a06acf0 0x7873d57eef6cfae8c9f04f4c081aaf1d2fe1a882ea18ec6fdcb4d389d03ca408 0xff0146ea75f83a5ad96383303ae33cebd9fdcc09163fd6ab72f90996441055e2 (-0xac6930e7aae366ee50a42a2d9caf44f7e6484b57064ab9f2bf8b728ad41dbf02));
  (false, St 0xc4223a586174e096e41a5813cdd9a8f187438b36c74077bd9e5c6171945fc50d (-0x1b297d2a72491e00560dda953cb66b96b3ad662b1f79163e04ed3dbf483c0e62) 0x96446deb78457389b29682235b71a4bd8e866361a1180dcdbb21a4fa80cc4acd 0x91629ffab378d0a2c935e16c6730a25c386de568c975bded34d82418f1a6cfe, St 0xa6c7e53d320cbadef97cf589e6ac6a9528b3925deca3642c1c8253d5b4124cfa (-0x26dd75c6b65df4b1c8282d96f00891f305ca0fb95db03bc130aab9ee1e8006b8f) 0x6ca7d961fbfab5b0ebb5bd411ee1f49fdc67911442d705268689aed73db10f26 0x78a1066bfc21ae7abc2b775715ac0ba82e29b6b122a212a147d160b638ffaf82);
  (true, St 0xf5a72e0349d681b4ace2d81972e8fb488c9baa0233f725720c3cda307de7d828 0xa64b7acb8432db90b54f50e49917457276c4994197a80c2488154557175498c6 0xebb96b40479d83f44f77dc5e685c6b7f3a120dab8131182b3eb2393b2d7636d4 (-0x484071707c3a4a578645213f96f5a7064175abc6c24b82fc85b4407154a2a8ae), St 0xa6b32a0db874b863307f39df82f8ff8cdd0980e8439fb784ff57d2504d24d104 (-0x165f52ef7d9dfded8227430f34dcb3475b18128bda0e5cdbf0cb99e30ebc3b053) 0x6c8cd7ee0ddcab8aac2de8d84b101b3ddb4872c7ccbd3db44ec87cfbbd584986 (-0xa1c6d5fc24c614f383ab6017911c9162476244a3a30ee065a24c09ad879924c));
  (false, St 0x55fe28874fc79269920f55cd487b8c4c1691a13d718017d0c740a1a97291c056 0x2622e8be62f4a3459e237ad8fb2be9f22eaced2af5deb74f6aa52ef183e7e734 0x1ce2c33e6aca2af28d7d9e0bab311985d37db15ce5c79a33f3d1fc0a03090def 0x147970de78466450b86152a66bce31ce834d2b8027ebe7b6e46d15360f5e7d54, St 0xa2513232ed1140583077bc68b2ca5adec575d073589932fff28c1c1d54f5355a 0x6bc3e4ff70e8725f620240a6f31b00443e87199045a646b152b507ca845f9971 0x66eadd49a906a65fcaaa86fe782bf7c91d937079e5db51acae7329356a63f9ac (-0x32991c7dd06dd5572df36418a875d4cec30c22b7b35c7c4b7dad100c46b83426));
  (true, St 0x698528c42c0e968ff718e83fc50279f36748dbc94eac5aa6f6836b0fb592916d (-0x3a044ff416ad0b112a9fa9677c835c87b5b7e5de2e2280878e9e9ca080fb5b27) 0x2b7e80b479f62376e5b95f68819624daee9853541e19734bce532f2df2e34ed5 0x389690914433a2d67de076bbd5fbef03f70fc9084ecbda01b0c524b97ba25fb9, St 0x32ffbce13bff3e6e9b37235dcdd6876728a99b136072be90cba67c0e8b7d48ef 0x9f7e53875c81202dd60d43e80799640453bcd94b68523b02af5b19bd8f67ea0 0xa28e541d9a9b66ccce96a7e4a83e8ac9b59e08347819dd905fcd3d7031858d8 0x44d4e3d676cfba6b8479458685180b7095389c7d518550d9be702237fb2bc4e);
  (true, St 0x87555d9da5c2a14d466ed1543a3a1e88e16f6928492864fe6f11d13a72bb2281 (-0xd3f90a0cc9ed51e039751e10e6b4139720b484ef7ea2a743efc5e485b0b349c) 0x478b2533d94a6a165499611bb636c52657cd546b9bd523b73a94265b0d3b20b5 (-0x1d221a5e51342a780dba22654d6df21aab490a2b8e571216fe25993049ae35d6), St 0x8314386e2eba15bd29908f0f9ce4ed919bf394b608c80661566321e7568dd5d9 0x68e05ebc7c9563800dbba75d0898b643d4a5c7e9ad3cf57a6ccd16ea1a2bc4f4 0x431db359e497d68a39876c03346d1881b8aae0656758b674a248e58a353aa9cf 0xe51c6a6d4f9c661c7fa79318ecb5f3e2ba66045dd86b8fac14d80d806f985d1);
  (true, St 0xe7483842dfd53a6026960f00a0f241d0cd870187d4408930b23e3bed5a7b8ca1 (-0x61b1eec7a2559ed084ec0a3274fbe671760ff94260acc8ce5be7ed55c50c90a9) 0xd0f369e932e1749834d7e5edd53f888f77147c85650e682fddd2880a7621a981 0x4da0eaf2daf9e3cd2b0fec4474dfb5b9830c3f7d92c23e71ed6639df9d4990b6, St 0xd9b98f0cbfcb736b6a4f4d8267161af323cc604955ff0064bb13395f8d3833ce 0x132a4f74190ba123f144c9f230a284d1c0b18a7b4e066b52ebb6ddff3e7663fa9 0xb92c1b0466af77a46eb37f663a4e10cc1a992474d4aae06e6e54db56c6334266 (-0x61c01a98268443d97e8578f18d5950841388476bd98b414833ddbe1885601c74));
  (true, St 0xcaaba78a79a5f73cc1b188a240db8e3ca07ea80bd964c897699b919edf66758 0x4968523909174c352b94c662573e42225beabcd24e9174bb20bbde488d80f8d 0xa07357806911bb01dec373d492aba85a3c5c69822049555343da97445eacb6 (-0x2ed30edde10fe9f3d2caf5fb293a46ec34ac0d20ba2aa93c33a5a45b64a1c7e), St 0xc5a5407a1aef4c73a05b203feba8fac3ebc16330d3a343b576f5deb64089d456 0x1b0ae5d4c8026769a2c65d6d542a74f4cd93d462c676778a9a99926aacaac579 0x9897bfe8b3b00bbff2156a8aebc4b373a2351a0672ed9b650d1556aaa6c4f724 (-0x58659a7bec8fbc78a231a37afebbcef1523d5b230be211bdbbbf841e80d65384));
  (true, St 0xa6dc55df34124920eb4668e26f512102cfacc5e428e4f73797117cb499e6ec34 0x6083b53e203b88af1d95133771af60beebd1340690229ef8d743ba4413463c69 0x6cc27d0198b9ae7574ad95182ceb04397860225e8f57f7789ecf406c9f4f3ac5 (-0xb9f2bfac7aabcfd21d2d68d6aa232b644142e933a25abec07169ee97a1f1a72), St 0x4598064e98e6f8968a8a57f49407ac6654dc897606d9330a0173929c7cbba2fb (-0x2bd58a60be85ab039c6ac62884af4a6f0abd203d0f9a4b8ebd0c15d2b1d1a5c0b) 0x12eb4dadeed52942911695183953a5d74708109828a251072063005dea6e3533 0xa9ae59a2c1fa3dfbfc9e8e9604d364510fdebb4690a5444f1509f956531325a);
  (false, St 0x35664eecec7b78f691d64d95f73611d7030781e5c8a3826a9d304008e7aaa87d 0x1307cf62304ea846fc607a5171db0fef85ff4a2abd2c9ed13d1d770c41240580 0xb2385912230536bafbcead006cbc232e5cbb18ab42a3ff347694b418f6ba0a1 (-0x1d6b0859328f47cf8edb277fff0532024f259065066e1579199ed07128cce23), St 0x55a37535282ef06596ec045784a38acd0e7273897d24863effcc67ab1606ba9d (-0x6043d0816ab6b52994dba976e584abb921adf29e2b01301c8208fc3d753a3ad6) 0x1ca5f433e0afed61ed1bfe5cf110005c39830b2a075c3bf525c3d483c91fc995 (-0x23dea6abc0059ade518c40f9bd969838e3cc6cfe58b98c1e4fd4f4a69bb5fcca));
  (true, St 0xd90903934a9d82b4665f651e70cca23aa8707c891e65f1108222ec29059efabb (-0x536eb523b9b4fd15f9c8bd7be182add575c4d55475fd7c09ab7da2d65efe3e31) 0xb8004861ace7578872d7c1572a6c89648a68f0adc38a7a3e2a970bde183ad344 0xba9c78dea53104a71fb0b98df8c1e28f880832f688e50e5021fcd4c237c0fdfc, St 0xc37336f1d422c513f4e276d37730eaa36ecabfae574ffd79bbc474b2178d37ea (-0x3b9a12eae1e1066b811b816680a4fa98d9ea61f6e543f522151e5a8e2910c950) 0x9538b98f677532f80da093ea2addc63190469831df77c3db00eb151dc0acae95 0x3f3f6316dc8010027df5e70e3821f07d88ceabe720ed5ca1ae32555ed38e3041);
  (false, St 0x1aa4cd0bae92c932bb843484172e2807167f80cd45d53ade2c195f23180b4b7d 0x40b67e9ff498572a68d8af2f700d12148b5731f4eaf59756a450b55d8971cc0 0x2c5e3bdbd6f16cd5fa4b776ac87131aca3f67dcf7ca11edc1993d858a078fe7 (-0x118bf6ab12e6d970e7c568f484183a0ea2ee62de8c72c121fc24ce6cba9f959e), St 0x4c83e2669a1e9f65434e9eac56dfe6a05a77ed88ae7efb2c1d6cfe7e0002acab 0x5bdfce58132a90b08993fa17807864d3771d846be861fdcaa0aca915e000e9b5 0x16de925e7f9bcd96e8f576dd28138d126a500e8c343e826bf95f59f2a02aaee2 (-0x7d10bb7c6c9db4a3bd5d7f66dab44ce55470ee09b36a8d99da892ccb4c980e0));
  (false, St 0x9b6b007714707a35c82f459e8ef01dd95f36c043f129fbfdb96ae3205f0d6c4b 0x5679ed18e0e556ff9b49bb2116e6dfece8681dfb03ae8a28c33037ff3dbc7b24 0x5e5abf49f4a640b0e1dd79bccd7a0daa3b64a8c516bcf9fe404a8166a9706009 (-0x363e80f725bb7512824fd6589c0a96afe63f2356df9a36762f7adcd10f68200d), St 0x3600c32529814c99cf458eb99bd84e8f2c981be344d6e1caffdefab323a6db93 0x4d42518e6741d6f14bcbd817c171ebe4bba3eec33d1954f7ae8861811d8a776e 0xb6452544da881452682a938967649766ba7569872ba81959ce1cac780dc29d3 (-0x1a35ec6b6b8941829483c4ed67bcf1e39e6825fa19a6ce99773708139ac623bf));
  (false, St 0x970a06745752d9e27dea0349ce9d0d5e2a0d14c77c50618fe4350498a7ea6b9c (-0x14978197e642eb8f5841586f9b68f82f2ecb0893cb34b0f3a85d90beecc05aca) 0x591cd40219610c7b19959cb3a80fe4d4d8cbee623a4ae5ddf6733732795dbb6d (-0xa954eea7d9726910d9800ab0a0c108e6878044d95b8c7bfc6d1f549bcb93e4a), St 0xb7a551a14bf2b5c30980644e19f2a85dc9ba19e9d7e902a13c55a4145cd152a1 (-0x4ea18bd053487267d94d00deeb17d83c9c92a0cac178c4d2c87f03ad55f8ba59) 0x83bdc577724623e2485e55456c32b918e38c62f010b597058285795d78f3bacb 0xa47fbaccb0685141f543e4c0ab06c007809e1a6cbc3358ca9bfbca23fed649);
  (false, St 0xca69e341ba85c690459dbf106217e341349bcc2b5140f1654834c480169d5817 0xee42998fe59ee11ed221bbd9fac8ffd23d763f48b4662091a16c783ccb67740 0xa00b4670900f0731fe3328d8b0696cb4ef63abb16812d7656aeedc16d820dfbf (-0x4e58073bfe4d82ba8d706e2d1bfd55890f147d1c768f9d9208cda51939b01246), St 0xdca36fa466c11931d4b9e3b86d9d08b5f9dc67904f8cf6f95b5359ef0ffa66b9 0x92e59ca835e96aa1c4330542a94cee0e08f807e5830e0094e28a6c5dcffe5121 0xbe29503aaad0081cec3b0c0bb173db3b02fecb8eea0f67f292177057ea88e762 0x582c50456515a96d45926bc953c1b22945dee49c38767867a8182113a102e722);
  (true, St 0xd6a6058b6b5b83c7b1a54093031809b795305bc614a14fd626b17785feafc6dc 0xa8dbd5c8b121f173949e9ee39e2fe54eaf9980b9d7d510e621ef54df01d63656 0xb3f9fcf0fc64f61061f22c102da9b23b3716a667cb8b5b69176650a1af8ac329 0x104a66856a8ad22cf71ef4ff40985950b7a1637bc561616dda6a62f0e6a397fd, St 0x5ba8b0b2e23ebf2c2f87af6a56bcf6e5926cf8454d3ef025301abed8fca679f6 (-0x25202049f14d6d740ca473f805ca95d23ac0472e27fd9c92682709bcc60edabec) 0x20d15cc7b2695f2193724edd8c3cd4693e56e96c635f9369948e1ad7d37db716 0x3af03b3939aad089e4848d98e6ea769036405f8c1c36c305f5098ebf2c454b5);
  (false, St 0xd27d2cc7d09d80756d9198b477a317710a0874b6a0e56e80719cea6b89993760 0xad1a2867a44bca56337256269aeba27323a06edd8b3e8c3a627cf0dd4135737c 0xad119aad424b06e8d2afb0d2cc4d237fe0878b2d6b9e4afa6ee657d0b6161845 (-0x30d5ed834b9a341e661859bc8ddec51c16e943fe6c238175a332c9a47a1c0afc), St 0xfb6b5e7d6d1ed63d8d64ec1be2655e9aae1106a9131946baf34cc41943d474ab 0x37015702fe54a41b529ca42da87080bd1c7a1a74d1d44767e03d42addcab38d0 0xf6ebb8530a9fc1cc4261d4eecb1734c8f8131a041a435220b9519e4d646dc3f9 (-0x54d3219577bd4acc1fe6b878f74221788ba194b128e14d89f33925e530d85cc9));
  (false, St 0xa719510851acfc61fd0f205cf4594422d04eef302b1fb14d5712d1a41cb0ab4c (-0x119b916aeeec40110623666fa974e73715ec4fe48986e2f8607228fc7668bf20) 0x6d120a3a34e7f33f97b7c7107dd18b1b3a3cfcf3e1a91753886038923d456c5f 0x248a3335d711e575ce28c82cfdc41671430ae3a252522d026647c536d07a4655, St 0xab885a13bd247429138c9d49d5e87b4f95c59d1ca5b29225482870d362bd8210 (-0x1a9c356e8c6d6712359f99ac7ea9af46710d03e22283440875ef480e55ff84d3) 0x72ef70f6a648fd63bff124822877a654ec12ce59772b71d23656964789f46c06 (-0x3a876305a41cfeca4d01b653903dacac7adbcc097e1bbf4b4dc5da2747d50d7a));
  (false, St 0xaae87f298cf5dfbd845e36f9f741239972ff9f7368ba0e15dbe7e861e4677b31 (-0x5fb0497c5c02e3cf66f93fcb4d7cf2fa85f35a6771087da7f24abb5bafc3fa2c) 0x72199c0a5bc9e7718d5ae41600cf66c016b88fd72036d164bf76671a5337c0fd 0x77c08fda3303edc4e78aa6fa85b1125067f65357094e529dd625fb3595f4405b, St 0xe4b31716272877aa6d53c5499ef8f6ac389992c0496d6a647ca04654f9949280 (-0x48e7a4c2eb3c40b5a769ea4e9b70c2e8e7123111ff2e66ad89a8982a8ed69db7) 0xcc4f7e698d1f531bb2547b0e8fafa619feefa8ec0f998e90cb101e5b1034b34b 0x3e2daacf85b5d0492120c1f82a405f5eafd52ba2306e9710a57c5f1b44918a94);
  (true, St 0x43991c158dc36a286a2682a0c59eea738bcaf10f2ead894e3f53f1202ef15f16 (-0x1cfc7d6d69b64ddc57eab09874b0a66ccc750c3fe2c5794ec281674eddcec256) 0x11d98045eee5f63f38b49a56d6d64538dd9eb9675d69df81490e95e33f8e7519 0xf1ab00f51c73fc0bdd8529f282c38e1354d3bc28c78db6d9077888eb80b3e6b, St 0x8dd3fd8a44971dadb355e914f07a959d183aefb24d863dbdf0c6c73a7b674d86 (-0x4b1bfdddb0c98fb73dfd6d5c455680fad4bb34a84c895729e04d624780895c8) 0x4e9334d68b2952e3366e552169a326aeddbf53a9f05b6dacafa3b2e0dfa4bd01 (-0x180bd3bb96adf2961f9a899d89d22232a5a290776fb33f2a9f6827098ee80bf1));
  (true, St 0x52953847b1abd54894a2a76c79c4078f106a2fdb9d2c01677f715004031dcbe3 (-0x2f535adff0685a8a8fc0be340f56a3ff5b56b5374208f32642cee4a168d16fa) 0x1aa3ef08984a4780794ab09edcf168526c6f8969cb4488426902649675155946 (-0xa3be837749738727540e7d70df5a3d6bead1dd42fb88dc027d981178adda12f), St 0xf87f6b17c2aa9ee9fbca017fe740a2631f1af628f45362f5f1639b2233ccada3 0xecdc190b3ee43f2d2f824c481a3cad523d9d14b1d4883c3414edd8900fa75e06 0xf1371eea68c1b707ab10fe8abdd75fc95252f7512a1efa8d0dcf3dad400e7044 (-0x3c513e2be590e7c7d0316ebee2c86e8ffe5e9a91027a9c9b76cc1f881325839));
  (false, St 0x5da6faa3ed99250343c073c83e4ada66ed915eedee1993f83a41624483520cd6 (-0xd8a124f875f0d9ab10e56ffbfee423739dff6b59ac9a774a05b4daa485ada6a) 0x2242bf053ee0bb8d05e81adee3e459c8dc911153b3a1130abb310ee027ea84b4 (-0x2e9a6e4401e50a576926451c6103cc35822aba0adbcb82a505f6d7b2c17b7e7f), St 0x8aed34229fd9767846f01c75a3c9986d9873972ff1a706e1bc604905668f523f 0x54f0e52f26f2a3affd0bfe0719591fffcfb8c8aa4601e23e5c9cf0faab7cd494 0x4b6497ff327519fd1ff2e7e94e1563a248c7ccf36aba3b32662d40fb3eb5addb 0x2121f0e9d5590a119d1691024869b911c43f42bda43edcee7c8b550d090ad310);
  (true, St 0x5d536f63123f148695ae214c241b7407ecbc1d5a35535f78d3dc5253519d33ca 0x44b2b917320dbda4234f9159539b592b2df8d90745ef2ac52ff773ce01ba56e6 0x2205ba1f87fc741a4fdfd1687ffbf82442ab7fd8a8c7535df4bfb3b4897bf5d1 (-0x3619ba76a1cfe139d7b4f368953f0533c25b78daf48145b5017088aa9d6a3468), St 0xc53462271f42c925469aeb367ed2e166bd5e06dbe698d88082a28e0c74c8cf4a (-0x24a59ceddf152e5d5d0b7cf3e7d05dff1e58cb0626ea90cc541cf918c410418a7) 0x97e9a9c8d38d2066fd9da51d130b78231bddecace7d4123d75f91364de086de6 0x8872d1c22c7ae539d5c9988ecf72ba5f6861076d825464b07e8c8b890123127);
  (false, St 0x138e110237af19db4d8e813a2b8cb33a1bd308c908cca47ad9612cc49dbcb675 0x2368abbf2049108c249807648a97a3e9ba485eaf3d5bd3cd05558038b231eec 0x17e655d355974de9cf07d6221bdcf45a231866226d9a3a9e54f8b18fb50af0a 0x1bd01ebd313d736daeb7bb89fbef2e01a9db7ecafd8b907c327e5b5e48be78e, St 0x14232c7fdc06ae16b57f21d5338f214dd4b5473da51fe7994aa910291e8e637b (-0x1a61e97600f0ab88b2dda0e3c663f66dd8aeafd09ff0f4865ce2f6b795d477cca) 0x19583c92ea8ec4eab38eae17c153504fbf7a6d6cb56384bd368ca8742b51a60 0xa211aa66977dee2a5c7e9ac79b796452b0dbabf8762d25d6b28888b758f3f59);
  (true, St 0x45e48c9dab4940df1cef7981f3a1cdbe0f25957b5857ffeae538e11f8bbf1d9a 0x1cf198ff8866eef36624295046ef354ba2fdc9871b8ef0af1f52fc290ef8e7b4 0x1314ffd7d7806bbf40d898e7711f47f6fd4d30390b06b042a43cfe8585541ad7 (-0x78cedbc09d23e507cecb910ee67eeaec5fba6e01a57b01c2958285c1b898478), St 0x66337d3b6382030bd38301371a40fa1b46605ebccfd6b26f747d7b4fe6b926f7 (-0x15e63aadda6ff44af69355a503cb009557ae3dcc7f0e0d7735d6c5239e8b06cd7) 0x28cd12269f055f55150fbcbc862065212a84f16934a307db150dc006e5837bee (-0x9a208e8430608f4b1bcdd9abc48a627223383cf944231c63553b88ad30f69da));
  (true, St 0x7b7b2be1e78fb82c209c10eb2d0c64f82c06756d6fbcb8b77b7d3c972f0519f3 0x316f429149c6efc0e80de6e82391c0b5be23901a000f67dc02746a9fd811d89c 0x3b8f976e82ade1a6ccd0d8073214733623e8f04baab7562a2299fbb07ab042a9 (-0x1ea3b9b74f7cd5494cff30f1827b23af067e5e361173c1e62d7d28c8dc8de667), St 0xc6db63ea95f49728917f96c9b6e30e59f37e49750acbdaa8086efb85df7689ec (-0x1b4a14d2f5fef6009ed9a4cc7641379373d94836847184dca21abbf30d75cb1a0) 0x9a781a9394ca4bd202b0d722d5c11d0507a9d511ab00ad34c1c77c52354e5790 0x1f6a404c6259b5c044390883bc9dade8341a2c284a4346d2791c9304c86be63d);
  (true, St 0x96999cce525f98f8337504f5c9af98124882ea42cba22615838809a46b8f0071 (-0xde61d04367e396faf7a05502fa3f5a30513ab0f1fda91ed076fb66e7259e93) 0x58985feeefcaf8237af74bbfd4458cd9faa6dcd5ac65bc52e0638faa2532559e (-0x255d57ecb7a81c0c5929c1f517898f85a3e1cf49d267c89b2c76d23420a232c1), St 0x34b698e2c047859db26b8c104a2e7dcc3ae72b69452500e7b6eb529ecaadd631 (-0xdce48b2f657f6f664016772ad39ab6edfacc23cd824fc15e2d03f6fb848872bb) 0xadab059e6af3180e5e86daf6f93c486c390fb36bf65f25155a16dafd3145741 (-0x6288ddf26af464a704134503d63fd1a486b12ee4f7ae7ff7ac0b0bc7b1a2e48));
  (true, St 0x6774e1e808c4ac27e91dc89179889db8a05a2d6b9897432a23e94ada5da379a7 (-0xe2d9bf1a26787614ac737b13edb01c08fcadcb630cf4ff045c8c7e7392c99a4) 0x29cf4326627f29a3f5d432d7d6f6d4d8e59162074fffebabc0ab0b9d9fcc97f3 0x1cc60bce4a6b81e650a8be06ab98f8e95802a59708fd7b29f0ce217a581e01c8, St 0xc47fb5c3d93e72bf2857a194d51867e5f92fbed96bc4438a289a75134fca90b8 (-0x862838a76733179c53f32a1ade576d31330f713581544c3a124a6dc594e55f97) 0x96d3ce0a54db80bb4937f51666bcc8c759be6a576e0ffaadaee9c6a5af43f66b (-0x2c5bdf95fa9110d653eb91ba1ef988e23eb21a915756ba47b1fd896398b105e8));
  (true, St 0xc6591bb8ef7316e7baac919de0916c5a22a86af5cd19e330ca6c0a0dd8ef60f4 0x48c247837ef8be4e81cb355b089a41fd7c03dbdd45fbd884db20a9ba99c7e48c 0x99adf5e6f5ab03761a1db1cb9f2efc2778fd1e3485066074e644006422017299 0x139907ff057b6e921fb44f27ce44c9beb49cc2614f641eeee169864001f94a02, St 0x9b0d0344691e046fbd812bef3f12a22bbc3b20093367814f4cbdd0ee271fce2b (-0x1b7d176a7033b1b6d766e3dca1c9fffb1d70499e684b89497382324e6315edcf4) 0x5de8c29e8a3075c8a651fa72b02d7e85e36b09685858846a0d28ec4efafe4c48 0x1426bd9a78dd144b491a83833e7efd6595fa6b70c30f6ee9f5ba0b154413665c);
  (true, St 0x4af74f6e95a474fc9114c144936c009a48f48c8f378de16c2eecb8a5b24871a9 0x1929d1d7b06fe7623aa3263039fcd1f327d85b201c8fff24d88480831dd325cb 0x15f3e8d664812ff282ce81504cec8e45b4e7b80bead2ab6f174b1b1349d91a22 0x1beb7735205f153e2d368f6fe17a631ee5dc827d52f26efe53393daf68af57cd, St 0xcd3486e41fcc340cf769d3dd35af3ec2ededab7ed5ebe9ecd1cda9a368394c68 (-0x7cc8c3807cd8d3305651a72b5d8647631e608109dcfa85eded66117551ec86c8) 0xa47d2ad1132abdb4c65ef4cbae84de2c08ea3082f18995a551031230e608cc09 (-0x1b57e860568ab5c1f8a1bd79d49f1656bb264ec465c7f36ef76f4565932c2c14));
  (true, St 0x7078c77c78805b816535048f74bd4147e0fddefb60ff71497d5b4e4b39700685 0x5ea0a7858df1d34568ab916c6be6dd74a6580c0df0a6785542a21947ae7202ca 0x3169e788bafdefcc0ec5b4cc89da6aa9cbc06501ab2db4f5ed4d6bc4ed309b31 (-0x429beb0e4bfc7669823ed9e22724d70b404637e180e7b7fb827a0243eeb1ed8c), St 0x5b22d8e768caec0e2f82ef4974c0c23b2767c27c87493ef6458f8d76c7cb21f3 (-0x2ad65da78ec1477047da40db22af793299d0fd511025225e0a49a34f74fa89fe4) 0x2071caf2fa3136b05abe930ec1d0baadfb8a8cd71fb18f8424080596c2830db4 0x261258be172b306564cd4e35fc50bdcfac36b821180350ce9ec7ac65498f0e88);
  (true, St 0x2ec62f241df375fe7db160b8e03162c67c2e93b0ffebf229ed33777cca402036 (-0x7e332b41ff245c436ea68351fddeba7057604ac43c2f8873b5d79313f37362e) 0x88bd25df7dbed77bf73fa3d318b19840fc90b1ae1287ca71d7920f55ba3cf61 0x1511a1f0b016e56a5d98f397bf6d0d2521281570c80f9c4dc17a49a916c5b075, St 0xad655d61bf3c1da407702cb69b1e4dc3d27116c29eca551d695670dc7b1d96a1 0x23513463279b9a191c338c6d702d1f3463154fa45adb41228633931f08ddabac 0x75722859631a781c2b1630c2aca314d67d16ea5167c1269235331b9f7dad9fb0 0x19d2e54c4f9f38eae7409545771ba7c961ecd2560b2c5f39950baf10b925de16);
  (false, St 0xa821fc3d60cfce53f9c584d1d5d14349bc4c800e6ed1114142fce8a6bd70d18f 0x165764d9ec7f6bd162b82342c7d137dbfec979da63f095cff111110706ae44ef 0x6e6c9f93fdd939455ec068213aaeb2a3d584ddfde8675f715afbe6ed11501482 0x2b6824129afd57601422604b711cef039c322044ba9968a438efcc426e204c0, St 0xfbfce791f844ac8996247b0eac66b05e9445fd61baf63f5a7eda16c3d8694bea 0xce1b9554c9f036e3dcd552b47b1fb04871709a82ab5783cd53d466d303b2374c 0xf809e7f1edba1ac18eec357947d661fde6c68ef1e83acccf96a59d95a1f4e414 (-0x702bacd91c6b8b455bde667280b62159d1eeef9043235272d0fe72ee050db0e2));
  (false, St 0x9e17dc32c39ed953d1edf4b422152d5831117e0e463f5bc9fb021e81979f6046 (-0x48eccbc0319b30cfb9dd39d304f0df541e0a5c21499fe55750e4c3513d05b5e8) 0x61a17608599ffb2081404f1e2560a2920c52d186796304e551ef0c8e66f82bfe 0x37a0d22aad58492136e85fea2ffdc1a3c961a3520f9fbb1083439e73f0bf3d78, St 0xfbb91fc56900b6ad4084d6f701c84dda356b98580ba838fa1c84cebc69450ff7 0x50cd391277449ed17cd041b5340132ac5b84fe392b5d035865bb3072e63afdcf 0xf7848a2d02af1b14c07f008ee619b18f95ca4eacf02438c7f3d0eb603c27459b 0xa334d1031124a60f00bb569d9d3c5f157edf7ff70e1e8183815dee6eab01e846);
  (true, St 0xd45dc77c4eeb189437a292b5775b50c7c26c779ca0f8b32849359c2945a64f44 0x3ef6bb609d35508007100c2c39847164227d967e07982f12437807de8accb93a 0xb02b74c11ea4ab53d2993ea2f3721eed0d844c57dc54a89794ed64ffc941ae95 (-0xbf212e041358367ed09c89329db89a6b5a42fed1ec6c187a7f1b5838a398b779), St 0xf368ef19dce2d1230c8f74f83bca6c286d1a2cd58012a04bb1b22ad87067cb46 0x206a8b71543759349d7eac76dd1968a90295b20b5819568170fc81ab61be56ec 0xe77060ef251bbf4d1960d5b2ba3749f5be2df268832dfb7002b204dabfbb0723 (-0x7f3ae4d152eab2e09696d888926e23254ac5f5e837f978389253669942b039c3));
  (false, St 0x144ba9a61b89c91aeea4aa7db5d797da1dfd0e9b437c0e93e7178289ca6848c9 (-0x1a3e2025b54bfba7a1ac77ecc5f8f81e2a96d59d532714c53bdcb85258d6147) 0x19be8decdaa4f2a7c4cae02aa8125cca153399a6ef2eb815c3953b6251a3477 0xf3fa7a010e802c0260b256fa6e9c8a21a4639fcd43ec0c5cccaad4fd0c996ee, St 0x7b8c2d1b07227f1605b9a64d567fe8bb7f5df5dab296a2f627db15d5934f1e48 (-0x28dd522feb569946c2c148827e230209a57b947733016061f782f9e2a67b162d7) 0x3ba0001991fd7750221b945474b46f43d92d873ac4c554a3de1b65ff7b078892 0x14d51e86105da6f9980959a6c5ed8c5fbbf5447a5f228d3640b971e1dba8b20b);
  (false, St 0xb3ab2ed1bbe7d7dd02ccac720b8ca00ed51035838ecd3cd5243140b551292bbb (-0x68b1ddaa2a7c395b8bf1a9d6025ab360f24e1c27fba20d7fe1ac2791fb22e4c1) 0x7e18d5f15fa020e600c1acbec6c53ab82eacf581d6bed818fc818676055259d5 0x663c467633960f26c6f3b1efd3103de1955633cd10226d77c39eef12583a0809, St 0x3bae3f265c3dfdb7a58e7dfff65f4d1aef4e6d59219c9d9ec7f808326d689078 (-0x1a8c6ee84301b49aadad6edb05b446aecd74d7147eb87a507ed14358e24416707) 0xde9c7b5a427a61328b6ed84f45b533ad9b2f7fde63e18bb51ff75f290e8fc11 0x1feef4ad627b503acd5518ec1445c4486579e8d1d42ebbaaff1f8ecf111336d7);
  (true, St 0x8e225b69a5d5ee23dc68b3bf4db7510fe81f57a7086a548be432798c5fc0ccb1 (-0x4d355c6c84674f7852ebce4a62abea1953949b9c689b7195427b965c1ca4553) 0x4eea2205eb97ca8832f0ab97dd60c8a55350f4cf46829a2fb7fa59d36ea7b0ee (-0x256bf75b75365fa62cb2d9eab67a7681baf4decf1f5cef227d598fdad7a46766), St 0xbaf0a1b001ed463daec9ca1b64533da716a067be7eaa47c86d8ff303d135ad28 (-0x169e4290b416610f32a1afd160ed01911c4eea12dda3e23ac40bd76b2bd5d5a0) 0x88828d23db71cf87c1321790696ab3353fedb1af882d79c4526e43fb41efa51f 0x71afcce4959ba509432f281b3754565a68a6428781695b7be4218177af8c2d6);
  (false, St 0xac627b9c6178c05cd5edbe58d997b9ab1c061af2ca4e0fac43c015906982226 (-0x39ca7caccc80f9df19f3725d0c68ed5539bb82134f1ff6728decc2ed988edb9) 0x74147bfd7679041e02102b601c5d19fc07a7d7b1ed9e93bc16aaf81c7d0538 (-0x4b4c3e11828f0b90ad9c45ddfc1969d69b69181e144b5efd027e24f303ff8a2), St 0x835eeceec3933d308c75437084cff2fc8e7a408fcf104a8b157d3a2acaeff596 0xcb8dbcb233ab1cb0008855bfb82f024b4ba6f9b6399162b5b6932a082e6a760 0x436a49af7a33b1b78a317e4f674921a0dbc58b6a99b455b4fb8b4e995fa4a428 0x2ba9ba640dc42522124ca3c2fbf5285e52b2fcb2efc5fe549a686489edbcffad);
  (false, St 0x5487c5046bd8aaeba2915c4d9e373a32c3a7de245024b3dc23ca35b785902dd4 0x410491403089f33e545ec5fda4fa265f98e169b0791b9cb2ef8851ffd319d42d 0x1be9614c64f91e0a33876c72be7f6808c02472f6e31ee05ab519fd7524169da2 (-0x34e1ee1aa350f10b93bd867cd33281b505f68741a1d46d13dc1fa4d2dd769615), St 0xef0279b61dd3b55bb781e298c2d29cac5d670ada850bc6f9dc7c13e82c9e148b 0x6dc37ae3756828fa1f766a9df2e6efd717c9dcdc1656a6ec29923b2a02a6f3e3 0xdf259f490b8d0cf8d06b08dd7d27a0e4d9a917e91599e03ec60663d833f50a75 (-0x57504500c9c366045fbe304f2a3033e9d0b904b2fd1d425603170e9d4c34e377));
  (true, St 0xbdda5b212c4d8dace97d71ddd70348b8ebe85d4148c7f9fba079a36ee47067c8 0x316ab87ee4abf6700fc9bcb7b1c6d9e40193f964e02a627ccb7639939a36864e 0x8ccc24cedd26b5e081fda99e7c1e935e2c45733e71bf2d2c9cd5b4084e706cd4 0x426ed8a921a54c2ccef7f43109b451c6234ab7e48c2ab393ecfcfe657a257e4d, St 0x853a3194780dc852445bd1739a660d8c208d17927acd6f27f5412e5898a071cd (-0x10a82df6579f42fa12dcd67514abccbec4aa962e392c6ded92af837c1572d0d17) 0x455584bf0af4693354d94f86963f005990bb6c4e58287d4a12906335fad7a31a 0x5a09206825772ad9192f44ce348123071ba173f28122c47865911569d789cecb);
  (true, St 0x40cf5bd28b434443dc15df34b6762d0c5ad0a72cfc841b4ef0642ed36b6afc8d (-0x44054e6d17c4b968a2b9f3b34dbc718652c677b01b3a9267a9e917d7e97a4b4) 0x106855def5768af3d17d6ba94dcbc94a84928649984b44c5d6b69b482213a114 0xa69056b8203d681294136feac5325861358cc25802ca15f5ba5e81cf6d9aba9, St 0x29e0782456274623fefde11620fee0b87801c4e26f79acfaa680b4f59a4a5ae5 0x111580e69ea84fae3061e0bbaf3e7608d3abc53cf12a666010009e82f001aa0c 0x6d9ab4e226b1a6d8c08dfd6c2d72dadcbd6bf8ee5bc979f3db6ac62cf9b5691 (-0x1328673bb023ec0736866d7db72fe5b3184a3317f785879ad50f777244b6895f));
  (true, St 0x9f12c9ec612b9c6461823ea07124876696d05a69118a6b3f072d1f9e9ca5eb56 0x57e3ca5ab515e65653676b22e023e2f27643a962b2d6b1a7fc64bc23cafd5964 0x62d85835080f39751d546f807a03dc457d484e307d6e432f5ec54007550d96d0 (-0x140373bcecf75fde37254da4f3eae876ab12d5c7ce47032f33c150e48af30dc), St 0x6c294769bf0c12457b47cec0d966a5463216c4f72df42982bfa12d7efd9f9b18 (-0x1110899ef4496e5042f56691569654755ca4385dba5673078b6ac722cac0891f3) 0x2db2dae95ab00fd89fdfd39891c1224e5223472675527f422ebe6985334c6fda (-0x2b5026b76e53acbf281252e2bba1f3fac8b476e0e3f42c03132670a3c96c7404));
  (true, St 0x8d4cdc925157e2b2b91137c2c4cd46cdfe5c3b20d5c4c8b62b82d157f7e968be 0x858adcdfb72ed55253546ad034cf34d06ec79fa540ac2611cb29132ca589dc40 0x4dfdc20d3084ad644c3c428e6af7a5f9ce2dcfdd90ed7ea833d4e458c9e6fa09 (-0x48d9255c5038ae999a0ae4410713dd1590664b443d81012a43ebd812b1aced84), St 0xd08adb4d1fe0a98c8f1c81db3ab5e1dfa131754d8796ad737fe7bf7aeadc3727 (-0x21cf416708bf7f162757e385e36865d51ba0b64a2c1b56aeaa9216a2eb358c57b) 0xa9e1efaf28b26d30461dc4e36b6fa2a164bba68ababf6a93f1df7c31bef30e7f 0x4635e2da76201295b6ea83a598a60b81df41ac665fa099c9dfe0c16c34997e9d);
  (false, St 0x50ca5c3ed7aba64d1e2f26cdae3beab6e1753a764ce0aa446d4614e4b80bd541 0x780bbe92fbed671b78251e638c6c1160292aff8ca87b051f6f9df06cd40e684 0x197f199d14b3f6e02c23b76683686b2e26317bb5f0873fa4b4d8550f8a9457a4 0x40d1f0d57737e7d247638a469d799b9cd7889a1224c502fda1b1f546b4ce2bc, St 0xcab8426d3e3f92131bee58f043303486a07cb6f3c5fdb6a4222d3c8051231fea 0x9b917468fa17473ece6b7ee569128516e85178d68b170cdf8c22f8a11bbe8960 0xa0874d7495099e12f0a5b4d088215dd8cd15229080b6df5190145fc0a82d527e 0x50025ce88df98caf8eb3a69ea47a8f9b2a53a1d208d04202ab2ef05ed562d198);
  (false, St 0x35bb18ba2f6cbd3d575c62ddab3849bc6979b8a53f587353c12696071e695277 0x12831867b6e22dd0bc2513c73d1547451db7dc802ac909d40f382e6a1337b881 0xb4700fa454ec07f6e193a9e640a6b0c0837a3d5d953806d08e4d3b3069ff7fd (-0x22c248a5ea0324099f858d2281e5707e52b413daf9288bbc1515da072af120fa), St 0x5de2ee690438d48f65a7a690b125747b07ace8ab63770991e645a870ab249a12 0x9d8b2d71d13799b5f78aae14a1fc29175d8776bf7b6d16099a2541a597d90b75 0x226eaa623ef2d817bb7a4aa3fc58a2a00d59f3d0b7ab98d7beb202d6ac8e9527 (-0xfb3876fd0a439fca4a74d45bf199c8684dde1536bc14a999744826a457515a4));
  (false, St 0x8ff7af4b9df8c9cd44e411ec2663fa589414a99bea114eeb50703260d43e387f 0x450e9be8c6e9bb4ce8db5619687c8b3587084c20462a5a637a3024e431af5591 0x50f6a57a8765e55308a8f7bc7b4568849a679077db5011e53fe6439a74b8ebef 0x2ff6c89bbb28d0d2e7d80442e0885196b1c19d1ef950fcf5f80326eb81a19a9a, St 0xce1cac7870a409ab4eb16cf6b59a7f4701cccea28e29a8453659d05b6e2bb705 0x46e34f66d9ddd6287d3adf53b23c07afa500ef3f9691b04c1de84c460b4926f8 0xa5f228c8a9c4dc400c48a98ebe376818da1cddec0c127ec6ed33af990cae9f64 0x13b8e5f4aec7073effbf6e819483bf6667a5f3184212b540e2219842bd9674c1);
  (true, St 0x11b0d1fcbca9dfe1076076b06b97363c8b87ea555848e101698df03e68c2c0a8 (-0x4337716d85b948de082f9ba5ab25948a57a9813faa66c5967a8c1bc1e6566d9) 0x138f604fa0994e60a3db5e596831d76bbd1804d49c1ef5e426c8e2fa42c6bf6 (-0xbff68f578f41fb76b18ab0385a8f6b144c32342f57d441ec5fd2092e3da31bd), St 0x39a080b176026e2b78f59de16dbb2172169e84c1e7fb5116f937ca894ec6befb 0x20cddc210ad6a550d383ffa93ad1c5bb61e1a6cc1bace9b5d9df3e3f7ed71d40 0xcf8ddf0320b67100b352b1c72efb7071aa5ed04fc5a3bb09cc67123c8412fb3 (-0xc834104caa3ba5d2d1c2c6ec3c9b15291562c9d9b961c58fcd4552f111a3910));
  (false, St 0xcca1e542e752e17d3641a891b6d9bc188f4dfb4f4aabc74d010eb61f3ac2de07 (-0x8ef125bedee572d4f5a7299d697add6d148c5d0a63bf632fac8e1106f78d1fb9) 0xa3926bc56fb63cba5947a999d072a1ad6c8108577acccb4d44c8c52bc5ecd71f 0x2beac8b05241b2e045c971bc7b55461ea85152910d456c51c6426f45a851fd33, St 0x735acf5f9154f9d0e479c9195087582b6caac10401c430c76ab8a0852648b1c8 (-0x25734f61bf52dc10de10b8a0eb43d54fb25d4467ad79f5fa9cb232c5931f3fed7) 0x33fab68687baef6c4378e2eded2e498af1c23caeee44f0d585c964513f9af97c 0x33a29b7dcdeaf5d2fd041e9a9a2fff4c8bb00bf4b16a7c8743d348083f09eacd);
  (false, St 0xdee3b34c6612d49ce2daa91f13686fd64a632e7491e2d3386f5a59a558867ac1 0x33ef43316de61aed123884210e975dbe012cffe27b61fa66f9e72f9b8d32c47c 0xc20fb580ba29513038fbcdfd675846f6b746d3e47051c5500f5795568a3e0c35 0x4f1551e6523c47630c2bb18272809a282af372012d3b2a6586fd371815f0fe52, St 0x4438579b06f7073050f73bde38e4de4bdda27ce4f91a4f150389223476518d3c (-0x3da178631f68f92a1d067a2dad4be056d62bc659dacde340cc442b27622388cb) 0x122dfaf0dfaeff72f3ddd6b98cf05cb48953229fdd8472c41572b9e35a237e72 0x51a001e5324310d589e6af018bc59e66e42cd3da5219e46d7db30540de0337);
  (false, St 0xa10aa8f2633b805faba7f22ee7508687879a75956558e49e7de76e8ba36f740f (-0x3862ec16d504c0dbddf36b7669481926ad6ff2b961597d88fb5ac1f7b7d8f1a7) 0x654e68f2e88e08cebc15a0e520c53801191c0a4d5781f45c727579193543ade6 0x3f329edc534ffcf8e33e1dce6cbdfd002c687931bfbb376d4dd7caa0e48b1cb0, St 0xd40ec61ab59323b567d80ad9e0acf332d7aadacd1889a475e8d96d7cb4870267 (-0x8a0846fa550948ddc98d3006bc62ae149dc64e0c591115218bbc8c1aef0641f7) 0xafa878f7309d5bdbdab3530a8adc15184cc2702a9dd1602ec5c010a44d0b03ea (-0x5a837efeccdcf3acb6bc15b87a16a7d5e67513bc1a0f8110921bacccdcac1eac));
  (false, St 0xb2b34c533ccc30812dac56044e3a35e6829df2feb0a7ef748b7a1a3ad2723266 (-0x9267354351b51a06127fc92a17c9c268e3b59da3b9ae8d5f85648fd66b481918) 0x7cbdd3b8107253e0c3828742cf2b26460f050ccd114ee36ac87c9fe2d96ea085 0x834a0ed9ad29f79323c83790e73eff8c5e7c553196b97cb40449380b3cb385d, St 0xeebeaff35ec1d13c402a543ca22335c6b14f91cd8c72beb762847e588496d05e (-0x1767c0cee289ffb25f4e4ae907dd3171db555945c9f2d9f89bb828fb9adcbaa0c) 0xdea71d330906c8daca341f9e9f29906fd7e85682ed8b62f5f75bca2f268ad30c 0x1e6095c4807b348a0e15b70b09a428132469c702d16f26a4e232d04286049951);
  (true, St 0x7e84681ec21bb41c40816c6dd83376af57b7cc1ddad826d0091b31e45e8d1c37 0xa49cdd1d125d1958c6dbb4030b9af9e3273aee88e92ab544dd458a8737f8d6b 0x3e869afa0fab0e3ff1c98a7c691845037add27ce6f32ee571ab79b8b57edd3fb 0x29a086285b627421b798fe0e5daf8a0763250cfe1d27e78ff984af49d3bfda51, St 0x7df3dc99aca0eee83dec865e65c9f2dc47d5179f04779d278c193cbcc6953b2c (-0x18b5d006e5142cfdaa424c5b376eedcabd99199a2d4c9cc1901cfd8e23b88ee20) 0x3df80dbada636d835d2f4c43e98b112261cd60f30c67dec4678438ded30376b8 0xe5b00d4bf61cdde8308f1230da801a94d7b441347d14b725e36dc146c27b253);
  (false, St 0x4d00f485f06c6339d23405eb46fea08aae52200f3e560ac33b6873dd356a6bfa 0x16d2443ad968bad7fa27c9bf5e6cbda86f05d75160d610e4c75b49b333767b61 0x17299319935a5f2c9434d25a6846f2300f840756dba31504574ece865b732c9a (-0x7cb9265a6387b8e9eb41adbdb131f3f61dd4474819db587d58fa52f5327c314), St 0x2328067cc5a40e6b553652f6cc2027e6ae8e92622368f41464c62ebab24c5086 (-0x707a7f2a60696007620dace2caa064664589a3924ac4e0971d319629f91419e8) 0x4d3f8082a06ad51c03b183fc323a4273af80a011e58c4bc772f30cabe542073 0x69f494d6179faf0757ba18f7d2af068c993060d3ef98e37e7c6a3574fcb59e3);
  (false, St 0x66ef8804f4ba495dd58321ba5ad96825c4cd34f90bdaa31fddbfd26e755da049 0x1dcf4d0c506fd7e8dbf35ea48e070e90938353cefcf5b4ad195caec721499739 0x2963c0835dee6aed759d7557225bdab3ee1b79f929413119e2873cadd724a333 (-0x8a552c67ecc649c46fddccb38031b2f4ba9e3c926c86d5d4f2bd9ff2fc663f2), St 0xbbea09249bb98fb3403c6b30298b2f0fc004d795ea2942785008ea1550f5705b 0x3f6b19c47742da28cc3b40e1251fcbae71d661e56426a3295a08fc8497b112be 0x89efbf50bcb11ea9fd5051d7f369c53e1c2674e84835a0ae6e090774f0223dca (-0x3b76917d68924a4f1eb95364688a4627f859872be023a9debd64e3c0f433bd45));
  (false, St 0xf133949ce93b27bcb0f41be984227978d443262712ae5c677dafc6b311637552 (-0x3810f3fd4958f400bda2abf8ba0c207ddd1f5af9ef2a0a2f4723db6ca86a4b90) 0xe3422834df2e447090cd909f367bd4542375625ff6007aacaf9f36368ab1d828 0x16eb6c7b47e0e6ecadd8e5de7fcd96d63740dc3d2eb15e530e9ee2e437992d09, St 0x1082dc21422588e4148dbab825028dc0ad914539eb96eed8d58c47e9d7384aa (-0xf91789724bf983885eb5f03fea9a919da8aa655c585d3429f63466bd68ac5b60) 0x1109e687865aba6a39852be2e0958c7a6ede30665b50558b1a24e5f119e38 0x4d8357e89a4d70450621abb4ab542641af65df3d682a12bf5406a1c747067b);
  (true, St 0xa2d7e8bb95419b94f41cfb06ed8a7ec914e96cdd1d10f433f557e697d164184d 0x204e68de1178db361e9d6280473f9b4fffcab59f55a9cbe8dae80155bd630f7d 0x6795f8a68f263dbc4f93b17518626eae1774b820d49b651d74645dc3706295f7 (-0x2d932a686ba9833117bf1c4835b3bf91f59d2b5c48df591bf79f0b89f75f578d), St 0x7a1c708ce8626d01a63c1d75c11125cda6ee3ad8148bc1b0a7877b9f3475534b 0x1551599e8a54d77b3d67a3a9a5eef1d4d50b72f824b90d1cc6cb415696d816ca 0x3a3f1e6f580b5cc1a6951e3a08d239f8bbc1663ca8e6d51b4f22fc8fb760b6d6 (-0x30ed6d5f97d5a341695c513fb81410c5c42c12968fcb1fec0f4fabd343cad1cf));
  (true, St 0x17e3adadae777ce7c030c2a3c1409d7278d4cf14abb4eb07467a19d08142b8e2 0x7a01ea76ab8b5bb16b85f9e4356624415c3f8912a36d4d023a50a99db929df1 0x23ab3b2af6bc7ae97ef5dfa924699997ef9da595a940b2d123125c8f5c60faf (-0x257262a255af3c738fbe30bb2719ce83600eef4ee9f1e4d8550bf8005b271d8), St 0x7a04ea5363154c3fda6535083755ddc1616d9b6293091b79c57c535ada9e39ab (-0x1e55401225a13f4d06fc45ba1052ee0fcf35c693b5873f7a3b72c867e4e2db2f0) 0x3a28af6fddb0a113373ce2c07539516db5ba428a6f6d86a9edf366935ac67691 0x61bdadc8b4f292f07716be4e7750ae845c8db2e226261d9b7605387f039c87f5);
  (true, St 0xd6c60846134fa4ff3eb59e6e0d2cc7425e586d7185312921dc7ca70877f9ac21 (-0x7c868abb4a41818adb63ecd6b514a58374c1d7a712f9d11350f749020503e81c) 0xb42faf06a9232a7777f33c08a77c856d2eec10453440ba5dab8b8ae077845f15 0x622b8e23fd7a339f1a4fb6bc7ff25a08c5a71525520698513744ecf0e64a4edb, St 0x5d9123188e1499d3d419ec47feec9b05003813bf486d7438b964c1762c54c958 0x93cb6d510841c992692a2ad276ce6ea38f6a3c5d86af7a81d4dc0fbfd0e99c7d 0x2232c5c8c00e6a175cb45f5ed5b96c204e8b49ee1e8eec8651c02d97c499383d 0x562d2a686ecc57532019b23f33876cc05a58d987348687e985afd684a6879c3);
  (true, St 0xb72cc3f476419bd8fc803b08165674d7d001fa8c063bcb19a85f23e0b37f18fa (-0x2105a2fd24ec68f3bb2409a2b181ee84d72bddcfaed5970f7f6f1e73e4e1a0ff) 0x831107fbf629d0f2d5cd1c39f49056b5e6c43a68f60ea625462f0d869d48f704 (-0x914df14c6653a348b9a37f30198ae3e94bd3f1046e8bc5059b195ef7767fb68a), St 0xc1274b977b01732f5992e04d550817a6398ab5eaf1a4dca163715fc83433bc6f 0xa457ef7258c367a49482258b55979c829dce65bca1a6dfd3b7ce722df9ed3c5e 0x91bc460317ae0bd633bc8bd162cbf1141cfb1b6fc9492c76ba05ded746bdf026 (-0x72fb0c5a8b5857563df3a195ad25c71aef2a20e23ec7471aca7614044215ad51));
  (true, St 0x74bcfea09a7d4ce63a9ec9a9367a6dab08e08a2488e00661c290f0d0aaf78441 (-0x2c2800cfd60d54df3009b6e64890f976b061b88492500eb8c62cc009fd0064c5) 0x353bd248ba635f543ae186fa9782c605a9cfeb3536cbdd4aa9a4bbdfea924445 0x71140c5044ab281e1dccb5861e371d6a5db3d0961838fc031cbacb198a3c1cde, St 0x14e7b6873ff7fec5e0f538bd86f8e4bddb18f3c03f8f6aefaa86747912ab55cd (-0xff50e42966ae42051ea036048a55d3130bd29b9e1a154de1be0c93eeb6a96f40) 0x1b506400dedce05e6472362cee730910314fca87cf78faa0e5a506cb3927e2a 0x62949a7d5f0700bd6d4a27fbc007944485789024ce5625922520c5b3b9328a3);
  (true, St 0x9326a0461598a4badba11cffdcbb2513253f724e8aca47acc0eef9e02537fa79 0x2b8229bb2a7b19d783a8b75e4afaafbfc84a2160e26e9d22b926503735ee7bbe 0x549561e4ca88c69294ddae946e123bda361a845a36ccf1e37cfee4a3293bcfcc (-0x2536121d945cb9865a3d12264e9ed408172d3ed540784512a22ec325cb64948f), St 0xc547cc0b18401c8ce4653354ac08fbdd37562e574476e4586c870e1f4e770161 0xda83c41fa044e520be20d617be7ee3e308fe4873558d8f0c824844996bd8431a 0x9807942c7c2362cdd7155549c3a4da497ae3d8b925b3ba5feabe1345ca8f448b (-0x17c4a83243cc3f40add2ec0c24eac209a5cf663e09dee0a7ec4b3f9b51d3473b));
  (false, St 0xe5fdc2395a8d22ad0e5519c7b4544020ee3b750201590e9bfc9419d29f02fc70 0x258d2f27eabc85b4cec2516e291c88665eed84c60e7b9c31698b772b5de8b0ad 0xce9ff904e3586e1b95da4e65323b3e7311d7d97600cd009e24aa0b9cf704032b (-0x56fcd649767893a0694d1c83f47623efc0cee733d343f1145a2fef65dec1bd66), St 0x8ac5f66f3b57de1eab8cee79d6eb31aaa1b8dd591f40d876082a6a006f92f242 0x3e217a293af61a87e222c00496093011a203dfc3e56f76c555a7e821b8461d0 0x4b3a06c56ba00ddb6f652deee22d333992a28175d81f47577e91479903f6c98f 0xe53822c65a0e49ca687baf50544b334823c68290569d75b0614408c646a36b3);
  (false, St 0x8dbd2df06e3fb370724b28198863bdc26ad38ddcc80ba9e8e3cf578bd8997001 0x443db9022bb832c2aa7f7e8cbc8cbbd4e2e79c799723b112752dcd2d47255438 0x4e79f068052d4eb1d4a3b4824fc31a9e9e3cfbdbe7bed1ac2f56134c8982b897 0xd520b1ef0eb290bf5d1cde7bd12bfd6659250d5ba40d9aadac7b704b19eb778, St 0x40c71a2943721154b1ea51c38c8ce387ae4cbacafc63906c9db4c86bb0274c56 0x34e3618e522f5c1549d7344bede2ce8203dc460d2479269fc17f37ea0d8e2aac 0x106427ee60f074497301b8b251c19989a0321381270d622265c4d3691e16282f (-0x3562fd481d08eb1a17191b72effc3a915892d640367ea5327e0aba8da99481ae));
  (false, St 0xe1d16e99ef4077b43a4962cd62e6b9cd8b60323a78158106b0bb301f72a9b600 (-0xcf549a75cf87ca7979b276bf55a7645116bfc2ad800cbc795b192f9671299740) 0xc731cfc124e26f99e1f4329c6bd2a516dda1542c8f9b8f1e050e0cb52e362d63 0x2651cbae30c62640f01b47f621b4860eb24ee9d7352959a1fad2180ce009eaff, St 0xcbce51b21ff583e6a306a75cb577c6c932edbcf352236c1fdd7ec26816a766ba (-0x18fb1215d3f6b1e8e26bfca304becf4d46468bfb0fc587dbe664f82c3acdcba5c) 0xa240dbd8b5adde51f408afe82169bd4648c53eaafa1909ed527164f580d2fab4 0x16e0759fd8ff2057f9b4f747f6726fa95288c71661c6cce870e0009abbb20a26);
  (false, St 0xd9bb76f6c31fbe6f0df5870993fa83b710234510cf17a55a1a2c35b339f1e831 (-0xc81e62d41bd72d2aecfcd7a6bb0cee092010715414f684da3c6f2673ca155ba) 0xb92f58f613c4a3eaafc7acf0290ebd3672d7fe142df827c31e030b1f98d37e1d 0x23ca3bd4f4006eee75466e76c69b53128aeb352985c795abb2061953aa80cf8, St 0x7bcdf7d407b3ab6c61ca6c8a385b1dc7d85d831b32bc25cfecda42cef62faea0 (-0x22637b4cc125ff932b37e6dcee85e4d47436f7ddc51a9ef92eff32ee2e931ea17) 0x3bdf91dcd4c564d0c10d572242380c14d50d1a7b51f7dd4d8f4f858088bbd861 0x216ae1712c08566621350a6db99bfd0f4f5a5c340e369233ce85d15938d865c7);
  (false, St 0x73ac6fc8d9cc0ab18e8bfb88457afa9dde7eefc515b1cf61f962827f665ec376 0x1e08cea7d8e1e737e0d2d747badbb5c5a0d9dbeac4f22107f76b2d6df10aec5a 0x344460950ea626d2b86d5222454110b69fea8a822ba0a00f74d154ef3cea9bf8 0xbb290c9815c06de8219f924c022de65880ce81632372137a2d7723ce874bb07, St 0xdbbe472b20db475e6562817093f30b6a7a92ae041bf2233edff5d651465198d2 (-0x555dfa923d555d6953b9e6d59ee65b3bd0dce66f21dce8618d0dbc466354b310) 0xbc9f1b323ea40048a311d062a04ec63a7ce10886cdaf300f49be3ff9feae0d1a (-0x49284ef5c97f6cd6903acba3846b5e4c94df2e7075273dfcfab8cb859a2824c7));
  (false, St 0xf59e7b3ba9ebef5807b5528abc2b63bbf35cf488cea7b84fa2150256fe6e34d3 (-0x6a9c41dc872fd4e23ab9be3389878aca48e0cf152e5c74ab25eea3548bdbd964) 0xeba8b9fd77de7486f72893c83f2bd90525d423883cc485a8f29b00dab5b429ec 0x3ef23653c03676ced08b56e4328f1ff6745d6704cc198ac1d4820c08596a02bb, St 0x256a95eb889e0275ee1a55937b852db2e269dc7dd7478a009583a5fab591e182 (-0x26d5f0cafb926b16c729afe12ce2a11fd60fcca659d604dfb6d0f3197cd0880c7) 0x577fbb699ced102beb1afa9c744642ea4046969e6cccd4b892816c6ed3e2e41 (-0x77f9f7460b3f6096abbbdcc912f9718c63c519f60588bc70a92d91d40fbd0d));
  (true, St 0x88d0a1384efd15d05a1c7fe9f592b32bf6756d028d35900d5ee7a4eabc9f7a53 (-0x24c6a7620c275ddb8737e7a41490199de0aac9c70d05b0cf3d55d9cbd2e260ad) 0x491e55527e13778003cea86452c9ad86c2ed0bbc525035a7e3958e28c012f961 0x1c9f5aa7a762c66bb042a503ebf5682d49ee0f7d318defc7e68dc16f96db7fa7, St 0x4e7dd665d4abedafcd8daf1b01ff2e17dec53b6c0eb2863721fe78219ca4018b (-0x13876233b95c5e49d1562cee3dabd2d359c791013ae752c4c74bd9c868fcdacfe) 0x1810ec8138a9c94f51429d6332bbdaa3515032135dc46a68f9eb0791d25aa8af 0x1863d96c049a6ee2979406e72b7f0cf00a73b11d3d5af7471a76c06b9ce68c79);
  (true, St 0xd4f6789a4539b0dcd01dce77f70a5ccc807b3b52fbe28411012c3e508639928b (-0x4eddcf9acf997bb15e1f2ba67999482bad437bb22f55abbf6613d7935801bc41) 0xb129250c351ebab696f6e0077bb2120ed6ed751a037f19ff65035fb93e173e2b (-0x1e17a67c2563daea9d0ad17f6a5921c6fc0e27601419fe47d9f46a1702710d61), St 0xe699322c7e03a9c0b1dee77fe3029721470d7b477311f6960a25bbeb77ba1841 0x4ad35e47adc3c7db90f1e245ec1dae2fec3a4b80e5b6036684687f1749e22983 0xcfb7a1d5c52a40311afcfda529d1d9be7442ed8350e47871720fb473f1d0a619 (-0x8036752c0549dacca5c7735d5a710bd0f33e2a84e3a6f56cdd14c193d2ec36bc));
  (true, St 0x3b6f3557967b64fe9f87636cc7b94c7e93300848cb5c488431a464923e3f5296 0x2a30cc57bf6714b8db6ad18da4d76005afc708e401edb9f68540d23049fde1c 0xdcc72e5ba3b34bb56ea6a050dbc4e5e9c60e1803ccd548b5e2be9416546fc29 (-0x5a103987e0f9bbbc4df9649202b56b03fbfc1a96700bbcb7398821c600b73dc), St 0xd214c28dc64a1a0ea1d8404b4172f8372535b0b8322d585fb81a6328b91d713f (-0x1aa89f17bf7c39d8418841bdfdfbd1d1b1f5232fd232209b9c32d7bcbec0c228d) 0xac6610e03fb9ce3ffdd967d10062630a38d39a2d4006e858d24ecbef1753ac51 0xbb60bcc9dcc42f88195b06be62e71c6afacafe9f6c3ea90df919b82a78de35a2);
  (true, St 0x78345eefe36907db892ce7f1e6fcb63c95f9f601e2e27404f3aa633482b27404 (-0x7143fafe38c6a0bb27070e130f8a70e4e29d0841888cff15ef5a3004abb2f58c) 0x387123b7d24d098c258b0d3339d9686a804f33c9c96b9d1adec7b4374d3ba177 0xa9638d78e7fa57ea64aec1616fa44b5611927f1f0ad18d02d53da10a1e22301, St 0x79d6649e8350037d3be3f9dce616c48ec901e9163dcbee51bbbcfe6ff6914c7e 0xee40f9228ad88da26335ba9f55a6c8a04fb51d965a3073b2af1dd7bfb9c59c5d 0x39fc5eaa72adc4794d882b1bcbe687cf04cf92386c76beca01a75128613d589a (-0x57a5abe9b8088ae877777c5df0bcf8bef9f597f859678a82ce7831b044579a9b));
  (true, St 0x53d5221793d15645e3e1c28f414777fde46602bc6481ee46047aee6d700e42a6 (-0xb4d70a05173305c7a45dec99f99a37d01a8948eda5d743ed344caf52ac81990) 0x1b73e58d2513e3476b93bcea165c39b4343da651339bd7e24fe8e2f935171db7 0x397cdc5e7192be0dcc5056aeeac400672ad1c9e110e4ce47c64a95b8eafc2e9b, St 0xfd8ff70e18c7a0bfe54acf11fbf760ed8aa3451bc8c9ce368105d0557f7c31b8 0x21da17552c8c8c461535ecf776589321c78fb880647064e780c48f2796808dc9 0xfb25df48c84c56a09f2c69777306d09050657c7d359d37e5b8a6e9bfbf846a70 0x2466726f289f75316c08fea82119d84d4abd418f29b3edabf68f4315cd534560);
  (false, St 0x9ab6d00f4d549661747833bf8b54ca35f46dc2199619c6dd4a25eb09a3df34c 0x3f0685929d814d25d94f8f00ea14d01012697d2ae1dbcbe19f1df5fc55fb9cf 0x5d8074df45650ca5963acc0afb5a49b374afbdd2210bffc3f5bd489f75cf6f (-0x1c7418b2911631cf8d297ce4090722b78384010436293b63139a7478d916e11), St 0x9a6009910d06b54bd9e25425b6a4c5bd8c3fb0bffb82aec1a491a4b4b2ce526e 0xeca2660e4909eff87fc69394c9179237ca827452c9aaa3d8f269dc79b256325c 0x5d17af8a0de90bcb26db7713055b2a0feb5240ea953684a3b179686aece00048 (-0x75a071d1d3b1a89deed0928f4c81e5764abbc619289058a5ead2da6ec1fc7b43));
  (false, St 0x6832d29dbf2af74fad5b06dff3789d928bff433cb458a96d48bfc3294134c8ce (-0x3c3b364e1be9b25c68aeb6dde4541b2d7cfd019568b7553bee9ff93eb345422c) 0x2a69553748a219c6fd65a6174cbc1109fc6aa12094e2083c6724dfc9845b0993 0x3aeee31e2fce3a422a9b4b1dd5b347d31c8dae62dc42c208b436e0d0c332f71b, St 0xb868ce5d4211a3ee05d4a213deeb3637e38499b83cf9ab18b1a5165c86d7aa7d (-0x1f5be126b1499e68c88a2521aba0228119a8938a100ab5ff6d6acfe7dfd478643) 0x84d6d38ee5f015d73090ee18e625350bffaca362af215d763f0531f7fbb5fb7e 0x530616ea10fe562ab0a4b4934b399545a3b6808815db8f71314d71fe1a8781e1);
  (false, St 0x5095c9d74cfd0f0b457d0a6a0e85e3d664175a7ff763c2281ee8603db75a669d (-0x94c131cc0ef88dc68e2b8fd11b2cefd4f43ca492440d77ede5105daaac3c745) 0x195df5cb3d3f89bd7c44d125285bd094c7f5a1e48e5e5d1a90e332648855bf35 0x23ea4135dd2d21d80b5e90e5d37b49faabd2bcb0fb6c39f23c443b00ddba92a9, St 0x7ad57a51c862b799f57f66189b436f2185a2063a73b7f1d72c3d618dd2846573 (-0x34977eca1729511f2d2257ce9c5e2f506321ac896cc442773450d1085d793084) 0x3af02a9af477c2fd8008de0e51924d66586510f5e22f1d73c7008cc3413157bb 0x86013be9e2499f11188209a268f2f7362ee64623380928b6fd070d560c7b4ee);
  (true, St 0x2bb8e0c6c86066a2d7616a0a738331841d4de2495024ccc3d61608d03e9fbe48 (-0x1081404fc5969901e7ed598abb3c49b2be700de5453780fda2310eaa553df00f) 0x777a106b1e487182e6fbd34a671919d16aed84157cdba2ecbbed2abc54e0da4 (-0xfff5f2882f36bff0af589257ca3b0590e268844af2e3623c6a4119dadacc19c), St 0x432a25b8c05b90d898efcca07faa1d901945ba504abfd5345ada81a2dd72daee 0x6f43ff6b86dd7c5e4fad801302ba2ea051f089309a2a5fad053965a55602db79 0x119f16af2c7d0f7b8e05fa2de43b365897a39e6290e06c6651d7ff9a0199c8f6 0x2c91503256d107fb9185a797c01b8ccfd188daa66c18009348b9bd5f24b5ca2);
  (true, St 0x81484a4c555f74b0e30fe99969386f4584dee5c40c125c2e1035770d250a8f26 (-0x6577e20e1d3f386e78afb0a794d6430bd184d2479f929b678533e7f74d7f6647) 0x4149ef4b0fd460b4b37c472af1bf3932a9d19a65e26929f1a0780d3d1870385a 0x248a8cd972c8b51bb6bfb79a0ce72dc70ffd86c03d75e5e1a4203c694642998e, St 0xb0f87bf1a7baf79463905301f5af7befc52c19cab20c7dd80149291f61f66a2b 0x810642e9bf456b3064bbd964b8f0cbaa5f14e0efdcc6cd3feb99dfe348639be5 0x7a569b9d212ec5934513b85a1bf91520cf3a71392524aa80cad2c304203c191e (-0x5a8168a020bd9d1e5f679b4d4fa543483d525cbc2fe074094ecc3fd8ef6f3977));
  (true, St 0x6a12e07cbee73906f6a6282137e6bdaf9f6293f405a0ea47dc7d882f628b8047 0xf9eeeef0b8fa58b26e09b9ab93942fa91b366831aa86808745343cd33226b6 0x2bf3a34bd07081e78fe09f14eafbee2ba18045eea39489a86482f496dda5c472 (-0xbf80c2166b2bbb54733d4e39dd71580e0e914698c9b38f8a3cf2b5ab9da30e0), St 0xd721b11aaf65d396b3ff3d291bd9242458b550d5723c8ab27020379129682402 0xc54fc64cb983f116ce5fdcd66f4e89e2b1992528ffd71d1c3cb542da9d2a2b38 0xb4c99beaaacdc6e48ca70acee38733e944546682f4fc37fe1ce22d57764a77df 0x28606ceaa693d60e52b5b88bdcba7e3ddd56d10f519c5bd76446feb8b325cd17);
  (true, St 0x1c69b2f80b204dcbbe53da207d57b4b7efd71ccfcd2a5bbb498faa708d7cda55 (-0x846f108dee2c1e1416d45f942482a62f949870e0596f3b56c2fdb570a001c91) 0x3274aca922d5c1d6d0c64034fabd2fc59d01745e08fdb33965e06d055dc1339 (-0x8f84a213a3b037cf5a04f08bdf7ed875224b1cd5112a254300f6f7bd0d3d7c9), St 0xeeb2813a1719a368e62363a94f0ba74300c223c7e4b6ba6384b671aafc848c61 0x124025c35f2c64428b915c23ce4025963f68405aed08b46612b6761166c3652aa 0xde9064c0d787c8b493249bdf40a843a02bc6b9e7e2a4bfe0416bd035e267deaf (-0xd20797fb3b9ab9ad3cee6f0b605bf079371bc521ac2a86bb65dca3c247423c6));
  (true, St 0x17d3d3513d4ed4d445a6484acaaccfed5d99ec04ac2fca0df8596eeea11da06 (-0xd2738e27bf54cc53fd36c893901fd7598df5e78aa3aa75e6384a465db1ab47) 0x237bf3ea195fe47673432f91b345780c4777c1a64aaf1baf1f16cc98cb30d (-0xa616e266eb062019d6f80727f141de0519d8bacfe82af52239adddc4c6a6d), St 0x39f2613bec88a9aba496c8b2c06c79c799b73b319b512d65e3cd384443101b78 (-0x55b58528c9c27c73865af9a6430ba83faf885fe83a47c9cf8f19c9370c5a30b7) 0xd1dd4c8b6ac59fe537b6149f8540f76dbe6680d1346d61d8b3c94f592a2447d 0xe0870688935eaff8fcd5d8a605a24b0d5ddc9f86c6bc8b16000c914278702a0);
  (false, St 0xe943ebeb7a6867f49f68d46e69d7069c6fc4a90930d549d0c4177eddd472aaba (-0xbf9bb89d9c3e73ce20080d66f8d791eb71cba518d15858f69abc96005c4fe232) 0xd48cb578d00b00af54c834379c92eed20caaaf1ac6f2f63c2dec0cca0f4d4bcb 0xa838583daf36826ad7bbb2242c2791b3accafea7be2ab39c417ab34360b82d47, St 0x4472b5d798322e59535b310b7e3c09c51fe92228656c132e7b1719aeea80b640 (-0x2a1763f29f94df88bbb1f07779843d5491b0738bf7c0d7442a31d3d802aca60f7) 0x124d24011055ec19ae2f422793f15d82e580a2110095644920c438becda153be 0x371f521873578761adcad30ff440b4104132764165d39dfe32669e4b10f45274);
  (false, St 0x4132b490c7f65b21fdefed45fb021e6f4e518a264369125cee02fb2935d94324 0x57cbbc1fd26eb76b67c3e3b9a3221ca07244a1df6d359cff5cbc7af8576e9a7 0x109ac9bc9e0feb536b2f6be63812339b687c46cc4391fb87600865a80f69fd81 0x5f584fc27830034e8eca83d022f464246dfb6a34c82ffadffa8695375a89dcf, St 0xa17b76ce77b7aba4e76a7d4ad9d757be67cf35f37a0ae44f4b83b358415f3e1c 0x3ecc8df0889b560588ee3ff9335164af71c6222e7a40cfcae6e285526bf0d0b9 0x65dc86fb79fb9441a579e7477a4cbbb70c5f7c53b13389f74fb999e30e25eec5 (-0x1c060b1f52cbe613a7a65926abe0831dd86bbc1a4d965858c45f8c69565219c));
  (false, St 0x77cd902ba1a1e630d2442b8e79387d6df78b1489351153a9d3a7faf8beff68e8 (-0xc3fd3c920e419efa8691ea1a15b9dfe53cf77bd66bec9ac08c2207fb67f8c05) 0x3810c118ff673faaaa69eb1df6a83a6eb2cbb2428d3440abeed8a1de4d55d7d0 (-0xb169e34c9902152705cff7e95bfafd41ff809a9c044869dbcf713ccbbdb632c), St 0xc32250b85c1fa1f24235ceff4f9671add0ac36b064532f68f69da4da586c105b 0xa924b56d7f11d09023dddd6802bcdf0436c5fd71854213aecf469bc6d75047bc 0x94bd4b92fb81b308cfd2ed0950d0023e7ea099889e21d00778f9e395e5c66624 (-0x3ab50f1c08ebb5c7f9bc07ee115f9b3d5a57b99071faee038019b0a1510fa05c));
  (false, St 0x1a5d49d81a469ebfc6231ae8da1425ae52cb9946d5358adadc0c0fab2633f0d7 (-0x57de27ffe840511985709dc0e6dbd16606d8b12827c1f2a2272d0acc9fdbf29) 0x2b714fea45d79f58da32a484ae734d3a0d1d0c1c58753dc4a56bb95a9619b4d (-0x11ea7ecf76156fded87a0604477b37882037348ed8534b88ccec15e8a136d35), St 0x99ad8439ab750f8d96c43dd0ada02e2e6ae4bbf5adafd6d1c0545bd9a65e1010 (-0x4022c7aac7687106085e9db28b11f93c727ae3ac5e26001e439f1366e8567c38) 0x5c40dda945700c45b1c40e914ad2bde7b56ccd42c0b976ba2213a6f80e4481ae (-0x4617d83ad2bca7acccbcedef4ee7d66210e4174283732112701fa5b4d6b9f5b4));
  (true, St 0xbab429116fe89f467964c9905b3c88392fb9c8208d288c2a182dae4bc047bcb2 (-0x4d3a0be0a96c7253e04b23acf0c545486e1ebe9e8a06538597bfc73c2c74d11b) 0x882a4a77a5e4481212106ffa3bcd790aa9025c5a9bccaca6736f7406404ee66d 0xa0ff025a565af1ba5b25089cf8ad2c714e4e94076c03a2d056e34d28cdbcfe8e, St 0x43b8890ffcd461c5c7118b6c9cb28688d35e1e59ab50a8102cb1a7ec42c9ea72 (-0x6818b4066fbbc30a690ea8b0c8ee7573dc7b8e9827f3b38e511362fd219a303c) 0x11ea1cc3c09ed6d8ac720735c216330f91b9a9b7233ef92ec1f2790c7addb85f 0x1bb238abeb5ee030fb7a43752605193114202b9fa5edbbc7fa0f822d7e2c63a3);
  (true, St 0x8d40361a3318114d0020c712baaf45216ac9ec7390c9f7a18b4467e77a494ab9 0x59b8d20e39339e7064e7ed9901c0b69398088663959c9f785889c2ad9685387 0x4defcbb442c0eb07ffd7e3dbb0661fd125b74be3ca585478c2664ab7fafa114a (-0x2fb54a7c3c3c53b6596d151adb6d7606ecd0563ab269a758418be1d58c50890), St 0x636eba9385846d18e37b77fc3dabf56b3da073e78d526f335a7da9d6c1e26967 0xa8ab5a4fc969d0291a1941892c2c8a1c84b6a28d599ebc87ed5b49eb23678238 0x269ed4331ea4b169039b2d1f501be6bd441b3c58cc379a5f742b4f605dcc8b3f (-0x1477935abcd3340a4e2e1b18d6bd0577c4264c28a68da49d4f3acea28c387838));
  (true, St 0x514947aa9d9950e323e6dd54f284d82ec5cb6812bb6811846776a3ff5af37bf6 0x123e34f98dd6014c4333434459150a2128440ffc46558e4fb95e2f4b13e5bffd 0x19cf745404e8701484de62189c5c3b547f79cfd317fde384eadd7255973aee8e (-0x38f83d3104278c23823f325a1a4392151eb69d13900ae12f007b4be38b913569), St 0x3bfe3381e60d8d38f6bd46786b3a394c9c3d8a9bef334e97f9f781d74011057c (-0x2a79de4b6ca583abf596aaf3eaefd4171cb5268f4cb963c941289bf2ae507fcf) 0xe0f28282e3aedb7ad9a03d4eda2aa7870bca1297461275928b8ae0a33cd7ff8 (-0x26e564292959af8a0b0adeb926f84d377bb2c888edcab4be21a0018e57e5db75));
  (true, St 0x45860b7f4c9406e8c730aedfae7b26e103ae6ec0bab4fc70b7f835ebc90eb8b7 0xbf3d6f153139f34ee54db004c2fd114b1c7916bb65c144924f7a413c77a4787 0x12e18862bbf1aef52a80019419b70e8d8ff1e1123e5753aa625f40230d3795fb (-0x7359cabec61b9b448852804ca8c23c4ed8092569c3862dda50b06060905893a), St 0xe12cba652900faeae38b35a074ea0383b6126d62b49d6c405b1523442790691f (-0x1d7aeda301623ff56da6142f8cb66f65411019585bb9533a22f70f5be02c2171f) 0xc60fa77732a0a06c5f3e8571b1e11d426aa64c8a516d75536a5f59c458a6dd79 0x43e75391b9bcc8be5911e1bdd7c46f15206defc213ad01b354fcb2b7237eea3b);
  (true, St 0x944bbbbfdfe05a644d8bf02d073dc241c9797f5d211bb59931b4d905e9571d9b (-0x229a59910de8babd1273543ff62532f2db8f70d0959c8f2c741a4160488586c6) 0x55e7a77dbce21e57f007c19c3425a4fb02ad721658657026daa40bb5b4c2df6e 0x5bcbd05949b7cd197bd0cc96cb1bb94ec52e7e0897ab442066a8a84b9236a7c3, St 0x65de04f54a962d7d0db7188377b4add5ddd4d13105b3dced2650bd333efb0f20 (-0xfe14d621f5020089bf2143ec38895d3d57f10d0756ce4a1571cb2e81e4de9eb7) 0x2888f0764ee9622e42b0d8cdd007cd2e11fe08fa07b964b9476cd97ef822a583 0x166b0ab70106fd9a236140c662ce114530db2a24a590c5696bf35c06cf9c3917);
  (false, St 0x524d70e5cfdf83d3388eb84e88079cfa875a5e3a77c51910449fdf43f452c82 0xda10d62296e6c2e2a0d7c4acf0c57b3fd8efaa330389aef3b50f5a4aa2dae7 0x1a75b3c06fa9d4da148578bd672dfd6ab83e220c9684d6fddd97cd0b78c2bb 0xba6f179979faa19363c7b279c1563c9bd89b3bd0701fba37174ec1b60491a9, St 0xcbf4f5a9312f7fa4ff768f54b0f0b29586843dd5b7f8959b292d73b21f37a8d5 0x195cdd75ec5d58603da42ca6046d14331efbbe342753cc1291eed3da7686cab6 0xa27e68002cc2c6f16e6cf0c24ca0d893c0103c1fdbde2b9dfdf7c8a18126ca0a 0x14827438a492f8bea38ec1dad91928c18488678dd7e24894505c671f0cb67e12);
  (true, St 0xd1cfb33efb4294491d7121aaf11121485bd83c825ee3a415f242371a4b6fc052 (-0x89b29e519a2382a56a9d7ef39b13908bb90903c202e41e1fece121c4c1a3c05) 0xabf4cb30df92f9d92a2837447dda10a93336555174267df15fc000a6126f51c4 (-0x43cfd38ba2d42827a5876e5360221ba385e566c2c8d0f930377a5c638c5a5fa1), St 0xc92ebb43fadb61054fbf0a01d27c45e7666a57747b6fa19d49d56c9799219747 0xd2e01aeac612ae7c85dbaa15a384b126fb34eeb14d7cf055aace805e3081b578 0x9e1a6a99337172538edd6edf2ad544617f3c5d46083639f1fb5895fbfcaacef3 (-0x7de2faf1650fbe312cb3bfebf8348c8aa7d2d5a665a22075a0b3e5572c0ee29c));
  (true, St 0xdee821c58e10f6c4c4aa11ae232b3958fd501dc873558729726d43c4b951f496 0x3a4aea1c8f186899eedb6ab42ce8509bf25a908fa2322e233ecdb84edcdb7efb 0xc2176d109f02dee0bb383526c3c6293b90c23087261e5e69569cccb5bf706bd1 (-0xb35b11cfaa21b20add2dbc4673dc5aa6562e9c05bd340af34d9bc210d24028e), St 0x22b2557fe1bcb187633d0bef9bc527d15e57f154564410570afeee2605331ead (-0x1b15180c1cd74e690030f74b54269e152df03a5a9834737252abad2acab3d472d) 0x4b3daf0ff0e1048df25b4c8559325e4dfcc155bf8cc6d8a9f5873eb26d14b94 0x4c6e12ea48d995eb812dd48aaa6a16cd41577d833163f6b6d933d6d1602f1af);
  (false, St 0xcd9f3276cf96c40371ddca1de9a98369cdfbb73f1478bcd165b13eab634d6ce0 0xf1f7350d46a91d36d5c238d226afff0177ea69a34e19e68532e1c15b5172c79 0xa52859d2a7284d41ee87d013b86ea5e0d1185e347815972e8cfbb7901549e184 0x1846d7e78488cf1d0a4b536c8ec8739f314f8eb57dc92bf7b953f48ee4e74a45, St 0xa072cca09b9b5bedc54452d19da215d5e98442e3d6206aae64a5869f2e04f712 (-0x1d9000bab928d88f36650d99a977fa61f1f5dbc9c98caaaec9c74ded597a8708) 0x648fb34409acd94d36c1999ece05dd53553189447b51868a287fde150e851e80 (-0x29625511b0bb5b923c3abfe668bc0c87b15ccac046a4e15795a535e7d063dcfb));
  (false, St 0x6951c2e98f2a85c0beeb2da9d842fbef372dae38173a56c59e8e54b44807a697 (-0x27996d1a42e00188783bc5bec4d21810d2522ed4c6ee266564c7d6af457ea6e8) 0x2b542c00aef878b3a26a2bb0a40d44a9e1fb5a9de5b9d6cb884bedcd1ddb3812 0xc7c1cb4db3674fb10ba56bacc2db0eed7406b76026f8d9d7a9cb23040a083e0, St 0x7bcc63a3986ceae9a0295b6e44640696cd6aa4249c3114b30415dcf9d3cb570d (-0x18075376932a6f714fa0491d9f67b1883c1fe65e9f5a5110567c02ec1cfedb5ad) 0x3bde0aee63d992b0bf5fe436753d540e34f48b6299ccc3434b4a093a580c52af 0x2d9dfa02a468823b0c0afcbbe1d5a2c58c9389d0449ebf2acd7d69914a6cabb7);
  (false, St 0x111c597e2cead417595e6789d990ae7d57c824ac7750567873a55211bc548fe7 0x446cf270dc6adf2b943e74cae75552286540ebcdcdcfceb0529e7d81e12718f 0x124c70675fec3fb7a56a6cc076ef8ee565c2f99a6920ab6f763093a08e15f1b 0x66e3b33ab3b362e41ca617a76c4cea16287564c72b2613d39d639aefd7ee98a, St 0xeaec2a6be5397daeb5a29f38314a0df0c9efbc1d11185745dfa8ad5dd72b218 (-0x8a19a49bbdbd710f57f4a62ad7abdd5ba494681bf3edb43d8cfc2df228fc90b3) 0xd794976c5497e7dee3bbcac3d17f95f1fbfe27847083a74f2b3eaf33cb9e14 0x6a3a32228fcdd3ad771f7b7243556c6490bc67c28028316eda4eff33e7103);
  (true, St 0xdb1b4291b009f1a1f98e5f6c0ab087b942cfdfc9aaef230c74964029d0d86d71 (-0x51f53f6a21f41b0df3f938cae1816a0e94debe47297a37074c670d239a78d761) 0xbb87a6cd1ac33dfe7d48bd4812af44357d0ebfd61169365c924fceea14a71f88 (-0x65557ee3b0a1e595f5dde541106d04a3d04b7f22603ac781161a0c5b9faa74a6), St 0x4784ab74433cd80aeb88918d1bb7b774501249ee3adc05ff23534b71be9b7b07 0x7050fa84787da47a2b644c66ab7a69055a60693327031e527a6e822f1ab22b66 0x13fadbdbd4007910e3598ae1072e4c123169c77591da3cf32100375448385ed5 0x340514a010a05db3da66f3aceddcc0bee6ab26324d0a6cdd27054ff69d0954);
  (false, St 0xc20e7eff403fc1eb46f61595d03301dd0c375080b57791b06ff8b7e6fbaf18c5 (-0xa2e3576543373f580f68d57ca11dcf861bd92df80d78c46f426164f4e3cbc587) 0x9319f94d9365e3ee9f9c83aabbd1beae4232b4d5a0cb7863055a0fb99658e84a 0x97e27f48f29d46d8ab63ea5caca9e94d6ee1068cd991fab3cb6f281e1d284811, St 0x8a36642e4801343c34b68600321f46c4f05d9867f492f451d38df7b683ffbb10 (-0x19ded62b0941c8b25501f2b39f8b2ba2238606afa62f172663e8c629b507a0c57) 0x4a9eaf909afa8d0228155f1f26499735ae015b86884690b403532291e278d52a 0x6f17c741b2566ea92d32b2d428a08e3cbbe38ec6c635932290eedaeb47edc5c5);
  (false, St 0x2638996a9d392d3ece80039190825016e253f9b5def1f0bdd1e92a51e4243e08 0xce7653496e60e0d6e94c2812eed2242571bfd25fb70bebacb83fd9825b95c9 0x5b4da0f26f738d67e0870f45b2e3192f1e6be4efe0cd6cacfc6b755b751da33 (-0x1bf327b52b424b6f1cb5b9ceb6a43adae000d480da1aff71df857a6bf07fdb88), St 0x5aaebef26258dab5d98229a55f98a286c37d3721fa5ad95009014c04af72db19 0x3d8d9701ad16b8754492e215c317beb31d6c278ad1bd9321f9e77fcec76bd4f5 0x201f558aad302f95b39fa13aacc456f6304adc7e6bf3e9f3d2bb51a5d4fca630 (-0xa828803a6931effa983090a5ce8b89f78665bff5556db32e01aaa5180db8424));
  (false, St 0x649798823ebe35874a2afb0a28408012787a1877c26891b981b7499b8e8e2fc2 0x3de6bf6932ae6ab7f0f66c3d13838c3af75ff71bac1d0849bd3122caec65b835 0x2786c8eb2d0c53e585305289d3451a81f4ed24732bf577b6cc79b05286c0551c 0x1488463e5821f1b745a7d7481e37ef0fa956ea480ee980435d0e7a32aac25147, St 0x3bb13ec48235c7586f407151b9e9bae36a9a071e9fddc2847f67504547957e85 0x4682900dfad3afcf9a64fd50edfe6c40afcf85be161b338fe67e3f4576061e5a 0xdeb2da67d0fcbd08bd8e891f5e528955991427469037519d02fb4fcac82d040 (-0x29d63576b4145dd12527c93ca526512b10cfdf73fbfeb93856eebf1a5c1b0899));
  (false, St 0x265d9eccb8786b189a2c76cc1c569200324fde70da727febde04987e4c231ba1 (-0x22b8710c6a38db97f6539a607c2526f285c2e877a2fa2b4fdcc5424ae8902312) 0x5bfed618fc30c15d0b2b663b4a5448745cd3044e64abc0ae370f040276cf857 0x22068eb5f94be740684fa8827d1261ff7a296f513e8e7750846ee336b56083d, St 0xda322f2f7c28c278882a4b833a0892210e534a91cdf13f6a0729238c0f480a6c (-0x2956c6eb5343872497806fcff9a52bb38dab3d88d0d3b64b7a5e056974f842290) 0xb9f9823410ade5ba6048c9caf2447f472bda0adc2bfcd7173ebaf19b6344b539 (-0xbe2e2685540799d64a130e57cbcbed122121b0de86d74dbfcd31acff178e59d));
  (false, St 0x4b0823b06c713a1732f10a909cd07f047db193c8a137943521d835f9672147b (-0x83f11a3d129026eb4ba2568560b37663b5aff14e8e0c9cf926f08ac4086fb6) 0x15fdc52bb5889b8518593486a4b3811381e8e824e9ce4d7fbe92a00ebea3ca 0x131f655790b08310ba6548fcc9af0c099cf1cbc07bfc7ed64b46a8d8e4504c, St 0x434874e514a13dece6bc4b210ce5e410f27bd7eb607f8be55a14a59a09d124a6 (-0x2978e33092cf63d1cebab8f608f98f786f4b03b2cf00682c1fe3cf642990fb104) 0x11af01b1f0b76a7ebf51d435c5e8c2fd398ad4e6c39f0b577d05c09ab10da0c7 0xe96a3dc3e25f35cfa0380d81d8d30fc8d404df5d342699808496c5fe18f9772);
  (false, St 0xe90c67fbf82479d0558efd39a2bc68c9d3bd7f2071a3dd0632f9694a4a3ef763 0x2ed15e0e83db108f178e4a433af2b3dedd2279f429db8ef5a80f64af34e2535a 0xd42795e367b5f8b91ce7e5c75550cab35c62a1c91b6cfaed6c45956da2022ec5 0x3e94418500efae040d7eb93d1c82c687b98169b4c97d0496e8329e56d2f67cde, St 0x7df5449e0285cfba93b948eb297dcb43facdb7cbb6c67c15def0d4b7a90f197a (-0x14aa1ba25a24af05e75493ab1f16dc67f431b296b7c0c306fa03e44e7437c483c) 0x3df96ffef54543d8ba3b6bae2fc701f90741353cbddc3687c8d3ac917e79744e 0x5a9942cf66e5e7287b137d5271ec6e12bc82ff907b7968505bea3592b89fe54c);
  (false, St 0x4933cf063163456dadb9b01c4705444acbb4b5517897d6ab89e6ca597b58d1b2 0x20ff033690644fdbd637f50a124a55fafd478b331754992e96ed79b0cb1b5738 0x14ee968dc0fbe5b8c74a34c083bf59edfb222ed0e0870178aaab0c090b1b53c6 (-0x1a15548ce9aafb57d7558ce25df01c1e2a939062198b74f5e35faa59958636b8), St 0x48ab78ccd81f1db97a227846a3223480b041289fb38c1b822623caf8781b4841 0x3c53371e5ce95442e46a1319c6c090cecc1f2fce691229f24e168812237d505b 0x14a0e6cde8dbcf9e32a13e90e011d10f27f8f3f1323d4964b8eb21ec78293402 (-0x3abd16df4984143a98810d7665834be3f6b2af772d6e1d95d774a331111a52de));
  (true, St 0xe8de2299018a87274a7555dc7e10ba3d24aa66a24c3d9956118c4d74cb7cec2 (-0x694035448c224078d3fb522a277a1864b579ae163f526dfd25483b25f920f65) 0xd3d35f762caa208a9b6eecf775089dc5a03bca3cfcf0a0690acfe951b83586 0x80e2044597dcad5d7e2442acd9cdec0b6a7aa989f331163487c226dde2f6517, St 0x80b95d4d745af75f7d5038f72ad06c964a471cd959e218a09c99995042fa96ac 0x4719667c1da1850fc5c84998308b05090224bbaa65807e44dec48c6e483a9f78 0x40b9e385b1086457c0f898baa36093786792a088756a15b3fd81a709fc3158c4 0x348450d18491b3480fa324f5eebae1add2ce17ffe8f6852f7ecc5a0e36e1ddcd);
  (false, St 0xe56ea46351cf2c568452e7ffe3706689637a90ddfcfc9835bdbc0ec281d21f1c (-0x465201fd3b893ee2b00a61ebebf5e980491a8437ef736b19f27cea32657f1a4f) 0xcd9f21ec2ce57ca2138c4b312028f587ac8f256ce930cf90269fbd732117493e (-0x12614432c087fad871bd0b4701c4323a745da807e6b8a55a8351927cb3ce3ad7), St 0x6e7d2572075e51dc8ebf3279e11c1247c34b2fe56eaa98f2e7f175ed08b5a62e 0x24704471fb94a32aec1e4505c168b22fee5ee12cfe8420240626e6fb41c583b9 0x2fafc95bc4da32bce51b1465d78f9fed74a04cd2a017cacac6be587063ec1bb1 (-0x25587b2b614d414978c04fee77939f27483795bba3dba791aaee4d5c95bcf919));
  (true, St 0xab138c706800274820630ce09973cc3ea2e8c4c09b72cc1b8cdc23a44e8350f7 (-0x2c1e90e3215355c8579d816e6d41824f99c311a06539871ca8576133a9de1d7d) 0x72531f1cc2fde6b7d5fd4bf6566f544e52831350cb5670f4d3ecef8d12450806 0x402079639ae0fe1a849e0f3a23643c4e23bd9ba177dde8aa56fb9ab0eb13502d, St 0x4a1258d5ec84aa8310ca9176124af39728d1a10677ee9678635193c7b9305acb (-0x59577501fbc2a317d38a387423058c6b6cff7f37aa016cc94192371f0a26200f) 0x156e9cac5f145746ae4bebf62b2dd99a0706d1d502d76b363bc08dbdea2d68f9 (-0x6603007789fae4a5cb7eeb9f47f3c5ad3e229851caca994e3f4d2907b76d1ae));
  (true, St 0xba05ce3305162384855c9eb3dc58b3a16ade1168d595b865a5e15fb0d526c543 0x25c4724fa929e1466f0f7ce472d88ddd56addf6ee7240f00171c7f407b09242a 0x872c6fc45ea4f49874859dcb2452e7283dbd0e0b9052bfb823ff88aaea60eebf (-0x5fa3472f2c489cd95d54460c79adb1024761bb0937b1ee41bcd2a4d56a9f63b0), St 0xaccfe217ae8e4462b09eedad90702ad17cfb4444fa5836925ca3c19042ac9e23 0x1c2148cea0a94108abcf195d06f7c27737c0b786193035a19dcc7410620837dd 0x74a8009fb13148fa76ccb65ace6f73ccd4cfdf921bcb80530b76e24f9a3898c4 (-0x4e9792ccce4ba3901b3638a220e1b6f9a3787cf7b2cd7f21f42757f627a96e51));
  (true, St 0x717d9337206dc9ecf7b886dcb51cff8a2c788a85cb0b23a3ed8b67704f9a04fc 0x104eb67797c9a1d971cd1542b8fa2cf93b8cdd11fc18c9735b7d771bc758f3a2 0x3250198ff56f0c2730684dbaf3903185e03687675073c3e1d8b668331281ffa0 0x55f624a77eb76a68326303405998d1aedc81ebd109e2fee138da24a2129d6fab, St 0x6b43845be4f4d7c9eceb63626382d616df59c16942121e62a34356ede99014af (-0x22dd9de6a8b1b38d633d17f367e0451cdc47fdd719d264a195950595679f6cc80) 0x2cf182738adeec182f0ae25bd3853f3e79970236f1e972c56028ede55b39b6fc 0x2f7177e820aa0e50cf9bae6e97fc293aeb73e344f9a209cb9ba6b551f006461f);
  (true, St 0x1a44c2cb2e54613f26cdd87313f301649292f68ac78f092d8d97b220d2f8c677 0xc0d727c161d78f42e597ef0dbd9cabbd9f6a0277333a2f74df180dd44ea980c 0x2b20a0958445e183899211b6c5cc4fdd461eb3252e5e930d2bd735b5e818620 (-0x1201875d96b396888e328323ef5a003be641d14b6db9be4c3376b3920f5f593e), St 0x69a5bf44fa64267e759e7e893a4e0f68557209d713ebf48aa3b0f4d0a629d3e5 0x15e2b40d436a6de563e40d0a1fff41c1f484e38bc02dc75472858947259b1ee 0x2b996236ded24f1b7a45780e5d7f9477b6fb3dac1bc7ff839039b97e564f3300 0x186e114b07b891d6f08bb4c6e433c0cbd901edf858f4bb41e9b3bf78645c9652);
  (true, St 0x84fdece9898ebc6780abda21c1727e89b9c37afb8cc66abcb814124a93301d04 (-0x3ce4de04f2a0ecd744be462c751306af483a3355c9d9d85614f30e3e0337ae24) 0x4516d82f3bcb5944f315ec9715b52d2ed3f8d83d0a25342621d56fa9aadb140c 0xc641b26af79520f85347ff9fa6b33b1ba6c5f139e8c5f11439ac6cda26a46e, St 0x8298d1e868a86c1e1b30bc67830e285de60e484622a3ac23652c1ee89ec80bb4 0xd1b1baf70818cd60cb1a574086ab8510f2643daf857f9bcae56e25636ed14430 0x429f906a3d043419ce58d285d495d35cde9582451865911ca758565f92224e9b (-0x4ff536ffe1c8eeeba4ce9e8b26e01ba05f001f9fe61351fc46d9e00416629916));
  (false, St 0xd25f3dd7e0317b30172eeb67258a4d6f8128bf34b1a3b6e038c123d2fa778089 0x21b3534b34861cb72bc180c5ac645ddf51af19de8ba3978af506e1609497cfa5 0xace064e5cdda8e9b60dccfb55c67cf29c47e2c5830967f389e35aa2e35b1f181 0x12d9d3be126d7b3f0b8004a08194ec490de1462b5522b80a0a4460d59e335591, St 0xa9c4566d23784ce2bd69ea20d0eb9fa3a1c74abeff0484c12b05ef4ed697dbfc (-0xc95575c62cbbe511015af2fe85b13a9064bcaf3dc3b3da43d309b198275ad18f) 0x7094d0b0fdb578c5b36c77492cc15f0085745baabb31178a390f4385a88bdb2d (-0x28075389137518d8fad46f266d06ce150dc94449b2fc8cd0518aacd98ed2d72));
  (true, St 0x3710a828d285c2ee71293986f3256c1a48ee09c9ca48a4064ce0a40b5f21a3ac (-0x5bee6c0df705e44ded5743d4bd484768d91664e83d42468356cb6c7c81bb36a) 0xbd8295709dd8ea3d738d9e8c4ee568318e81f9a4eb379817dc54ca68a76abfb 0x5bc8ef1686cbd113a8b2d28837d5244b68c911d47a77e48ff9e73b033b2cea1, St 0xd1b47e45992348a2fcb89f1bfe9e516652583c9de3b14b4a4e1836f177fabdd3 (-0x7362c79aab4dfafac71200ea926f3eba03fc42af0953f84fbd6bacbb08d312a2) 0xabc835701ffbc1525e2d2d9f6eb52e2b58fe7373a086e4ee974e64b7f45912b0 (-0x3d1d7e8364bafff7fe086b61d19f75dd9f29493eba06f0c9f0470cfefa7ab1de));
  (true, St 0xf17ba26b7771775b1035b94b35fe83a19722b91d98d30b6e915369be49990b9f 0x465613b7d95e1b455c9cd0e654eeae2d678c860be5750457dbaa028455ce88f7 0xe3ca0384b4fe9d8ea2df0a6e6257a3a5b6be74a56c98b214ed2d07b90440214b (-0x6c3490a952ab0bad7e6b10baf39e5790760bcd0a03aa79ffc94fb8d6c78b1d1), St 0xa8dccc4a7da9ac36d412accf4ede689b6dba4c0368797f0117d6b1ab1841e25e (-0x1b466be6acd4457b77e50014af34b7b32b49bb7ed8eaba5698c26d13b7d3e246c) 0x6f628a91f760062ccad092d6acd247e798f8be9619cacdb640a97de7c1ffc704 0x5f49f050533a55c603fe06f2ad1bf5d170e02b600afbca00d801e96c06ba2593);
  (false, St 0x9260f96f40fa2a5d744be3f6b2046c8bac0be4014453f17d45c5c02200ca4a98 (-0x2c10b53f1ebbd3bf4697e502b62a2998e9165b9b42ddf96e8c3d22eea6e94e20) 0x53b2c13f404a71f15b2e0c8e71eba273fc555c578dfa909e5e194e5d4de31bad 0x67d592a972ed946d0d9f7791e32d2af81f575c7416bfd0f5adebb01d08482c6, St 0xe1c7ffac898e63df2e18fb98c18590c37f7da3d9ff3549aa8b8f367872bdf98f 0x6e9fb9ed37cfc66338abae13d3072011b97a704c1ef610429f2c7a2c6f4dcd65 0xc7212bad8e8480ed279b722ccd713f63c4c3f707126cf54f3bd328a7b26811fc (-0x26293b03bc27b60f872818fae44ec712fb09d14c044d7907f4bcb1cdeaf22b16));
  (false, St 0xe5ad953ec1d9e0c7f6a3c99d5f37c52cde092a8fc79fccb41254c40ba9342b71 (-0x31009b140226e9ad0972d388e8d4186b2a4de835de4e7d5062133e03927ba84b) 0xce1002b622b3ec5efa242e0d5cc5365d487ed07475e983dd975e3d00f768f71e 0x514ab7ad580a76593b1481e65318519f29b93821ba32c833c812276c2bce592f, St 0xd015bc2e74bece1ffbfba8f7641ada27d05b4db8f0f5787e81bb1c802e26e2a8 (-0x1714c8036ac57f2a180a2a8f25dbaa52401b77f6ba6b6ca893cafc654d43bbc10) 0xa92353a490cccdcc1af04a9f0dcf37e1dee5ce2dab46c4ef825d09202c223831 (-0x1f696bb691dfd9a7a99fd1933a2239ecde8c68b48a86858b5d432937047d7c87));
  (true, St 0x89a40dd11bcd13f284b3869d5f4d9370f3d496f8aab1d26c77b0172f025b29a4 (-0x457e819a4b83bb80c2ada6f02797a004c383d93113785765fc0076db3043bbda) 0x4a00ffebce6d05a7e1144bca010c7d5603a2d872805d6cb7dc172eaedc146774 0x1fba7f42dc197468c7ac54684a5afc32318a9049a724b6102f4285cef8988dd4, St 0xefeb98fd66a0266bf8a3614ad6ef35fa59419ebfcc866ea75ba9bad4d6d949f7 0x13be7c404902b7a060f4afa92ec6ecc8f5655c6d7fb4862411b47529041676f0 0xe0d9c07c432116f1b6130d8d5cff9ed6a3e4bc2a050bb0800da77a0b8412f82d (-0x623bfa6d8603964e23d5b440961833bab9723016b9c580e512d067fc3fc42c46));
  (false, St 0xd88502872ce01a342e1021a0e834ce3f61d71c266d7b5625cc3e29e486a3c67c 0x1d3ea3ffef4b95a47bbf5d7c0d9f3d98f5a3d361c58c4b9139319347bed1c467 0xb720b9607355ea86e0ca879989ddc719d60915d60ee97897a1c7b60bee740252 (-0x31341e698dabff952d4c91d8568bf6226a3cc5221108a022a15f287f6f9836f3), St 0x1f3450ee50a3d0c4cdf6cafc920b10e4372ec8cf4bfa5ca7f812de18b33b49e8 (-0x1718bc7a3c5207fd3bea42de830a8e9ab1c2b95bab8e419cf1aa651b60f90deb3) 0x3cdb64ab5bbf5a7983daac03fd3edb6ab2b61290a685e6ccf683bb2c1bb3299 0x10697d559aefecfe3ffd9369d2059d3a19f193ce06684eb96fb161eb21af2c08);
  (true, St 0xe5135db5b9e955bc7ea40425ca2906f6bfbd382f27696816668bffe874a537b3 0xac8a4eaadb18a49db894cfb47ca3c6c28ec5dc74cb0bc4e15c40ff5d24a8cc7a 0xccfba71ef6de3d3811b015032feade1a9c3d3d95ebe40e3d0ae21299beccdb28 (-0x38fa67614faf2c4caca740490ed25db0eedfccd65f48960a3b82e058c0a6d219), St 0x32aa2867b6dd88be4d3cd213680486f987cd542fb383c3985087c4d3031eee70 (-0x27ab0823a275d9d05b805a7727c822d173105d6a3dce1d92ed3d11c8312ff11f7) 0xa06e8e23d94e3b00a17910d82f04976fd52011d337a92ff345be0c23227f6db 0x97450f974300d386b3095de69e9ed40c6c5351dc70e2924449484918756d146);
  (true, St 0x33700c683683efb4c403b4a099f446193e2bdf0a3753f21c439aa77e1472cbde 0x1059a910b14d4c4fc3ad2fbeea34b4ad21089d77c8bf030b3e54af46341031cb 0xa55d5fc6bd80a78db0ed4118b2bd5d1d5e460dcc1567b5af66a9d85fa7c4b09 (-0xaaee6a19ea762c6ff01d17285e1f044ea1c28af37b514fa49be32476e8902c4), St 0xc875a858a995278fc492b87819e9a17dbe3086ddf0fe4751fe7735e8c8002b69 (-0x19084be61c7ddfbdeebd41787da9f801f9b4acbaaff31adfc814d40b08d9691de) 0x9cf80d1e75b09a8d7015a5c1dca7e4a62c5647db2dcc4f2f750a59c6e5d323d6 0x592b2249349bc89a19888ed406044d8bb740ac46c9d4bc76e931313c1e355032);
  (false, St 0x3ae24500acdc006c916318c8cc8652fd441f258cd850f3ceef83f50cf286b1db (-0x13b4914785cbc5eea9b73761dcc695d718ee5c15f4f2cbb0099bacd5981f1fac) 0xd8b4f4243a9911334a2c005b982a1a3a1c92497f13d5125b00c96155725b6d5 0x1f8e0a683f54ab950ceb2f5630bd6c550e1e26edfacfda3922206e879d7c3067, St 0x3851de0d1b9e87c7cae4884e6e4be2daa4ab1963c21e0260e29047ab90c3830e (-0x146c75d079a6db3fab23dba270726849e401fb3976b87279a9329069995a8765b) 0xc63eb540d5f7da01ac1138b9e516f366f0fe7c276066899a22f9882f0bcf683 0x1aea0d1ba025705e6b4af6cf85bc6eb20d5cac199bafe7387d19043c5ce30a28);
  (true, St 0xf8088e44f14058d6994f48b2857551d1a4f494e3c89181746a9f384a8a8c2a79 (-0xe62cb3e45a01d99d3fb7057b7e04405fbcdc00b67cf0ce48eef6ffad361cb74) 0xf05093efb71ce2488d56fbad418295f4b4d996c8dd1e149e42076dee324ce5fb (-0x9d70202d4ac311bf5000e129a9df366d09e872fbae907ab9e448a59481ba0119), St 0x9e893e0cd06353355a4e31ec3ceab69afc376241fab77c560a3ef8368f917a3d 0xf75a8d60adb8c16298eb31d8dd6d62c0a42fd698995c31d030b7724ca79f9dec 0x622db22bac298cc483ce3a6862414331be6cfe9f20b7a9b7685232ee7d5ec2ff 0x9d0fc5b0123ec0a9c23dee3f7821566c47e01728eb137e9fcfff5418dace3db);
  (true, St 0x3d162036b9eea7570b02ca98ded49773f51b64b968b6e4f6e2924f9bc01a9adc (-0x2e19868b032ae117c5811ce8446d21b12902007e63973ea8b83d1e5acdadbca2) 0xe938d43b0a4f83681d5cbcb36a15076ee158fd489379f719db7e9bb1a5038cf 0x250f990524ca02c69362c4a8143db5eabf9b489e979db4c01cfbef38a8c30b48, St 0xb3aebc926556abd3dbf6dbace27b861009323476be572c923b51b16306fc9c39 0xdeb528712503d9c832f2f0c41444834582293d964fd1721690c6a45093721889 0x7e1dd2fa19be21a48093331754077711622e739cf8f8224670c751a872968f0c (-0x934af1fa21d0a84644d91daa2e7b7be3acdbd43e3c4f85ae59bb46c83a1088b8));
  (false, St 0x52dc09f6660186fdc161a7f6f0dd8bc7c2ade5b1c6da7263c36c00e7b7fa4975 0x37a9a5634fffa2cf43612fc6cc40625a3df94caaddfb3588a09c1f4961e74b1b 0x1ad1b383140d40f1dc54fbbebbc5c73db5ead103461332cad05df2c95070a86c (-0x10e133d41573d3f8327c59ce729df3d37f750284758a00e83b3b7292f6977eea), St 0xf76e42a4ea289c0df3c7c457d49eafa0426d0a5d0363c6428308ab629069a0a9 0xdefa610a0a5974e9d54268b2b4eb0030e604e2b65f1e2feea84b2651d7ffbfdc 0xef25f4188212ff1a66036ede1a0c9c702daeb6314c7880fc866492eda83437e9 (-0x34adf164e3209359bb02e277f9aabb166260464ba20130ef90d81fa4d236db0a));
  (false, St 0x434a633cc471ad95c037f39770fc7267fd96a6ed0d176f1d6bc1c9e3dc5fb556 (-0x9e55456bdd243b8c31981aab8e6c3b61b70b7e7a5de3981e135dc8e017b35d) 0x11b0058f661d2680a9e6fff0bf59bb6ec084c5809a0acc0663fac79a7467e93e 0xa1cabde030654e9163644a38d0f7f66a2f0f34759b2d80d7147dc41071aa770, St 0xed8c135656ab2f5dc2630c5afedac3a72b56efc1334ec6640237f0f5ed0aef61 0x10661e6870fe4f6be3c658e756fbd734e8dae55318fe31f0b26a0803911a818b3 0xdc6ca873e0ca575e2e38e444e9d7f5bec7a1d1aea6261ef9383a13f1ed4e95b1 (-0x28685390673092a7a070d2f0a45008e337ac65b9ce06e63a57a03dddf307f4bb));
  (true, St 0x5b54afda0c67d28d5eab479ebb022d982763f4ac5af9c32c33c98a80244b73bc (-0x1d42a0ff60e334888f1c3940cb0358dab79ecffb18420a498c07da76305b9181) 0x20955109054b1b8aa61375df3d56181d199b73a86efb713de3a6cac24310939f (-0xad29b6c6f581351e4ebe788abc8858549f5188b39181c78eec1ebca921ffba9), St 0x259bce83d3b65b5bbdc2d895d9e1064ede28960656f01412d39b1c843b298bf0 0xdfe94ea280e3a34e4907e8b3bb561b2add3bcf5bc96c16b2b26503b674e6fd0 0x5866885daf3ea5cd21ee02d997208004ee3d27af898d7a99027e3b46ba6be89 0x148ef8f5c26003e6945e647b9ff8e6eb459946e8c335b8bf6da72b73e7709b2);
  (false, St 0x72337170738e59cef15c29d744e937a9d0576ad32be947c5af190efcb0712c40 (-0x360595f06edc9ac57b95d2c627938b1b27ed9af82bcc366adee9ecdcf824d0e0) 0x32f1db5ebeef257b9f6804178120cb3eb7d7eab1eabb0b1f0d436374e1794a62 0x11b922b35e79c6852392e9cd15652777136785c451d6d68e357e28ef76a8392a, St 0xd66582e91296e99b416b11fcad8ea4b1f4fd924de02b7775945521ad66726a1a (-0x18cbd21b266cbc66b0b6d095aeefdd0f8d8bd2d27dc2298781bd16ff55ad0234b) 0xb38ddf1eed7c63d63d1fa22432a9bdac081a9f1c786f284657c3aad12e4bbd62 0x93a3b033416ae9c314f24a89d4ae3f13e0fe046c8382014800d9380c90345499);
  (true, St 0xfaf0de97bb15642d2cee0d5765dab80a67c779679fe864ce57002063732c29c 0x85dc50dc4e662f4c611c59d073bb07b00bb75015f91d0793750d58dade39ab5 0xf5fb55636d6b678ddd980bed9d32994d5229cdc617b0603f1264b5cf05bba4 (-0xd358ca441e44394411a025f2d635af7256a845f6ae47b153dde20c2718e0e4c), St 0x694ab108d570251b7b03d8c2b302ef6b78f055accee5cc787328b13271d73f51 (-0x5344a5fa707b4ce0de44c5ac39d53fee180756dc241b0547f9c9b7c9cace02f2) 0x2b4e5b043decf5bd2db101753147b819c90393f670c7691d4862be6e350eef65 (-0x39718031643cf3b4c7786964503a86e1843d9bf89b57270bb213520027e20e2));
  (true, St 0xdf0eb8757b79a1d03c3648f2c6458e0a4e3ee1ba6358a1c824ecdef0697794b5 (-0x3d45437c047f0cf03806daafa52da797842c023a395ab8d1d368174d3e9b9905) 0xc25aa636213b26d4cbe503d3241d0f857b9477936b4e2dc67a0baf3da488d8c4 0x33f2ad4ed9c1412614537b9d35d0cbf1e1eb1cd1f46b46acf408e875fbcc1b89, St 0x7812d853fb84d68e7406888efbcc65bd0aea1896514e244d8b167a65884fed3c (-0x9bf6bd8a5152d0f3d0e2bcfd45743d8bc0636ca3db4138143896f7bf34ed85c3) 0x3851ac3216bb6802d08972958ae5d81782c1524931209877276564cd38b05a3c (-0xfed0a75d3d9c1522df308e9773402dfb54b481b2d15882acde5737ae20ee01));
  (false, St 0xa9a0bfda47ab5f87542d1ece3730176ea5218ee9336068cb29c495648a787b6b (-0x5aef1a3dcc7ae173748444f187d7449dac483b923333641e3510246ea7cb125) 0x7065a23f03a6eda686093a46ccf6289e525c3fb0aeaf563843e4e4a8b13c7fd4 (-0x2824a6ddf23857e15e12886461aeaa0cafa6229a3cfce36e8f5786ef9ebb612e), St 0x9e2d68c2866dd2386e25171ee7a9b1efc47507e7ba6402062f1e0329b0866239 (-0xbef550c9d8d704f1532459bad4519b7790da669aa1289c689de74ebf7ad682af) 0x61bc155e7eed8880ecd592eb8bb85bb765d67255abd7a2083ec83f7d752f8df9 0x6391ec01df47a51b27de3ff98f00e99d4cead16a2c17a75833b91b915d53aa82);
  (false, St 0xad5f0059be7021e00204b4e40fafaf52422d7b1f001cf653df68166c4c887ba1 0x9629c7f95d6bc38245b9534515560c5b7b5954269a457fc03b5fa9287d6ec888 0x756989bb03688e326c9d11997a6da67cd0310246232ed50f9e9861c61598c12f (-0x905596861d8457170209e46b4198bb68e74360019d8c565d39788ca40c098de5), St 0xfd596f1b40e9798d1cc6b722f4383341606f3cff813ae142b66916b5df5e6ec8 0x190ff0ed56a796d80e05b832a2596e659b89865add32df4fd2c1689590e4c2e09 0xfab9e4db4a3326a2f7959e5b8a1abd8b15e10e1e6495941ab68675afa3932789 (-0xf34dbd33c3f0ade7321c65ecf64025f2dbf812fd09f57dbaefc87da631f7e358));
  (true, St 0x4d4f18ea8ebd8bfcb2520896745005289eeebec822fd96f90edf80bac8a1a5d (-0x9e1eeab4c29e61384918b585f797cf6a0ec116aefc1b25f2377d828b726c90) 0x1758ad6d94679e4cb2a477b4a223607d6ba8a79572d4624c28d9635027a101 0x34b3d14bdd243570c46d823e015ee5e051f56327101700a803df2c175d87f3c, St 0xbc4a9484146a7c26998716eefc19645df777365d66e6e31bb3616bddc40f15d7 (-0x117f686c3b0f072eb6e63c33fa49dc83ce5501a8ab03cf8a8fa914ce290dec59c) 0x8a7d9fdcbafecf84d74dd473fabbb2f9a725fee6e18de87062b24eee5a21fc39 0x3ea1e96c98f4a62d1f0e4be85bd2c3434270f38efea703c16afe81a11f2d3955);
  (false, St 0xc11fde40332ec9c298f282504c309a4c03f763d9c06a37e4b79a9b455081e9eb 0x2aba41ae7a5601af98988031cd2fc5cac555ebe172e5a7a51613545d4c909c3b 0x91b11114f35d6b7f70f91d24dd1699879b31ac8141a0fc4db834a7f52e8ea577 (-0x30d4dff1f284eac349c9260c265b836a94c8dfb1639e8470511d39e1c1a27d3b), St 0x4045e927d6ecf24a13b59da2e0e210fb09319c80352ac62d1deaedcb78555cd7 0x357bd7557676236c00b77426bd333e4250d2dc44c1820fcdaa2dcdd175d0cddb 0x102307ab7f6ce7f996c0f9dc92b2f653687c01753d2030bdbcf1f39c22593801 (-0x123c2f604797484d1dcecbd2c518b36f8c9bb9990aa00cf6672151586e406530));
  (false, St 0xeeda7da9ea43918c01779de1d6100687659b004de9ae296083d0d51cac8ab586 (-0x75f258eaf035c104433b78fd719b9512dd7c4de6365bc81e9d998985ed10ce9) 0xdedafc231182f963878d62bb79851f77b441d8396a9106dd425334b8569e7b1b 0x670f029a19831d71ce79276f98d2e90895113adaeab9fe196ad7bd20aedddb34, St 0x3dd109c419ee6d0054ab9b2935419dd4fcd032e8c7755ecfbc10e63d965da9e3 (-0x9dab7016267dde4c111b3223bcb62d8e7892d21b5d26597f8acb91afdf289709) 0xeed495875daa0a30532bd3e2f410f4b5508fd378c39d294d758380d2049c8c0 0x1411d86d3c08c805c48d7732930d4fb3902875a2989ed01597b684b74440add1);
  (false, St 0xa06273708c200fb33c6fae171e3be823d255fd4a0a7011c20117a50544021fe9 (-0x112150317b3caa5a4d8b4ebf0061fb7bfcf3e4db0dec9482e2bf0b80cd1b7306) 0x647b3629a9dce1b50d0364fac2a5659bf6a79e785eaa70172b7b73517f78f78d (-0x4607a78da3d5bbc9fb752fdac181455d3a70cdae0c6b6f57968b9b1e8dbdf387), St 0x709ed5ace8c7539886bcb69660413a8288283e9bc4bfa883386aa1c07df624df 0xa590eec3a7d3841e5dc79d2c6b740e1acc8fe93b26c3927c2f5e2f194482a692 0x318b5d83f1024cd9b64067ed57255b9b05d460d142d0200828851166bd927304 (-0x7639c260c8884ae54ecb707ea833ee90f8cf15eb750673b9f431cc983692e61));
  (true, St 0xe014f36a1956f4765f6bded399dd0acb9cd2e7cac0b1e8fedb3f059684ab69d8 0x5323ee0e6c263e853276ab898ce5a85149118e2685a305fcca0687a3b26a9b25 0xc424abb16083652a0877acbbdc3e6cf5a99264f9a1989dc2c6fd118945445b5c (-0x7e0cdf551a1c04febf2a18f59981b1584a015982fe465e4c2cbbcbe46df355db), St 0x94401c849245c24fd48978913c898b2745d023658bc8bcb01fc25fbaa40a6de5 (-0xed73f9cf2f5fe95e421e090e00d6e5b9adf4f218daf0d3f8333737bc76f33515) 0x55da3107e471413b7245c5ce658863e853464ea2adc3f6fe87a6e001649a534b 0x312dd3c6685ee2de00bdae15d946803ad6b75ce21eec249466b5b0f1d2a02fc0);
  (true, St 0xce1d67162dceb4b9db12bffd1ff22cada227eb39c9f822108808234504442e71 (-0x6bd7fea46e4f564f663a5e0b103285564058125804f7768476f61a1fb5164d39) 0xa5f35548dc353bc08216a65df41223461306f2ec14d1c83c1ffd3e7a9741e0c4 0x46e92b596e71cc23cc4a9f2a139d6c0c2a8c3d84a814d123231364a46d20ea61, St 0xa418b0e14f4288a2b908b67f7ffad7cd8919c670753af8790e02a9acfee84943 (-0x44947d33f775523a4620070e834b3d5b3debbf3a9c2b0ca3c7e630494536d0d5) 0x692fa502bb3253d454f6985b94edd94faf3ac7c83cf6765cbf011e8b896123a2 (-0x4165dde1a3dc07f00a5c760d2581dcaac8b14038389aa417b8f024f370ec05aa));
  (true, St 0x223fc589118487ce9c671852d4ffcafd599787ce7b4c9d5c6fa38f85a2a36004 0x7832ff430ab61e23a53c4e12beac5f30f0788834f9c61a95a011541a91d02cd 0x495005b3f1f1202add6a55b3fba6ae455693f1af429329ff596997bd8f5a4bf (-0x420aaf8a567c496a23f2175659759e9017c6a3f5d4f160d399029a900d34969), St 0xb81c6ece09407dd213daaaac5e16b3d715b4658df344047e032e7ee1fb85f2d2 (-0xeaf992e956ae472862d454fd4cc3cc3188168719425386fedb247d47551c6960) 0x8468e2711ebd53306d13be2c362891d8d22e54b49b36eb0c3873b645a6a26a40 0x778b507046b4a141c241987052eda1de70ea6c778433cf2e2a5f49c220cdb8fd);
  (false, St 0xd6db376d5fda4c7f6f893b97ea6d62d17b651a781e6b1fa5c87b583ab0c0ab89 (-0x7645e14f286b3555bb5894ef880e4b4f58ab1fc2d4c3222f54c572f157d32ac7) 0xb4533c6371b661b13e8d0f1aa5d6657cea77b7d41778256de89963810632e69b 0x3ad5a9cf6f7003c7d5fa23c68a6f43157b3543834f49b115ea2a2ac04bf632a8, St 0x71e9c011f5d9d9ea1747ec50bbab11f28e3f2ffdc878091c0ea81745403126d (-0x13f1cb5aeef7d9cc83a231280e44821f49ee01a67e4e38a7c500c1738b5dc17c7) 0x32b030ff3e86fbf7ba6b73041f776a4c6219610a5e8d9bd7d60f41e1696d56 0x2c0f496a0747d24fed5d8f3c786144d631ec291d462310b4e62e787b12e23b7);
  (true, St 0x85c7a01db17caea7824e65dbe2a93f72bf2e256141b650f5cc961d6199bd8db7 0xf1c4f619509ab676beb2561b82a3f7d7fd017a36f9ce8b1a9021dcbcc21d94d 0x45e9080972a3a6a84e2b456a819a947f8fa76cca6e1e7d46ab91872169ad698e (-0x10b86406f19934b967af002798cb4f104f8702db8630cf7fae5b9121c33e1253), St 0x48da17f213313dc1d19f4c16e0cc980e09e96d0893555d4d88daec289639a81a 0x186fd4e6a31a1caa78e0ef91d657a35bdd150002067c763c9431e8af4d95ed49 0x14bb67450a0d2e3a4cf653ce2160e41ea6424b675a6dedf1f6db2cc07cb6b32d (-0x16c77d58dd576e045f1be6cc1f36bf121861acecf4a8012f2097e3230f82f63b));
  (false, St 0x163ee227738e49eb2822ca52efd03df595aa4ce3f60208caccddf0d7174df8e1 0x6b02581cf0ea4a61732c4f5fbaf5cb1f47eee09e796748834bae1a8342b47ee 0x1eede511cb0fa0cf796655f206530cca559d3e2eecfd153309fc6a3907503b5 0x73be16d9e267c652a1505aef2f2fdcd671c08513ac94bc4585e12dcd213e0d, St 0x958114e39c72e7d19d9a38a4e494555230b82ed435209ddbe7e89ac3e57143d8 (-0x3ec20fc84fd3e7df697d7482dc18f10cb76569f0817b9c5951dbb9686bbb3cd7) 0x574f83675a854bdf6d88404d74507dd4af38d943d14d91dc78c314ebdcf6eba0 (-0x22463775d47de86e35273ca78df6eb391c026372886a5ee8c8417ce4da1fdd83));
  (false, St 0xe284f8f2719716b0fd75620efdbfb277c331b5fd571c7631e37fd86bba49ea45 (-0x3888b52f20f22f82078fe992304bc3cab19d31f69202bfc2e7c05736ad7686fc) 0xc86f0c9e8519962d52b7b8a50b943e36f41c4055fc6c6bf2f4f50fba0373cc92 0x4d54bdf249067bfa04ac3ced01ac1d701e331c7723423a98795ef1ae3bb9f94e, St 0x4df3979410297315308ce9a53a4a4e72d302f5e2b39296c13ebfccda758ee104 (-0x126448f2454cd51e47ed144facf8d19003c2d5dabe2ededa6472265b7b37b354b) 0x17bc70f8464c0f96feb3d38ec24b67bfeb6dffafdcf0c7735e332a001369332f 0x13c98d08a637ff66eb811f69f24f31ef5803cdee011cef84a8b9b17111b4ce55);
  (true, St 0x22ed85109a6dfaef5e80b0a98eee7be63a9539ca337ed1e55edbc74e8a256fc6 (-0x30ecd55e594db964433e63c32efa690966114be2bb87f1c7982550702374805) 0x4c3f3b813b15b8c34e1284d7041c178d657d8cf4c58942e6614f9646347116d (-0x1d09829171013d35f4d9a0d3bbee4f1ee4fb811eaf192ad8be4d5b9e37a0133), St 0x622c16d7918d3efc2201dd1c4c193df0d8231721bd9f92d5b62578dffa4ec7c4 (-0xa204b2629f548f3b8fdccc1a7d11662945ce7826a60fc264ea6e1ba5f3ee2db) 0x25a5c9150d39b865ad1d7ddfccc62f8377a33a647a2ae136fc23860fe0d9a09d 0xaaa70d7039e416681b63abbaaec852182a6e9a53e2492a72efe9a5ab309244e);
  (false, St 0x644e4ed95b439f03c74254619300f0303da26859928469aecfad38974df3bf8b (-0x18e410774a131521ca10eef241bc3db8f7ec89b1b20545b08a8a3573b76d8b33) 0x274d458e1b56e326dc15e2adef54f9071fcd1ab20141caf481b1f1281ccc15c9 0x1430ff9f9a3a8904db11c40ba7f0b293d64b172aa3e3b26c903424f94f2e2081, St 0xe3f4b5f380909790d605bbc675934fd531d99355c83fe8dfbee8e38cb0891cd7 0x112dcfd990f67b15ba32b828a8960e3c7133a96a173568fb2bb16f857bf84567b 0xcafbe499fa7ba06ec089569ac9fce43bc48c007d3546ae17d97742131d4ec108 0x471f175d9720cc42f1d9482ddf61ebd38e2193abae4f6e72dc711d434e9fa56a);
  (true, St 0x5eb22b7748d84bcce9ad27a4e187a9ca4598f6ca0bf354a0b8095e25c9bbf7f0 0xa7b9102857a7f1b07d399f8637d8f0c63d7dc6b3b1eafe1c6a6f2a0a51006b9 0x230753ec35c8c26d6e993cce1db36a36f2406f705216591f23bace985480b813 (-0xd782cdd8f7386e6c6b07a096ed606df9e5ce272c46f91ba6fd786fd9a6e0c8e), St 0xd93e88b0a6334b829fec3912c6a0cca407a0bdd9a3fc2f359005e1d1402b9577 (-0x776e6560febf2a98cedd57b04f9f4addfa2f24fd8c2a1633fa289a179d6de5e) 0xb85b1302b0aab459715cbe3fafb12611b99432f6563c01620ca6137879aab553 (-0x5baa6192ed78c6772e5874896f60f99fda0414fcec17b2b0ac486f363503409b));
  (true, St 0x4840954d2d79e3c829a028734fd87f57c8ba20fa25bbe6d7203865106f6d67ee 0x1c352f9109fde4760148d40ca0165617243a167a8a24fb2be483c73278247d1b 0x146464467ba29f8d294b3d16ba2f1fac89fdb905cfd7064345ec60b65096c14a 0xc774807cae2e24e01bd77403e805444134f96b204c2b98283ab6b503b995f2, St 0x62aa74cda333091dd7c88dd112b55aa2e436b01cd5de1a6078fa5f15a638b1d (-0x13a1e4528c3722f74e33be02f99f7ad41555f8cbfbdeb36b0d1b109fe23449535) 0x2606f2eced61c6c4c43ca3ea3d93a45a536a754a94ae872904082e114b0ec3 (-0x18089d3db98c53003eed2fbe844cd42be5ab8db9a27c5f37fef10f8a460e3d0));
  (false, St 0xe2fd4ee13b6614b0b5e2c5dc0028191c92d78769f52a8433e703691798bc4185 0x925b7eb69c575f0ae48ee26ba4d2562fe76ad2f1ba3b1bfdcabe78bd15d5fffc 0xc94439eb77a1e493409dd5ef29a07813cfe277aac1c4b0ca58a1e515c58f99fc (-0x7324bcfc4e9477ca3d54d95abd6780042e335d263d3fa8ec6984c73c15b1a542), St 0x1a12b80334e3d4e986f7e3234d98f5caa20207466bd688fa210b01de604cbb7f (-0x114a4fe9e570c62f0a1fd8a1c5f9699029718f96106da0e877d0dcdcbc2fc348) 0x2a7cebf0e1e221a360bb119eb074943d003f747c83bac9fb03830f03c6eff34 0x6321d68a6bbac42bf76501fa1a3b27a7441f367e02389e47b4fcbb4d0e71e8b);
  (false, St 0x5bce9f6ba76782d8559212ae83d047014fc02a19bf524c33a1e176659bf0c44 0x4462f57c4eb5574dee1e73667b9d9c313a76d583fc4fb3179b7a3bce94036aa 0x20ec8c1b9e7874efd113cae61d17cee5ff9cddb7349fcf80e8fbc3ca893ea7 (-0x40cb7d9e714b4e524eeb1e30d6d7209a631d69d077dd7eec6dcd721206faabb), St 0x5a5ccf5c21070402648d5d0eba7870c7b6cc6bcec3963702dd1dd434f2fb5f7b 0x7b9cf1c4afeda13daba5158465c27683a3204f68b2033991c9b2b1a0ebae6482 0x1fe56372994c2de0239c05058039460aad2251655f9ba0624bae83c22503bfaf (-0x4ca933d7b47650153b9be7d80e15dd94fcdf5207f55b22e875ac39f76701b783));
  (false, St 0x88cda8f10cf6b3a518a611ff8349a3a36cefce602a14c223f8c98848fc722584 (-0x13820d9e188dd2850862e1a4892ddae8710da4ac4a9134d0461fb940f57114d7) 0x491b28b8686d4eb074db0ed7f51cbd26a026d74438588115b03b66420e38dda6 0x3c87fac5ff96708eca880d362e4683ec1925aad898e0a0c54ff2acbb73405a9b, St 0x640e1d0a4b7df01903914c449b7097aa37fd4540d1a659645c5ff32350f6ed0f (-0x1ec34d8d705f0716e448ad37522b8af8fff431695b016513e85ae6b324a91fc29) 0x271b0777628102558d6b57be50305480cbcb6c78b6567103ce469962e90e3f0f 0x38d64cda550dc20493593d95f5d57ecadb7f3add131c7b065f91386c9f5f3424);
  (true, St 0x1c8e45047a4fe1a266eec273ae0c84f8f0bc028bdeaa46b43c57decbd572f1f9 0x39617cb1d725ce6dc52c0f4de317978f252766208f72c9279dc5802fdf93b81 0x32f6e29a18402269193d3f1b5f60cddb3f2b20e3817bfcbfa049c61507ee8cb (-0x1168fd522cc69d1a34980e079b5d104d1997ecc595451a8942b7ba802cc8a289), St 0x73d3343ce7c3f5a443de19e443eb1d46d7af9fe321aaa425f7e6f344e9ccdb2 (-0x77aade8098acb6f90efac6d1c2edb1f16bdb9e47fdb4a3672bf91738f618d833) 0x34676f2e13b0578b72836f9fc32f32ef1bc579051ca2bf6c8b4b3225d0dbd9 (-0x2a297722873f93da767b7b0d4ca2ddf71b5513331d920bb7de7c566b06ca81f));
  (false, St 0x3d09b11e4241da6a44cb5d53499e21a895b7b0cd593a06b96eb3f9e551931267 (-0x75468f5f0210c89ab3a506953278c22baa796dc97578760f3f80aed6728c3bc) 0xe8d9ec668cc84b1031cd049a1c0d4befb8bd150600acee220fa4e55e7dd39f1 0x17c81263a5d48b50638d0b1077f77ba2946fcae5cfb109c227e552a588bf5083, St 0x43917ff01aafe39b0b9ec754cefc7421dc98b2397d4b94cec3590028c56ea76c (-0x255a41c5ac25b7b727a35cc66e1fc2960457a7d66f187a94213b48ca5aa46dea3) 0x11d57ba9edbbe3b96a05799578e29118538f5643d92171ced1083a714d9fe957 (-0x312b1e4435ce78431e5af853fe7ec16572ddfe598f7bd23882920ada4d162ba));
  (true, St 0xe610a5318ce681d2f5dec0f3fd5ec59a21f3d627ab4d5c80ac76ff70bfcd0e63 (-0x6419e84f40de573f98aaec7f6cb2ce67d0fa68da04537c8363a038863bc9734c) 0xcec1e9eae8baa139c748471cf227b7c05bbfabe90d4c8aca61930d0362340007 0x123515b58d76d7426ebab129134d9c78ba1a8a92c1892874c419078d85907bae, St 0xea21e14e61425a5a54c8b0ca849a83233cfee170d4bd8bf808c8d16c6624b374 0xf17d1a6cb6a919c1c9624f3f4457adcb00ef1c13a9876f62d3fc6bb7d383a728 0xd621f45ffc6f339da0cb2fed0ec3cd5387a4a1f70b2337adbda8ec33f7bea991 (-0x185e2bf7e0b4cdd9e086df64be2294943d7cd23e34ea15e852380797bbe7ad90));
  (false, St 0xe13d784f9343d0c7f80f29e335ca91067fe809efc4d62d6f7279d1ce354654ca (-0x38bbe6ab662dbddcd24ee0ac2322b65e301c901cefb11017117981169654615b) 0xc62d1c3f3581325b3cf83cad4cc06dc8cd69245dbddd9d38f419e7a5e1363246 0xc300984bb258fa9d51f7c40add3614391045eaea4c108b02eef8228b22347d5, St 0x64e10a842336d32f0d2a31e905f7f54cd31f2801b0021d85ce4e387d8a3c8c83 (-0x18b3c5fed8210626d7067a4dbf1fd74ea73651ad45f370a03232aa60cd35332d9) 0x27c0960adff7e85b5116ec83bc78963b529e2a90bc77e58bf108c6c9178857d4 0xb860a7b14920f536cb6029ed3bd6f5342b5540e5849f7e53be2bcec3ec8e34d);
  (true, St 0x6601f666d3259d0cf31b4747938a4ed496df3e78b588150865358e3e5731db84 0x622079d867dbbfa5fae6fe58e7ba0b17bbae58ec37f1753c8e5c85ff4793885 0x28a5905df2def6e8900219827ad4fd51112d4487141c92ea3812d4fbe11b0f33 (-0xb7dd02a4375d25d5ceb97d35bb5a99467bc297acf9e539742472cd25c0706ee), St 0x8c553d8c57da304ad6f8cb34d773e2acc4348021fae57b455bfc6cf441d75c73 (-0x1b6f0237b4a44f18eee4ae587cfa5389b7bea27830f4aa4f71a2e0a17d5e21f44) 0x4ced57b3bb0282378ab68d136416ae8c80780140de69a304a0d024e47ecbfdda 0x53b969eed5626c105161ef895406cfbbbec2f732049323d3bf50d0f5c002de48);
  (false, St 0x2d2fb08ccf8fdf0c190c7b0ef2721b2ccf1b297046c19e0536a888fd7e81ebc3 (-0x1d55135cb2646edca6750671be5f49c222c69406cc7639634434400b96a7b983) 0x7f9ccf3d668830b7604df2d218ce47539c15b75a7f4b705076c81dd44dc1c5a 0x17f2d9c9edeb95cf62a07280af78c67956faebbca133cf2388c095abe7e40def, St 0x65504f6ea8e683a5f67b1327d611baee52a8305ab6bcea1b7a48e4cc86a0e9d8 (-0x1f243150483b510d2792bc0f78e08510706440db21d5e50f4dea742c9b9dbefb0) 0x281877df372d67e62615072ac3ba2858ba8b63e7340272fabbf3de393be5e13f 0x33874b79c14b28db54b45f5282d5b007d571b8446a81ff3ccf352ed9d608bf3f);
  (false, St 0x1191e6186d213135c9fb9b1237ff475a7fa2604f17776fa1cab4ad532aade115 (-0x603af10ed9ae56f9c9829c527722e67ea16c699cd1db6628ce77ee73685b76) 0x134b3b5b62ea244e1e75168c2f1cd60ffe0b35df891ed587c9c59b56c470391 0x3ed31ae7d6ee13fd7e76d68fba94a79536664cf84676faa0627a778d26cfdc1, St 0xe4702f857633d29ce2f2c371a910c29ca465eff6c9330269bef89867244b0af9 0xb7ce41efcac6bf54f56010b9dde541640d4988aeab13f833e75001ee780f8e24 0xcbd805d023fe094a256f4706a70dd49df33eb89e92fcf734316a5ae32a6ea5c2 (-0x8447c8c22d844d4f9f0359b0d8a475270293404f00709a1dd9ae80b5f07730de));
  (true, St 0x1499bfa736b56759d02f3dcf188157df8cefd9138ac4a65b15ae0c49a446051d (-0x10886bbde56cc7e9d9be6105d0379a94017ed3e191e67bf0c3b330755258df83) 0x1a86248c78f101f745ecbf0389a9cd2e869a04ef50a99e6da427b764e62f118 0x3e1d031d6a3bddc2299d35b72f7bf1ad72ea14f86605bfca89ad3e9da2f87b9, St 0xd0b65ce10ce1e3663b2a607fd169e5bc7830b7d15b18bf0286e326b73aa83e89 0x1250428118248120959c0c4aaa606aa3c0622d04f9789ea69a321d08979ff117d 0xaa28d8d690c8c2a55d4a0fbd45a3137903cc8bcdd6aebe47eaf367aef565cefc (-0x6c26d381e4889e3dfd3edcf2d644f28bbb30fb093547644a48cb7625f932df7b));
  (false, St 0xfd62182d67b5922a1d78aa5b0b5bc2039175acf74bae7b44ba215aa256a3928 (-0x184d98e2369b0dbbca41c982c6c770a25ede31c95281668daa23a643afb2ee4) 0xfacb09613ed3decb15c8cb3f1c32c8944a79080102ffcc8630e083a7359b90 0x4a6d5ddaf86c28b8cc8965c257bf447de999909f92a5f3041d8cab29e39f99b, St 0x1cc0cdcbbe138d20b40b7f9c69f6829c3b34a8fc0ecee97e8328b3212546728e (-0x17a9630162df10cb725a187dcbe103602c5ab42603051c7d286faba08fc6f8807) 0x33abe39ebdc12ff113b232187b1a7e0b278378f81ab02da892dffafffc8460f 0xda5fae101547f7c8cef51d636790b0b2d52f237482838a9b48c913e9acc4f06);
  (false, St 0x6d88fced7a1c075cdb758c9bd562c30a2b330195ad03e1fadcecbe447b32cdb6 0x13d1bb86d4edf548deb6d759728ff53057512e02694ba2dcd0c1d485cd21594f 0x2eddf0b01f0ff16f5660737532c4bb19789d7cc936b733e1fa2ed57e9ce36ec0 0xd472fee147080e973c6d2493b50eb7652b987c49533c92da4f79d5f8f389373, St 0xb5dc10a3e303c905eae89ab045867fc916df3ac7c09d3ec281109468ef7790d4 0x10c8af1d332d5131746c8232626739fdff79d11048627e17faba540951bc77170 0x8130ecb4daf75ac393618a0ae3d3331b28a38cc2ce304a106a9f3598f24d995f (-0x6ad9173ce5e2608003ad577b755c61eea97148a2421b687fc6380a37eef46d04));
  (false, St 0x58967b58af3a9b0bae6a691eb5d54a80f22fc92d68e3edc0d62eea9b4d33e85a (-0x3ec96c9f9362588feff3baab984dc1cb206ba7fb21fd0ddb6c340685035f80ad) 0x1ea7cd41de7bc7a2baa6865feafde96e0bf83b3455b06ee5bd99eaf8ccdf46c3 0x1dd82a500092f37dd5d9ab28ab047e825126de8eb819965d83fecc01e96cfaed, St 0x383525a7d4a15aeb7c78a5ced62d0c43970fcb6d87a2d96466810f0a8426e327 (-0x1f65dc2ab9334fcb61e440b5f3f9d82a4315d4b8edd3e5f49088b45867a83bf00) 0xc574b821665df96756d3c144c5aacc8a8d162e29d8ccfa801b50efcaa293a58 0xfaca6b16b8e957d60a0904e2620f000db15daeeb8820508f6ad84725cabc1b7);
  (false, St 0xee02fbe915ac4c8745a2bc95e19d8d1679e59d52ca4f93b1bbfe6f3ebca07c21 (-0xdcf75b03df9f14b6cad647d870340212a4c766d316ad1d8a3daac08ed1a207d) 0xdd498c6f291d262356f59034cdccf28e3e452a67e97f17b7fa8dcc5b40304154 0x1bb8e7e4794b5baf1a769e7a43f938ec907d18dfb4ca93cce217129a522e1a50, St 0x3db18f217912964391f920c8d0699f37f662924d24719b0df6e25a0cf130ae44 (-0xb5ebad0c0f8ebf606171e7ef3b1acbefdb5965046f9394f8a44d1c02a905c958) 0xede195d3ee0ca5060f012f7799de61dc9e6e12767e7f6e9916e2b3ec2271148 0xcdfba8baca0167a5664bd3da0878ebf377ea92cc9623c36aea3750aa2e65131);
  (false, St 0x4e5129afd722503c58027f811a02b7d9ff408e3af6cb8d25471098229e12c8b6 0x7388d7d80c8513baba764e582706fc48363464c7c0cb37e3fc036457e2aec02 0x17f58f22a71e676eee61bda3881278dbdee46e89ba9e3e27570ce34742a9d073 (-0x19db4456486af594251a0b9541f1e9c8feef0a32df7f4faf38001e31892e46c3), St 0xbff1ca4c8fcb2510e9881712a9b17899d17626e3c5c7d1582e21bdf130b85b06 0x93e28fde5bd30c5843013a0261c5618deeff5a7fe563520a98bb2757326e4e09 0x8feab03d527f77da10c6d37828ef20d451ea03a7a45ebb194fdd89fc79e734fb 0x1a420d411edfd054fbf506a45192b7db56aa6c0a6a786c86f275b0ab9d551fab);
  (true, St 0x5c1757a7bb0bd7dd38b5efd147e2dd9bce6966c44b3049cc59aa386d587ac598 0x2b008c9c5a9b5965f8196e9253436e54360d5f8e2738f0bda8618c645bead39e 0x2120c9218db85770d5f0d073e5bf9561c549f2dca402af40fdaa909c39294010 0xa671b46e5300aefb755cbc3f9f56c2a0f2ab969a8fd0f8d983553d818944b1d, St 0xd6179191c1c2e5c545031234cfb7a47fb11e0d7440fdd71cc91eba45f0696140 (-0x148b7eba458509def91ef197b3b29bffbe475eddaab4c4d407e7728b9af6cf530) 0xb30b698bddf483321d75d71df7a5e0a83cc5fbd706f268867a2349a63b043c47 0x6bc9c92a1630df1c31e720d156488d1267a538f42d75f8fb88fbfc3285ef45b2);
  (false, St 0x6880c4014f96dffb81dc9dd0eda9a7636b3a4318d296637836152e368201dd1b 0x7fd28c77d7e985e17d12322735d13172d9ee4a27dd0efcd3938d7d50e8ee3ac 0x2aa8e005d2b50ec2bbf6a18dc984b74702b0f483b08720d6b18e346de5b4075e (-0x1d5c8cd056ff1faec96d5088093d56219ec30c03e3d5918b93d3b7f925d10700), St 0x3b1b1c03a42b8bf6b9e0b0454ed3977fea2aae63ba4e0a4c709bb4683e0bbb13 0x172d6546ef5ed7aa8d057bbe87f4eb87e9b1afb90daf5e137d4f577559f79e5d 0xda581c8a7270172a225597d0d55fa573eb15c6ce4879ae71d5867b9dd4b3ade (-0x132018e75ef0d9782e4f8f85b0b2cef3168ef6b829fc56f6dec6df4c3a5380d5));
  (true, St 0x51cd80be1b0b89bfde5cda6e93291301af2acccc341690edbc9755ad5c51846c (-0x37c6aa12a9cc3a3e4d04f778b1dad8cca61420f63eba86fbd04fc331fa176f4) 0x1a23b06fd876f64d780fef8bf39714348b15710991805734d159891046faf2b0 0x1e27f6404544aa9ff9ca48b9615a025ed3eb74ad0c52d05d94fc6205dbfad2df, St 0xf4da40c1e70fb4584b7738939a71fe126918eabf0281ea9f1b8e2241f84282cc 0x171838272eb8b37bcd7d86307e7a6ac2f580f233ec8207f5f5c6f2486bc026b9 0xea30c584e545c27181b8331db5e22b9284921de6593db11dae333f97c9214b34 0x3e26d61c0524267482bcaf83b5138ee7116fccb31c0bc71b2c9a46eb787fcb3b);
  (true, St 0xe10b2748ab52e2fb3bcda6d4896f48371ba39f10d805c632e3f4a61c56daf38f 0x103f4e615e5851f7650de6c2ec4e80d7d43af417069c22e0358e6194943dec01 0xc5d49b8ae942407b5694577a7dc5b5b1aeac52998b2841ef7fc52107695a6418 (-0x10d8cea710ac16080096d62e9b6e954c5f85bc5a17b867b527537cf57087579c), St 0xd4767c33aa3b2173bbb011987fe9aead1bca16eaa85e2cea9dba71f86d60c04e 0x12e9df0c8b451bf802b23575bbcb0b9e19ce8952e44533eab25002430e4c367c1 0xb054748cfe2969cd608ba0baad034f9296e8737c6eebfdcab4e4d7f417a3e265 (-0xa9169d5ef427642a7636dc5bf45b48cbeb2ef1137a8b922bbbcc4f2681d89a95));
  (true, St 0x76c9ef98a3d5461cb3a8330cbd77dcba3f37512bfd1cc93a53d8255e340f87ab 0x5e38b1547b364e5dd29e6b615a6af82849bdd0baaf96db0167710131cea4af59 0x371ec82b0c1706a092af8e252211d27e9ddf1c17f9912fd5caaeefcc2301e9d0 (-0x51b3050d706ffe2ca26b32cd898093b1d6766e1c83a81b0d7a79671844c8796e), St 0x732cb73e34f39c8878dd166521bcbf73c6bb32e0e2f651074dcf712568779c82 (-0x1c7da62b01c07dc80f0b81bc902d3f42839019a54ce3ab9859d8693fb2883b740) 0x33d1347197f045a3ca5e0da15e8244f94a96c436037f5c120f1400fe6e16ef89 0x3ee470a45187c8de25ee5badfbe5f79b3209555e01f2172f4e38ff99fe3b858a);
  (false, St 0x62c1d9bcfdc9f2fd4ef93bb93378cb180e27b3e0b268e8240ca6ff9d20fa8252 (-0x2b8453aed554f0fd3306556f04dc12aeaeeba337b30c5ca8237e39e4e6355c7c) 0x2618fd7ee09037cf27063d5ccaf055d4e93582e7fee2e09e34cbbadf74f9afdc 0x4ca7129e3cbf203da1c1acba74f8edd1d52aa404ae97894ba4577665990f7124, St 0xca18b189064191b2b71b7431aedb7bfd1a3a29bb9d506533395a04e7ec6f412b (-0x12b34d758626db5443d624bedb7e468a6f22ae1b79cdfd0e2522429cb06cbe13f) 0x9f8afa8ea23a64c5baf748d6ec5153701ac4a80854f3c0009f9181f231d9b1d6 0x3da577caefa559b4b540bccc29663820842d1d93fb65e87ddb45593f7479935a);
  (true, St 0xa3e9bd3dd23b69cf094a855b0f7c267d60c51f1bfff71099985c12850c93bb0c (-0x4d39c4fb6352dd708154b21d6907c8c1050e45f6d61fc8eb5c016ad749fa10ad) 0x68f37c6729182ca4980a277a37404e4c104a4d4cfefdc3c4ed1a6a18deabcabe (-0x372763bd1818535e7247429180e059e42c83f1a1b303a57473f5ffde3888e6e3), St 0xd0aea599aa8c0946b42d7d50e581aecd376222546994b5ad2cb7f7020b030a94 0x3375656a49ff624785b0fd5adbbc61298f2aceebd25a674a43a07ae8effd6858 0xaa1c443fe7431bc48f0434b0858d6c314ba2ee1013985a24ece4877ee26da97b (-0x715b545bba47d549570d35fa9d851b3a0fa8eff0921d05310ff6a123ccbbe113));
  (true, St 0x905ebd73d4b46c10f4e53cf497bc26fb37f394ca0631048dbf96437ee4d5f585 (-0x262c8b763abf6f90bde6657841e871da289202e0958968ec147554510c61c120) 0x516ab8324dfa22bf9eea9a73fc4bdc9b870b1ff6aee6dc405f97adcf79e95b9c 0x4fad583809e2557d39bbe3fb06dc7f451c27b52afdba49a2024377f86512020f, St 0xd2279884614ef540eed63cc3a024a327024a60c27f49d4184ddbadbecf474cad (-0x53e9de479abb001725edd14e1abc1f30164a8d557a9657b711c5acdba7b8761e) 0xac84fc59af5da4c8861fde3095b5565e0d91fd1aa066784a05ed8275757e879e (-0x3beffb4d331d19c4f983aefacf874cc38314fd083ab806256ecdbbaf303456bd));
  (true, St 0xd6461fc3666e88e3e08ed3e435bb43cccdbcf1ded72fa423f1cb90f0285fb4e4 0x7ab60e8660806106263864d2a156a9b628cf9bb64aa28fa14a8234e3665da237 0xb3595050c5670993e4a351fabec087df42226ab0aec2dde6fe5db00ff2e3c327 (-0x1c682934a1c2d0b6d7926d4b3cfe2ff7d6083de36e5ce5e5b62406ba3fee996a), St 0xdd2a008f886b8ffa1e7be334e6c3d3f1daeb02c10401ca6165c5b3b27add1c18 (-0x24f95d212e442adba6903bd428e2e4ff257b0f111e69c67c2e2044ebf981726e8) 0xbf118bdcbfb45636c83400e36723d35da5e34dc46116c68abc052a17a1807e3e 0x7b808933f240678980d3c071d62998fce76aa6a03f15810b51f95b970923021c);
  (false, St 0xfa5d7029dd1d5d395b85131becdfec58bb006c75d441f103b4357f00e5221280 (-0x1d9ebd29960afb480ef93ccb0864b2f3a4771537ba3c066d2da84df4e1fce525) 0xf4daa12d68474ae879ced48488c4c49e005cf0635b35b0594c0a6c40a303b182 (-0x561f2d98add99d9d3aee4e4a7e96ca3b40a7ae85fc11fcdd96546a647255a757), St 0x5eca4d7ba7f64eb7940984508d4a5ca4336e47d9ca2ef5719a5803ed53350b87 (-0x450c644abb12ca03a39a2a550dc5d1e3e2b8565fee5c19ca8b0465e12ad2ebed) 0x231930c5510ac20d389b889cbd59451ef9d1826c7d9afafa22f3c17f14ef4dd8 0x18754a191bb53ee40210f9c06b3906e9e8afdb7ef1e8524acb187f56791581b5);
  (true, St 0xaa8f445488158a0174c0cce83ca359c91ed19ea30954b6036ca289af8f86c216 0x66adade067628e08356e6fcb66226974abb1a63b555a7f438fb04395731c39df 0x71a296ee1f0c3e7cd1e4628494e6419e1bb9409de6b34fd96ccb4fef9d794a93 (-0x61a0285d94d7a9dffddce882ea81c21bcf1e77da76d8734bec7421b7297cf692), St 0x82cf935c5eb45e4979844ad6d1533536068f5b839e2d16e3af28e1a715dc6dcc (-0x10fbe59edf0bd59bb7bdd4a71391064e03cb54183e27db01ddd68235334176ff3) 0x42d779f9b73b0783e795882d58ac19630def4bc9caaa30a9cd766d4ab0232f73 0x23d81632f91e589115f9a9c05058468c2bd8cc41682b4e17f44538a812a3687a);
  (false, St 0x52cef8b2e7e7f3b82e7b69528cd27f1d5b767077f1b00ac57257d52a047230c0 (-0x143ccf915290828253e9b3a412cdc1d0d215d791a3c20650a0e103bce16e2ccb) 0x1ac93ea7e8e22e6ec123000d1d4e7d0199ecee495d86ca8e817ba06ec832dd8e 0x339059883b7058d77963e70ed2d91d29603b35085a7364ba5da026efbd0bf994, St 0xee50892453bf02623aedefb15f3197fde3e9dda8dfc8eb9354cdfaddde6a00ce (-0x1b6367838c666d141abef2e0cbb979bdd58ae30066b103d7c202a2fb6a813863) 0xddd9d85669bd3eefc885ddc078eb7d472f5c92c9f0373fc5c249fb4ff47f50fa (-0x1db400472d731444db44d020cd9617a055f818bd8d7ae8b6c706e079c82a70a6));
  (true, St 0x796a54fa79e0690da7149208c9a78e1cce349985a9ea9ed24e0ffe14848b2994 (-0x5abca6bc5355b8e1daa1696933b959ae0a3b1017018fa4a6a6ef1519c48b083a) 0x3995b07f7c6e16b2b35c419f33ca955a5eaa740e28cb085db4e1f90d4a2e65f8 (-0x749773395fe0d37695a55a24a70e69cb2d1ec1c9bb6248e677882316bca9859), St 0x84f3d9f27008c9c1d8cfe563ed98de0bdac922222d448570d9c6dc597a5ce142 0x6f36fd69951a8ccd32d9e373d006cd43d053a5183e2b2a31e055635d14eff59c 0x450c6109c463094f549e6c674dbca0f8f825c47a04830d64b790dc76148cf2bc (-0x14899391447b3ef509509cc5ed21980493cc0851ee82dacbb34f173b490a9f3c));
  (true, St 0xb659fe7f37157c8151edcced699dab5c7b5356de4d03937f81830e530771217b (-0x770d5aa6baba8ab3d7b9cfe942647a37ccf0dcce7f9717425d6f457b2f27a32a) 0x81e4158055ab9ffe9c6d0568bd929d9a1e0553cb713b7ad6f82fd767bec26224 0x9f5f2c2c488a04015f720b0fc52a6c115c9d1209da5047a3a45028095cd51dc3, St 0xf89c37253f7f1cb0427b65feddd7e044b4294d317cc16b54b215f5fe16dab127 0x39bcf60b45a4ab6ef11faae51f83e84116f8c1d6307235441b895d5593d1b41f 0xf16f0a2c5dbbbb5fecbea3f623c443bca7e5c88e887eeaf589d674b701646f53 0x2b7bd7b7c85f6111ed0ee4430ada3e355b88afed0a67ffc4ca0d90d4ee263366);
  (true, St 0x762bbdda6fae1db3229fd3af62a0a7b7dd57e08b58026f8f74930c5669d7b4aa 0x575af8b32d0cf5875245c605db27b9ab83ce0bb10adc570de4e32db336e04f3 0x368c5a7ee9aea5a74e58ce63e242a1af1d16533e9f18644d53ab5fc4d235b803 (-0x455a05bd0cbb5f0f8557b7c06f64c0f1b22c7bac28e8cca0b4680497dc91fa7), St 0x396e5dcb418f7770847d4fdb9becf354566afc39864d1317cabfb6d71b007fc2 (-0x4f1b93ce5e9ddfbca2ecf7f1ad4fc8319bf7d23754beecac62c1d8994dfaf97) 0xce255594d1dded747068a815b89d867a10a6dcc549de44a75e8020e6195bc7a 0x394a320ea1420f696a2d330ca8cf018e37423cbe8922bc087005363f111bc77);
  (true, St 0x33289ab3f6b5073d6581efa1537ddf9aef80686dfd72d65578b4e92587321dd4 (-0x2b3d131b8abc9f173f165607722110553a20e8d37649bd8f0657d848f96dd6b) 0xa393414743f70dddf4622c818d3d0f3924f92f09e32760132a2cbbd06ce0372 (-0x1e2327ce1e4bd774d270d41685b1de9562b989452b47c1e1a6bfc5a2cc1b1eee), St 0x6a03a0c4ef0604cb14f06b2b311a8e07b4c773f0f4f626c46c6825a8ae2d2d76 0x68136ecac5517660ede39eb489949a8334075c21b25ffa6c9ea2f40bf30d7801 0x2be701306b6c5992f0005d00cd101c515b35eac86512da56809638894b07f101 (-0x503649bd33e8062d497566b24a4e83a84ff390f53943e27724723a144702833b));
  (true, St 0xc8e04d018bf7fd6b2b28d2524471e486db02553225229ed1eba432266f68333c 0x170a2e6a35601846ab2d948a4caf2988e17751277880cb8af426e532d45ee868 0x9d9f3cd9e2319901c6775c72c48f3efba8d89fb2a22b83102dd4e72ce4a12d9e (-0x180e0ffd070c51907aa8cc153338c10254157c478b6a3fce27a978009a5b6bf1), St 0x723f617bc3478076f8816503a7f803709eb23a65df6d76ae678b6a79c247f68f (-0x1297a4f420784dc763de41a7e1c65b2216f1bffedde44c1e3b30ea7fc53cf8a36) 0x32fc82838cf153eff4dbfb65fd3e34da698874efa33f8be7eb4138cb77f47c50 0x4fb9cf1794072f88beecb964379e984a9577b32a3c5fa7ae328835cfcdef963f);
  (false, St 0x1916829311c686213600841f4bc0ae93a066d1c06472ee4719f707d15cd35715 (-0x11a24d2784c35a9cb871586f8620b448e5834784ccd3ac2a6be5aff0dcfffc47) 0x275677b6fceee58030ea5821b064671a99184602e20be316ddb5ca54cff34ad (-0x3543efbd5911a70540d2e063d1f392003090c7dc02e775f4675ede746bf3d2a), St 0xc020a15432b28da941daf20b18f24f1b8672d0474d5460332d60296c9095a269 (-0x8a492f89af5acad39c8e828500b49aa6f70c09416d58836d559cfe08a93b1c93) 0x9030f62796f47abe39427e2bd21d80cbefbf6f1498dc558c37bdfed8852887a8 0x87a83e7fd079ed59c1fbb9d75a2941a6ff280e6bf5bd09df5628636f566cfe8a);
  (true, St 0xf666d4b856a2946c70cc2cb80c1b8c9414d0fcb28d8f920e7fe48f9688b58cc6 0xcead011a6803d5ba3e6171e73405148b89f6ebf54538cc23c1345175dab7ccd8 0xed29ca2167511d291634355a63784dc0a6755481be0ab98cb63a57299f72924c (-0x4241a23ce99c214bfc229fe2c902e556fbd7dde3c543530957e205513f3ededb), St 0x8257af36455ef5adcd88c26426ddfc4a4bec621f022f30fdc045730c0c35c9df (-0x269bca50e1fee25a59bca6a8027627bd0d063a8814deecb279e9eb74066965e86) 0x425d2bfbefa0026458e306c6f87a9d8366363b5dd538ca00ad81fc2e2969d330 0x1faa73cc682f7a7712eaac399d5aaca7ee553ad23124ebd8cd01c2a2b91e0424);
  (false, St 0xa0c249781a9421b72272f983de36e0da922341b9bd33d36a60c7d071445eef4d 0x348edaccaadd0bd24cc6e9f8dfe628a862feebc8c0d994a0670ee4f8fa236af2 0x64f36f49f54a9972fdd392361b7166dff232655ec6dae1253338686c47eb535b 0x2385fa6068d1c1666a49e98e176b76bbf9aad81c1f28cbb69bc9860db61a6811, St 0xda33be1e6147ff0ff71cc68f2ae5431d0e11136e99e46e08c83cfc111bb34592 0x1472cc7015bf5a965a875611bd6fa6e70d77bd75860a031b55bf290d9b065b7f1 0xb9fc2a41c4f6a759aca712d10d84b610d125bd7d1a1a01a50eb5261e957ad2fd (-0x3a0f0268ae5e84d542edf2105e6e098f5479878f731ce7d22d207d353d27dbdb));
  (true, St 0xaf43a6374a7066e3a8059a89113fad99d3c9ca6e43dcc316eb979b655a4961b9 (-0x555ccb02103cd048461cb1c00b257e013103856d42fd135e8d85f662808e03e5) 0x77fd8f207c9ff31bf6e4a0c1081b642c930e246bf446646fd59bd799514cb12b 0x57d3386ae43018f45099705e4c2bb5d51ed3ba636b998067bbcc332d373117f6, St 0x2b23d4ceeac008b3a1ac53306796084163b83891acfe6b1c7bda05c8891e0b08 0x22786b811a7cf126116df390e9875726bedd71af9c8367581bf247470f89de70 0x7450e816b9d1dfcd0814d5f7358395d979ce2b50e33031675f9c558ea7fcd91 (-0x9f8d2cde25a7903ec8e6d82607aace046388b69fa2d29635263997866c8ead8));
  (true, St 0xb887780824d78e1daab245f4b655f7424db48cd6acd135ebccb799bf66272f15 0x2d3f55ed4eb4f3f830cb1d10d79936f311f5ec0c6a3163669da59aed086b6d89 0x8503043c0ad75eaa7680ae5e2352c3f5f9c4382d962df1d582f31614a2f096fb (-0x75f73609d0494a4a087936a7b5d75195a4580c103799574088debf44feaf41c3), St 0x817ba37c2ecf147b9d94090543637049b7a8e356ea40ce8a3894c1d22e3b3722 0x65ecb882ae3b93d017977c80b5010fe1ac00297a90397f70fe05884c9982c750 0x417dd679ea66e3f501c2001cc9671abe4c4990bf8f7c565f4904b65f187b4c67 (-0x499f6509888952d381f30190e836ce323b1103e68bada088cec9d6d1d6fe2f31));
  (false, St 0xc0aca685cd6dbf895c3c7347e1a0eacaf4fae974fdb16c770613a4a3b5c028fa 0x219fe1033ae062c94b54709643e9eb81a5419523f5e82ce76cd62ffc40f8b8e3 0x91036e397545e559bc79316de68c7b3e947e0791c3b32735ef2291bc381c642b 0x5c14095e4ca043af436d35d32af1b9534be95a10ea2d46f7b9899b64cf73568, St 0x5d9e262b4ccb4061553a54d370a43f567ca4df12ac770ebfce8e403c74dad68d (-0x1c4a69c2c87ef803973041207ef381b87fffefb41ef09cc09efca9e544409368c) 0x223c496ebb2ba338036ec50485096387101b2c6c64d3bb720118fdc9f85d3768 0x61f50bdef684165f070d11f545d958670b1cb30ccc3fb959c482ae00619d748);
  (true, St 0x2ac3ab820335428eb728d521173af88e5914354a5adc023b1c90e1e9adfee6d 0x184f47dd59f6a5175c7ec0646126ae07b28076120f45204c2ef37b0f8b27f4 0x724c9d56b2a1920069649b4b2584a863246dad18f31fd724d2ee6b75eaba4 0x1143077a95e9ca38ce070b00def0be9d74d133d3eef65cbbad8b4f366a75c73, St 0xdcbf14ca674cdb67f2c4964cda2dc1a53b106ade0bcacf0c58a0402f65845c68 (-0x75c63ffce016f851a00a56ba41f86dc581f55ba884654bdc051f18d52daf81d0) 0xbe58fa5ca79b785128e20f3b5bc958a14a341ccda676db3eb9e9c744393c4749 0x4f875c6cbf104f09d7cfe2fe1bdb9408f12669a922caf7e72babcf6c0f1fd42c)].
Definition ksk_point : Z * Z := (0x4fd714449d8cfcccfdaba52c64d63e3aca72be3f94bfeb60aeb5a42ed3d0c205, 0x3f5eee58934974d929f9b9adb10107c4608cd13babf9880f817a331e13034fe1).
Definition zsk_first : step := St 0xa249bcb3191802d3cb56fc75a8731f848e7b2caf080f3477a4e4d904a671af9d (-0x211d1d206a8228ca3f068bcb77b6c66e965b291a72799fab76713dc1b6ea6cd9) 0x66e168103bdfa57cdd53063189a61e37915827bb44d670bd3c287263db86185b (-0xb51838d2fa990fc8a24a572b59edda8bd8fcf1612aa22bdac765f9f95e4f3a0).
Definition zsk_steps : list (bool * step * step) := [
  (false, St 0x28cdb0fe6681d140c59fb73f85f16459ca4cee083742bada762de4ca226a8086 0x2d882df6b409ed6234c5e881e9c20fb2dc0692fcfae9a7e7d26f83701f5a790 0x680ec94785873a3e3b5f2f6b1a9b192c85a45edc90a674fd52fee739f691356 0x1f5be5a821184fb883718cb4d32fe46accbc8708b1c3cd98536982cfdbc6e2b, St 0xa249bcb3191802d3cb56fc75a8731f848e7b2caf080f3477a4e4d904a671af9d (-0x211d1d206a8228ca3f068bcb77b6c66e965b291a72799fab76713dc1b6ea6cd9) 0x66e168103bdfa57cdd53063189a61e37915827bb44d670bd3c287263db86185b (-0xb51838d2fa990fc8a24a572b59edda8bd8fcf1612aa22bdac765f9f95e4f3a0));
  (true, St 0x63fed8962c05ae08af71e0370a29504a31d75d0224fb0135dedbf2b49db4ec5a (-0xbc6efe8cff9aab220c8c2963f563344fcb7b25cdbfc2930b7f53dea872d3767) 0x270f1936ce589b77ec2049d59fa13c67f2fa08969f17818b123808d23558bb2d 0x1107bd4a0ab1138849c3be76cd834360c662cb2a79782e4b60c863f792e20a97, St 0xcffdb37b9cade05fdb719f4ad73b00878ccbbf536584dc9d3ea8a8ba9b0101fa 0x726399a3f23fd10ae6853c461d25a509fc4615517d9d58f497b21ba5a78eeb05 0xa8fc43aed0873d01c0a4800e6fb6c90e38c9bdd55b65ea5e1f2a3f7309faa45d (-0x420ecdfec3e99cab3c7931cea6ad7fc5bafacc584f1bec77f7745f1d94b52f5a));
  (false, St 0xa9edfe78ee9a28fd241717f5bef26888fd7f28bd31592ac610a262401b09ce10 0x3ee5879fa602bd0a48899169362923186b37e618b6e3505d132b92bca5f6ee7e 0x70cc173d44b19d656a809888a85b253709d0c39d3c3dabec55732cf2f1b12667 0xc4cfcdbab359c7f1d88dc085511a698811831c850ddfd626660165d36fbfb24, St 0x97348e88f9533aa20c890c6555e3f59001b8e45279c9aa2da811786525635c13 0xbbf4226aa45c88e8c5b3bb6b5b059f5e1b131bf49a1642d708c4ed068b5cb5e0 0x594f0af02670c1ccfa0d905d125cc50d05f29347bcd204f9b82c4483b69630b0 (-0x4a319eadc155dc8eb167f7c6ea51d2720f5477feccc4917298d3b48ed56072d3));
  (true, St 0xeed750ca31918039b5da0db54366f18ed143113b27b93abd39006e3334591e14 (-0x867bf641625e5b0b9b4c758487a0ae5b681380901f57f66804bddb43b61fa39b) 0xded50f51a01ddacea3b523c0f148124fc31ecbbdfae45a2a28d04f7fd34a8103 0x92258eede07107417677191b3d7b5f21cddb7298d8a5e7e95ea44f51386b00cc, St 0xb473ffb4c4c295b1bb1f6eab3768bcf52adde5ab1d34f714df968141921c768 (-0x21802ae5c91059fab4af3e504d8b6cdc254a185ca236e14c1b897dd3bc63be20) 0x7f3354266fb75d1b4c6b78aa329002dacbd4df91e2bb92e349a2e8e62be45d (-0x5bab68d705d949fa9edb6fa518dd63cadb2c1fe964f999e193d873ac09cfd44));
  (false, St 0x7599e37a2fba6f0d60ffa821dde473c5444b45e418f6d80ccc2f1a59aa1b3df0 0x417bbe515178580d89e1c3831eb22af5ad22180be4af973280e06e3b12b717e3 0x3606066f97d567c0820091e9288cf4e56f0883bbc741b2952b02d54173f6ab0b (-0x2ee736060ac0925923c6d0a0b846405b72f252c7618693464cd96af3db65ca00), St 0x3737340e08d8a5a6c6c8d4ec4ced0a20821efa384ce5ac0dd3a8d1dfa2011724 (-0xcec49c368c41591eb90f7a783789c8e1f614e4ee3f5d4c1e05dd1a898f1b70) 0xbe8c4457c535ce742ca6f1c8291ac9da48b6beaf71a986a7fae46af99bbb502 (-0xb78bc45203fbdaa78c2aacf28113526ab132d037796831d9f9f65f23257e74d));
  (false, St 0x1a5cb05b92761d7571260e1a23a35c5e231a65db4504f46ae35eae0339391644 0x5097cb52dcc43cc5b875bc138553f1de866534cbb0c563bc6d77480c1cb7fed 0x2b6f561d7c64266b8b9b8683823c27306165aed2cbe0e374cbdc08cbce95414 (-0x304b32c0daf80130d32f74939ab71cefcc931635ef7e3f41c2b0915862f3d05), St 0xfe0dd2b23c99a048da20b1f7d9c586b034c53a3c9b16ab1bdaf81a3d6fde25ba (-0x501e325ab651e09fdf506426bb0f140c332bff07a485cfb6efd2549f1ac4e8b) 0xfc1f6ed9bfe35807faf5bc283d83cb4db3dfb27fb55cb0e8e0a9831e1b21bdfb (-0x75185165b1a0d7b83e60b569f80e546bdb73cc087ef8341ce391de5ec6592a34));
  (false, St 0x6f6d4c1d5a727cb1a4ab8d7492cefc302869e4e24345bb1722305c70ec76c8ba (-0x269970074e9393b898fa059ff985cf5f1229c472ae1a87b56492ea1017d5a117) 0x307ff6ab8c8fb55d30112a588dad168f4d86f9115816a817eae5cc24acb67838 0x176fa2e09e516114943d2dcd2614d934bf089979c434874133c98514a1754827, St 0x7cb905a8562de561be7bc4829d185aef025b139d07e3a8988f65c322a06e80c0 (-0x1872eadb4abe0cd8267a6f04777f479ecfae3893cc0a86feeb9937c4ce33ff570) 0x3cc3c3347dacc9cf7cebfbee823500a14d177a592752716695857674e133e0d6 0x19a8e3e13472f8697af2423b693f21d7240794e4312a8f38f33deea0f1764400);
  (false, St 0x324cf24909287bf4c4b0ee49fa4eb02a6e0f9e7075fbdef305a23d66cb8a995e (-0x3b23dec92c9ceba234dc8104efc2424a5beafc644311993387f287e3017983) 0x9e225c552219061422ea5532f833afdd78d34cd828fa149960b42ffa4045a48 (-0x8045cb88eef8e15bd22d999f53641594171fa11f0d9b0a5e115cda38121fa30), St 0x90ae363007096a3e306a6f35c8caffd5664d7bf43c74e182722f35e7e99954ed (-0xca2f30852661cb362d3fbd14a3d5650e07fa7a5a346572c546ba9405b16048f3) 0x51c473840e70e7d0bc3999ff76bb3397e74f841beb1f3875b7443fcd01fdc169 0x4ea785449b24af19a12bf027a1f9d9d8607adbec3e14bbcf94e83f0c3ced968d);
  (true, St 0x1414ba036db26a33cd4c6158afe0c39feb524c3f3e39d46be11acfcdfaa25434 0xe1e0e84982383cb215b5d0786889382a336f150f3da894cd57eb432907837f9 0x1933ebe22693ea9d4853162899d2daa952c35955a00aa09f6c91e2be58311c6 (-0xc1d2ea7a33772bf9b79eac4992a7c5b8e898f0e9ec29e58ab5af01194f76a0c), St 0x41b3256e9cd5de42e1ef9bf347cbc82733bfd550d313bbf40f5ba251c90a3181 (-0x1d33d2ec503ef9bc0944e292bd4485e7fe3f55a5896eeefffd6e8726bca94a60f) 0x10dc765f9aa98d734c3069afded126cbd8791bc0af813fbac2ee166df82eb949 0x2ef6765b1fc43ed599b18b77f9db29c28c35cb6ac106f43a4b3e49d4642cea0e);
  (false, St 0x77dd1949c37ca190a540b4d68d98163f0802ca254fcc7e6ad1416f3ed3ac375c (-0x49b8999b0d67accd963a554f18726dc32c1c38538b845dfd0c879845def1738b) 0x381f4c7777b82d4a16e1da3e794e80019c44b82f6468f879cf88a9b575f185e5 0x28d4c0feb66d35d644a42517731c0a2d2d80718edf0d7202f8543663d3c6792, St 0x2f5c6bb463f2f4ad7ef7976ce7bcbcb099832be773c5e3cba4dc007a85c13429 (-0x179ce6717aaec6d7a2dabfddba3fd3ba6226a0dd49b0e050b41db5463508303c9) 0x8c310e9dc6e680b32346e9f5ff89937a39aa9e5602212d31b546152b4ba4ef6 0x14f2af5f2e7dd781fcf591cb5200787cf11a30ad85e651c86a204b2fdc02b224);
  (false, St 0xbe6adf418c99797d5f048de748c55577ee037eeecb45ed8a7bca8eb9485da3db 0x502b1e641d75a54ceb7cd85cd35602bab55e0415d4c7d1a153885042989e6a55 0x8da2d0037f52532dbb5d4baad09176df72d7377df41e0a5c7244b52874617cea 0x82ee6456f9acc22c9de93e8734ba0e66afe62f85e3a3dab3950670e69efff2, St 0xf627b0cdd1bf32f64ff2a2af137a8206f778fee41036908f0a6eb47c8028aa60 0x1a63657ea8b34505189fb683015aa72c0885ac76d1bba76424e7d117e40b89a38 0xecb04df3d49d52064ec3bd157371b15ef1498405f92d13bf91672e91959c3573 (-0x2a1f71db77d3d4e1f2caffbd1f31b4e1f6715b867e826e48acf9b512f1c4224b));
  (true, St 0xf6066a88f9209ce513a69c71f95cc0b7d6040c5d8eed4700916cdf80a48d499e (-0x2ac2eaf2d966447021f4c2af85eb5a25bada4729823babffd46f2d9c0aba734f) 0xec7054e955fc6790ad121029cbe739d944bdb3c0d38bf4ae42d12cc5620dc449 (-0x2b4e390ffa0529a6d9b9398da3c489d3e8121863a9a7310f1d26bfae807b9727), St 0xfce6dfa7b17794c09722b0a7ac36a023199e61b32aeac110b20adeff8b18dd7f 0x172544a065bb89dd7dcae3b8d0ae6d8bfe89eed13d6782cdc81f533ce9bee67d8 0xf9d75889c3f33d4a97e9f101edcc04194b3070682196c2df2ae9e67b7ccf6249 (-0x6a31cc68245382db16f73b6fe9bf2c7687a60b43265fbb30dc19733780e40f4e));
  (true, St 0xa85c6f3fde54352a2095fef1356ed43ebfe50539f9bd54b677ab4b21e5668f05 0xbcc39180dae0bd06d676b4157d4b9e47c9f5aaeff71031a1f2e91efccf210c2 0x6eb9736468c8386dafbdea5b3692383d504a5a612bf9bbe70847c0b5ead1981f (-0x142860c07f1a6bf00af3f1e6b77ff71083e6ac40808cc8a634788873b0c07741), St 0xc6a31320276e3a4499e4d52470aa72e02c119aadb44e0a36cbd29438f411bf (-0x171e07c90da0caff67980858c9b04bf6f4ebfa2445faef1f46459cc20fa3a9f0d) 0x9a20a977b37f2bdba90ffab53833c52628bef5eba99b3b9591c729fdb237 0x546b870cd23f2c6129481fda0ab29870ba0d59647c6bff298bfdd89ef03469);
  (true, St 0xe64609c530f9213b58981f34b9891908ef5d436f3ee63fb8d140b0f8acc42a16 (-0x6d4cb9fb27fdd9473b87ce0d5522d5d947e01b7a0936dc25fa678201c9e3012b) 0xcf21ecb87b57d20268fd6106b32ad964e0e65d3155802b7c28f2546d5cfd010a 0x72d18559a6faf73d6ae886dab73b29207d24a8290ad36beb85bc94ef5bff36f8, St 0x1707ca8a367c03c49eabf89ea6482a9b2e07fd4ecafd6e6e70a047460b769496 (-0x2956be9c4f2295645c06a0742adcf59aff3754cb86a24b08c281abe6777117db) 0x21266a18baa12b1921a2831303904c62744519c2c06cffe6cc84b431387f08f (-0xccd91ccc3c06eca77e4a8fcbaa23704803ddefeb8d0c857b7cda792aa8b800b));
  (false, St 0x96a316c6c395386673b5ed38ac2547d5124f0fd0ca4086eb9c1d232abdbab7ea 0x575a125935c200e169a1be5e7fc3b8426d372f9e9d5c4dda6052db4f1c6242a8 0x58a3869748fa38a59858c2fdd96cf80a9929e0b90eb00692826ebd691effb74e 0x1188ce6a0c90bdd96403587f3bcfdb13652b7a6adfd7c07158893be9b0ab341c, St 0x96c9bf6cbd09e7b76cf43769d662bfce2d9fe8ab227b5a7d21a248a82ce508d7 (-0x70fbad6e731e3073378b84ac68267308160337ef89596feb1dfd3390794064e) 0x58d10b51ee3cf0af3ada05aba44cf11351bb874ff7b2325d10aee9f0ca9cd159 (-0x25a0a643f431ba728f624393a5b5c389f1c329e7b60c65ce5f0ff5108f56c4c1));
  (true, St 0xcecacf7ab0f081cf528fca5af548bdad32cc861bee8f0d352894161ff541fad8 (-0x4bac78eef50f243acb2c47cac0a5dc97091690f235eba49ffd5ae187ed9eded2) 0xa70b06963194f7fe200c3b8d9b227feeff27be183ce5f85b54e5fbea40d0322e 0x37cd5d52bbd522432416d43d07950c4aa554d6e7480a6986d629d8bd26ad0f6, St 0xaa155b8b3fd9a5adb6e7f2f1f6e043c12207ae61f1ebb82fa2ccacd4c5bcb9fc 0xc6cf23c45d8f610b62a2767e70e044011412d4ca3c3c155e37f80baad1855685 0x71005f5d876234401dde28dd2069ca1ed6321873715676e03a5b81bad2ee3f14 (-0x2ce1e267042df829db2e73ced7ac01c5a5c07e2095917f2ef1585577c5960028));
  (true, St 0xcf5a61aa0cbb4026552f7fbae87b1223b15bf6accb08dadd313743c51366d192 (-0x11aa24828cffbbe1c53c5c0cafb1ac8edeadd8e0188329e600636d71497e7390) 0xa7f349da795d5ddbba112068d607a088e4403260324df4a1206103a56a3c5624 0x20dcecd75343c89152f4e8b1cde052aacda6ab3e3296e217aabf8e4493f02469, St 0xf11b057c5118b313a5e697d0b61aa061efb203758ed267dd86edaf09a1ce7a8d (-0x342de923e970b8be8c08f6920dd7972755a1f989dde6e1754686050ad45d9e69) 0xe313e32f1c1b97189e25bf9cb82f7038d6791270f595bf506c515ec27ba62853 0x1607b4235956debfdbb98172f16e3acd92f69f0625cdffef1e0ea2be844428d7);
  (false, St 0x6b9baa51a3390e8eedf5e9c8ba0ab70b2d3f38a7060a8860fbcd16749f5e9f30 (-0x1f1e6288f032f503a550be56d1b955b93e9eb904a841c7ac6fcc33eb6450e16) 0x2d3b7f081bd95f1b84205908fc7ad111e577d519d4fb3296aa1a43c655c71b67 (-0x1dd67285a316e6541d6e6f1ff2aa0e9f96c3a5f06a3fdb22fd297cf77c47698e), St 0xbb8f0f311e39b9cf9137bb7aeec513f6c2403d8fafc51fcf7706f34a8844170f 0x960ad6ae5c0d3ad752280362819bedcbbdff56d34e5c02e294942d6a9c989e55 0x896a50244559350de96b961dbae09c6222e2040d814b03d4abbfea190a233690 0xc07f6789ced5aabdbbfaeda1e7a45183215ad583a560e91d0027019fb6ecedd);
  (true, St 0x5988e16d598acc12d77743f9616c68820060402e399878a6f224e10ff9e2c39c 0x1e91ce0587eac9fbb9f38400dc71f12d5ee6be2f7b35f483acc2605246d4f8aa 0x1f5075ee724381679b059b65a9528016c7c4b29186d538935a55a622077f5040 (-0x2ebd0de0bd849028f0441ae2aef9cc7df47ef447b66682140eb8f89f9b19a4ad), St 0x8214d1881e18debaa6cfdc6b77bf747368c520f2032675bcc1703d360c89adb9 (-0xbe19b8f38bf98cee36da1e597bf8e37d25b3f90b8def86a5d3e221b701d885b8) 0x4219267fe96ea61c9f8ded43332a5b15acdd6b72df1bb166f24cb3681a4c1020 0x3ebf02cb6a518659abf4241a89689742f952784af6b33e9802fd3d54ec4e214c);
  (true, St 0xd752a8adae9229fe653fcbc3a728d2f3fb75ca4b3833d448d53c4a35623d2c1a (-0x8ebf890e17d925b3afb66b2936e9ae010d66c0dd54c78a1b8533bc1198d4c8c5) 0xb51bf204eebdb525ae6173843e1d47aeeac4b103bdeebbbf19101bf3386d3814 0x97e98d10b80e6fbb645f7a5c74ffb113dafbec6daf231baa0eca5d7895550b14, St 0xe02b8546a331292150b101e893951602e2e55fa37ba718c4b88dfbf7b44c69a0 0xf6449e9cd31c4d0440bc5fca6fbaa3aab56b2c0fa1033c2b814709ac3803dfa0 0xc44c30a26cff842e82c0f23afb0e99900964c301d58e8d8f326d6dae3f5055f4 (-0x56fefc8ba2b3b9ce5ec0440947e265a52c60425016895c5d0a753390d1ee77b6));
  (true, St 0xc78c954e7c6b61c60b001b22fa4c9822127e9cb68c04f61803a545be1d5c8e22 0x55ef180d848e2ca6824b1b6015ea359584dcdb410d2ee2d6e4ec83bb78eb974d 0x9b8bdd5445e759ad8dc9ffe6e67bb91e11661726d8d999fd0893c8bcf6ad55a3 (-0x5b72e1fa96d0ed6aa7f68cc055e2d7fd36cda8311a7ab1beded492683a8d5eb8), St 0xc290b22d476581381bacbf637101f396112a620fd29225f62344cd972c95a64 (-0xaa725cbdfc669b1e536784ada7968c0289ef6988ff3b6b2f5d8af2b09df82d17) 0x93df9fd62308c92b4d8507e17d5d28dc80b618e74682da988618aefe40a9f4 (-0x439b0bc42490f853ee7cb7c0e4b72b8431b6a7b900132e6d3b8901140e8092f));
  (true, St 0xcb2b33728f037f8e8e73159a2852ee0421f28d19e24ff224e623a54a2429b19a 0x40faf440e8da60c9dfbbd834328caf6bf13d736229d646e5c8e2b77474da51f0 0xa13d8ae2a2dffa9a05461ee9594888900cf680b20b8806f1bfd33a3601a3d0a0 (-0x21a36c828cbecf5a9422976a3733a978a687df2168bfd67affc6bb0988b83c8a), St 0xd1e5ce1780d46e108a302b5021302be4e4896e97ca886db273d6e395225777e6 (-0x11b7a22b92d8b948bc8c3e3e06b9514eea7443ffa5d3fccdf7c8b054fb3627acf) 0xac1908cd686a360eefae91dd3a146462e018bbe0b9671bf3d7e4fc39d3e743e4 0x413b68471b5607ef904d624b43815a3dba9f37575ab0d4d0f5535bbdd273070e);
  (true, St 0x218718d45994b52fb809e9c0698f58055bede40bcecbfcc7bc5da15b3883f1a6 (-0x53f61d7e57385df408d8da31bc8e564352bbcfe1d004dd110a956d8a14557d8) 0x4641bb1f5db6e2fb6dbc11dbec60a69218b405d9cd69bdebe775891fadbfae2 (-0x94eef2abe1485daf141855468d6ba690ac2c256d5d9fd9cfa59a8a84d92a397), St 0xf0aed7e8cd7398e4f5575210744e45e6957ca3862b4ebdf158fb2adec71ee03e 0x4316754c8831f625b5574abc369d1395b353147d20710b5770d7d90660a67931 0xe2484c3f9a1130dd0c422b569eb12f1eec9fbf662aee31d0f5481736d8300aa1 0x3eda1df432dbdace19006d1850810607eb9ac0d4fbe776b17517cdebb0260c98);
  (true, St 0xb47dad5bdda35287b9ffd2fcf8579d5f89e400490324bda12ce044cd731eae6f (-0x7d7e2b3b1f3fddd062b38c6afecb1ead0232197fedaae6daf117a033ebbcffee) 0x7f40f97c700a618f76704f2d584b5927ed172f1a437e4c82c18fc7e9d7ba74bc 0x88f9265cb2b015269b002e9ff1d6445eacf226d6de3d91472dc56087c36c8749, St 0xef904179b2df85a0b99766d257f3cf28f1faa833057f9cdd5e4db8d80f83c33b 0x153211a5d1f8bcdc43c13a6f9927eadd45aae6f621d27535c1ddd2cbac59583a 0xe02eab8bd5d449337b22a323fb5ad30a6f2e98d7b2148ae46871bc557d297dbf (-0x354e955ea96fb2e015b11062911559c43ecaaebb8031a389c5181e0d3951fdd2));
  (true, St 0x50baa4a8ee34a788f1aa4569d1f60baab4750a5f93f0aead5652cc42380964fb 0x171936a406f0346c648dda5dbff8fdec03face04d33e15e78e2794340b30f533 0x19752efd5db91ce347b6d06b6205ff0d560738693703e3990766bb549730bcea (-0x5df909ca0b36c88799a23d212dff28dc4a15334709101a1aa86d281e519a979), St 0xc3e4554760877a78fa01f83ed4e7088a3b029daf40243c7876d656dc2a590c52 0xb44743f7da7881ad0e13efefc037ee2407d115b135a0080f1bab4918b2ede031 0x95e5a59356807579dbd74c458b3c254927e4c2866ea0eb65dda4222f471ff351 0x52cca0383624cfe3f20d786db62253fe2fd777c6e5c8b1a968677c02d1b67082);
  (true, St 0x2e9b94f98044ef8cd886bfdb70b96299919c0d2dcdca18d258737ee04deb9039 (-0x9c160df184e5e7630ca30b2b536e1f8fd39abf4659188f469f88701b907ef35) 0x87c48176f67d12294a405a054f258dc7b4a9e4d55e26ebd915fd4e694a73f16 0x84f3e563d83798330373f7f457dbcd881538d31233908eddfadfcadcbf43f27, St 0x78eaaacd422610145f7a25c112948b1fb15be8e171d1cf29875f3add3fbb09e3 0xe0a1bec15ffa4d15965aea350cb721ea0c9ad2b1d66923e7e3e3a499c0cddb6c 0x391cd73d5852b4532d5f612a477cac014750a02066e55b3109b7ae21979db618 0x4ddb2a4789f901f7bb18572b2b7696782081dee6f25984462667b7a637677f);
  (true, St 0x33bef3ac7a86092e413b9d2e34faa6bbec4303078fd4eb4b2a1562764f80863 (-0x1bc42029f521898cab495d60c90ae9d2058dda9f356e1a65bef80e990b52a7) 0xa75a3855f3dcef2b79ced77997ff4d89448aa74c31595d250263d2ea833d9 (-0x9afb6bb903f4c54516e954ba5bf92756e958f776471c5f92624e5af6c538a1), St 0xb59e65b757aa0a2c9d17f884f027e07c8edc6ead21ba0e5b1e856fd6c321e84a 0x11145ac1638881dcf09429d594439d921206141c36f1d1e4212bace91a4f7ee14 0x80d95dd7798a34993d0d695ddc00afc956b4d6e4b938b82d6c30f4a39fb52d99 (-0x66a6d90c9e33511e5c4ffb0277578477bc9c68e2f1138a706a1a131c93dff79c));
  (false, St 0x71cda7df22c65aeb99b5f57a4a8db7a6d80d7f3306154fd748bc9a248d32a244 0x2733ddceaa4d109a67b19dfaef2c112ce147c86d60b63aab686e79aa618b4f15 0x3297336978bce337461792c773df06901829a9f15c7a91581d1fbcbb233bf7cd (-0x322e2946c70602a305989125d19eb1836ee20ce8716833e56e849ffcdfbd4b2b), St 0xf2bf0362b56d5ae871324bb5c1f7c951f373ecf545227109d6c1b3a197a45c2e (-0x1c15ebd7b122c628e8a274ec58f19a5d97741acfbb178439a1092d07de9e4e27) 0xe62db0ed9286a049c1a3cd6ddd9f15bdfc7bcff6dd06c287bb56fa3a441fe8f8 0x11eebd3236af554a40c2770185df527b7f1c3e3e4a88755e75033a373869192d);
  (false, St 0x415424724edb3488feecf693332731051413cc39081100cfc59762baf8c2e9fd 0x21a1cccba88a06252495ac67b24cc8228d14d4a30dfa0becb5c0ef95c715c43c 0x10abd62a0ceb3fea01e6abe49e7866a3a19c505c43f1ce8bb29d438a01fed3ab (-0x159592222fc6a0ea94c7a9ae7e94b2df20983f58e783c4ed2e8d22806d540673), St 0x54a2c6ea5a369a3d9df3ff445d1602a3f1c0a0bf31b84b92f1277c2e4d14e61 (-0x21077eaa8e77ed28907fe8e694e67019a7f01cb3ef79013e27dd40269b142c3d) 0x1bfb3a0a425896734e351dcfee619535bfc91bba3c24b3c3077103eb093c9f 0x12169284e6d11c3bd83fa094d0b47d42c604316c2bdf0cce4a5a0fa70cd524);
  (false, St 0xe31248e5560477bc493add9dd48fb30cc0144e31784fcbf9fd9732ac3bf443c6 0x4e0e6a1e4c53b8929629c83b43349abd1edcf1960f49b4f025ecb578147610ad 0xc9696e95d4f741635025a4ad2366d04410adbe1d12104868ece9684405d48d9e (-0x9393f80da8b79683e7afd8e687371ee9204cca39f558723d2c4cd80c352a4e0), St 0x5aabaeef2729b656a855a079fe6da5c9299d47ecbbccfb92711018e6326c14e4 0x302392bf9f38e4134b6bffcbce7feafc0037b541b2f9d83c9b635661cf527985 0x201d2a2372aec8b8b270b4cc7093bbc8a33ae67b705961ce273c681b29a3960f (-0x2c13eba0a9d7c07caa9db838f100d3165dcb50583833c5ecf1e7e6c71b02c0c5));
  (false, St 0xa2396d275e3f9b0b449ee9c03424231a046da50955cda4ee94e5431f0cea2ca8 (-0x4845d2720223d3131fd9df05165a7b5be9f42905e14be4d67bd3a7c086b675ab) 0x66ccbb080427bfe4ef544f007411880e56d4a87f9cb752e05797f785bad1b53a (-0x2d6629517eef4a60f6d81aa9daafce3ada9c55a380155957ff24a7bcdb782b51), St 0x404af51e44ce00f120091703eeac86d3b1a50977408acfe9f3619f903c4451c9 (-0x147214ca90fd3de1ca95c2668f97527b1c37f5e0857f626357fc89566f3a47270) 0x10259081d2bf4b595e98a1b556b9c73e64168a160d257007c2c747b263e37865 0x12503d21707f218d03ade6bdf48989a1294abbc0dbcb364f4749a12082b693bb);
  (true, St 0xc8923d01c057da95078b0a7812a617a666821a214c4fa60cd9db466800d43c21 0x71431c6060bf62606ac425d1d2d34e41a928bbed028f0eb782df8f210b9feb10 0x9d24d2dcfe3752477e36fb26376998e8cf39b51fcfad8b9fe752e602c66818d9 (-0x67bb4d73cf59c8528c2bffab6bb784d87d3764d4e88e523db5b5e1abd1484622), St 0xcac84fbb55de73379f78055c7790889f78662c9455263c1618079ca9308adc50 (-0x2535ae7aae28e39b655d2c8edcc29ee1c7ab41e964d825049484273118c3744a8) 0xa0a0ba90f1af1c0dfa8716f95ae31852d6826e1d86a1afd5d1b687748c47dad2 0x92c851c5b667fabf008f529b92923293171ba710b14f25fb1d66db55b31e65f6);
  (true, St 0x1dee74ff079d43f194ecef9762e03f0c1aa32440db91fa5a22ce03b583d5cd35 (-0x143e5066590afbe96c61ab54e2b7d89ef5ffb43e8b9d3dcc1e406b7ac95f93bf) 0x37fe49f8ae3cb65496cc22c901016dd5c4d181b0023b04609654eff2a0cca86 0xc83553755b87026cd0333b338fa594d9860fccbfde21012222bba746df98ca5, St 0xf4fbe32ac5ba9f324f292bb04fbfd8744c6c882bb8fca0a3dcc72d6028380c7e 0x18c4bca5589b6b1b6d265cd20ad28e59bcfd0919b016309e438531d27ff82cf39 0xea7120e1b2d17e1b4c3649318013d277be3138cc12ba925fdd3b06ccc4598979 0x144e72200724c5ea8ee24254bc661052ae9fab1f5636f41eb595390560297ca2);
  (false, St 0x8cb4fa5ca1473cef35cd196bc9886370035b609ef812f04f3c8be44f9be5b7f8 (-0x3000dde80ea6fdaccd3b2fed44679b395ba8ffed1cf39922df5786127928f660) 0x4d5671c6a4d8351d1e8f6f0b1ba56c0ee3facb8ebe7edf441d47859316c085ec 0x280a757e873f5874d88ca21c700410032008bce9225a874a1cc7e3661521b04e, St 0xd2234d842e082e8ea5f369de99c6007ad9097907ed01c64132c12d0924ef8f31 0x3bb9dcf127a136af203c59be545649bcb869bdd7908d32bb46564b65b3baaf9f 0xac7df00bd1a0ba9a552048bc7060f582163bd9d99f0d6d5fb838038ac8b543b5 0x5d7fdd242ab005623ea819cadaddb203315d8c2175e452ea5aef11886edf1598);
  (false, St 0x4fde0aa39f2cfc9893f7b307fb42f978b43ab408e2ca606c38fe12e1d1688fa5 0xccf04aaea66819333f77763373425ce3c6d4ad5cba1841ada28383da1732c87 0x18eacb278961d2174e69089250da3c308acb6aac027148367a5b9fd0deebe230 (-0xf58b914799fa078fb2b8a7cb17ea2a8c621dce0fcc8a458ccbb596c70d0be94), St 0x6fde4ee894017cc178999715fcdfdb779b2f937f7a1e503da294bf63e7c6f2e0 0xa98684ea5b20ecf37966dd948bc666beb9c39471d355cb433f49fa8a7e5d09 0x30e2897ad4ef13bc4a78a212a92a07cbef82beec6d995e66b99217ae429f3130 (-0x2e54c657038142749b2a20c7cc76e3ac84e7119f32870653ca45c6df8fde90c9));
  (false, St 0xa54850d8293ecd186e958ae3ba3c20fc8e8a7d6fe123f10401c168d8c1cac281 (-0x24b19fffaa3f51907f7b5ded38bb79b93a16123965ede3a62258eac9609fcf41) 0x6ab64ca4a30044a5f5637c9ae347cb5989fd9afcdfd4ee0303fb00faf3f7fcf5 0x6f20b863adad3ef7ffb4a77d018ede0b70519b3069ed6488748ae9faa38fe9f, St 0x333cf5941c31cd07786e0f6b7ab6d30e90838e8e4e7d08c4b08d3d5ad57d216b (-0x55b8b038893f08361caf9d57fb3e92c75271d630c329a64987fe0a82173a69eb) 0xa41585d167f3b0e10da7c1cb3d0509ab01736bfe284f8ef3b5db5f2702f5b56 (-0x194f2ec3aac2f89b992864ca1bc23f15592dea6102b65a4f16977841220f1a4a));
  (false, St 0x9dd29e96f1084403ae4b03d0115fb0fdcee00f49c36d2abf90c9c7ec02d1daa9 (-0x5496db46fef3e5d421000d5313cedff3c5f6d8db14b413d8eb590dadcda11883) 0x614c03ce16d2434f5bed0508d4da059907d9e032a317e6d34fb1de48abfb1056 0x2d3b62935c20fd4c09ccf70c74c639418e482479de46c6509ee3be9c38cfed8d, St 0xf80e2bcd7b977f8fb193cc93a040069c4ae230ba3dd1926efa582691e147e9a5 (-0x18309d491f572fbd280d3e73c2398e2024a01c884ee2594b3c131cc3928bbeeca) 0xf05b75a7e1c92dd35e5b00b9c05a08c3ca5bdcae73761db4f0e825039548f862 0x4cd1fe693a57844e8b615477c91c17318957206040d839736b64a0ff01cd6cad);
  (false, St 0x7048bc1d41ebcb355c03d1c14af11636044eeddf0da5988b1d59988f1137ec23 0x297b90ea14666894016befe0ae134e5e13bfabeeb81f07f8967dab82fb41324 0x313fb944259e1bdf45c17be6816071849b42fa52e3f7f592010ad68f6299295e (-0x1da5022ad5b071eddf12d15a6cffac24c9b9f306751a9a5191edda9864e12517), St 0x458167c8bc73d1679596c624c34916c024ec2449708d22797fca8b0b9a670c14 (-0xcb311e699c5717f67b3d3e91148eafc9e4dde5fcad6762cb39ce5e84bf562978) 0x12df035c0ad684030b32659983c56abed6c0d19bd98e8f7f48fe8f9641b82aa5 0x1ed653f80cf0a5dc7d0fa4f53738d9e7fc16805ba9e57b0fc60b1df465ee1de7);
  (false, St 0x4e307c4151563c2b692ba6c8ba22ae9b3521c34f596d34d95f581e9c474e5326 0x3755433298076dfc6b28359230448b4f92b266fad957a76f7c26aa9a3078b849 0x17e194e6ba3ff95d98a8b98560b57f58001842863e49b35a6eb466b345a515b1 (-0x17542086e3bbf4b4cee0e84665fd26504c33fe70c88e667646ff774c34bb5f1e), St 0xabafc84cbddddbb3d177baa872df1a2dd354f01cc887581883e5b3477bd385b6 0xda406b80e85f559fd31a0d728d6513a4039bb220403d0398bb44bd9109d6903c 0x73244e4a6e6e46ca84cd0e4a592f8206175fb4c78c1e006303827e1f86a50c3f (-0x4df325e1e9f9e7c6062d837db5071d46619fc3fcdeb2cce0ec718581f0e1def6));
  (true, St 0xf01023ff20101b3e321f5f18b603a042ff41da01aec9749e921b836cf06404c7 (-0x255e75cba86100e856ca58d171fc8f002fc2deb9852ea838d41ab27ff067000f) 0xe11e4483c2303aa032605bc60e422c781b91fcd3a316ded07916d423e6ec7434 0x76c5d5587d6fa2a32ccdab1e4d1797728ede673b0584f5a65875a7912e57165d, St 0xfdeb97810034f18e3494c89ae74d7a5f7274af69743c0765e33afd1e7b206842 0x72bc14c9fe7bccd9af620414df9c51817c6969ac2f296220d83f220ea3ccea11 0xfbdb824576c3f82ab43c51db3f57793a6180cc4f51965644c39063820d206416 (-0x694ea4883fe510010cc41c47a6cff70f6a0ed18cbc4ed5e1c09dafb5cf5376a1));
  (false, St 0x5f09a53c786f84833a38b15dbab8b4e6ced34ad0a0bb10f35ec6f6194a15dcf8 0x47a42542658840fd2f984c99f5180e51bc8488133465681c15549cd936964db5 0x234829000d9266b90e7a6cb89e436ea1fdcbb24609d6fb88abb51afe78b9cc73 (-0xbd013860cc9f7526c3eb39414161525fac2b31d06c6d6630ee376f9d64a097e), St 0xe08ecf3a06b704975e67bed37130f48858ab51023ed3428a1ad21800caaabd17 0xaedbb6b595b5f3ac967d786fc612b8311c2001a8d44500af029ae9def3794443 0xc4fa3a50dcd8d9651988de6f2bde95dce52b63076d636c4084325b96846c1bcf 0x5779c0b14a5dbb9515a957e630cd304932675aaa868003bdbdcd5175000754b);
  (false, St 0xd591fa2153324613228e4d6660cc44ef93f320712dff8c229d349539e35fa5ed 0x1fbee15540718041776ccc24f1339162096546a282304d06a510ff5d21d7ba6a 0xb22c3d7974c33fdcbaa2082003d881ee8efc343971ff511802712c74092e7854 (-0x241c8c99905334361df5c62cd63ad26ef063931496912d07e4e2649bbee19fe9), St 0x7be76c4a5d4dabb4d22920281f2fbe8e6c9e75ad6b0f956661ab06b595bb7cfb 0x15c650a0a011b72f2df03bc8d2f22ec5cbe3559b67f6d0a0db510ff9913d51cd 0x3bf833444da40cc34fbc00cbea03ed6752305243934fd2189f80371e8535b86b (-0x294a15da7173f6ec22d38bff5bf95d64b272c525a85cfc70142de0da51f9b70d));
  (true, St 0x4147aec3f28a2805d54a75ae87d878bc382937007e03dda782a2c4266ff5ca7a (-0xab74195ebceaa6f830d6c9055cbfdbe36a43a6d56a4ff8168431b57afc7c52c) 0x10a57ad1f9cf1f76456028c28e9166ca3268f84f915c2bffc4274c756f4646d5 (-0xba04736276a260f4f14ed2afe26c643cf65553f5692a28b474c322d1f2df2d8), St 0xad62572847cb5de42d931a1675e34a362ea40bdc05c1942ebb1ab5e0a95157dc 0x8929c08a9f53091f7d72a1708c00cee46bf8f9215a5ad65f16c707d7352a4185 0x756e0f93befa4b504f58cf89ba30d7f2b6f059a8cd5b1f785d51eed32159fe27 0x33afec063b0c06f8a5457b27c3b323bd09abfdbef6f9b0fd47f6617087b5ba00);
  (false, St 0x1d74ae1092326ade16ff9c9418ef467b6ebfb67512051a56aa4417fe087c6a9b (-0x12dcb7873a93e265245a257249556b3279a44d24437a9a8404f024b3a1117200) 0x363a49df9e21654440a01af546ad4bcf267079c69c203a1ead73cf82409f164 0x5dffc95d4a8de81c5c4dff9df334643894534c3c9c0bb5cafba21f180ff7202, St 0x200fd8765d26008cfbb5b4c24a695e3354e3f5edcd12278e7f9b25477256bbd9 (-0x11eee6cd20289ba6b22fdf41d20809d5f77bb51cdd4647fccec6a5f694b0ccaae) 0x403f718b034559a1d7e57c273f09fa7b7c2da53348c57304871fb4b99c11321 0x8a30ba66c41014be0028bfd06f66398da586e39d44fbfb76403373c6d91df6b);
  (true, St 0x2c8ef13b089c346dd27f8701ac1b23d96e61c176c41a81bf024123bf957d954f 0x31db677d9c4d6b5874dc56915549c036dea0ffb670eb0109946ba4980a75c37 0x7c172bcd384e5dfc8f5e28f3f2bf06bc8b2968bbb0a33dda566af10ae765a9c 0xe3532b0647f20d4a5345576cd4affcbf1615aeda721bf77166ea1e0b13848f9, St 0xbc1d74dea3cbdd3f202b768bc334746c1cd8d5e447f192a8de004f3ef5901aec 0xd7d696d59b1e28b15ac381a473da4fabcce8b26fa473487ab2e0df0ebc9ab20 0x8a3b470b3a9a5640c6ce5be5e1adf8d43e9174250ba0d5cd150348cf7ca396a2 (-0x4695690b9dcdcb95a8c2f5697059d6445d0239b1df6903d77e817ece123ba2b6));
  (false, St 0x83ab4a7197fc7dcd0f55addf758d25e5b82f10b5aa5b1d2de25f8e6320e909df 0x6498900a7bf31706edfacb6ca7c135faa3ed6789a8c3548677afecccda5d7ee3 0x43b8c0cd0eac13223874f0130866348d14658a0ea964bd688c2952eb7119a137 (-0x20bae5caa3e98396a914e224d59d08ebe1c6d393d30bdabda2e926761a2c7d54), St 0x9355823be482ea8813c4443cf39276313f68dce0e5b2bb21ac6d6914d3d576e0 0x7ea0fe6f27e256bc2a93e70fb2c3b941da482c189e4bf0e2eeafa7078e5623bd 0x54cb5020db404a80a2094494f50901e612a5afa362f35411faa909eea55c5b5c (-0x50e646e29e82e0cd57533c3eb5c770ef24dfad857a44c52244669fe2b61b8288));
  (false, St 0x18469a76a37a1c92a35e8ceff9eac328308d79afa949e5d08970c121d921bb30 (-0x74b8e84fccfdc52db748921d0268080aabbd4322476ab869670263499ccd8ec) 0x24d506f1708903c3ae5d04d8daf1c47c90096b1ae53ca966cd7138cb005a1ae (-0xd953c3831eb6ec1ed075c2fe7c5238200b78ad1d5b12cce6a66c76dc6a9e89), St 0x35f338271b0119a6db00fb484d2e88e65dfd56d6dc24b6dad330ea301b59dcec (-0xe6eedf3d105be7332128c7560e98c9a2ceddf68d84d43be002abf75ec5e21573) 0xb5e9c53e31b76d35997127a02018703f94b62c4bb920606078f131bc9fa19f7 0xb50290d6d869c93c7d7a4cb3d92403fd7e4bd015ad7481a304abd752943ac2);
  (false, St 0x53f6d3892e2a0f5a1a18c4d0ab9520a40665088f61e8d69733076694960cd49c 0x40964ef45e8f8d1fec6014c0ca33fda6b34cd423ebc8d70b3ccf9f8bb24b9e5 0x1b89fb2649e9658be31bbb81584e938adb45bdb9e0d1164189e6daf8ee5e6b99 (-0xbbd0278172594dfd5abec5453388220e454fce26252a920b2bf14ee647b9ff1), St 0xa0593affd7f3748f18717a9e825b1e65247b9ddfa4d0078b8df12181d82fdc52 (-0xb09b01ca68703dffcb6e458646fa1556100fc8b35d0136a7c73b8cf7fd154c28) 0x646fa8da45dd0f5e097820261e2eb682d00d7e3b527fbf9c7d6ee85daa1c0b75 (-0x1ded0a543fe0fc1ece42e24c0ccf6bc87f1b11e579a4751eb4b8101baf614f70));
  (true, St 0x56cfdb49c0bb93c5a4db5a33a6a08382b717c91894311320fe71a2af7b81b23 (-0x410b8a8b1b8c4634059904697dc712dd9f6b308fb0e339acc8c79f067de904) 0x1d70501a080b4bbc19e74cd9a619954803e721f5b6a164e82c9299362a85e2 (-0x9c69e186e90092a18fa625565c9636682944f217383a028a10d1db1c55b424), St 0xebd6365645896fd6203eac987490c8f26a8fd1ec92630f845527a522952152c (-0x1a4fe5cfa67a3eb67d350ce13d19dd43b6aee1c884eda6def71a371c942d9475b) 0xd942fb0220b212842708eab4e79381f85c0d60b28941fb1d4ce59c3fb636b4 (-0x1625f145dd05737581fd3d071b8d951fe4717575a5a657d277ade0c4f4420c7));
  (true, St 0x7568d50cca28a136e6a3b8658d5adff42889040857f6e5e040e1288bd02cdb7f (-0x7b17aec963863d76f7252bee63e70461f99a1cdb0d8c72f78dcfc7bfdb0df5b) 0x35d8fdabb254ab15d7a156cc45df6909f8793e1a3dee2c12b00f9193c392dca1 0xfd6ecc0a7618dc6903f925ef8da75ec30368cfaef5f059c82fce81a0670d737, St 0x33bc2879601dc433a85cc977c8139bcb2bf1c9670956525716ef33c4ef250ba9 (-0x1e1f836e37233b535c260d8689d401d6a17cd02e8bc0d0f8cac4ca7956e2e46e3) 0xa74826bdf6bb1e5e375641694b4212bcdc605af33c768e0ab00125adcff89c9 0x2a0586ac5420ee18ef71aa7227a79db0aaf3be8ee91e6f4cbb8fe22407e86bb0);
  (false, St 0x3ae86427c0c0e6245b843769c6df6fb8ced660a592bc4512f6b0bd926b6c89a8 (-0x2bc2ac12dd1691f7994120a707dec20d84f7bdd3ee0cb2176fd031215568df44) 0xd8e2057c021fb044da61490a7a245ccf87b0701923a93aa7eef00bc4dc0601c (-0x50890bf03462cc244eb357405bf47a450c413818ef01f9ef3c8e5f555126a07), St 0xc7329dd6037e9a4e118db4d3dd0606a906382e5fbbde34152489ad57949d1420 (-0x1323c15469504274ec14a69b3686c7320d31a36283b68093bc5131c67f8952377) 0x9affbb655d581ff1891b814f6f1fe40a5acd8a8ddba375eb9dbf163cd5db2911 (-0x96a3e1d00843c38d0e8ab6f73ddffcbbffc7bf7033675371b5893e36bbc3775));
  (true, St 0xf9e6f2b64bd5106c2f292c9ede32c3e09294da308cb16564f3ee6faf4797f952 0x98aad3dde1e425de90014bdb39beea449f954be96b0eabe5617b771c9554c80 0xf3f314809924fa7a57cb28b397fa4ebe4ef0587921442cc3bbbef094ba2568e2 0x1acd7c9f21db26341a5703acd11722d31d8b7c94c45b3a49defd92c204943b0e, St 0xb91ed4c83561d694e4a1efaa6e5d073259b7c17bcbf15bada2ddd790c79610d6 (-0x1be218830235c8c9bc3fa3cad6c933ed9d7993d770817037caa7e5d8e1701c077) 0x85dd934072cdb34ee9af4df65fac42be85b54326c7c03062b435d9a90863acb9 0x775e885481ca11ef09d686f216339df903b528462e8657e4ff355ac7c28c6e85);
  (false, St 0xc1b9131fb0a739e5f56272209b29a550e6d32927e4f517a84a67062238d08082 (-0x60be09f726afd1302e5f039a00131de96972d1630ec2b0194932f338c04ed86d) 0x929894a3002fc3c5ecf0cc77dd244a491dd7864c9e21dd337ccf03ebba06ac8f 0x82503012c9209e7ebfdcca017104ec47e1ce8d5e48211282cdf0940363ef3fc4, St 0xdf5a446c6e74389de5b3e918507ee1f19c6720270e5ca3cdcda98336b84cc7a3 (-0x2961eb0ab42b2a822800a8c66f5603090a67fcf8c3c04621a1396be52e5c591e) 0xc2de6309d9d44fff1bf69c39f41dc79a5d93b280fd44f153de6e7e467b370a04 (-0x91d3ac11edc8b2dd019281de8d8ed7929cc7b3f7a890b62f0f5ed57c3534d64));
  (false, St 0x9ae679ab82395539e82ebc84d52c6d2d13fe1f98745e25247b75137ea8378bae (-0x6e84db523e23a5375983cd282cf37a752c27facbf85bf584083d6e5912260fba) 0x5dba19e19068a7716f7adc98aad87cdd8936b5a1838cdce2c93c95b90cbc80ab 0x266a0dac142f10e8c0d4f01a27c0756654b035a64d357451c6201d93d60e12e6, St 0x3a3c7eb0acef6374c3e98a779c9afa172c2fa7b6e14080de8c1bc617b796acd4 (-0x1b445e4eb3d81e0aa88d072aa69cab65da8203c68a1cd2235ccc06de0a665ba90) 0xd3f77b3bd1f65251b43d48f808358ec0bdac9011a3add8e2eabadb7b3d4c6b5 (-0x6bacbb1115a2ce687113372e90a0957855aa8e8bd8b5c055b93b5c94304884c));
  (true, St 0xf8fe77d0bb5feb8eec1415a1abeeb098d1923989c6822f2ac4518bfe51d6adb9 (-0x5a85abd1cb57b0ece9d42a53a7680e13e32708f81bf5c50c5b7c9502c6bc0fe2) 0xf22e0517577f6836f057b2b1893fa6924920584e2b82ece1c495bc42590694da 0xa6a712bec6f4d01691a3ba477b6219cb2c1ad824b9e04d02eb3b1ccfe7c6308f, St 0xf813f0eb6a3d08a7bc4d829edfb0a3673c4120a9c615177ceaf8bc117b427df6 0xfc085cfba278a048ca714f76955f21d8a23c49a05b99701987e9afda9c7ca3fc 0xf066a456b3e8e9d8b19d64d4461275ad9bf4ec6259d06aafd0857b6530bf17b2 0x468a704ce4e58411c9084db40124d4a361a0faea1f2b04c2a27062da1ee99cb7);
  (false, St 0xadb016e4dfd9955ae7f645af045b0824fdc7aa4fc3cb295fde0cdd078bd28bb3 0x3b7a975bfa184fea869c32c787b0bc24b0d5bec4ead41fe3c331116a379469d 0x75d7781149237a33f2c843df7433438dbf95bf3b504b3ce5697b7c6922f92064 (-0x50b3cf02a2099c0de83e858beb8d8aef7031433b956ca05d92da73e4cd5d4531), St 0xeaaaad6913a3c2c8903c6694bb074867b1b0df162dbf0b8ddeaad5579870ab7a 0x16786bb5d2f68b0fbe7489d839cb989bd908dbead8d6867162b430857fc849c8 0xd71c76cfb4091c10aa15342472b434c8b74ad82181f0b569cd3513cbea4d93ce (-0x34d1982747a1a02b1cbe1f069c77244ffb7cf5581de32bfa7c30e8537c7d578e));
  (false, St 0x9053bf7c59b5da031c1a4c3bff8365256ac11ba4367ed96904da717aa2b24ba7 0x2293390e61cc6330d20277841d4357b63821456a84bb7ee99d807eb6f97c1dd6 0x515e52d1f027de44df5723fa805f7a30e1a70827cf48bbf35ca36ddd4646d688 (-0xd0d61dbcd39ab9424e508e0c2a3353b931788ae228a1ab43806e5ce6b00f8c3), St 0xbcdafad9746b9e89a963b017743a01d6147eb26ea9b36c0bd0cbab8f0e88871e 0x5f67cfb15e68d3e54e2bb5253b9db390f1470bf1d47a4c57897dee8c90a699e5 0x8b525bc01e7823fc8b6e09c9514f8a16e997a727dc93d9f007058856ac385d8f 0x2b9d9dee3e46aa23b36d60e85b94e80a107d91bb365a614082f2fd059b9e24a1);
  (true, St 0x55546a299518f0b22f076a849e97b563500c2f669d1a92feea56255c64e9db32 0x1b6c6bddd88c5049ebe85619332129a03324adcfe96966375f942b2c3cbd736f 0x1c712a5590c408c37ca35aaa87441d5025ea92eccbb651e59bd95d352e6f8e4d (-0x3cde1b7df367aa0dab1477726e9039e85eb353fa295ebece2c0904d72567e30c), St 0xf029301f2fd129d97bed614026aa9908ec04ae4822d1516526e5620aa73e5b73 (-0x76d96f195687d471e9cfff416154668dcd876892e1b87642b7580bde016b1e38) 0xe14d40dbcdfe760d2a0026fb0a787450ad163fbaf48a056a60c3a7b504bfc525 (-0x25d51764dace89586497bee452d471033fc00b3695550e3bda93445daf25169c));
  (false, St 0x80e9afcc7ae5c8666be70ffc6a1393a6c13460ce364611b123f1017011bffb67 (-0x1e37ed0e600cc3d87e744c8747bc7956f806c46c8831773329e85cc772626d91) 0x40ea851e36c137256d6168a25d3ee848aaf56a45144235c48ab28775a96bdcb0 0x54af35fa550310ea426aba1bea18d0d2c79d3e3f907e488d5532cb568c1113, St 0xa93f83faea93c6191df5755d3ebc082041c94ee84c0778beb5b590468fd771d3 (-0x266f51980bc376d2764ec300a77df41f6220fb5cb5347ef326dcc9ea72974a8b2) 0x6fe4ec03f3263e4e697b3f3a157ccbc709131622f7729b844261b27a858f55ad 0x183a5b188866db253fb097b31f9f0f318b41afd0627b5c71fb049b5c4a812a32);
  (true, St 0x69c975c4da1749b1f09dc5c1cc08e3e99392cf52d52ab81ed3b39f3fc88ad459 0xedf3b64f5a04626b264074f9415da541fcc960e473b9768467c8fa39e56e005 0x2bb6e125cbe9fae347d187c108f01b19fe553aa5f78ae5cea44028b63ac5be34 0x50831a178c7385503f7a56b19cc11180c77d4b701f06cfd22733ddb211ca367e, St 0xb87d2ab40a47062ddf584fd4e135aac273fc3104646fc5e48b970bf685d03512 (-0x18aaee0c8c74c6000a105a3df2b3e5109057e8d10e985fd0c8452749de93b7c5f) 0x84f42a960eabded145e4213642466b70e9d42687a165492f90413149d0e4d1e5 0x5556c274b23d64fa3f76f7d2e7dc8ec29187bec980ee76399163de8f4b44334c);
  (false, St 0x5b70a58dca6d51ba9cdfb0037de6dfc1eec3a03f129be4d413bbe6203a7ccd30 0x28269393c253625e2939de71781a86d88c000b06e301f87a4cd2838d37a1ab10 0x20a9474435b4347fcbb2818a6e6d35d5e126193d961dfd2a862c317d738d1b07 (-0x3f973cdf7b54dc4981b13fba12764ffe1d081ca14de472e19f6346318358ee57), St 0xe6269be43cc9cbbfcc6c37eb3aa630382a8cfd3be018f96f3231c0669a9c8d73 0xfcae531ca21b9608ed92c85b2bbc1d3542075cd0796b0df7aa6f64f94102a14e 0xcee965f192d4390e96ca5d7af4d41a79b1dcc3e8791f72efa1b525e35735e8a6 (-0x10f8ae719a8fb8225a53d154a3fbe2b8b149f823b13cea0fb4a5f11e6c14677c));
  (false, St 0x2389c407c85386980db4703ed12c5f0107417e180d4c995c15afa7b1c3effb6e 0x16180cb2ccf22a3764aed0899313a9b89ee0a949c047a99ae1add77243203835 0x4eef5bd8c2620eda121fbdc93ee8d2e67dcda6e7ffcdbe6ed5afcfd6a41b0ed (-0xc171b8535d1e0c917c501fb35eb5338b0ba0890ac7f5ef59a240ce5279896f3), St 0x185a05e9e6838a5846d2c65eb242b920f4e8be39d57ed71957515d4b34ea864d 0x2f2af8147ad58c6c323673fb097ce29ae4d31895db8372db9c9056a1d879d46 0x25100c40622b7e86594f02c433f60307f0b4f24bd1897840ed02cb75ae4bbc0 (-0x783c2bddba200283811412137fa9cd0f31cc8faa1bb5015d543eca09cfe55f8));
  (true, St 0x612cc9d52195161e02ce3d826e616a64b2e07b59d7455a701bbbb57ee3611f6 0x31278ac0a6d0ea2d486cb7feb23bc43eaf37eb8621b7cec41b2e6fb3213acb 0x24e2f8c9a8b9def8df81dc90389e8a0437afc40a0452141c16dee0981ec2c1 (-0xefc5ba1fbc05733a46d605a836b83b67bcf761647965700be1c560b7246762), St 0x98ac06b4d31ee4f16f69e9255e8b20bbf242e723ec3fd4840f9498814fee3c26 0x9c0e02dd5aceb34bdc395c81b0b697f27d43f9b692dab440e9f9c970fe683748 0x5b0cbb9018ea16911ae20c0cc34f799829a54ee8eba7cfa4854d6b6907897382 (-0x542fc1e688443aca77b0c09273987bc52cdb29db51c01c05417efcf01d567806));
  (true, St 0xac1bfbb34dcd4e2c0a6f3e7f9cced0d63a2b6f1da941315949e2926f3ace41df 0x49cddd692d8942a023976dc96548402f6204af86eda011cd27fe6f3523a31170 0x73b59d48738cffc82731e5abe21405c8ba6e91bcb3959cd5ae5843bcbbdd11b5 0x1a2dc3b817ceb546c2e037060a8cedc9c35475449e75e73cb21178e75f9dee08, St 0x612a7025f44ffb46d6666d1d638fbd07236a7c5ee2d527ba83bb619bd5529614 (-0x28caa8efc694fa62c4297261ee8f76f88e4d066499c8cef5a4d5493c33e384fc3) 0x24e13005e59b32166697286c42385f9a033a932e9657dc65a1260d37971bb98b 0x444f4fff9136d347a3c61afdd62f6c1556a17843173ae3dee064421b713260a);
  (false, St 0xd301693e6ce2d306b01993389f88fe83b58504c2186b49971bba5f021229d9ed 0x714eb2b45e128a14989687bab35243e180a1c68fba201ab9cc2e1f37f614e6db 0xadeb537f932a59ac8ee06dc8aaa370dd76c1b5e8e710e477a4b61bd717136361 0x3cb203c29c56ba4a0583927cb54b1a8b716bba12897c78c5a9484ac17312535d, St 0x40a3b93fa27be39cc356b2cb4ef2791385e64c9bca4df4be5e4d2da6b8bcd3f (-0x71996d8bae41030c507aa681684db30976975b53374180382367259f73283062) 0x105245554ea6298fe8b39f8a4dbfe5792c46246aa40590743b6ce2ee8516c2 (-0xf19de489331ce9eb12f84d1b2dcee1d5f5bb0816ebd66c6fce775b9d0c5ce3));
  (false, St 0xe726c1bc45955ddf79c8a3cc0ab8c663d05dfebef0bf3370f7916565b9d5e300 (-0x787de249a7e297a0b03774b7266c5d03fe36db3afb9cfc0ff51291c470c3350f) 0xd0b6f780accc9aa2860c93e8fb0ce76facfcaf56c2ddac00f32eb23b395bac35 (-0x133a886095532b1731ededabd5279cbc12ea0f3385813abe1bd240a1bcad0d3c), St 0x5d6e519eed79a5bb0f1099bfa7f678b73685d82c2574c558ad7de912582ce765 (-0xdf66e7053aab58aefbfce304dc640f3f287a89122b7ecb210298d90afaf0e1b0) 0x221956d7d93dc2bd062ad6f817773515d67d2cf7f1e6dae7ec4dabf93336d4e3 (-0x4ff210b762a83d2c4b69b655aa9c9b1e4dedf79cd1835245328b55a40c2e154));
  (false, St 0xff403ceafe68632ea16ae767ee40d9d42bed8315eed1e41050fb0bcedc3d1784 0x795338b1232e88fa4f44a6f52ea43b10d0994c501220bcb59ef07062500a7a9 0xfe81097ba953323a29dc537db9ad98b8767b87df96f35c3061b467a678b174cd 0x3fe13f72ae9f2e7894d334e4b82350cd399b81548c53f11acfa1b4773ac465bd, St 0x90c459b9c71f6e0c3737b109f1aba55c8496f4a33c9c5629a3604bd5d787803d (-0x113bcdfc00869a1a665e5d9e059bd8f2e5fdfaff0f7ef19ff9f39cd0919e8dd3d) 0x51dd7b8ad5cc72be059598a4d2978df0264da507b78e88d60ca16715933d0fec (-0x28100cdd131da41548e023852fd1eba2ef45001050874959c722c37747782525));
  (true, St 0xaf5ab5630cdafc46e7e0e848f9552f2935ccff0be71ee18dc1a914fe0f34bcee (-0x5c698095a2870fab3bcd0b6c34b0eb91972823d17c6cbf99b88e7b707648b2c3) 0x781d2421eddac984635ed2ce353c55a57cf758b32a46df6f92588f5dc7572898 0x3dbc2129b6d0c9725768df2377bc9af8c3cf1b63b98d6ec2fc0c20fe156f8f88, St 0x6bc7d7da8864b0033bed0f3200447516c198b86c290f66cbd0a4abaf031a3480 0x2a0596aa98fdabeb14a2d30b352883557bd549b63bb17df8e7e9780e8fa338e0 0x2d60aa722725adc406b0af5af5fba74ad9986f6d10451740fed33d135219ac2b (-0xb904884d344ec577f6750cc2842793e6b6cd3c7abdf1f0250e74db15535f1b4));
  (false, St 0xd5958b0241504b91d938972123cd7fa7cdeabbade0be85669c1278dff16fe662 (-0xe73429beb543268329b92874f94827ae32a316074bca728811c9cb743e851e5) 0xb23230ad8efd48d7d0058f418df58bef87a2daf7d4cc848096f0bed0fb35e402 0x5b545231188ae7b60c18463130fc91da26b443fe6fe651b4f4c7ef276cd7f325, St 0xf54bb5e66003e9a5ee60341f3d4610528262ead2229ee1d415e70ef7bf7d49b2 (-0x2fe521d26130285a98c40ab2aaf3e2c785e3311d591412c64d6898a0a1a436c7) 0xeb0a008ff50d5327bef08b423ff643fe1774838ae55d249d404eebb8b8f3ef14 0x2d37a55bb31be2f1e179c4b6541933544f74c0bd2fca9b704ba33ce27988f555);
  (true, St 0x340c60f69a3f6a5658e4672751d6641a0841f45374fef90308197b663fe73be5 (-0xca95ccbf45f7be6b896f9b1166b5fba5e21fa2780a91843c597b7bc4eaf58fb) 0xa9507fd7517225ed548b5f68f124090d440ed1c6d82691a6316cb0307cf170f (-0xd327fd7278c2a061333c2800a9d7615a0347eb21e701c564e3c5ebc174cc8ba), St 0x1b1bc7bcfce0fb6781419f38d23feba514f1e1b086d9b5792821e4ed45f0a46d 0x1276c6c6531a514a2a7d7b75519e3a74b0b7bbff5967206dad46f2563db30e4c 0x2dedf259deb084ca33d243b2813a911adf93d93964603be6a341f7c8181b8ce 0x20bba01c824167b4a6c5a953ca85fa05826850ec1cf9236ca05626ee7fc3458);
  (true, St 0x7e7fac39f77130c1a6907b824aa8a3da5842ab24bc8f08d76c2d08cba462aa32 (-0x4864df43fc220c92ea382157396cead831e394e7cbc0c5026cfc83562e024771) 0x3e81ed35a376cd229e25e90bdd6a4fb3d1b214568547f77b95845f6b5a3fb3f5 0x1ce3d96b427f32e599373d877debd229551ba4b6e18fb2791a68f9438c320e1b, St 0x5d504e6b1a925006105bd19e896b0f70722880d209da9a3208beb0cd01686066 0x219b9af477c6ee0154865eb1094228a8285b9a3743616092ee584f4c37e85be0 0x2203722b0e47ccc1b9c5ed311a2abc824ba0057e9be144a573a073405bbd58b2 0x23e86116108c6229f436749201728660f90ed3ecf8b290e1d12f7da8a5bb53b);
  (true, St 0x59e6cf47544539c68be15355b41ef167f046de15d3149f76332b77a872ca4b8c (-0x21148196dba0111d1b04cba49f9611c7265c98ec22246420b3555592f8fe3625) 0x1f924c38d42a48f06030a4855ae1a44b2894f4773507c51a09d36e9fb97a09fb 0x270a1fd4f05bb297fdf4afd41d7a53c44010df4a58853470a28a6800127e454c, St 0x5f7b4e035ff9012f38c4689cce53f60570143295ad67a8600734acbcdba3c592 0x66ce1d7cac7d7f388b9fa9de629c83809fe7f5ea3db8a4fb89c899c84dc82f31 0x239cbf4ab3dbd5f9e04af7d77299536b544bf8865f8db528df9c55467f64dc44 0x2ec1cdfcf20de5d5c1685035fc21f1b4ba7ad4e1603c99354f64e5b749b3867);
  (false, St 0x7620f177ebf040da564d05aacc3e7ddb94d4502e30b6db43393461ef162c4cce 0x437128a896a977a659f2f76b13183d3fac9dca2cf61fba0efd5272b33353c34 0x368262d805c1dd18da4e68bf78112ed3db40b9aa4be5604521f0106600396d45 (-0x3ff0dbf364a34b2653853dd717effb75cb6cc78789c67fd8c48c5d76bef56557), St 0x3ad64469cb2b94d02a0cb814bf04f06100d46b644f1fecc976d034ca1a5dfd8 0x6de99d661e855efddeed878f0e20ada3d39add0a397a22561b4e1d1f266b89 0xd85ca5670bd9648f458ab2664325aa4667d57cdc67ca1aff4a6cf07492e93 (-0x28774e8c66ee885805f8504c51c98322533921ce222e99fafd271fbfb51e29b));
  (false, St 0x635350be10878b004d2e921cec5f04c835f028afb844447551155f1509d50a9c (-0xe8cb254e8cf525d067b30bf11b915b01a881a8180751b4427089dff41ad3eaa) 0x26898b909c0870681486b3e031f48aa4b2fe6cba4bf446971343c08516761c1b 0x15c5e2a8532c5ee9f39861c069940aca18ade73b452a362c4de2b43b57be2bf7, St 0xb6cc5cc5083d529cf264f67fe3d20db58d0887409ab069e5b3aacfdb144eab91 (-0x8b5e107cade213d09a7feedc9f93b62c093995f222975f265d53c101ddc8e77a) 0x8287370ca5e1bfd0b82a3fcaaf344dd805b7a15ed557feb5be65e6b536c8f31a 0x755ed354f892b5a589b2287480a8db6bc8593a8617dcd38521b70efa3c62476d);
  (false, St 0x808c2a6de19fcec73b518560dfa3df7a7f094a303c33b7f2ea2d6360b09e9f7d 0x365bcb6bbc536a3850c8b0f60587fbbbd2ac1a803fc39e4263277dcc4d270ccc 0x408c772c916349f00edafbaa3b05c48dc0a753988e133bcca06f9ea3e7b37350 (-0x35205c4dcf00db6442c106a1b20d995b942cfa1f9e404195902531afce23ca43), St 0x585951bfd97356062029ed9d7d12723c916b28f360a5727743bcd35f820834a8 0xd8e6ad0070fba7939432519d114949e95a880fdc02dff2f66ba2e878b74fd58 0x1e7d875df57cfc150c9d9e85e47c9a3662f5a8ade44b9c54c8b3910beaa6fbf9 (-0x9cd44d90324c17ffd1e4df2559293f83c0c1840597a2cae585917faf2302941));
  (true, St 0x9cda396b2c1774869f2d4a26275eb4acaf15eb6ac7c7aaec4e7f34d13b067733 0x2f6c226b4fa8603bf3aeeb30e5246e2c03f9b777049517cf11a5454d331121c4 0x601ab000d53f447751824d96ec0ceeb75da0968eafdd1aec291e1597433dc252 (-0x3908b7053021d06974829c3a8824eb964dd0bd8288f1e237f29255f0103c79fe), St 0xe43540af5ac7766bfeffcbddc5a9568e6217bb36d8a3060ed320331210405987 (-0x8f8421b8e13792e528128ad958bfbfbf10f5fa43aaa480c9abcef5bcabf3e61e) 0xcb6ee64cfe15ed5491b101e8cf2634927579718beb9de2f6fcc34ce7200f8795 (-0x70b8ea5336eb6db07c0f607b8e01f3d51251055913814be559f922e80ec9705f));
  (true, St 0x10b94e3556dafbcd3788b9d5f9ee9651655c61cbde233b86859a8a96ca68e854 0x73c617731fd53c1410a029eaf2b53cc2f5ce657d578f78f8dedcffc9507a256 0x117afe8ccef23ece6f7fc2b72e3bde53868ddf39df1b6a04b1a4f8cebd242f1 (-0x2a741e1ec840843790aa08103820e036cf37f6ddf22c2c9eff41a372dbf12a7), St 0x274846007ed1d7dfa8d881c5d8faf9078ab8cbd30c399afb6bc28b49fa10dcf1 (-0x2b25d08a87a43616dd7ee5a84c2d08d4e530e98fb633bb8f77b2a1772d25b5f75) 0x60719bba016a4e62e32095697ea5e6bf3976c81e4654922f89eda6d8a60a604 0x7bdd3edaa45b586b61d33be467fe54b8042d63a56cd48f577e9c3f36387a556);
  (true, St 0x327fbd3101cad029228539ac2da660b706f6abf997f2b95a373dab93f07b0ea4 0x3e29eb51e5149657cf37ecb2eec98c57c3e42364ef0f0e253aea30732b563be 0x9f625a4711a8c362874544d9c9ec3aafa1a3cf01a40580763171fb7c7e9012d 0x1d13a35b56aa1747f478bbd857624a3a2292a547c7e511f2b5c63012bb226f9c, St 0x959b124d85d0a1573178c7996bd8b0bec59f916f31422fdd14895e4673f9fd84 (-0xabd0d837b44a1203662cb72bce27aa1b3c632b02bbb0ca6a3fbe26812688a6b8) 0x576de13dc061c5fb6444286bdab58ba040ca195eaec3754186bed666f0cdf920 0x65a2db49081af0d9a87c9de14b93cb0cc85186dabb14bf92fd166872b7da707d);
  (false, St 0xcd18092fcf072b2de58461e588b4e8cf5d742ee6f75dfabe8ff9382424e24c26 (-0x576721bb97ff153149e057ad734acaf9a72e40c6cbd9be3414b031c1d1a4079) 0xa44f80f8ef2c32f412256c9c4d69c5386d73aed5562ba9059f6593a6cdad9ccf (-0x1e070085d4a44bcd6e3a9e2c4e03b2b081f3ec8b6f9c2d402fa60f426480a45f), St 0x4df829eefca0b1148956825e3b5f25a07990a6cbed3669fa0a3f9b53459d9acd 0x3680ccf73f329afb078e0db320955d0c9dae3af9f6eb2a899f0a80de0ddf9b01 0x17bf39cb219fc7aea917479822e9bf7ba2fc4c6a24973507f0ae321615372242 (-0x33c595d03b12393064c8afdeb4dc1d899e1917d0e50699303cebaa480c937e35));
  (true, St 0xe4078fa39b82113f1193f34cc83ba750061f817b353a56e57b1022ac1ee82086 (-0x7606d6ff307b416112455ad2c3fdab10db96a6a609832da105ce99bf37f82f15) 0xcb1d781563a7d83496aa0e82d69779d2f4e2ddcfafc75d1f3d09b17e5f92de73 0x6864a8fa01d339e2c57130c630b398878b28508ff2d5ad53440c48d7d2078c68, St 0xc9460c7d7c2787145a7cb4835633ffa11bad03b387d66a6bfa5a0fc8f839c1c1 0xa8a6acbf74a0de3581e37ec6299116142172e8335385894a687dc4f006c4d1be 0x9e3f12c880710ba9e6e56bdc917c9e5088480b66861ab61d3b6aa813e2777e5e (-0x6bfaacd886d43752bf3204772a2e23512a07531bd1ba96a57c7d20500a5dc973));
  (true, St 0x20536d91fba2be13dbffd3f413d2dec5077ab616133873fdbf5f713fc0ef9d53 0xf68d2f99d9a2a2ef99a7b718373a8b1a9f039bc5bbf7612a920a27c853f101c 0x414f694be8c75288de8df7b668d85a3984a607c887fb295fef064f1ecc9d259 (-0x5d3b4a80f3b99f210489728f8a635dfc279581bfbd6b035219472aa78e4745b), St 0x7d78a5eba41de0a589453298316b40b44190e14be5b6882bcdfe68aa453f1a83 (-0x118ece318cc0a42f87cb1d9f7f5e20d1830acef171bea0a34762f96c9de691a88) 0x3d7f0ae45437aebd959d064f4b1d5a312dfbbde85488ffd31148a81f82ccecaa 0x5046138998a4109bc6fc7239aa72b90123c22badb9dd6cfa267030ea2a350224);
  (false, St 0xf4eb0ca26139d58ff9e590b6d6574f5718b03a99b3c991986e2c5662cc3e6121 (-0x541753689b77068f06d4ccef2f038b2ca321aca3f7588249a60d8d29767481d9) 0xea50e7e6a665474ae4eb71462a8c8fba919ae191d11df077638b0d3bab936978 (-0x64c56c117474c79231548e2fe7d9d203426b92641c5d819a1d2ea3ad799b7a32), St 0x5c8b061094f95d5fb91930f1bdba2a353cfc48cfe4981277c3302f7d483f6662 (-0x1abdc5146637b015600c026d9ae5a30802c1b6b41ee7bef7c9b1671c4fa140af) 0x217437dba2ae01d25a745601646381ab828e36e9a76ce412b2c72ecd9bbe1049 0xb8a7ebfb01747c3fc2008dab37deabbf1d02b3a58de988c56ec7e667c5978ec);
  (true, St 0xc8facfc2c597272dcaba00adc899d991dcfaa104dfc965be21c80369e75c0026 0x6bc1c1b1ce3fa19dec462d202e950f06155a25d54d71329293fdbec6e46f356e 0x9dc8da5b638b82855aeaa74e9b43cf74c76eb077b17bd340c9954efb43cf480f (-0x230197707c030c08d519aa26ad24f6583605d9a096e955e7a6f6521e5c4d1366), St 0x8411a72a735026cd9888b3e16e7efff532747ec3d7008528a3cff17046da0c56 (-0x1e5cb1eced5c047a059798ec002b514b506401d13bd0b540fd7e5719f29dc0fc7) 0x4422359babd897c1312fb23b4831b8e2169d8cec22b9fae3e994e8283de7ad2a 0x2a6221e2a2b1d67e0e40f06c719bc05237cdc01627c53bd595a23e3e66e0e062);
  (true, St 0x3918e7d826ae34e5ea951b66131c31a8346c9a19f8041cbc0df4e80c730010c1 0x2583261c7b357653a70ee4ba49e8e4d3e578b4ccb86c38e656c7e9d433620e4 0xcbc19aa9874ba3288936245aff29ad424ba8661ea4038cdd72cf10da9a65f75 (-0x539990650bad6eaaf32631c8291e325ddf96db4c4bd3f9c3a93624a08b876dd), St 0xe4ea224467c8a48f376c19bb4c71701f13dda8e871b3aa1f04b720c763f2ba20 0x303b5196b54f52eba386e36978fb4a82947a519cfd77ce576c33809c95bb3029 0xccb1e32d4f3340f10b6bc5b357352467c1ef69f1048597d05f128a89e0c0cf97 0x652cedbc10683f188c95b6d431f652b7f633ace2c7bbc285d7257d41553548e6);
  (false, St 0x8c1d0f6c2b925aa17f201879937ae2d1916199f38515099a64c1e923b5d602d5 (-0x44feebe73fb14ff15f8ae6084c197cc5c61530e909a8bad1bc9531c2623247c2) 0x4cafcc2b1bc79943ec3f986a1c44730819b31c42ccdb896ab536ebfc16e757bc (-0x329628fc945e426edda93a7204426924d350b9761ab70cb14e8c9b2278ca22e), St 0x257401708a70382e2a3bda945cef5adef1644e8d38d3d144c7238f75fe4dab53 (-0x1215fcf2795c6a5962574965184e6c20bf3dd5dac9f0be4cdd83bcc61c6eea58d) 0x57abcfbdb7eb57a658e3e67e9b7137c1a3e5ebf547311562e0e5920fad1a827 0x13b6af4d17c5f4a03ae8adaf603754b1a5b3f1e7354514025bbd67140825e83);
  (true, St 0x7464775ab811e267d0b51cfaa2444e32e473e38d485d50197ffccdd178b60404 0x67493325fc342961735f301a15b5715a186db2858a5143be37b29fed09faa69 0x34eb3397e240ae0534fe15eb4fecff86700f1b6d17c74dc367d6b277fca64cd7 (-0x65c3518ab54008f43b6bc49b43aaa768807a0e0505831b7689b60755e3aaceb), St 0x43a28c3278e22d00fcd9dab4f2409b5fa65a805afd03e1fb3284bf3060266862 (-0x11d7e6ad1adb8c8a471897fb59810e6e82404e46e974b21100bf9c61bd3e7d99b) 0x11de7c9839cd1c92743027233536d3e41d8f6eaa57d0c82ba2dcd8129e988ce7 (-0xb6206f86c2d017d4e7c3fa02db008f1e19d2011b6a7ba38a4f125f1410403a5));
  (false, St 0x379634b5bff45004ad10f950b285b4de3e112953a8687a4404785ee30ff86b66 0x966926cd5f75ce7a856c10fa71297ab2595e8bef9e26be9c8c53a502e3042d3 0xc11e2c7f464267bf013e4340e6be3647992257e3832a1024dfadb5427a326a1 0xccb72dfaa1e5a7d8e90c90a4749cd360bd146a782538b1c51939ee896bf024b, St 0x5eb4cf345346b70f73d493191652122a78a84bfca2a6b70e2b217a825be0ec48 (-0xad9ac142b89b5bf323ef4bfb8e3f45ceafea04ad49104c65f808ed1c6dc319c0) 0x230947de997bfb1d8919fc09affe462215c2d321c1e258ce9392c87047fecba2 0x2a96f3e5aab8951c89206416f570e8d05d52e54c7afcad47d6bf7855ae6c72e3);
  (true, St 0xa65c0401b0fd1cf204e1601da91664e3ac8cb6577bbc04c8852e83f710068a53 0x248535b372fb504a33eedc8170be2845d6b834952d4309cea31ce684019ce5a1 0x6c1b76457eeafb4684561bbea722c06b39e214ec79f80feecaa037e9c4254fe1 (-0x7dc7fb4305a6b45a039ce604a66fde53e11c50552b2baccf226621c3c7136c6f), St 0xe1b42e7b5b0da59c7ec37ee4d4f14278c011e2ad2e237f1962d66b598e60920d 0x3e1c447ec6e4825125d5274f8c705a0361e7a0ef8ffd57a28fc5f11ad81faa44 0xc6fe388702f4d0fdbde096d6fba473869e2678b1f875f9d5b04b38cb15b34880 (-0x41f6496ebc03632023487bbe70b616836c87c591afdaabe6c040e27a99ae3668));
  (true, St 0xb5557d9925eceea027c068f0db6211cdcd34246df247ddc10df3ed160f8d2afd (-0x2c4cef3710992978ce385380fccfa682df86e30c2435c1ceb9300d76b8841f6e) 0x80720027b5652393df5f981afbd28e2a89334420c60c01fc231410612b87fd39 0x5f56977e33c16ee936c9c45fd454ac93d8100faad8ce9185c1a79fd6a511497f, St 0x5f0a5e4bbf1cd4feb29213eeb37ac69458c4b8f95cf96d6fbe3b8ec801191754 (-0xfcfc67be2a882e3967ebede47ee281be43bdd381a55f3b449a0ba49b530f6440) 0x2348b267dbc6bd801ae84ac0369b8ac0606c51f304f973bdaf793bfafcd4d741 0x42101e5952191c3fa30ce42c1ec3d723fa0a43d70d53c45466b3c9a1014f6366);
  (false, St 0xc6d54cef9cb0ca0a337f355da817151f995fc6fbed9bd9a89247b64fdd7ff91 (-0x523f20f81d58e09346d1e04b17a0fe412faa8b6280f0006ac1ea9651d43af9d) 0x9a6ea4bc5eaa00c2aad51234857baed5c8475a6b26a7a6429693fcd7d1d769 (-0x485966b0f5d9f039aae3596e29a259bb23436f5e4e32a6c5b2ab653ed084eae), St 0x944969747f3638af750cf0da615a9168c512c540ce33bf4ec61a83820f23dd7c 0x4ecc8b9279c25bcafd16aa665f62211a44269cdfd44bba0f6c16c0798cdb9d39 0x55e4f6fc58dcfad13939e0737b7c0114088a8a76bc996e5030c564ced6beb06e 0xdd196fea5b128a6fd3ffbf4c51e3f1fbdd17cc3db161846f97d020fa489c4ff);
  (false, St 0x94d061a445e2b234936b763a99f78667dd916ec1fec538a2674d5557cc4f3acf 0x440441af71bfc5fd4de0193e761b35af0faa324cea3c34cfd01831836401f897 0x56819a85177f2f5289758c051cd8055decc6fd044438042547d05e7192b40451 (-0x278f2d38441df1b0853dace117aab252145e9ff0148db62d2a0c60e00b3d8236), St 0x120dbd2031b5e2faf9ef02fbbe6a61a04210c29e4c7b49d2e9b74dfde819d74e (-0x53518237296b2496758374fb30fa297e7744e3d046565f3dd01400514f894503) 0x145ef5549411d2ca8e4a2714df74a5b7a5be13ee21101e5839059fee524bcf9 (-0x35932db11b226dad7afef7b81a5ce0c75ea98c4f41da6a4d2de348269153281));
  (true, St 0xb7ff09aa5e836826005e972c2c396cbeb32cb990b9d964ae8b1dd639b3fd7db4 0xec92bb985117f92eeefa8c1d2228b733a093f1bb81da3409abfcf3c054c5d62 0x843e9de65924329c8bdf4fb751bff084f275b1b34ecde1cccffc0939e8b20601 (-0x30e56f38c115465fa45a2ee49ad4a9ea4f659fc8cacdf09f660e03fd2d55169a), St 0xc8df36433e324f977682047127f1be65ccd92c278ea1d3c35838437342dcc6de (-0xe04d73216de75634f62de4389b1f808571aca481aa8686cb85a7bb8878df8698) 0x9d9d87694372ef52cfe6fd15873f8832302b431674e52839414f7f02facc3700 (-0x4bb96b4c1fa93d2a72ae00fbe1d01769b26484222f0b5154e41b1dd36889525c));
  (true, St 0x1b4d19839a3df62c6f1772464675653532447df8b82abcfeac25a255b70d3eb0 0x53b0d74f65f809c2b678cefbaca38dc2f12d1c1f8c7f35bbb05389440de0502 0x2e95a9a21282d94e6d5d38950b00d7c008562827d85cc8444a4f55ba141d76d 0x3908c0dc1c64ff18ede7763cb7fbaee6bf6c3b9730be0a18517e836bdca9f03, St 0x99ab1e9d29a023421d9b084f0525b6ff5b621af7bb38ed0abb2acf87562884e1 (-0x21791081c97640d4a849b8324d309fefb8a7eacbbf4e77aca25672f52664b33f7) 0x5c3dfcfa219e394b848a86dcdbbac87190c4cf300b44fca9d2a89f686c27cf07 0x5217ec78104e7c2b0ba50e64b2fc66f285c6d227ee71ede8499c9f0f86759cb3);
  (false, St 0x1ac75e67aca530be9595c1a85f5892a5772480869383c4e6149731a3ac21e791 (-0x5adca0d698edec7bac44100e5db145c969bf6e478602d02eb3e69258d506386) 0x2cd1a70f9dd5def26e6d0f5c4db3d4669dac7c3967c8de3b98b018601a5665b 0x5a2d1c26c3127ab35c62528c827ace40c0fae1d23ff6312fb235fca72a1a397, St 0xd25b5cb3093de114e77dafdcb6822121632416c410345e11cad5aececb41eaad (-0x5e891ea7443d390baa5793a72b4b49653ff0710154c5863f51170a0a2b8a5159) 0xacda04b170dd47cf7b4f3d65bf16af2c9a131b758a1cd1f42444f943831b757f (-0xdb5d0fe4b57c51a3e9794db571052de37b670bbc9b92b7c217fee4671fedb3e));
  (false, St 0x9fd32920b95e20eee1349013035cec284722d92179c6a018dc61f12dff1e7f04 (-0x2c0debb8133f0040f950c7a0a09e4b0e88f2a3612923faf55b6a00a773ecabb1) 0x63c7fb43dc97f8e582a4734f5c0380cfb7b26551d18b4510b18445be797e0c2b 0x6f200b9542578b472ee31b9b9d8d2ea98b96feba75157e9b31dea98e75b7bf45, St 0x2bcd4f64fefc82f331d8801acd713de9293df8a6a7768e49fadd194dcbc84e29 (-0x171ed5e2878c189c976bc17e752ae22d6cb735524169e2d0d80c204c1bb43fcb1) 0x77e9d5435874ef3a657b514d5a5be2000875ee81b2583ad73e994e2f24d7143 0x1df028cc57a0748569de195bebb6c359faa581d65e75249ea4a3c39bd1f47b43);
  (true, St 0x37dab543e72ded49e92ccc702a24f8275135004a5d119859737a875d882e0341 (-0xa8ced3e90a75585a9bee2f25fdb9fec599ae558b86c32b79b6b05d5b2790c3) 0xc2fb4bc718441d40dbf901e0ea557f5ecf6bc777e64526813818e463ec3f262 (-0x239f2f5c4cbe96b873bb1da98018557110e1550026e74b32033456d896fcbdb5), St 0x899fa962b5770680c243339814b0150b3355e4ff46ecf6cd5ce81b82c0c41804 0x421640fa475f06f5cdba5a5ad945d75ef359a1625c4c52c90e462199ba6ff3a8 0x49fc46dfc8e68f55f92006c3a16bd7bb1d6d49767a93ac6315243d56dc8d5acc (-0x4ca595b091bef7119af75b83349d6b46f2a076156ebcf62e64eb14a92592fc6f));
  (false, St 0x5c832b7494d45182df12825c57b9778230fe15813ad50dd77af31e382f72ab55 (-0x891f79c7724f3e95838240538accd638ea1c410feb401416d8bfce8cfc13846) 0x216e8a716d17d5695240e97c7bec44649065fbf4ff8b7b9baecfd4d649adcbab 0x7145dc649b3d2e810bf54c1814027baaeab04d4468a43c45955a165a1746470, St 0xbf11d8e82aac301e69d0bd6378f431ed50c06b999a91aba33640bf7acae29165 (-0xaa0fe690c4a4dafa511a8e28759dac89040f4de59bdbc3340f25a8ab91a8e001) 0x8e9ba2e984e6d824aca23ad973ff0ff93744e4648e5d8f015aae69aa8cc33b58 0x336159aed7a574bfe971c5b48f5542766f0fe80209fa1cf704f098fdaa4377c4);
  (true, St 0x4dd3dfd88d8abdb9370400e6a10256ec3086d231a91a666510989bb042e40c95 0xef903e5f1656bc016a5975cfb2dc8cb0dd76a5c491751fea95972ce9dacc94e 0x17a924031f82eaa0112dd65619ebca18ad9bf15acd8aede262b03198d6d41a83 (-0xfc73ff64b9a2f3518f8d9d826f664e85eb15d2907170b279891c66a8596d1a5), St 0x30055947a2c73022b874e217a793aa6d310e0e889d9c1a427c137016ecaee7d4 (-0xdd160f2a366c54c60361cbe13de8215b81dae190a5d560cac25d767ac0b7b2ab) 0x902019781fbf2a690f685d42944183d9cf9c9daec079ddb32b492013735b883 0xbfaefb27fe3c4a59423c832fd91e29c864cba689b0ea286a7e805c24221f984);
  (false, St 0x8ebb59b849b45e5a45bf4f8ff7d59c513d076091bd7efa322f195d3dabc13426 (-0x2516093662b2880019ff2e380f70b56ae61278c2f5abc8792181722c48befc6e) 0x4f9460a4f405cebc13ce5300a8e1a47d76f68d3cd29520c13bf3ce6ce9cff279 0x56f3792e10dbed25b94bff07ce8bcaa1af449981b22367409d4fe632c0b027c4, St 0x9a3a9b6d5b3149485bfa3838dbbbcdb2810da1537114dd6715b3911785eebdcf (-0x11289bffc6e5f2162d63e074f2c1f0cdc1032665c4d3c0105b1f78f3cae2112c6) 0x5cea906aba8cca0f18470d402715f4f013d0a2361749166654c60e8511493119 0x505b230b368d1c30a39e8b90fb040ac4d8756c1799eca4a0cb6e7c43c85ab1fa);
  (false, St 0xd27302e14ab32e16c7e5c8a55720bc90731234d24f2c752dc39f50184fdd0282 (-0x128e61ca88696def7fe1b6d8ebc642adab1b8aebb6bd508f5202377073bb90f1) 0xad00e465e200446d2ee768e2752afe6f109a46fe908be61a1fc8784899e804b7 (-0x88432a2b308c05cb64b66b89a16a6ec163e3fc77b1d5357d64f285b2acad9903), St 0x715178c367bc68d3cad9d9656261751cabc476572a79bac3e22d3b276a6c2c2b 0xaf4cbcf165a1ebb66d565e9304d6f62990f41057f92be8b399189e97b16bd8d1 0x3229068a585cc6b74aa5d7cbd83599c31e295c5f7c936c2c7b5bc41274c519ab (-0x23a9ee62bee88d2473161ac3316c0afc1898c3e06e2eebe796d8c0b043c57fd8));
  (false, St 0xeb54847b8498124a330286f82c0b39f4d87681c3edd31e9d8a8c10bc79b92d8 0x4e4f0338663879c2821ad6238155a1f97e9d01da6420051bcfaeca269c82a95 0xd8544722d36218d7b7113442f50bf1f4c95b5ec7b418ac79344ef1b82052d7 0x4843d28ac9faf88a832c967c2a6887d5cea40497882a9a1d021d32f546441f0, St 0x413df7d7a1b1f0a60656bd08002bdb5c65fd8e697712088000c6380de54f00b5 (-0x5887d635b91935954f0c776079f7771b05e05614b7f329dc5f8f6e3acef1d6bf) 0x10a086db9d71c182e88c2f74f33d5146bbd6fc7dac9a713eee5e5d3fba467a65 (-0x5b3a205aaf1917c22b7b530abf0cc1f445801843493824b7ca53d02f1bd1dca));
  (true, St 0x5cd76cf675e1e560f415820dd7c4e83ab5160540d77447455b9ecd7e9c0ae4e7 (-0x249f944d7d8de83f047b01bf336ac6ae3aabcad54659af4a56530941e653433b) 0x21ab8b997ac0caa3af5597eb7b0bb1ae99f086abfd4606bafdea6d201cbe5fc3 (-0x1f0b82b7d99b99363cf980e27819a263e7438299c894c303f3dbdc51485022bb), St 0x99c945591b24ddcc9e6b081d1bc40bfa845e04b23810897aac8e5e3e82b07608 0xb7d8088b1a35215732cb54e73bc3cdc42d3c7a3a0b8c15c94ca5f541dfdd08e0 0x5c623322d78a0bcb1de7de31f33126aa28558a05a1e90d9c0d6ccae42844356f (-0x34c960803bce68a44acd8effc80fe72fbfcb188b4596970326ce812f099d61a2));
  (true, St 0xbc07416ed001f427bbd1d8d8eddf047c6119eb40ef8da73af4799e5633faf9b3 (-0x4881842e0020f75646ab9b482c9231485787d0145f4bf3dc193670812a85fe92) 0x8a1aa84ff0665c9d85015c9068ac502a7a5b7220d7611de1f5970acc8c26b12d 0x603b10a6ffe008ef940dd670ebf841d8a3f3a3dd827b0f749dbfdff8109514bc, St 0xe1de002a764c74709585cf959392600bb542bc3caaac3a7becfb8dbe7da8caac 0x7daf91566677f324ea78afda36bb4170100951cf790a65973c8202ee780032c0 0xc747fccfb4df9521cf70ea6940f30ce49bdc1e9a3b745bed39070974490e3c4d (-0x20d4ab2809cfcd041c205bee96e5af5e8cb2f1ae742a4254cf33596ae1c0031c));
  (true, St 0x88bb6d2657b26af18551f71451e8cbf649be273b5c5fe20a5331f58ff3eb4c6b 0x252082e7fa9a050bf301a00140fcc61b22b022bcce5748dea66b624cccb3792a 0x4907ad31aac309e6524f653da428081f1b1b1fb4d2ec27b8a5f9afce434f0b68 0x23df33d9aea1f3f219588585ed95323f8baca6e6097dfe97dfd4a8e56a7d4a83, St 0xdfadc0fad34748dc7371f1f505eb9ff687b268844b600cb0d8584e1665667920 (-0xebf81a5d2fb1f8b2eff3c3c1e7fbae38b1c9d208c90f68220a7a6e271e14b2b8) 0xc3702c2424011e182e890f2f3ad12a8295b7828a728519f6944c74811f5f1300 (-0x2a775933b0f232c3cf6eb5567073ba9ba4341ebf690085a15a75c771ad15070a));
  (true, St 0x5a0253af8e1a3325b20b133c1877bce4d69d4d388b63790b743fcc3541ed325d 0x41248fad2f654f9d85718e711db7aed4f531582612e1bf646c888416f45159de 0x1fa5a2dcf9a995c4bba7f7032924b60950320e07a88289793a08611e473a2d01 (-0x3a57fd572fb7183215ef6ff2fa36bd3f9570e71ad8fd9454c85ceb465f08d7ab), St 0xe254a9ffc81cf584f15780b2adffc953d1166640b81023c1f47c2ca49a45c3f5 (-0x18817f52a1ff947e81ec0133a56023ad072e53122df2f4a659647fa55878abe63) 0xc8199828662bc26df9b6f35231e88d2148d06e24f9d08b7a0fa7f3ee203ab65b 0x2003b1bf3d9bd3edcccd8806d6f2847dbab6f751d2d92e8ab6be60def6ff7255);
  (true, St 0xb47820e6003b0e354172349de6c2f07623810455ab60e63353a9e220a87bb448 (-0xbe521d445350bcf5034decee3923c799c5a3a830ba72dbb89d252d8a24e16de) 0x7f3926a2cb66b8adafce6cc7f8a63b4e247ac0df0eef67694becd419e188373a (-0x2c055b5ffa74aa094acabd0d9eac4e5a22aa37cf4274d6da1c3d894183ac959d), St 0x307f3050f46920f327e7e7b8aafb81a0d88fa3b8ab0bde6c0f3bfae3241cdaaf (-0xfe5ff82d64e92f63f31733b7883b5298fababcc3e73c1385f4c1c94402188ff1) 0x92ff14f5e48533a4cb949d38f657f2c3d1a866c3ece9345a246fdf0ad0bb725 0x1d959a5731cea85c0cf26d74bc4ff236924f66a640e2a6ef942f0628fcfd0a01);
  (false, St 0x6b0920397beb0580d3ae982d7ee9ffeffeaf3d7568678706cb86fdaa1803dd1f (-0x62754d8df6975ddddcd8de88c1e65cd604f407584cc19935eeed12d4414353b2) 0x2cc0a14382703a4695b6c5d69e68e9d3f5b79a29a25a45202b5fdd9c15779c46 0x6162e5797384fc2b687b2ee59f55052d5e5eccae7cbf6c1f1dba7a2f176f3aa4, St 0x927cba5b815b6d35f25061a6377e277db6c918f54c8646b3a3960d407641f516 (-0x2655335dd2fef9323683ee6546798190b2dca246b5e416e33f2c9aa90f88f38a7) 0x53d28155c3ad3326d7906c3f8866186eba1383df9d82ffbbe852899f38fb9c48 0x33ab8b05e5eae4b631123df1dd553532b3823b2e0fd4ab51e6697ac5cf68e8df);
  (false, St 0x6f4148ddb36021b53e04c62348fc1648d32d3ec592131e1b0a1c3ed08e67159a (-0x3dfb8abe63b8bc816f839e90dd23506b7d0c952830bbd4b0763aff6bdece6360) 0x3059add6873996c7e551443d1a18b5bd6c0e367007ff0588628c0e24ac724610 (-0x260ba4e6e0e197cbec79f1eb4fb7e09853811a60eefebd0a53b249956c635558), St 0x32cb3a827f29ab658f56dd6441bcd137fc1a550f82d89f9786780ee8e5e81b84 (-0x101b3f8f955c7884de2d0f8a6b018fb2b82618f4a4989eee1329547fbf3ecb1bb) 0xa140430dc155b5e9837105c10daef0c526104935543bd6ec60d4a8dd3ca4266 (-0xe495a58a15fb893d00d8db7c8bc55836b66df97e9012d817ed055f36a1eef2b));
  (false, St 0x9c8077ef683b90ece5600ce64d164b053e837ef4b8f003bc3f48ee4bef83fa52 0x97ff8eaa751dac3aa554a53990b56708119b19cafa041ec84f168c9d010e74b 0x5facd2a44e4e19a0bd7901f2325c7dbe5d9ab59dbb3d63c790be3b416797ec06 0x2afd9c3b791a5c51ab6e7576a3e66014eef08321995baefede2607c8d6a98e2b, St 0x511fe05426c61b14abeba0200e4f019747673e6f557f88f0f2bbeaf87e4d1171 (-0x1c2d9a1ca9f091dbdeab814c76cbe6452d2972c7d5f9236563c0a1224784eb633) 0x19b52fed7333508f24903acbf6e8d068d0aefddc54295fc4ec26e86a2d4f3b3c 0x38ba800388e27f0108bd9d30f9d3010684b8dc55cbfe3c1eaf89fb4389a1b69);
  (true, St 0x2ec19d61d035aadd4c6faea939c029f85cc08efc52f12d950e40b921b7347a74 (-0xacce4c9a98b937c8dd9b8c527799ea4692fc00bca50ca83f3eb1f929f8eda3d) 0x88a26fddd9a801243cbe89b48db4353b983d78074fa4c2d564741ba4986d389 0xe5975caebf2b90d18c0f0abeb9ff481475fb7bcf1f90cafd332637fbb8e83cf, St 0x639a88117141c6408d5b9da9481377665c4bbe3484c84657d2fd1a75c14b11e4 (-0x1158a1baf220a734eabe448b9902796d418df50785c68259de7af865e9e218698) 0x26c0e285a1a88e840d62a6d869ed3fcfa5dd5cc05df479e0197e9941569384eb 0x37f1dde1ca9f5e39f7111a18b1b73c00f8f12828c6f65c298db7f5b9e84b31b0);
  (false, St 0xf19a57ad5549dd1ead2cbff12f8c130675b71cb830c966c9eb926b9f762c8072 (-0x755cec7e0b4fdb9f97494bb37bc89b5569c34fc02c227bf2208eda0832b3cfba) 0xe403f622d92aeaa856a76711399d3cb558c76324ca3be28c8d0d504bce67fb25 0x2d6b1a2848b356437dd1cc0fffd1f115cd254c5242fa123862619e90a1d27f30, St 0xf07db0f1138118ddbc4783695065e88aa8f33b806aeb2361ce6129de66133cb7 0x142ce2fd082e3a9c64a2f59fc893c4fb70d8bcaef0899ba865d09340c415637e 0xe1ebe97b2c37620390998bedff24ad391b0292e15beefbabf8daccf518285860 0x77cce55ed6ee055000565b28a3b73978622f350e16abeb9267e1bdddc437f1de);
  (true, St 0xf8e19089f392d22d971c4606b0888bcd6be32e1755708721a377f52ba5218d3f 0x4d317e076216b2b847a25ce0c3b8135cf3d7351fe7d0481c653ea5495c4dee3c 0xf1f5cecb9dfbea743c48d10b2c911c76ae9f6028a7061ef8f5d52b2c5c0ffb2a (-0xd9b1402b3df1f4929aa1e77ba01e5c03c27bb17781d5d2f505212eb7b75f406d), St 0x14da12bac4a7ef4a2c784bd3350d4e924e60861b3db90e35df85898297197a82 (-0x537978c0c2d17999bae79aa2fc421f4844e0400f62e22fe6ef6cadadfd1177dc) 0x1b2ccb117e2c40230363aa86c55958a9194094818b4cdbd3c287c31e297c8c8 (-0x9b716face31f9e32b0c528a11f5bc35295cf1a824cb1faa08957b667327e6fd));
  (false, St 0x2237ae23918d7fb5cc2e04f5cf938cd346bad6db7f1d803816d29b800b74771c (-0x35fc530e0334719b36538d9070bdcc5723ac06f00917a8ef78e61b3fc825d84) 0x492d65dc0f955e45fce1ac44e2f9711d67f4d5d6577259a4b79e7b8a61bba89 0x106eabc05b371245e982fe00eb82459d3a64a0f4ad06bece5f0fa7eca42f658c, St 0x2d155d528df5489e5976a192f8991ad98338ec0fe3c2aa21d3fb62d2fae00d30 (-0x23511628f53d55eb540711d2fe05b84ec4762cf3313ad5eb3c773714caaecf2d0) 0x7f084977f6920208384ad41353fd3c882e23abe87a5a5f413ad7dd9e455ffb9 0x1e84348dfa905609f3d1a0a104fa526d9e102b3c03b8df6c05ed8f7a7a5ab87a);
  (false, St 0x48bb3850bdc5fa8198365b4bad5bf4f6ae84c50bfd6ff44db4cc2a13b891cb5a 0xe4d96aaf11bd39934e4e7cf868239e714f09ceb682f2c474d460bffdbf2e208 0x14a9d898d1c1e13b620e2bfc479f596348ced8c8c899d2378a2fbca690428e52 (-0x163e4730f565d9d9334d46680bd501664b7db046adfe983a3365045b7d54d454), St 0xb4fd319ca814a88d2d366c1b4b3c67657c0e2234106bad9ab7fd01e50ddd45f8 (-0x5ae9932b5cd8813ed6f85a209ca2a28d6a89e8a4936646badf839db18fba990) 0x7ff5082fe593a640444d19ea6e8f661d0b565cf06dae794789abd25250bb1d4d (-0x51dd8b2baceaa2352cab29a635f97292fb78f408a6521ea4e30d4fd9d5b74e7f));
  (true, St 0x2993ae8487725c6082b8e357cb43d642a853bce243238eb9160be72cb1e0c2ac (-0x6173d9d927c9c6a6f26f8e74be544815b239b54d527108bd39b30af6fe1eb69) 0x6c0a3185d4f3ec0c2703a8defeedff8b092d668a2acecf96e3ddc54c9cf1756 (-0x213953c617579389a0db10b77f2d6227940b025559ad961f0a914b730236e0f), St 0x2a91be70cf07699617b0fb9d9e4bd8145472e3fe6e239aa1c2e7d3159b1dab3c (-0xb4f45994fc0b4a3f7b4528da4d653c16269bf0c7b32436a7ab1e05f123cc5e08) 0x71425765478bf85f7d5ae9380473ec7aee6ec060527339fa51cac005a757fe6 0x14010ec695156bfde71b85ba9d2359f631312b8452b745583583f8e7ae7b19f9);
  (false, St 0x16632496cd684324962888b2ba790f9521f7a5f6101788273f66777def7c2fa (-0xeeafcd84587f716b8e4f3e4415a980ef999b315ec4163f93f048a17fe7243b) 0x1f530af3f20bd782327c6bbec159f292541ce9d18545efc726e6491be4458 0x80e61da6943f1c43bfba8f1ad6cdc0df20102e20bfbdcb79333e0d913adc54, St 0x26e8edb8711532545fda7c035e1e60fb60bf6765ff3b889409eb3892cd7b964d (-0x187ace8a452781f15d6302dc99ccbed7370f0c17c78882a40df4a9b1c649bca43) 0x5e9fa8282884222c19d2b66212cb2cd087f679772c74a504ebaf308d4445797 0xd729f7375e85389e232aba61244f6b7a4b8f19d2b8e286eb2d220ad9d032540);
  (true, St 0xa46700c0f821d24f3c3288f089920e9fc8661226ed782e7f571519bae78a31e6 (-0x2576e6dbdd1fe0ae0deb6286dc8f4bb24b1e56ac91ba51c8e05b0ea89d4e49e) 0x6994226942c7b48abd53c50b9200d53623aa5d8ba612f3904c87d902649e3c30 0xb41a929f2a2473fca91d8524efcbf9b7da587f932b35d09c5477feba2facaa9, St 0x30677758bc21cc5cdfc919d81a1f4cf6ea30b5298eb93cd71dd6ae045309457b (-0x26be57cbdb58af317383e316a8bedbe30eba67c04baeb4969cc0390b1764a30b) 0x926f69290bea4111bbbab87ecbbac869404daab8341f0d143072c254f69e743 (-0x378f8404c94e516368878fcbcd56e7e33f6eb423913becededf390001518b2f));
  (true, St 0x4c5770e6ef96d867e7d2b753b581bbfd2751ed78c1a3ab987f4aba2499abf884 0x99dd3dc1b1843d763e26be9777c693e456ae1e2b626aa09fb82b33f8e19dc50 0x16c408e723c753e335eabf8fa3671951425cb2b74c22f27ed911dfa9acee586c 0x819077b1c33e1aa089380d48baaf9ba5242992ac9f2dfcc7711aa2bbc298b7e, St 0xb4bf26b0701d64f3ce67ed42e81ad6bc5709514f0dec9847905d21f238913aaa 0x54c5c567465be17ee3f5546c49f2eb26d67ff8928706627f6006d3a9051ded39 0x7f9d5d235e66d9d970568da83728f754283cc113e4c6c5ddd3459d5ac972f9ac (-0x19d211ed4feef6e8e2f2c3ce95bd2fc6256f5fd16ea627aa0a302bc6d41773d5));
  (false, St 0x25687f483b50c28646a67df80b1660bfed40452451ad5b131249a9ee0e60eba0 0xe062e282c398919aa5b5fa366823c00a81b695c8c2062c17e0d746ff6e09245 0x5775f729095a886f4d0c9896be841506f0c31909aa6d51691124ff674d6c5fd (-0xb9cb688d6268d895a90eb2fda51b17c9f5ff301eb5544ecef9053b3ba5d46bc), St 0xc89a44db6b8a0929957911b13de103ad8405018729cd15300bb49f4cb61bb8ff 0x63fcbe3d581bea0f4a81511a024664c9bc85ce980d1c93f9dbcbcf580565737b 0x9d31688e5fbbc6244255d188cf2ed09078f1391752717ebcc0aed6b5a6b34e2b (-0x78683d6533a0e529437d0e0a902410ac2e6c15b06a3d7e346292f56002f2fe8d));
  (false, St 0x9e46c1b3e6a41b91c35918b2999ae4676c65a02205228db099295986334f1ad0 (-0x2ddebbf493095924c232c2e83218db8d50f3863a61c088ca539b1685bda3b955) 0x61db6aa8f380de9f5d59e44d27b4826cf3c253a93a35e2b7fdb2df70b2ca30b5 0x7d6d340587e3c08f893a2cc51ff67ed6bd26fa4b9c248d04f0ca1377196b495d, St 0x73b4ffe3d547401d3ba644946864f1caa432e0d89bdd654058a0e60ce1f7126 (-0x1f8bb0fe15026007346384e78f19500e9ce42bb2db6c19761256917193015f083) 0x344c1ddfbe15bb53d642761429afe69d58863e5933b5891113406abcd927d6 (-0xce4ebf52fdd02e23bcb488fcb441103200a8fc0e491a939a70e45ad7ba43bb));
  (true, St 0x82006108c919349b64045f54bd52bea4aecf6cd411b835f0267ffea9a79a4166 (-0x7581d91ed4a8ce39eec8b3d9e5f9e1dc1489bcd07f55e1f2ae676d99dd119fac) 0x4204628d5309a4ad2c03558acdfdccc3281c0a1f9fe8a434ca691c793cfe1551 0x34dcaa315beadd33091c4fd3f360416a0c45839515c706502547bd0e4b69ea98, St 0x385ee3b4ae594ae3d3409986f516280cad9cf4c7fd263979b138b73f64c0a05 0x371d6f8734869cbd6de1081f4861a3a4e68b1d72b84dee4ddfeeed214cbc147 0xc69a6cb1beaadd9ba5b47a2e760b881f51ec934e29a073ca36de6812954b2 0xe3400c138d6f716deef33e1e32d4a361d76471bf70bf4a06975a752119f60);
  (false, St 0x1df1b660d9866622e2dac11eebf7e87aca7a45b6b13f9cf8d5ee7cbd2320675a (-0xf5c9c19216f4d4c28a664b013c65aa1babfa7b3f35c5b7d29dd4a388a8bca77) 0x380a78ad91083aa017fe02f2ea2c89a2421023b28d9dad81a17a5d524e22022 0xaa11511f535ca22100a1d4f21d9661a63820035d3103511cc0ca67116a081c1, St 0xf6af5dd9fb6cbfe918146acd0f03683f3c44ba0bfb3c2657d0777b093b877aef 0x42ba731b3e7bb0d2080c2422762fbc364ec19e80248f095f9afcaa2469d3ee9a 0xedb580814f585a4bf5542625fd28ec3b8ae38337cda377e083468c3856fe556b 0x63ca10ae6488f5dead6f63044a88ac30b7a296efad9892ceeed85638a1c31133);
  (true, St 0x914c0e77dfd5d44bf2fe2b94899ac094fc9f026b2159eacd39be0fa1ab72916e 0x7332f29d2063ea8175da787c4e0f7582aa04d84acc4af8f4ce71e5e1ed49a43 0x52773efcb605b50db9a492002489ae00f1203c03d39ccfc22b67d7f8d343dc63 (-0x442bcf0e8433918f0e9ab307cfee61e94c3f4b042c0d7b72eaf7a69c3d0f654a), St 0x90792e8563ec30abdcb302eba79297b601e8ba4732e74641e0fecd6ca8b3887 (-0xa4ef9ae3f32bcf6aea0261d65575df165002c1231819f41e9a1f2be1b93a683) 0x51888db3647eef24499f43651e49a5092a4fd47afb345a03a7c28650440f28 (-0x4b2c2ed55f500f530a44a9759bd4e9560c393a252ed3f08a520ad5a9c69ac2));
  (false, St 0xed9dc6e00e17dad6fb5c7e9f57c66a719ab1ee4e77d8c97ae8a3fe7bb7007fa0 (-0x5bfbe1624bb44a980c11b40f34349589009a17420c733d8bb8fc0bc5902b1dfe) 0xdc8d83793ff651d26d8c83730c7b6fd0f9eb2eda8cab2795ea3b4738ae82a5c6 0x1d9f31de50eb507f791a6b542381e4cac46d7d42c030c3c0dd0c1f9cdd3ca254, St 0xba964ee6a65e218fa85eb7cb21da2d2e790ddb0e676394336cde6d6aac1f11f7 (-0xced8f10d044f15e3833b621904ee385cf3c323cd7e6b3920e725ae0b81114f7e) 0x87fec2e8405bdf2c87161d361069d2f028472c4ec7716de465397aeeb8576109 0xa9fc1637b6d8e9ae36884f9ab1b3d958a30645fb8d658aafa783ada54bcc26a);
  (false, St 0x8bcf4f73b44c6111e91ef5ef1564e1dd7bad483bf79c46718fe1b93be5c48044 (-0x977ec16123da5f4cce333bc548acc3e389085c9dc6c5ea5e6a065362efe763b) 0x4c5ac82987ebeaaa493384e7a006cccf1828decdcd246e6271ea6e94a42b639f (-0x47fb5a259f9ff4a74eef6b491ecb0db029beba9663a37c5b2c96de8e25077bc), St 0x17c447b2ac2087959622fd79ff32b553ed17b3f849cb47f3d9cfc723fd3fb7fb (-0xcaf18f70ccd79799a3c24818e67b2597a385b78ce10feb7345680fd950b80b57) 0x234db5ffaceddba52cf7119c6e047eb85d18d00b74438262f491016ed80748f (-0xfdaebb3939b3bf6089f5b19c94c59bd52d8f8122e787b0b69428d2c3ca15bd));
  (false, St 0x20b4eddd326713ab13f0eb1600dad02e542b4a15ac2846842ba0d7df1df712 (-0x4fadde37e742eef7b01dd2e03ceac07312afa14434a50f04a07a607a7079) 0x42dbb56acd9afa8008b5f5d950d3803b64b626b5323c24eff90fd83ca0c 0xc9723bd2eacb8c00c54330165d36d65f25f5eb56b801eebc181a00871a8f1, St 0xef39e2d54651f5a9fdd7469de202fd7f9268502bef94b478dd34e28df028b1fc 0x68ebfbccb322a5daf39aa9265483d72c9b5e173915da0eb66bb3a0db4fd1cc85 0xdf8d22a1e4d0bdaaa0627867d2ef68c5dfe54b7ccaceeaf89c8ecf4c26e3107b (-0x3b610d54aacf32188d7965854fbf26d5b474d6dddffb3c7a81bb51bddd79f6b0));
  (true, St 0xe6bc3e96e131e4ed6b1e6250232f82500fd469a0230a53ae026809e35c7384f (-0x9217b567958e62779abbd3381c689801a0417a6c28c16c94f587696d1e94d55) 0xcff6cae3e984a186ca31c82a4aba66f724173628ee2821faf7b78a9ad9aa2a 0x93cbaa36c362e2e6a427cf85f821cbfb25cf234e70d6f78b45f08cf2240be3f, St 0x972684ea671c9dd3275c07d73eaad04dc00699236a70a48b30d456b807664384 0x49d243c1014fdaf24d1f516b8bd93a67d461c14908fcc685643aac6f60fd1410 0x593e7698997b663c5ff58103b3cbdc394f6b66208516a8621cde5986a92780c3 (-0x3396fd12a0a9f1cf7fd258b8620987dd8302f7df081ac3507b52cab56dd4d8e2));
  (false, St 0xadf20581833f3df201948e32b204c9ae6bf60e15e9b6bb0b38225116262ee91b 0x3ca7626dcd701b2aa7a283f1d0fedc145939c8fb238825e7bb8cc685f9604aee 0x7631003fea8eee2fa97d5df7ba5ecda45d0c32ac94d1d1a66590f400df740c03 (-0x583c09eb3b0e1976a99c2edcfb2f299d4bdf4bec5e309f42fa8ad2c536af1c3b), St 0xffdda1e2236a12e93f29a4b2be8008c3193f3c75ed9c368af1a87a0fd27bdb24 0x637c98746cbf065ea4325a90d62d6f284fb04cad419cb06408c4dd058af3310 0xffbb48626917f780b3e1a586176c9aa9be6e9f699db0659df6198b1c0e56256e (-0x53a5ae836bb935c9b47205389aa14c4fae329a57b0c8888a84cb9966e0656097));
  (false, St 0x60c9195d316858190750491436f3754fe2c74aeca2efed2ab01999892f62bff2 0x11743322cf41921ca9e259080829b4d2f23989e1f8942b126c73916e5735008d 0x249770fee0809e7f2940e24079c41625a96f20febcbaa3dfd2b0f89b28092868 (-0x312821b712aa5284d8ffcdc08b99058d7b1c470fa9bdc241d94eeb93f72160b), St 0x3289ff0d3ca62dcc51416ff2e3ef6e4ef0b0e41bc577136ade1735b79ef7e900 (-0x72ec48505f51e4956a4932eb679f10cd19be17f9506862b2ba48486bbf72b2d3) 0x9fa32042ff1654740dfbcff94dc9acf03da2aca7c6223790edf19723200ecdc (-0x85d5f0c71ef07bf5331f8da55784501d5ba4cf37cab742f837f74de285b0fab));
  (true, St 0xf76924ed37d3976e05e7c40e006abaeae9c41cd5d95f167f40392fa6a90c3b83 (-0x21186a207ea7ad0cc39c0d5baebe1cb4e0a0ba331ed59f1e9646864161eef0fe) 0xef1c107200c1bdbd85d5af11bb1d7c29531e94923e581b1bca9c5d26094c3e37 0x8e6498ff1ac82da5eca63328b40f1a3e25b806e0b2a7dc42c3ec1b3844fb2649, St 0xc88e7302b53f5b63b0e37d02b98c3486ddb53ffbeb4e2b7a97308a1bb6dfccc0 (-0x938cca615685a03e1f60d65cc499915c3286950ca7cbeb543532f0908627cf97) 0x9d1ee2f8a2fe62eb6e46d509f5ea87cbcbd2a47290eb2b64d104563e5eff1c35 0x5ee62fc5493cbaf915fae6f3fc3727294b9b4b60d3fb3e77892ecd9a0110616f);
  (true, St 0xa3ce23f9fc92c2a54015d6723e208322d42de77c5b44ca847a0b7cca19e2e720 (-0x5254d02bb6c6cc1678e9fa0c16eb4009dd32c817edba0ebd85eab3531738304) 0x68d027ceabd3d70b647bb9cbe566a431f01ada995c68ba665cec39b7e04f7327 (-0x7934f1611f5498a2e481932b15bf84ab7a4e73b1c50d3ad000739f57e3280898), St 0x5e1aa8a4b341950400d818069c1b793ca93ad32d7fdf4f512408558be62bd707 0x76595d4ea8138f96672840fdd9c9711844d1bbef5d2f587313e9ea84378104e2 0x2297969fc6c8be9d16c0faf45c4fdcb188de426f308256bc912fce9940d38c7c (-0x311c075a6760597bc7e3d501862d6a0ab67f88767a9721afde90ebae7db8c5e6));
  (true, St 0x98636eba223e2014b6f08a6f39a58c09b48be4aa4c1dfabbb97a043f00fac273 (-0x2605283a5f893eecc889ad0c0d94cbd91445ef27b34d760999ba349f05036d55) 0x5ab63a1c373af9047034dc40fa9b7f6e3d52783360ce579d36e688aaff316e71 0x75b84ba6a490ad6a390c157c02f36c8d7ee56a93f65717e8e2d9cdfbe5aaa3c7, St 0x18d8837285ac19b449131bf58a686432219e433d1f61dbce7c81f1dc54b2cf23 (-0xf1a83e778645693a757e257931bf28cd5af2cf8ed5a2b3225207d388ef1e5e7a) 0x2694fc390398f0a3120d2865d9b5abc09d91d0573ba4c5d5661d9b65e210d94 (-0x6fd972549702388279473075ca0d050e2c21828a314379ed1c79c7dda5c3267));
  (false, St 0x574ee6af7ce9da85fabceb2860ed2a31f2200863c40cefefff1c532932ea53cd 0x463a3fc8fb83d4c5786ff51d6150fb5700aed224a05284dbe59a5c96a94b00e7 0x1dc6b91cc77d96e51d1cf3c6a643944f4a023570f548516ef1e459e27f56bdc1 (-0x1c29e86dd8fd159f514275714b4aa49f43f67eb6a7cb063c1109327a87a47b5e), St 0x59a2af41ba3edeca1d1750eb7cae34c92fa0f8ec49b55e880acdd8ba655fda3 0xc729b077b3106be653ee810533b9b3e5db80498667af2dcfa14ab76d73d29e 0x1f62853e1a0ce13a8ab645599bec8040ff464068ad9b328b931fac108a9797 (-0x389647e43a06d3514462ba7eb4c0fda880590e4ae1c705cf4a3cb3da7510420));
  (false, St 0x6bb6a04d5c1aa9569250bb48a373d68257257648c06b2caa830fc38fc776ff13 (-0x2140f114661dc08fc00af93dbb7aaeddad0257b7588b5dae77ff8a274aa6e994) 0x2d522c492ab03641ff9ed2c7d6487a0666093a2118202f91f1e6ecd321baf665 0x431946c26c213a532c0ae20d9d54892bd1560d6b1d3cbb3c8c32680dc509213e, St 0xb7d116f2b8646b1dcaed36f5cf15df25085498301e53942f6f0320ce99aa2be8 (-0x16ef1e917b37f38eda550b7e7066172b167a419fbd7c6ff10554fc6cb4c78d497) 0x83fc999601fbdc8361d7e367a90509630b865055f0abe21fe59e568c3e441b2d 0x2bf14965c151aee640fd0c89dfbef191d00111661af6a3b1454bcf06f15e7db4);
  (false, St 0x33f99556e628d8f549ca981048914dbeaba31102211c461c649c50f9e889333c (-0x13f3c4de054ccfa0b0111f989ebdb33df45cd78819242526ce97e1bace388e38) 0xa8d64d4846bac27415b4515b7c5b8148cfaf8ac7c1161a43f6c4104bf25d06a (-0x153358dd1bac335d304c9d03bd9db1ec5e1d67d869450d90459ea3362c0f40cf), St 0xeea4714aec2859795522756fd7cdea8268aeaced204cc4ee25be775023f28490 0x129c1e85f8c40cc8b0634e0bc5089a951e9506bdddd227cb766e62814e5554ad0 0xde762c4987b300c1e7293d9c39c5f7e445cc1e8cf3720888558161582cdd85b0 (-0x6b834cceea95d522dce5f776416dc124617042191f667347e81294b9e1de6b2d));
  (true, St 0xfe3f5bf6f4e5bfe70d14baa05903313f086ae5804f5de2a2b9452574a92c367c (-0xad5f409cea37a814f438007552fff32b14e36f64fb4b536af46b6caad8cf006) 0xfc81ca2d6f0fbc664e7d5c1e1fa7f15b9126d2cfd872249094f461755698de96 0x735e4c88c4575d849f41c85c4406f0bb9c741d6cc4c0a69683a113020e8e1c9a, St 0x276fa434a2721360bb9e77dc42f213d0abc50d7b52d7b12d7d14f986ad107c88 (-0x1f4c944e7aca7daeece46bef87a1a887155509f1d53454266d63c69346e105a68) 0x61334b7de8a5080adc47ac4cfa80ab88bf574cf154a46b7d9fa7de704a6896f 0x1e49e0a31a93e93974a00d72dd6933474a3dfcc29f9ce40d7a948159fdd08c81);
  (true, St 0x8a6fdd1156cd3f6cf3789f9bee6dbfd08f39c38708b55280ddc47d1ec62bfdeb (-0x316861d436b22a9968e2f546332ece128ad1f90e0d0cd11ef050a50a4bbff371) 0x4adccb3870624aa1a0b1c21a27f8c270f82047a0fca483aa1d424a46bcf66c9f (-0xb63f5d73420dcc753802bc7ddd7de430fe48e35724c18f6ca167866a27eea02), St 0x3fa743726b54fcd2a96ed891395d04d58965ab86b9ee3d3e14a13593c2c54f39 0x7560559ba722cadd0e5877cc78660d943d47bc6fc1936322adf0ef88d89ef6a8 0xfd3c07b71b4b51f2d2629b7accc3e67d8dd9e1148b9bbe89b2d37adcb4d11b4 (-0x14d5a1547ef7e0025f04e6b352431fc6df7d18858f485c9dfa228b2bf6c320d7));
  (true, St 0x9697e28bb6cb1891df6fee2b69455d25ffed59f94e09c85f1e5f6a8cbdf51e81 (-0x10d895e0722801ae4bed3170e132750ff2df9eec05dcbee60c117f8dcfb7d7fc) 0x589657991c18f6f94be3057fadd5ffb2e57b0004360cf6822561e3be2803e4e8 (-0x13094644688d4aa20d1c9e073ea650199ad07317846670c96d6abae2d8957015), St 0x6e750a1f1a4c0363abede8e033ff6d5cd701a7f7bfaf1fa39cc62304aefc2b1a (-0x7bd9d533b88f9ea6743fe29eff65d1c27d7997c9ecfb796be2f816eed40c8d54) 0x2fa8ca352b16986f0da98ca5e827cd6ef725c4a20b6452d2727cd1687f791fbe (-0x3a53836b65a19df9ec4342b3a12840a7a80835f191d34df069b675ffd9a58c52));
  (false, St 0x868678da1b5d409723e22fe3a18f171af584c47d695fe58fe350ce1cf931c474 0x26fb45e4fe7a8a949c8a0ed91261350048b375dedf38e86a76b5f4cddb5b9e20 0x46b10d2758b885def41e544914a16729186538bec9c892b086f6847d4e63ad71 0x5e21508f7111ead7637cf48899702e950cab6e80b73903333992f78b31c8fe8, St 0xc083a3b1fb0b5394405295e21d4e12b11dd74f42af0db6f38f284c71b8329d4d (-0x105503ac07c6d54eeb001a5c0384c8f8c4a94a27e7972c53cdd2d133b5e673121) 0x90c5b93c7a29c59f5be1550a9050cdec37f74e7087c31022ce45a4b2993fec91 0x3e32345be4677ea6b2a9351c684d67d79ea93d343c94bf7b3dbc34426e987a5f);
  (false, St 0x1b18adddf7c631ac3f999f2279c609cef62cca24b9610b01dc2284542a3c8c15 0x791b1a0d6a016981fa610a64caa314d93a8efb6a24c6e3c8ff4beea03eb5428 0x2de370de4d63c0922d2f8010d44e83c57d2ba0b0f55fe622b3f9d5dade0363c (-0x7b04065aef484cfdacca414a8e2ead630f9e766e5992707cdbe6d0ac578c48a), St 0xfbf075dfff8e3bb76df3a762736b0f38bd3b1d97ebb6f5d4be6a9915f8fe0e02 0x1771ed97abbf798972de55188affe6bbb9d05718888765793b2939d6f587e9071 0xf7f16903715800635e6ee884d3f84d9cb74de9455724d96bed3eb148a85f0d7b (-0x8c7e141f8fa7f5c65f50470ba85e5c5da51dcd2b9721496fb4df81a97f4b187e));
  (true, St 0xc679c22f01dde296a29c43a5c6341b65c0415f6c2a69a29d3837a3fc47c8e717 (-0x365cba452857f3baad46fac27d1849e7ae1fa20ee4fa4b6b468a6e053b7ca887) 0x99e0924a747ed8010b76b3edb21634e8a87b60884062fc5098b7197f858b2042 0x2906238bbd074963b40abbd6158ed091fc5cab3b39ba2bd3152e574a3e82d23e, St 0x268aaa48b3e1feb0eec19b25df11f68a36f07de9adab93640741fd2d555ec26c (-0xff92b2dca65b0767ff2d00977ab744efc7b69bb6110de9aa55b041c1af8ab793) 0x5cd75a9a2db207a8e789fe7fbeae8e89f956e58c97931b84c20ccc03ee66bff 0x1207685f2e5097ce75bc7e327ba89df689ac42c56f61aaf45ab8b90ca9f389b8);
  (false, St 0xbdbf87edcf4704ee1bdc65450fe1b5a9a648346472d1bf2f76d3adcc4d3ed3e0 (-0x6582fff921432ed8acfd142a5233dc8987f113c879bf48b136fcc30d2244c7a3) 0x8ca45e01cdbb34c88a0e071ca8f05259b70ed4d38654afabcfc70fbf6fc009f4 0x62ca22b211d96959f243579d61173fd8b4ce5ca903f92e105a2c686375fbdb02, St 0x9c2480cd2a9663c17043652254616f8713de2294b868a1e054fc0de4ccc35bea (-0x11d82ab965b69e2e43ace33df6eb14ef7ec5e4aecc1bc960b8c7b3d71234eb117) 0x5f3c822ee5a59511f555ae3f0fa5bd060b1501a348dc96365083588f6b058f22 (-0xee46eb3012613f62a430ff984607ad20a12b2b0207ac04dcf2fae7f474fc2b7));
  (false, St 0xd434fcd66a051fff373888760678d5096cc5eaf269d9e25743538995b0e1e59b (-0x82b8d36eefa158f10124189ecc02ffc5916e8fe7be185e15553f6c9c81e40d10) 0xafe7cdbb8052311e0706a65eae3e80455630aa4b67337e79229ed2a7ab974a27 0x87a35f3319acb561a45c22b9006512a5ba4a38ffec22513cdb9a4f17d67ad7df, St 0xec61d15dca75ff24005b43d72100286da50762aa8fd650bf98aab77a92971b70 (-0x1a4f5ce586769e45cc8c2f3c8c053f62c615e8a4bb21f59904d2b459193fa0817) 0xda447f661bdbc22c5ffa62c99ed393b7b3e0784b51decd7c27896f3c3fea5e35 (-0x18b6773c0793dcf6d15331c6126061f068d3301b7edc7b412e9f04d23e5d2c47));
  (true, St 0x480ca9c9b90c1f61c581b5eebb5126053d0931a2cc992fffd6478b87d70ddb27 (-0x3595bf39319429b69ba10101b72129651be0757d24b506a586dfe371d69c0b53) 0x14472021e7e34031e01a7ecafc542813b0869971dbd5c58898c0756184dc81db 0x33cfa8176d2d0266a3a12f287d778cd86b11a7ba12b184334466c7ebb9a20a51, St 0x5deea9894c6030a1a575b0b135265b682b5db08d89b7b6eed00aefd67e176079 0x99c32799500bb60009d718d1bce1db34f3c7bf5ee9b70dc47ff65d593d26796c 0x227745ad8f85bc5721c85a5bd45762e347315d7f99d873c79f57b163eb90bed3 (-0x1b04a668d6f354e0debaaf969a1a9930538beeb2eebff9af4a7d7c1bbc341b5c));
  (false, St 0xeda22746bef0aae259ec06b9c0da3c42874391c75b93261119532b789f85d761 0x3e80527f9a1da0daf29f788963889c9bd6f7c799d95defdf47387f220bf0b66c 0xdc95a36f95af8a28682b44fd33bc850ce7badc1eac46bd90a6575eff88caa222 (-0xcbbdfa6eaaa81bc0c24a6e8af1aaf7b02ccb88e425d76ddddfc95a285234589), St 0x8cc52a1b7845e29b5fd5f07c1c12ec232789d559a2a5209aed3d75c18072fa42 0x8b4fb409cdb61ab660c8bf9b159f5f3e851063bb62c8bb1f6634acbe8f6448c5 0x4d683de82e28cfba1a4e6fdbce17e936a1621ff051f19125a444b3a3ac3782d7 0x12a41c7e33ba812931cbea14530b5c6da1b64ed0dd259acba6fa72a517470360);
  (true, St 0x8376efd291d558d1046ccd5711efa5af21cfccd0cde8dca55e7384c3afe199bc 0x187417fa123010218f2fd1a9ac0cb04e3413829c07416855e2bf7a5a8553321c 0x4382f0b3bb8c93c734306f1ffcd2198b035461b1833f2bb5bea8857c51bdbcaa (-0x1e11f2e1b5be47a40d9842ebeaa32783a2c5383f291409430eb5f219adce4185), St 0xd984b8d82abfe45ee65137ebde3f650bc0fb6a50fae76774404abfa8d5bff6e3 0xc9bc8cb4bdf875a4eb0a886a7bd65cce371c6a8493a2d391af59c58e50a21212 0xb8d2462e55af2136046d6196571bd98a158ccdce0bd0e65c4cccc92b6b31e1fe (-0x5a2a1f65dcff385a4b0cfd21950158ae5bf2da1c139d588b4e373d495c47bc4a));
  (false, St 0x25ed8bc8c04d47dd0122f7777b5613b6fab2ecc8a5c9b83b5fd302597ee4b44 0xe19ec037db02c33e20c6a6577cca5058efc2d1ad9ac299f9a6b13cb60e7825 0x59e86d42b3c8af20c6486122e3b1c7c29882511056998a13d3b560f2b364b 0x9ce82e3f8ee195ef1c9a15dbb949f9bb0670e2541f6e5eff9c1bde2676661c, St 0xdd462351f82cecc2d34e31c93fac7ef93d78cbbcdabec1f65ef06beedd47db95 0x835798edd63247d6317b79ecc07757ec563295fd2103fe476d4ac66ad14f7169 0xbf422c339b72f9a7fd5389d9e44fabb9469169e745b614df901657089a426aa6 (-0x437642cc11a0643aa806c89fb979b043f0f9527b6aa99045faea2a09ad21c674));
  (false, St 0xf8cb8e4c81bb359394a36bf4f0ac5a57249fa33ff3420867b09024e14529cea0 (-0x8c2e6d72884316ef1e34c37db18a727bfc5ba9adb1d67bc29bf2d8a674d3b00d) 0xf1cb05902994730d1829874050c2d32db76510b58abf7b483c011254c8bb0ff2 0x83b9326ab8dd858f440b9ac08bb3b35c71680ace92ef4cca31efbc120a9bfa53, St 0xa8bcad63c0a3e6943f8f80ba1d46ebc1a4f189e7f565ef117bbe02d4ec6a72d4 0x1e81d7a56544d433598eaaa8b4a6e9b912c4af3f2f7cbeb23d1011deedf890e8 0x6f382ea27c02373b5f52b3b127e0977736e21bc94a76e0d5b1dc680dd866e039 0x443f3fdca663c6f0f5ce368f79fd8854e5114d9f16c9e8e1088f1e50b8b0f07d);
  (true, St 0xf88b54f0212ebd4933f9cb3a5e1d33b752f56050b0d754aad99eebdaaecfe000 (-0x1f10995a09e3e9591be737c89d91858b66cdc250f1204e4a18a17f2165455afa) 0xf14e40678a8b4eeae3978239f42c9643a56ac613202450ab92ef4262a1ba78f8 0x385e7551b18b992385db7baf626375a9eac625c86583928c1f042491c79d098, St 0x5edb903ee239c4a1999b5f6e07fc357969d82b369477623966000d0c7bb6b58b 0x2562f30f415242e96592ebf6f95879049fd15b902fe554e4a18f482d5375b5f8 0x2325fa3e6e26436ebd664a6610317eeed56601b9c036864c98d62da89fc059fa (-0x5593e48dd3edd3cd9b44bee61cb29f6efd3c8207f908feadf9d292a4bdb5f25e));
  (true, St 0x235eb38c2585a6b1f2b3288a6e50613b1b3872dbf7b063230687fb34237bd596 0x1bfd80df993fe664f55adb1473a45f8ff2a7715ccf32f0330e84e6fd8fe7a5de 0x4e30820affe6b0db4f1af92b5056a219ef2d04671c53a13d3c519314dbe2d41 (-0x14e1e394bc24b9c8aa4b2ebbaab48e946c5c9c55f8ae6c1d2608d6af287407e), St 0x91021d96f457772a4d7635d1036bb553f39d9ce4a2ac170444033360efee20a5 (-0x2147bf14775dc81ac344ec993aa1d1a97f6d36a90022d775a50b89e7ce366b5bc) 0x52236589ccb5d84453b1a5b48cbaa22efc76cbd4b11fa65681f43931ef85f12a 0x1943526adcd9a8b525cc2b809c8303a7b48dea5ec06201b3b525a5715a2305e9);
  (true, St 0x6859b57c673d0ed3c59ee76d31ac9c7c625f25537d7a9d1db2f194e7f06b0ac9 0x3c8c5b530b742be6d8aeeb5ae20e46fc117a75b0e86caa648ad61425feeda3ca 0x2a8902e4ef938dd5a89b128efb4eccaa4b6ede9ebf165f98d0bb1cc2b4b6731b (-0x20abd806fa746292ae0f07a0a7345a194319f5cb6397c1df64da09c74bee299d), St 0x97cd861ef7771dd9da1b465915053fa8b858c14d400dd38132d9f281b0b5f5ba (-0x1c48fd732ccb393d42867ec31d7fb720850f2e000798d155ca3c058b1a04d865c) 0x5a041938f5cf62050c60e7e2aaf79c29ff87c73708d427fd667c407ebd7b196e (-0x4a001d9570cfaa52e9213a6f1748cb4371f196cf0a15a7e5c65eb0c7f84545e));
  (false, St 0x6ace2912ca4ddf46f0071e88bda1cccd076eae7ae6a15787f972e6b7fc476c7d 0x1fc971fe9654a1fff707587d0417bdb0de6c05f34feec65ca4cdfb0e85cc7778 0x2c8f6009dcec7871c9a4640e5ccf7be12b4ee0cb23351f85150b08f1f7cfb57c 0x6c5e19e02f235b5bfa85fa1a22f7465505687ba0a9ceb6758f4e750e13aafe3, St 0x7ea7a9924da619f835d727994ca35145d78c48281e0b65307c9bd434639cf1be 0x37b2551d902c91f3e75fd5c095a3285261530a369e98c30dc5eea94fc0a68668 0x3ea978baf04cc722dfc605b0fd893db3e77c8a383060f7910896749760a8b672 0x1fc4585b06b4056c0e577f6d4a60c2b21bd688dbf41f720f64c7732c0fbd2295);
  (true, St 0x2a7e8cd414e13e159df9b17b22e54f4949d776404bfccc8b6a8bf83322415af8 0x7f6a67fcb44ced35b980abd8c3dd3156fbe0a7f4592962b63f4d5e609e57a51 0x70dc4c48c24e165acdefd208ecd84930b238a4d4f7ace5954393e2f7723f54f (-0x1c978bba7c957f6241eaed8be70c6a1e8be6f78c41e736e2e012733ff6c5b2fd), St 0xa03ada3dfb35e977b5475a3f53c1ca1b8604eadaaeb864cbff6ebba0b8718509 (-0x2068172ab23cc3f3c1319146a7d1be7edb562f419758865e5186e66d2b0437b7) 0x64499e557c70757204d21335bd70c58322a09ade085c74509f7ab6adcc267b76 (-0x42bc7449174da9b185367b21ed4fabd86d235cdb32bce8c905053fc827df2c2d));
  (true, St 0xa5e8696db6edf7596a0c2a3be121d9db81c079dde2c2b9dcf80057ced82645f3 (-0xb6ffd47494cb1d23602096429b93ee3e3a7f8b0c5fd32d405bd0ddb31a700d4) 0x6b856ae71b9aea24c31c97c4ba95c3ecfefe038a0f1c7656245b2ee6372c265b 0x88054ce0ea56d2e0c322a5a63b9af6d3af0fc75ed1ccc2e9c0da1904468e6fab, St 0x81e594c566617074f163d4e28ada5e42a82ee7fc89e672554da2cae0c0973d19 (-0x1c6f91d9e69e9c0fc6ca34250f42c5d54d6aa628ec473e1117ee04e5b7efce4cc) 0x41e92dd2b2b56212e23ac331e8ee77efe33584a8b02afb5359f05dd447d0f6f8 0x5ad6bd88af6b440e5acaca4ce621f91290497ff3e91a6774662fbca0f3cf26b0);
  (true, St 0x28337e80bbf0e257d366783ae4871b4a251855e7817acaba7a404bd24611e49f 0x2131238a0d819ce6bc8bc3fc90203a66970b1af09d80acbfdc19330a742e8db 0x65021e3e6d944571b41fc1b43bf75237c61c8284b4299d4c160711fbdc91f3c (-0x5099a88a612d7dc2b6e9b4c3503606c0121ae8fac29bc5ca49a53dba3444392), St 0x3f7a875bd2998dc8c789854cbd87dbe60d19b1816ce5bee5299ceb581a342941 0x13b1b696bb896dd504826fbdbe68e6e0cd1bf0830c1dfb3c90c555ce17f5a83c 0xfbd89448c7bd075cc46fdc928774fd95255c440b9c235f9df9f67ec8411c30f (-0x231aac65d44e74d126b67a2b741058bffbe3707e25b0dc1b9b8cddcd3c510670));
  (false, St 0xa93ac5c1894433ecb3b20d896f1310ea04f5762c58313fa90af728838b378e3b 0x511cbf15bcbcb726d15a1ba079f7fc62111f52aaddeaef75a9384c1871ca5f41 0x6fdea6982b9055a1028edacc61d627d9e05aeb7147dbaf86058a9090b52545e8 (-0x45386672fbf1c630c1a654eb1f64043936d9e386435fb8e51065a8261ff32927), St 0x41a54b7074ca6f8478b67fde4eb0e9f18691efd56be086d0f27a055f39199d1b 0x4ccd4fdf748bd42d9170cc6dae6e295f8a4a957f84c8de0c9814a47827cf9f05 0x10d55b098155ca737a51ff627b27a987f68a38eb54d4959e1ca772e74aa88b1f (-0x203da410edabe94e1f85a18bbcbba84d6347382d755921f31e6541b837605a3e));
  (true, St 0x26e8eee4d77e755f8386eae90eaf0345aecaca5a1efd869ce1a766d14196c4d1 (-0x331ce6352ef04c913c95d31ed8ade8eca0a04ccbd67f183b418f09672eb3a45) 0x5e9faddd398682a96bd31e30dc9ab958f940a24d58803e6af102337c7204854 0x15e77c5fb2bdb2e797b47fa55bac80be3afcbdd286dea1fba71e06d35debc4d8, St 0xc2adf0e6ec4942a9a3ebf02c3a068e8da0c77c121e60a01417d95fc4c352c752 (-0xeaf402afa2a762bfbbf98325b58e55c0c30d356a9c572e134e2af7f9caf10d78) 0x940c174e0cf846b1795e5855dabb5324460db8977cab4b4d65dfacc41f8b64fb (-0x382bf2edbb2e7d93d4fd54d88c138c593e6cbfb07a5b6b92d1b4c6ee57e8ccc4));
  (false, St 0xb86ad6ed2b795fa2707a58c0ba6ec873812c49ec1dc12527d71aeea2bd442c1b 0x8de31b3688ca6e71775a5132c25c6d110e12e9cc4f3f0c9328f21799e9e8ebe9 0x84d9c18c24319bf0c58d85c818f17e4bc3eef7c2d131bd36fa005a69c1235b61 (-0x582396276624192b1cf456e01116cb5195b2973ed952deb51d7d197cd2bfd23), St 0xe5bc8a0861e74ecbb9716b12c04050023a5e5c7293b0cfa4132c1d40e1a5b48a 0x580601c56c7acb9f15b9e4b4582af91ccbdb9aceab592d941b8f99ba7a0b07d5 0xce2ad9ced40f8255dfbb9c0b6821d4b4915c384d7958894d65704710a20def39 (-0x3e0d9170bad1b6263e36d889d0f9d5545fbcc848167ca4291ba0bc2d05f144d5));
  (false, St 0x65d6f69cf4aa8e57a6759f0a300347696759ac43fa8a432964903673ee7cc2b6 (-0x18772417e9d5e38ea81b60d5ba7f2cc26d7b5ea1d27bd4c59656d91019e4c50b) 0x288353193d8cfb031c3043c32b6e335521ed4179c285c2fb55762ae5d7846a79 (-0x1cb5c73f54974e7226d8c638f7354946a5774c2850959237db6e15b590b18568), St 0x68e61d330d1b5b6b7e730bc5ac297b8e80e5e39d5d36de1344c5c62d8e630636 (-0x872e55fd8b97edccb686c1bc9a47b535b3a9a2e9e5c146ac2e6af4768a449bdc) 0x2afbc69220b22927fde3a48f66eff898808a984355907ea36cd08490fe67f263 0x35d9dd6b675244bc00f33814968ac7073391f9c262a36f576ac737ea8e02f87);
  (true, St 0x5679706dd219801f4615d725876890382434ac164d027ad4d6a788959a94a133 0x1b2724a21f67bb675e3826723f64eaf4670f2df5b9aeca1aa81daf18a09e236b 0x1d35d1255f8fd64849414307e2368a13eeb268ffac74966949d9eb5cb9de0319 (-0x3188769cd9ec010ff17cdaf2b79366b03d88e877e7f665b78110cec61de41fc9), St 0x745991a1e589d01c9b4fb5e8b26b1b5bb81b2b232a7e83dfbd8928d09bd14a62 (-0xc3a5b46c5c712487bde8e629e0eeff610ade800e78ed3d7a536389e5c7b9095c) 0x34e14b518250962690fb898ba825d1cddd055bae385beaf0db4cba2056871c3a (-0xb7d25ccd41310e9380d7a8a4e21b27537b9957761b86522af2c243637ce5bfa));
  (true, St 0x24773d1de893145caf76279f948894464fc5f6b399f81135dedaa6d7cfdf1577 (-0x5d63964191e2dcba4effc77d370344b7f5b6f538d439407f2f69e37f38cba53) 0x531c0ba4f009b85e5a4e7cfc0841a640224702b121ea1706733ab54545719e1 0x1eef6f40fcb8d77607ad53bc3a32b200f6c20f2d388cbeb6eff100d78c1cf989, St 0xef96a8ca293504044ae20279a08ae11251adb48964bb2e10f0deb58ab76f85ca (-0x17a08f52e583b74d81b6615e9ef3e582d24010a14bab5885b0247ae96ab6d9bef) 0xe03aa7d4955de52f118efe27563b9f69560e33673879a50f9bc7c55b71953524 0x8663811a9ac8c37e5419950c8f2f2b74e4bd7d7eed92002f13cbc4e81ce7b7ab);
  (false, St 0x4fe103b5de18fb53d4c343bd5e3a19d77a17981479260c4ba36e181f4a8083ca 0xa2c649649ed50e050628f2c78d441111462e0cf28b18d21c05d5a89566fb8c5 0x18eca611ddbe3d81b164cc58b1da53abb68dfca196728930e604e79dda03dee1 0x96a8e84778c9e110fd02c922afe5c2856358ed07801590b606714e79919c1fc, St 0xf12dc39b05055d1e33632d350442a421b544c5e020d03cc90fd035e387fe36f6 0xd8596286ff9252101c8a8f66c7c721b63ab802c44ebcc399cc7e67930ffe6909 0xe33732791ca09733133c2b50f14ae5cdb2969929f7576d5f90efee4f1acfa5fa (-0xce4950f959591789928bb30af22a1372dcc3e12c8feebca10b443dd0b5bdbf79));
  (false, St 0xa4ad15b73f7cc709113bd6703de71a715a23c16d9630634ef7b14ae2f9dc5620 (-0xa04391ddd4c88b809b2f80de986947469b4fd2fc8a3b6fbc93fce69d52dab509) 0x69ee38d98ec97a1811fbe9707cf470d4085cdde235fdcad9c5547e38b39d1e81 0x1be84e15a38143c1bb7d0ac978eb52598082ce31f58c391793adcb1dab95e7ba, St 0x4d91c5c62ba5fa2443c8d61e48fa0aaadda8831f094f46f08de35a0fd867f9b (-0x2d5d4c600bb8d55296740d9bbcb68cf9cec330c2d5f5dfd23d1368d7e8e11623f) 0x178103faf10ae70f06916b7565e11f948999d3efa1ef234fe1d4503fa34a61 0x3632f122b4731d635fcdccaf354c42a9f9be84cfad196cfd9f5966a55cb07f9);
  (false, St 0xc75ef83b9f59abc274a17a1b55b054014adaa42ddcb3cd9c5ad9f98669d9dcdc 0x69843c172e5980e92ac237e8ea7c4f07501f697d39f70a8a0dbbafda585399f1 0x9b44c928897ecaaaf5a9244da3cbb1d311f19a53da319a3b2c3b3ec565b2afd0 0x10644a5c8d3cbb8de33a139e5c872a4c0bc77a9ee221c5f8ff2e5ca93b3de221, St 0xaa4fe4e1794746eb218506fda38cc2fbb7e344ae1a68143647a7d1233544d966 0x5218a5ccfa09818e968675c1036c4fd7bca314a52d177e46c0025f1262c6fced 0x714e34eaf62c1fb5f1933a16b934da149bb2f7ee21f6dc4646ded7a59971c9e0 (-0x231a24c36afaa9ec5869c1f67bc78d5b4fb32926c7378dcb1d2ad44c278e6703));
  (true, St 0x79c344bc33ba583ab323ed68db71bed9a073d8f677882174dcc2b7b15590471f (-0x231b5d8b77774bdea624e9283bd5fcfb63a6ad93891528ccbcc95bb2264b711c) 0x39ea2bebebfba70c9bdae6776708851f21829fdf51161e4f933ed7aafeb5c0f1 0xe071f95f522b9779c0d0debe20edaf2624dbfb9c9d92a8624b2ae0bf2b8ed3a, St 0xe0c3c3bbcb4ce7cc8d82de1c3cfdab40e69b247e5c42db1ad2762d060ee1b0c0 0xa51ac668a610b2db647f5927f019d79464fc6fde73344b837bf402520c4359ad 0xc5572c3d2edd1a854fb9db7ce1f1761045445dc5a45e7eafea5173a8208a817a (-0x4a8a5a491ddf213884955077d8b19cdda4f7cd7a1d93c6c74693db5ea69b1d69));
  (true, St 0xe3543007f25df75dd5a38c188aacc97ebe2cfea1222712479bf1c27403bc190 0x24095cb93918f7338ea2431c54d901bb10cc4a51615bd2ad61a7c1ad083c277 0xc9de68de6feb165ac7dd6cade29344bf2fa120f16420b188b4943cb53ce8f3 (-0x187f7789afe08baaac0f6b37d07bbd8039b7fa79da8f9c6e9ddcb7d0cd58412), St 0x14eaade837465ec0ced72112f3566ee4a66752d0e7203c6b92474fcb4d8cd38e (-0xc4573e3a3b76e1f2cd6967dae568cbcd5ee476ac415adef71e56c9abb68b052b) 0x1b5824ead013b1b5ba31c54914f82c4a93d73a7d2cbd3066d6c060c249562c5 (-0x9b1d9a6b359851ebd2045b768bdc18828776096fa55d908f555f8fc65afa154));
  (false, St 0x45ec8afdbd38c3eb0d4a29c088919e16f6082cf8596e69d0e751dbb1d5bc573b 0x23f557da6a4c8c2c38d4e601f99bb026461117cf63cccef2436b18310c4dc9ef 0x13195d7d6a656344072007d0f9544a34abc4dcbce1962ab05a02946ebe4c36d2 0xc987c29f07fc4ebfa1ad226a9eb0342204eee1d1e2cf032c08eabe58b60c56a, St 0xc3da72ff20c234f73071a900b2e270a8232372be01c118ddf09390e573bfb1fb 0x3e3e7b85e83ce3f17ff294826dd9f04f088fbc38b09939ae82b1e9e958dbb06c 0x95d685994fea647ac12254163198107a82bab90b0bffaf48bd77d6273eed63ee 0x5665af812d6f397f814f15db9faafa1b5a6752a1d5a3220cb12ef7448cc618cb);
  (true, St 0xea3f212adb5f12f82bf8b6f1fb3d10b2575be279922c28e7bd070938437c21f3 0x3d235a3763c5889a07e5bc3e902739254462dc921e7484127bad9df674528193 0xd657783486c55367f10830981242944e8da9bf26db1fc01d41b59eeb67136ee4 (-0x72c641abb19a61a3e87cd9a1ffb2a78944a64fd9068266158e2baa78a829741e), St 0xf39971ed97ee6b5a9561bf9b6dbaf4f8545f8d32e371f73f57fba45aee058309 0x11ba3691d6248e7117a59adbb3ccfe744107bd0d634cb2e5b8fd72a6190f5b948 0xe7ccaa4356ee81afdd63d64e285f52857aeeb4c1f362d2ea2f147e417f1ee0c0 (-0x5b9550cb4cd978fd7d6bd0c3601477e0c9f4e8f4d9ebf8cd51fff60f1259b524));
  (true, St 0x7a05178afd344e92bf50dae21c388c2ded6399b7dd0fb2fc38cfd9f1810da7d6 0x11ef5f95bcd34eaddb9153db16c6f0d96e4478e89d59fbd6641fd595d8c69dbd 0x3a28da8aa116de6eb3f61040fefc18ac05740e4b2f908bdeb3a795e1f2c53673 (-0x1b2dc978bbc5be4e7492a7fc64dc5ec13656279b799ed9de624d0e7cd961aba1), St 0xda46954e0118efc785e49ec2d4925c9a4a5b731492b86ca36e78c5abbd11bed4 (-0x266ffc4af1bbc9436c856b44a5ff01eef567162bac51ca19eb80388d476abe58) 0xba1c49bf91b740cd7b132237ab1bfcf51e20426e6a10e74a77633b786b5738fa 0x13c5a4c72b914ca0348b4bc7fa57c99bc41194201eb9a98dd872eb7fbc888260);
  (false, St 0xeb3fac535c4fa3967bef368d520942de7bec440b82fc750da74f8c561267d24d (-0x2721922219772a9acfead22719a911385e3273aed4a48c74dbee603b63020375) 0xd82df63828afbaf01cdb9314993fe678d7405531ad540291ec412a3a40cd6e9b 0xa7cb8e27dca1d53de2c8e2b69ab9428f7e9fb7992a56ca73e694d37c432ea89a, St 0xb5771cb007bbc2d3acce2af036440c6d5c584b63492c6035da002317a3c22c8a (-0x45963f1d445c2fb665ad07da95a269bc9c4af9d69ceb1fde5e5bcfee180ff538) 0x80a1a5fd1a6f52c6c1f9dc65bd700919557b6e0281a05984ac39d6f639a8a520 0x78775b5e7303d81189454328b24516ab252182186d96bd4f7e8457c9beebc7ab);
  (true, St 0x2e40c51146d263c762b02cb112abdfba0db94986b613705149010eb2bcab225c (-0x24919f079b5ddd9586bad633e5394729a1d4f386136b235944d4ea2ef068f09) 0x85b57355e25f46d2a0d1f34eb4ece787b999daf8310c4ca0d6ca120d4beba5b (-0x1bf010732ba4e130e304f38e20018eeb68bae8eb3776a1db9d043533d620f1b5), St 0x8523685cc7cb0ec24b65784da18ee3543efa27470d7bc61e52eeedd6cb2f7b7e 0xe4075eb81408a4e1012c55f1e7d8691c5c19604a6e81ccb9f1e7fc98303ec388 0x453dcf5660c0f22738d8fa7b84136057268d30de13c8e23b565ee0234aac6161 (-0xbc0c0e51ac5e3c683e0db482230aa317878427c462baf2c97b7116c823ea567));
  (false, St 0xb0f316e6ec7684f91adbc3e1bf50d9af0d1df2799bc28e0aba79431817d0f614 (-0x6401263dcfd50ab62311e41bac03bde3109fa354c108c6dc09484da1c47014c5) 0x7a4f26527be3871b15a807990c2f6faa46c363e68f1959a8b3b53f6c0f569685 0x1af5ed2b4482c827f8f8d9025cd0d98054ef7b4fd2f60b67c403d57bd37a2816, St 0x926157afa99b59439515c61b8c19af0c1aa873b39410b0171c6133cccb14b487 (-0xcbaf3f19784ba07afbf2434f91c83b1884d910c9732c654efb8c5dec6c5b5fd7) 0x53b32d08424fc463934edbadefe578bc9a8f45dd1ace59077fc71c3480c54a26 (-0xa053bcdf5cc973584d54767e3b939348c6229ad814d1cfd8a164f3a0ac13d7a));
  (true, St 0xad1bb98ce67c92896605f91744006eb97e08c1ee4abbd2f4052561818c71c33f (-0x2639b9ca33b430524384d94ac49c916668489e21a93128239632fd9809aee9f4) 0x750e7bc98ec86acaaa2876967d0b9ec12ac355a3c4308e5fc251f57594c20ee7 0x53c70ff5e53c8e63f4dc1406f3a2b4d4044205cb28d574fbc8c1f14607d09231, St 0x987f21b93a9995a3c7282e06930eaad153fc5c77c09bf39ae8ea469b69e64b9a 0x6921fccba3724fe4ba6bab05eb14f3e615840d68808e71b90558bd27aa55e29 0x5ad7372ecaa70464bcc791bc0ab269a5acc0e2a7b01521a0492043f0ed2709ff 0x1186968cfd6d83f51af9d2b04b13460c842d335dfaaa64bb43fc4c975e8ee387);
  (true, St 0x204320cd8cb1d1ebb2965bbe68adc524d07620b9b14dce6920b5ced6391fffd 0x4c8242fd752984beca5d0342bbf966786e5436f96443d3e425b2f856c1026b 0x410d9cd9708fb9377954ca8db853150df23120e2bdee1eeb810d86baaac0d (-0x8e4a46a822050277e3508d53996bc65d10b2fa37a530a49e10e9345f182f50), St 0xa32033f532e678d6c32b0e8d1d947a9da078496a164cf4b00e033abc2242655a 0xa32e6c675fdce0342a4d59483a3f8dff75cc21301a046d7a1d2ffa9d71f5ac5c 0x67f20637ae9bdad9444b2772e40567f14c137175f2ec5a9141f5efe4345a1f26 0x1a01f5635007ec10ae3914a560d976705c05dd8eb16a73998715a547651b70a2);
  (true, St 0xab9ff2af23fc2733ca7217bff4013f7aa73d3aa776c62bc3eff4271bdbab8e55 (-0x313bd0e5926dcb930a7c68fa046ceb3d6675cf006bde5c1306c56c47c29891ba) 0x730f1225c8c039982a657b8a2c45fd54f8cba70d8a09ad30d99173d47c988e75 0x138c7ccf5ef8f3c18e9218494c0e6b478bb87a7ff227669fce60414539b77f2d, St 0x67192d1973b9c811bbcde1b6dab73b608e948e19a554c56c761404d57493d001 (-0x2cc6f6ddff41b4700ea7222a8da88f5b46feca53d0946c85e099b894fe73cdd9) 0x298544c47b8f5342c99028654bff7c559f451bd0f4eed68638587149c9cfbf49 0x117adb370dd1dab37ffab1ed8d3eb394e29f7981bb5fd36aa527ebb0457f38f5);
  (true, St 0x8d4162ae6e64b5e619bc41c147a24c2957da65ac20f6d2693f5411fceb4a15f (-0x3061a096ca25ae466aec2af1f8ec0ace9497650e70c7495739081495a521166) 0x4df11767b62a1a4a9b31995aab7917c1d96314e4644dca24e2e6e34ce6ab8e 0x9ef912d9b908704dbffb76f66063196181a94775c7ee30231e72d7d713c068, St 0xe17a7492dc551b12b1206988fc763179bd828730cf310c46b8e494d35879e623 0x1259c70933b4dc58fabe6c1f884fed09624e2f491361654a50fac08de95c06581 0xc6987b7e3ef5821f50c707b2fa7cb5e1a4c6e0e9804cdbcd2313010ff3fa1e0d (-0x75af54ec495b5617babdd22b327715a3dcb9f96ef7e3b479599df4fd19af8d14));
  (true, St 0xd39106c65d309f57ca6b1c447565acc91938c66d2f717312cefb73c0adc5450a 0x34d778224eb82ce154acd1a69c494dc1cf645a14f4aa97246d2f4a4383581cc3 0xaed86354595a0125743c720c0a23de8ec799a5a02cb9cc3323354873d0e9b0d2 (-0x46e5670d1e0a8c46eea57378e6e55c4f379b61d41ee58e89f8950dfeff668646), St 0x7d54cb10c4022db798adf6f49cf4978949007400a3c9f99fb4639da4d52b2aa2 (-0xe6f4d83d0e1d1b96b4580ebc80d1c3c912d1def2f239f04cc973ce119c3ac737) 0x3d5bea6480da446c19eea879671be4439037588bac442588fb7f8291e4e2c948 (-0x81d0279d5af5047ecbd510f7c97eedb2e915f699ce3ca2b87103b98b5bedca1));
  (false, St 0x7020bbae4c0fb85f383c22d64f02bd62db68083e7fcce42c9077132575a4b508 (-0x24f5eff2f6bc84de1847c2fef3d3186f7612e290857a0a841d2608b263b3aac) 0x311ca86828d58773d40ea097dbe90247d80b4e9a5bd564d8dc3ead6157f4a988 0x6423fc1cf3ff38893da82651603d5dae336eba8f8bc86dc831bc8ae023e060, St 0xe66b93f360bfc6e80286485a224ea9c2b1e5dfc4266df79dedccd3d9d383ab2b (-0x9759de9f85f804840225c1b1ab21e0650ba134e17808b6feb5a6fe0f5a8e7d9a) 0xcf657b0f24325d448e5abcab47cf7585cdb97db761630974a437fc6ce50d3ffd 0x30c2f687d28879cda8677cd4a796593f02659505662ac90adf0b7f302ca5071e);
  (false, St 0xd1fc30ce30d1cf11de9dd3dfd7065b02ae2b40ca58049353db41e552c9b447f2 0x2bb45c10d3aafa763fea8e8262714a47d02e422e6b646f084da821602340251d 0xac3dc021773269acec3ff20ffe70becb8385840b8b627818bb5ce9e3a22605c4 0x6c0aef5735f38882474c5dba1b36eb993fb00823cdaa664eaaed04aa64db337, St 0xa48489477222f0ccaf8cb244899d93665cac942b197778d5d73712216452c848 (-0x96e2f3bb803baaf08230b0f91a38ec9989769ceb43cbb8b916a72e4bf648afb3) 0x69ba1481cf421929e1891ad0d5576b458ce97faeb5b82764a9bd14aaea29d542 (-0x4c0205af68cb826cb445fa6095c5bf9e0a324ac049be986755a44d357e800cac));
  (true, St 0x2a8c587113e7bca4ec662d7d72166d6e2e64ac8948a65ab6c5a2d78ea8845ce6 (-0x150695cf44462f0154bbe8588f2a6575fe1eea2d9cd53889519a89a7e8324b21) 0x71259f5fbd618f44c89f992a48edcd8da2352d4a3952ab36715c0f02728435c 0x167a78c1df115902cbee514c2ef82e3b7c8e3929352ec61347f70c9464fd6a02, St 0xc3e1b0fccc5772c4ef296a48c4c82b9e74dca6a20ba141a236523d745e4ec1a4 0x34f73db16af86a62cba2356a4eae3a3639f4539d200fe04115c75396cb682e70 0x95e19a9a4bea97c4a5a2b53ae790d1a72b261e31cbf6cfdf5067d3ddfd57d9d4 0x135c49d68895a986bfd2b3f93e909999120a6f99917e95d5cd9953cb9ac9bacb);
  (false, St 0x7041c8d4e460eeb286abca59aef12665e811750d90a8f40710e579a2dbe4f1dc (-0x74336887b70e0564eba7df8079e4c6f05f27d9ffd92a6684cd3ffda92ff0c1e) 0x3139a0a212b7c099cf3bec40542cb9c63803f2927955cca6a6c6a6156f0cc4c0 0x1b69e9b66717ac771a7583eae678bb4078676802a19e0e578dd27ef8d7e1a522, St 0x27cf9ad5a0e22c0fb0bd94850a11cf28318e131c7c48f0d79d7e80a3364511b1 (-0x3c8547a30952418f3b8e087483ce6e408a329f8bd3c2f7e9e86a3137d2995d14) 0x630e988e055b88e1dda1681981bb776ce00891909b5d4c64ff94b9f0c9576d8 (-0x15dfd8c645cac65064247d95ccb8fd8422512870353a6a3af1a256314bc09a31));
  (false, St 0x7d46e82729de3a7f754262eb0f4dd0e331b50a5729eac51b59dbb7a5471f9bc5 (-0x636d74f3216575b9d1a8804ea48d6a6a22ca94aeed8996e57cd12c6f6637f85d) 0x3d4e525a44233ee30fa1a874d47d98e410f33a8492e4de8a4c8229bb86982105 0x4f1a391fd497c1ffcd807e9763dce45bebbbf13c5cc9e585ea44fb8b55692fe6, St 0xc9ddabbadc336b59e300fd480df4176770da16c3788d25ae7c13edf4580d05d (-0x2ce8e2133bc10a3c56ab1fd84ab3fc25ec266e6e7c2418881901239dc80c3e036) 0x9f2dd79e00c9f1894ad016135f24411e807fded5ba18b3b5968f3723154f5a 0x160ef70c3381c5f6ea9a868293c23cac25df89c240d412729145507e85a8737);
  (true, St 0x16e02a096bcf45a54e81402f06cf1fccc23676fd874df2bf81333067552f402f (-0xbf1c819549614b1c5dcac8bd7133bbdeb23a673a64eae9cbc30c1f5a32809e5) 0x20b4b8337f6adee45870b0f47155a575d4a395ed738ea3908be2e2c5ba0c945 0x103a6b9848909d2f7185d32e79d354c187832c077ca8abab107d9839d907cff3, St 0x51611d6120aa641822a93c8e1d828b699b0093e5f9726dd35648d252b41b334b 0x7455af3f259012050d63554da96d613c4e87a562625853db5cf6848d3764209 0x19de996ed78454263dd773dcf4856481d12af1b7cd0dcb8a905a351b649c4ee0 0x10a5151798709bc9a3811602fa082b256f58b90264e1fd5e422b6bee1e1a4cb);
  (false, St 0x10d937059f209e5939afe3e92b92f0004141fc2eeff8901010dcf4512d976613 0x2f090a2f9e0e3262626cb5152203f17fc4969a2f9ffdc6cf310cd1ea449bfdd 0x11bdf2f085b22c63ff31b65610c78f1c5993c19e696a038dc81a7f6821d6495 (-0x3efe5d05c61f7ab5252c5f0240e45f370d0f5a23b91a20386d3a1e084c238bc), St 0x6956404224f8b47b803b643644389625ee97229920a39e98265b799c730a907a 0x35bfe20cc08d11da6bf08614a56bea0aa4ede779716bbb892197c28b1e3b5b64 0x2b57ddc5aa3ddc7f80e293026a62d4f3cb8312a8fb3fcccba2079016389a8580 (-0x3efcaf91a5bff9b96714d6db9b63847c05430ccb003b721e0973495b766901c));
  (true, St 0x4364777fa84cfbae8a5befe6a1842d57c2840a572e702d0151b1349732f1631c 0xd3abbbd19655c90a51c9a2eff8d42865f41915dd050dba5f666b74f03e73f15 0x11bdbdfa775973fc5f670ab249b1f27837159025439a7b7afac33f0381d1702d (-0x2bb76eb2a6057c58e7fd9a95951384dbf40db4ea05e590447f3fe871d27f9708), St 0x770c6ad370588059b65bf396b81a91d6161510c161267977493b64fc5fb0a798 (-0x58081da0d6b2337c4b0aee8e0dee40c1cc4e38a8a1b822deee1ddf886f74ad17) 0x375c8beafa352335e0469a2d9a3f721b8546f8d4743cdd242f62862e33c14d64 (-0xf619f2baf0334f0dcff441b3536eb79fcddda60208d46260629a917856b0821));
  (true, St 0xb674319d15d46426411c6181a8632a7d1372b157c6e7ae7158b52e73e22dd6c4 (-0x3af72001dc6fd2d80e5fdf6a95cc1b51a0bf469aeeba7c64e76070ed722065f6) 0x82096b48dd0cb4e898f8aa797c3532ee11ac0f55085a4ed89c2dfbbf8456c022 0x46b22dd1d152b1cfe9c8d9e50ac0586088590903e6855acd0f24973517a85c68, St 0x5ae798609cf68b6a3ce5052c80a81b25b89e14746291d133e2c7c4d653278a81 (-0xbae8234a4de2224d32f99af332be88e81389fa85562bb7a5c5f6605334e65351) 0x2047a8a867b3267972aa8a1b03f730ec91970a0cb7c2cfc1dbd1151e5ad449c8 0x68d639dc6a807b8903e3789c09096aba3f3cae30f5a20d421b09b76a4d9d43e);
  (true, St 0xa6f2baca6f0fa2bc8cf2ba06ba1b647da3519542ef384332b08f2ece3b7a4784 (-0x14cb73bb5b81674a0a0254a77efbbf3f1734fce8ccf39b19d78684154ff5de9) 0x6cdfb064a3ecba7697a7acad82f3dc67819d9a85317033083bf0ef9e04c8d0fb (-0x17a0c093edfe81ee177859353407b38ce74b2497eda1fcc368a4ee28e085b01), St 0xb0a6032c97a0097ca25f57fecaf77607c82e2abc1b63aa27b18642e42bfd52a6 0xb3a3eb7030c83ef5d35e05bce2a4765db6d13ddb7240e99b1a4a080774f9a948 0x79e4b005e83f73ef544ace70d2167f25ce6f23401d1230eceeb6426edd4c54e4 (-0x223eaedaa4bb022d327f8c122c874aead59c18e349c08b1f9124548ce2ff964));
  (true, St 0x51699fccf2cd181a89b0f8358977f9905453c6550d31aa6024e52b1d89ac8e25 (-0x5e1589bc18b972e6cc487233c58de664718955e5fa24b2f554708452189435) 0x19e402b4456931e15d83e6a1a4799272a21f397260e808ae5d7b590c32ba4d50 (-0x172f50e851db2874f9abba4fad577ec4d8c5b8ebb9aa0dc483bd70d8a7b25ac0), St 0xe30075717bbae758edfc6e935b96c93d69064df204b6440f5d4548cf9a3e6940 0x13d8040ecfac2133579ff7b14f832962a2a3912d454005f9a0861fc58527029 0xc949d048409833f67ba0b896d85e3ec64689cd5d948155ca43598cf394d02652 (-0x1193a6cae699b5de5785092f1f495b40ec76b608e7092775de7045a2238b3954));
  (true, St 0x639ac8f1a794e9098f17371db02bc26bf2e60150fa6991772bf5e66c575301a9 (-0x151a536ea515dffc2f4ea33672e9992745a86fe5847b9d291bc61325ce2d8e4f) 0x26c115016ed65a5cac72b426f34a738dd8e042a179c614f077daa4e3aacabae5 0x3c626a2a2b47b82acb571659a9da37a6d483090e9f56379c481f1b77695bdf4f, St 0xaeb1d5ba0a3da9a089ac8ea713be9fd40c8bca4f0493c66a99611bed60f61839 0xe3991d29989380fc2ba0622ff56f984f434b44740d127fef8e692d5aeeb34f1 0x77363a129ad3522a6d0a8d1c39e16d463754b8bb77fcbe1b4a6b8cf3e0d04d58 0x56dee2691fc89e13965420d0210c7736c30c94304582a1d35c9b723db764818d);
  (true, St 0x33620925d666d39870de1c89b205f41e18c720fbe213dc9c86fb81b626e367bc (-0x5497fa52f34a53a46bffcbaaf36f1b656495660561a673c52c5d6dad232bd92) 0xa5035301f0902e3ba91ac30b92b30fb14524c5d264db15a18cdd0ff7dce56e5 (-0x1fac35aac0bf39e4d0021cfeec085767b32009ecced456f4189eb9490bf5d26b), St 0xb702c71584a7ec4b54a53bb3dd5bf96ea23b7f38ab79e7149f99ee10abe3264c 0x2d1e56008ad41a994e6f2b8d2af902094c6bf617dd6df9590dc013538a2d56e8 0x82d4f8a8fda59527f8a9a637a9e84223cd9e3dae9af2347793b74bffd1adcab3 (-0xaed26960c06e0f46c2cc2780a796ec5f5fb674acf5bca1f40a1cb7a8858e9480));
  (true, St 0x44444cba1e94ccf395286fa075ee100abc82cf170ddd81189f720b32306b58a3 0x101b989aa0efd80444d2d952b4ab15f2dcac80f66d06c30c078afbd62c2365e8 0x12345afbcc52b062d054b73b059faf6ec75a3129c46283414deafbcf65c67154 0x1061206d362840efd2c044fcddee0ac461855d6ca9a19e5bee95e04ddae61852, St 0x5bfaf218ab44537406dcd31c31be734beead703a696ca8b35b1d5e1a58503773 (-0x294f31e29a5fb115d9a9dc1b8b7ef766dffe345a0f6edf4ddf7e0d604b7ebe584) 0x210c5e1b67f019107f8d7ccbb097ed62fd5aa400aae31e6f7ce7e726d7483573 0x60ba29c6c2c6f2ee5d6287e4a2985bcd4dbbbeb9f1375453eda82224f0df189);
  (true, St 0xca25a32b56de8fb6812df86ecef28eefed0313a9c210b7eb6a60e48dc73dc94f 0x52e9a545364db35ed8b7b8b9874c566ccfc88f812ecf8885c408c14bf1144257 0x9f9f6b09973dfa203d7d6c4b74acf3b02f66bbd6870e211505377545478f6c5a (-0x4e70be35f2ba153e59ccb42879d79db0188561f7387581241653715918e06bbc), St 0x9868508722205a3116c3202fc8bd6c5c2f71f5f7c973d0ab7a4a3abd5e3fb5f9 (-0x189de8307d1f675308bde1f6118a6e12d832e72c39df7072e55c8d8d2d9ed70c7) 0x5abc0a225a62ec2ecd9b80db046e81dd7e3152675b330e52be684f0b425c219b 0x22b590353a34a7c45cf904671a4330c4137c5590451b08ac77b1610254fd955c);
  (false, St 0xd753c0aff10bfed43a398347c1583a021d0baf6e1bf078f3f33cebef84997299 (-0x2c4650ae688bd338ef84131ba6f8fd2d0227870fdb05da39658e6a2515fbf513) 0xb51dc90ebf1e9f5b310785f37246b2f5183ec76d634ab2f63ad99409431ae6f0 0xa0b9c3616ec4bfa13b22e46b6a48a8b9739a0d8194d71be43fa33324da139cb, St 0x27d1972453a2ea02f3e671228ac29db935361ea5ba296e3b152cc540f873d392 (-0x26f19d57afeb1e85a535697c9593376a67621f41a9877c4505eb5c743115c9d08) 0x63187a53a399ac6045edfd768e7373b8c7294f82fd45a60a11129dc407fe332 0xd9721171aa1ac790466f80dcf4bda5385eac0226a327c73656fa1f1301fd858);
  (true, St 0x9583da731e7ece565d5e6382912c85b5852f71b35929046344354370d906acd7 0x2c0e2216ff8141e5c75a1e472ec6fda79e44a621da4f73113871686e7654e890 0x5752c033a50bd5df63c6f3e438d66f6c8fc457fd0c4328ceec1a24bdfef22468 0xff8ccace6be929c83db58578c6c2c64967e31d3d6098b4d7842526eca963274, St 0x360f0aa45f67aa8eab22599e5b1ed69187eea7367f32dcb0da0e3f323963480b (-0x20ef41849b6bfa4910f7a3fcaf69c5fbd431f4c7485b29872076be0c823478e7f) 0xb6a595fa35e84783e927da870a9da49755b1d5090827ec31bf2e83e4dae5db3 (-0xe62a8bc5c2ecc57e882a8425b07de96b008ed7059f01e735fb55fa6bb850d1));
  (false, St 0x9f47e8cdfa7a5bfc5177ad7555d3e90da14fcfa228392f23b9b0f4eda2551d5d 0x4298d28a04c13c8706f84815e0c5c847d408bbd7dee8b6ec8c195953c465d13f 0x631a67633635513e2a069f9cec3d5e5a9446e0083adeba913bf60424963b7d3c 0x44f8291698dea31b5bf143decb0ebac3bc5c2ba6762ab6e2fb96c43ec07af3d7, St 0x3fe64720b3f8f68f537aa42bb90a2069fe5958c7f4a538e678f7965bf5003c48 (-0x7d651ef0c22ac02a9c8bef699bb6f0e0432c057135a6e324c8af749d4d41c128) 0xff326260b0e3add2542b0f195783fae0598552feb119baa21918df16afd5403 0x6dddf4521e8d73cfb4bdb883f8ebf9719690001f788bebc6659be684ef0d4e5);
  (true, St 0x2abbbc62adea45c733b330c81c4b4f558af6a289d0e5c46405fe0c59c14b3555 (-0xde95d83dd95f95cef73ae55e76cd6efd083e8de29ec1961c149f5a178323de2) 0x722237d2afe2c1e25d8d5918c63a8a94caf42774310f72fd4bb8a7a9a70433b (-0x7f6869a63a743fff30653cb8fa42254db2f62e3384141719cdd341585b626f0), St 0x20444a8c00430c9a2c447ceee87152328318514338ff20dcf0faf9676b1650bd 0x1c22fe2dfda978adaced547a5f0b95267655458ad40a24fefce4d44fe8653133 0x41124dab4374856f9bdc2e1fb030bd4272a1b079de6b8f5a9890aec97d065ac (-0x812875f8a5123452d31a60a53d63dcdf41c01fce5f9f33170b5613f2743437d));
  (true, St 0xb758ed1ae52ee7f0e61a00f37a98866b6d78d47885efcd21506b751178f9cf1e (-0x2ffbd287c678b7753a2d3269c58f9259c64c311a553b6ddaacdcf154699eecaf) 0x835041e0d511b0e66480e8ca5b866c606562985b319e7355714bbf1fad6dfdd8 0x3dd860bfc9e57fc09dc3c5851d99d6b03be46de7029b9328dcf175492dcaa857, St 0xf5800526cddf0b67016ebbff7c0819fc4cd06f953fb4bf2ecd1be4f01fb70ba4 0x94eda1a3f8a77c52954bf07ab31a305c4350a6fcaf116c23ec8b6883553175f8 0xeb6e49e258639eac76ed1a97b7e6ac07aabd42b12cbf0f0f851e32a1e33dcd61 0x89ff841417360a4d854c36ac89985c3c474d6c556df3e7e430886c74236160a);
  (true, St 0x1219f617755af7a87327cf15985e105f59f1b7dd4c280dd995e009eafd399783 0xbb8a362676010a18f1447adcc387eb42a638e8a20b16941a4ae8c772e7abfd 0x147a93d4aee778678db6976e8007da8b4e634f7dba5724d00ee0646cb42ba10 (-0x2c2370df4113c2162cfd3c5e12c6eccf87b2d1744da9e21852a7b288f50c5cb), St 0x4277a3a2384569a1a22e618e4b9868959e7ea968fbc5bb352c4990dec620c9fd 0x404f9fccb3e2215002348458c2bf47fbdba118436075fed75a914af76c1c0ea6 0x1141e8493fadfdbc630cbd005b3dfe0463fa6818ba6af7c1e7bb15d2bbfb3d59 (-0x1abb5daada3d4c1f39ecff3752971ee87ae7d73fbb0446b72cb739a81ab519af));
  (true, St 0xf95937e84f8171788d1e5870ded17a09227d1822279e301c0a06249ee8cb76f5 0x485fb577547831ffbaf45eac8bf1f933a5621afe7d6d545119052b6d7ac07f5d 0xf2deaddac945699110ce7f7a1d5ae7cbb9b1b197c67500e79c97532a8b5e0426 0x2dbbfc487bcec633b5b60f34ae4bc8d80957631f1fbe58bd51223cfb3d7e02d2, St 0x79d8792af870b895e1a9b8d6f7710f993cbac4e321467fb64bf2e1dcceef970 (-0x137eb3ff5af21e64907e9ad97372d2c77860ca34e0a142dd1e220614c2b088ef3) 0x39fe59978ab5cc5d818b89ae016220126b631fe42c2b5b603cb009ababcc4a (-0xfeffbec374076183aeb41a093afa65c43f5006ea1b32b7c9aad0f31ce473dd));
  (false, St 0x3655342a5a4e438b46c8ec0af76c1f244434c303f5cefc69c56ac8db1ed1059 0x20d7a8de7e8c34c528d26aee73ad0de511374504a65e711a6adc6fcf5b98ce0 0xb880e5d98624686b62ddb0a7fbe02cb8a8404a767f78392aaa2e0f5c018e6 (-0x2a42ea0909f6b7b7b3ab321ae7b4edc7c650ea2dc60a447435e8309071703f0), St 0x9232a478ef45c6ad9540f1009a26848736d5d562ea6ae7680be017900e650260 0x7329bf2cc8688bab4fdabfb894e66d44110e36993a07ad335fe97a315adbf9a0 0x537dcd9eed520730cb7c9fc8a458247445e0ab1ccae62ade8e80a38cb09d08b7 0xfc9f1be461646c18864759b13c8f5c69a264e7476999784f3d5e2f23f65c9c1);
  (false, St 0xa49df945f79f1e3e5022ffb54fdfcfa9afcd615a3ae830a69c0c5bc99b332337 0x91d23a1c82f93532d079cb72b2b3aa64da38e8722f1203471b4b7781c65d23e5 0x69dac8ddc1a98f9b3b09de09880554ff7e4da0f3a546209a7184b169b03da0a7 (-0x3971b7eff0e3848a38cd0847c529d4c85e0759e690dc1951d9210251d6eaece6), St 0x46a11c723f4a04987fb0e64770fb3246ea3b43f63a7f180502568111b2b85216 0x7e1bc43535f6c1ac3df524e28856df138755c5b8cdf6f66e82375ca99996c5f0 0x137c80f358f5c76511b1984c93660724cd9564022dabde7a163f2693815c560c 0x3a605f260adeee9fca6b61be35b8594084730dd551fb0e71f8f9710c57cc5bf);
  (true, St 0x92ce33a801d0dda081e0ae4a3d6b26f9c3d55dd76aaaed9834ab859504218f68 0x3acff47e568be99612e35aaace5dd9e1ca6736d9edf16c37fc4bbc31d76862b1 0x542fd903231160ee2bcaf6de584e50196ccd739ce3353f6ced1d41193e11e398 (-0x4b49ee9c8f163db1634b8495a3c80043717a16d66f5fb7d05d32d27ae1cabe71), St 0x20fd63130074e4691d86994ffec926063a6a084491105befe8dd4e5ce4160c0 (-0x7bd41faea09b2cb834fd31618dcf94fc39f9193190fb73bd529480077646cb70) 0x4405391be44277af32d40188455c65f9abde147f9bf1905af761a822289f9 (-0x5bbb912c0cb9ef0433ea3338ad84b706d0b06f2928eb1364294899fe75a524));
  (false, St 0x3d7c60b2924f3d31a796a1cd5917a0c0c70395d7d0f08749e2f95615575d56df 0x3c8ec4d04f0c3077bf68f26fd2c554c228268062c3122af312d9d735a5f4902 0xec48282fa026cbb14eade52338cfa7dca7e5b2360f7a269cd11e5c4a9859c2d 0x53ac7cc64062551ec5f08b66d6ad9127d3362c2e492c8ccf039aed57df73c3c, St 0xd34a7f5cb2c061f57cc26d597806b0b285240cad253bf87fb0f0bfcc6c7d690c 0x2b97007d44523cda0f22c68c861a7b9055ec78fe031de52b39e1d2ec7d775e70 0xae63e3a15e01773fd57a474e3680103f88c1aea58c0e0f8e237ff5c00a872452 (-0x5511cda9d9729c84de8e80327b37a1ec82bc08cffc524af175dda0824131ac4));
  (true, St 0xb0f357316b9848be2063e75687498a25e562070cf45aa25bb79dead2ce34a082 (-0x1380c7e3e79ab60fbfdb00ccc5d5e14aec6a9578bfd10f08333ea1ae27d6c193) 0x7a4f7f3313c5c6fdfde6ddbcc56be2d443473d78efdce23020738a2d68884b98 0x1f2cb1f67609128a1ea7cf24b41f6414349487520bfcf14825693c9574407167, St 0x76a87115865df826f94cd9058c428e6aaecb47dd217de48427473d91dfd82a7b (-0x56276210476b9ba5cfeb535fa65134258c868e4685e93fdc53a6e1df5d619359) 0x36ffb714ad12b59c5e10ac376d9f07f7704c10b639e44923aa2550bca6f2c9d7 (-0x36e2bed8f696e681fdbdb0c180df8e0b58ff479f273d4f86c2161cc125c619ba));
  (true, St 0xfefe2637661157e5ba274276a97d7dd22ba60cef8989728234658a085a6bfd65 0x86c45fcb209872e9a0761cef609a3eb2a77180370eb154334d2d5994aa56ed42 0xfdfd5026c82ac3463dae8c1c50f2e1b187d00f0bbcbfac6f9db1cdd6b5f62f4e (-0x803b471f99598bc506807a14185d8f2be0b2a8433af20552136e2e84651602ba), St 0xf89066d9bdd0991d4f98343ff75450252b83d950ecd5543c8d18a7cbfa76f946 (-0x99f7b86bc0e3e047e5cb3e7b85561f6a96c95adb4028a4ce74df475e6ab021bf) 0xf15818baaf6408845ba0fb6d0fce3b8dc9ef2569663741dea202db6e0f160a5f 0x2d4781e4a24b680c4efb5ce07b20eee79232d838c69e0c388e6a157356ebf94d);
  (false, St 0xf294339791c88b9d7ce394b6da138884114727e5991d2a8d46ae8747b31b9941 (-0x25f8c0669d13649b751d80b7535e297984d6d3c2be86170995b55a52dde5d386) 0xe5dc87572721fd00a4b660c600b91b9f012001e0df6529b9969f8d7d77458806 0x53247d4bf1858e39611ad2c94c9c4095d2b9d7355e7638707ca9223059975e03, St 0x311471118fee03b98dafc58a234c8be0dd67432989b8f6883743035cac8a3e2f (-0x2212a5163a434459c5c16c6a9629ff6a773c43c9e644f533c5c09e535e12d0524) 0x968d4ea9f30f1ccc0d59d2617d55db15febf51428709facefe31f8488d03011 0x10ba3e1c3915ca16d20e63afeae68b2203fed4d7951a7b3e4a879dd37974aea0);
  (true, St 0x3cdcc8ae925526ea84c1947f3d68b14fa67a5cb38aecc21f01e63ee60f51f550 (-0x1df1fa09ebcaf550e5d121998843838061e65db1a6e9de94cfb7e32a5e047a) 0xe783c7b6c6ce4c47b78258d3ac5f8f012f671ac2cbe624b30ffef3b734d1c56 (-0x302cbca1899f05991a63f05952cee9e28d03131c98fef78dd41f6d4980738b3), St 0xbbde0c33c497e12ec67aaf1368d6733b85f0100c615f3730e6bee13ead3aab00 (-0x1d9536d5cd533ddf274ed787925e38b077afdce3b3196f6aceb8d604274f0c80) 0x89de266d5571e5b7d7443e02231e4e62d429aac3076595d5973c49e6e3fb6fc4 0x2024be6bba4d662838f998f1d5366536aa4d4bd3b5dd61f9896e6b935b62bf42);
  (false, St 0xd1fbb4aeb1686d516daabb14af8e282cd3e3a0acc442264266710f01a3bd637f (-0x2eb818ad43572c72f04e7fcab2de77790816283dbf956bf961ef7a2f3231b3ca) 0xac3cf481b7ff7a76dd2106e48c00f47cca64ce08460d172982c217de359a226a (-0x68eb3e14d4bc02ea023c0cff0e007c50e0b1cb85b4e5b8eb4f7bd371ae5b38b), St 0xb5845e5dc9a4954925e3d5eac482aa4a19809641d1d4662a0e476c97a244ec63 (-0x7298dedb0bc0d5e521e0ab0d184c43aece3ec834f2f10bbd6a18273de0df5df8) 0x80b471e29358212673b0f9ebc73ca60b09f3d7d56401bd39d390a5ae05c7b18d (-0x36cd0a145f5b6402b77aa832c9cce40fea72b5b7e2e1c9494c8d50394faec60f));
  (false, St 0x94c896d8e1fc7337ca66b91173cfd56bd1159743e6f9a5904e449bfc9a5b5b9d (-0x2845b256cc516ef28481d0150f596bc053cfb2ebd02e3ce0e25117d621a11ec0) 0x56788b9727886bd552c8718c8e2041f244c0c726185305f42284c1e487193708 0x3d71fb4f1aff607d32616981af11e6b2fc1d20dd51c3ead57ff266c003fa7e71, St 0x311f7e4208568862ffd2f2d065fc564becf62df2853dbbd33ae4611f4ff4fea4 (-0x22914d1ee1be92b8d0bb8d9a36e2de3f2182ef8e991f5e0e03dd6d404cca9dd53) 0x96d123522e1489d82823918a018fb7b39492c6865c37854ad0fc6c7668ed8f0 0x1cc38da1e7557c902cd488bac43123d657bdd7dd24cbd7346873bf5d37e6b87c);
  (true, St 0x1ad9aae2b4a59ec23b998685f795a4ae7000599b84be35e8210dc86a887cf99f 0x4a2255fcef15b2f50a1dbda3703b098278717c9e678897623c16a6e9c3c1189 0x2d0efc935eab57f373d97cf951b82d490bf45c610747ca15139113b45489d69 0x44dcdd0e23882f0123043fee1879857e18892be0b62392ff418ae912f6e1362, St 0x69cf2f8eab038009269aa98bb253d21cec67b4f3d9c2f1144d862702294b9d0c (-0x5340b6b2e6a5e31e07a86079082106541ce57e5ad60ec09a525603b15759dcc8) 0x2bbb9cb12592bdaefd71819cb7b9f95adadf9f5ecbb35a5600fba86d40b545c9 (-0x13cd48d765dd69ad29f4785b8eae4575df9c1469e55dd77f6a0810450d3f15e6));
  (false, St 0x90e78390b0228ecd0d94362b431c394668b036268237aa20413a945ba3fcf2e3 0x4b59d2ab3b669ec758540cea83b79a40a8dfda02ff4cfd9f8c3634d1806d2ff7 0x52054561cae76a6fdc6d6f11a6119e83cacd9e04e00d5ccd718499022f9759c3 (-0x4da21b054a32e6bd0339046187447ae6b197dcda7d8a64ebe0b0e935d82a31a3), St 0x1f66cc367cbe03a89b90243f12004375a7746a4898bdcebbafe921ccfe4d6d05 0x25150a2bd4a131b0043b554c103ed71f6141dcbb2cee98d7eeb4bf1763ed097a 0x3da0ebc94625d72035811fdb72fdc28cb67493070629a5f1cd76c47e067644a (-0x125f3b9369c49e977a6fcbce8fb6e7d4c164b71335ee165765ca288a1f3b1646));
  (false, St 0xd960a0f927a5d196ee0bcf54d02e0c185e3032a33eb5924f3a0a0fbb66e1aa4f (-0xab8213f76ffbc3b6e432cb5efce3fea507c08e6b9df4d5be3302a2635a4ef6b) 0xb894f5603de2331c02c21e82b83bb3b7d69bb8bdefb450ef0a2098d85de424da 0x86b29cc025c79b9755c6fa0f8feff1a3bde2e33afe14490f931fd2392f300e2a, St 0x311a9bc00f00423fe9267641b48d6f3550705f2827fd56f4974a925fd8e35bb2 (-0x134aeca7b779d5b71985613774c8a749a96ce12a02fe6697eeb533252cd6f9dcc) 0x96b326390ee7a0e453d28b5bc21f92eacbd3c9d4d9d9f0cfdd8488e8182273d (-0xd0b1c75822e6480f4b30b35510552cbbde4840a7ae78d43b3885329321ab927));
  (true, St 0x311335876f7a86266060dc17ac64c5dc094c7593fa826890dc1be4759706c898 (-0x2b71ecafa814184d6364c0497d6095394e42e2bbaccfc71fd6a7ab14e3ee5574) 0x9685beedf612b48efe10d56f7c008efa3d008b9d6f3db66c2b392a7e24b8af2 0x2f6dd58595510b23410fad8761d9b4a6a7c16ef95dbeab048a020b41eabcebfb, St 0x354492f9b9f2ea9856f040f30a07195497c832c8e4a8effdefd0a255f4628b31 0x5948f6e52a4eba13eeddb4326112a72a7977fd4e5c281744807889e6fd17ac85 0xb157739db20a11dda2bf17ed8699a8db647e836c6853b13dfb1125223af32f5 (-0xcb23132669a6cdda8efd9826245d08f26484384b8f8f5990c6f867d1567b0eb));
  (true, St 0x5bcb51e8011645cf9474e1737eeccaf251925e4f1d46324a0ff9112c72b69838 0x1d54a4bd41ccb82a9609d38a13e8650a80e51e1830f45a2bf2c348738475ae54 0x20ea2db611d65f9c4c39ce36a02ec6466f597396481adcceee7d98f104c7254d (-0x18c0d0a65647c6e915b820d5f4248c200328818e66edea4e8404dd2c7bd11578), St 0x489eb522956e603b4f8ebe7b7a4a5d146c512e2b9ea7ca73956ce5795bd1a559 (-0x9d72a7de7e6f656d468c0afc087b9a28635ba35677171131d9d342fa66a5f95) 0x1499a8479f821ea1cd7e0f8fa036fe9e1a1561df791fc91854dfda53e551895d 0xbaee9f3b21b0ac1482b6efdb4769c760417e16cdcb40a79cff16c7a91197968);
  (false, St 0xe6d3baa41ac9886c513f5f99e3d7c71f54634d65672b42597864fc46b69800a8 (-0x19a01c4323651d635f0413f326ca5e315e54a9f87f52cb187d996ead2e1e6478) 0xd021227ce2da4bf4c686b6edb42b8fd04f81fdd02309db7515dc5e91ef62053d 0x22dc5ecca018cd01fbc818c4b84fafaadc24a697818d3e37768f04cd3df2a451, St 0x759755d8f2d09a909670398e68a52ef2c2add6320ec18477507253948bce7a4c 0x5d241a63ec43aef46d7268f22165615947f8bde176443448d92cfaaf8fd632c5 0x3603adeee6ae96665db6db90d0fb509764af96c3c8dd5a087a4f43bae74bcac6 (-0x4943d6b80c4ba0aec5272a98e284ff63052ba1a5e4990047bd87de892da7118b));
  (false, St 0x44a3568bfc95aa4992b08e36006e55887b31bea3f5efd8d9966639e1d5825cef (-0x35218525ad6584873a2052c324843dabc6db3dacf1ea207ff8e6c9143646c617) 0x12672e31c41cb180737b74e4e75ac9bbcfbba09e67353a6fb0bb327e0f71147c (-0x380800205f6848c672521e49dff6beae7789931b89f25badd8959d98a652356), St 0xba10c90121e863a9df6b8a443d7d617ecfd494d2b10f5c74ee48702f72282b12 (-0x151f4a4f06baad9ca14fca52021d5833ca72640eb811c4091b1eb53ef6cb381b7) 0x873c652fea791a4ee5f02c4ca19ab083af0cf0800e6c1bc0a4f56133824ccadc 0x669238012c461f358a94a63bf25430dc28b90fc054344e060e47ed02ab649de9);
  (false, St 0x8ca51a1485712948f968f7a3e342772c2517797b75dbd62a516c72edbcef93f1 0x54b54d5cf58b4b29d491991dbd99ce653972a502d7dec3eb8e91c92a5f5f0f8b 0x4d44ff016054f4c8378c52ece7fab49b60ac4d8185b2f3b442195da88e63b1c2 (-0x2f601615300a13c99a1112fe625ef11efbe16abc47328f4e992334b35acb9f59), St 0xf3e4b715ef6cac2fe4b3dc115ae768f0d521ab8cb2525578693cca09b614b0dc (-0x6003c0e101d424016324fb134f2ddea3d3b939aefc0a45b90d5c35d83944feb) 0xe85bffeb2ee7268e6df4cb4403eefde306071292d82f53381197cc68eda35049 (-0x2177bba69afd47b0917ba89e448e54dff1898d099a6b74b60f0c4bbe6537789c));
  (false, St 0xdbbfb7d04548f3bc8ded5294ae4c5ca2ba76c13a01c6b36463e108de8c4274e5 0x2bddd0cb144b515bccde5fea86ebeaa002acd87ee623a8892901d530fcf83866 0xbca19412dfef347167418147b7bd1067467a3513c4ef6c3b006c75b26770ee4e (-0x450ccc4b65b425adfa8ecded04d7c0641a309cfd5adbfd3c40e688f3ff8bcd45), St 0xa96bffd336010ce343ba5b3321b11370525c5827d558f35397e33b7b720c2646 0x4406cc08bcf340a097d7980dec3a5610db8158bcd4b03006689237c18074e93c 0x701fc55527a2c111b5b616ee2f2ebcfe444dcdb2f7bb662bcd137b6706d35923 (-0x4c42643af2555ea8cb21be4b331da550863559223ab5857dd45b7b0b9dfbdca2));
  (true, St 0xcf860638b462b3edd8575efb530e49856a7a92053fe5f57391ac8165c124a87b (-0x1c33725e7cbab10da4ff150e115fc0a78e86b49da53d5b3a2450d775f0a41e2f) 0xa83a043adf752f8d42cfc3abba3ef1cccfa3d9dd95d67b6dcdc35b90afa056ad 0x1cfb953a4491b43124ede7b8a96f3cbd874c660fcec10ce702f1570eb56c0f88, St 0x4546d33b4aa7c87b4483a9ec3cda1a7d498163ad13813bdd357cfadd90bf4b08 (-0x1b514347edeba827019b5f2411ea6674f8509f968e145d924568f27b2a370c4b8) 0x12bf41763bb5521652e58bdb6d6b2af39c9e68743163643b27201712c6abf145 0x13529e01a65f1c62680b67c6fc12c1ddda2cee6f1d6618096ae4fe4abbe73656);
  (false, St 0xaa5d24f2e5dbd4ce05d311ced2416501fd1a37b859541cd549d54f6c6523ce13 (-0x2ee053ddcb2d86d781cd7307d5e1684eed328d6b2b29d4db43851306b8785355) 0x715fd6f6e878066dea600d1d614aeef0d7e4fc39be301716fc3345ae27913bf3 0x5e117a68e8c61b0a0d77261b3e1f3117b34881c7d9fc577c928d86d00fe631e2, St 0xa46d1e42a1d69d8d9ff42abac36d7674562e635424b68198ace8ea6ae23ab064 (-0x1261d20083d0a50b15e251053ff6300a8aaf271b182983a5e57f3968e31e34ca7) 0x699bfd489148772ded1d9b2caa1d2b96841080c286e94fdfa7525422271f660f 0x287c9bbddd1fee0e67711939da0b184ad252925e4348f291a55c49d29581f323);
  (false, St 0x5f342251d91ac79d09397a2d72dc147c51270d64a11cdfb0e56e4d626a0ae499 (-0x1d202e26733cb9bef5593bbe31cfcb95a335ff4d4dc5e97abc6e8eac4b92bce4) 0x2367bc16d863a6f491b6c3ed930b565447828dad3508a1c2a6c3ea16675a19d1 0x307796190e1700aa1a1468a34ee755557cf9cc764708b72e614d7fd87d3dd7ad, St 0x48de637e00643c14b596896fc987d301716752e88391d643e1cbbe1df8e28ba4 (-0xbf811d6891efae74f1e77f41db84c095864d3f12f0c92d512738e11edbd58ff0) 0x14bdd927aa299b1d589eb06f1a7657e4c71ed157260b9c8ecfc5a82a7154e0b5 (-0x9524166ee7762e7b590efef3f7f70dd855301b551a566d09015c3b0b23655a0));
  (false, St 0x280c9e487d90f7166609822dcd4dd4ba635757eca9527329ba55c7eecb6ad3b6 (-0x198300bce0161cc45974fc04568dc445d3824b44d07c61b8a365cfac370c0766) 0x643f215e62a9469da04b1d661abc1118010b5ccb67c880c2b890574c2e8f1fb (-0x7d4730ebdf4abf14d6a53fe95f0cbb1b581f4b1cefc08cc839f678ab308838b), St 0x334cb7a512112ee86f95cd1129a04367661ae60cd780cf451399eaba26bcc663 (-0x13fd1a2b1d7471a817c8f039cdd1ce1345f6c960414e75883ce7e8a1ec7f762c2) 0xa47a8295d3aa552a5e820b7d6e52ceb1e00456acb0638e94d57fd1dddcc88b3 (-0x66eb7c0057e60a288ed04b0a4ade517db0749a80f8d829ea24e162668200324));
  (true, St 0xd70c9412d5c00be94add16bd0d8327148e4e9501f06a722a98eaf092deffa43e 0xf140baf2d8605403a77525ad2f8b79e6d7a70a1e314f6d45e95f52a9e27c344 0xb4a621568f1887e1a35156b901183d7e2aba36fed04fb29c9dfb56489d43f13e 0x42b584948461accb0d05f8ad8b568f3fd22dcff2b49ada3ed4392073798a1bc7, St 0xb80af2eaa3439d5f2b9c8a3fe3c479b0d0c9522404706ca35f2ee1e606724999 (-0x1956be197528a5cd1df56b539df8bc2571bd68d9307216163d0c33e02e9124a0b) 0x844fbda9afd624e4fae9a2e491214a903e167a36cdbb0c510f2c01447be04f26 0x594ed8d072e5d1fc878a4c7a494ba8b008c3b84b38578cfd912001ca6eadcdd);
  (true, St 0x9482d107e9d78105dffbf2e717483bf84e3f04e9a59a6496d1c23fcc2b6b95e8 0x33fa3ced2961d762576b674718c4a0b12bac5ae7e105da0129561cec7c6a692b 0x5627848a73401ca8721a092e317b791a111061131ca1d1d2351e8faf2cc7f707 0x1b4d38b36f7cdc2d3945225cbf565a15794219b9afed4798ff286262ffb89a1e, St 0x8ffa1c2d05bc86b876bb005cd5516e7d7d7ca4435b167ec87f9ff8c56b2d0e7b (-0x1c5ab2fb9e9c8e2eeb468e64b62081407e9c7e588271439f61de9bf6a52b27a3c) 0x50f95fd5a86b13bace3f227591bf6c6662880c142518fec28ce3d9629feea76a 0x3d42489869724d7a6f61c88e05ea39f74bbc1d32488c2b3a27e5fc082e5ca86);
  (true, St 0x1e4e3accadbbb4671909abd920871de6d69fad4dc8060f08df74d8b3c9862284 0xf5f3da754926c1c425210a36489e327c399f3d705b15d22a6cccab5f901b5a7 0x3966dafde89acb85a723c50c6b71cd91731fdce5941b71d953e3ef4651daf1f 0x10d465d10ef767238ee816d598581fdfef9cbbb93bfbdaeb97d95921dd1e6a4, St 0xd99d715c43872522ee2dab654a026a84c2288712f3dc79a1e5a81960caedf299 (-0x19b109f086659d7d35b3b8e123d7728846cf8cd0c8673da4cf67a340e8b4e692c) 0xb8fc4b0360d4d0995635a253e21e86e8b684958b79821bd9a0a81ae3b2c3eb4b 0x6db4a86b4c0d2db6fc56629bc6452a08a823f553a38edd73a69e54f90765dd43);
  (true, St 0x3d243e444ff2aa2312088f400cd8aff34a6f279e8e0aa0804d29a98737a1bb34 0x24fe4b5811f82c061056fd6cf7dca7e837382bd4e089f9f11bc3117f895eab7 0xe9a4ace2f0f9516cd357b5ae8b9e0a8fca516067ea83bb8ace02508a04077dd 0x133b47e01b03be12bb2ecc9ba795362b1da5f0e55f45777d98b26fcdf00b7d9, St 0x2ebad6e612f3b58d289f6170a5bd8f5a19787c6298bc990a59e12692c6879746 (-0x17797d49249a78b66abdd01b5286980aa13eb83c1fe42801d1ff86808e306d27) 0x887ad97b210436fb81a4b8f9308dc2940413905da450bc686ff3532a6cc38ca (-0x154e679dea97bd1bfdf27f2662daae29e1492a90368a2ae7c76aae93c4b2cfa3));
  (false, St 0x43243455af7b8a840bf0e7e80618ab3098b05f9b0fe58a245c9e6fccd166f034 0x2278c37fa32d0e650f64864a3ef6f187a2869c71d9c6d5a5d66e54b382bca655 0x119bf883ae42e9bbe0a429e5992d9acd7c5d9b165494074110f276ba29db488b (-0x15d7863a1667e2750c87c6c1d40b345de218228bceafa2c9412fd79398d63a7f), St 0xcd16aac5bb7435064e462a85d228a731546b03130829b79001bd004c6e9d1b3c 0x848effec899906d64266c6f6c5e28ca0aaa69dad716a0f6043c0efa3a93249c8 0xa44d4f831e6cda18111a549f8bc6f0a3841b6ce77ca263cebd25421372adbb40 (-0x645cabd74284b29d15dc029df0e7dc6547524d3fbc3b6a790a4620a1ec7c0790));
  (true, St 0x32c78805383076b29096450ae5741b8aa5140f58e0ac471eef8304b2063d943a (-0x8548ad943e36e64ed9782df86ac98b7d2f5b7865b56059624754b7fd55dc9fb) 0xa128ca6d468622bd0c4ebd0bd69f588cd3a33dcb55c7fe7d11bd80cda84500d 0x139a3b604543c83d59c1b1834ede146b483ca854c7de5c98643e489a83c48d55, St 0x34cec85e3152ecf7f7d097a26e74748308271e982bbb627237f90f29511829ac (-0xcb3ff2db6d85af99823beec9182edc9db1ef3f67658ff29c4f193c67e093af8b) 0xae4a86d635909e148de45a56cfe332a0436dabd930a96e32abf21c2a69ef5e7 (-0x14f764b9fb3acb37d5fda8b329b80eb3970b2218d10222c98b9b6d6d9bf03669));
  (false, St 0x76bfd3ea872e2a5093dce971ab4ff036fb6a121b7082a1871620ac980941d87d 0x4981fe2a9a5cb4bc4f9e3c8135ea9ea32c3359e608a0db5ba0039f39c30c4a47 0x3715671a53161eb10a14ea70891cee28989141b4d97c53901b5a910132250569 (-0x27a90857f2dc52602bf2460f97df51f7af1aadc1ed6e1817a316e329cef4973b), St 0x7f76d55cfc00febae4ecb647df9a0bc96650641db99fc73e47b6e3ddd79e2c8b 0x68e9d94f46beb51b996ee14d9c056168c141d5d4d1b1ebcc749bdb048e307d46 0x3f771edbe50c49a3a9af1ea2805fda0744d1b4c55833cb0af951ba3316bf5e7f (-0x1b1fc2e641abece57ec6214da09b9130ca29ed4dd6391d36d66076d32c652f13));
  (false, St 0x172aa8f06d9994b388320b38e1eaeff3c0551b6336dfc20e7fc3ab97e28c2069 0x2ceb6079fb9a1d485feba59892bf598abdc5409306976863a1a93d7735ba036 0x218b177142ab23b61824759381d1d3fc861d9d87bfd668d97c046350b909ce5 0xcc743604e4da3f3d1c2d267dbe804427a246db5438f1b35ec9d1db4833814de, St 0xcf91a37b98aa03de4258750fbb227b44ecd688b1613b2c532cfeb75524f93046 (-0x64790bf14aff15fd080126b820470e3e8e8bbac2e83e7de7592302f12f445b33) 0xa84cd93d23995c2adbb5ce033caad6b094a11b5ce861080bf1cae52fc795bbb8 0x4222146faf14efd65023190dd2e33a36bedd54a5b752f38cae3f8facb78df75);
  (true, St 0x2a1dbe7e5ee181a03f2d060541bf5c90d858fdc37c2ce79f033754d3be269e33 (-0x16645a06e577e86002e5eab9761626b7eede87921bcdbf57f60cb8f9a7d85961) 0x6edc5f6347116ce661c40611967959cd255ca7439a627b6ede0aab18efd2bdd 0x1416ac432244ec1ae8859fd421e8c9dea8a733f84c7f824d73f5dedf532331bd, St 0x114b6b67eb1dc0a8f20b5f9c150371978694b664c193504c0d6e44ace57e0031 0xe6a4328fa8415112975ead0f211a0459b61426cf37dec1954de36bec5483837 0x12b1a7bea58da3b253efa8fa5dde144d423c779292834b6e75e4f6cebdbf8d9 0x32caef6e5a09730fa53396ba12f9e43f1c2bc8817a60069c9e6e3b98f98255);
  (false, St 0xdcae5fc246647993d94d15e07a7f37d44070b1e16cfce9915bea11dcb5e695f4 (-0xe99ee18e5d437665a85199eec07f2aa0f81f3511ae1fa7b289e050036674d4f) 0xbe3c2b5cf7225094f13d20e428f2c555ff4574b50530f7e9f7a905140df5b2f3 (-0xa20fa1c31cf83b796e7296f435025b00dda8e927a79c93ac376b4d5541f2d868), St 0xb795d86084e21e48fd82170e61065eaa242d593acd9a174219943d5f54b19b14 0xe6e4afe9d0ffcd63c2aeece826f709d8c8a9aca95178cc30a2f29051326096d1 0x83a7931018e08e34b24beb08693be9ca484da92578567210668bf480c56cc5b9 0xd4fcd07d16771c89ece8e03e6096f7a516dd02919659de79f5f1afa2f9ce8cb);
  (false, St 0xc9c6cbcf854c79561bf78443ab12dea9cc9cb927cc13895e74e6988bc1e49954 0xa2cf140c31b522bceaa480114b40121cd8d5393e6a8e763197ad78f4f6f919fd 0x9f09c66c65a0d4e0cf38558ec8a5480f415b19be646159d76d2d91d50754b094 (-0xb2f7fc84c448b9b639bd49491f463bfd09172d09ab358a8f9acd3dc3859b0cc1), St 0x1fdedd43533a9c118f1df0c01c3d7d2609be39513eff08a6ff36a51e4c1de1ae 0x330302a4604d7ab0734d4f208de6f7386218f8e3dafe6b2dd0e49ba41554c558 0x3f7bb9ad22196759a7a63fff1a00d1e06810d0fcd572d3402df17d7e455333e (-0x1a16f7556c30c572af4bb86216fa142407f003ecf9140c34711e4f8173f096ec));
  (false, St 0x4de4a122b00ab4d80b885e455c935190ee00fb31f36320762ae0a95534f47732 0x552f1c8e90b2a699ea27d9a9cf23545c71eda5e1a6a29273aacb6be7661e161 0x17b3551e60cfff1b143fbe9a9ff67ca9e0b0a86a66e0fb2e0b8222e5b24671b4 0x2adae7a0e8dc493faa8b447b4976f84aeb5e0a6caaafad790be26ccadc5d2db7, St 0x2eee6958994e88f46cb5a0580ddf97b929ebe999b2a8966b75003527b7e981ab (-0x1daf65a2d4ff585fbc76e4b03362e41a1c57d615d374c69b1dff27f835297933f) 0x89a8be3ebc99f8e8ee01c040e5b0fdc7402907c83e05ecc03acec88aa2e75e4 0x23f7946da587751c7a6d271038e8f58e8cd0aebaaf056113d42f6f9e4f722f3c);
  (true, St 0xdc638f1a9372fce5614506faad3fba8425b96f8cfa88e72ec08d7dde8408d2ac 0x2fa5e0edcaf09466735c27dcc9a513ebce4545f8dc1bb813a258c81827effbb6 0xbdbb44ae69b5a5c4436323d09cfacae74a5ff1a56071ed0f007da93cf7147071 (-0x36548483ce1460c7af44b2d47598bcb836ac1627bb1b1b35f6e9d22b0c417fdf), St 0xc9f4a7b7b7392642f9aba7c4b928fa1bf4a97db513a8c138320b56a3639f83d5 0xd8b1dcf1fef17c4939fb4844ac3de986c1dba49afc6aef383ce557318bb0ef7b 0x9f52192f41205118c44c8b88f5ba9a11a7f3f7e433d9928d7f90ea7cb1e85b9d 0x68bdca111890ed94c0d758bad869af99d719bfbc89f04f70a2d1386436250c4);
  (true, St 0xd88a8b7183fcc99fa0173ea286d57f398329fb0a5190e6956d7ccf34df137ee8 (-0xd95ab0ee0266267ae8ff368f7a209c5db346432b18aa535e31299f2c0f1ee2d) 0xb72a164ae83b6ebb3b7b31ed9f7236c1e342157a8c9cd6509c97da34e63ec1f2 (-0x692acfa7f7cf0e93f6cce8eee78f2bc0bf96d3567e6c67dbd45285d7a06e2efb), St 0x56fa147c043238cec49d677b00ed7ba196e70a3e7f7d8f34fed9e2a9f0825d3b 0x528f47e19f963c97150633119fd01a2ae47d5af5b5225e21870bda1b2d71a45b 0x1d8cfa0f743a870d2038449a3107697f40dba96067ab26d417003d5f6989291d (-0x234ed70697ef405e0e1a5cfb9264ef478bdc8abb62ff8a22fbe215bf0e660696));
  (false, St 0x2fd2dd227bfee3efac81c8e56f688041e17a3b7455759085085522e1a8e10656 (-0x6d0137333cb3cb2beee5b8ddf4510b011108e6fb09848d396214da5f59354c6) 0x8ef1ae23e0eaf7d6cfd89a057e974e26632b0c4c3475b54e0f48b5ae089bab2 (-0x466ea2a686f3a928d98818b969f4beac57999e9c549110386a4f561688d8a3c), St 0xa57b9fda8fea1a0d112ba29072ce3308954eac4db1072ec4c1d906aab799a22 (-0x1d63e35ac42b3f3270c233d517650d678f5b3b28e46646f9f783aaebc1fe1da5f) 0x6af897c32853e1aad6040227c6755894e2aab9360eecfaa68ec495842e1868 0x7ceb79f53b60a3ca523f361bb6c201a22da00b79a9576f2800e32c58459287b);
  (true, St 0x444c8c2d128ec95946a78fb96fb9a51a442e1009aa1c590407c9f9640c35c7c0 0x39d823a1bdcde7b05ea48d2ea0ef6279e495a16f5bad8a55f53164ec9a66d2c1 0x1238c15b8b98f55627affe711cfe9a9e1e1993ac3d86a1991c9f618cbbd5b8ff (-0x1947beeaabbe24b81ee1a23139cd6abd85688065ba4b71f60eec0f21ac3a1172), St 0xc14c717faf44a1abfbdf898c221fc06b7645657379d90b35fae97cf751f24809 (-0x139c1cffcdfe93280577a16d1110b88e06012094299609324ceee5e1ff5ef2b45) 0x91f459f6ae5bdee5611d437c5474e9e56767f499d9e3d66caa5e223ab2359e39 0xe8931f3878286332b0e5c34b71902cbb2b32f2633dceac683ebf7703b61edce);
  (true, St 0x44fc7dc7804ad51e9089c9c58f74a81fda0e7c679df9de9ad08cde0f06914429 0x1bb4397c28ebdbb59017cd1ff0acd37b17720c94cbceffbc67fc73749d7e73ae 0x12971bd9ed4fdf2774709f6d752d0018902acb7cc9c89bee3b61670dba4b642d (-0xd2d80554f372639431d74baaa7d440d8a20c6f0fe47949ba6b955a39656bbd0), St 0x983a531d66a1895c61ae687e9abe310ed975b17acee6a2d4a3990669a769e3ce (-0x1fcfaf20fdf4807f96d4e56ebeeb7a1c46cd597fbf7b1bc328daee2bf52aa688b) 0x5a854ffd08b3b839c8d9ed035849ccc728535b2bc7cdc734d6bae4b47e52b33f 0x3cc08ace2c6b0012b5ef8412346ac15829bebcb136a51f150041793c2fc578d0);
  (false, St 0x8f3032e50b3cf5fea9f45286ae438439ca9712b723a56e4ce91f79da3d3e39ef (-0x1afe67d9be837484fd02e5addfe0c6cff151935fbd02b65d21a6321486b813d7) 0x5016e1ef52a778eeaf95267863d2cddb9869116f31936d202706668e39c7f977 (-0x1bf60f7c4f62de8165fe3123807cad8c7a924cba555dafc921f15f5f8426b7fd), St 0x1692649514c2671e310ce975b5911b40c3db87201f013a434f11abcf2b62c442 (-0x102541d67717b8afb6d08bea59a286a65da8e261a7970819a8a70b813e1dd57e0) 0x1fd7d00831f63805c8aa48eb944af337386bc92637e3aaed3f026ada4bc6394 0x4b1b219dd1eeb064c0f2cc43171f1ebf1186f5667f952749509ef3d1fc008ab);
  (true, St 0x7594a53170a579f918ced945d6f7299205ca05473136b3c9a0dd5dabd935bc25 0x2f69c2dcdff34a61a7b8086b9dc31791a8bdc0607ae9e47b8a7b9d7d4177dec7 0x3601354ed2bb7ae2f591085fc0439fb139559503bd045beb70f28fc385fe3e55 0x238d242f0c1f56f8abc86944eeef937726549329946278934658a58b03dde28, St 0xf818acfee55549a644e2543a1513792723fb1e31966cf1a605e844be69156ee2 (-0x1b9b700d7c77e8f52f1eb23e70b3eae27f10a123d2b25d0f6419c65f6c22ba57b) 0xf06fd18fb1779235335272f41cb8a6f7c842b57be6e865ebfbe1d1419e464655 0x23db9a36e1482361b7d4dc78d879fdb1742f5ff694fed1d4712f7779090b139);
  (false, St 0x3f62cab4fb73d606417fb2cd89a223761957266248e4c6b5aa89c601542c6f68 0x1a2f57671c8dfca49b735b4453d0753c4a0473e723bc1e4e3d885a7ef82ef0f8 0xfb1c5e4f6876ab1377fd6d632d11efc00698746e98c435f7f77699a9aa6181a (-0x202ca8ee95f63f1f9a813679acb04a67640e44ba6f01e2cb214150e26705ec45), St 0x42e9b7cf1ddbc568a41a2de25e056a84954c777f4890fb2537d8c3d2eef025d (-0x6a702d0b447825ca19d1d95db6046d0f6382ba7aecdcec702f68f39d170a680d) 0x117d5826f7e0c83fb49c08a4d9a5f23306183db86c3fca91405c81cb54d5fb 0xf62986e0252abd5bdce2df3fa87ca9017072b51014a5464ea81d0f4176e4d2);
  (false, St 0x60168c271de40e4e73740e1092036fac3fcf734c39d171ec4c8b06fc3068279f 0x46de049906e1f0944679192daca5bc9a83e3ae5c53d86732fbf2daa93f1df522 0x2410eb19ddefe7b294917facee6e4ba709707f1e39479657f399bd8f64d86c26 (-0x3f8ae49dc3aa8a2e180a2016fa8a736f8f859a45a7ca5de32a5fd095f6c745c0), St 0x337c635dafb00f600ab1fe2763d457403fe2c76e6665bf755b764a5bb445bd6e 0x3c79131c8a13abfbc22c832811a6125d969545b8c667996ecc37f92877bda341 0xa5acc07c7aebce23102dab434c3019f1994ae45eefc95a4a1b7404fa61159fd (-0x1f691f2c1067345db775d5a8b332e07b2e99e492652c0ea656c2a3bbd9fe268c));
  (true, St 0x92ff74324fe675c47986c4977a7ddaaba732be1564d36a3b76f42a3b1032eed9 0x78733d1947e03facc33e31867a1cfb06760ea167dabf75626523371c0de709f 0x54685f7268840d30f5d39b7fabd3ee00478c36c9b8968f40455170e31833f854 0x1d9e01dc64f4a419e6091b7b665f43e0e5f40872df7dd6ce38c91474ab64825, St 0x5ffc832859251e5b7f39f3b06f782d0d01a02cb0f1905f95b55831508a43c97f (-0x1e004cf901029735caa1b3f5b87feba08f2e05448da5d65ec80486d58cb02e3a5) 0x23fd626a90c8c19e1110d172b06413cb31d9a91d12ee350912bc87a45972d4b8 0xebdb84a64e5c8565b81cd8ae6f09bc6dc29c18d486575bbf7d588c185d6be7b);
  (false, St 0x94c931d2f16f31053b224f013f8e54f219e43244c68e5941c9315243b5b6bd82 (-0xd5b421ea5fa23a6c53769cfa740369fd2bd1af733bf557259fa38456d4ce63c) 0x56793fbb84935f41c3939e8f4c3d98a6f8cc066bc012b9b6bf8bea58c86f1bec (-0x246e888e2a8796558a33ee1a89bd1129b468f9fb7b0e6ce85b333e367b6d53a6), St 0x6499928990a912e0018da905338e52b6d34b1dfaed1022959b426633309e4fab (-0xe1afe2bff938318b0e61f8df6cc0337c7a10f622d6d19aaaf7bcb681ba5c6bd9) 0x2788569c1cdc8a6086891591af79e1b807c63912ae03fc2e9a153701b026ab4d 0x25e4ca1a265cf386425311849441ecdc0c20166d13a148eeff57ff39d67b7cbc);
  (false, St 0xa5ac0061652480c517f65a70a9770a6ad8e59996053533afae40d539ca7256fb 0x66f8a93ee8a8aa3e7eb5712bc255bd02f33668b854c6f786a1cb800698cfa2b3 0x6b372c0e7a784826f69c47e363c884db27cb3252c2d703b59ed5022873e2df7a (-0x5fcc1160f3394e1e7da12bd2d68dbe3b814316c43bd361c08df3fd0abaeda708), St 0xca0257e96070c8fb8d8f83e127fe5d845f9c13effb9eb2f02d8ee75432531b3d (-0x5ac92c06f0557883fe5f492e759dee81c8bc1bb14bfe8bc3dadec7941c42ed01) 0x9f67b2c2696fa5ff439a42269bbf459acc749bbe53c970bf923fbd631414ce69 (-0x51bea58e04a38e069272e303b2b57af09004e8ea84042f208477425fc13e44fe));
  (false, St 0x2d6eb622bc5a734bef43af7fb953381421c4fb104819aafd779eee15528ab09e 0x7e2cf0e0851c9f7f17d3b01c2cef831474beec67bf629f4eb9854995b7d0a44 0x8101be945b72eb433920e553f069323bd6de1852b164a3d2f15df5a9f12aae3 0x6f440a031d04e8ac0d25b20f379eb70c0112010326dd538bb1412310cd0091, St 0x4460ec481cf1faed23e8b163c94474c0f8dcfdc96845317e0a6b545728b4450a (-0x1928e9fad723ebdc7722e1180329f14a61eabbec2165ddb3c849dc65879d23d7b) 0x1243a23871ceeeb0fe820c721cb6bb106f2aeae0b63c3f7ec4d165fbb94bd612 0xa6f8a6e4b90466ea137a41c3783f4532ab80c16b89e54c191a061ac28190cc6);
  (true, St 0x19384a07103363d8a428675ea4f4325ea3052bb36b5c87b795e84098c2a5757f 0x39b9274a2e6aa9e2e2fd2e2f7fa44aff36f11e3341dfc3afdec8d810ae99100 0x27c0ad5dc254061721016f5a54acd1c9cac3013e1b204e1fe0670c1b7ee7cf4 (-0x763e5196f8c75899ef4cd0dc4f5b0c7e5328a433b00070c7a0ae8b91348c9e0), St 0x89369e8f3f09b264649cf1b78674dab1f3916f395443875fe99a43ece6eb908f (-0xd06e8bb19a7e85737cad1a5841b1b3b551a417d6dde95cb54a0052574df3b0ec) 0x498b815ce1a79c5ac2b5866fdafc5fbe9beb426fc04979792c2866c0594db426 0x637a4be310d8be69f2a18506d29a2b06eb6db43eb5e414f6ea272f73d47bbdec);
  (true, St 0x627ddb3f791e370a58afe34f43498d7de51846c9024d0b90211544519ad904b (-0x562d4af6cc5e6981302b654f2acf61fdaecb9ba96f701d83f8529fbd1b44e02) 0x25e499bc9661ac58a4d6b6d608f50f69bf1235a0f86a8e0733fae763033481 0x7e74cb69652b36aa389ab1c3175b171576fde2e57ac82ec636f3a446e46838, St 0xd1886dc4d1f5808857ca58e6814b14a9eb90606d96494d683b8de12c50e27ebe 0x1398cecddd3826ac4b6194459eb710293736b2075cabe0ad513c2cc8be5f5b920 0xab800bf0da832ec49acc81d136b4c47e33f4d053e79732d24ced67624e2e4083 (-0x3e9c7cc6be05450a183679d767de3f3ff1893a2dd6265a10fbee3e1ed2cc4473));
  (true, St 0xc10b51f25fc149e3c3db4cc09adfb999ab1db92b29edecc24db0de7a3f5bf4d4 (-0x5fbb6e9a68fd0846e8ad62c35ca8ecf6fbb8ad98ec30d95d3f1b1ccf78c6e2df) 0x919212102b030426de574c0050b3af0c27e5676293bafe9a39eaf308ef14c2ee 0x9b5d1b29480d58b523c81245c8b24926b050cc3f59a964dba7e37c5eee912a62, St 0xa1ca981a141d332ca97d6224e18db15addac9fbadec39b7b14a17c23875370e1 0x610a2112546c8ac50222abeee2aaf4bb6ac3bec10433bfd21f20bd9259e191ea 0x664073a59713e6a2e4c6a3f98273766d874e2ad4d07c29aba4902139402dd8cd 0x1ba2a56ae7634950af5cb2065ba0ba04242f2acc852530b4e8c68fc6dfd07a1a);
  (true, St 0x43ea73d5e9cff6f3f2751ef954cdbf8897fe2c104394f3d435a1290254056c2f 0x960f031b2eb277003c5ec83d4c622e6e127e86a1b2b894f7eddaf51eccc85f2 0x12048f5a01e0bd9cd83910d60559a4ee05f23985ce7df8886998e651618db65a (-0x3526bed9e4b6c88d07a41af86d606e6d92abdf4ed8cffcd0cb37b0d9172ce694), St 0xe71126317f5f7a754db8b247cbf79e0fa4cb7563d919f6b94129adc5df68dfe6 0xbc28f6b2b4973efc00c6db77ab4c647fd571600129072d72c11f26a7c0f3069d 0xd08ff4143cb3e923bc432c6bd593bd40a483ddc080581776052c5959bffac085 (-0x984569b493c24cb27b60f85728b62a88dbb2af8df8812814c2af559fd7336b8f));
  (true, St 0xdbc4a240d68bc990715f48214eb71f103baa196edc14bf93f6e41d4f8d8e96a0 0x32e8508aa9d284c22d77a170fe7544051f54badb14f0ea6cccf3020ed2f8a98 0xbcaa04a485dbd58275260934a500d11e061b968760aeb96c9dc8c4caa4cfe516 0xa2eec33539bee2c5b4a203a3589624cbbd4d17fc2cd6a09748b6a8a5e5ce62e, St 0x5f1bb8248b8f122ac420605177e6ec70481f1858f43dcf9ee2539e0f954f00e6 (-0x1bf339611a3e03af6d1f0caaf915f0596e59cf0ecc64aa286cdcbe541f9868354) 0x235595ab9f13c32a44c2d774df78453f0e64ff970c5bbfb6cc940a4eea661a12 0x2feadf0786fdcf720b678c2e83eec0c20f70e46c82cdc0514272bc7a5cacfeb);
  (false, St 0x85471538f02038c9f7bd7167ab51a12a713864f4b5695db241b7ccfd3bb72e 0x3e88e2723d2ba3c25ca8311946bed8909394f97f9dbcd519142fbaf848893 0x4562efca363c00ba84f1bd65555054973bb1e5e1fbf5ea74287980be45d5 0x646ecfa343b79caceab79454fa3cde8d3515b65295e576acfebb77ec219e43, St 0x2be62f86c54c2feccda942522ddb3bcf687b5801b47ccb1444b2358fb57e6d18 (-0x1b96a390b8d2d0b9b792968f03eada72ff34cca44a6d5e72a976265a089ee0ca3) 0x78722f0bccc03557d46c0a9ed31cf5bee309e175fdb1b0998c77fa6bcc4d008 0x207dd8fb1a1941d33aa15f9d400128edbd14f7f44335cdf86adc858d0a27d5b9);
  (true, St 0x21fbecaa5b7218e577b0fc40fcff5c97430def5daae8e975e7955b5d877e99b2 (-0x74bfb51661f1ec270e183e5ac3ca2f5a61898e0a449457db660642462b797e) 0x482eaede0f0310dc95c1235eb1eeda4ef2c2cd606db0e42587f5bc4804e4abf (-0x3eaa7fa1437ee098bd6aedd7613a95e9fa4e147f5d5b7056db1c6916a2db461), St 0x5a70cafc7bc4b51b866b51ad366439f1df1d0413f3da383c33f1f176c083a38d 0x515dc668da6e143306986705dbb7333cacc529ac69b08bc8ff60475a147d9ef4 0x1ff3806be4d98837ec69b6a18efd498e8e114490933e081b441b62d32cb90b5e (-0x2907c3c8cff8a62abc44593cbd28e2445d8866fcc95865c91d55774a89f89cf6))].
Definition zsk_point : Z * Z := (0x2399cfb3a72515ad609f09fd22954319d24b7c438dce00f535c7ee13010856e2, 0x281dd64682f55b96c2cd6d13beb295b79d060783ddacbe1cb51ce8d3885048b1).
