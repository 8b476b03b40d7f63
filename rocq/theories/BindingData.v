(** Data for BindingExamples.v, found by a program and checked there: the point that the example's epoch block of number 6 hashes to at counter 0
    when its digest is zero, and the additions of its multiplication by the cofactor. *)
From Verif Require Import Base PointCert.
Definition bind_x : Z := 0x11e4fce096f36e82c4723c458586f50b8f0913b17305fd990f69e72cbb6dd39a70cddc0f390c00b5d4efff85bdd160f.
Definition bind_y : Z := 0x167b0a6d8a50bbd5dbb4781b4e9fe8a45ba5c4660370d7dcfa40b56b9375019e736cde31816e55bf7f3a23de58ea9ae.
Definition bind_cleared_x : Z := 0x1181c3f012d318c78d2b1fd0f1d5e22c35e803f14a23ff74e3d0c38c2ffdd53d18c72e9c85ab0f8efccd77c685d4fb9.
Definition bind_cleared_y : Z := 0x927463b934adbea04543e5177c626ae5e4702c4cb994cf95c646ca3784622701175933b22f194ce8c25d64b0e6f432.
Definition bind_cert : list step := [
  Twice 0x797a7b78865b82272708f9f5a736985fbfee6a2976e764b781dd16951fda840c2b2c65e35737bb4491dab1b6777464 (-0x1707d20ffb552a711007ebdc3c827a4149378e5ffc72c46166143fe9ba4491de39d66ef82712e5db6e84c237c677eb3) 0xd7bfdaf1f0eec21f58367363d37efbac00b22b3d15ef99aba4f1aa3dd4ad0cfecd1217c6e072554753feacdad63b7f 0x224cec0e60a298315dea3a98ce0fe71ef7a377b76004982b8ae443b64e289dac1057fb84e5d34cba9f14e607525f73 0x646df7d6aa97dd9412b1269d10f4f59cf32ed3596030b947ae935f47c492c6c608414db4cfee19cd2c2374a5117f4f 0x13ec82acc6af7e48f14b726b93e24d454a89c4d18fcca0f2067b6feee1af9d5269cd940722d33f8a384964f0067743;
  Twice 0x1cfb8934a8bd22996deb5fd91af35a5f51547191e65083bf0a5423f4ecd6198a86e0fa7714302df7fdb2165a753d33 (-0x1370ca4f6f183b896abf3be7c2ad7fc00a4f6fee1a91a64284fe7a0806d7a247db1b0e34363d6ab0ac73191709cfb89) 0x139bb15381f9fe163d95f2e33b5c376dcbdeb2d212d6239aaeb89345c4a0584c2bf4f5390d8e4b8d08714330c271be3 0x1f3d263a044bbe5ba0c175c59237b5531fa151cf57745d0c5e9dec9d6b1d747c18f7e1e7f1e2f50a103f0196bc548 0x2d8332aaa23eb60f6f73a562a34098abeba66fa8a8948e2c28a313173483332e5ccdc4571a72bdfc8bf4cd2079705e (-0x699bf71f0ea0ad07ef60fb49b6bd04dbf7ad8921960f3a961175289241be3948957308be0807f3303652f93d37799);
  Plus 0x6208385083d1395a14bef0eee356aad187295730a930a349aa1e6339127975f0cb8cc938f5c49b86ad851046e0107 (-0x63f6b7e298231a9f8c47dc46c6bb24ffa8d362047d50f704f1d561131ede21a54cd25c52ea42d6a715b5b239361c) 0x236b49bfa0ae7a5a8dacb6c00450fe7ce80b3be3c56d94460ae439c4be0193742e76b7863ab0376450323ebd627838 0x1656734e36d9a4ed14769ea823ac81328af0301b6779be6c01d928f2106d8b74c508c7cb405138d48f50f49e6407 0x15a1ed2de676e38fbec6d1793967ec0d239616bf81d050970d28e7b84edd931c96b806a8c9b745d164673a08ee6cb66 0x3f6a987701d331e9e3303cb69d55f622e005f13ed680722072120ad60790d1ab4b75684134085c1ebf5b73c1de8e9;
  Twice 0x9ab7471e28da41c3d8b8876cc2bbd55858d5aea5e65f51409d295ad95dad7a23557e0e22ae9d5e7c6b7b294fc9c05 0x6cf99f3d51e080ca872bbdae742aaa6906ba63a3007a2db136fdda907ffbba5578318493f6f9d79721e4c63ba9d3c 0xc6c40195aa729699e0735de3722cb99336fd9fbcd3488acf451c8c218c99382de6b2e7fff24a147338d9ee1295fbb 0x37a3560ced95009e96995018b3c0fad990015a428d5d93ab834052cf5e3a66f40bcfc0ca188c3f92b880f4ffc7ee 0x7294811906b4ad1e2deee3cb9b9d3d3e341f578dca44d5a21b21b3e7403151f81a0da5db770e6ce894ddbd62fae38b 0x8450fd53596fc066c6ddf2d38ef254831361ebe313cd0b8fe7a09a791b84a887f054a6cd96faf5f57c3a8533f780;
  Plus 0x16047f85f6a1dc440648677c220df345c7c7c4d27127ab4be00cd826cec8bc140208b7e316b51d88994fa38ce207394 0xe0445e216ee0c1868ffafd522d6f9470b036fee94d77a86c64bd3e77be4bf3d2ca2fb9e76f24a0717da6e78ab95e6d 0x4709826645f8cb88a34753cd65746788b59293810a22b22c16c95e7c3fd7985d1ef97c6b0eaa7d0c1feebdce0adc1e 0x12074e34d4f7a221640943ec39a65fefb667f062d76f4673f578d50de7e1748cc1b7768e96184c6ae67628a3e1cfba8 0xfd67078d97b6148826b02b3fff1d2f96dd82008cf544390079a88de69ace6792e52475f5cde2c56e1a8ccc674ddc98 (-0x2ffeae5202cd34b9e6dc8ba11d676b1ea89ff373699de2a9cde4f01461dbab09a8607e752acf8606bc26c33de5225f);
  Twice 0x9412ea052923f02e31cfb06d4d3a321b0037a16d3cc386b688fc8068cfeeb66c8c19cb3ab13e3450407ff55b1c509d 0x8b3df1e423920295b6f713a411aea9752048e80015de14e5a665260126844f2ec0f8ce82e94a0f9e559d0d09ccd7e4 0x151c7edcb70748a8f1f14c59e12477058d9694b7e9cdfa3a540aa5e9338ca855a0e42018a28296e5029b973c84bad76 0x32f6a3371b37ca97761a237a69e1b2c84f56393ff4534e3ad8ebc42eb96cc3bf407c36e45bfbdb87086003f5591a97 0x390c6ffac59c6fe8dca911aba874b40b6ddc03ffdeafdf09c0dad970f90c4064aba3300661053d5fb02e78cf56a4aa (-0x5bce862fabe1a54fd9f86d98ef0e6ea38e29a700f350b9033de17e7fa5869608438bfba64fcb0261e8d5cd1f70643a);
  Plus 0x485ba26a88cb835f44c518197318750435fc6edb8ebae739165776ab4f91a2163004779b253c252b60dc4e687358a2 (-0x8a807a5fc8adef1da243bd49ff891aa39a18b17ea4682204228be514b02f2d5962667b517615c0ba709b793843c32) 0x19992bac808bbc475a0bddd88d92ef3314a7142bc7e630b86fb00e70669edf0e90c3ce5b6d1177ecea2b068ad131543 0xc2b66fde5139e60ad0d8291fc6eeaf672941a1796777439464effe2d4c892ade999a4a4ba65ec6e75f4df8effedbc 0x6a0e23c1e45fa73de34295edb56d60a1d653221edbdad52ae05d9f77d737e93e8890dba1e3c8b94412b2e937ba2ef1 (-0xc130b1d55b7d87356d81a6337e854ba4ce9ad6eacf5a08765f56f1cc2d28ed795cf3c7994c0539bd52b344205fb55);
  Twice 0x1a5910a39e64437c5c59aca47b241113b1004f37c13341054804f6f86c28e79c04f270021c26d05bac77d70caf0c92a (-0x3c1e3f3e4a44b70d733f6b82dcb2813920e228c3985c6c611ae967cff32967646dfc79a6dea6c3c2489adb528745587) 0xc1adee0852f9ad45a3aae9469c58e30fc6edfa65d83d17731a35aa71dec60f0d3a8a128ea9fe485874af5ec2e0f399 0x19d147129570ea1355254a5db91c58921e245631061fe9197b8bd77a4f432275e08b9fd1bad8eff04da187ff7cbdcc5 0x105833cc0a74d7cf79dd6b9a14740c2aea93dfb9bc2a37a2d98aee7ad056a54e0b727ab153507faae33601a6a0877b7 0xd38c29d3af80a23d0b4af1941638e28b70429bdd34db068e1c06af7f4add78bbc8711539a8bf2e02e5bb6dda45593c;
  Twice 0x166aefa58bfdd0cccb8a4e4689467d00e05f1bd9f6deec542739502e1fb4e51b47a64b0a8f666341cb981b35bb556b6 0xae7a741e2ab35a431aec9bc2cbeaa20b5cc6625d3ee21cad9089997fb5c49f6d14c0927364186ebfa6161a909bb7e1 0x9e90b8ebee791cdd5bfdcd2845c5108244e824af73c3e8cca500bc2cf7ab1de5e38f228a7ccb7679f9cd8527eccb83 0x12b0966450d5ac0345c0e69a7e0d2a27f5be8c658ea0217be2e88feaa59deffded12d3e51694c1b6882ae5a710c16af 0x161d2f7e1b1b82ffecb92bd2ff3d3df1e3c3f8554f046de918e2a551f8576928e392689c8ec99faea6b45aae6fb2d55 0x1d465bfc403e1baed91fc071adc7b792d2bb031718cc5a6b81c8f9c7a9924ce235353351d593c608ab7b3f07963e98;
  Twice 0xc4a4474986dff4f8cc796e9dd764d94bdd6b46e3a1a8341e1685ba56de45e80209335ec133176c629bca8f951e281f 0x941e1899ecaa47f2888168b1e0e620e5161eedf62331a62a304a6c4b697078174823a9f4d836ae692d86b4b0f87b7b 0x13e404e889d82290e5ba53e8c8ef9b37cd4df3c74bafec32694afa3b231eb18e351c37234abd4fbff0096e83d64a7e7 0x59e0bf2310aaf971711cdea95d8049df86c695bb6f644dc4b44aad17a03d4da85dab11bdf8de6d8234aaf0f64f74d4 0x11b3b46cd9bdbdd820c758864d47a88b991c4cd3833d669c9c03efaac2fd9c557fae9dab569911ce39a7066a8f17e64 (-0x48fc99c4defd4410e9b91c1244dc78daa5b1993b2ffa6b71d8a0cbaac5c2462aa4282b71e17b31044a1f99eb97fbd5);
  Twice 0xff2286d21334b8dd57cbf3fcccd2cbb94bc22f5a4826a07b19d7ac2210e03636fb508918be332f9c00a426b50ad237 (-0x17254f2e99282f3c9e757fe9b6bf0f4183be9cd242834b5e4bb55d6201ad5b398d2ccebd768a7b4ee572446fed5385b) 0x94fb6af95c925793be8bcb0cc69e12e3cd13edb6c35dd7fbafda52d7eb016d7d0043cf2bb4709b61c6bb32a00d04a9 0x974d03cacb6d4c051500c0e403b1daa0523e2a4b8dae0c40ad5ef857f2fbea5b6eda3dbf577c857179c507c413f35a 0xb730173c8baacb7696dcb40c4b8d48854e82e74e10b75adab581bffe3318ed1068fb19a93d7c6e19e2c3db0c874990 0x6461660cfb55a9c4658a02dcdf2835468a807a255b45f6eb8e5b42d514afc155dbc1d0cce040f35f6289e032b0265e;
  Twice 0xe2e42e0f4c3b1753a1ee74bb3fe8d970018a049e765e541c075a43d9b5cd23020596f2a2ca3983085eab8b7649404 (-0x8eb20a0bd5faa59735b93f4cb721dd24d8e9ee54d6c01ca70eed874a78ee3425470231d5b8bcf096b9225001f65a33) 0x67d4b238d03b6c1caeaa99137b158efe81f1006cc6399ca0a0846b18a00f33552d25863c3b8bb18edace9580cc3b35 0x77a8260334dce7457e17344510e30f97ba0de34812e8f6a4c3ffd23c07300c7e80232cd8028b2e5e03e6efce5b89 0xcd2349da42cb308edc881d27b1cd575cffb21b9558aa02e99135bf5cca5dcbf93c9cfe0c7951078dfe239b9a7718aa 0x17cfc81b47adcb45828f4cb965f14d28e2af6b1815c7431c9ceed1d8b9a45ec7c0e51dae8781875e979bfe7cbd396;
  Plus 0x7c933f9aa2bef7f6555219a1c819577826338db071ef8eea2add367cf82d9ad668cece96ca49d526aa29552d4bacc9 0x34d6a9515063f05eb1f93358b143141c1306cb8310528fcfa47ab40eb4c9b69d4b1f94ad25c3668d08ebf5780cbc26 0x8c1a6aa95f6619911f9e90207234e1385215979480efa5c5cfbd8640c0db352708d4f1da2e3193112c6421da6eedf4 0x241251233a07a37d443117cfabf7e508dae0342ab83be24dbf8dabd2648cb9055c19950e650fd5f87fdde7a54c7699 0x930caeae668998148c6486996333733589366104003a473115f6ad1e03aef68ddcb302f6ef5f656560561b71aefca5 (-0xa80bd862e22fe2daadd6cc8659a99393a3ae725702dec0e9f2c0763e27634822d36bcbf3c2a41b71e7da3adf1c146);
  Twice 0x169325c42f9b1f622965c9b2671cdcfc34f5081cc895e92a5c00dd691b6005ac91eb868022e0b27eb57f4329980743 (-0x7971058dcfa1cb9d75418a96d3dc2d375d4beb8940b2ca4d62ed4d45c3189625bfbd83d9680ccaadfc2f0acf3fcd52) 0x142165c071bec1eb1a1e39045cc12201907329039393100e03b2c10d084a1394648c7a2b2a992d71630599ac91b1ac3 0x12f3df125b47b48ea2ccaa9da9b203029238318ef2f5e23b6a3cbde4bc9da3bc5c87f2e5e42b45328b1cf97cbc4de 0x121db5b5c1176a8c114fc0d6b2e8632ef560bec002feade0b749cea68e8eb40889f4ff0270784c80990db3c2c1941fa (-0x98c8cfacd9279d1bb90db5977b01f59ff99ad15d4dec1a8d117094a641c9ea62cf5ffbf769ab626a473198bf9a1cc);
  Twice 0xca750c10e436b41e1ca03913dd6cbb3e3f7f7851acecc62094111e5cf466300cc01ce2cfa4b094d034b261ba5e5f87 (-0x1c2956aa87def414eca5c49e178a6290c6f30305d90261ad914001d28be2088fb4a310a0e73b159085832719c976fef) 0x16272808025ebd9f27acecaf6aa284ff26601f028b1c3c85f4fda80e0e8a34ca5a6d5af116802856aced530abbb34d9 0x5f45cc0051f9c34786225dcd408c5f7471e207a152f9f3e86ba6456733ee011714647d09d258dafc045d8238d80ed2 0x14df5c5b0a90a47f3520e2d67894dbd22290ec24d4712c6cd8ae1dd28cf3eee81e2619f35a713fbca53c492490e3b4a (-0xf3a5d7be1001288c0e6515e5174a48f3a45d5e1c1768418c188e520aa32c2adfe35d81c5a5baabcb4a305f15768de);
  Plus 0x153cd89ce77031a4de3490afa09a48fe17c56121a5fde50e9982139dd78b3902a153b8115f859f6b320822e1f091134 (-0x35d09c739603239e58383a489949e02cd271904003c079028c78141721fea0926993d9e509258bfbc1bb3f20c4196c) 0x1a8e61f425ab8d36172c867918ba0cba49034e43dc0e8afddfd0683b4465264be697fd54f47f3bf0dc60261bfefc3b4 0x10c622d6809e7d3ca4658a24607f6cd0a2103929ea36be42030aca8d10a5961a39a73ef8af1b8a4c10359a20747e3f4 0x85dae968ed14975bf6c051d8c89b1d563e0ea6ad975860b1269508b42b5395c17feb3b0736b7a08f9a62abb3e9318c (-0x37a4ea0eb5b3e8debc76912cc3dec9d0e405dbce69d59d9d8088fe8f1176724a15a41f181a0ab33adf0c0d1fd3fc52);
  Twice 0xc400faa21dbd75eaf4fd23e04b0ee4601baf6451ddbfe76dcba1ca7ccc40901ad338fecc756d795316ecbe6a80e1a5 (-0x470f1d87b804e03a996a57bf4c2e9f41df2c97a8b777dc282c7c460c93b073923ac89ae9019e91142ea995977692d38) 0x898ac41df86b364caf3694c5011f6403a9d10b79aa1ce9c2cb108f860295d4457971a4463f92a91e3b5f9ac7c55e39 0x594bb6492c0783a117fe4039c5f23408a2b1a12ba4cecd8f6faadc309bbb87212d3128d00f80017770c04cc83e8eb8 0x14012a40d51cc39958b910f15c3b0d6443c54a414afb171b1112f800b266a3a18f57a50d00af31bfe7a199d990b281 0x82ea1de70dc4f899349f94538f65ec9b262efe30a143273fe155f279f2b09178b9e87a260c1d3d7f829e97548a9f3a;
  Plus 0x10e07ec59e4115489025db0bd59f968a2f61cf806bd2b14b81cbebca156d154671fed93635edfd91d31f4696d6d032a 0x5d5ff2d742d2f3e75ea9cbb13672b377e3d6eec8fee502e6a2980f4f1c43cf293548b826bcd966b170ad97eb2bb3ef 0x84eb0aa690f45af752b0dde6dacc6e08b8213e7a71280b10fe0629dc40d2d29ea34606d5aad022f03febb09955cd9a 0xa97be9912dc077d11d718b2c12c392c2be30aa58ea504c993ab8369babd0a0308040319e80023dabb2e04db8d5c102 0x1db78493289bb24b9c6ba252a2f14128bffbb29129dec94c385b3887c08f757c68f7b4aa62741cc7334b12b8b9e9bc 0x2e6f5f3ee7173db12c542fa0d69864bcf80280a29d803ba67d3899cb153ceecdaca362feb11dc8a1b3995a167fad9;
  Twice 0x101aef113d0508d0546dbdde346ed066d5ab7b90c654d47502afd37c7ccb93e12bb1a0b681007453511aa0b0ef8c8d7 (-0x5798ce0fd08f4fe708c3a528688da10c0d53eaed0ce49393b5553fe7dcea8f61bf9908a5158f5262baf6ca926fa824) 0x128522a670a27d49602c3f75ba676b673f154684f9c483a6d929bab7774c2cb7a2281eb043afecb3547237816053f24 0x9a56ac77d4b9ab4a7df65a948ac05c28fc74fa93cae51ae7724fee45f16f2804cad63298f7bcc38b533b5df96fca39 0xaa0ec717aa7b30d00c195c9a58122ac51d4395b90903dae4ef05311d2208dd5d178038218abf92d145f19e06e531b0 (-0x61de9bc0788ac79c736ff2d7b2ae3d4c9a49c8d57cc14d41e4fe22eb3da9c12d5945dc7d74324bdefb55bd115b4652);
  Twice 0x1a5a8ce8a7996878fceb02aebb50b3aaa5e8b111f5a1bb235c33fdf782b8040d8e9291c3e47a0b7427e1f92319fd647 (-0x116ef4e9fc471e0fb2e54bbd921c830c711ff6d794c3b592da792adf1c8591b5539784a4043dfc10391fe790a1c6790) 0x1304c50d582f30bc4715578b8a06be1f177c689e1216291aa2d142fad6f8b331250e0206e83cb270c7d3a68a76aeebd 0x19d430621feac4bd7d044643765809f77636c994019fa55ed311a80704ee3062af58bd52630b1b1b74bad763a175aac 0xff692d243dbf01295485683f360b17d66411f9f6bf3f727ce94b6424bad6a06c7ec4a179484e62ec2e6a1cb0eff049 (-0x7d17ac27dc26e3f1feedfc81b2764fa4badc62476849c4821163b820a70ef141b41beb6ac1a02dba2430464d9bb68);
  Plus 0x763b020ecbfcf01e0ccd4944362fc0935266850703d229333f9aa9aded0ab2c933856a7f466967b732aa623cc6f510 (-0x4f15ca1cde17cacbf3c0c82a14cd773a75e8660c75f9d22874242468ebfbaa04af6451ab783b35076c48f0c6eca45) 0x3ed993f90a0bd57e246980273794822dde850f8b438abce0373e002eb8920337a71c27fe5e2f98954ecac1c1fd125b 0x207da6c71a1f1bef0037defef3590bf99bd840b5edadc98edf3774bc50d4645568d53c781168d47c34f89cba1289d9 0x8915bcdb0d718e5fbc2f65cf3c82b0668de7cd9d1ab2587915742a5c83b5a9712d92703680b71cd86f32487bf022f0 0x425a28640a985739eed871082e525c66202461ade2a28a0ba0922cd8a797d12a58e59f7539ca71f1a57bbeb9b37ce7;
  Twice 0x12396909196619137e7fda3fce2e1f6bcac2efd829c10dec279ce494703e209e77dd59b079659e31dcb12281d01ff20 0x9e466f131d05c1330a31ecd1233be8160901f784672ee7688c4c3d91d1f1bde44cbaa76ba52eba7650b8a089f616f5 0x20a417493b0a6865508e799bf2bde751eaac5802cb70fcdd2bf8b8b2cc34da1703b114203bfcf35bccf7a6b8f26c19 0xc59ff23b6363b699a96cc3d4787cbf3180c65c8d122fce4593f6ce033c6ddc8a2c38db94733b077d3260a6ff943331 0x104e454a3b4c8380d13ccea96b9ea38e338cc420eef0a8ea193a82c239cf736cef0f21998a672558b52a8d357134d96 0x147965393cd5b87b82409c528457401e78b19a01c0af5e524871e6a462ff02a0eaa0480a60402cda76d2770a2f15ba;
  Twice 0x17a7b3a717ce1ea187cedefdf08c912bd151ad103cb527a7c212c2a606bc571a634522a5956e482704dc8814d3ff23d 0x1c3989f1c3658fd23bf1a949c58e3a16b39f742873ee570159b3b5e0eea40abd26ecf16fd44bb6c3ea8e08ef2fb4229 0x8b0d97ce3c2137986f7a1e2ffc3abcfdc9223e0f45e665f96ca88f27ce6419440c43ced3eaa18d326c87556c6b70d8 0x14cf57db15122f2cf9f1fa3871bddf6df74e8fae1789f3f4f25cb7c1356685e6b7cdf12d50f4d1670d54288f2ed197f 0x433d6a1d1ef5c8ddf0b6b5bf2b0a43bbd5a03f059858323a85d276831442da5a569cf3e944f418665a6b2510b182d5 (-0x5d9cfd5a03bc0bca84166b4cfbc8846d2021ecc9653b924b78738b088f68cc6ded76ee11a651dec74023b630187fee);
  Plus 0x13c6c5dfebe896f2e3f79207e8f520274e6550e9e12cd8be1f227949b6cf9f0cf43d4af40782b552c3bb2fa70f787a1 0x6c4e3c774e0795bf03ef0f6c9eba65d02ffaf788592df1ab088679a3bc367b75e0ae7d7010a6898eb3684927ccc1be 0xceff89283007a0c612300c06a2c5bea432547649a542063ab62d3ddd0cccbe162b38edbd54c1ea08590db62160f520 0xe8b8fefb76b319eb4c9bed1d0a2ff5d1a70aab2f85061ad0e5f8cb775ac062573b707039fd7be1acd03b73f6dfb73a 0x186a2b339fc73060a957a8aa3acd5165bd3a6debb842d4b595a1ac287429f45b1f8b14e75724e3172a3a59c9598dce1 (-0x31f8e05df792e4576c6c8ddc4748978003c440de7264a7ea7d2fbadbe27cc0acbb2d36dc943137b9bc54130eec88fe);
  Twice 0x6b0f05e59bd5c6e422a527d4700724d044b37a4d3f85d033f3988bd6195ceb68c8704dc889d5e58f6c658ad06cbeab (-0x685ebd9ea94f6109377cf5e14790a69b168c73b6a661ff533d3ab5334ded02e8c4f605a454d7d72d9a4e864835bb6a) 0x8acc91830000f52feb0e1a0497af91a81487a8b4070ec558742c115bcc5a19844c123af671068d8f44122905d81405 0x1aa404613ad8614d084a5b00357e9d6356745d262429461e37a684c3827122933ee867fd0206e33e1c34ce05b047f4 0xb8f9e8173ace7d2302a7c77e330773c7e0cf037c00cb4c4230bed58a0e107e0228bdd5d13a89c2bc69d4864bcc4454 0x10f886054093761a871c8243c430f8d65a93f3bdd7e9e0cdabe740019b503bbbfe4cdedfeb531c288e1bc1017f45d4;
  Plus 0x6d6ee8a5e2865526efcef96f4be7b4ad90f6cddc56a4f6be7795b5822ce1cae8e408dad6cab6eb089db05af6cfebf3 0x25858102b52c370794b374206e07d60f8396d92546063dc244a383e32b6ab37261f29d048d8c69e8833793e7f3b824 0x5dff90f125f83799bc1f0f0fa7e54c73179640d32bbc4a00975411d88cf22cc5c49dedde52b5724e27f80d9e86f981 0x1bd5e83bbb0f8d522336e40270091e4f1b40a9931faead2da2013d84745dcb3a0726c864330fb2c1783f037035e514 0x18d278e2afaaa58fa31817845246d476b135fb22b84994d5d485af3fd3acfa81f837fa8b7bac0c04801befa018774fe 0xb65450c5d04d24c5b841852f9b71dbeb97d30493ade2412df088c277b3847d87937564127d7daf60f68d180bb9dfa;
  Twice 0x922b9ae76954d83a4cc1c6f931167657e80dd6b7d0051be2018431ac58259040d425019535fe3f814bae485e51dadb 0xd041779aea385d95d5a7f8af376c3c65a46e9be16739b0f4d051ab652fe336fbac836cca730b950524d41dbb162991 0x351178d4ef6394b1df9379498a56a1e89f45d0bedc07ca7c74ab3de886312604da8e8e27eb0ea098d036ee1cf7d5de 0x31a95a94c9a3e3c4c7b6708f0b5e8ed6b3a28d27f25ee991fdd1c119068ba18e15f5ff32d05c846fdc1f0bb3a9ee79 0x451b037edc079c71f65ec0c643d74e2f76257fd3f06e99bc54ac75ec21b4311dd1b0236c1b2b59c79970127cdfb729 0xde7f1cd517d1cc93c3ca1ef8d7a5abf0efb13087205bc6f1dee19b815b31cf73ee60998e5fadc4caab8735bf81e4a;
  Plus 0xa15ad5fde7e80f6c9469a17364455790da852a7ecdb62d9f95a71509b12407c8c9cd5e47962990383cc44673a02293 0x577a139036f41e847bbc1eee9c2637bc33c0bb12e804cb9d63c9920a1d2f3c21acd7558e1542a433797795491b6b9e 0x19026ce6d8d2cc3b633ae482fa90fb8681a04a29592b9290d8a8c58e7394f269dc86d95e7cfff533b19a1212c27a105 0x3c83eeb1dcee9ba3d3f65daf08a2d5412103602c7f2317dd4d58d922285e4df58e1a65fbd4c59b6b1b2b97a96ed377 0x42d003668437c5296e7e4b4b58465b624b7f5dc2dc0954adcc1278a026b5862201c77af2a02ed78cd22ac2a8150021 (-0x822c0544514846d41bc9098b19d94915064e23b5e8e7c32b9657cc2571c998223a973f95d52a1ffe2e7cf6b3c18caf);
  Twice 0x18bd2a8b8ff129bc9f3368a10e47119f420acd6cba08d7070d26a1f995243d92e2711adbe0e555723d0483d878bf4a7 (-0x3e1984ee5893a0ab7d13d662857414ca22df3575bb763b61150b37858f18ca0cf2ff67d4c276e8a289c714840eccb3d) 0xa64962a74acfbee546a24e2cf03a540648d6e99333de7f46951a7ea7f96a08468f0cdf459a492e9c99b93c9204d396 0x16c2b60bb431ec558aaf21b9abd4d6684a10a8649f6bb712612bf9a6887db285b23b998bc0b0a2eada3b4a2ced4af51 0x36b3d194ed09a963b97fc5cdb2814fd773f547e783e92cd04557e04dfef0d9f67f0fba4ec43330ba9424e6d01faa1c 0xd729bdbbae85440e571b16768f10b3bebdd356cad8c4b6e658cdf2b253f99c15ff5e8ceee8bf437779100e5492252c;
  Twice 0x1c49bc581996c3db50b256fbc90b75ff0adef5b90351f57ce0b18b522a7fb90031772cf560672e6ed6d9614f7ead6b (-0xb99ec1a38ee4b9970aa0891cda1cb9a6a270820247c3e5a3532b1433759cf36394f86cdbd6d0b62711d99da8bfc844) 0x156732b4bbb1b3ca3eff5e6cbe0e877e9a50346df0b1e35bab1286da20ae01faee5391baf2d3ad4c45c8c1f1f773313 0x1dc2752b8fa567d2d35c962669175c723ebb898f67c714c6765f5839b7f5d5e8543fd795c498563d6c034f14cf07a 0x1b42c2409ac727cca82f50442c9509db1ecf01b27e2170f85a54ac43060318218a55f4f3385dc2e4ccf26715550d0c (-0xb953d0374829f3b899600bddc871b4242ab55b9286124adbe76c3ed7b711d984aa33ca39a02644dfa22b4e1501967);
  Plus 0xa77650e833b1f3de9dcef2126d93a66218a9faaa148c3e54114372f19be893362ed919bf6bb5e751ccea380266328c (-0x15d9ec11ec1b14da035cf588b538532a9c6abda787e31211e497ae8bb022627355be441f858a0ee1a68bbf79c442d2) 0xd16610d200e9c7c540a8cf89a19eef6519ac930b942c02407d72ee806a333a765bf700247f9a37d6133c49ef3c776f 0x412ee0e812d1d76a3283145f5a14ef67aedcc363f9b79d523b4968c7b7c5d0cbd96e1d9d5600d8088dc67516fa3bff 0x5ef00232bac2903f592c87bc84cec2baeb7499f5ba70a400468d2cf964033f43caec81189f084d8771910f3de19d60 0x33c9f91b55e374e26a6cf0c938f6e0f9b5080790cc86439e98fcdaea795addff2492c765b1089bab3c694990e5fb44;
  Twice 0x1794bc99fe8f2e26adb2a31d1453a98a0520a1bef629b2705d51daa007aa23cbcd923934c87a7a2e374e87787871e67 (-0x8b3d1a1c1489a1d836b4d62ef2404d42dd15163a100548bc58d29bc74a78f425dc6366a98b87df18623bd279920323) 0xebe82ee765036bb77bc4885bbe271ca2e67bd078deba23306bd5c1974b348fa86dd9d3f47da53ffcf3e7c7abb638ec 0x14ae0706d0e7509e54a2dabb94c0b22da3c235d5c57cbe3d57c58fe5690497afb407e2d3adbf26a70411cc82c0f25a7 0x6b9767366017a687fa2b5681b355d9a8b2fc4507e6667d168b61fbe1cdf311cccfeedf446b71fac8f7904427a6fc84 (-0x173f35f2871f5cd2540c8ac63b43040f0771f92999f98937ae31fbdbeb81e3177192c6905f10cc76d46f59731d192f);
  Twice 0xd5b9efd7afe9301b90a5f38d938e06f6957dea301ebc54bf0161a2094682834044c0ab35e8d9867654e6fc583576bb (-0x1192ae554a43106cd223ee144289cfcd5f7d78dab91cc7a04b71bb8a9ed41d02be7d4c51bf1ba15cccae5399f41b3d8) 0x10bfa92be5c30a1a1b7af5269e1362ace309a4da555711ed243293a8fe1090cc81c31c6a4d8a3647ad55051718fd3ac 0x6a2c839368d14f7fb833886621e0cf86588ce89076a788a97ef6071c3522a4756d494ee9cd3d229401b1122782a715 0x10984f3272b5951c8f400fd270e2a2edf563375e3a2ce459b96a33916c16d2e926294c9fe99a9f0ca6aef0fc1aeb508 (-0xfeeb7580e3af68330da2880cc6d7c5b5e115acf8631fe5ad503e5f3a7d8e6deb2af3e9b5b0a0570c5f568c65e3bcc);
  Plus 0x16df1736021b540124723dac5bf664684fc8c58f3ddf89245605366b8bd6f8df93c083d049fd7857b27cd2c8b756d1 0xf97f87651360486d58b6b405e85cec6f8c3c03202b92728d934da6a8dc4c332309a91903c5c17b04491ae645802d 0x168baed554b6f862113a6ec29fd7f9a17c0b52040ec2a5b628ab6b70d896bb3d6c97d2ed6a361ec283a6205205697d4 0x1374399b6624834d7dc278213e8c3bd81f3d7a3885adba2a39210df17557d6cd1cf069c84855e9c2baf88de7b9512 0x67ff75eb91ce3a30482d1cb763fd0692d16a6114c9032d664d7b7700d94fda9f8fc5d68810f2d2adb7c89031f84df9 (-0x4ee47b0bee849c29ad434fe6fc6cc8a70c5c2aa9c244c5d8661142aed2b98ff1184d68932e498296f4a2de26a97a9);
  Twice 0x17b949ca5b5aea9f2247f85de3a9b6da695960c3e4946bd2b47d882776739565ba5b7fe4e16d26e867ea24d3bf0d647 (-0x2d3ddfd6d601a6aa5bf9220479e76cec72f15ab3ab49c6983d6d29e3bbd355511202247a04570edf501ffc2427bca92) 0xd5a251815c6772619cc1fda05d0a6745267e750015370de8c79378608c707bfa70a61f75ce1a20d01b904462ad3eff 0x14ee54a178fb8c8af4f9b6732fae61cd92ed7ebe7a554e236560bbd212ad809e13f0e46403188fcd057d3be8f20590a 0x70cea6d57d1677b95bb22662161f9034fdf1438f6537d3976e303fab03eb2c84666b7edb58ca54af9ec72f50ebea8 0x81c79c161152f2a922b41fb4116e0ca21d01eae51f682ceb37ff91ed8160f174258cb3258677425fb06e4a61e2a472;
  Twice 0xee7a662d4b07dcbfe7695af570d111e9aefc6b4ffa9f61cd2b7b42d56733ca8ed604f1144ec97754fbb1b497c0d52f (-0x1366e344e1f3b44f8ba99afa6d5e3ab94319bdd942a46e596a37cc5d0e573477f2a445ac5f65dd95cc88d8b9fc5f453) 0x4743c81e6965745343c2666047629d939a17ce5ae39b96c6b82fa6172367288f9b334b70dea807c28f55f72b8be038 0x8430a777371698d66b6acc9b8ca022de3debfe9ab390fd7689ec4be0a272b07dcbcd123b682438a4a71e55f920e06b 0x329e4514a3b54f2245d7f7ac005eee9689deb230cff1a86d431a2d18e1671ca084fcafb0d0ba7441d53eff52071b66 0x4eea9094e540434cda0e54292b96cc8706f83aacaaca77d6f0b28301c43eaf8faad2574f84a5e77686ca7412261f7b;
  Twice 0x147d24dc275aee1bc06a799adedbc27f9fd72d15b8e0dce9cdddaef7f80e3fc9c215e96a3847f4aa50119bdaa37592 (-0x1e97b516ab6102b855e519da2f60340b2416dce6670276df03ec472336627d79d99fa50e09cbeff723ec01888ba868) 0x27766b4a3f89deadc8f6467cdb98c3c71acf2de42ba8023dc83b8555420213ca8e4612e2dce46a823902b1f409f48a 0xf9ca7690b097bbcff82845d8388797fd0e12acaa25026924090e702e05d6b7d6a6008e6a7131bc2960c74ac9124a 0x1871172dcfa536d2b62a6aed2f01342b748d61bfab720ea064d4036e3e0d58bbfc058b997892f11c65dd6d41c1da988 0x183b7df7159515667612b6e90a02067cf0c44865b55a4d6288465d63d7a2782b199f8b933168889f3c4c9d6742a4e;
  Twice 0x28f4e40167452b5408bdbc49faaa5546cff725c04fb290e32c3ca785d1fa74b391879e08ed416ee699ae0b7720ed58 0x3f992ccbcd8c3aaa1cecb69d9ae34b3ae461b458abbee8924fb33f3236907338d41b7dcd99d412bc9d9e7e90684e54 0x907a849cedb4dc742490b830fa9d58a932381bcf4d04033a7d7938e1fa291da82a1e4fd860f43d3bb599ebeee6d12e 0x3e622b699e2a7335ebbb0e2d1379bc016b1409f89ac4ba1b5dc3637de10ca6b257513c0e2975d350187242b1153fe 0xb542eae5ee20b5a987fc11d8bfbfebc209da67041c75b11065b681d941c166919287032e134a943a1f1e52f0aaebbd (-0x9ff4cb0eb5206a6af1e3240a962488b0418795e4a18656dbf417be286d59ad2b6a0986e8d1d691a42d78b917841a5);
  Plus 0xfe871f9d711524217609356cdcc5e8bf009929b6ea9b44e1a63f2cf401ec16dae70ddbbdab20e87a8941fb8802afdd 0x53e9026d2cbbb5d2a79b02c688bb8aaca417e75dd9b52e242aebda6824c055f923d5876434ce4b1dd96b6a868d874c 0xca65bd2eeb4d3a0efd5b61fb3efcf41974e38e61e30e13174a8c2de7278b56d38f39cb4685a7f034f13611d05b6a9 0x9694eb373e0d071851393c7ef457c6a37377d39600b5f240706cc604431c21e3715c4c0225437ac1ca02faa07a46e3 0x4383b064f7a9ce8bac42052ad984961d2f7834e40217afb9ea8133d312551ac523463492566e00795f403afcab9713 0x4dfdd0d4fa6a285cf8d41a0124d589a6d2f13500b74a0b2576b4f2d7bbc69287dd6e1f70beea1d3b66ec0200284d01;
  Twice 0xf144f3d549295e34f29318fb577137bf38aeb2fd6c6f9e507a94800cdcc2fbf7c331ad0d0a5d1cb3a4c4fe5c3e5182 0x4a9b8d05eaf194d9d92476bbec38f117cd82f03221963827a1f6e757e37040906fddf25f1bc3e0a8e500753c474299 0x194671f36e7f21f514c300a25f7bf3fd1da62c064fc5b8f69e4013cb60ed62b3546b88c0808138d813f2b70c65b8e12 0x874d742282bf4c79a68dd2875e9a00cdcde8f91ef671ae2395ed1bb86be41138bb1b42bbf7cc266f70558604848aa0 0x706da0af3db985fa325fce38f02eefc7bc09c5658a6f92bcbb76ca9c62e32ce2ec78ad9fe33c52877554ce0b1e45e1 (-0xdbb1665c7250841d54ed260748698b08d9281de7a9069a22c23d43cc588acfdc80d4791a818264c43b3bf315f77946);
  Twice 0x5d30f33d324a9cb220aacaeb85f668a4e9b0df1c91cf37f4d465c856eb13131e04b0954125f15b38e97c130f2f6b51 (-0x443adb53c1443344d20a8106ffc62bf0e96475e17c17779ed3224ead8aaa69bcbc19f99a8417e7d8df0f46418bb9d6a) 0x6261fe9b6de14eca1397138c862dad2ee2bc64fd6c81c8ab817c6beac4c252fae763bfe6430e32fc2e6b9a8bd16439 0x142fa1cc382047fe580c6ae30f42ce328675226adcd8d830c4c65b304ebf58e0d38762b3fc034773193ae5fa324f44 0x64a575d573eb3a01e036778453705e16fc0251d86ad309005c744c207b2b22873a14926ca2f87b969ea1b81eda7bef 0x42496646fa1e032cd2bab569f17a6f359389838b03630f692c0eb7b4cc4abbb3875463f0ca8651fe4695a681132ed9;
  Twice 0x41ad90da29b78585f047490a920f18feb89214a7394061455ce384de5f34ed4eb6aedec415e51751478dbc3d7cd004 (-0x24c3aa042f5e3fe973623fd56d3052d13330e580e72bf24695274985a7e545d37ac6314438ddab660c0a68212b7e9b) 0xc1b2f8507c800f67af73f294b14b50fceb4bb890b14d27f4d167985dbd5214ecca2577f8ae2760984b6ac6cbdb66d8 0xa06bcb401f73b0653fa6ce00f09466a8564b38bc0427037f958d79e68646fd5b24829bc3f5fad9405e3e0316850c6 0xb6a192937316ede612513982ddc6119e4ab56c8a1bfe2d501fa05327dc91503558543c3e0d1fc9bcab87be294566c1 (-0xe8d056e59b1b773ee1b48c9822f56ad27c5892824422960e014eb67827828084a3d56203c89f27067016c926d1d2c);
  Twice 0x15934ebf8cd561665fd0d0453879cb13643d33ec8ff46d9cb27cf3eef24853d878930a773fba635d9c8e28befdb4c85 0x1f749383e5aefb6ce42c51e193e8ca89d76ffa47d44dabc2c7c68fef0529982b2e469a326b031c21960a7d36b2d9ca 0xac775d0154731a63f879dc2ad4e59b732ec7a3a216771f3326ef8804732b0325a2fc91b8785738abcd33bf1d991de6 0x114fccde5b275a39742d3e910571a8a84beec2ac602ad04c6fdbd32059ca3f27ab357fe8235e4dd212cd7dda31d5183 0x160e91378ae289a84165b1a0af9918be6bd7f39f2630d6f848c083f0ca73b2e7217fd3fd036d650d73af2a925d7d549 0x11096e3f5e065a45f53b44471d29d6d5878ad9518a1e1793fecd3783f44d126009bb9b0bca608763f398863c0081b0;
  Twice 0x9ec328b4e6e27f740bf7494edc6986e251b5559419525cf4703b118f60e2d421ddf76440ecb208a6ac358967f0ddc9 0x350d04c002568fc6f49b4f58690eb6d8281daf512726dda76ea3f323ca78c2c35da57629fcd9f45150d4ba24cf36b6 0x17230b2b82c6b55a47d59b07500e206e1c23deb91913c065aea622dcce45d94aaf47c0f00d54bd267496f94d144ff27 0x3a961d2809306938e692381826317f9711758026ecfb6a0553dcc6fad73ede2df115f0cd1a5a7c4a73f9274a8d6cde 0x6f521779e760223fe26f1695a3b58e67dfcc2d0e6d81798439d71ebf3ae351e7364eb436c77d6123436522c67e2da3 (-0x48f6c73837fe6738c3c2038efb07b23bba96fd565137fd4bda9f3d9f0197e283f990911a12f5cd56fda83eb3aefbf5);
  Plus 0x9180207a5b7fd59e847b413fd6f219f1d6488e79302ed24ee53bf482e62fd35bb05b0b73b587b21c4c934ec4655bd8 (-0x1c5e021cfe1f93c88f480bbefdb3c51c8f9bc5e60c2b17bd94ecfe80c856dfd8972f7fb18da5ee5e5a749f7510b04b) 0x8ef979d44e88701097b3eef21bc9f2b92b7272854fd02514677cc3ef57e1938c5d4fae3f9166dd16f4ebe43664ee30 0x313519d8ccf96f371db704f7b6a19efd13eb4dbe0ce92bcaf8fa0f34e9a894cd4a4f9cfdbf15b10da888f2f5dc42da 0xcce8a2969a784f7791ca431751a694652621e9c51b356b086183ffd26cade134d344bc11c34af8c663aad52f2d1117 0x4cd7d1660e7bd332ad27db40476e09d81b104f4cdf49da8b12f3b9e67c888b163263584183d671389cfbbe2adddeae;
  Twice 0xc6b1ba5b620d5abddb8d2aeb6aadac286d8d62dc11fbd71eb165f0b5cd3bf80ecd971d4f99f964d4d786b318e9119 (-0x82b63dc762508148c767042873d90d7da62abec09a1e6cc3de687592498a6163c2b03185b43055ec63987d91aa7682) 0x4586fd0618da2e571e92ccc053400104caf3b2a0bf09978f53e4c07aa48cade3ed47fc0e6a4240b4ac750920d85ea5 0x5bc394f8296531a387f8d5330361b53823f3eb2a7249e7fb4a33682b6fd1759ea4ce66b2980654cf51054e57196c 0x174b62c90ed7729b0401ccb4ca3361f6939240ccf5a5d0e7f152c2eb3421f397ec9f06c9b5f6a6ca99f4589e4f1fdc4 0x21eba662c4bab8333aac23066d7a3c7c104e7ca35c7a33bfd924d591feb40d29a7dd6e1006aa7cf96c4c4de02b0b8;
  Plus 0x5b6909b382e5a054301e4e3a1b77bf2817cf5888eae94ae0aa286a22b79969284a2861e31db06ba1a5869feb961498 0x2e0f634b049412f69e0cfa1e36604bc35e5afa62544743e5718c20b607d0e000d4d0e4b98fe175f12fa1eb2ea08306 0x7293640add4b08bffbf541738aea1e40b4074fa2af438776994b2d8e88ff82003c90fc8d437c6ba9417687d0fa238d 0x136c0280ff796d88bb68b72dd543262b5cb26c1dca95a00ecb3b0f0e1d48c26530a9ca68d4a35daf056b11e61881ff 0x11d30a0d8ca224b3a80ff569f8c880479a554ce18636f03ea767de5168aa434cb0aa3c3fedb43728788d68df4f103a5 (-0x992490515b845603ef9d5885e7661c30ea6ca3990c5c733a843614605c6d8eb0ec9ca6913ceceee9514b569420b29);
  Twice 0x180eeff4119ecc92a8565ad5323a19b6bbb238a4797830821d40cd7d5a5d70adf8ba7ee3d0ed2d5d55a10ae0779fb92 0x1a2ca90cfd961d5cea8be8f4bda1a8ce2d2a67f490992978781229cf13fc6060af6c459dadcd69e42f1ebe2bb0c2339 0x149c26e003af7e3d528e216cfbd6b14d5d7220710398446c39b86d4f68ac2d069be463d0021794ade7c42f69f20173d 0x15868766d44dfe1b0677a2a92e1ab604acbec2e359e49f65ec7c2ea84219b873e5702ad297314e2760b3053822740ed 0x6fd52599633c537e7f71b6bb63bfb56aa6a39995db7333e9b60e9fccddebe9e25d499d9a1fb95d1c28f1fd64e4b0ca (-0xc087840db69566d182eef3614ab90a5203d3e71f87ce6f76e8885610fbabbe437f41474a5f33543600df161f983ecf);
  Twice 0x10f613c1b69941f49dda25ffc83ad90a0d2978d6419f30d726fa5ee2d25fe80b5c11d5c32e349e8a870e1d15340a8b8 (-0x2692ccd0f1aa6e22d8dae7ddd8b0e3d4fdbabba3d1cfface5f31ddf6cf13ce49a1f015ed4efe81d8233cee2344ccb3b) 0x181ecf0774a105f88381cccff1b5c6b16b9974e15c8e8a0755b475351c33a25a98a133367d9faa864fa096b5e8281b 0xab2e765a08c196fc08e571dfdc0fa87be96a48bdc88bd996bef3067cbd09fced9d873f145223f70a5983a82709adab 0x970b8deaf578fb28e3c31fc1a41a5122b2eabeb478269ebdf933c517ea8741936258d7673db13cf1af5834765f4541 0xc0caa9e0f52333571c39519c4e525616930d063c3496a844b9b668af125d71dadd3a71ba2e533fd4262910485e3a65;
  Twice 0xe7e71da7af168869826fa78e8a18b9d12c141b784a5c24ed22a700870f13ce75e980307382aba5aa614ac081a16c62 0x9ec6e2253d8b88d3eca12f058d82267429cbf63150409b1080d9b54861aa35e50242eb6748e552691ed882f1788539 0x33496cbb4127fa4435e8806d3d4a5e7cea2046148dec8fa249193ff80a299e7e2ceb0ae1a0789cde7816ddab3a4a5a 0x7d0044fd85a4ca63904d03eb18f4381224a4bc27eeeec25fb5d64b372ae763bc3cbb094af468449dc4f7f92e1c3af4 0xe6bc22080a874044ee37f46168823c923790aaa892bc283cb87c0cef43e0669140702c67199b55c3b1d592d6937579 (-0xea4b38b5da60f771cead0b9897942edc4391284dde70fbfed40c31d31bedaa21304014abb41e9977ff59925756ad8);
  Twice 0x703f9cb9d4b16fb8178a81cf7d23c8e09ff99fb04ff5624dbaeb8167eb75f688b58ca6eee92c296b69422fd08f825 (-0xad1061d880473cdea5df796f9403ade8ee0d2a09f2a56f6a62f0c57d06bda1e6effd4430eb26dd466943dcb5611f2) 0x16294f9a21248958ad66b5cddf632077fa855bf7010dc872b4988b3b731f9c5f56e1117c4a8aff7e376dae48d4e3f75 0x1d4942df61eef317816d80a409e48179e05d2c47068ebac23b8a0973e97567c47c002597c9547d3863fdb114e130 0x16dc146ba5423789b0b08310470abccc5343cc9ee40f9e0a24868f5e02cc429e062d511de22ab80e5f0305c979c726b (-0x4f21949ff1ac1a3083afba84f2e331af9ea7a130285d47f2d0c05537f1b5baa8512d648259169069bb962c85c7ccb);
  Twice 0x5799464b652eb09a6079707fcadbde8f31e4a64ff121f1ddc10f88dfa5c8218c5f5b0f0f46bbc1c5dba942c5e23697 (-0x2d7c47cbbdfa33e6cc980c69f137fb39b62285f42aa4c9cf2318d0dcfd726f0396db732dc8ee5cd58e127fd49544431) 0xe50af9fcdeff3f24b4cd185633a8506df404cafec4184109ddea8c9c3eba4b286441f72c107699ab757f339a52c46 0x11d603ad7244c08b6a7969693499821abf1d7597265813c01069cbc1cfbaed68cf581e30c4ed45faf1a6087ffe61e1 0x1a3c6d15515e7da5634f347b0fcc2845da8797b28cc8e11cbd58fb248fa8c3d5737d6bde86be45b49b5f75f55a00e6c 0x45482294c673c17296562e6df67caf9db4e8817d09afb0ea6cd8d3d876f90bdec9696502c2dbb02c586c663007b9e2;
  Twice 0xf1f92dda7c455bd5dac353378ce1c012f90a10a40b71c8210d42b962659e430a8049e976ce181bd1e47c24b18f07ce 0x1d6c3074e961d10846f3b0eb60b9706f2753a94f5884b0a611aac3f8b29ed8b697000db0e56b28e041233b6315cb464 0xa8473c559edd1b9219119bf28c72cea5718adbd9fd851d7f040ab5023e787f22bfaf1df046fbf242b3ba60688bbe50 0x8817e38aa4b7dbf16ebf412f4df74ad58481f714dc4c6ffcda001a035d0444cfddbe5f26c86f268850705db88ad2e8 0xdeb50c27e1b3c827b7495a78f657b50b9a6006bad866125941abb553a7b87eed8f0741ba6d6a3ac581f74d91da6929 (-0x5697f6e5f1bb7a2e5620aefe8ce4f20855b32c57a9805b51068b148109a7af12e440456ca787953a3b5dfd709841a1);
  Twice 0x10891cf555e91f25e66b80fb820689615302ac9db5e032be86e0b50caa8a91656d43034886ee6a948fb97ef985eaffa 0x4c72e3f6c3e4ddcf66c3c133c4b470df9483812f2f13864ce9d202a677672c73993835af2ab7818eacca01bb66e714 0x15131e0394894a8106b9ed4b4b60d2998269b3753b09b28904b3be516b215432a8a3b1cb4d8d0e3b8d0737cdcbebb8f 0xa2b29e28f8c542c3f418930b561b05266944e5e4fa5d45625a5fb939e928fce67d96c54cb21379567a6c8ce6b987f5 0x12575c33c93778717c451c10428ed24c6c2c2ea48edadc0d703987ba8199ed5be7e555dfa14fe1741d19c56f1be7b7f (-0x67e02bc02f25696f382c2ade5adc4952f8ee3050adbbe061bef0c65be55bf3418989ad94630ced2fc8d4c43da4452e);
  Twice 0x1a20aae31fc31d602cdfb2d2098ffe61adc21da756a4e3b7e0185323b272e48564758be6189ccb5016f0df79b2826cc (-0xde8aeb88a0ce76b0cf0ed05c9151225910a422aff3906424fd8e01b278990095dfb05454dda911b51b0287f71c273b) 0x1591a02500f0c0a33cbc32a592afd5fe901b9e6364225799e2c8c5c85bd58a2f196a2ca56a49c592bbe05286245d059 0x19633728fd0d78ea5574be07ff40855ccf3e366c3f84a4718f8c9d87e97e5dc9627efae7385093bb2e38ecd11ddeb19 0x88dc426a2be7b1ffd51fd0a2ab37485a6b7795d21be2d54032f07afef80024b1bae9893b2b2ebbd5fd56fc41229a8c (-0x7aecd0a0c21cfd95d608123ccb93cf1b85d96119376c66c45174965850ab9fe363056746e269bab03356b352ba303);
  Twice 0x1025e049607b1f1fb9a1585707bc7801be2b03d8e5abc04b255ada138cdc5468ad93698e1bb11fc67dc37c31fea2e29 (-0x29a13c8c80089638253f578708fd9b29aa35b5231f6f03bd41efaf2cf081fe847c4595d39b05677127482ec9c106bfb) 0xcab30fd97265d8d54dea5b78b83578331c8e6f421874f2042587bca19dd5399d11b6d61c2c932e818005423a1c16c0 0x9b28acb2144e948ae504c7b2fc607a0edfd7489b114ed09d6df0646b988cd5da01de94cdb8c53501bf2e495a9f0b1f 0x8cf29e351c4a162556d3906b567dfe56fe79609465f26ddd1bc3878aa6426f8c9fb5f7e0a24488c04bae49e0835b65 0x558483bbe618445279fbb2bd1a81b8f4331bdb9f862a1469429f7481d1c2784e1596d212dac307285653f5f93c4190;
  Twice 0x9a831b1dadf8e7518b5e7f17ae816a1cf42cc75cf658f827b5b7a7369c9ac9f58772471a5f7086dcaee6414b45e95c (-0xb94323eb865adcca61fba4dc4820b9820e55387cb13d3386159d772d50e5784f9701440a7604676f2045bd06d72568) 0x128828ff2951f7b2bad2348d7064f3dbb4047f633ed28d1e30c3ab455e12d26e0cf5084e8ae56e54e0928295f781178 0x377dd65d1424526054dea6d095f8a840e1c31939e4db88aa209980d74853e8fa62f9d85831f3cc6aa8a7ddb4a05a18 0x16a56c1e6f0a5c329b260b96ff4468000102f8fece93c4475b89b2a4a8dfbcc4948dc825e3933ac1b5085189ba67f92 (-0x21b0efd875525b8fcf3aea5a42f8edd1d5cfc69131ed0e7c08d6e18d06720819053ae3301c3e11890adc6b1c016d17);
  Twice 0x11492b699ef01bfc6b806c0cf10f0f3aad819dea19f8fc42d32c0f5d63ade15063dbc74ac37a7f2779cf661e939d588 (-0x9332680448986977232e50b2eac56a5b3d793391d6ac5bfd7f152ec9e79018b57055fdcb676dc9650c42fd50def9a0) 0x2ce2681166b73e7e0b379ae50199f75cd9113050a4c1eba4aa6227b399fd6b78a0d2bcbb0088060ef5de46757be77a 0xb1cbbb855c97b2b1dc4d1a743f5917ad7ce0201def0505aa6d68cb4cdbb608a7ae6d40f30142217456d639243f8dd6 0x13c4f84411e820636d48924fc73e8ffceb879f1e454f30ba5088b969e840ac8302fc915eda846f80eee78ad93d51d7d 0xa1c21d7f5873c1593f9ab5587f5d80bfcf2fe4e368407bc420f69db8989aba6b964336380ca17e16b3e81074f907e1;
  Twice 0x14d8d966d0277b82513759c97f2b11add3a5d445448f92a034f80350c5adf06bca5bc7970f274faf16b25fc4e6e2689 0x1dc6b72a6eeec75d1a0f5a9c9f13b31c9054153c58864054b3560ed304b8279036e089d2b49b2c024f7460fb4aa795e 0x1940ab6a9641bf156f14eb8535334748d21293a217cc474d0ea4c5b771a690ba90b63988b834c1dfba94f7f863fb179 0x1029a11d307ea2ec61ddcd2854c8ad4927de7daaa735bdf11eb17a50382dea904179cb6996c045f342cba8c2e5174e4 0x80783138106b6f111e94e6bece6b4134e1891d87f1d149c4250181d92a2d3d998f5d4ac9d6260f5439c33457f9e737 (-0x11673e82bb283deb88d110feb0c6f76a4ad6dfd1e6c839090ff44ccec5885a9845bd68ad01bcb85f2a899997223f82b);
  Twice 0x16746121bdb2b52bfb73ab9e4fbb6e2d8d4f1797175ac20ec1d52fd543e83ee5abade73519dba3f0fdb372e58c867a9 (-0x39bc91226533d9c088d1f41c786c48a2aedefbbc2803bf71144002283f8ce2f1b48e200d41f3e7ec86aebfa2bd218f5) 0xe24b87a7ef3891826ad289e1fe7d941a8b57e6984dc80f79a0a397b5f30887d83eb3d5b1c5ec7fc599d330921deaa8 0x12c058a7575754e318f0a5dbc6683d1a2bd1604f13df3055430d2e9962839e30d2271b382079b7624e290b2b36c1ff7 0x3e1402c3afa11e94eebd16e81b4d219c0a281008001bc039c7f74ad15a58ece8d1a30577e5a876e6b2c717748ae4b3 0x946eb764a85d163f53056c8e072f8f8928f86ec37cbfdb5e1ad5d360e0df9f0267eabc99decd6819bb0156200d8b0f;
  Twice 0x1a0988adb40e333000a6b5d71806dec9bbf4b1c2b90ab98defba3998e18e6fc71a3652fc37deec8b63d99dfffed0ca (-0x15d927f8d13ba29065fea801600ad2d7b6552d2e4844d962d44b5e84009256b65a0776924bb5568e583f745d76ee044) 0xc333d435885e233b0db5758ec04b43f428ceec8053dc52e104a70f60af793c7e9ba6c318180e00afad2f85683f9fa8 0x193656216d648cd9f1a1b1990538aaae4cc4de551fdd06af109cb78b4da916473c0b10f826f511aaa5772daa56a6c 0x1a7ee173a563900c633d003615ef98f0dd62833f09b2e95f9408e10bd6846f9ef686f54369c9fa5c454abbfe10efa22 0x1e1b7f71836ac009245aa05b16091e506085148f5080d669f9f182f8b30056531dfdc154383d919637a7fbabd4f2b;
  Twice 0x1cfe248a91de339d06869bec354af778250951a7393e890b8f9d07ab24bef52d42a76c609579f5d81eaa4bd39e8e43 (-0xd09082570c90e30f6bfc5f6f600d7e379bdae294428d0d951f829cf31b688038fce9210d95e7907fc007702f79b4f4) 0x19f5fc4065ec70ae88e0b4803d522918556ac9493d958a5d164dea88d51725419ad281ae7af1f4958ab19fe36e971dd 0x1f42c50e1c3e6d3581f6daf88831ac36193b7aefaa71a5b7290e3b2beb3e7e517cbd0fcbf9eed3c509eef5459b45c 0xa22919cc6a87c0caa4c8b4e3fd43367f650db66d93b9cf48287faa5c4144f4797122ed67ca163646789823c5d51e0f (-0xed653b943dab78b0aead9d7687d848684bbee19698ccb34495d77dc05ca0b0293fa0cc4f4a5b88fb7f0bc5ba58210);
  Twice 0x137b975e2f6dbcfc33bfee5d54af69cd7b06c07c6b44991491a651de146f6b755cba2e7c7bbc6f37e5d34be817c2e32 (-0x3c81c65ea324790b3f6ae9cab9bb54023e868b8758bb51271de512b01ab9572aab3757e5b64bb5206e49a4afe37687f) 0xe5a24dfff950aed3c81a740f34714ad8a6048cf127169e1fa4915e445752338e744b929c7d0634b685eb0320f1398d 0xe1dcb58baa58da2d2a068c12ffaa616da1352eef3b6d33ba369c8cb3918693524c05940d6d67f0c8c966039e01e47d 0x174c2d1b969d2a54273f9d0563f544a70be0de85cd2e8523c3a862c7cb2143656ece82b5a9c5fa56c4ed3fffa2da05c 0x86944bd66235a0595ee1aa3f0d7379788400b8659ecdb80e1cc50961fe47ad538ec0b1b7445cabf1c7e2d4bb56a135;
  Twice 0x64f61b7fb04b11a6524e97c82e93e9f17c589785848da512d79f0ed709533a5e3aef515c17712ab8d1074ed18f73e2 (-0xc0c00530ba82a2dd754631ef82ae886a32b69870a9e4d246e14df0ecb055d19720ddef4f3d9e237884f161e3d47c8b) 0x13c740963d81a10cf31c5c3649f1b4ade80e8919708c2204ccd1ac6ab938991fc2622999c2e6031da16c3d66239cc93 0x17b14bdcb9d8ecebfdaa2ad57501a54662d28baedde36845b20772dd230ae50b1e97e5161858844694ab750ad493d7 0x948c324a938952f8c5e1d3388a9e59660a70f36286b3cf1437d71d894631092d32b00fd5bf2449f78b94484c190c87 (-0x145fb44603aa1be743ccdc1dcf0dd3a810bccc11a487442a3579de32937682c686e0789b9da4f54d5b268188be2a2f);
  Twice 0xa75c264336972944d1feebd2a16e9f282de7a7a899c8734da95e32cef44918d36eba14fe818318059c41a45c2c0d3 (-0x2b313b297783ec31c5fb3e63a937bb888eac682b8bf23cbf7c7d88a715547112b3ca2c1c5870cf33aef14dd1420aeb1) 0xe7f20db9a83bb2da45d57d0f12ef0a329d2ee98d449bbdaefbbac51e85ef39d569c8bcdf6d3309e0b6d65041632e87 0x411a83b9cb653d8a3c3a3a305039c80f96110a57ce5d017ef0f40d655cceb3e0a3ad6bcc4d83c91974f98932663c 0x1a663805eae50d5fa1cf115a3d1799cc839aa49a1c260c1f0ec07d2774a0c7dbfb6fd2e6d73331f8fd6f225bbd5b76d 0x20dfb0b85f6d3d24cc0fe1cbacf1e8ca9a27a7903fca520f4fa31231c4a1aacd3973cc9b2a65e24d6d03500967ff0;
  Twice 0xa35253217fd7b1e03827c17660926a6b2f609ed976d5f2627267250eb9c7d5692a3439b3bc6c00f90fc9f3b4fb4b65 (-0x36732522a48d7da5f7f3f9962d6f1cd66de789f7fc747c112605d36867510b77b82ccc5d41da4a7fecb57e50c1c791) 0x16015ef9793198a5df02d6664faabef58de4753d9b79951031bda29d2a3bfbb7f46ba1faa63706836fd2d4230d3b19f 0x3dffe5701c3856ed2edd645ede9a0a5b24d57d99f19d967a475d9a70e2125bd595fbdc4fa9d59abe123a8e42a8472c 0x1512c1008f12b9b2aba20a415235029440c7d3cd6c03412313ee4ca25a678ac3ade30fe333d2842ead9a3950aff0e83 (-0x2d9b7213e5088c83bf533072d4b5c081db740dd226c281f55817fc304a1d72d88af2b389db27c3808eeb999d288668);
  Twice 0xa65d6bff8c310f8615d02f8ffc58af0e48f31a9912a087756f86068b24da59ed3fbc538d0b46114064f925ab5c8c12 (-0x25ba5b775cf03eadac9f235196551a7ff056657e75d01ecd2677f47541e1da080f5f103f86b3e22ec51b761c2206fd7) 0x122f950b69c7d2574f128bf96e0e06dd9addbcab81f7465a90e9667480aa838c89f4afb8b783491162513968ac2b615 0x4054ec87e73f854dc36d41738d81ae4cd0eb5b13adad083716ba99205c531bf9393f545781d821c76417ae192997f1 0x22de2e5fb431ed6f0e6140ff5e1e24d28022a66094fc7257fe224a21160c6287b8c67c4e7518c65233cbe013eb8aba 0x17a1a0374a669ab4af390de5a1449bd7b864169f40babbe71944a7300d1528bf142332e8419cd5373f987f6b6e8e77;
  Twice 0x41552340726ba84f5fc847ec228af4fc5399051860f2f4eee80fe2bc188e31fe75d20ab44dce9326b8daf35929356c (-0x243ca11bc8e14464437915d18d9a111e97ec9657f4bd000b3e8ef32720c78af841eb62523440a9a0fe5a2b53e3f883b) 0x13cdc8a109905cb8f001c0d632791c2ea987067daa0e48c5310581efa976b264270f681ee5a15a45b957b722e74ca59 0x9ebcf39a20f8dc8e7be2bbc2122a721e79a9bd56e0ae64bd3e89a7a60bd3ac7326e622095e8a4e8f3a62ffbc3af0d 0x3af8bba8612e717f1b76060bd41359e8d76f71f1814e6a6bc1d1a8df4b50de69f68d8ff84a942900862555bcffd154 (-0x3ee61ed638cad235c0adcf45b0a68fc6504cf31c236aee7ca9ef6db1c4028cfa37b34099478437868ffdfa121fcbe);
  Twice 0x1516fb13a185c045542060c4cff49fc2d392a1ed724dc7591f4af282dd68df34e7e8accc85b9810b5eea2fa5405cac6 (-0x25f98fb487ca849d8e3f57d30cc070253e0dbced35b2019d8b5a24d40e633e1235987083db7acd06ea6077a96715ae3) 0x1104372159c39579e779539760c4fe853096fb54936ba3c6d9b1c3e76a0fb83d84f53bb4c25ee175be2475614072b56 0x108a87d708e0337bd3af86ceb1d7dd63f7f988c5daadaf8c668cb8f81dc3343b03dabb63fba3c0c2aec31b10b68511c 0x16e5d2efa42417cb02284398b1eb6a960de4cea2c165cf9ec267432eec9392d63caf0baf2629f96fd2a3f75f97b57e3 0x22faa8c156c236ea9b0ff32e429b1e6de029eef56fe2211f10f5deb8f521403e42607ead8ce290180b810a50d5311b;
  Twice 0x501cba2ab8c001563f6426bdc375f18f5074ab50b0d1b7feaf63727efb1636cf9ae4eab821634bd8be1ba244ad0445 (-0x17c742831f9701ce33288c017baa2d0e86207c322d9ef60263aaa5d61d8b3e757351bf6957ee1704249982cca138a4e) 0x1693a78ba2325414c06b2276dd084ecea771177b1064f807559e76c8cf6ae8d88943b3935f59d525fa33176e4a29522 0xeeae8591ee3bcdb2b8dd15bc801fd5bdfd58139de0b40fb8a44dc85afeee6cda94b7e4d50c8c6c2e0546460a34ecb 0xf9962c32301b77c8306df2101baeec7306a7098baba58b04191285d4d19633b50a0b9a163a08b1606f1448871e9321 (-0x1090e9a0f76c2eda17aa2c155b67b239261930da2a143dba6de026ef173e7b14bb8a8bf746a112f080aa11d7009f00);
  Twice 0x2d8b966ecdf5101540f42ea12a469fbd0d9c3a1bf2f67549f17f3974f722326d745d9c727dab49299f1efa90bf9b5c (-0x3590a9b1a6be7f76141bf37ac1626881b12231558fd3720b0c688402ca7b73a71557007345449d6f610fb60225813d4) 0xc7a0d96e2002ef61743e932ef2e65ebb5b99ae486b5dea94546951c8c4011694fdaa8a06e9063d38d535cac508da67 0x4d2522cb3c0817e4911836f554c16f00b8717bc2aaf1b0cfd2b975f5e54b695f3b40e35c35b39ed35c52823428465 0x32ba7210cedd73cf24e3a33a1e554dc64c7186198ec90ad9f613cfa4d2209fe3e8065a30d6f94448eed6610cd28777 0x111b8508aafbdf306a071ea528ffc6e8764e2f6b730b864bf01fee365f8a5e0c59469e9499ce39e04e0fad5ce2399c;
  Twice 0x10ffe06a01180231b658dc89f8eead412ce1d397932481b5b963f9a08ff1058e8540f0d494a31451ef404ebf96c0b86 (-0xd5beb4ab8825a78c49216ea0f6169898e0cfdd65ca2774f69c51e1838299f69ce73d4ea0e4f8ffde3304a165d8b5bf) 0xb9847f9f54a8049ed88f28a5ac5e06a6a45f5c0e2336cb7e7d918c4173ccee48fa6afd30f690790ffd64781eaa1a96 0xabf47ccc2cbc449eefbf3425d2fccd323d213528b5cc69056a0ff7e5fded53961a4e5048c93890cb74e3fabcd8fac0 0x114211918044d3fc097cfd878d9fc1d8cf323801484faeb4ba3d044e419a7ee86504681553899e3e0f8199a27510748 0x8ebbf87a1fcfba8e6bf568999ecff042518fea7f0eff048862a779c2c706497336b5a31fb4def35f79fd428ded3a7;
  Twice 0x17d637fa8e1caf1501251e869d30d3ad9d6619fbbdba6d7f5257459d7c7bd869b3c271e88e4dfdf355033661e215ea6 0xf993abf0001a290d7a561b264daf7e9246baa5776c8aa37df1e5fe55398ca1afae1be31966107755e1c31bd10de1b4 0xf51b9a2c3127206a799c6fe038c022f14781fb435024b90728e182ddeb5e55cebf527010a06b59fb9452cd3aee81e 0x1521806567d642a90589c0e7d7e0a06ba492351ecd976445ce9ced86951257f280de41c6ef662499851d8b360c7365a 0x112208052223240782e43480690fbc7f75f210b8d357cefd91691e6b142ba0529bd8f82b9e22c00dfb915fc2eef823c 0x96e0aad6c9ff64278040691e5f201ce88732900654022a2872c240c0b680fec09dba21fe601b794481dee016a2404c;
  Twice 0x10327d699dcf989122ad55d51dad7fcdf2919847651b78d271edd1f49cf5a08e707d41a2fc8ee5b8a681db86e0c8a79 0x1489d50f71a533101610bc4604c48445dd820efe06dff3c0062375293a551cce4d7451ebd58a38fb33f7248eeb6a22c 0x1a63d175076102660eb394b41d9d9b2af39dd3db0b46caa95ba145e2cc18ebf59c73b1934018155fb2694bf80c42d13 0x9c1b71fdf930621aebcc5fcd610f6433d3a8d7a841177098602ee2e1509a163305483475c750b18772a0741a1cafe2 0x26564aa3d04515cad8b1d8764e168510d28522e5400fc45d76cb94856503bc87a8272e17c2cff933d62664eeb270cc (-0xf51d8f711bbb894b3c94daf0ff45e0ee2175b89f42e3da1d3236cb3fe84e51a929f643e847a91498b7bbbae5579cd5);
  Twice 0x5a6de72a9dd15dade4c2e28b135cc06b34c39afb9175a84ccb0ab716053206e182551f8b39acbe5a49addef83ec48e (-0x4cb13efb5b908f079399d61356926be49b71e37cafb97000f758da9e435df86a840898b7a6f34f5767be10239998beb) 0x1370990a43c260c8c840fad624b31400816f722b8f376bbaa279cfe77680a3425b2f6f17be911aeb66581f764cf8d87 0x1301dd86a62c573238108fb73949ff6ad708342d051db9b93a0a7a5d990bc33de2f300ce9516948a7e93088559d717 0x143db040c6ffe2a8997258b6531ebc1e3c99e4e91a103df56b9f4d85996c26260c76fdbb05e5e66849d7cc4e2bf412d 0x175f92d71d0625d70a8e037f30abdafc005f9b18bf9c035b5b1644d227314f465ad44368a7933792b674733e4dfdaf;
  Twice 0x12eba8f6e17e610a529489eee682a212bae0f204674ca01dd30a1b6a032ecee1b1cc99d7fdd05ebdabc3f2fd7026e48 (-0xdad79abb6a0bc5a0ed3a8aecadca7601112f2c212e6b93adf0183375c6d7707ff439469a77db03c32965747164a243) 0x160bd3510954ed3d610a19ea2923cc58007e5c47a4d685b82f837b413ddc0d56edcc90d36d8ca24d2a51421a36e1e6d 0xd503b220f2740172c7dad2cb899a05355e23f9e41bc79337d828fa2371e19c85a955f548c56c7878d52ba26b94bac5 0x16963ad5a89f2135a9a52b294e86004db9c61de1aae6efcf90589cd9e353c64aedb45f635274b3800c7dedccda6a1c2 (-0x1d57e48ee57dea4e770273233b1608e6350e00a3328b30e21c19a5405ad68b7c28118bed4e0381befe3b93bb0d779f);
  Twice 0x180f16726995636aed15d81385dcbba221b7a3226b2e3f2a397ce0bf876ccb70de4288257cf4a1b721d79f02bc8d014 (-0xdceb96504385de32453416fb7fcbc7c23b5d1bcae3126be037a5a3e146fb403188a2a291dee130ac26ff8211d8a8eb) 0xb9f4afcfa3d43ca43ce98180973bc60bc110f7d69bcc084a132b072a0f06094938f8f5b5bc887df6bef96a7bec929b 0x1586cc48d0ce2204a11c34b59237832d0c07337eba588ec0adc251397099b3f24bdde5cd92a3c7fefc8bf3ebd97b21b 0x1a514b7f07f0795a51445a07b37fb1c33fa7e8fcc0b858c9cfbc3b00420138d54ecd216cebdfed4f30433a096126d82 0x953a6511d6d2946a4a1d5ac2f9e4a83a6a841ccd864a133b1e0c5dfba0095ef4b98fac8e6e7c4c76f4ca7c76107d24;
  Twice 0x123288a78180a1e68a3da08de3d9790b78bb59b1ba342a2157c001a0aac6dd302ed9ab8a82be1846f9a0bee3f4ae5c2 0x148cfbcd099a5e83e63bbc9078367a9d94cb28b19062f65b526963f0fbc6607d87ca7a78e799eece37a1092fbc90f7d 0xd2ce2d701897b990eddfe960411999cd414c4406d761f02f6e53fd50c85fbfdc9aeba0cd9648a53612709009e6aa92 0xc50aeb0ac02045586de73c1bc4c143aef8d8ca59ca3f1cc30017547c556c8b9cd28dea39a214c52d3270521c9cd73c 0x8b87051c22ce5b36f107f76388bcdb9b949f10101987e1fa6125d43fccd9f7ae52b7f5cab5a5cf204a0662726219ed (-0x10d12a6884a2f30932ac8ce0ec50657e529b4c2506a6e7334b0416186424ece476a3ece7a105ce8170d74c0dd0a39d);
  Twice 0xc5f979e1fc5a30d0d23d29dfcb3367cf0428c9137fe735a5d6c1aabee369454e3041f2da7656ae77d47ad734d08705 (-0xb576dfbae7002aac99e35decfa54f4161383f289bb7e62888061aceebb6ccc537ee99515de31b14c2e45bb43adb88a) 0x94f034bd7c7106479b6b847fcf2e4004cf1c2e18d4c186aef79fb0d0bf8d533bd03985ff6e9112c133e82ba620292d 0x5b19b3c20936c9b044f37b13ed31073230e85be4fa2946e660d93b3c1c98f2957a1aa3b1279575deb225cffd68c7c8 0xc8ab09e6810b774210c85b28833ced584327e949b65e2fdcab993983f1b0a7747e38291e707040d74650a5e396432a 0x1c780960050f2989c773359b32c785af36d32a83c702125e1bd6e908503d935076bc35c70153e03dd5f4eff1346ce2;
  Twice 0x135ebb7b09d5b2402db8a9d763a09e5d7b3649acd2688aead32d3f87233ef4c79ad35fc71d44627d15bba05d2d2399b 0x866d886f1be042b9c3cbe7de153d28c54e1e9da0c104c74dc1e1d22a3a6ac45aad5da2030b070d300cfce99127b321 0x9626855cf18bba393cb91729904680a8cd595ae8083a61778bb5ccfed3131ff640d3b911623682cc690d976a57797a 0xdf4186d9d9458a8ddd9f07661033c567a1aa8816f7688f2c0402573fed3651f2b2a929f571b0c1d5be714424aa9805 0x17414b3a9632b62e1be8089c7258d2227adcac2453afe71c13b5672ec595bc19b30120c99544896addc152aa8015bea (-0xdf8a37248e4e60272a8dbe369ea09b40ef93c749df1c495a17e90a6ba3e4fc8088f77ee4e7744c2ea580b32062b3);
  Twice 0x1195771bc6242679f30cd608174bbdd430bd23ac9666fb842e30c7e556d8b05c0cd4918329742ffd61d9ade828a4522 0x1496d0ab0a1cb8951f85348a6b8c706019ab4bc911a1dc51d48f8f621d607304b79b4b2e29f28424a6c5153a47ee3bc 0x1229d7942e636d787d23fd836f7ed16744b818eae299cbeecc47c1ec22cb73d8950a0cae049d140df7c92321f2f5ef7 0xb7fac37e4943a06add37cef3bfc92e419bc945009f2e231fa32823456ea34e815078a3881bcd2598381a7c2f750699 0x6eada2ef71d55a9c4fd048bd06a2cef5dc983567c7994fa0208055f5fc672068a9a44b99e1e0ff22efbbe1ff60774d (-0x5bdadfbcc96a6486a00ff9b913a7d256108a235c5b26027b828f9f66e473a6e519642e1cca98a30d26b3a80c4afed1);
  Twice 0x6141800596c0d1896a776db93b7692daa62e74d93a1e9b3a36e83c37d7da6c4da5d84521f663ec192e39ad9f6856be (-0x21ae29364565eb53a73bac6d106a306079c9a4eb08a4d75915d5b33d3cc7071159ad783d2a52a6047e32d0f03dc24a7) 0xcfb0f07713abf1b2d35226218924520916a4c74e1d8ba8e1e18adb8968c2b267b449fb37ed1b679a7a2fe99bb2d095 0x15fc3f77b9c5296e16727c486d5c847d15487c70e265fc547266bfcdb183924a0e952bddc9263805d48ac4c1b2a681 0x76a5a0ed6fbf9cee68936efa7849eecf81e5c90d3e778fd8154f528ba44e92b2b8b19811d10fd9ed6a3c6c7acbb641 0x12beda7c328ea1085c6b083e57015de0e7fea1f7bd0ab9f4a0aa0316cab9b87824034a1cb6b2109a38a6f1a9ea6b2e;
  Twice 0x10dc3bbfc8b3b75ce39afa8a27e1d8bb5669134016147091003f41bc03dd23d7855515ef1decb983cb4599c2fba8d7d (-0x97ff42422a809e5369af9f30ea115019f29566144e18c5b93670a7a6774d58ff59fb6e04ef4711b56970c26f4bceb1) 0x4d1b18f51c2a031bc98f576324269a6a62c21a61887b67ac842c781c1eab3e94e2a59809a96c5a046cd322761046d4 0xa9265b8402425d04fc1bd39efa2304801b6a50409a56bbd480f02096ef3ac381010f3cb20ba4708c69ef482061070b 0x11e4656e067d195f0efb1e0b043941461f65ee78e653f25b44c4086a332cedc06cd32fc67a0d54ca39f1d0582c1d4d1 0x51e16eba25acfb805dfb082d2faac72ec52522c27a6ce551eace8b84968b3b218d753d3469e2134c9c9d846de9052b;
  Twice 0x1577d1740062695d937966c9e22c5f909d8ac5a0f2c1bcc5a7b4b931f42517328ba79559eda38c9dcb13833cc02a868 0x19fa8e6dc223c1c14f0ceb33e56c10905a7352766d264e9de151dd154cd7a377f882d152957f5638ea421a5f5c95b20 0x99edfc3c9ebe46e26470d7fc0a7abf1b0fb3c2179a4b6dd92ea6d4ef2faf52353a5dba8e12481bf6c19d259fcabe67 0x1123cbc79c08e71347fb90d06c44920d5a8b7bd6e14db245caa3d454b616b0c2481046021333a234858d272447d5e31 0x14cdc03c0081d41213822bbf91e1459cea35e103da37fddb6ad3514f66ef5ef6781706b9c69157aee9b784db2889af0 (-0x3d55cf520ce4ad93531c10c881067cf544587fddfbf930e3133710140caf1e2cc6884ebc8deaa90813df059aa97b79);
  Twice 0x362fc2a6b3f7f4d72c7dd38dbdacaa3b720576930f6e015b7b488c7bc503f4a6feb29a7eeae89f96b69f52a6677e64 (-0x51601eb9e34f456aeac79bb7b43291ceb4d155bc32bd854550203025e93ab51682d48e2fc6e9e059319d830e1ddcd3) 0x1825cbbaa857ad0f0f6f402f33be5d109e3ca568bcac2e06760478f79caa43cc22906c3b37b2f8559474c0062ae9093 0x6d320f0412d80adac2a1a4bc716212e006dcd9af767ec57be1539e4f7aed53055080622661a531521cb85009a89af 0x12d93db00a8184a3a0f0dc464dc1534ceaba22fd23818beda26c6d66d1827c640180d5ad1902a0fe73332cf147f4daa (-0x1d4649872706f51302f1f9b8372d7f546d5cf571264620ba98e2ce4ed1c9c49cc7cfcc7d1c1a79729dee87212ba9ca);
  Twice 0x1779ef979489db8f3715a59dab58f5896aa0ba2953faceca270e69e4c9b68f7d735c88a49f64a5d4926e6251aba15ee (-0x2024ee82bb113cb413dad964429621dd5b405f1e3f311ca1743486bfdcbb4a2ea5c9a00d8e052d9e7e1eeddcdf2d123) 0x112f9cfd362bf97980d41c32cbca49ff7c22008467d90ad0160b96949074c8fba96ec4cef7ae7dabfd5a2499c7f26b5 0x147f1ff650ce31d0b85270bc2ec1c7a8a15c62214b6f37fdaae1575f9877f301105b20355eb5207d6e95839d5dca169 0x108993936b5030c65ea218c47411ea0909c5f3f4107787e9341e633cec8dc501151917eeba2b58403c5fb4b7f6d4cc0 0x613faa47d6e8ab145e52f515962eeccb5635f07f2867f0b9eba795881474bb5a8b5b07094ae530c9aba85d072307fa;
  Twice 0x10969e4e3f50951c3fe11a60e494b5029236287e9d89c5409467e98d67087f8a2daa7d9ff4cec25ea0a4a6e7adceca6 (-0xc8c66cc8e3b6a072ead65cb423e2ed766796f958af8eec981e76cbd368ea9226e8d1960cc93c9bd9f999cc5f0f2aeb) 0xa9ff923f343b0f9af73045963783a476cff1f8eefe4eede8ec579e11fc7aef65c4340e0121bc1b5071c7fbfa452d1f 0xa3bcce0854f7a8f2addf36774adcf6d00ee706356350143284d0bf08ff32ec8f2fef224fe10d1c5dd15a4e9ccf011b 0x10a9e90125ffdc79c07a4db104fbeca6b1dd612a56ff3a138167b248472fdced74fd5ef4b16f5c63e72d573d1327bc0 0x40c31b917ef77df22d329f951d520b736730ad6fb67fb3dee4e7bd3801f2f4b737df256ab216f6a784f45d4bf656c4;
  Twice 0xd9b07b09c4aebbb25cd5490dbb3842d744522ca2459754921a92f023fa16c9ee5fc34f0a415b8bf5bb802171ee7258 0x444b5bbadaa439211306bbcc44cda5f9483fa40e94f67d5150908afe4675c53044a0f2930dea52f6e205baadee56bd 0x15594d36221eb26af1110b7053ebc40df488786b641d0de3ebcb3b20ccc8a94587f4f76ba42544c829c592876cd373e 0x6e25dbfd5974e31a0933a9a66d273cc0eb9caf7e8a5f12f61c0ead905b99b4f4742eb16222d833f1e2f09a135aecc4 0xf61871096b87b8c0a77d90ec47840fbdf97d8b749128d7509810ad066bbbe45c5fe053e2bda1e2e0f62797b8f5f83a (-0x56d1960caba34af7594a105d215f3390e64e64bfef760bf10a3b67c7da1c18fe7a41d2daa7558732b8d4bb053fbca2);
  Twice 0x18d2eda6097f2bc8f45a5572b101d648964c89de5962393a23e9c8b0c7c0feea8a95d6174998d68db761d55a857590f (-0x16736a74c5203e629551a997159181573d543428d5263e70ff782fbe86d6133939de4292b939eee55b5ee8a7ccfae40) 0x103bf37c3e08a8cc29e2c779fa918b48f3ab1dd7a06ebde6916d802b7b299c152216606b420ae70cecc08e6c047bbbf 0x16ead2d65df3b02343760e663094ab398f2770b3460ea7a012652e8004884f48b8f8416c32f8edc1c04116fa94b44a6 0x13bec8ade85592a2e5261a582e8bf681aa5e41b9aa5644dc7ac7c0eef304e36fd9753745e9c305fdb96f924d7142a48 0x4b8c868c0c551c1dfaf4b46397303c429a292cf719da57695760ba478126a56978a20c8755abb386593024d9e040ef;
  Twice 0xc484bc3f9e7478520b0f977d152f8134e902b3e8c0bb9670497a375d8e9d3c7fea21b4dc6ec0192a2a09f48f780b9c (-0xb5d8d5a8641bfa590615d3c0bb19d2687858e754c3faf9793fdfa90697ea3cb379b529db4fb1acd4b007fe993211c3) 0x5a86d2834e5607acc32779f91c02a09925d1a8a83828d273b997a657e41dd3ff7fb71b97196fae693bb288e6834b58 0x59c3ebd333939afc8902b279745e4c1de82586ec09376413f375dc7f91fce2432aa03f417ad439ef6f2a4cc3b4043a 0x91f79864392d47d9ee8154a930a2b22d201a89745c3fcce53cf0a01f1001f722c81e0cc49c3f8d6014bd2f68958444 0x4d4bcd3732c5369ef51fce0bbc9602e9088eadf5d331973db14fde8eef852390c701dd630c46fd230c83421e273d38;
  Twice 0x9f187c05b2f3b029d16d1301749eec02f63a08cd0843ade24c4b6d80bd62b84f892d32b8cbc3cbdac98780d9913287 0x32cf97e6a1277e0c2b34895bf6251a542d093aa661e06bb714fa84d06b9bb263ce4957c073b48ab5e627ccdbae04f8 0x693794f9ad32c7dc0dd32e9d661eceabf19f20daac196a68dac76d43304883819fde64c7138ddcb259b2f40a4f7515 0x3ad5274af73c06489940c54fb3f708632f3f9379002ff5fb2a79c44f5300f55b7f3a7d9538be019ba04afd4d90f76c 0x5cd19773836fa9f3da0b9aac5ad4b734c176730ad248462863b38f5eb983b9048395dd53b94ed2065e06763395576 (-0x56eb4ece7fb2a1398af36f90069eefab1f24848a396543116a1e6acb46b1f67e6be02bda660f2fff1e29965acc665);
  Twice 0x51ea677de1758f4c3b70079522ef5978c6a6726b11befb6ef6a62ebfb28ed4e53a318a5ef735b5e3d18a408d6f4b09 (-0x4afcb0fd60182732754ea6e8e67e7a8f2f1dcbe52b73393156d815cdee79e2cceef5a6016318bc7f315340ab1774df) 0x2d4dce89cb9202a1a4e53b164f8077e3609ceed77e06bb3daad963828f9103d46b06cc868da2d7d1552981cdd4f48f 0xf98c7952e28ac32e30892f28d5e3f8d6da076e5f93a2dcd6269c5a26fe9a17dd8788d4acc819ec4e672202f586798 0x1961897a0f017bf3e047aa8093846c46237f8e7037983f593ddf8979cd7fbe6f9c950bfd9113ed115900cf557b4328 0xb6852b6c238e3211a81533054b4f7670ff71c2abba94f6ed59921572735cdc88a7cc5910a0e7a2b827aecd35b2e18;
  Twice 0xde1c4f9d26482412d945cdc276d240261ca3b2f662b07f5feb541fa6b56467a5a14f4f6caf9158a83a34340d30642b 0xbe50ce0b793d26ca87dcd08431bae67bb49cd35f0510d01d89029dc2c868898f977341a3143f4cef586e74d7517cd 0x8ef7bca2a6c53757af347694e8f7b392c999fc6bd912f735956e4a8edf5c00b33ca9e8d8f528e87072efae4b9d308f 0x72aadf51076f4369a1ac656992bda876d912bfb7c29b8344d631996ec7402152dcbc1136c2c810f8ddda182e0a858c 0x16b6d2db7a61886544c24059c330ddefb2b8375bb2403dcb35b9ae010be16e88e369ea8fdf2e505ab2d2a2329dd78d (-0x326b920375d3e98393f04377e0b0c13360783723ed9acaba30bff792c99fe070e4dbddc54fe66b215caea4202b2eb5);
  Twice 0x10ca07a8f57cc4f9fc842a1f1446052a4b0cd7905529d99a96c1eaea908076b88e0ab073c8d186b25ba0612d2e56111 (-0x7229b551065aeaa5a60bcf5b012bb6615bf70c786128a2d99e3e120796cd1452966bd73b288c53cc5f6a53db4254e9) 0x1850cd6dd27fae33b6d8f28437dba21509a148c4a32669aa9ad77ccda8b802a8ff0aa181385dee6c0994230005e5996 0xa7b9e08cab3880ece4a35ad9c8c13a2214f7b8858ea9d8f775d42a532de85a6c8f369c8c3ab9f22906b19e199f286d 0x2ac02b16fa73d16e88d6901016857adaf647e9f461f299fce84ffff153fa5a67f50339e66606c5dba6ae1db83dd55c (-0x99a653c4eb074ef6e5102c7ead5bc6dacb169fd5f3a0d6e0fa4c2e26e87acc4de8fd1ab65b9ada7c0e51c98d7e0d60);
  Twice 0xd003da6cd8155ccb74f7f2169dccfcb3c1b46e5c502dfc6600955446d4fd3f600d4723248dd62c7526480001f7d7fb (-0x3f619feb9b019ed2d183bd27b835f9228afcd2f800e2d24e49ac7f124ffa42a9e2488f3439922021c1d1c56275c0144) 0x109dbbd23f25827fd6a2107126bfaf684b3bda66407cd186c67ab2ae65d80ffdca209f5876b286a91868b3403d317be 0x6493451e0958010d2e4e87f0268105b07025f5d7150ad89b54441f786249c3b9b3611c74b8f029faf0c00e6e01c52f 0x16a1f9df8af7de6d9d0c39cf5a0d17b542c1267e41330a41bc67caa9e5e5a9ecc2e7a7942bb2fd476245b51c688783e 0x3b902ffdb45b7f4db17dd8a6bf8bf6f2bea77394a195ec07371c2c13f0b4f036d5fb25601554a4d09b76587177a92e;
  Twice 0x19e4d8cbcd42f4df75a18cc38fb3ded263b56efc6573eef86c6594ae5c9a6de3c8ce05b5e9570356f4067ac1f3a1f5e 0xcc944c28de01f89c2ec3b0a40cf5420464186f339f8796051648d2da56df3df4d541110119f3120ad88afc8d383e7c 0x3f768d9a6559213d0fcd0cdb6996784c959d97dd3b862fa3d17b7162dc32a30056a8f1c25cc39d24087f13803b35c 0x18ef7b95943412565d25ca8e5c8046c4699dd2522af71f6bb7f04ad3b4ac060a900ed30e556f3ce00b84cc1bec603ac 0xab615c877d2bafdc654637bfdf60ab9fc87a3ba753babc0d214c18a43a077ca9ff2c185763bb04e6221def4a0beff7 0xfc32b5d5c537e63051533e79e7fd9eb7e5b0b51cd367836529b45fdc0109e7bce3ddd8691e18e17651b9f07eee51c7;
  Twice 0x16a46490ceca47c3a6db874deb953dcf908a8fbb6730a76c4be0dd40a1d042142c86ef58b6928210e6d9c01d4a54825 0x1208352edbe71e9569ce07c014dc112a53529978535f407f1a810569640cfca4f706b17c8189d732e29d45ab55ef236 0x938174a62dd879bd5d28b02977480df76dcb3279e364314eae2dcf47b209f6636af99010bef91e7db213fe0e97ae16 0x1310df00d2237791d56d37539562f89b0f9bc46706db1be58906c5cd8df94534d95d0aca177837417686e9cdd67c08b 0x4148401b1b5e0f3da1e1258a3fbf23b73bf9929b8b1a997351694b4bc95ff51d5d762c8283d89bcf5dc75e587d632b (-0x78de2021d31f5679e0c476eefc8fdd8a46ae37345cea7c4761874ac6c37d3391712ea22c7fb0d906b1eb3ee652e004);
  Twice 0xca200ccdb8a24b32bce26f42a1d3eb0c62af53846080a7220b04f217c3345687623907619217f1190e3dc2cd4b02ad (-0x5a60f2caad7b64cdba02d6bb64bb59c36a2b5402eb71b4e08bc31cad52682665128aaf0c383df9064c15572ccb098e) 0xac182801873dd8deea78fd991501d9e56bdc4a6fb42b56b1a3d71b5610034c264e34fef690f28c2213befe16da6bc1 0x5ef5ddc696660fe00e1da23920e3b6997e50b900166ca1af30d722d6cddd7bbe6d70b2d964b7fa046ed17d6f5b60fc 0x1aa2852ec60605901973e2521e33e312ef9ce329c6d6d7d767f85659f02487396a13b021ead85e731525f7e5f0f092d (-0xb8d5005a4edc35556589a40cfe4926b20b54a0e40a12631b1e23f40756c57b4287b6105cc34f38860cdf8523aeee7);
  Twice 0x1806b13947ce81ac0c5a20cbededd94a22528d130385560606188c713ea75c18840977a6c3b2953f2c556ed217dd174 0x22b0bbcae2ea25c1385b7961862f1486c2fcca18fe3b29e4b5d663fa0cf14a18af5eeeb3d9ef3068b335484a8611445 0xd0ba55301d918351fb327ccceb550542539ded162ef8fb7ef483401ce1460c1c569203e5402018822ae2164fc64bb6 0x1577c8e717b491b6e691be0482de15cce4f98301765c0aed4da4869b2f9a74eb68559008d8d358b58850e8ba12b7958 0x15c90bd6d365dad501f76a3ea71c84c366912bd7a9b59c9b6b613806f0a883b4b274ae89d4b4facee42019a90b8a39d (-0x20bb9db3c8a818897c0650d160b3a73121da7f1356317c4e466fd815358258d4f36a59db69b13f62fa65673c212cce);
  Twice 0x19ced2cdd9d74cda72b35b5e2d17f9cead71427bf848b68aeb44e8b698f10b451dc9662f14cf2931cfbf6c17ab0da4b 0x16d4c950c471b84e91adff06cd95839076e9409ee1086db7dda51247dad3ffdfeaa8002d8afc64c2fa510c546f2d1d2 0x1482ce30a780e8bdb4bdab9421820e35e9750532dd53b0cfc174aea20f4766747acc9bcb20c6756c67874f348d20a9e 0x18c52303b13087386e1f50c1e6a4640b0e53c62b9c031ce7a0998e0fff25ab4c470061ebdecf6703ad6da3274e52fef 0xdca292597987787a0f005ae6389f0dc59542afb99a770596800b5199addd2e8a7999bed1089a73b492556fdc6586d8 (-0x72a4de62a940e2d1701e0a309dc1876af10be23d3da8a8809fe93547846151841c7bb676923823314577d133a0a86d);
  Twice 0x3df83150e5a9af495f08869b7568c2a37c44445efcc6fcc52b4874e6ca30494e73f96368e99159b58862bc14ca5543 (-0x2af6e5f45f5e618f4c8fac21cf487121b61d4a6fdc1986f7f34065ea69bef4b99e847db570c6fa3affd63538d6a277c) 0xc56ce9b13137a252328a796d5c357134548ccc97c3055117d415efba4b5bc3da2ed4eb7c4807f105659380f58fa34f 0x8ed0f7677565e1653888cf754de03bc2806f0c717eae8b75da6782a4b0bdca680ef7dc812794927cfc63d9aedd6fe 0x18346419ff7a2747afbdfaee5e7d0e6820b26424b4f2d589859546ab58a83f5c70cd586093ad62e2744c8daaccde4c2 0x12d543ee667b74e1732e6463cc9e68120d6d9252c7ce37b8b12a319fef045db73f6941b0756090c68d96c1fdd0d913;
  Twice 0x10150ecca6177f6ba0b7084e27476e9b97d2977ce22ef33656dd6f98af3f16a54a40ba8fa5c940c5f78c1cd3bef1ca0 0xbf7703fe03dbcd82efafba83f87734fca296d84f694f6903057de678439979540689f210fe5bb1cec8c13468554b5d 0x55a4a7c8ad755d0140c2cf2d740076acb214357da4fe6850b67dee56b1207e8a6b66afa1803e704c875300a636a13c 0x99e621c709f637757733b0ddce33137ebf999e22ac2425ce5b3da173f3468cf8b61cb509c6ef1d168634c5a49d7c26 0x706dd9fca81cbfcadec4bb643f86142207bd5ac77c1f9675751e53778c4245d3eaa21e27ef2bb5f1e1c42afe8cc233 0x42db2e8ae78a304801a75031f4119e18319d8e0cf7513309b212918fb754a041814fcb4692ae290c9a1fa3f93db8eb;
  Twice 0x19bd5e5e205cf524d0c12d6d50b9f28e468b419e2ae616f6bc3e57a7d370d86b98db3a863119faeb11b019f1665aff3 0xa41997325b257ca297fa2ecc8e0c82dffcd3c817883c21213f63596532b507c7e7b787a56f122f53d0f9290062d4a2 0x143f4555b316d4cae1df43da2cef3893fe003f3f29956f35496812bad2035b83e51ab0d03a1f3e43197d105950b037a 0x18a3acdc02c7095deacc6798f56ebeb614d696f1c80221f0fb9dfb42f4b65822413596399a730332b8061753133dab7 0x86a8083f91ae5731e3877be58c974653e7f1939202b7cd1ed1d3a8e7e564c404a5c9dd437329d4b6863859c89650dc (-0xe41f9e8fd1cd824b9ba46b0ceaeaafe734fec4fc63acb5970a70aa089b0991cb55eaaa24b77d5421cbf734c05ab5e9);
  Twice 0x111308fb24e3d3e4fdd06cad8ea06799a3cac2a565624be14ce2e1025df119c10d3cdf3c0f3b63de8f90d714d78d96e (-0x230c966e3a8fa5f2e9053377bb9d64cf54ee0e6468c03b6157d4dbef20109c5f57ba7b9762229c0a4e9a4dc9515cd5c) 0xddf00d5205b99638890369f3e4bc75c9eb18c7680af0f7c399a6e603fb90a549e6d2c5c9c7188c2b429c895d4c161e 0xad78ed6c12cdfafef87bf20fbf9d236f7c7997563af5bc5c61ce203864b3172e09c333028cd7cdf58b4c6034698e32 0x5052bb50d9a6e6984b3ef050d8ce46590256730e56d04d6ec8645dc2bda4931cb37c342df908c61944299d3785a156 0x40c78b469be34bcf56efc749acf61758d17ba3f27684dc918a57ce0b2ab10bc51e194e4b750d2cf6edf729ba410756;
  Twice 0x4f2883b167e5c9cb877760aceabd93f75ddb6e605ef3140d5147bf91e11fb53efbbc5114e010c6758df52d434cffcd (-0x139e8d604cb08c9e737b12bcb746e7cfad564cb77e198dc7da91c464933e3710234a70dfd63a83ff9f9b7f2dcadcad0) 0x37f04ba391016844b2a983fda1582d926d293f5e80686831927cbae15516ec8074396e63b5c9365893883c16c82e28 0xe907ffaac405c9b9b5f3b66fc2c068e7972a009a26852a3bac69472a4533c07185c73158affee7c1f33d15df1afc5 0x1972ff89d688de149bd797b6743e18975e266b9a963f8b56a32428f9a6d145a6bcfe1c47af303904dcd02d9a2285e50 0x1e8adc756fc1848252657e7dd9fb38c27cb621b1253f0fd50675d67bd2a7d81396b8c12599fa5d24eab7c44108ca58;
  Twice 0x193512285c66f079f5cf3d514eae32074adc1a115b9e3a4010f20301206502d9519a736e56a06a61ef2b24799694729 0x2e59db88a9f890ab49f48af0f69a15b30bf592c910b45bbdc70c006998ff59c0d8a0b9fe363a08398b9023c3e6762e0 0x72da4d433884b777eb5f3dbeb8c88c0187ffe2c1543917c02e47ad107f8850db4b4ddf2fd88d5d309f2cc2629db481 0x17a16e931ea7fc3b0b46da78c7d10934ddc3df9a492d50c46425a80ea636dff9dbfcba8bf9ad849fa3741dde53bb3c0 0x171e26b2ea36ac198f1f7bee5b6b6576b1f1fa9650807da6bad02d0b2a82ba65d2de822e4c0fbe37cdc73a6e3fc311c (-0x373aa0d36a93b947aa726694479c79618e87636fda468ddbe2ae5615af24f6ed32b7f810b069ab42ea2b992f1ac2ad);
  Twice 0x138b184fc666ba89074d359e16514c14db907ac672384565ae56459242e6362c2c8e61acfcd2be2663bd23945ff54cc 0x1bdb034444a67fca7f6720b19ebc9154f95441d56f65f252155d749deacca03beaba11349946f7fe360e85acb71a99d 0x18bbd6b78a2d5496475da148fca4bfb62478971a0565296dc050f29b2c02339cad481b7e0773123c34868aec9a91bf1 0xe344bbcdf50e19c2d8cbb706c291e62e13b83e9698dddc3e2eaf6e00dd624bd926ab3a8437bef6ab5993047399fd9d 0x58b4de41ea679dc7887daf02f205e7c7391cbf6ab6faa817005c022cc5c6d14f0eb63560d251a2a42e25e568ecfad9 (-0xcc26c2ba8ecf6de1202b2f8e5d2f5e92039653da5020f2641abc0b54cc21c9ecc696b853e220c21d74caeb60805935);
  Twice 0xb64aa24f9679f5c93f9b5e4a8ffb79c14cf61edeb1c3e96005b8d5f51ecd8e1bc2f4421b54ffd5a48a4a92d1da45b3 (-0x3f8e0f96c2b66673fe0cf4721c8850ea0d1912281c8bcf0bc89c26086ada0d672560608c8f6609c7670b9810588652d) 0xf86ad7b492f376e1dcaca76cb8368aa7997f991aacf0ebbc0310f55926c70e0642799869a542393657ffe53415af19 0x4d3d18bd45d389344049cb793aab6f6b049fb878117895e58da0b056a852a95b0b31126c92f6c4e2c9cad2466e142e 0xab6861ba8a68b7a6ca7bc378b724e9e48d96b53bce53b36de1da2da21c1cdc2ca13a7aa094d336c46705d08f6fbd78 0x3e6c0668686ac55b0fc9b5329621c2f2193be4678342c6a83c9b55e87b102a39d65deeee7bdeb3d9c26d2561fe9ab7;
  Twice 0x40a6e05b656c50a7dfc04bdebfa7d5f2df10b5176f022cf594f2ad3c0016f455be3c18f6b1abbd7e3f240881d9b2c9 (-0x17acc98e51456e8dd2c338fd93a674a7478eff863981283cc902c9143e4bfc73ee6b1393eed20164c0adc3c47352ae3) 0x725ee9d0a1f8db94b71d86d06e6b1ab44f55ec73177e1dc881596812d0aaf826625a6c55a5f5f7b9a9253cf98b8694 0x9b728f5fa0c40c51a627781f70eb8402021a5b18dd195c16bab2f96a2d296bb685d425aaf7bf341356ed7c5e73d0b 0x1750bda2b1db957f221b88f3a3ed4426ded8f895405a047bceb1665d984d9a5230d834433bf8ac034058333b40303ee 0x1424c75860924f935271dc2301ee28a55a32f59e8333b2a3eab6aed70f3d0ff0198d0cdc8fa5c1fdc1137520f08907;
  Twice 0x490f2910fc1711812e9c8fe910754ecbcdf6cd320b29bbb63f1e6406823652f3b6e5d4f0bec60b5b9a49047a3a0cc8 0x237c57b485bb0bdb489209b84d7d8a729192a5aa287d376f7573971a2892cce9ba2701037864163fd066903286a330 0x188c708c744a571cfdd7d62fc1741e13136c889413f8943f21f1218a049f596e87ec97d71feef3b0fef8a39503669ec 0xc68150a35367811be3ae02d48d6f3ec3ceeb3632964c2411c6f0be84e813e7274fcf59e5ba104c39302e527f5e52c 0xe7bb0307d7367cf033d093a79b257f40636d93f3660ea6cb64fb0b0b8f778bd74a8a2aa14955677063136a017bb821 (-0x2f47182286b3ad68ee891195a50ff9b83c04ccc22d248c28ea2b68b2f5d80cfe5c3303593640b4eef8c840df9878cf);
  Twice 0x17929165942956f96c25580f23d47a8fb8ed29204f2a93aac1b86e9330ab079081500e40b93a0ce33c556e879e8ebf2 (-0x29d77945d242b082ba4df9cd38303405cfa3a4ad4823e4581685756a553200406ecb62312a49537e8d11b543265a04c) 0xff26a88607cecce5c68e4e257ac9e1e4bf182686ca7d271853bbdaf6a1a4dea96c810c80de0858d6d6075055098648 0x14aa396851450c6414395a9e8e0803b7f371d3552bc070787552cab564a86c73c249032e0df0bb27c6425d44e9fd6a4 0x1363212a58a3c0735006872a37986c67fcd142217092e0184d500cdfee2a654c29c3e701ec528e6414893f8dc91fb9d 0x78a694a4cf346e7159518cc9f40e02a10f293c6dfde2d64fc6abdb52c5c47a37d58084bf2c38c0808db45397f9094a;
  Twice 0x5e6828c95cebc1481dc0983ee185384510e1ab643983f48962461f06287bbd1064dd807cbd0fb081846fce9926a0d9 (-0x13dd31831a25af3b29f6de392ce930dadde9f2afb56a4da92de6256b44ab1b21cb40c06f32a3c30690c1132cfe18c96) 0xea9866986cada35862ea179eb86bc4c24f3a739f1497938e41fa032702ef66a034b18b3ba32e9ff4c4a17efc1f514c 0x14b755356455933621adb16b644bfb9c59e4bddf1f3bf3e6e8401c2876bacc1e77d19fa3abd6385765cd33e1499a15 0x6aec1729fac162c175f2d7f318b78836482c9acde28a925426feb6cc78568b69096643ce2b21dd48a8c5a2526d6fcf 0x482b8cf6a17c02a4862ef106cdd667bce48cc4129dc03bce405e04063aa24e7f0cb66c1a1ef66f8e3dfa20a0cfe30;
  Twice 0x10c56cec63575428606e22fc82d2b3f4d24ff3a57c27b6f5f927592248b6d2709fcd90c80c7889d13d3b727081e42be (-0xfa62452b8d80a5dd48233b0529a2910e5f5b2a90cb657201384e132c0ded377f14fbbab827e3d9c18da4ef520ed86c) 0x1002655a50bc79776639bc17573e17887eba7e9fa61e7fd3912d6dac9dee3219b356dac9a897d3a27dacd91b8d16a1e 0xa75dedb37f81ff4f7780e39375fea6f706174a9b096c7568f4642ace0e2158e491e5550adaeecfc20b5113e4de784e 0x1d0e2845bbeab2ab4e2aa15e536d7bd6686b894fbe91c948e22913fd2f595020509c21057d256a4203f3b41034c3e0 (-0xd719d20733d06ce448d795c909eab15877a9d1c99cd9915583fa5f39ebef2666daefa9799c47da08b9787d1d2c38b);
  Twice 0x152fcdfdbb0a294cd12accdd7c4e38b20463ed30db484e2ef9c71310839e38a8e0579bc2d6bde793513960e824e160 (-0x1c6a8b9a31d6748bb4ffb6b1b9e5e44fcb82aab4753a2f9740799a70c50926ca523dfe30cfd970e38e8bc1ab407ea8c) 0x1329f89e86df0fff38a26ee32caf40f1eab1519fdae01964c80e391e538cb6fa41a9bd566396bbc76619a2fc7f89c91 0x10b18f55bea862d57ea51b4fba929c681fd1e9c5e3fa51a7f0401ee5fc1c53b58088e6889af218433307aefce7333 0xb19c685a141f114b937f2991776dd19e3251e247bc2140e06348693df0e7889b56c0735e09480dd535538bda4f8e77 (-0x27c4f5d78d752cd19aaa68e4e1dbdd7246856868dc3259ce0f39fa03f3ee11c6421f07509c95b5cd2db325cba5077);
  Twice 0x121e4125450cdb7d9a7e8229d09ae04cf236b0f668f1a6caf654c6d59d65a6848a0d671fcf9e9666ae122313183aa72 (-0x1a03d520e9527b9aff1ee240006df4592574126b1bf751486921316bfcfc08945ec8216d3817c58ce13c44200383067) 0x5ad047717a78b92e2b1fa63671f34c86468d43550b28f0640e00c275a36ae4fd4efedc1a0e642ace3ab64911f7ee09 0xc354b3bcba61388bb81d0b51457a0ae7a36cfe89e615e7204d97fa739b8d6a8b6a05fa925b8936502c87f2e43e7399 0x50e6b472e45cff4b92d587200727fbc601e42476e1f622775e25c21e14ae958ef0cc58dfd75e3894e3db401bc24240 0x916a0e6d29f12ef6b9f2f4c35de4817257dfaf113d3230f9f0cd557005def584915e72ce59ce078fa17e96e1ba37d9;
  Twice 0x47e0183f31773e9eb774ea5fe29c4b275a963dbd2a211560d88a67d3c38c25c21f4f87383bb5faa8dae8d9b5679bfc (-0x1e79ea88dabfb075b2291490251487f2f25df81c149892d4f1489e2bcec9a2b476d400a0b2024e946f60417bec46f3) 0x183219e9bbd1096f05dfd2bec200e0b655e67da57afa01fc39c8cdcec97ddfde5e7e426968753c9515d2ecb7ec27067 0xc01fc5ae3029582b79fcbc16e5103714de7306aab5b64204d1b3584e87d969adc711215ef9d65a1df025b9920d397 0xa5dfecf3c897d0494d577b527315e5cb1ca26497a0bc52c527c07b1c884428bc319af127491c8bfe0072196e37c6dd (-0x3180ffc8008f839df0ea6359869cbf80e19b85e4be2a310c90f9e3a95ab07f73b3b40a41b5bc574124caf0281347a5);
  Twice 0xb31e6e743918fdd916ececace648c33824e012a4dc5d5f4ef97907bf5e60a8fdb7baa2f85242a686d4b787e51726be (-0x38aefe71fffdd6077dfa51baa7c43ecd0ab559efdc6ae6ca90ac072554d7088cde0d1fed7e32c89ae344fae8cd81047) 0x15e18a1382bfd2e5fe95d35bc62b0d52b414333295cb2aa2b6388b14e7f1317a154ba1df6a8cf8c8e977223f0e9b31a 0x4a92cf6b7c799f1b88e836e87cf6661ba5420eb5b881f6d0bd68f988f5ec24240b0dc0ffbe67a6087a1e10f992611c 0x81cc6515c8a2cd3a5603f6da7c7cbdd952f78115ed00e6fbc9d885cbe5caf80430c6271318600899256dcada063756 0xf6b44df0801ed2383e704caaca55e1149597542bb66522f25f54465c506edb5402fdb023a78c00b2141ef0da2eef3;
  Twice 0xe6f9059ce890bb2ce983d4dbd416bcf5e15de304bb04602f8e0bf8d86cba669ae9bf52fe5cc356cb48bdfeff2228f7 (-0x2cb4d117ad660a1703ff9df8ca8c282f40a13e852edd027993cba943bf5b70867956d395b01a086ee7f1aae17c273f8) 0xb33d45e7d50d6e5b1bba2eb5b88732948a621cf43ce88b1b89488f6e37514e0bd236e334ffb0df328f39197912277e 0x7c001b9742a9884e26281b00536edd793f28172a3b2b548faefa32d78a64a95e62c7b28ac6e2279f4db4ed9f44909f 0x259771bbdf36854ed321d0f566d950f7a65ea48a7dbe786b4acf1c119696bd11d4198a80a59c141ee55166226bd948 0x5bb9fc5d2534464f3a0d00cbc86adbea52a41031eabf03839ddcb10ff4ba42c1ec41079e410a4e4803bc1b410e02e6;
  Twice 0x19af70505fb073d310ce60896850daa5f984007a3324ee27df736b36bfa6c10dc9a54fb984b846971c8bdc809986f99 (-0x98345b83f8f1b89591331346dd576ed3b0ac3bf49f8c8fd02b106e0485752badfdbbfbceb3ede8bcdcd3e84e98bdfc) 0xdae3c8df9da4a97ce32efdceedaab84b0043238d5fbecdf6525b7d1f9b122bdf89cefc97eae7f79a003ec9179a07a9 0x188908dd168f79581dbf261cd45b1aaeb4d27d023cc7963d6b2371213dc8f65785913b90d903d662ccaaab16e97b2cc 0xb8bf62c26ffebcc8a268794613110b3e1e8f3304805354da4a84ea85282b2bb88a58cc7f1ec8f071464f77a271b7b0 (-0x25e00a2811ca3fb02b449a3a5cfa80a558d228411da299b736451ddfb61bde976a403d59151e77002eb4b70acd2fab);
  Twice 0x12e265c28b3b3df417290546b6c4e86a2ff974cafe48563ff8cf2c28867b4f8ffba160ed465f92b247f9261ff6c27ed (-0x4a99c9624cfc3e4f090413a499510f6c17134311cc307d3d1ab5c4e4fde14983272e2265ae086c2acb6209b7a64cd3) 0x7320e4dcab5e3507d9b594c8b7ece4f7c27fa7e7de64487003ca7662ba927d4aae94048a4da33bc29a4b68ac813768 0xd4335567d8f2777573b5ef650e86f8a446d99b2301f5aacd05670f3d31a8edbb8e72749827ac47626931db007ccaaf 0xdc8ccdf593e0d4d586f62b3a5fec646bc7ba216df32af03edfc70e21226e7eb1f04f128b18a90b6cb9c1cd68fb6e56 0x48df2db13e51f9800ea4681d3575f49340a59ffe431e6b276706aa4323fd3e00abb4c598eabfe424268fd87cb18d27;
  Twice 0x67e25b4a9705590dd27df6b18cec9fcb7fc8515bd9b84ee834ebf3383fef9eff0dc677e0296d0e1ee763a9c3a6cb05 0xe15ad72a04cf54245b83d395cdd71f8b2edcede81655480b495af6f94c60e2a29847eda7522d194a82fb50ded249c 0x11774f4f8718d536f3ddc27b06d22198ee690111de273dcb89a628fe5ab6e551fb0ac2010343519a1a1cb03d9541741 0x19158ffcb7e7a7a226ff3fcc09dd7b157038e089a0b382cddac15130c17627fe245f1ccecc78dd1aaf0eba57266808 0xaf9fc9633be0413128807477ce85ce425d5ed5ab666ad69d9752bc4432378632de4c8f822eb57a3b56689053106833 (-0x27ade53a566bb26b02053fa0bf9a10d3bd2cd4eb40d590f5217158f3e5c34123cf2a81de34de0b5afa9771456148c6);
  Twice 0x6cd8c8f71e59eeba2de6ba61e2b24c8de8f1720a27c29c4bd35e9f8e4b145e619d20885bb0baff77de41de7520120a (-0x1c7b40b7ff0d13e29d3d95122ef6c4005e868874c5c9fc0e8cdc140fd5364a807ef14ac33850b487c2bccf2ed9eeb87) 0xbe38d8efb3efa8e4ec998bee96503746d99d9333f0ea45357ae464e704d4819a4920124dbd41e888757db562a51c3b 0x1b89bd8e56c284ab1970abccfce9a5f3a52917a93788437e3dc3be1edaf89390c916932bcc0ffba5885e1c92781da7 0x78ff0a767feaa62e12e3d956a0d6cc5c106d0ed38c62f4257c607a68efb80be0a2cec71d2257f6918559e48a309e4a 0x169384c20aafd6b8bb84f5ae74c6a0217b840a06478eb29ba210b757eb14ce2976efc46810f37a65428ac131fb33bf;
  Twice 0xec9edca74a60b610473907a9be7be6311f7794894d9f2eaf08f4c83a5a43d2b475d3e0c4263cc4d715abb48d052400 (-0x7739022f3170608e698a6393929a88f564a9b29a6979f8b7a84af8454755216978ee578b8572bec29c29685a1810cb) 0x16a7f3d9c2431e7e021a0a592740f8879c328e371138bf37b49837c3f3507bdfe926c4099d59d3ff5e9ca7c85f83c2c 0x82238532f330e82e23430de71738529a08a1c2940ceb3d1e12dd6ef836b2448aa0aa3f9cca46cc02b603db21cd8b5e 0x18590f9c6cb5fa478ab1054c7a0fd950a3d79b73ed42674ecc89788aedede8831ba8f769d8fbfbd6dbfa8d5032ef411 (-0x5ebfd71f10e415ae0bb074bd7e6a341c542725dbb02e6da3dac3bdabf64472d87bd5377746db6f185aad5c9a92765b);
  Twice 0x9d358b76700056669a0f061f7f005b5206064966ebf48d192810b7d2739718516b8ad952ddd76c2f58e54983e762b7 (-0x27795e04747d8b0d6ca951cb5787a8fee05b44d8523c5ad907319f7694bfb7a1e91d2f4b30399adf7ff6e5cb5820262) 0x74e2057093e1642684dd8ee94cdcf1e8421b71e2be48078d9e5333a3e6c2aa53928bf13c10b226d1e0bf22b2e1930d 0x39721838237888f35cb80941fd56f6afe47c453c15491d7b347f35449835b8a40ff28d9f6cd5f0a0b2fe6cd780936c 0x1362e9bd7c0a6a1ff78bbb6fda391692ae329867296e9116371a6fa2145936d88e7d2f95d8bb1b73a327cfdbe835156 0x59bfeb0325e3dba630ec54fb36a4628035efb210c5a89f4e5453c66644dfec6096f7d4e1054767b9f4e10648377dc2;
  Twice 0xd86ac3acdf5b9fb4decea32197e942aa7689e8fdbb4eee7679e2e2fb6ff694f808cc3bdc9bacd641ca2191b7bc2ce6 0xd8cc515cb9ac01e0f301b6be2aa49037c2d7a67eeb40c7a4d35a930c320971ee37e177dda0a72f759b29e23245ea8d 0x18c29a91b10be9981e0c36547079a682e7c28d7c4997bb6c165cbd2e3c69001614e1abaa147cf3790896c9d2795ed96 0x6cdd34de87330d6774a390c03fa363820880c5fb04a727fa3e082bae1c98a17ad899e842c50aae6972d02c4056caf4 0x4545480cf8796ed175ca255e02294228013a1165f2f2bb5809567113da7b7a08ccf46fa8ffab0593d4b6dc2a356e9e (-0x8c7c645cdd3d50f1a21fe820ad2785a8f5ee5ca08f4555510a3f8bfe6bff563204d42741add21515142db12deda30a);
  Twice 0x15bf535ba386de0ff85975a3093940e007102d3963fc260ecbb0bf2d2985e017e49d7b40ddbe1959d4c6d9d101ac324 (-0x3d6561809181d6bd077fefd3e1b42c70867aed303e5b6a57fc6ba09370bb1b74b08606ae9ee81b2bad5afd6e5ad6b3c) 0x7b6f9c5a52d46a26e9367976c421562de0e2463ca0909de8f7e83cae60faa45d84f313833576eced3c5429f923b726 0x1196b860540090bfb727c438d8f3f29b2b7c1de86230446b3161badc22c8c7b2abea937144725363f15aff46fc04abe 0xb0828c39fd39532a96f6fe696b049afbd01bc87e2380076b0309ad0a9dd1cc4a443c481f0b7ed7ca9f102420ee0c39 0xdc932c8e9d5a45d7094e2febd53c9c98c736bbe53fee67d05bb1079beb190d40ed11b06bceff72651f9343c3c37ce9;
  Twice 0xfe54f67d79901b6307ac2e89da8b0e20551459770feeaf24043918fb7bc95b784ca1ec5733b524a25a90d000bfa32b 0x66720dd51679f5879e649f1f5aaece781da34c8b99335464736e54738e4d31d46938ce542ceae7d1dac199e654a43a 0x9a5075999cc539a77a09c8ad8f9032b643b6647836c400a874b5f1d5a157b273526dd4b8ab3c9a8579fb8b9af26b6d 0x965997231c7a69b8ed1e1679b706cc1c78fe5c2222bc84cf5106653e472d086622133effe6f41ca5a3717554efef80 0xcc6976a22bfcc2a2ffdfc64b321f34562f95ecb4f1ac39dce605048a0b3a771aa5ec41c48b77014973e5b4d152020f (-0x124100cb6383bda902357526de6a06501020a19bd9db14050883f94873a2dbcff9f9af1abde9920b19a02e3dba8b35);
  Twice 0x363c25264c001fe04005242961f6e7f7d3a54dd0457371040ded8aa8334b871a3d3cd34f56a0c240a1cd54108a7fa4 (-0x7283089e0fa7e4b4eb6445e419b95d563c66a35449ce0038961ce1fd2862859d9625b0d1fbb6af2d979ba59a2f6003) 0x51ef0002f6e202f16ad52e7ac063c00b5a63cefc9bc1dd5ef61b1da27c85dc6307f2c1bbc385606149bc3eacded76a 0x6d63fef4365370ff17ea6c143a5ac9369d2b33e668f204ec53724c5c806e70a3e02487c406dade3f3532c79b072cc 0xee273567388e9bae102b33727664eb95c6f32d8db23e81a51cad2c2e21d87082661c6990dfe3677f1eb14ce3b5aa98 0x91fd7c6bbbc823b99e17d7212abd603def70ab46fd10a0fb73eb1fabdc0831f8d14a9e781f7ce0110e82c7f8ea245;
  Twice 0x1701aa0f3ee5bfa7752bb89b9c82b392854d9b5946274574c9aa3d845878d0ab034f6263c2cf1f9afd20c76fd9f1105 0x168b7da92bf8b94d51a4af6f6dad06c3787b83234aa0774203bd2f7b83bc540930acf4786a003ed98cee5df1b3f3244 0x17540994ed3b40228e2dafea2135f0510e88e6e82cac67dd71c983670117d5c1b4bb2bb4f7a7dcad091eb22f859d3e0 0x13af36c6d8e6e7b24db488b4bf5c86a57afaeeb998911b07904a0468b82e63429f881cdbc53a81810dacf75b5402765 0x118307dfe9801c3cb0831b78146ff1118613efe7286b0be96e2df79da48dd41ff41d913a95267d5bdc1bbed0c895fa0 (-0xf940cfb48f07b8afa478ea09b4f45f20df45942f68ece5aa0fdf7c317977ac103be25a0f9fb633570753f9ffb3ce86);
  Twice 0x36599278721d931e902decde2ee26a708c8c20b0a11ba5353f22b68a1741f43afbcd9ba83a9237aaf9bd87eba67b8 (-0x3c70adf84b0f16d18322f5e4f4a20c696eb885c882165155d2e48861010c6454083596fa7743d5f5f359ffbfe64d600) 0x3be86b6d53bb9d08a1abbbc73b83cdc58533a0c29c397bdddafcf4d142619fe9940fa5fd1e1191d7a21887c427ffa9 0x6ddad438ec50f9ca23ea182040af1b62ad24b6d62b42ead1c8bd28725d187ba814673b247a6fc54ad864c89ecd7 0x155e90fd93fbf0a0bfbac0557e4332f3c9983fe379c3497d3bc26695683db46d6c6756679a0b0cc05a964722004d20f 0x279591330f1d5cf0938ec051ec493e792db3f95ec95854828cae4b029db3919df55d22e6f46e03f5bbf3da59a76d9;
  Twice 0x155c2435b754e4ce557b95cafd4357ca7a752a4637c462d371b6cef928185c4f27191f3c55fb6f5392498a17a438051 0x2062dd4db4e9b4e3e5539681b250bde1af3b450ba9bda4df6fb399b78816b946987e7d328a52a258fbd03ed4e8594cb 0x72fdd2c4c7f6863ead7a2fe6c809d1e92d8374c40e00fe31df83855e957ee6f24ee04545621bcb0ace5b88f45ebcda 0x10f7b6b7fb377ce4ab413fc0146519038b38c94432824ed997160262a249b1fcf2f726096315eef9fa1b16322085d75 0x11226b9d8a72f3af527c06045ae7f4ea271ed909f07229586dacb04995a84b0cbadbbbc1a9395610b9bfd1602918f17 (-0x2bc1b24efacb43d253430a5b00527c4378a5070b3a1a3ced672123df2810bd263bddcedaf692135641b551a053bda7);
  Twice 0x44c04903bf405f64b9e660b1f9b0a8c2ef77418c3c4035b3410a746b81b982a3075945e9938dc345e43a7023b03a9c (-0x495d62b48a75cc6922960348e8e81b17c992280ad6c8b86675af3f1e6a9c83c00a3589c277bfdfd60baaa425dece4) 0xb2bfe2e520d5fdf0f2cc8d63cc3c66cd3965c7085a48d3c8b5476a7bf1c5fcc0d2b776f6cd878bef89ccc8d09ed46 0xafc8e48342c86a6cc78402c452acb3cc63ddec93a017a427c8aad408d5c3d4e01020732d1cc595645cdf8d623a816 0x73fc2d75c0bdcf2e84798be71169bdefe4d92838dd442a046482456fd4fbb8f84917c435daa992ea35713b6acbd71f 0x10972ed41b24b0a49b3177866034bbda16ab1b272a9c06f4c54779584512de298d6204204205416773f756b3189ffa;
  Twice 0xa94399ed727ba19488af47cea8bbf4c380dbc438f8f64c6763a8dd7e7891aee6c7d671c9e5b855d5f3e36890c2d936 0x5a64bbf609c06880ab323b60d7963091f956bdd21ede46291a16a6c59171c25424eb476b08d5ae6d373c4e972941a8 0x15dd8c1ca71ac52cb84e3cf67421317c8205eb5ad0203276d7aa17496996c7daff5eebd26da353e74f694d22842b4f9 0x4297e9a266a43fa58f087099bdb93bfb18171d7a817b403e4ba43d42dd35f3e3fb4705ee5ea916231efa1f6bce07df 0x12b50dea0e86924c2406daa1e4977d2af09453655a4dced52a45e418b6ca78d50a785785c70b2bee454748c9b3f4623 (-0x853e9a62eedcebd2d55f7d23647f1abb3be04ad3b0c0005aee68ccb798199a40b6c59dd252140b2cd3629deaf1f804);
  Twice 0x27b124ed00f5dbfeea865e4ac92b873563f6a7349b1a2a0fac319d9d296d04473f6f89791c9b1f9a33a5a9a4fb6e13 (-0x31e38e72a2b2df9242820732ee4fdda046d7bd6c3b051ef8d30c93a265e356db38df744ae3504a8b26b14eb14acd161) 0x7f6696f542254e55031476637d583f45df487020d80e74ea90960678b86df82238506e9c46fccf42a2ae2dc6145acb 0x3a9729110bcf1370e5695dde3b36684bedd215b118bcbe1f8d6edccd3bfcce5450f3530de20769750173d49fc90ac 0xbe2078a519fc2435e5f302a5d2ff2f7102d9db284b294f19f56797f0a885721afbe80cc52c6dbfd329809a7871b3da 0x1485be4a1eb0e17ed00751c38a1a8dde540b2b811bb7b9b9b26927da7f3f77cd3ffb370760ffa23ed22ed203997b6d;
  Twice 0x9e49a4d3fdae99f5c9066b82e515db1eb124343430a38de189114ab1cb016a3909b7e0420bd4fb6170e72609fe1fc5 0x1ab8e146e24338e48f892b2da68d67f3d2df3ee8be85dfce9ad84710fe269fb992bfca9518c950f7144f9c25638299 0xa112d552e532244f6341b14eda2c461be0b67bc69d137a7344bac5d7d592616110003010e1838d5ef634fd6a683b0f 0x3a3c90a819281e229f64cdf7192524c484edacfce747cbc4ffdfb269d6763932a7d98669d560d9d5f83da1f24c5cf4 0xe85bc1ae7f235363861149b0a990218c71e6554cc31b2c35b0778551519492496113cee84ce39def20d4d15ff3adf9 (-0xc6386c16f03d5641b4c7c6e8c1058b450690f7fcefd637caaf5be9b6b9d7e12033cc0da963821f66b9c4e5c913227);
  Twice 0x11a8b7ca09c092c7d9a60dfd595df2746af61eaef36e83e8c5953e08034bf778ffe79c63a11e01b0bd1786b5689566a 0x7c4807cec766a572a2cef28236aa18384e919f204fe679129dc025838187afcee340af8ac3b5cb213386b94dc19d91 0x184cd334b94e6cd74d570dd8fd0bda56335ac880e6401e5089a075496e6ca4586614120a6b68628f5b71af03ab1a68b 0xb98e8179fabdde73d96090b0531874c806feae6f6bf49c1fa1234f24d47e2f3cbe53cb43c573a4e03e676dc31d473b 0xbbc4c4151bbf3bce1b5f9b951faa6b9cbf423b677bac0fa94e561426cb2c3a2f17f7784097447a74921902308c4bb1 (-0x958e7ca15afa903729bcad42cac82e8c6173d7e772b5207539b90cc24ff5252d0394027f1f5b7f0eb86490a65e2302);
  Twice 0x106ee1267fc4ddf823f5579efc7c9e773f153aa61808c50d8034898766cb40c88371e957d16f5cdb83a78683632757e (-0x3389630c10529bbfa7b7dfb3431c379af78cfa3a127cb5b6b66de6774a9b41b67ae318413196becd40cfd07d93d622f) 0x278b2319d3f8bb6c3d615cc5d989c116a49645f75f127b4cd02bb56789df1ac556428c76affbcf35e2c6d1fcafcf61 0xa0affac4005f4b3c4202a9ba8b00544ab9792b8bbecaee204adbc5cd026d01a6d84c2218f82206f6d42d30d1114d8d 0x900a4d97a1ca8e9768fafd627f3e1bfc74bbbb4626607cc2691ad8c3d04b74b61dd200bdb23371f4ed9b1a5e76398f 0xd57233ab4d799df7d6786bcfb7e2db253526b8d124c5c2f8c0c9f23343121d1524b0040950e688719e1debaf6f936c;
  Twice 0x12309e2acb8cccdadc2cf36a3ecf726330266b228a5b592793f03a03b426cf9be29181c0da0c26a7933842eb311798d 0xb7f9cf5a1bd82221c266801ee53098fd24a3c813a635caa033cba2c8138fc79ba45d620bfb70d83821cbbafbce8d43 0x74112497854fa184677b8f70bbd0e2eb8efc272fe55fd2e5f7cebd632a803ca2d7b9faa775b1130c9485997cdd4020 0xc4e16f2ba1464b6b3b320ee068b53e2377086c12c655d9af69b953f51235d5fb217e8b1968e1db28e9349b1633b8c7 0xcdbd6b1aa0541e41006c975f3f227060d357275dc48e5f7776106e7c113e601789d7acc9f94447ce1dc0d04120981b (-0x33c42a98450bed0e2b27fd5d828c76de669e41fb0046e6ed33d0913ec4cd78248af6569acec00f9e09028dbc9731dd);
  Twice 0xab0d017d1e8868d62ebc23a1e1f291565dc1bd4cc377d68463f02fea017b68b10747883bfe7dba15af27e8227dcbee 0x45a8c4bfdb39f0da7981e7036bd1801bd05b6511cb861d989e0c3f5ba45db71d83b13c06417dcb5b5b04ea2a439834 0x1181c3f012d318c78d2b1fd0f1d5e22c35e803f14a23ff74e3d0c38c2ffdd53d18c72e9c85ab0f8efccd77c685d4fb9 0x4401b9889f254c17344b42c1112b3e143c7221070d6728ebbd22a0d0fd85cb4991d04f29d0f3ae0ce7a8ac9ec7814b 0x927463b934adbea04543e5177c626ae5e4702c4cb994cf95c646ca3784622701175933b22f194ce8c25d64b0e6f432 (-0x4138804c8a0e3f0cd7d8e9d1f12612fc8f2047f2f3e029b03377c72f19d4f4dd1c69232a1d8e10a744612c5f295f8b)].
