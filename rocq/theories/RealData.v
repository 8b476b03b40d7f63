(** Data for RealExamples.v, found by a program and checked there: the point that the message [1] hashes to with the direct hasher in the domain of
    proofs of possession at counter 0, and the additions of its multiplication by the cofactor. *)
From Verif Require Import Base PointCert.
Definition pop_x : Z := 0x10d7c6bbcc5da294dc769397c215ca2e0eee295db0a6486a10d186f4a0053dd5d5f5efe9ab5d3000706b38a1fe93954.
Definition pop_y : Z := 0xee1783a641fe10fdcee27927dc8a2bc9ade2bbdb9665afce8f0dfe7c449b6e0a5d72b677b913876b08cdeba8f0c2e3.
Definition pop_cleared_x : Z := 0x75c91adab527e738f7867ae64e9349a5fb5ef07d12f7a3e0582b2ed1413bc3049bcf490c3b8a97bd67cb8ffb33c69b.
Definition pop_cleared_y : Z := 0x7a562aa49469ee10fdd10183f43d400cd1c9c3fc1c3d5b7097e28d883e493a4b54daa315dbadf0c86faf6fd68f95fa.
Definition pop_cert : list step := [
  Twice 0x350b9b1fc3e1b4ef4a75aa4fd7973aa920381cad077ce07ffef1cc26c46d7d83e8fc5c58ee042f1e144fec144adfce (-0x1bfb0c3d897b58c1854e442c9a88d312a63c9471e63365bbca253a5a06e837ed4455f063a76251761fb16ffc4fe6b5c) 0xff08d42ba43dd01e45aa79146d44b2f96d89146c47db21262e857933445f54d5afac6be9a46f89a11b13658aa1e06d 0x68a4f8e86beaa1e64708643ac5d638e844dfd4f334dcb2157db5205c498eb29775eb129dd6a796955d6348c4c36af 0x5327e1bbb59712a52a019db417edb921cec863509308ef4436b26ff2257360037527e786dee854fee6f2b196c8c3e1 0x1c825127c090dbbbe7056f7e65dab2f223316990a411d88e09b5e398d4a788bdd5179db5251dfc2a27261c4e73c1e;
  Twice 0x7f105a0cf7ab862587015e252b3e000cda873432b76102b4dc0eb8192040a2c61e9618cb90e6a06ff97ee125cc5c62 (-0x1946d418048c1f3e0eca93ab157d6019d9fdbf5c1074ac85114e7dd4fa8af0e558a63c4f54c67a1d717b689be731af7) 0x1476d34a558478922672eb84c44e9c744cbfbc932d8692841b381e8e0076bd004abe7bf9e33802cde944c7bdfbf8d46 0x2586f50296e23f3953d21f05fd11f8b7f381e0cda2370b7ff6cdf48b5f80127e07c222da26b48d8eee1ed4bc834764 0x108c9d5f4f7121509976139d1e92cfdea935221cc85328ca28c9d5aceb0b1321ecb0bee1adf589de69120e5f7b35b2f (-0x15615f116447aa80389948965652251a88b0b64b92a6f4c3ccb01c9a892fbf39ae493c47311feac70c4b14e7e24622);
  Plus 0x19ada073aeb62c1e920c8db25b60df15c70121f56d626d0bccc7161b08849d47062870da92ba495b3a29da02e47f7d4 (-0x3754c485255f14b9acf6a59570c504075afee7ddae046532a8d9c1147192326f917d55b5f97274bfef2e171dd76a1c) 0x4e302e9fd7205c358bc5b8b892f745427240527c30a593f554cdaf39e44f3266a10c2609eed24e257889fd8bfba33a 0x188592cc815f8ff1b5aef916f88a8acce6558883d81971ac32026e1dc3023dd25db26d2818e1d66dd5d38480bde5dbc 0x3d6d9b1bc8e1a7b3d39437db04013e3939f8ac01abf231739bcc0e50894ed21f91acf5ec67478fa7d4922a4e1c727a 0xee03777bbf607e391b5df639f3edd7df9f770f1e1ca9a1135f280c3e436519629142fa01b9ed4ad27c134330939847;
  Twice 0x114fc56af0e447397d3c2c13b3308584ead22aa2af9ce8e3b901b17165ac64453dec40322e4dfb3c3687aaecf3d2556 0x2477a21e9155822b23614ec13503d6b99806b9e925a5b3c83151ffba1ba4d21313f904b6948d983b2cc1cd26eb728c 0x131226df58488a6df511950145a5d359134466d51ecfdd2aa764c6b7f0af9df1a0205e50fea667f18cef0694f043ed 0xb253a30bd45d3f96689e2b401e4b888f58ec33eb51bea2a8450e07c21fd31f9232efd7e8581f716de066e237866e83 0xab5b00a5d3e35a327e155ae6b6d559bf883ae74941420964c8bb7ee3c3aeb3e6ecb90dcbfb1514132ce596ff1b4537 0x260f7844443e4699ba4e6317a133ad6512781e0acce182d6f5a9afaab0256f2c81998d96358d7a394911054db96d2d;
  Plus 0x188eb1f2a25f87bf1887e2c4cbab16296ba50cd5e1a7d25c8d2c7656bae3d583fb1de763468f5d483a933c8d531d5bf 0xe4b2feff0faa4ade48350b600bb7d29f3f387d112b290b8008e2d880395cadcfc253df5c416772ab6663bed5cf4d2d 0x1596ccb4182545fac98c1dbd9f713bd8eb3a38900bd79ea03c497206be7aad2617935ae47b607a59faea93c4d599e07 0x166d83e007c45084b2435bae2f791314572ee900379f4893441d35fc26e9792c1f2c0ffc49b9a3124cd000659624939 0x4277ed6d778822c2dac38a13dc5d0f54434b9acc2a0a704b534f12dbd67a8b659f662a82486953133a7c8a52763b22 (-0x12a0d81c65747d9fc82d912b769b98996a9cfd8cff24779364250d54d393d7333b024b700acb72b32dc4917711d5bbf);
  Twice 0x1611b62cef749118ec6855e1491b7f0440f62d9e61a1cdaea333b16081394dd7195d9c6410ed8e1ac6f862f7a0796cc (-0x2d2e806269d3a5b85cd8b0a660d20077889ed043a1605c1c6d800a4a4178c9db225c6ef3d9b404a319db6c0cba9d663) 0x3e278c178370d42081eb55238fa49c4f7569ce89f9f60ee32b6a0c5360dcab0837c08e17939ed89a70b5a92f13d254 0x121cf84cc383a00ffc5428678a6db148d69fcde91ee344541df92f3271753b7277bed787c6c6ca08359a2ba3e34a42e 0x14342e4c24737af44c0595fe0bff207a12719eb0db05dcdb43740a0b0c28d8ceb769b99986d1325ddb9724c0ef5a6f3 0xe87e223bb05dba2171d07cc859aa0bf9a11bb072282e2ed5e40061f3ce5f3468bfc3d38e567f005f3f4cfb8372528f;
  Plus 0xd6d5b141ff78a718b145541ba495da1c6a95a043350aa6a096ac93016cd23aa8ff5c11eb226bbe0950e305bdeb9989 0x678801c48efbb7f8436fb025c730fb68ad9d511f8db60de13ea0f40333a65b715e97aa82c0935006af95a15fc80310 0x10d330580a75f58f062ccb138a4d11a5280e73d2081c02aa1adea22651c57deb99b99c62d2276c3f62f996cd2a3b651 0x6b472b994ba353b1d140378802b9fb26f77c64fe49c303b7f3f87b012f927e0c05ab444215b3531099ac4165fa4958 0x47f341ca90272c6bf00c79699a1f2759e51e9eb055f0968f60f2dfa7447a645887a2346b194087b4900e5fa0bc1471 (-0x67635ad6d8170421ddebf8ed8446fca631089080397686032383ce7a3db1ec40ec43fb30ec40cc3993bc784933f2c9);
  Twice 0x13737a9c6160107272841f2271abaa55139902018600a4df4dbd007296e07caa93eb58e597106cb632c670ddf9100e (-0x1f2d1b28789f3c0100b3514a98984d39423f2673394f61019ff48f6e119312444300de880634ef1314e13dbbe057487) 0xdc7d34c5b78565900db135c17927303d174a761f3e1372d3d411858f1c2b0e522f8f2096718e0522b3bdaa45a4a71 0xe120c56118fa135ed1c6fe2315e15671df705f7585fb1b0a8a1cc8454bb4427c8da42fcfc9c7e45c7d941e9c09b1 0xc1acc752cb8efecb93712d72083363e72441bb7eeeb1e1cbfcee246eea1a2b31b5d50da483b395f187f66c6041ab77 0xb8c3b1b3ac42733066ecae99c4e51aea1cda7711a31cea5a43bd0dab5f418983ba7178c6bc7dd20ef15a16aa42658;
  Twice 0xabedb069d7500bcb08ab3baa9092ce19d7cbaa8e04c9f50ff403cf23a2289aedf9dc1b2f161c73291a96fcf15b6e77 0x997827094cbe292c3a284f0c00e73a47532dda0f5bac7918f31dc6964a5632c60c4f2d422bee2edcf00c4041b51aff 0x136fdf8abeb53a3d2bdb3ab28137668513980a13daa9303649e8ea6e0de3ce05a91eeb8c11e2fcf341fd95c023d6af0 0x44b4d7dcbdec3e8cf69eb023926a6a77c7fba22e844854c89a8b8c966e6492f910068ed0cb08d73720a3da7b527b7f 0xbae759a544d10fd986aa288c9c854f9fc8163aae26d7756047069bb53ccfffd3e86753af88fba4680a1628af0739e6 (-0x76c5b4be369c45b3cd72c9fbe398f2005fe0d46489dacf36fc7a69c17622f7a537c27ea658e47769dbf26767f89266);
  Twice 0x1acb8c6729abcff3fc4e60c963df3cdda52d848ae80cf7ed1a9cbaf3a5192e2a372611941771a273d86fc9a15c6810c (-0x12de83fdb8c8a867390d4acfe3603d04b9268954e0a06f50b43c7e5cc22ec719d4ae4e0949afcc443c6c71cac53a970) 0xae92b0b9b735ae226035100cfb76c424639d4df3872541eef510ba8f9c97119c3fe5bf9c9b4bdce748b410096b6a49 0x1ab38a038ee54025098c35f844c2d8631dce966188073b09a3a868112ff88e7b0b6266d09170fab1b3f66bfc9b6d867 0x82c75aa767a328049c7afaa14d0c44374b7ec100b5727fd8a78c56b0fdae48851435b86cba2fa1fd599761316de9ed 0x87f10b7f23a0a35d6c323c317b446fe5508ccdd8488071021b513f0b5cd312a07db355ba12fbc296c30f57cfe10b01;
  Twice 0xb4a035cbaefb2ea74c9007b633e6d93eb0160fd9233b80a121ba55ee81920317b40238e470bca847667199c8110c1a (-0x66b27c3c86c8defe83ffb7eea8b191d14438cc73eaef401d76a0453a79a3232b369015c61b8d859169c13bbbb7de4f) 0x1a95407323cc258bf43301d790b18e561dd2cbb4928401cf27730a6129968ada8281cb000cbbde789a685bd8a4a526b 0x4bd5634e7c20442989c3660edccd870d61bbfe9dba47dbc7e029b5422b67a0dc2cf76a38466f266cf4e1419ee54ba7 0x11e493ce338ca7285c7af10545912eddcf0ccc21f4e34f2eaa6603f3357e68b962eeba24742f707c9f90a989443fee7 (-0x6946ca19d71c8bec2d2b5d4525db674da0f18520fd875ee3195069720ed3c77e56c909d743850e9fa7821d49791448);
  Twice 0x8b2e8762a3857b1f5ee8f2157dbcad29fe6649b9667f4127a459e39151cb0777647ffbb360edf659c61f95c7709034 (-0x43438ffc275c281d3826b8c201e7047e3ea8d78c2c34175b27626141b80574746faccbebaecd2589e62f1ce6eaabc53) 0xdedc862716136f45732f3194bf06d9ff814f076ffbfe346e4cd71836c5d741fb484137351df506a2f8d1c6bc84f194 0x2d06bbe7dc8b028011eba10b1bdca5db430923a30adcb3ab6cb74c3ab7b2e4c8af5e23b7116f54733248f585a0f426 0xc3230f3d71b1a0f811262edf1b590ad4714166eb7f40882ab5fb16a20b12050a19163e68708a93f6923b6e1dff768a 0x417fdde4967b0013a101927f98b34e82976a8ebf08fb1cd6677172e2593a95c1f74f2e95d9e9eb0047b69e9f5d263b;
  Plus 0x19d9ffb6172a85341f836648a848936eda82c9e22508fe6d9688f9fad0ea31cde7708ecc4e14b65c70de9c7c376daa7 0x2cd348d53bc5ebe683c6409996036ec43727c7a3795eb6efed02d2fab7702ba86979af947e3d61a0f98fbc031301e7 0x632df56c2a292c02a90d0ec5f4154add71f875551a7ab04a84701c83ff9d33d6ded77b07d96ca0a9fb2c0d647bce9f 0x18da9b6060034e63999d38843de131497668278656451d8fe2905ad4e1cd4b4accfda9bbe71a00f2026048c75cadf6a 0x84b025be9f773834760cce9c3e00e55fcc4328f3a8b55665c39a3e5604bf6c1baa74e4361fa50d4713ccea65dcaf19 0x76e8b0dea0ae293ef450b0cda918535ecfa86570752dd4f8c2f70fbba6e5b678ad1e82cc89a04c40a69bd16dcc4a30;
  Twice 0x1363321b58f35b95b81e9b31cddcacd1f2c5dbcbbc17eb6d1f604bf735005f4f424a9e4b6d8e5cc64c240e1c9258bd2 0x7abfa9da2c1c0e00ce6686cf2d655dc8def037934d0bd12e7f1d85c37974790365ff3bf8bc05d1017e758760c396c1 0x164d43f1a32c2373ddbcdf351ab3f18e6bd697038a7cf0f145d20f775ca42b5a05ea5376b5c425c26c749a36db3684d 0xdfa876253f71a61a80ca1a6f5ac8764d9a28e410c031c5ee18b1babca0c7a70b943db0a87c5b8fbeac60774466b2b9 0xbf36aae04df0b8bf5e53073328413eb39d5295aff67d8156c4b7c3efadf501152ac9c4783f120ef8a41c94c07096a2 (-0xb9c4c9202057e4cad1f5c23af749ecd0be2bb48828c28800e862fe9b06851fdcdfd91996d12c300238f434ba80d077);
  Twice 0x60bb858723426df1f2a206c87930b99762d915b997b7acfc6b17cd5e9b2187a85cf524b48f21c5c0db51dec88f56ab (-0x321df73f1ad8d8dc97bccec1563a964427bb3a0feb383188a037364dd337e879080d112f6c28f6762a8f3ada3ebe10f) 0x84338e3348071bff09148ae2993be78d80bd5ff61a192a614ab60d2fbb35f4916b534fe5ff96342affd97b1c985a34 0x15bfd660d650c5a3c595d975454f415464ae93bd7c15c4ca21709dee371b62cd16e77ac462a061e7ae217f28622b6b 0x1170c12cf4a5f8c64af1f2c425cd2f3b7e523bd816c0060591db6813c1009dd66adb69096c95afdfeecb1da6f2840a8 0x32815f1a5a610e5049f173f112ca33611e2d49b3c1e600392c2cf820584bce87ca224164889bbbfd2f7b8c7c2cf969;
  Plus 0x3f60a05e29e806d5c6323347baf45dd8b9e5a50451c3d41d59095ddafbe4c465de15c88167d178c877a9176de0fec7 0x14393d85a52679aca96d055df7523481d750c68f953a92ebd5b71e3e15c577ceb9c002c28993f7c8ab0c887376afa5 0x3ee7c546cf14dcf87a6db7628a1eb113a9f8da30c5e846452d0fbb279869b53175dbb169dec703932ab07a844d0d76 0x95612a94ec7ea998e29f247adcf18181617b68b21e8ce25a3831d45584b7836e1ff151c6c685e72ec66f68f00ddb3 0x9c237f89849de0c4cb6f5515582a0a66c9fdd4f26a9aa50db9f4c12df581bf1baad559ef7250c466aaaf205bbb9988 0xa3545e66d15528a25c0dd234c34d1de844a901f73d5b12b40b2312bfe261b4318c95879ad1514aeb53a385a095182;
  Twice 0x122a9f6831bcdb5d7d2b383d740aa3f8c2a27cc24c1792a87d652806ac8d40d96cc0558d6b9f0ac41f19871b322a515 0xb76216934a208fb382033962287d6e5c6333ece4a9efc4300df19a1c8999742dc80ba9a00d003d1d854d877bbce924 0x136210b9d75a7a205f9e24e4a2659cb415a9fc758bc911dfcbc25d3ecd9827161461081056e43128a269a56f069c35f 0xc45fbd40fbf88e881566380189baa0fc1c992dad433ba3d5e0c52792af0a592f1e33043b61c2bf9783a8c9a904356e 0x6e482d1224a2251be1619a53be81492a4c9c8091b7672ef4fd1606f414db893728c16ce7ae84d77087b60625523e63 (-0xa7068c1b81c0a822269333ca6eaaae23722ea5685aaafb1bd5b2da1c9639c57f8bd45c22f317c4af77b8c4f499f108);
  Plus 0xe6f3b0b02e61bd2136521248123a4cf00fc44a1fe5f308ebfb4065e169ba69dfaa6aaf047f1ae6ae00c4315865db77 (-0x15d1574024ba2ee116f224c68f7462651ea22dbe85fd6d74589ac30df099cbe6da0643af2fc7e3532e21bda3cd189d) 0x167d90082adcb02d8199233d1e17dc3ecf8446c2b4c3653160c0bd88e921ad7f89133908095524b0d999d416fbffd53 0x7bfa621af5386e53c806f4eb320e9e74e4b59b28a5ef6e1d9d822752504316faf7a396c9e480187ffb3fd437f7d74b 0x181b6f47675e0d371a3b0112da3fd76b552252e941dbbd04263acad8d798103895a1ef2338ad7eefed9ea601298d427 (-0x1ab0895119ea9b145dc3bcb4a17b40377c3fd33e3ad9844b2b84641bb8766a1e177b692b8426865697defae9d7bef6);
  Twice 0x1ab0f630cdcba094022abac5ba0ad85eb66ca74bb8e4d451ec9f883c569acf874b4c943658b172580382d2f60dcd49c (-0x8931796859a2401bbb98a5bf3655fe26b6655b570e8ee8c579ac793ab59a1ac32c7e82b91ccd655904497036ea5333) 0x15e44c54304f85b61728cdd5521af1bf0d38b8fb309a11a8e6f8a3447ad3123e4b518f53fa2203bc9b6543e888e7a0e 0x1a7ea785b0adaf995e9697788fc74ba2dc68fa711c10f41d8d9f47d6434413743dd2540cb335712212cb879b4a44a5c 0x9d46d9e41bd7e317799f8189541ed9b91ecba9a1aa7cf249c38a3d296a6e5672792d1fbbaea0b87a9372890d9674d9 0x9822d51645f55062168d67413be4ac5a37db7428051305e385586647c6fbd0b46d0699ed862fde8d402c271fdd90c;
  Twice 0x1326e14f976932d5e7a3fab4be09cec20da0b9404dce5ffa5f90cc5f315ffde748127ca4c3bb8032766bf14860c5a97 (-0x277783dda0b6f6ac3a4763427f99fdf23fac89324e05bdb9473c8dd250cc2356429ca127791dfe858132bb5932d9e4e) 0x9d894dd1f99fb68e6bae5441d0a19bc0e571eff19389803ef501604449edf0be947ae6f20ffa65efb37623a5dadea 0xda414a601c53b8ff743166023ef11bc9aed996295bcf59217696dd0ee213776a0f1b5c6d11c6a92d98492766bbe30b 0x27a7f9d98c0794c18b5c1e092b3161ad6dad62414d8eb1ec40cce5381cfaedc989a5d3166ec313cfb67d6acc242689 0xf2775fbae63fd5f111bd933aeeeef17b7cabe48fa109d641fd5eb4ae1cb56f93cde68b16cb6c0faabe0d6fd68275da;
  Plus 0xa181bd4d3ee6f4873268ed55b62b683b23937f792177e6afe93a37ad814e84d72f5b71c413884ae97335885d4bce23 0x6177ecd92470063a2163172917e3279f60027ac43061e5b4cd354b9108f3b418106e06ad1ff2d72e5db7812984bf24 0x40b10f8e3f2d3c13200d53ca9aa62433fd0c97d217ad7e826ff4a57f5287a5c08dee584d69075b7002e363ee5ce197 0x3ca12098a811709a5e5e4061aabb7abf38655e63681675e3c14b2627d4f6ad527c8a27d275365389bbdf1793da8ff4 0x784c3a859a766407cc36175756b5038292d8391d54fbbd81bfad48c75b6e1c7ec14fd6dd740f7acd833c0dae8ce0c5 (-0x1496c641361e3f82095817b2d114fb7f06a052593ad6636704167307a40340a590cef30fc1a02c8e7092fd6ed94df5);
  Twice 0x1035ac37132f5ac5784b8b2ab791859979497579dbf564b80412eb6ab9df8a4a5b61aa5cc071704f4fc73b1cc177c7a 0x73db2d0150293e44789f50dc582857a69e010d38bad62b0e047417ab234e2126205b7513a256b2776c22422572be91 0x7205891b4e1612a73a74754cd3282848c12a8be3a3331bf7e5896fd665a9241d98ebd7170f2a9fe491209bc4ff5ae0 0x9c58d1fcd4781eb7cd4dc9e274a0929d25c0c5c10ca8d90115882fc257ed2847101aa5f1a509fb08ddc5da68b94c16 0x14f542d408a6dfa4bd28e704ed624618f62a753f19bb16eb271464367a8aaf6d9f888e999e139fdc4c061f1f9206284 (-0x1dbcd5f94a22b2aa6a1100d6ccb8034edf799ccbdeec375ff87feb03e4c32f8444adf018229a500cc8fe4ab5696c13);
  Twice 0x166b9523f4663e68da8ffc1217c6313c1b708ef45499a4d89a15621ee6c43e125457fdd1dd4aee1cb13856f8b902359 0x1d489d0121877aa99248e47d986f78d35056e0555f2299129c275acaf80acf29c635087a8ee89ec9e6a22e8c06dcbc8 0x150b8393472e0e861db74d72a0de494f37afa33340a8dea57a6610b598cec07855f0274711d291a1ac94d9b530d45b9 0x12b1aa5a94ab0723dbecfca0ec5303d7663a76ce1d60e382244064e7df629b585f946d5b19cc1eb5a3f69e591f57978 0x5c5ccdd79310a5161bf99da0b71f2b6f93b372ea0b0959b23dde67a4ffadec76401a31b56ed07365c5b46a829e121a (-0xb9af86bf117fd7bf2e5ec02faa5a8185055d863bc32a366c3685216e44384314fcc8907067787f90f9730fb2c0c50f);
  Plus 0x2b5af3c1b7f55fc0a35fcc9f22fde334468d96b8097d0cd3e740adc2f5fe8c8172a2cbb5aa8c9739c5aabee0476a93 (-0x6c67bac170c8cf9828ecc478dfe0c878d03f8fd53961bb87f316511d6676fb135b5dabd049413be30af5c412aa0c8) 0xf3112d15df499ef9dcd4dbdbaa12c87c1cd62c2d16efccbd92b72e42a7391bab0366002579b1853144bec714a2c50f 0x45e7936941712e02e719c588bf4aea59998091b91c08087a3c56b6f415c7a2c4e8e5646e41b053491fcb5024ecc4d 0x7c7f6c65c71ed446e8f8a830effcd87bc4a3de5e89c908412104d3b7844ac491e37dff1c46894c75bf09541bdbd453 0x97008e98e0c797ca60dcc5c6e9405fc5a766eb76b948d0f63a98e2768869597d8baaa4ab0baef25994a43c11a5f31;
  Twice 0x15e5ab6646f6080153f9e1616a38e09154d1f3d4c76660d61bcad458b8dd6dbb60cd17cd8936ab91bc22a43c201d64e (-0xd135ea2ca9c2d518f5a3553bacb2d3661a069d3bbdf4165455ba73fd2a6830920017ec287010c55a2814030e6e1e0f) 0x1edd1783da110fdbdd53f860e93f05b0c2440f0bdc98137ae498050a5ad01ce59a0e8117ee5f52cbd1e9162c23fc98 0x11d4f503e861a87d9dc835f212ce077805c9eddecf566e272c6062ffcf630bcd96de12caa86cdd504f0a7014298f90e 0x18f81ab65ad592656cde59c83647098ef0fd6c99ec84b28d08b7759c927127a03ea89c3a6125f6e897c6c56f1ab902e 0xaccea01114fc46770df37cadbcc93a419d022d01a8ac3dcd269cae8bbfae380deff8feb898e64c392bc223bb2429c1;
  Plus 0x11f5ff15bb863b8ec10b42445670160684985088a2768d786e41148a94f9582de20a18e934e5df2076270f23714e936 0x9f63e1c96687b7dc97fcd5afc102139105600ccb7bfdd2707a9ed08c87ae3a6ec966f52fc5e222eff7b0ec5b4cb8f3 0xe15002901d43a01f38397ae3295e4292ea0f91452113a50efb66c54c9e6289f8458e27455b0422dfe42fa609709419 0xbff46e40ea4288aa276d7d99b263cd6dc9fe5dbd44af05effad3ec7f03a640813507ae671b1d995a0e1bbc23658d5f 0x3087d322990152637d965d8247638f6815c145266acd6cf5d8d9e8c590ec9704350f09f514b88005baa6b27c9cb44 (-0x81e2515a2a50d49ae39338dd11e8d3cb09cde60c36506c6b8cf878cfceb20b0ffd87b63b65b2dcae4850000a95b9a8);
  Twice 0x169e8c3e241d9061c461921f35086a819455511e3f771f753617078094138fa350810f7de607429b0a3cbfac6b61267 (-0x15ce3a0eebc2dd5a176bc01f5ff21632e3524476f82e018ff349491535256098f1b1ada830e664e4441090a6eff9e9b) 0x120b7153b2e6bfc1ffaa375d86d7c6e8bd1a18190a723eef4e95027b86b028fb84a66de06d92d0d1aaf2d42957a05cd 0x1307084e88a3cee1005187f4e8e549ae9ca3a82c842d3661175aa0a409fbe36fd2144ab21db67a71c966492d76b7772 0x39b4fdb465f1af2d831a7a37083c126ef7aa006b09461e11f8bd06d35a3e4a66dfed9ff27d7130a7d3dfec1052c6f6 (-0x3555a50e3f7c34f75bc5da28b2f106ebc179e9889af18b3aa0b613c2e36db1f9169df41694e1e454ddb89c47dff9a6);
  Plus 0xedff7f9ebb4aeaafae5acde89282e345ea9e6b1b88306de2ae5f4a00735400c01886da96c736a906bd4a72b41f4750 (-0xaa32c163349d8c26042f77d1431766a9cdebee49fa34e7f22bf55ecd069ae390dec801980f03e8712746f553a70bd) 0x16d9d10c607f73e4d0ee5d6dca44956cdd2725c9a0c23e4196b9a73ef36bb36dda2ab77cbec98589a822c7c32718652 0x83a88ac0aec26ba97a863a21f2e0d556eda7d4552c0fbf84ef34e1f2194879e760710e2c33daabeba7f611f168b38d 0x2447da6c4329ce35f0824a0a8ce337c00e862647e61a5eac624225d0f9fe07bc3832b909341dc165a51651802328e9 (-0x2a8a1b98f3b3950ebc9e0013a34c107ad754a6f9b06fd8219856802e8a5533cbe86bde126bc810544d2857568dfc6f);
  Twice 0x12b92695791329521f25404b4ea41eefc5050e0f3082bbb73b145e96a46b5273b9b018dbd861cabcbb471e1880f4887 (-0x37195e1c3e56e98b27dc369293d5adb647f8efc5a3383e83df5ba0242691cd5824cea3d05d9813c60f0b18e6133a10e) 0xb78bbeadb07aeb3bd16ecdcbd19aba11418568dbde3d3fbb3e72f74163df86cf347f26d0740d5338f97b98bef6d5b1 0xd09852449878dfb44406661d645df4967bb7a73028871385f8dc6c7771b9c0947e6cbe0a0b750b688a14b5e08454dc 0x23433aed0fcb504a93e8a1f1c0f9b48fc431f775fa3658500a39a69516e0a5433e231245c48872fa10362f88dc7897 0x7ec68c7ea77fa465ea03cbe2f5f1468ea0ffc043991267069360593cd879805bd76bce9b07d0c58007f4723fcfcb67;
  Twice 0x69af141df4fc900cc3009c8c778505c8f0f7c99c65e12e05e80de7b9aed2a1336924f3ed75469155cf839346fc9815 (-0xd9976e2400e204254663d786bc00c1499e00372e605e3e4000376f7b74c074ff434bb3aefab86e3c45606a1afcf45d) 0x19cf783d30ff4d675a7fb0ac7dfef0c7a04cb8d54bc9a889a3ad9107c384ef3c6c7c55f5fa0db879ebf27d90df33993 0x19f5fc120a5ccdc28d313ba200eedfdfdadc6fc19bf5d18285ef849a937e1a3a977b67950caa7aacfc237ab3d00cc4 0xf7784659f67802c329755108f579940720fb8059d73819b0853b894bebb7dd182efaf112ec993077fe6daf5ece5373 (-0x385b4091979a99941e9cd6f589f39510d5033816ee348bf248acadc4f75bfae7595007fdbb88b26b6bb8935c252d94);
  Plus 0x19cf8664629a80a8b5c5d0b10574c17b36caab307da8a1ad9fd4eb7f6dfc72734d517e2eca1ad5ebdc9524ed8f67820 (-0x89b9bbdbf20a3d496232fb0dbab07e210c84ca3e029994334a58967c9de6808e80e5180261684522ea58b22009ff50) 0xaed12440eefe4b8c30b1e6bc3340e268658639ce398d2837aece2dea4ed7f63d226c4245f132758aebf771f437940a 0x18c67bc3cec6f940ab75fda867ba3ebcc4e0b93dafb2003c39ff49b471640d5968409340c6e4c91535178abf3c9fd0f 0x4836421a0f84d1d04afb25a5fbab75bdbd438be8a9763d79e49d21a8b343696e47e8bdd4afecb1d50949f91950f7c8 0xe498e2c469ce6ccb189c650f5a907609e7a71c63f5e7eee0bf2df4ce60a6da002d038b5c5a87601e0749055e939de5;
  Twice 0xaf802340e2f00496ffec879421e82554ee2b2b0f8857a18b370a9fc81870b25cfb23cf059ad105a824ef8ad66ffac5 (-0x9a306cc815210b926e66fadd9835b9d31d6dd6d181c4b0c77b59adced2265a68785ce643db616b2080ac5babb6b75c) 0x9ce5d4d03c920b451dee87c7dda00c6b8747cf755e9191c087ba2e29780fda0e8afc214d91f0bdfb3d948095c02134 0x47974daa7d49141cc6f1529bc06401c5c5816e0105aeb9a93058276faf36821f8abfa4801fe0bd4ba3573c4a4c1251 0x19a7d114738f162f1a9ccef995d75673b1de2f7161837a327f802620c6d66e73f7e61cdd005b285530a962ed4c46af4 0x74f471f8e045d41bb2704b6d1c9a7b63c2a0207699ffac0e06d32098f92d289d08840f89e68c63489fafc18c4f7f2;
  Twice 0x126bd0232fc3cb5f45a8ebf962b8e70adf94686833b0de668d88b41150faff30d856294c3985299eb5572dccd67defa 0x186c6acd2d7c9b32cd470d39d30ba0faaebad251c62a593b83febcd6698d0bffc6c4de60ec4a5e8171dd8ac028cbce0 0x16a83eec2340555e56c69829501cd618a5f481e8cbd22fdc2917155e9e5c60b4142277c4c0b5034b1b8ee496a71e24 0xc9eafda99a63aa0319b3b63df3553cffa2b1c862b5cac9bbf0dde150fe7bc2938abcc46ee773a448e8b30bd13b2b98 0x118dd917296b344b2b0ddfb37d880d15fb78757bf830fabe6448687ab94fb9a5e0a77a96ad21578ade010d927d21d48 0x5bf703581c07d3268c2f13c60a5711776362eecf5ee0ad50f73c83688bd4f51123a6f267d68c51603786caddee5564;
  Plus 0x324a461e1bba350f70b0b8d1484f5233e0ea3894eaaed30e2a603f02968e00b448c54539120ac6688d562f8a6bfbed 0x1cda2fd742d4a1686b62ea7a7a892d8deef752f7840a11690ce1401dafcf4fc3de93ac955e58f36f51dcda9ecc95d5 0x108475b8134dcdc651a3f11c9acc1c7460ebcf4f51f6cecc293e42a83487f77e5e339b58cbdb3537c85280058814918 0x5e0e60745c1174e5a2958b03c99e84494f24c6ebe2a706a85e359c694ef02718cbcf45b56720431c22bbf04f6f8d9 0x129cce3d9f549afc43c40af28290d4cc69d19499ceb6b4cb10746d22bf0aefac629300bb5ff92a83eb4cfa374ade9d9 (-0x1c3e5ccf89c65666c9bd1ca04efab29c869605e979025e6259911b77fc072706c232a4eff32a1dbd03926377930705);
  Twice 0x18806edb53d9f7292c3273d8ab49a146f4b370eebf16727afb1b857a4cc5ac648b420fc1b008f463e01f06e48e05ce5 0x37b21ac8211e876147cbbd03cc48b83f1efdaa299d75c6623a3f95b4e7c11e1691e06fdb75c906097766094dcc3f7a 0x18b3003b01e11a7d2997237b20b2dc12705458b70e2636baa4c2edc7bca05fc86c2c4a804d8a7f0b5fd9751dc35d5a2 0x16537e801364eafd640bf1a2d0734d928f38341207bf766ca9762a533747389b0454ecc4d08ba411181065cf53cfd07 0x13f08cb8fd505bb06d8ac2b9823aeb24e569aa6f6d35384e215a20a294630e32b2deb0c7d8ac4f8163bf9e3d2828443 (-0x7749045df41ddcb0a483efe87bd7ab2c910650a2f60b460fb134a155e02ae4cc3b99a49d608846ad50f194c2f3bd8e);
  Twice 0x4279f25f8f02b05f3cf55d0be2d85a54a358b199cec07517da7bcef5a8ae7612cf9d5e01c4c082e62bc9a35585f135 (-0x3de69c86a857678047a940573198cfc4797c8395174c9a788805cadad52037323f363ca3c0f8ee92c1aa79af36205ce) 0x59899a6d36467a13b0de95f7449a8d01bf29c4910ea903693f75840729ab3531b8eb5a0de65269422b10457faa7a60 0xa4584774194254805dc3b120431c349fc6cc7282d53ecb181ccbfec7892367f3f69b58ed9b8a8c8689cd67e40af55 0x6cd3d1d04c848da5c3d66e4186c0ea94ca5696ce7a59f3a2e21510e0225222a417eadce06cf98263389c996703d857 0x2f3a320b2c68204cc7d384f1623f49b43f26e3a603c361ce34877cf5468bc9bb0c3ac2fa8f6d0e4dd648ea7386aa10;
  Twice 0x83275b2bf4677555a08ca322d9791227c6ba861c1785c23c87d4532180c37b3dbc0652bc44a81c1af2a980c1e1f508 0xa72e2297d94df115b82ddbd7ef4c3ff788a93f024dc30d04ac0720c94b1f680bb272b5fc29a256fcfd2a33d431f70 0x2df5eccaa2ce7e4391ecce78008ca2b2f02bfce15ffa5b5fa4cbe196dc3e7cd249f035a576d53b22c1f23a637f6c6d 0x27fb5b5d51dda3dd3fc1b8918798244772a7d34d125da2b448b7069eccc825087b8f66057c1042bb71c0214fc3ef13 0x124cf77e7d2093874c400f45a8b4dde0d249828e2e4afb9b2eeb8b5c7d393d81419d582379734fa3113678408c45983 0xd48c74a06268ea40890b530335860d2192ac0113a3aa68e5263b8e35af17146a6bfbc4e754d0372b1aa0c1b7cccbe;
  Twice 0x135205e5b9bf19d71d728369c43ee43b2268a281a000da17f0d52f9e85fefe8f719384beca6e832a8912c54977e2c18 0x1960cb09b996709eebb290f5ee9c0711bcf16b3e8670f8fe2d9956cf8faac314d91b88f6eb46417c2a40c969a535d55 0x7d052adfa333241fbbc6cf27ac5cfd7bd53920aa1a879dd65eca50c4951e13602213cbc808e193562a668bab595215 0xde1cee714e66bae18bd49dad520196959ab6a7604bff6b6fcaf2dfee2847d7cb1e1d10e4f347651a183af34ce01751 0x592a1474d5c6589c47cee1661075758c84b2ad0e345496dee8ce8597878d6560bbd27da822e07a8df54c39d14163a6 (-0x38ce44488b5fed93ab8550bd748287ef4af91575002cc0fa59ff57a45cfc59fa3d50e3a0f56b87c15df28b2a9c24e9);
  Plus 0x4b4654fd261f0619ff75c44de0ef0dae3fbcc443a0cfdd9dee4e8087ef175b65869c9197dcbceb0214755a6910eda8 0x1946c56d9799a87748fa09c2f2d3eb0d10d5d644ed7825d701f5a09c5c1009211ce7fd54957a9fab03bd312ac5b51b 0x1680d24bc130bb1e178d5bd6ab87387fa5f5500e32c3661a5d04bb7f5dcaa5331d4bb2414ed20e21b65f04678a720bb 0xd2ba1b6d8e10e3d69f184d4da8291d32f52f773144c1b15ef7c222db86c9fa213cf0429c63025937583d61db6d21c 0x500a16ff9308ae073ad1706bbbdc50b10dbf0826e3748f6b16911a357e39fbb9fd2dec9f17426b09822b863f9a920b (-0x291f48ab8497a223c2f162d08687618754392c2603942861e03af035790b0a49c1bc1841c5f91772314d62d49b40a1);
  Twice 0x12ce50d4b121464b7c08fb505992abb3a49a5a6d3bed4e130ea6f74a8cd8de90c8b2d8f361acceef1a56ee6c3101107 (-0x318023a8d74f86f1a6479cedfb501ac8e90dc68d5fc511b6bb413240f081baa9b41e12c292a71552da0a2d013426731) 0x26dcd61377e0157dd7d7abb49c7ec8b7139cf0bbcd17ad7fd6eda70203215df022f36b81973f58cef492a2fba8984c 0xd270f5cf8be6b0d3ab0808d6de4c98106896c19e95fa0ad4d702a4593b445cb24e6fb14beb4112619c6456df0b146f 0x2d79323739e03780e733980a966deee33fa28d1602f5c80e615ab622a009ce55be4815d5e10c430129a28203594452 0xe0a271919c899fe983f4380288e16f78a6db286f12bfa2cfcc794c5b83a844e46fe201ca231b64a3cb944c230143ac;
  Twice 0x1216f0f6a063e588fabb0baf254f6c0fd510a572ce67c495dbc47ad519b1fd90d97169a573a16224e56dc7edd58a8ff 0x32a71578036f0c0b298c960ea1bb95ee8127168897d6f3cf417a4fc918b636fa9bd62e42299792689793dc8ed2b7ac 0x1a5b91622ff208b563e6b48e2354d18ece920d8cb0b3be00a6fd7d6b783041073442916b161267e45de0fc3b405198 0xc2b723d3a275552b1b8b6f0ddd3cfb76f70d0ac9a0af6b91ea8f906360454a207c3fcd29e1fb8eddc70f3eb24e2bd1 0x98d9bdd5e91f8d0ddfbf49d3a72789be79344ea9f6ec175fb75bcde64b04239cc31fffee8f37c0ac5192b4ff494155 0x869a3c9c2f40cc18c51a59b9c555fb676d4f4d9f47e37da4e6ddb61617126ade76fe39ee308cf554b13a0c58207a5;
  Twice 0x6ea202d4bfc886f0668aa822e7e1ebea7fdcec9f8dcbaa8e674d4d4a202a57a4330f154e5c94f42ac971ca7c05334 0x119d7b5dec02ba53737deecb2756d1b5f2e6adeea72780044770603c60d9e26da223c7215f359bdbfdb9399b09c8 0x15134e758683470fd0adbaa381aa8acb848e57373d754ed3f36e7e1abc6bc5c5e9b94b8f89d1a09719881dad1d11b04 0x1c72fe490f5aba82fbeb29d5a2f36074afbde633a2d42031b498cdbcf558041a8da93be7aa18b38cc49778b9045c 0x6edb0aca5be920283d7674b1df23e440e427f9c43466a86c342561cb42369e2b95a6f452e200c7208df1b2fc410890 (-0x4fef47541269eab1ed2a12840509ceda1352cefe4c0ee19ecd14902ebc53b3ed104583aec844113c6b83c074137d5);
  Twice 0xa1b754407a4404f3515ff401c697cddf720a79efd471318e4183bcd50255c27bd66ae8b129da2d3e05e1104537edfc (-0x2c58e651b08d2030629dd7f2dd75d3e671076337cc0b68a43293af0b28cb6dfeb23a2299c37a7ae8c8a872c9e620cb0) 0x10bdc32e34464ff47d409b350d14244df736ee633e453e4f910c49dcc6cf329fb290aa915f17a839f37f1ba2176764a 0x3cc9636ad26955cc7321dab16deda76fa13fa59b0b0c7ee37da2dfdf26262ff890a74ca45d4baa24ba7492326be3be 0x6431c4cbb0dee29309a1c351f5c9daf3b06a279f13e132d0520febe3a123f4aa71413272d7f54c3fca55a8d27044f8 0x1a10f9e45a8ef3fa82bd999b60223f4c6d935f934d0615c71d0ad484e27f0a8df29b2ce66865306199f3953aff0b90;
  Twice 0x159e37cf324dc126e16915f64b56e38c00c50c222ebd057d22ae74a8a21e46a0ed33bfa6ce72f2c780fb877048ae214 (-0x153343ec81f848d26e1286cb4ded384ede7960e2ed4ff6891c9d42d2692ddb8283081df0f9c23e3809d72d7cdf0416c) 0x749eb9caf425336a2dbd5a0083aacff65ccb04802a1203fdfb3326853c474d5e5dff86ac9cb0cd2e6a71356787d3ff 0x1161537f405584c15de3cd91224aff3cc56f0d521c05f22d5c4ce63aeb9a553209ffb58eab4eba7ca077c577ac290fd 0x3f5f8b1f7063e52a093a04222ecb849d5ef0acf762309cebc2d66dfff64bba75414b4b50b9b16391f9d2788d79046b 0x79978da1303d657a788c1e3a931cebda5f956c01e01b945b08662ae7207ffad5754c28c54653a6fc889c6b7a6f9a79;
  Plus 0xdaefb217d9024f304bde0f2bdc44fbc405d100871de365043b59e21dc6fb8af306f8c455f50919bd3375466b21e81c 0x4dca8b1c2b8025a2cb3730a41e42ff308e27a04f258d44d1a28c22277e5bef6f624d1f60733f002743150fe9f95ed4 0x6814fdb2e62af257c7cc599e1cf7eb628657be5d966889bc46162449091c777e0c530bf34088c2353a8bde7bb8d092 0x6f69d250ca60d81dd336451a63238b482a4ba277c5823a09e8505169a15fd7a42917992143bc78fdcdf3370e80e52b 0x173a8e822ea76aa9e0c470d2f86fc290ec4620ec2755b86fa8b50ce021351258c6b41660ac23e14c4625d69dee94751 0x66162a234d8c37b545e63a6bb6a5c91a10c5318a9bd392f747e396f5b5b805600fb0f9cb1ebc73fba583ef969dc30;
  Twice 0x1935f21fa6eebc57b02ac816d6909721dc0eaacb066b3dcce08c3c53e256185bd6bc3e3fede05c3cae7bde49fad3bcb 0x26d6145c03b94a2b7f498877b089652b0ea4fca52249090e63a08516eb446214433ab1ecaa2a97f5ecced9db6e7b6aa 0x152582bad323a3ebb1d471d3add0e72eaafd4149025e2fa0157c13e2770b036bf44695597724dc09549b149ab963b2f 0x17a312845ac369080415f1600bdf643497760513f338db1b66aacbbe6e43de1191497f85c972e84eae39c11654d56a6 0x12dea63e708addc0f5092661cbc85b9ab0ad58072db3c8e722fb591e2bb28d08c477b77e5bbbbc2b8823fb17b7ad431 (-0xdba39c1940944f2dc53a4cb341788ec2e357e16bab3d4d8f0b13d9c4ed098637f71c276ac9d37fe47bf7cee5a2d501);
  Plus 0xe480e23110a79f43342d15b2ab491f91e713c7b32df510decd0f8d22a5e53422b1c13e9a1e1acc5b5422349cfe745e (-0x24927d4be103d589bef0a8743d7428d8abb558db8367ab0113f536619f3719561724713b73945dddceff1f271dd91c) 0x35a5bb3c51102bb798d6a125fd17788db039173bb522ed21b7b7cc87825529ce7a358c07695a28370d1bc1f295ec7c 0x795cfe81cae665193f8b99bcb828f212e7395b2ecd1a9a953f68362aa2f7ebdc9f441df2f4d4e682961857f157f185 0xdef83adde4760f58667b03f91c9c15b30ff24a7b3b66d77c97def0bdcd02e83e846fa782b0e40cef65b72eae5bf03e 0x97357b7862a2b35574dcdf839b083a4c9856c75d84880e99407c17f6684cc4c97be9d07811bca3ba6db16911893d4b;
  Twice 0xf3e2291e83bc2d2a22b576671f211810e0cdbf20551b3f3be23aa466d27fc23a2cbe39023b8a0347f8b1b445c94215 0xe8b89f59558b0ab8cc85358b01df873be38cd6c159c87b4c79e6f26bbdd0cfa2405c3bba3a2e3e7a787d01f7eacdfc 0x16d647c38c9206b9164d4a5b99fca9f35b61cdf581cd0ce71138bf9be01a8a2b17470f05311b551dec4e1a3226bf3ad 0x8a4018b2f5eee886a2e889ca6204a1a6649671ff85191019083b106317b8fe506ef0f211c8d15171cdfa3920710914 0x7dcb4827d8e13c3ce0a01dd5d206fc2541fa07ca62ad56b354c3d125be6bca4f65ce84fe3bfce02f9c494922ab7a0b (-0xb0b81c50b4f146c23e86fa26e4b32b777fb179ae0547fc82be0828d19998fbcb33d662383d71f2a2cff8b5c5e9a34e);
  Twice 0x16531ce872ab8be04cacf6168d9896324a48942d287ab89f1566fe66328a0229d739e56f7364928ea83f23b348ac8a6 (-0x2d21aaafeb0e3f304401e3cf140118cb01d4febcab6a2b37a8de3ef5e2ece07d7b32315e5d0569bf44b1f1dbac03277) 0x176bea6fa78ceb76d32f70eecae0342911798d3c435eaf21689d9b3bcff654ac4a5e1649799574e8a20b240d096d687 0x1288f26265417a42ad3a3457474a5b635d54e1738b40ffd739b004805a5b5dba56bae91595d4125a8ea4bbd4acd0dc3 0x10adfcf7253fbc7f12d94647678a74eeb273996d08e0a612b1073ba0980797753da4bccb12c553f9dc45743ff58d83f (-0x7c3bf1462eac47028da04cbbe4a59a5411997ef73681aac012798b61b872b3c69c6e9c2e16395c23b8c4e2491bba6);
  Twice 0x15af341093d42b26f854876b0ad4890b9478a9996954dc67d9717a69575daf48e2e49304c63077eb2920a66d9558de (-0x3b85955c36c26c37e67bb4f724b1c43b2d9e9f9a88042b8df1e7af146ed6d81b0bf30526d3283e56f14ee311bd5944f) 0x51dfec46f63594399e5b8653c79b832de7a3239d6e736ae0ef9207be6a1c95ec681a34b013fae577059c4809f289f0 0x117cadee1f834c42819bbc998da6d5d067daf20c84b7ce0fc2d55239df1f3895ab07cc9d8b21f594fc3ebf2252986 0x1412f6a39bef6e22027fe19c211a61f3377894b102d93a8356e5d5c5e9dd0457daa9352058b9e1e8fbe29468df0191a 0xec2e2caba17066bc6b800c1342ca03e1dd8db38ae26a22782f278a0bcbbc2a39e9c0bb845619fd0386da10e686199;
  Twice 0x116b3b8210077652c8b9f9f850faeaeebb70e214c4d773798a73b512a8244e98fe89a6646ccafc81409c40dcbf727fe 0x171628173033ae69a973d127c587b414e9b680dcc6249e551d8c032f523864fe65aeee022a3444c29bb5190a00b7898 0x44986d0969445403f79f51ed36daf33c2de8878db58aa7021648f4d8f9763b3022e0efbb2af92855ee25af43e01461 0xb48b259344277ccd77d67e2e100332d5f1292b3d84e1e5077ba9968259b33528b9ac5e09ad7dbd53d14997ae9e37c3 0x12d825efffeeeee8058ea5d25dabdc120137e052242c59c1917b1b7d6ee309e835e0ba63925414f3ffa9c1604cf8619 0x89a32dbefac220a259d9287715e42ae1a11c889cf07c1509a3b0a3972f1dccdb965e5ed29305f37551faf9572cdaf;
  Twice 0x17757422aae922bb74e0c06bd58e625405d564506dae8587801817e836dbef2f4d28ff1fedd4efa2e7db0f8665743ee 0x1ed46f89ed66b6f2d9694b7eb6984384548c69abe03dbaa7fa5cdec2704fa97eddc339f5af53dd0d616f3894eee8639 0x4b91f278818b3e4b35293fd28701ac6cfe1d63c24ba0a57c673d89150ea9d9a7d16c887275268e086d7d68bddda7e0 0x14774d13eb551c78d4968f1c58e86b80780272392f454e227cd3dcd9b98016e23a3ad282a78fe5ef1fd3c39a02ca0a2 0x59ccffa85f5adb4448423f0dd9aa118d53e5f8c05a9c709780b011bdcbe8862e36776c5590a90b9c1f83d9b4b6d18e (-0x615bb3859c98d7ebc8a17e087b1e77023dc03ee6b381e0efd975a7c070a43f75260545008754ce8d52a463b08b4b9);
  Twice 0x32551b6ee3d80082964638ff547a2e8e20da32bccd65ab2a3e7396668c4881e38f72d58790f2b8d288ee1bdec31a8e (-0x12cf73c23cfbbb5c569643bca35e24717c0f00ecc42c4f4837766bd4a31c1c195af63cc3bfeec9434b7340f0ccba78) 0x781a235ceb32bd6d52e0a7ff9a6cc73688d84cbe2cf00d5e5eca0b5294df70a5726ea280cf67155def64e323f7ae9d 0x5e36ea85412f3d4520ea4441ab61e6ac4ff2e8ec4e9446bccaa54fa153d42caa2ce7e0b373a6edfeef8ff1f622867 0xe5105a790e19c4248622298ffb1ccf21c0d0c0924c07c14671c798f7a119492a42bd568820b67793900da498a5229 (-0x535b624f2c483e83a0f1bb08e70223c613eaf78cd047fb7d6245faeb55eec43d68ddae7d9b38d9dc85c914d57128d);
  Twice 0x31387a779d571d1a44b54bf0be01b7046bcdf26682124877135f85eed608254bff3870c45b8496dc6be02a637d121f (-0x614e9f5fe5744c95a1af2fa415b660394b2ec49b8d359a177e23c78a7cb01f31c7f74105c5a15e1795ca24d317baed) 0x164ba17cc166f51b7367a9b782eb454b2bf271c2e7b3c5622bddba6477850ff593ea8ad77f98e84f5f26164dd7d7b4e 0x5a191f9f0f8a6006d557c18a22e2ee46f0cc1e4b71d43bd63414bc0c376b8fa84dd0e319ddc106b50401f88218739 0x1413ee1d12a1448ec2a3b545f564036c67f6ac49769ea4ea22140ec73ce6701bf13a83f5557ba46da6928f1b8638ab7 (-0x1b12408d5758d3c9020e0092ae84b06b49dd2c9ef2947a04ed4d0a1adf38995176c6bac1e5b7b5752c661446f3184f);
  Twice 0x16909e9d725209dc7029f001a8293f5bef4f370b7b580006ab072b96b6d890234032300b7c62db3fc1bddd5f24b0e80 (-0x15c2eebe8126d286c9a12d00ae88783d2a59eb77560c495a50da2dc3c2d012cd20ded56aebb123c738097046abf684c) 0x3fbd2d28a65aa13b93ed75c786fef47349f18af8060e061b661837a405e9875bb543f86b5347854166157a40075433 0x12efa0ae24855e2605f705b3acd99cbd90c6d4837273245f5844ce41fbd08a9009cd843fd4f05767889862784cff531 0x1908354b656c1ba268b67ce63531f9e522fa902fea35cc1c11f3947dc899b43206650a4f66a80da81c829668b208c70 0xf5dead9e6aef5e381b567b1c66e9f284fc416401841d636c3e1ea508e57b3953c2c53cbc75033d9f90629ee89bf059;
  Twice 0x16657530531520d26eee7e85869ff8976e9b6ad95b02bfad85a7e8403a51145521df6b0214e2dfa9a749bfc468f0e7d 0x27eda96e4eea0c526f1fe55a45da7ff3aaf09011a6f38218fe7f91ed886b34c3b10f9957aa1647a5a986243eed2dee5 0xd73c3b0b1a448522b3fc2fa0498752d4c6b2b4d51c49e5b4b10e253e7486602917bd28d67a3b2d011d1480826a3e69 0x12a775082aa730e583db016c15afb4aca932d2d357b77b660534f9a4d28a2c39a94f7e94c04c56cc485b08089ff023a 0x11d2ec72c88967843bb7fad07cc4c14f7f6164845d03f2ede50d67c3d78f8d3a2ce5048cd557eada89cfb8ba5b9fcb4 (-0x7e2ed01dc402a3861ac19a0d431891ab3871cde2f389fe10a446ab768666c7f45a2913f4a8449793cbe3159c1fd982);
  Twice 0x9fec3a83c2635592bb90bec24ebb0338883042ecf4d1a737855bef6d7c00a2a6e82ce60755954a628c9a10c3709fd (-0x135c8c89e1a18b3686209ea660cd91cfa5e8f3fce876ba9219485ab6e1346e72c1377b701e1b29af4bc41bf0bc6f16b) 0xaa57831e13372273b4426367a908da386a964d77965adfa967e6252d5a2f05b5215f4a583adfa233a30bf95b57d479 0x3b7229fd3caa66a81f149fcbb77df02359f14659eafb9cafe08b0a43d6e20cf19b2645ceb0776eb35a04a2ed72be 0x169d8bd9073e9006867cf4dd1633b369039b0a3189f97b5feaffd575071076406c86b1b4a0db35564806b54306c1321 0x10b008de11702166cb88d37c517734d4679d4086f5ba0282f2cdea24e55de10f5f50825657846474dd8ed6f56125b;
  Twice 0x1011033dee8c83e0888cf8b7964419664d699b0d31a56940aa32f96253345afaed11bdcad9a5a2e10761aae79a618b0 0xe613fccfde89fa48078a40b80a0f20318176630f4556b1c5900b0e4fb8e264f898e35b77da5a3260bd6e3a773899cd 0xeedcd3e687467f19ebb5cc7de749e37394cd0ea00d91677acc546546811b73f1260906af7d821bc9b3e1ce8ed86c7e 0x9998c001855408b5ec138590f3a5fcb60a4a7599df9f6c2b2f66e1fa5147b28f87816219401b5beeb5c49921196390 0x138f2bad7db45ce3e9aa41a18110e1afc82bd47c82dd53446f9d493a22ca12a0c47ff37788035b32410db305299766d (-0x28f1077096d2e99f36f4152a1fab6e6b62c7ff78b8f74d187605e16ac6c03d8b67fecd7b29be90a73ec88ee9ec84fe);
  Twice 0x164d16b7753706d58facac61bc5de9590f6fad86ae9636e377bd3313fac8f02aa8a2b10d965bfb0ad5bc351101b192c 0x793ffafb2a54b97c51fc5b58ce4025e002389e358799dc1fbc2917db396cedb092642454a65342ddecb093d910556c 0x11e16896b824a2b92114d3152291c87c15532fa919e73b4b2cfaf205f24cb04ed5da278b01164b4dee363ff0ffedb1 0x127ef2f068af0fd3ba31df5e6b74e8ed53939e3bf478091067ebe6e1832770073a168418b2be9f99db221fec310d8e3 0x1024eff1900e6b9ca7e4cb55378121c2a9c823dbe5c317c2e09a06e48b33783dc41223619d9558e3217f3d7314f7c23 0xb746a8860d22f86445b98da3f4515f5fbc63ad4a8321b92e27570fde6a45f9de4d9ebbdeca819a05ce0e84f14dddac;
  Twice 0x1993928f6403916318dcc7efc283a267e58868d2ef0632bb1083ed63163acabe5ac1ab514f09637f2bacdb4878da0f5 0x1e92a701d87c8e600f86425ae6b5f346199ab95eeebf8687b0458bb612e9772ff5149c555c640795a3aa94b9befbddb 0x7586a986d380c83e77828a6eeb0ca984e49c262a44dfa9ff5bc0e76d9c328afdfc5d8b0e2d101cfeb3e7175edc2857 0x1853e909c0ae0fabb42d8b18d31abfcaff1770182c53bf6a7a221151b396ab5c98c2bfe5d039201651d150dd83926c0 0x7a5f8aeb9db6068928122c04b0e3e3a54830f636a37abd4f743b057204d89374ff3c91cec229b7012ff391efcc2ccb (-0x5ec7daa55c3fab6fa3f40fa331ae7b2368fdb960dfb36b46cb1b8645c1f40a92591b66156bd127a14a9a30c0f589cc);
  Twice 0x10108e19bd40c9371bc2775b51eb8e6b03a86802fcbb4f861fc924891e1f486723df945b0b56cdecfc4ea9edd8e0eb5 0x31e81ac3e813ccf96a5601e1a198834be24d2054b6ca1c7974c9920b9a39187ab78604a4b8d48581ff0f3ddb27a25b 0xf1894117c06ec7670094701c27d8a98d3e1ad47d61d1f280ff956e77103cf3b6c728c61a3debc25e81c2c5bdb0c63c 0x9990005e15e1b43beeb6902d644009e55e041cff3a5ae5d622d088e136fb64e4cde0ac9a5c3445f1f6ceb0583b350f 0x9d94564e50deb21ed3d0a99d75de2127eaac44accaa0d9306af7ad4dc78ae1bcbb732e69892d5167c1aefb0b127a76 (-0x4a16a592b2c9c2bb24f6969388caa93b04c4183da4cbc4a2b3c343e67e3ee690388798ef0400ff4888e999eddad02a);
  Twice 0xe15a2f8c476ead7e68e8bf2a5f91c8db2dc069f80b768b4dc8345c28cc9118834ee91eb6f0c8da81693473dd6acce4 (-0xf1b9f2a70bc7cd8fefd7f23179e5406f7eb9bd4478eea07d85deceb4598dcd11cc0ce58d4cc4f28e96c3c6fa346800) 0x5e17e270c19debc17ce2837135c5db76474a33096cc7808c8750e061d271a2da7194288afe299760360e3f345943fb 0x7609fe13862c5f40cac8fa50c9f398a1480c75514fd78f6077900cb12afd1fa765c801b4997a4664a2f35d49115a9d 0x15d15c78fc701a6c19b3e9958d932e9dbc3cf20fd80c1b4c04f4deda2a7664fbc1ca5ef6b71a64d352fe380ea0fa006 0x4d3af1137f77533b99091d748d52a679374cf157ff96d69f83311feb75e31fdbe76662c4252502533b8ba92483b368;
  Twice 0x18d5a2fcd99567b266ed9502807bffdd0f53eb6acceda566309f983faf55d5b2ce943996c3bcb7238eacd1ef46ca147 0x24715834e3501bedfc903ff125445616077c1a0acbc88dd8cb0b247a354e2f62bacd292c8e14973e22216b305484709 0xab435d2178e42ad16c5afa8b9861c3ff72e45eb9649b2448e0a6d4ccb4e7ebc0fb1976e8f000874c883fc4ee12f4fd 0x16efd3480aa7505c932a4770425c003f1e3bdf3fee654f0398329728f5842d6c99d7e094f3e89147e79e7e87abce4be 0x52d1e8fc5728e576afe5f704a401e2eb3c071a88946577930a393c7ae6f81d8849efd4bb859a56d276967979b357d7 (-0x4745e33160b7d7e0dedf27d0f6aef4628a891b534fb8b3a625fc612f16d133cea350b408b720232ff3bf27436d516b);
  Twice 0x679c3ddc5ed62f24b926bdd088e9e81645fd2589b375846b065ae9e249e9bfdae6396dbc6368c1600bdbc6eb3498f5 (-0xa4a2f38e5f08feb760b479d5c7e120f82a2528136d1472ec9540d176dada91d79ea9abc3c8d199c7bc4b450b285495) 0x1390d0f35a847484fe65aafe02d35649a3c53b8e45e410cdd8177de93fa6d4250ad0081c235034f37c1982505785107 0x18f3bf27981b64ca3b99151f6daa8f4fc22c9af814c8a612527380c1104b2ec5e050d3094f8885340b4ced6b4d9f78 0xdc4f69152d2a43eab62febe86ddb4471af6b6723295f920236bb89880d012ab8126499e34c179e95d544c0755133d0 (-0x222574adc9110ef25289a3175f7628d7a0043c3f826a2aa861947175bb3ca3b321f1afec84df226a8246e461b39139);
  Twice 0x160bba90c1f2db5d9c11c3b99914968250a1856ae7c3b90d2dee9dcd2f8657de8f0b640f39554af3a8c921ace6ec (-0x2ab470b0d0a1ca049bc93278a2b95871933f41c00f966bf007ff6417a03c9e208c1d91a78dea08acd1b30758c4f0313) 0x2223af596049de722052fd9aa9f7a4799f50e27c28c3fca829d82315890a70266dbb22806d245b306a3ed41c9a4d 0x12132782866f1cc54379ac06295fb247a85c08601dba48bb5dc1a37c8e1f22596461ac22b29cb0c5f165fad35 0xe04a2eaa05ec89d60672bee1da0cb2682e8be9083462a54fb60b5319f10cba1104fa4dca5ac3b93af4162db7b9ddf2 0x1008db1416cc3c4cc7f722fcf2c1daed55f9d93d22ffb28e4eb5d660c4b6c522fa11c021769fc4d1c9d678a47db6;
  Twice 0x8272a032b819f6b47c8d107b398df941f2ded576f71d45618aff3e4bbadb6640004af9e953e09c454d96bcb8ac003 0x88029bde39bc2640db3326c39222e51a1a8509dc2eee6bf07780bb64733b80264906db4233eed2329532d3ea40231 0x70177b4378abe62590180a1ad759902aa557bf25e52c1f4ddc4a7cb8a7a364124871aea0ba821e22fbfe3a4ff60494 0x278d768fb22adbc8e9cbba63e5e34d7ee0351a25c1d88e49bc8e4ebb67f4d2985f433108e52fcef5dd825d1146db 0x4d708dae3ac11926e06ddbe8859dd0476eacb901924eb27e0d719bb8e33913f59534065379067843d92f98640182b2 (-0x21f24d27cccdddbd1b2646d90e1ac735d3fe85774b77440cce52477db8f88cb58fd9f74d07576ffd1a3c23642df79);
  Twice 0xbb913f417413f1ba628b03462273a6a2f46ef173f20971573b70a5c10486406cfc3dec9e597aab58425ed0c840c1c2 (-0x141716f19e8c28c029dba05a3bfc09fadca622108072c76e0f88541edda720051bb5e80e4ef44dc93b32f71b3466e8) 0x136a92873ebee21b8ed48f5b8500b3606ab78b159a3e389fbae049847c6eaeb066028fdf734fac0c8d0e2b913e8e1db 0x51c631ba840488619fa876c15ec1b410742a9221ece34c13cdabf3bb35d9ef966d0946d996b3db0760f332dfd12c01 0x195ed416954b32814491fee56cf748d9e2fdb99029005da4ee8d7d4cbe0bd5a54878f13310706b4be2057f241e99e27 (-0x56921469aca58b56e74149e8f72b21ed06c342817d9222254fb0fed92041b0a6a4f79a1c862381ab45969c068957a7);
  Twice 0xaa65169ce031dde70500f5c79fa45a75b1396f86c01ce584129528bcce22935877576ac5a78c7a81f347c1430a14e0 (-0x15f6df0b54e1fbc33e0e990b69f8336a606a0fdd1d7b6909aa40fd06b999e1719d1ab933b0a2edd6962f59d540137cb) 0x16eea88c255f676a2ceb96d556ef5bc06417d55105bc313331973c3b4206f61051100255901ac9388a79af31f5dd658 0x437c75727b7325d5a988988a1d26c1874e4909051fa2d406e3d1af771c636e5b683c21c3da37bedc4720ad9c0429f2 0x1682e44b8e48433fa59aa8713df41993e3978d0debeb8c444ce4c070b16ff953e9c359ed9b56bda5b40a88d493f6130 (-0x1647c5ddd9297140dc93023b574646f5f874e8f022e772f303f91f8ff841ad970a4039091de246a44b87f9f87ab0b7);
  Twice 0x12613158f2b921ac2793c1708136d8a3134815855817e4d6fb16ea3bf975b083fa376a5b88d2d4fcf4648b3c0e99562 (-0x1be5fbb35e9e63fe99b49d532b1507f3498cd77651f8e65ed9a3a12ff8868df8706877c678862e3743b2265792d7200) 0x352ea83a105d775678f96dfa3569f1095cf23a5562aee6ff94b4b1897e560fe59e0ab54c3b08dc0647fdc3a5afa061 0xc9026e59bb592f4e5503478409c6623a821d42d3d0b44a964892e675fbd472032e5e535cbfb433be1fc8965f23ec73 0x13ad7bc3e0011ffe8c62269b347b31adb6079c250e0cb89b4c817bdf4924e3118d30a11b2f8e8bc59af595dcde6b406 0xd672821fc018f255cdff270d600c63176736b06fb3b7e4d6ac4b7abecabc2b5c15d74dae210fdde8a467d140c25658;
  Twice 0x17a8b726d962ad9ea8f4e644c0401fcde30cd8d1e1bf8e23501ebe0e08e332c6d056c52153d3a22353f275453360ed0 0x21651ce2f75d225eaeb232d94bf2a569bd43686bda51b2ead8ecfd102f22224ce7ca02fe55bea5f36b467f48fd7037d 0x13ff7ebcad26ab4bb211b46fb9b586a9a312ce59c2c2bc1e5a39996f62ea048d09d887afbe47777696976dd481d6f16 0x14d12078050a82d0eb04e6010fa752062b0070730548c5e1af630f88be3b02a99c931d4ce2a00f08751bf208d1eb928 0x1a4e42731bb0f0df47b23776e068ad10f1460e2219f620b9e78eefa46f9202e4567d36e41075e033b8c77192c8e0ec1 (-0xeabcc4059e49ca8583b3006c5efbcfec5c7d3d739fade75614cb66308d72922b3c984e5076bde827969fbf3e289bd7);
  Twice 0x7c86b81ab25d2d93e3837030fce962fe01b073f1beeabb36032d62824d39da2a2b58de65be22a6e9e0411cbbfe3ed2 (-0x1d64082c3eadbc21a1c1ce6af691f2fa96da45fdd72d94e66ac42f01a195a1639d4b377d7448815343d2b030c5e9108) 0x153b08c5b40213f7e1f866706f7c6fe39d98a2215f8cc6d720a206751088e66d6f6753b309010161a4309cc2cfccafc 0x240b0fff798951e073212dfbc4ce9e6dc4051b889485a8528923dbc0eb8d0510da0cce84f2e7909ac6d6b0c6eabb1c 0x8d206cd864932a0e9a2652f3e50499b733f87d15bb7e38d9887f63ebd891321e423c938ad9b9cafe070ab2ceb62e2e (-0x5b549ccc3810566309b08f4b65ab8d56f11bda21b2307d4303f5b0e63b47a2c85d3b94893063a2351561802f3539b);
  Twice 0x1a1ab4511b86a837f436bda4fcffcf37f038fd425b0933806da78f9f0a2986b5a033a28dac7d7a699d41e689677a38b (-0x212998b7e979f73a465ec6fc87cac77799b27d85377633aef83bb2493d8da90457823e2c23e7c9dd79700cf53cf3e3c) 0x71115b2ef457dca862cde4a1a65f206adada5d7174dedcd53180d19b39c34ceb0dc6dd06d9e25a1aa6e274361f0bbc 0x1957a1d1e9f9c952b5280f565da2b16189fc9e3fb36932eb1f3c8c8ca8b2b72ee445979c883828fe1092a73c79babc5 0x16f89db0511c9811f39b91b63a05d98e6a6bb7d1216f5868f397448f175fef579df15a5ac942e964cb9b37d0dd64462 0xdc01b1632250eae4ac7eb62c52287ffb47ea0efc6675878c541a9ec29a4bd2579fa69f4d3783d572ba81e5c5602530;
  Twice 0xf7548efecf9fd3efd34b91713f6393ca14a752f8b155ef46d41627fa9c4e87f1ab7616ffc56b21f822b12198828bc3 0x14d6fe371afde8ddad5eae250568f1e9a06fd0aafdb50f9ba01a4f58c28e8117d269fba8fe4aafa858ed45a1e01831c 0x16718e9de53b6dc3632001067b3c4f3a0560b50e07652d2980fec5632000ab55e1e38112df7c19861692e5c69cc6e9 0x8e2f93bd6cc56e4c816c104651721809b880fa4dec08077ee9a8567e46c104c6f1bb48bfe9ef3d02d09f019b7e7828 0x3febed142fa5106a6e666ef893a1c071e811eae452c8e13bd721d8152c32f415f5510aecc55a5ce48664a11a4677f9 0x3419282a55962b5c50145986d04e7de12b69d82dea53ad2bc840cd9216ec29475d6e094fe04a0db7d91323bea2415e;
  Twice 0x15869ef5a1bc2ca535e91805284605950e38338c32f6e9dcc9433836a5b8ce81903f69dd7c24a8cc578a568b2b3ac3d 0x62d4b9edf91040edbffc0a1d2517607f71f33d07307da3f9d0ed985893a68b19004419eb3029ad11ded41ee9720477 0x69f9647ff900e185856061bcd6d75aacf9815561e2866011c102fb8dfbecf44c58f267db4666fc72648262844902ca 0x113b76ec2fee1c953de083af26bf1852bb887d2ccd77ba70b920934ad7493b997810f0f2a93edcb3e85850113ad75ed 0xaa2109bd8f738cbcaa97c18e30be73924e36dd1d3dfb05a8b8931570cf17f159dccfdc2370b0ce58bd19d4e1b786cd (-0x42de95b7cf058313b5b1929d340fceb33ab32b0364c035934ffac80ca4232e810481eb8fd38c4ba23dd81736966f63);
  Twice 0x1015851d872a066aa35de139b15b0bd218a4257ce4898cc036f4ef141458702c7a30f3673d8dad9abc682794efa5dde 0x7d37be7b36e8e63807f5d666aa8433c037f74aa2b859ff11c8eb5ff4f60a6dbe8361f9aeed801e9e57cc8850ef6760 0x938fb338dc79d35c3197b1ea492d545ce88cbca5edf45f4d7b81e0a70f02500eadfbd155b1f1727a673f03a59fd19c 0x99eefa59a8b6ea4e8b7639b84cce80d3a14e8b3f4365e7c0386c502f277cac5a5a5353c36ec0b739f8762211d13554 0x82006466583f91d657d27bab3869f6f1e8a4c97906b4351d2278eb734d49d0b31cfd005e4b35fde4010b5f2d9969ec (-0x18e0323d8e7650824673592188f0d4deb528cada73967f0bb1a52dab373f63772b987fca96c3b64f59e91776ce94d5);
  Twice 0x17fc2f5412a256258308f7deccb3758d1e346a02c409302679eff1b7d4a809e2930991f710dd71ba0df1dc5c1a3395b 0x5016923681a23bf4dfb63c4181d7381e410e7257a8cfe1bd7d893534a0b9ee53dd562d16c0c35ffd0b0b600c8c2098 0xca0ad12dfc3e5fba4c1c0411949e670f1b3e457237f058a76a7ad0069cdffa710d713186fb124c007a98021fd8fb24 0x1565060ac9f4a779aa14380e2e580a237e61f8f80dce67d7f6df8433ae26cb949bb3fb390f79d3a53079291e1a307fd 0x8fbff24a59392842b7a9c30f0624e640bf95d9b3475e9e49d3bba1cce05ffa3f4fd4f1b63d4eb0b6a8ac5af85f345e (-0x3098c7ad01efef5808d79906e691adca688fe071680d17de310f5958aba45cf183c1b0b6cb58c21567cbc34c21a9a2);
  Twice 0x1ff106580498712546d9d7e8f1e9fbcd43b1a0b0961fc60bc45538a915f055c54655974516f2b67566d083b794bd1c (-0x1074d76642ad9443bf26aee86cbeaa6860aadeccf87f87d0aa5b8023ccea59dc4e248939bab273d749b2a18988896a0) 0x2c6ef346fd98eba3367ade5b2f45f47f113d30a3541c26c6eacdb4361c2f6df3872f7f58d573e9102f7680f3d5eefd 0x25f16c88f738e2f1f685309f12c3f917b97d55724b07ac0fd55cfa5533cc9b2bd420cd7238eda54a820ec088a75cb 0x123fd4f68706817877eb3bf221a767ddfc6d627ba447137de6fc15675ca68db6b235d4bc54ede2712f60437983b2ffe 0xbb38ea9340bdbaffd5c08e19337898e0bda1d3d74d73d58d377163fc533a597cfb281eb9bb6972a03de74673fbae8;
  Twice 0x19d8f6009a412c374669399cea6a471684053bd0401a22411db5bf5f9557fb0af659d6a2a9dc0e38f1678804256d03b 0x223967a1f7d3864a4702d97e365726b9d725a9762fbb6c7e6e891ded98cef181d2322a275171a05733a450ff594acf9 0x95f43817ede9084f6cc93065f1c68dc9f5653fe414e9a7ad1ef4792697cd02d2465ffd43cb75f79cdcd74298047e73 0x18d89c819f7c7c68d963a4dc1916570bbaf774e85e152d0d3432c5fdf18fb93ae8a3266b8fe19d2afdfa78a7d53912c 0xd4330271b02c68161200c340ee72cc8e81630008e83b60c03c881b28d968e1c1fda67189199cc5207054029e9150e0 (-0x656ebd6ea5490f8764ce4af2c71856d7bc4c5e89721f56b34890a60f18f0ed05289eae3ec235eba6b92de17fbb7110);
  Twice 0x1287572b2a68f01988180a0dc118966443e8362f8b252bf0f0abba7c6638b2eafe50e7128911be107a9644045435348 0x87a507c74c7dd3019cce2f3f359ad583d7c0eaceac97b12bf24cac0cbb2062eda2ac4607aab92e45c2df5a3b468705 0x2aa8a4478951339605905fc343f9fe0fcd36251af6ce2fe2c4114d597e9c677cce07a11cdddc91f283d7dda1b07056 0xcc4838747d30ed25fdeae813b8a30db960ec35476bce0dcc4f21477d77d9a6511697642791334d78e6ba36b10e5704 0x1918c80d24205b300b372a6a80987b5b72fa8ae2265689812cf161ae4e03bef39381eb6de5887f6cc1729a2edfa5aa2 0x49ef3340647391f35499be46f917a969cde91bb2b10fb1041e9c00f0f77ba2ca515c33afa6b9ee89de8daa7e42b3a6;
  Twice 0xbfd255602b35b8f46093a4fd7e8caa413ef233ace099ad2f2d706c0123b12e82c0a91271e24da9f5861d36fb5c50d3 0x159616102ebc7039ca926b25efad4429ad39016acbcdcbbee5427a3d0f7d38191e67892312adc3f200df32b19249060 0x1298af7ef7b7af4a13a1af30fed91d12dc413d6ca507da3f7f50bae466190359daf939f464f49b3b685780c73fef008 0x55869634ee938994c62a3ffd95281c43e0bb53d7646996827866d48936a6430963a271008f904ccad727043bccbd35 0x167b70f52331d6e641716aae518a3bb09c1466b80b49284850ccd78745ce801421bc5524d695ea298a584dfa448a97 (-0x71a48f49b6287b71f42e9aa5b9637e67f3c77e22ddfc800865a944d213b0090a63770e0342a39f4a148f3630d1c4ef);
  Twice 0x559d0cdaab31f4d9378150b63e77a38cb99df12b49a365d5a868ca8442014e577937c16711da5aaabb10cc33a33001 (-0x26063892716927a185cd428133ab9cbfc1f0d8a03d3a7bd1cddb0a969f9c29990523ab7ece098303dc9ed3ad4014b92) 0xe38bc87ed044c11b74771219b00cbbac16db0b429d0feb9aba6a2199eb3ece6e50d000ed870f6a312051ebfbfd9fa5 0x11096673dd101b7883c6cc2313e6a54b38344ed85887f67835d618a6aae62a7119a710faa29d4bed30ccb9ac4ae04c 0x151e3dcc2b757e0b9f05d9830a78d5fe2974bfcb175081432eb89b21ca576e636fb9df6dd1535b8c666cc4a2263c329 0xdedd78e578499e8da4babaa62f8f1b032f27b1b2389439c431b05a9400075452432c58d004a83c57fc2c6827492a3;
  Twice 0xf4d359b28f88622c7696ce2c269df9da51dfc9983198cfe18ca648adae8001942127bd9c546056b3c67a052071a72d 0x1783c66700902d18a2129dc382554962dee2935f575b9b32ec7675fbbdb11fa26d5749a9ecf8db7d2ecba350d2f95f 0x10c6e302248839182eaf06d7e8813fcc17108eb6a9ce81132bf97ba5d669c8e7b5f33dfb89221b75883dd36373367b3 0x8b52124c1c49d2c5ccb198843a9d7889e2ff7cf16f9fcd8a15456246ed3ed7f1df51a2fe0608e3c42a86f413b716ec 0x176d4eed330903ebeb644238f1cb45b764201fd078b1d8e3428076b6c727a4d690183aee3e74471197ee5d5821786d7 (-0x174404b8ee71405080507c23f2189bfdc49216f0c8611f2427a96b13bd2932b0d1c03beac30107db1c8ad1309e9676);
  Twice 0x13032079825931bfb308d7b24c1465c923bcee627b33f018c7b07d0e23fafd9d0bd685e67b07e8e132b7be7294b47d5 0x1b9cbb7e93efb81b6162fae5d1008c94b37f91aa08bcd4794220dfed72ad5917671cd2d1aa81586c228d3f37f10e4b 0xaa33c65361dccf2961bd7ae8a809f0a664fe6320f4ea6c4bb9f6e945fd86848fe6dc40ebbe2ab869ba3fe24add48c0 0xd7155f4defbdd93ed04e10f7746e4fe7910ba432ef1c488a1cbbb36fd0c3546734b90f8df1b5ea6171493cabb1bf13 0x15dd5a0a1b03792bca34da6a2f0cc1e2dc1b8460cb6b31050bda13386871138a52e350fd23b96f2f057bcbe708e7b9e 0x4573f21e8f0ef33ed473bbd2613778d79b4486f507f3fca079ac9246a58556460da0c67038dae92385c1408fc822ba;
  Twice 0x14d58ba70a5f0631978c72d998fc318851f062f60b3b4cf986a3d0ac763b538b1a028920850eb93a9b125767d414f8c 0x1541cd5c1b9ddd8498798c123507af80e4de8b31c2adfe528881c35307f97d230b07cc0c7f881a30b53077d0dd908d0 0xcd0a82125edc04ed87e2a0678591e23620cdb99e69d30b5f55e3d127bab35832008f7c6afed1e9adc6b245587cc096 0x1024821c5e6ba8ddbc06485b4da8daf9a94f67121ac913b4189f43eccc9ece4a60787f04e1b04322d2df35e4798627a 0x1307583d134fb9a85ec23062db99409c2d0b5b5b606a6e2ad97f8f6a2e6b80dc6b5b930474c8c5fea162c8527928f76 (-0x1afe5d1a4b647eb1613a43f4cb69a5e0d237144a9143a411c5c5825af3f600c7ef119b4d40834892aa86482ca79e1c);
  Twice 0x5b61c5abbd36a5bc9757ceacf43880f07f5b54c334d5f9136ffb4550283770c2423b21f1333fa880bb96a445228890 (-0xa3d2cf970315752a342adbba0e75e2648f33ca87cfa472b4246dd4efd51ef6c8a5fbb2ecd8b9e3a23d12ded1ed42ec) 0x1529ebeb0fd211306adb8a46f917c65337cb092b9a23372f95f58fe16cbec34f57895baf9d6c4c0dc11b00e44b4e531 0x1368ec3a08724b137b919f506d3ac9f1a3797f534ace8089950ea337059cbe22730a3f62f9e58e35a2062d396aeaa3 0x78619cd1a837556e4ae821a51274d2187e6f2bdccb6ec00e2110a93c8c5f7d1cd7514e1e4729313ef17efc81ddd89f (-0x1c5f67dfb8b5ce6a04bdefd21b308da9f878ba465373417705e1be1e9b10d125abfc56abdde5ecc86b30a3000d5745);
  Twice 0x1a9da88cb51e028f7831cf1dabd7b2d1a619b1f2383d8c26765fa1e0dbf55c92c6a8a1218505abc0db754d84ba74b8d (-0x2313d836cfafc4ee5110f0e5625422974acbd278e0d6c177c778d1f3c1d33a1a37dc83e215917f22a2839e6918a50fd) 0x189faddad6b9e7491fdb59c70f865d29a80107b80779f1f31f158c43e88f9c793f07bed614681d81528e3e3dee4c1c8 0x1a5862dce135563f75b5c9be48c1623004aa1d22011be915cf29d06f3426e1205e6523ae857984f93f1f587ddf35f7f 0x33240e0964016f853a3308f27dd556b2ffa70eeed96ac52a21629121b4c53c3dac919446412bd91fe2d8b9a4ca3fa0 (-0x36cc09ab0b21c83c8cd2efe27641beac60e7dce769d58f38868f4d35e07e56e2447f1484b76b5b14643ec93c25d46a);
  Twice 0x5211440944210088b260b099220185ba6f51060f0335900a30bbf0a104457f1983da6309baa38c062de29050eafdee (-0x426d919202a38bdc22a8d7c82ec21dcec44a022438c3a521e7d751084899571463601685f5754ae5ba6092b627cf740) 0x9855216a5aa575074b1c50deb058b6eec99cd35e61a2f3495169f70a5facbd2c1722da4b3e4169e3a48486b3476a32 0xfa797833c8a0f99ebd29e9d7bc912a3cad0f19432b15098874b64ed573de3693112e26bbc3ec17f4dcddb81e75b82 0x2476e99a12ad810b4f7891ae7bb1cdf3babbb371a75442f397603d2b8ea7967b77eb75ae6754517fce3cb3d7166aa1 0x2e18585896b409c27549e1ca8348a6ebd7d507a41a52ad492d34e6549661bd3f9d2da5a02de32dd41d20dc7f120133;
  Twice 0x2d9e8799ed2fb449b18c9803998fc2450a6c09d4996b1bc685509c9384074b1be82ba6291af4540e9e9f170f50d790 (-0x9a13fc428f3cf3dd2812db660cf2898b8d6b0fcdb7c57348404d034a9132b3b92276e92b629d84d7dd7948dc69f22c) 0x175178dcce26cf92e756b21a18105a4a549ea8371529abb0d945f87966433c3545c85d93bca9b129f8a98490ff86213 0x4d655b49263df7129564a4a479f638ab14c440554fbedd37902f423f3f6663c9153ce0399ab4b9ef3cd53d8fbfa89 0x98f2123dac3eb499ab1f2e6e5fbe9a74fc3f11631002125b4ace5195bd3cc3a75c26159168b0991bae61ef04cc5363 (-0x1768841aab7523a76db78015c27424dbd74435623e05d9405df62175d4a2cc291310bb8aedfdc6851551da44ec2394);
  Twice 0x6956796bc6122a74d16a8186d0dfd3e12f7833220685fae18645ad5b484e12825d5c842e06a2843c6d3c8e6bbf1ce2 (-0x37fbcced725f1ec3050e042cfa4509f3dd1d46c87f993b5ea4bedd03b84d134a5b57ff0f58c477752334e78d26cc56f) 0x181e64d9c4643d90d2a5e093821e64ce81c4c0a216ceb7a70ee18f7657dac68477e011f5fe9e94df4630e9a613620c 0x19ca86783ec2dc2013637d41c2fcef948b7f0045646b19c130666733655c83960c48952146f3b003726a0d427a1152 0x7a6d095e09df4dcdfaaebf0eb16e5c98f91c3b425fb572df4ecae4f1fac478e0a87402ba66bac6a093b0597ba88d19 0x55717cf82fb35ff2af26ca127b8f089f83369a7f948b838e514923434120c31c94ecc500a34472960f8047f9eee9b2;
  Twice 0x11f94e882e8f169aa239796f000577fe8ffed2a3b9a7a68a6eb4f45dfa06d282f1df197390a47a17fdbdfd49b3916fe 0x9f9cd589448f84d9f5d1de686a1ca11f2ea22ee755daa2337b47639506575e0656344f8341d2cb9e5a62bfabdab7ec 0xba39f448a90b31f40a4483ac97d953ff04ccd7557e2461b7dfc88443893dfd3b1075fdcc59725891b5700104795fed 0xc03b36b6a04617cf9ea3d1c21ce743c61aaf03f8eb41a84c692b7c908f7abfdd68286b962f7aa91a15b56e828c7fff 0x1466a721b744835feb6978e6feed08134d2f56b88e61f3071f4cfc54442845e910956c6ec4be902022acbd56e022a2 (-0x6c5bff14e6dcaa8a928a59bfac5e2315589d7345374196a802e7753fb9ee309c5d8f95c702c6a1faf43b2401a4eaf9);
  Twice 0xcebd95587ebcb18d4bf74552e4690b83d0890e7da510a40bf841741ba11d62ffb2eda6149e33ee08f80a6fa5e7ed48 (-0xde386ee9f8b9a9941c5247491b5a66669fc526242869b413348666bd2d2c8b8761800c7ebe87a35aa20a347b63d51b) 0xf17579499fae864ffc4290be29caa14c0e913b3dcdbf79fecfce017e739aea1ad620157f57914b44ca3dda4d9b9e7 0x6358bbccf206c232515faea810ff93e4423180677d54fa1436b75f267d414b916fc0cb39b176010e1f6a8d3611ea7f 0x9037b9b1bdf2cd8edeaeef3ad8dc6cb3645abdb9c3cf31043775adcd25c401ecd00d65e84e51e1c39b630b1c6fb141 0x523ca5a4fe7c04b9148c9226db1cac1c5e0172d5ef99c9b079d6e39a0037cce64a0510694639d4ef88c15bebb46bcd;
  Twice 0xae3bf914424d9237e85f9fb88dd6bbd311561eb32aa6b53ad0d131675ff3517e5aeeb260e9500b808142784194a88b 0x73391283a742345302d5a52cae0e5a442ddb9947dda860f4f2706f734471e41d748b031322d42fedb4b6e3753ec143 0x7f75225065ae3e8fd9972ab4d2f27ad2358346e79b1cd4315b34cec01808d0059ffe735f12365cdbf692787204210d 0x468fc9abe618538d6767bf16de4b4df3acf53489f73e2dc7417c94d86cb84326409750282bd7d422b2280629f7269e 0xaee8fd88dff3ef06137ba21738c1ca2ddea60e96bbfe2e502f251912418e4df04d7beceb4c7f39fe4d839f591bb1cd (-0x2d819db76b29350275d6f9603dad84654c75899cc46aa53b3b45c041d48663d70c33c7f0c3a9ee4ef391dff73a54b0);
  Twice 0x160107d16c7f6e12b09f8152256ef4ea2cc35acdf9f71a1b168c6f75f1aa59d90a639933adfc7b9e4e498642589b425 0xacfc2f8a6ccee6e2778ebb2ef7dc9cef61fb7f024c876887dd48a5200474f7960bd69742a552256090217e616e9d47 0xbc837bdb71fb9d4063d806e95c137d399ec6b69b4adf8a073d3d3616818404eacc583bc668e075c531c5739aae69a4 0x1201a0e731ffb454c2448e577e11db98902bf2c10f55121ebe50c50608afa5d04ed9bba3a596c080ebe9aa881a7619b 0x13c736d22fc97f9705004d80c1fd6d5ce5e6f80228c010a2c111d7c2625577735648b1af29b5e1d396db4ab254c52f0 (-0x31f6a5ae344ec4335bf44866bd401a0330a639a2c16ca39a1695217437017a9cbb21b65af267a5bb1991c9c5ddae90);
  Twice 0xee9eb375f2a14acca07cdb81989a1ef7f3be8e88385962d66792acd225e74970c02cc7505addf5ac47c2195d13a9b6 0x6739f283de2e6d5a4f1118f55aa4897a84bdf20b9f43f791e58f6a811edebf57700f19cc07ab86ee20ed3f3a0efa10 0x193663d4f13c0cd7b91bd73c28c3c74876a4ee2010278b14b6299a79abe4dfc1a31e4d84412ad92fe1b3c52fb807657 0x8458e930c0cf6ef088bb25968ee1c70c212687f42df1afb9adc813e3ad226702df7952e266312f6d5fc122aca883c5 0x3eabb35046c47a728e45bff8eafa3a328b8a23f9a7e3c2f4957a47e5b36447f0dc0721fa47500302aa198f3bd4b3a5 (-0x772ef85bd91659bd9f7c6363f16fb5e58aa7c32db69f735b928cd81c2439f5c3202333b88932d9d1bae9a2d92138d7);
  Twice 0x12b2a83fe112ed0d4bbefc5fe9ab363260fdd1432241384ebec055cd0d7fe3e28b5093dfa142ad835bd74fa70208406 (-0x41792ef1c4f28a9ab9126b23b6eef86e6a077f56a09471d102c97b3e991ba62dddac991df403cca1dcd9fb806a260f7) 0xe26a351a446cedde5791b0b8ac929e3f6060fb14cb1d6e4b61ab2e6751c16f92c9864229091cff29b33a49add2555d 0xd007bb57a0886ba45ac55a8cba71fa2daa990c97dea72de06429214a5014c5cbb01cd5e10dc6e84edb506ee0c2ee19 0x1993cf8c40b54a329c6ad3a553693bf3b85ddde45ba11e31427006ae6c0c2ac4001372fc00e880742da47bdeeae5671 0x7b11b5453e23d5098c262587eb67dbb2824a1d218997c72111da202e27e66d6afda6af0ca3e2e88fa9574defd2a3c6;
  Twice 0x1a4f91dadd5993d933e88089fb9ff6dfa56755981098eabd5085d4d876c6aebc1d09a594eebedebd222ace8fcc844e5 0x1bb67e56b301ad6f4ada131a0e2a9fe071ef3a37f7e9dd2683176a8947959be7a9a994a534fc4be7bbe5a51994202cf 0xac2cbcb702d9d8f3de9d38e6ab404ae812559a7d5e1b6a89d3cbacd21571c8380ca9de710eb8e00e233e1b6d2f3878 0x19beaeba2b167c9eb5ed6b5b25d18a0899d9f75f492b596aae154d9ac9c6759426b26b97f462dfca30088afc78691a7 0x15c37017ea0c80dc073b4e0299275920abd6db3d47cf2f46b674966d00b989d3340c6f2b672043f03f2bbc4c4f0b48c 0x3512c883b6fa8db8a8012878062d611fe79648ed592e49139e545864b98cdd2880c618ea4f8dd3b31ff67070dea1dc;
  Twice 0xd1e3d3c200e3826bb638fb4736de8cbe03c3ed36e23a14cc06eade36eae5f465aae32aea118dce5e3372dccba2a20c 0x850c6de7b565c8456c6e3a82975e4784c65c55681645301c0d7b74501e7bfe879923cf060892f579b4caf9bab3f460 0x3d33f7362ded2c9490f4a1de5227951ec9cf455a110ab4df41670f986b90db69bb2e120d36295ab83cb35cf37ee74f 0x66657f18f7d9fe7bb5ef79bd7e32b9a2464441194a9d14176399fb7cf345ecbfac49adea1aab50cc54995cb7e5d851 0xf60e51569850badffe197c76b5bd492a9bf16de383a1c67d64112d56879dd6c3934b44d5e256b213763195cde67f96 0x36237193a525e6243a80e532c5e8cca6828a6651a7c104ed5cdc2db99c67a867dd5371376da21fc1e76fbf93ba8bca;
  Twice 0x1d7b26593f96304c8432973fa3fcb66cc2a1881ed19b155a51187ffa0dfd8220637ec6f0eb67ef57318824dcae67a (-0x1803191d79eb2015d93d523c5490ee66f0dac4e5f84973350d1398f19cefba3c0cfb7845dc28cda1aab0d5749fdc2b) 0x12f91aec830b82bb91dbc297c55b3308c08b9b0bea5abd18cecd93cae9c5e8bdeede5d29c2551023bdf9713103cf58 0x20529cc3814717995757489f3e9f6c819787f6598c84111e6bdf0ef4ece0e134cd80cc6dc3d3fbec332d405d42e 0x5d25050dc420d7a4c777a1574a597988d194a4bfa84e16ad699f5315d08d152b0107158000d52963751cc13bb3e9d6 0x2e4ce8b52807f89876586df7085e9b6a25bb8854e08d1f3187cdf4d2bcb5e1a9457dd45a20bdb4386b82707cec4a;
  Twice 0x12a8948670924e62acdcfc7569f2f6a3ad3b100d3b0ae037a840df123950c648b1f305eb5de39422266cc9587b7adde 0x7ec1aad5123b0c66c9c0e4699319e8bb66ed2863f604d59750c2fd4dda8e9af8cc973af12790276031556e1e0a8068 0x1426c223bbe0b43038eaa38fe5fa6222e96826b3a55c31b9ffc4ce611822be3e1e91ab18b332dba8b6395d12c230d84 0xcf27bc6764a79d9ba9eacc25c30e5a7261003d8d488e63c9aec79ae3a8d38842afa87750a33510c829e8e29f4f2050 0x1c77dcba9f2a230b7c54fa3e91b516c03f5fcc6c2bf30fb668f209701bce3b8adb42ef2195214e3dde971d5f6a28a3 (-0xd2907d5242d848bd8c52fbc0c4e7f4ca900dafcf274e48248301031328662fe945a88e4347c6cccb69a88922adb8a1);
  Twice 0x12f1e7a0fe650590ae2b93107d4255af7cd425f990f5b829ba263d3595713d31d0e48d2b2ba87048e442db9bf73f447 (-0x2acc6f97ce451a0dd2f8f6b559470b175c0bb7204a43b5e3227989814e6db949573436e0cfb055ebbe2e52731a0c1c6) 0x100c225b5f0e62076fe31437b4e81810cc74d953c61f0fdb1210031c700b2c029cda4af11ade674d19a895ddcb32880 0xd59066085c40be8e198d955d70ec663dad3f12ba7ae66d0c6ed618f42a8ac7203144a60fe90c6efd95caa51de82829 0x178b636729ce05dc6ab1db85f427e11b7d6124f027cb78509670d7567adfbaa09f1a95c2642dafe517388fb2fbd0fc6 0x2e438f8fed23a2f404d9ab6c719dff55a4c58bc90aa3337f5108a303179c7cbc56753046bf5dcfa62f5a9efbf51bb3;
  Twice 0xf7b7055ae2799ef2f8f9f54c4576aaa93b37b5ae5286a42ccb35f436a24a0a3f1e848ab6f5e311fa29bb5d8e93c0dc (-0x19e4e33e915b57bada9da12f13018e3abdf0097b459c5714c8cc2d80ee9dced646e4e6f8ed8a9cc3c706279238a3b0) 0xf1ba3e3fd961d33986c0f7d64f755720a790d62718af76027b07ad14e7cf45c35057ff52778a784d4908e8f2fe0a76 0x8ea0dfa928181ca5d66a9b705b78576221b6e970261c5ebb7e6eabd5d299ea783cdcef81772401707a2b6e718e619a 0x1483a432b6d339b61e3c835c74f7aa715953ea20657723d72751fbde8a87db5d259620ff1e5987f5d620f6299de13de 0x8a7885002bb8c5a718d261007d2d5fa8957a3da15a0ec192414b95e4c804678e63c8cca0039e83e515caeb0502cf4;
  Twice 0x16976b525a9f3c6fb777cfabfaf6a37b900bef867185e1edb5e75aa8393589ae73bbc99fa6c03fbe7c86c46cad607e1 0x90150b8504b8fb05e0f0f88f117c7e64d6110444308d73fb88c58b5143bc126e39401432bb5d548a897a889cdcc510 0x432559e499bbd3c5e64eb2ce9e00f2eef97f4b96101e35ad47841cc82342cd43c5e7cf8b7bc1bb496d7f16bfaeda3b 0x12fb0bef40d21a92a21f4b7bd9e07295c130e711aa71f6fcf62bf31edb528aa94b87c42f62209da1bb58d839abf249a 0x5f17955f0797e2208f68f2dc7326d8e3cb920e9a72139b92ede712309352f45f05b6c5a6fbe1d231d5a0d4a94b6274 0x92ad8f4d018554429d04d3aa8fd0d3409a408d682ff625de4b31c58ff266537647a678884beea6199de551df138a89;
  Twice 0xf57cfdc21a3aa1b78de1ef5c201e88b5a03eebbe3850f1410555ff2e19b0016c99db360a496174ad0ef5aba251c882 0x4d14add34cdf72790ae57f1e23ad58dc77d27975f9c43f281175d2db1ab2dd8f14d8fb86e5e3ab8dfcb2289317a105 0x17012666b1ac00911259c5e6a201cd4e0e4c4d321adf5e24bcc17316e8ff97c546bc97c0eb2a4cdfbfbefce3c1d18bf 0x8c1367952aea7ba8015ff950f8802bffa116c77d3273eb3761826aa7fad011bb1e43e2bfb48a6c3c441f954bd494cf 0x3d660857360234308840882dcdc741261accd2f8d000f8a8b481b216c66fca13f83ddda48c11604acd00d811254a36 (-0xabb56794f705f2296615fcf2bb629479ce7ca92c3c52347505fcbc4772aa71752e3493f5eb433cf62df0ad5b078bb2);
  Twice 0x12a6d1420cd3dbe068b0815aa667e5c595f38613d1147d3dc81751d07373d22258115d3d8073079901fff0a18cea6f6 (-0x35b827fae92e45f039dcb3f6b4554eebe3b51f7732e310835d27af974ceac7f192dc2e83c860da2218e4941922e73bb) 0x1116661432acaf485f8b936e9de850d43d9a8262f30b70c4c584f480d184586cba129fbbffad58e7970b7455bb19183 0xcf0099e987b50a051261212282d8bb052b0a367c66dda96125c6df3cdc5182c33e15eaac659ec24233ae756ce03163 0x1498c5445e23991a3daa892054f8651f25ee2b651ebc8aa8b112c7248d6742867de54f0b9495aea572604a243708787 0x41ab3ddd10316c93cefb9775d50eafb1b7cc59113b10d5fc4ce708ea0ed0e7b4cb7e4551c0b725bc10871f7eb709eb;
  Twice 0x7b38684077e537dfdb90c5577cf636600a2f931d307db42e2865d036d973dda690f2fe9b588eb1e4cedcdb8a786c (-0x2087b22ef57f108f29f3dac4dc0f8f682a4e1db69f8c3bfbee845910fcaead43d07899aa5ac55634570a05586061133) 0x361ab559d42890a7df1df2659ebfa7cf393e74aa8f20b6ffb3f81721e9b3eeaa2128019f3079f03fa1ed6f0613bf45 0x234a8c8910633648d55eec348f0611605229a7d72468e54ecaaa9504e234e2add5e8507ec57653e295179e8b45 0x36c8ddf94839ea0604f3531464c98a899ed8541901a6e4996181d123497f746cfec33f9a2bdb07c4a2a0f815700d61 0x3eced0044545504baebde74c715dd596314f4cec271916f1d563d4082577a816f8af664558c382efb42a1fad2d40;
  Twice 0xd374ddaaec0059f01058f3bbc8fe509c1355f57840c3a3847d8f4e2fceda6f337dbd3080cca76bfd1bd9dad4ff2648 0x2170ee41b79ea5ae3a5ac642d7ed48d8ad25850cf38d4275dc63d1aaf26442213e2a6c154714a010a24d8714cc38c5 0xee830023f8db36c9c5cd1de5bbf3b79bf7fe98677c19df2668c2c2780e4cad2f3a56689dc20a42a9c05615fb3c0e86 0x67ee41adab8d6b154d50ce5d317e442ebbc8a0335cdffff26a662792f54259f509dedcf26ea911a5f2a76081c5e730 0x1488ef777db04808c8ab542bab17980d0c83d46e8a2982f0f7ed16dce8c8a2c5f08e8026e7297492fdeebe18ded0be1 (-0x5aa2d5a6e1a8998dec9bd78cec35a333d08a96d081817a6192429fab1bf8248133c986d3cd2e20d4d06f555836098a);
  Twice 0xeffd0f20e7ec0940ede01ace92a5f6f7b7fd8831855f14d951eb4349fce59b4a317c4a833ebed7478b37b33b9dd92f (-0x1e216de414b3e7130655748ac6ede666bff357b9cc9b00e7df06890c3bd3d07a9f29eaccfc5bed4375935a77c0fbce) 0x16648b8499bf824102be3ba586b395814db9a8c0723f06ca307440925e4c446708ef93cd1b88fc82fc47d895f361ef6 0x85deab0ae20b76324fb66cc50225544ae6edecc9b68274710351f93ab3e8d7507216c880568bfddbc7a37470387a9f 0x413bfb09ed62a886b45d5451fb4bd8dae17287885bd28a58ce689787fd4939a2763a3b6b9eb6b10ddded2a31937afb (-0x42cfa4f2c1aadc8fd7a9b9ed7f1fe92d8c440fb947a6c6e0f0fae038a537fc5fea09efeff6fda17200676ff7087b6c);
  Twice 0xb29aa19f42f46bd7c5238603341aa9fe0ddb39da9cf93cd4b069b4bab99a3c0b06982fb9e6be2819e10c575d8b96ae (-0x348f35b3a9900f35d0456a60d5b799aad0dafad5ba37fb6b91a2e938a273e268b3019e1f971b4bf859fcd96d3686bf8) 0x193a4280a51085a2a50723c377e6e1b8d60fbfab7f37a635b7fdadf712591b120e193c96338858a4a527b023df4b0f4 0x4a2538cf69dc2b5be351e2f7c74e4317cc96d8bf6c6e0ae8b39b4abd7f7b80acd6d256f7ff98bafa84fbc669436f64 0x1a8adfaa02344260368f9f2daa71a1515dd044e1626f0b6629b7e08ff498265ff0d142d141ef262794a94845fdaa5d3 (-0x12d45a89e42109d7fec22d78f19566615121c9e5fd85c76ed869ed8f6dcd2403554ba8e392cc2bb66fce2e2b6a2f72);
  Twice 0x1a9dd22c5c87a68db97299750c80c615e30eff5ed34497cc5c3118eddcb029584830028a36e5a84d34435802042222c (-0x1275965c6a2d8b009e5dbaff06c9fc1334b9187e513ac1ed49190b17a5319c462cbfe811f513480f1afc7e8f2502d28) 0x11c950065c35e3501e0e0228bfc9e39f446a651f2f84205f2d100084ea60504789e1b9e52bd1eb8dc3e44cde7adb822 0x1a58b543c637f6957eb0fad6ecb55d53f14f4f72351840fea27ddad3afa30d177c274546da931aae68142ce3fa89d86 0x3d53b1300c40a25368596eaf75bdd7bd7098d3b46986fb59c0c20bd1a8d78339845eb6b3f0ee9509f450052d19c164 0x75da00d6b81851d9e6eec0a6714ae39f2ecc94e1c6299d9f9073ce0e023883bb1b420ae5b30ee801cba0511a6e40e1;
  Twice 0x6703109f1c22e0de53d3431fbbaef7e68e1d3fd7f28454588396877c75462f5a9b8eda664e8477e74623d7d0f02f38 (-0x2175bc2a51d4f3f9540ca8e13f33f94ed80dd54d1a290babc746b6dcea7f13454ed2f50e431701180b94a92ef6759cc) 0xed06f1c1577ebac718c7847cbc4f91cf2a6f74e29cdc56b039c1171cc2bf046c1de6f178f1fbbb0023a0f8c521d9c3 0x18aa2e7f720f35046e99623cf9b869144ed387b5e6817051dafb0f8a9ef55fa2ba37b1911c7422086ce38efd385239 0x946173b79fd51ab067f352e6b59329a6c94aaf639d4a3c134c206ae41b8edfd0026d28dce9fb3e53945c02b6f3caa8 0xb62e84182cc603462e96d44387552652ff65e6887db7c812f2898b45528a68a6b67b894db1ae738ed1286016e89bc;
  Twice 0x350920940460f093551a4b0d4b83658786b6f25ab2e78aa81a164cb828ee1b31fc53759fcec0aeca91b1350b9f0dc3 (-0x1632d1fd05cd9861cbf8fc15f44ddfe01fb334df4d8cd0ae8181a0cd2ec313758565ae26946cbb735af33c84bdab3ab) 0x4bac6e2ca080a27c8a1c9d558b74b64dcb9ec7464177e9c5f844faee5e6406eefea77ee95269823848bdc5bfa775e2 0x689b318dc7df17d06b7d9b81a1fb61342cbd29ecad552909413e48726b32cfdadfca4c0b3d637c2dfa707910c3921 0x12022be5e0a978160a6d44b4f80c5fd6365b096eafd10ec74eb24f17597d5ede8062dea050e49d07beb48a82d5954cb 0x13e3ff518e07297d5f9d1a3dfa97dee27e0171c5b29a0fdb72b3c8a54fd6e2030b7d467e95c2942c93ea5d32be61f0;
  Twice 0x3ffdd5bc47e75cec94523e342a55b839ba03f65360e6ca7ecf725afe23ae9d13dbf81317a475e77e1c6dfa2c175fa6 0x2dc867469e5c178bc3887c5864a21600ee4bfef932a5a72cabeae197ba8c8bd30014084b013e3a0ff70d9f63d58eb8 0x11afb4e7d84bd4258e2599bc103d5e3ae9dbc038ab3e61794730fca872029af7c315539b0a9d179b9a5e5dbdfec6014 0x9849d4fcd300f6fdd6de9a4d4552542d0e58f8e7829418bbb34c2ed5abe2049268008d91ddfec9d91d5d4045553cc 0x6003bef92d2ceef8c348ea01d645e2b4f867372737d43f7d6180067e03e2f20a6a2e5c1c9b283c06708fcae1c31407 (-0x1ed5b2d4779f8db138275fa1f883b29c750ec99f927d1cb81eb11d85f740d10dac9b51a58b32d7844a4a0b3132d33e);
  Twice 0x4d319a5a020e1c29153f14d922f6840b7b3abc6650e7fb58ffb23a5dddc26082d33d5bd843da414312e72dfda13568 (-0x20bf002f0e976cf2d42b7f1e9c6ae6b79c35c9c52cc8df2bb086f6b1cd9a13a75f1604cb20953934f016bd72733d900) 0x18c927c9d4f33ea7413a5899858051ff680082537c140944bef4b48d562d95ffd534d7888a4fc93f07ab3c8724f9b7d 0xdd9bbbcde4eca764ccdd53a2390718b3ca1ba76ee1a9cd3a60b1794a909d6a173cc19ed3d6a864063c02395cbde9b 0xbe2baff310c1d9203610253c334b1035fdcb96c27e61c8519999c23a205bcfca6f065bb65394f4ebb91c03a31807f9 (-0x14618b158cc136631596e0789857a59ce97b9d833bb57d0842d331188c841b6222f0821f6d0fbfa224a0ccaa80fba8);
  Twice 0x1a0de01eb34fcfcfaa762ea49b55a8eb0debf1f8a41ff027cffc6397d683b8332bb8e5fa9d0e8a59445e6c9c29a18e2 (-0x2d81e5c7ca6dd66ab7f3108de2954018bb35fee587890bc47d7fc873aa251556ec18eb0db87fa90fb4646a489430d77) 0x97769c84ca3042f00c19eba76f33c215c1b021730016ae59b1e6c9bee8f0b245da70c31d6f4a6448fb1ffeb5ef96e7 0x193ebf4845cfb6a7b296dd3963b4a7056ef40420c95d5da08c51e409480c72ef80bd999a51703c6df304dccdfc459a3 0x2e3fad8912f6f32c5115486fb5fb0e534d03ae11a0a3a46c4cc64dc0915e51ff301ccc49eb1f973e6b0a15a7402eaf 0xed7f48cfdb4bc63e6bf5d572ca4a0aace7bb53c63353abf3fb9b76370b1d18f0a3d5327c8739f223f0aeaa7115e5c4;
  Twice 0x80aadfa2675ba27a894207efc3b032bd1463eaef0d5d76a1a53e75d7ffb245fb19cfad5d73cef213436a72f5da131f (-0x844e8417466fef8b3b219f85e05f25d307f7c56c0d09698d45e7f34b4bc7ad1c2a0d9828ebe56c42af956cc64b44f1) 0xd6e028737fbb3692100cf021a8d2564bcbf86af54b187fab829f25c20c5c23a719d95668406b2b9ad826fac11b175b 0x267af99fcec05c1f07c12fd7dc329f2d00ed333cc05d7ebe4ea57d6e5596a703718ede5b24716baa636f01bb3f5898 0xad45bacbfe4a0af57f374607d6e481460eb5a544d70925ad14d1198655f36e2872698da91e916e2a69e02551e925f2 (-0x12f6f0b4c3e19e968c167272d009ae65a387d9609161023a165460a9e40e95e864da898c8d424064f11836f4be7ead);
  Twice 0x4b7709f81a5ae1c0ac0b665d4e7c839f6afd718d9390236ba1b2b873d7b6e76e069ef0784a5d3675cc59ff02be7336 (-0x1052b8ba6b2710ea805436b1047f294f5e0535cc180306cfc58fdc7963626b936518fa8f90ef06530a40b554e4f00f3) 0x1717f3a9622e0e25ab07c8f7c87fec65ec296d960ff4bb8ae9ab6b0ff66b5aa27fcf4fbb074b450c9233ce346f53a23 0xd3cb27f087cf05d984d977519924d9922d71489c6301ad8b44dd5f1e284b0dea1c93514b1210dd688ce3746d6268b 0x182d697bb19751e8b4f95096cb1d2fdd9018fbf5429b561ab6ced34965587dba771ed678e39aa8da530480694262e33 (-0x1b1f272b86baf0085df58d323129800eee5ac1c9272e694e55e6188136041531c78f8d718303b08e3fb4bc80228255);
  Twice 0x8a62f8513a2f402461d739e96994abcae557b8f7de8475fd3cb68d1fc666a7309ea0c8fd80ac11579b1f53862d1f87 (-0x2bf283702707e384bb6abb855d7b58f651021d1ab9ddf6dbe0b0bdd584f595f5af4d93ef7e506686c38eea347328e91) 0x8774035b6360497c8c029a0e6602801ac90f790b5ff0797d318df1c075ae18f682e2fe3b272bdd6403df156d8ae639 0x2c83679a408ec2cf31e20f856ff0225470e251c833cd4e2b95b6cee92a54e00f9ebdfd3a769e4ec7d28fa371e29eb2 0x12d8cb5262915a70505b48708cfdce4fad7d72bdc77f10f55882c30c4de6998c7128c5e6a1a5c58dca3200ac558ec85 0x4b48451ead0d5070ad651892ffae0e854dc4ddee4480b02bdb3b3a46fdca1f5639c76ea1f58bb46d2de74b69de7bae;
  Twice 0x179a12880277e30a26559b66e71b83861d6a377f78fa0bb4cc400513e0cc92b2453922ff3d2cda1a2cc8778de9219cc 0x1916d8f6548d2d3724d23b56bae65d6823bda50b24613c4f45b3f0ef0496990b1df082b98d450b4de3ecdbfac2383e5 0xa1bf0275ada560cf28ecaf3926a8f9e3125ee5bc9bbb3837dcd094de394d9483a85d46b40569b67e9e259bd1791732 0x14b763d702909aea11fdb2112af4e900e6148348c82291e70108a202efddb784917d69589c3ca2c43982b9892ba96ec 0x15bc88ae34849e8bcbaa1b070e11d18433e3ce6d796ab1c3dddfea1638d4a8fd8644e22b0d6284efdbae001dbd5cd0c (-0x171416b3f22c4c352a5470bfeab4142dbdce717a6066c49b26e2ba98299215adefd75befa0aa13e7bf62ee61c810fd);
  Twice 0x186dc1172f17565b8a329c8451df8f94dd01361dcc6f94fc302fb59e98a3edfdb42e0b3af57fd23ef0bf50651207fdd 0x1c17dbf078eaba7adf0a1292026235884b1450f4106ea360ee5252f95b8e1d417badc05df1a9098c331fe00d17bdd6c 0x3cc1495218250137f7fa1401f31b60718b4850092d75c928facf1150be8f216287ffad047eccc56d5691623dea58a5 0x1631811a978ae62c562b6cf894e3195829ae273493d46816de2e8378647488ac39f439d2bc8bfac4813b8cc30407dc0 0x161b927a0ffdbf670db49d4075b87fafcc1db2ad9ca113655a0492a97e93cc30014166682476eb49eb01e46579fab70 0x5bbffa428e93ca5ff4ca09fce936cc64fb7ecabd6ef2516bbbd37240e96d01a750f5f9b966008835f9cc106decfa3d;
  Twice 0xe60200e80fb4588e77cf17565f3e660738cfb36f2d55bef504211e3e42b0941a4fcd6cf88438f0d59e47def5cc86f7 0x16079bd156ecf4cb83eca985608ce63dee7c4acfa0204ab77c61b3cbe7048681f83172ef8cbef8fa0a8230b6d148315 0x17a17ec521c6278fb6546ec079324e7801f5d09997cc7c71312a544994bdf219462b618acc89e6a691441e6e4723448 0x7af76eaf897af0ec4ceef7bdbd8f43c28807e79681b1bb263e696270ddf430711e40809183542472338f74c6889cbf 0x169404e2f5eabeb2a094e0b5a317919a6f0759b2affd696f6b5abd6109a89e9978f423f0a8ebe2420728fb0eacadf6 (-0xa9a7b60e582aea98aedce798e23dcfa0fd5f9084ff6aa5ed8d9594b59adb90cc135c67190555aefcf32c39353c95ab);
  Twice 0x4bb8d5ea57c1c93c963e957fe876e405740cb63cccc765f84816c91bba4514a8d459547b49f14a3cc84f2877f36b43 (-0x3dce1f4b5fec94018585692ddcc78a6d9175f7c80863cb19e1bb0271ddb95b2e5e3ba80867e7ea34b457c3d939549fc) 0x19ad80c7f4c998936faf9d37451067a02edbe1b52c08222ffccf323051ba31727e6956827a67ee424ca566290515801 0xd53d1a7cd563ffb4c47c2b3c838c3fe087a0cbe2036004cdc20c2340f3fef0ef90ac2fb9321588c3c39ecbeed52f8 0xef06c7dde1c4316e28259e1c2fcd9070f44b949f08a2f428f2ac6cb7c333f81e10402fb08b08466734111b83aa8f24 (-0x5c3a4e6493129b0c98a865d0810388dab8b7b2b6b3e0b99068bd826830ae8483cc5fb4d18a6e039db119cb946e985);
  Twice 0x14be1f3eea0335950c53df55753fa79f1d5396c864344d49c5487f1d84b8880227516b8fc22a351f4209e7db8dcf267 (-0x328399d7298fae2ea5764def1209a910f5c357656e9b46a2581a7a6e0f005bd17b263c951d9065a0dd93fb59ce8d10b) 0xeec2d82e80fb6aa2b84fa8235ba6a973302319fa036f3adc49e25e5a4d1736d6295312d976b392f135134f85ca9fad 0x10004a4f4e5d9414e4acabdb08941c08a172f27a38a58ee9f2d5a81ddc0b8f06fdc2b4ef355891ed70ef7a6f02195c2 0x82d2622f630590f9d8025e171b0d35e97f541ca8f567a5f4a1b56e6f547ecd52ce6e130472dd730ee512727bde4ebc 0x84bf283e12ffd7cbb8cbfd3323f285bbe7a141e318ee6e26981482172181764f9b3b8ec94e6f73da0592555f1ab3ec;
  Twice 0x16e6acaeced877c858701e212044b98db51ee8ff394c85947edc822f2d773e676d0c04b9090a6346dd2d4a56782e15c (-0xaeacba9d0d1b1ca7e621b37a3f0394ab431f057170226ab7701ded4c1a6fb98822b2a091741379d976dfaf5ab6019b) 0x1660ada7f372919efd55a274e6d4d56dd9046155af64b5fb3bb807343c2c9f176ec74897035cc21ee1cb501ec8176b3 0x138122806a0b541df1ed81a1ce08cf708640b977995a884054509c486cb311e0cc5674203cc492adee05938b7bc2303 0x86c2e1087025e5b95156a8003723b8115da8a1e758aeb0995f30348f829255754f6f48c644334d08dcc683265b3c24 (-0x6596f8a7014a85be20540f821f06e00ec6e38cd943425c476ca8d7c27d215883080307b584bfbdd1590993d9f71708);
  Twice 0x13e55fda2885d96a6b9b5283b24d5198fae92ace8818c30c49fc83ba03e6792a7af45b7a84570a4b87f2bca28f71d64 (-0x2b67ad24a0edd69ef10b39a2537875180be12f4db7cdddafd1049090f52968930549518bfe8a7304fc06a5aadef5f5b) 0xa5e524e60dd74f3e36a69fe0c660aecd753129b92e4144d4aea9b4640665bd226175d21353b8b1bf1e9ff697f2ebec 0xeb8b6362a67b6629470b2eb57779ccdd24c2416905993946ac0bcc2767fab366e336bb53f4293c2209978e8961f5be 0x12a0dbb6bc9d974f39d2e3a494f6747316fc7bc4b5fa9b88ab84868225703150898229d7634bee989077c51ab62657d 0x8e2ca9ed7bea78a7a9c11e11a3ebafdcdbbadfbc79c11f7f1eb14ca7b665916a287374334612bb9838c76959aa1f1b;
  Twice 0x7eeb9a25cb3f746c37ff8c1f79109490650af1511a11b322aba52406ec8f10d333691617bbf73ec96d8562c0d20629 (-0x100cf54e3f73d7d9481e81f31256dc826eef2cebb1d37842799ed6e959c4d72f832b8e88dadeba27949d9a5f7706a6) 0x1870796c0601c831cbc19ef88b8df5fa28cbfbf80f26a94f862641d2ae8f924f89655c3f45a29a79a6a9a152c12ca17 0x25714311d181417f25bc2896fbe28e42847541ac5956132ef7d3b0490e6646c1bdd4b613d277c54927aced3f7150a2 0x12d53c8a609744e7472dcf5396814a832e2fed03e9110983df7d7b0f242b1151558c1217430f996e0808e7598880c39 (-0x426a95f5aa1ee46d6f8c91e7a0040f5fd38101315ce8db5e6d46d1e5808eb909bcb02d9c1ceaeb4270dd603b800899);
  Twice 0x16cdab65db5e6fe063523f28230921495a2bcaf469ac58e2722888d93fc2141f4c38fbb0c178942a77909b1a28fe262 (-0x22b20c5bef8d8023e5988c0a64993b574bd4ae108a4e74bf24b11b7776090bece66e375dd11394c1bee6c3c0ee0ea8f) 0x49ae47af91f8c333ca4d68cafc7653d3fcc65faeabf2a5c35b8a28502e34e2c383efc2c5d558c560c8959b8e37a109 0x1356a20905994fda8244ddd49d03e2c4ec5ad40afd9f4de7de59848067cebc5edf60a9b4a498b87d980d120d34ff84d 0xacff9bbfb02439c1f8c7eb7cedd48ed86c350a80990e9c23d46dad4f2dbeebe3f8b1662ab4da29695775282b103bf 0x10d20a790abf97a718a5a3c4c4a264f06c1c176b4a4b83c94099b26bb86c779c047692dc9e542bba7a2cc3697bd0364;
  Twice 0x1954e929e709d1a4955dbb3afabaad0d52fa0cc4fa2ee2c50482b92411dbfbba467dc51ff0e5c7c31fc43ce0c9f23da (-0x117bc71f71b1dfcb5e15123457b50d0a2ecad3af7ad253d4c2de619f506979cdc174c7fe9adff547e5bf042dbc5ba7) 0xfc5cc56c8fbb46984e02c016d73d7761efda38f1a348792ad1333ed6fa4f8aff2e99a3312def6b3b36c3ec27201234 0x17dd46996f060632d847054ae7f36da300b326e5ac709f367dd95697f5f2d26d957b7ae1e28e73e47f2adfeba42015e 0x18b0f88f7f18c697e15939cd0cf6c8862aa41765edbabf79ca6c3bf3c06d053904882fb04aa26bb176e27319ae0cd4c (-0xa854e1b2dc0aaef14bfac48eb4904708e5ea1619ab9db8df61a4110a714502e07956d37b17d6916e9c835468b010a9);
  Twice 0x82626da483c1e0d5c46049a1cb6305e185e85bba6f7d01957ff44c8a2a35166db0f913d958cb76695106f636e159d3 (-0xcca33aa0cadce2d5c039fadd39a773952190f4fc09d2f21e588ef5a1959ee041344ee5811fc3e17ea86706a5f8cc68) 0x6c77db038107d999fbeca12027382f10cffd76627d64d275ba14b3a9250b394044ec65f788991b3e7faad9aea6996 0x2783a4a5a74120d861e739628513d006df6d08df9bde8f921d16023a6e31abb4b0f8b7d9b45a34317a9b421f3fd5eb 0x652e6033509897d0e4dfea4ca7d8ac550e8811d3479a8ce054fa4c4ae112376f0c267af93f3c8fd5875d4c54914c0f 0x4a6d1ec0c17f2d0030b34d85faf780a5de74316f780172cf0d1e43daef50cd48f1bda26a9c200346e0215ccf44cedf;
  Twice 0x1f5fedc48b753d92be14e6a3303f89b78e3c9678226a85390059031a7aca8939259e8d75bdbbace1406a66af8adc5f 0xe6fddaa617419ee2d65da918cfa0da32f10bc9583801828efaf440f929953d2c1ac2c019b44c76b3d2b5a036f0f76 0xfbd795d076f6abc9c8ca8462b073155dbbbc841e09c9730d393f5662c53685c43977b99154882b7cbe98b470002a9c 0x249bc3fa5a08bf5bb8bb69184106ced68792d3725b271e813814f0e7ef06d6ab045d44702c44a87941e40904a6d79 0xee6c6d720a086489fc4ee58c54ba58d562f1ab84a5e70991e42425215da45494fe93b05af39056fa0eadf0f7384445 (-0x11df1579153741a6a4c47426e7dc58f1b058f9da64020c4a929f57ccb546abbafd40ae480eb60e7cde2ff637f9598e);
  Twice 0xa18494c66d739a0b8573ee017276045b86fbec71e8129957896a43cc11983039bd6461cbf0b0ad9a440e5ac012a17 (-0x1af12c70474016d5743e58138cc05e73509182bfca6f55f27ae540c0dd470cc74d1e884abfb54289747f1ef7239c4ca) 0xa81a54216041ee4d77c9a2cbb5dc5a534077b8911a2071b2a31af630c7f18ead13bfe5ef30f7b04ce10bf84a142138 0x3ca342ccc3b95a04b5d39c02685fdea4b410dff0af10e1b6e6cb995c77d3c9eaf9acf196fa78340b6055190517a1 0xd16196f7e8a8afe9a9cb07408ade2e964dbf909cd69fb03bc40eb1424ebe808189b9c08a9d642bd04936275ac4fe76 0x1f7011011fe01aa7b97533a78fd8164131849734e2dcd00720281cd25a2dfb4e0f470697df1125b7201b70925fd41;
  Twice 0x1895ae0305f10f3774ab017bdcce039f020a9f9ffe788b228f8c551774280edcda7e8bfd36780dcc4be32954ec4f7e (-0xad1e73d0b1f4d26979d18e3bf1a14344d7e69be80f4d14d5a6cc5e63121394662e135db6f420e3ffdd731b36a72498) 0x13a5b00d63fe8e782838f722bb184d4f16e21013315adfafe8bebfd4ea92cebe161945ed17ff0b9bbcabeb906bee436 0x167a47b267c8cc1e252c534dc0f01e34c8f2e92d155148cc8a746ce1b7e6d3a2e4bb5a3aee2d7dda781ffbe17db5e 0x46296a429d66011be78472e9fa588cf0edb04fd428523b830d79c615e3fcb6bf278472607726d4b2fd025a09c4385c (-0x85b7d291661cafe79ed0a34d203d5ec58bd14d4beb7b4fc7a4cdeb46d34981ee2ce0aa17203b080a597ac0ce991d6);
  Twice 0x352fadcf44f61814704d01d9405c2a8669c15c281565226ee24504f54c811eeddf8971bf74c374fdd7eb95cf85f9b0 (-0x29fb9b30baf90d73b71c5e00906d9c33a0114aeb909907e8ff35e059ab15f1f286821b19d9c5a0e8dc71e55bfc03bac) 0x39e2f94970e9e3ccaaad758d77046889cfef64e571b0d6619b07238dd2bb1716e7c5422789c72b5ddfbc85419b9384 0x69337c7ccb7865d3b28310c31c4807d56cc26c4763a31fe6c2c1cc3c1c640009cb774c10c8ab38c767cd0b54e7d10 0x4487f09d9b083f884fad446ef7ed95ec8ec5d4d0b6818466a6a5135906cbf05ac680430e7069a68ef77fbb4d7ccd99 0x1fb4a0d14896c925b614758a8cc701394c5a738dcafbabedab360bf5911cb6215517c8543285f84305737464fd966b;
  Twice 0x192da5c21676ef2e9ab81c79090568a28b469bf68182194f0f6e0820f1e273e7df790d0e3948f525d6e90c0435c66de 0x68f9abbe89a736d29d86c05c42b24045c1b67af7c263a6275d3ebe34d4aea0b0290789069059b25da8c194b7b7ed2c 0x11b3aabbf0c31844fa07d64180922b786d3efff507e6e7f55f18e93778bd5d865853250670afad0dce9c25ceef26fb9 0x179385909228d1c2ef6c219861e46e9d33d21c06b3e957bcf1c72c8154c721c6465e5ccb220943b3fc210cadabc11c3 0x908ff51de01016586b9ce0b8f51469a8504f335fdb4a86fa83a93ddf00ec9251fd4e894d357eee87375e275556a6f8 (-0xd3012023f380baf4c7995d2824fdf4901db4e4d0ffeab8aea3b403e7a1568ea148dc62ce035b897a3f9c9491ef8887);
  Twice 0x8e3a00b9a54b70052b45bf44dee47a5a23beae8f456f05297fdfa785be685e11bdcf98d0b396bc92fbbb901b4ea0f3 (-0x1cfca22f8c66c222f45c1c8716989e2e496849c13852fe93b03fa3edbcef0aa87c55ffd0044e547be508283d13ae043) 0x653797a44c99b017c6ef31711ff466125a35372bf2cb4f95b61f298e2bcd2cb2cceb7622b065a6d1fab13b3662585c 0x2f0494dba52a0c5334e2a3aa830d739f871e1608f4285b2a01cb1123df02ed3b34d474a8c182a686394b84a6fd6edb 0x17e28d18ac8e806c72ccb0c6d462038d4a0ff6d6e7d422e6ff25c69fb49a7aa863fdf3dacfbab6f241183f4abdeb8ae 0x3c2b9bfcbe783cb5b74a25bcca8c5902cebbb2ab0c02329023a33e13aa792a041bac540f555498272335ee2b80eda1;
  Twice 0xedfda8e483e03022ad01643b9a46a7c9b0160af5cd486a64cb9230ad65389977718c3285b85eeea4e9d21c8102fc55 0x15f5cfcb3544ffe802c275edcfd266e82fd93e66b353b5ab96f3a585373522918e3050f11eefcace17c961f1d67105c 0xb547d2f65fee460f37fd2e8c945d154bf54ca407f4e8a8d9d48fc5712e9d7b997ed63f8381dd9afbd9a24441e970d 0x83a681f4cb0006f14c634a02bc2a2a422c3a30b37c62b4b45f7a2646e4cfb719da2b35d2323fbe7db6ac53e3282c74 0xa7fd968d18ec4747e08d9dbdb43b23185c93e2b078740dd3b239131cff03e7948f25a8175e2662a2a1e529ff050635 0x31b92680ff930fd4012c661f1166234f1267fd067da2b4d6ae3d39918867fbd913668ceac26cdf5772d38ec9833458;
  Twice 0xd9cd7bce8d48ba06817f2c9489bfbc12f0b5dac64e0bd2f11aeff60e7a440875b102a16d9ccf7032ad074a84be7fc0 0xa931fdc885ba659cb7a26638d9fdb0e52116c2fc5ad5c73e7ebfabfd1ffa9ba193f56fd60313fe8526b5d969d8e185 0x8f0f9ffb3e64c7e942d69bae907525124d5066779c8c6304cf82086c1367448805db43941721fffef6abb89d85a10 0x6e43379c4314b33f8412c073b9fa5cb00b0601c38b5453102dff138ad16dbbe833eb87ac03ad9965783d7bceaa87d6 0x1131e6cd784188af0b75751ce901771270608ed50db817434808fe56b25eefc95e71a11d3794f4fedace14401e7a6fc 0x13593fcfb457d875505fe3283d9403a6b7f0f8d8f880bb0c73afcd3dd80ae0d95fc49fecf25ebd26e803c43c8938f;
  Twice 0x23fd0bcfa3fd618bcdb1ab59a734261553126ba7b199f3052945bef8949c9282df17aa14ffc02dd31e6bdf395db3b5 0x2d78452f1debb1338fc5ee38bbe2e2eed9d8cab965a120496c02568c4a462154528be9b0bd9d7c36f172b08020c558 0xce91cad04355e6c68b8f3ba3e01a0caf3f2c93f51fad65f90bc5540c9a67432ba440be7e415995b7286bde60d8c2f 0x302ab6abba5d8864616d277b35abbe7989f0e36437ccda623465406fb4fe8d4b72be9366cf2a86dde6373afea5daa 0x18ad3f58ac1c4ef211eb4e622a355e7dcf322283e3881b041f7942ea5fc87618144f261741409b5ddf94fdbea92e226 (-0x54ffe1febbecea50c534ecc5435e7b5cabc87a9ead6229bf608ab2d5ad7b1cebdcad6be50d86ac4bdac16c65a60d);
  Twice 0x41c5a043789ea52a86fbaef1b1ffd16e3e16263a686f4ade0542e8c166a5f5fa330ce307164714fa025477c6b884e6 0x778edd0a0f4554edda897468e7ce029cc3b56799994fa0cbd2e364cf24c5876dd3c4df3cd3471e1ede8356df293a65 0xd033d4840de2ceb4361b9ab4d5237c08ae46cb57b6454dd30353ae0c6975c4feb551389c65680b1514d5a0ab720818 0xa0e169fca6fa32c7ec5bdb6a8cafe3d08254639e9832d07b12725f325b832905ef04aea4f599772900d4aa010de2e 0x193fd3f645f5d1cb441373a8417a55f186be60fdce89aa90b32d2c45d5ea4f0daa7e4cfef2e9a014ee9ade7c2129e08 (-0x1ddb0ce0d5e60c626ea6ec29f63b1ae9b71d90a3720d514990d3c51505e54ad3707ceb39044ddeef7970a71a48f784);
  Twice 0x125bdf4b619d561e03ed78b86bef87d240c427d2e60222f73fcae4e8a786d5a6db920b7f78a072115a21ab9343641a (-0x10bca92cb094da73b939b0f4aac116535c92ea7335f3349c19ef1556155dbe7ca4fd2e93742b8fd72203e33f1762d20) 0x75c91adab527e738f7867ae64e9349a5fb5ef07d12f7a3e0582b2ed1413bc3049bcf490c3b8a97bd67cb8ffb33c69b 0xc88e1ef50a00ed213132182f26744018c8855006c6693e7926459867e61e1c91e3cc7572ab836698ae9e16a87bd9 0x7a562aa49469ee10fdd10183f43d400cd1c9c3fc1c3d5b7097e28d883e493a4b54daa315dbadf0c86faf6fd68f95fa 0x3dbba5afd6557f44b02003e2ee00a53f3088a4243389757124568e7c78bbf9640a4579b14ccc0d82ee89789fc46b0].
