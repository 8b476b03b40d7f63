(** The multiple x g of the generator g of G2, x the parameter of the curve, with its certificate. *)
From Verif Require Import Base PointCert2.

(** a twelfth root of unity modulo p *)
Definition KAPPA : Z := 0x9a9975399c019633c1e30682567f915c8a45e0f94ebc8ec681bf34a3aa559db57668e558eb0188e938a9d1104f2031.
Definition gen2_x : z2 := (0x18480be71c785fec89630a2a3841d01c565f071203e50317ea501f557db6b9b71889f52bb53540274e3e48f7c005196, 0xea6040e700403170dc5a51b1b140d5532777ee6651cecbe7223ece0799c9de5cf89984bff76fe6b26bfefa6ea16afe).
Definition gen2_y : z2 := (0x690d665d446f7bd960736bcbb2efb4de03ed7274b49a58e458c282f832d204f2cf88886d8c7c2ef094094409fd4ddf, 0xf8169fd28355189e549da3151a70aa61ef11ac3d591bf12463b01acee304c24279b83f5e52270bd9a1cdd185eb8f93).
Definition gen2_cert : list step2 := [
  Twice2 (0xc3b9f1c161e272e82ab62297847b583252e7fcf636d3da7ae377d906beb9f7a09bdcab449e9c532313a867b5e65d65, 0x16e8c74fb56757aa909b7d6a14f58e885613bd64a5da0985cbb6f507b982b43ffd4e6c4d25530f9ad1c8f87a1ccf652) (-0x48359a19f54922210604cc80eea74a74318ffea96c3db7ee5c710966e51f1c26d8082325fedfd97cdeafe29bb6fde56, -0x36123347b3b91b79db422e8a68caedb8b4bee57ff7af3a6d37bf946b1ae99f35200ddf0b0df54a0bf5d07d912efca1e) (0x16d31b9f625914e7717654ae659d1c0cfe58c83f1579a83b1f0717e9e6a41a053e6e88f7f56ec0bc2fd5b6d61713d79, 0x13314397e45ef715136c17ec005c87a36157abeb1f7a56d3543b7fc8e581da2d4ac27a0ceddfa0b1f3f55a777e94d5c) (-0x5c06e831eb56ef0b46f6e0b13bcb18890c16bc6ecf277bcfa4a74c9f45c24284bcbd9e0c159ddb99bc617f4c65bd220, 0x14d834c7aa62814a2b84e1c1dccfffa608284080fd27a7d2edecb95040179143ad5e75e48db026728bddf8ed0ddcd5c) (0x13106bc403f57a46a1a948f33846771dcd578b8632fbd0470e947ce81c1dcd1fcba62e57360c6859b8c6f901a2f4a2a, 0xe3e0ae82a18e0e5aee91c83d30519de4d2dbfa9147c43da20d55f1dcca734e600ceb36b99def794d69de8542315202) (0x14050782c298ad51b7952f7b7531a5e27dd3df2fb95506d6523874e6d9935d906cc705af84ca1450bdecb83a6eb0ef4, -0xd37717bf72071f1a747f278125fdb67d2bb5a8f31c8d786e76481eb6465ff052959f2bb0b2b734677420721e50761);
  Twice2 (0x60d9df8fc027bbcd400b041abd825117a3173403e4a8c53d40848d7d3cc17f99e851790abc2d5cd04b0f81b95d36e4, 0x14c74c6d306d5d992d8cf77e1a35c612e65113dcfe2bcae2fd8789ecdee36288c02d3959501bf56d0bf6912be65d7b4) (0x2de274b8d1d609084c41f4289002b433a8fb1085c836882dd322fab569a513ebde21fda6e32e4fe36351d73b490d71d, -0x3ddf3bf3b783f407c156c89012e5c1443ff93d02afbe76f53511e21eb0023eb3cf0fdd2490dabae973ea58d57c52848) (0xa8d157f88994f771b105bb4e85a61355c3241adaafd455715403bf41b7691e0f0c03be5676b93adbcc61dda146a2cb, 0x14270fd386e4a910a4fc57db97339a8e89ca367212dac216b0f522d2eb23be2215e30adcfd792eb83e5050cf9d6e9af) (-0x4eeb75272577d5c538a66b2ab1f011372657093f8415d64ad16931abf8bae12fed08835e1af83df9d660db96fa3537d, 0x95aeac2bbfa6ab95a4dc41308ab3acc427e1f7e74080a53e79e3eec2f525fec8c54bc52d6bd53b3d20a4831386a439) (0x1153046065c7d956b2e4906aa5eb3ca5602b1c2ff31e55291e63d71556b1c3aac03647f16a64e0677259a688d8345c5, 0x1053fa83c870709258b24bf18f7e3820d9e134b595afa6af0e403472070c9b69db4babe47f63bca3e034465841f33a1) (0x67903a491498a89c0f7dab26231c6f00c7c322c6771fd02b499c5f44e6afc489b9ba94a1c6674745cba7005a9b03d5, 0x944a64d580abde3589c0c530100e75bf1c9b7ad3ea18b762cb9f695ac56c630719346bdd6b11f14749d277ae72a2c9);
  Twice2 (0x12fc03b17100706ca56751786951b96deeb710c6b0db5bf24b32461da1f3870758d40b37aa1e33012a4d8f81fab8884, 0x107d783509bea71273e7056c9f703dee3ab82907ca44a33af5d7b127df031ec3da8ae09991a74c76d1aef422a2187b7) (0x8a76d0b4d44289b98121d363fb1a25e0a106bae69bcbd63642ae0d2bab60a548dd888dd82f824cb0b99a4af9e96d9c6, -0x3244383bced89926b7d0b4e3c8684d9f50b8de13a2603cf2f54401693c7c59991c67bc5f5863cf02d1d6efa8b872f0) (0x12f5e069064c44f6bbb7fcf49b8f1f7bd3fc26228250e50a9358700418a9f2f6d5edc7ef26e8f5ad2547179ca480654, 0xe84a4d39433ddf62fc22c00f5638ba238757208c08925f7f820a8b2e8a4feb1265fab17dfd0680fad4852a48136431) (-0x2529076266afeb5440645c74adb2127a2f41f8ca7b78f5e381435e58bc05274a3aa19abfdb18c3e55bf2ddf01535fef, 0x1748ea412fd541faa8bfe0e79df9d26b96620a3c58fa0a39bcecc400f405b2dc584a6aa89e99d118443e3f4777f2d29) (0x147b999363dd973ef30ea09490d512c2cfd38af634198cad2da7be80f547caa51a025a57e5bc55aba5072523da80286, 0x2beb4a3f2fde9ba09104e96264bf931293f16650c5cad6f74d7ed858dc6bf797d15f3e35cbeb9e784ae913b5b219d1) (-0x1736d0fcb08a31f4514f97f0ba72fc823ef3db190caa522378eb70af05fb21cc722e0ef36a435bdb38ce9a60d4dbe49, -0x12dd7b457ab16ad6c9535e449adb4b028e21982e4e2b29016862402a3c956bd5bd88f0b925e325d09a97669f0fee69);
  Twice2 (0x6bf919749a2326395f53c312c1a67658ba80ad292460074f2e119e3993bdd2dd2dd7479876751c22f912728bd1262d, 0x102d62a4428c7125882d39f1496db049474e53a8225323431e62b88e71fd8dcae2183605f6ddb26dcc5155dbf0c5cd7) (0x473cfc36f399def05812f4082f286581f1a3f0e3f9644d441c137835f3de90e3e4ae779526e8a518854735f312963d5, -0x236640addf88b68f9a6a16ed132416dce68600a089a88354535ec6f5f8472f6891797018cca259fbdb444394ed677ea) (0x8effe15bb484c716ebd3e58b10d96a40351ce1386db2d07371c3e17b79f45a2957f2ba316ddfbf2180494602e222f2, 0x13859ab95f4a14caf37ed638410ce11d45cdc8fb9e14bbaf4052596b42218e1aba8bfa427f932af88ccfb76f2c533f3) (-0x2ef848b836b34ce16537032833074c6540e38657f8049ffdf21f90cdd159126b35c4c9b03704fc1b2fa7087a566fa86, 0x81eb4432964c79e34e13c3267a73f01c215be6bf4294e1e1f604f7746d7c6c3e4728b198247138708adc5e640a7b41) (0xc8e82def66465b27d678352a0b8cf4d2570e9a8c169c7f7ff1c9ab718862cdf97f1891aef725cea218cb79ff7de8ba, 0x6e6e163fbd111cbb29722fa4fcd425af241addc28220cf3de8ee0337d46d95556f2344d47c80b2fca05adf8fefce9b) (0x1191416412f65e413fc8b4fcace41b17afa2076b069b35f42a84925deada476e352f5e13e8eab325de490ef79f99ca0, 0x4c639e4443f4ca7dbd1a9de06fe953a5e4f5959441eded3cebcebe840de0f829471bc0f262d28a1867e10b3bc4f5c8);
  Twice2 (0x19e693b05d1f260b7d58f2e2c3b605cf9d98bc607ee0bf22d80e15c17d6ca22474ddfcb2a45c69216be3d732890b0dc, 0x10e18af89947b264a0942577eab3db9f0d5b48e04ed992ea11aff5ec51816bb52f3d2ebad3de3481d194c4e22a5a24f) (0xb88b8b3a352caabe31f8a969a8296d387c8492bfbe6f6a1cf88dbbcd1c25068972dcc863fa3886f58634f9ebb089cf9, -0x9deac8bf486c30d66bee4157253775e89745ef6bd508c71b0f2f3ea8e8595ce169bac34cc2f56fb1583de63a670510) (0x11cf999d9e3baa60a66c68b4ddd3e0daa8c18eac38a538cb936054d2986814f66ec2fbd579041f36a71ffc32482c441, 0x7552f8a6c70b31e068d88374a8ba1b75aba13b9e324fc8569c23a97e5b5250b2a74efa4a8667c50ba2923a17ef65eb) (-0x1c0a7bd7b5c63d9215e6c92baefdf2f0911d8ccb73e084da8107ee464c3011c384ad1f5ac6108f22b3eefb5084e32fa, 0x2085566d622047cecb712a27e00217ab4f2e2dd5765d89c0e1d1252cf9c0b2b413d08b8ff085046892102d09741c9f7) (0x814b87a592f0054fa6f293db2439b13171d94e758adda863a61702b22df78e2554754cde7638a26a757295e5e2d2c4, 0xf75582d5ace6be7aeeb116787666a4d053b05654f22075f4a109e2ab54164b6e45e526f854c356d1025dca4d5ff721) (-0x2ecf129cad354866bf7093e0f6663c0aaff4924893ee259899d2f496ce1bef791d74a6c257b438229cdc917bc53e1ba, 0x62b96d5cf35f1106c5e4097da95ab9004d538a41b09ac4887ff4634197c1f6b7dbec81bf3586a032032836d80203c3);
  Plus2 (0x123f2bc6797533b6306986eb5836200f7bb19629444056ccb95243d6b6d9fbed079833a5c517c74fa7c21b1c6eff61b, 0x14a38aafb43c5751c337987764647cd77c0deffe58801f50fc980d39908589bb34bf051686f41e4ca63a9a30b6bd29e) (-0x17af68aae7dfc4edbcee4542af20a246baad24142aae9f4a447ecbada1dab9e2de6687208c2913e6a09eb80f5927bc6, 0x9ee4a35da54f4b2705c675d72f80cd1f5ea13cbf8fd897f2f6d89e129d49b3e409f64650d98f67fa86976222cc2705) (0x84bd17392534fd76c46c21ff6eb8141ce8cded8ce750cd5ea0f7021d8ee86296008a5dfac48f5ecd2674bf53669395, 0xe4bcd0fd4581fd254bdd8f154f8c59fb1d2555293a51f9175f6314c264cc940bf6cafc8483a0bf0db1abb8b7690d8d) (-0x42d31c5d11ec97f0c4bf01af1c97d5ab93754fead50725a2149c851e15b7d82513a561fb20699740f200db153b1c227, 0x1c02b7b72036d9e7cbe5f6d4491615a2a0fa4c13050e8e9a39d6dac9c6ab0fbfab9d7d82f627ac765c47d060e9036de) (0x998b545fbc46545a95e6d7f27e194765260c228e5936d0ee98253e858cb0f69de13a21d1dec4ef63594c767d42df5f, 0x135a9a18821261d650a294a49a7ab2545d51cc3f2037886c3e90a9fa198279d51dc68b675b52eaf4e233d90ebe9899e) (0x212e21d5fb70c21c4fa17442c497a1aa160f926042dc4c68b669902446e17e46ba4f31c370ccc80e12d870676b479ed, 0x293eb90d9924722a0ea9356d89a683fcd0629a3f19a274aa0bd95c46c007d721905887269689255fc318162cc54753);
  Twice2 (0x5bae99d05a2713445732ad71cd5c870ccece9e55cfbd5bc3316946b992916e511f7d38f9a4ac83ff2cba5c5ea12827, 0xe2dd6f3e904dc350a86e836a34d14675d520c7c970e07837862ca3372d76a9c6c6affe6b8ca51919f691cc9363800f) (0x85ddbcb97feedb4106f54befdb30438902f1a40058cf2a4b6a1f986669c40e1fab204fed77c8f2bd47d8f05202191a, -0x81866832ca318b5d1e719e20c32a09b014aab0c893cee8ad841bb01a1cae9f571bd6bdce6c6aeccb0d629db90ca120) (0x162e961a01c686ab2fa8adab04013b702d837fe9dcee1c7eb5393c38c3012188b797eb81e81e96990c512b08d77dce2, 0x11b3ee430ca1991f2903cbf6a6679b436f0465ad088db1a55198535115876586b25ccc667f995e87e0a7147857c5979) (-0x2429b8eae1cab68d782fc869d983a27d2d03675d669c7185b29919a417c37228e51f1b0cb48960f57483d72a537d280, 0x60b0bea170a5f60461c8f7ab19d16bf7db22ffe0ba8da0e725aca5436f9d7366d41aa58fb929defe9b9da522e53fff) (0x19e4a043dd875c6ec05c33101e2c288e996ef1dcb575ac592aa7979fafe2e11073b4decafcd71e42cda887616eda245, 0x1265c5347a49ae44e0c68ae49131876525ab5eccf55c8786f8e5d2e6303ad6f7ed9fe97d867f2a52cb9c9eebec6d51b) (0x605e79ef574a643aaa450486d7f9937ad361bab3d4c6ea9d7de981ec78a4de2efc6a01285861df013b216c7f1589c5, -0x80c548ed59786afd8b59fd31ac7a946dc60de2944d563081382fdd9d93d53b584ed1dd510d94faffaf2795165a9b30);
  Twice2 (0x7825873bb04d1721134e7e74803068f55977fe720cc08136de2c0e88ae15df067086c21319f4f17b56078d64939dd0, 0x189c1e005da91cec2e57357e501f14d10d825ee7db84e2762e874243d7c36fed53fa20fa49e94953e2d57a4bd82acdb) (-0x21fda937bb0e378e747ed46c8c06c53251b0f850b7ae7f7671f9573bb9736b34df23fc64cb5b769535bbfb6ba297187, -0x1df3705c1b13b7a208945ea69a20291731d573af87320cd212888e60aec461264762a1f20a75d0ff0fce600af4810fe) (0x169e911932634e5f2cc90fdb27227f2d0eb35edcd2cf603263cd3e754b8702bc9e2dad56fbd7b08426f18e30c8c65dd, 0xeca7a79f59b4b5966af6a93ad086e08680210bd316264bda2f5f174770d286ac3a954ec771509037b37a06a4326970) (-0x6e8572b7a4a754b18c2a90f0f82834ffacbe893c19a654490bbf284af85c79dbddde40986683dddb7fe895fef02675e, 0xdbec7018ed648b862cf9ed0381caad34ee915df162b556d4f04054bbf27a4bb11fec9f71661c205d21bdec28b4657e) (0xd42941163a68750fd7274ff25b332dd28b7545d8f16e332e56058b4cd8f483e05299253976f19f287b2dd9641ccc10, 0x188737dae1596a8d5705fcf7a49e1f38cadb1f1d807e5eb3693f395d08c724c9f5136443d38832261cd2c19fd01171) (-0xd7293011791adbd631bb96946eef540cb3bf938ce87d463e5c815e32bc226bb01515595d64250032ecaccabd569bc4, 0x69b071a5eef511cc7f8a5872926ff61c815b74052abae820a81b767b1688d2f9febdf82f5443ab77e8b6efdccd30b);
  Plus2 (0x6a2af32620adf742ab19b9b62e64d54a2da87dfdb6f1cb4efcfb4024590de6d814d818fc24cd04a2446745177dc710, 0x129fa355df30f925438d7acbeb81e2155ad67bad5b7c7af9aa1918e39deb10c4f940f1aed45a10fa3930efd079b6ef) (0x70e356513f84aeef40c971b5084a50a9a5c07abc22a68e5ffa50993fe31492d80a34a474ffd62a0627f8a0da702e7, 0x96b8eb31d5f5bc1487e5e66a2135185360e4d6bfb2932c44e6776d989d18b99ed632996334da0f5cd166c09f9475) (0x14e53a7ffe6e864395175f9abd3627dca0d3fa57d10947ee79b779c0f55ffca370ecb2940c69182354e1bda35bb242b, 0xb36fcd6e198f379e4c9efb84b840dd1fe9cfd0eb2cb8689de1c61f674c50a8e642513199b544d53642293a7daef5e5) (0x162b14548051e97ca19ee8ab41bb8cf7a29846cf8f3f9ca43c221e4fa0e3e0f26d565f91e73d9c0e7721ec0ee085bd, 0x93107f9999d6b6d9ea1c7de4df2957cc55c3c445be9a0cd2026ef5bf8807f6601c1a4d1650dbc46b7f66d5081a58d) (0x45d56fa0d3ba2e9cd18753aa71d87ef72c7e6aff2f432a9db0614f497d22d84ff90718d5f831c4458d92704be7b598, 0x6db1e669aaf271ba7ec8c143facb96eb05e6e44c09becaed7fe5fcecf9b04e6ca1fc9e1ce645abcf39b3e50ae823c8) (-0x593cf544571b0925db4af0bb8cb831ded23c037cabce50809b4c4899740b4915c7ea2c273a75efdffda7652c87c61, 0xf505716932b584720b7fc600f270629fd4ebda3bcdcec289836a6b5ade77dab821ddca7ac592feedcee83d361f1a5);
  Twice2 (0x13a62a1475e2cbbdeeebc81c115409a678a7bcd6a1c7fa836781e4ab4208c6919042f2671b741dc53ac13852974d67f, 0x11e908395c0ef7a3a6e756de75e9131bcbf8a63742fc04e1280fb769df9109d7e4d5120e2fb404428299bc48b9c80c3) (-0x11d6c9e77b6ae604c2c65a03b2ce2fc9875a3e66ea89a6d9c881a3121d2bd12c0cb2b128812b550a0b795e0842ccf94, -0x2474991bebecfcfcac070e76a5384e26a99adc920f893ea6e889d439e7d632e4c7a2c06013542435894b0d7503a82ca) (0x182fd9235ed33333430eadf04d70b47a4b7471af5acbd24ab9acd2b9ae64ed87597733f1ca7d0c0416a6cf7a1b9f6e6, 0x50707d3bcbba8a5f4dadaf0b8e700b496b57c8cb4d36b298c20b5cafb40b6736628a84d78b125e62c3654818ede464) (-0x2d4a28d24d390e24a176d126c5adad8bf441346ec1d121c9f4079ac87a6d860887fc5fdf997b09b36d1692afa7992e8, 0x1a2cf2c973aef54492ea021ad793f7f4f43fced64305fdbf9b15d7b343f2c7ac886e64a710e42c0deadd2603ef9f54c) (0xba0388fa4c4195a642936f4b406f733fbdd2c48d1578f0486800b11421233f12aed753d6b4f56369c7530c3f87384d, 0x13f9f428c3dc78c17be00669b6bff8014d27316ece5da1069af2fc2ebdf4bb222d223eae3111b79a7bccc215553a81f) (-0x1702eb8e5c7b34de8451ff172b876f1436d565e73292ee6b28a90f2f81e730e1e8646d7809899da0f18066585ddf4f9, 0x25436df4093014dd9a5caba4838f00d71ca1da7ef2c1f72d13ce0f26e15f7d77cf1033269ae873e0ee1878f835b4a7);
  Twice2 (0x90290ab6b5a153e54fae4e1c4d9baeb9b1aad04f2af5a70206dc5467258072ca40adce06be3fe49e08864ba998eb83, 0x19584f811fe918a0eca024855804667b43a45035dca774f1a155708274e23ee822761d621e722e6af94165ef6d5395) (-0x3725535a8dfb281332b7b8cdd4417d45d8279745dd42f8e5819601439dd473238737ed6366dae22dda595dc24b0639c, -0xc604c04c5a19608d4ef8b6624701b4677f86a1f761c9534ae9dbe2dde787021ab1302370b167ed859023dcc63949b4) (0x992ccbce6275323267cdb4895006e31f841458ee594d98405f7aadf3ba9c32884ed01802b549b7c253e8390900dbce, 0x1c3e3cf1e8aad72e1354ce52196d1ff42bb00ae56e1adf23aa9364d1fe9e93db21657c560694514f896bf0236ab5dc) (0x28d6f5c0ceb2fc50c7115b54fe00dcdbdfaa975cbf4b18e7b65b6453f7f9047590de7365da83daefab7b48b6e933d2, 0x10fc320bde00b3145195d6296bb8739a98eb1730e8ef5fc2a9a4d7b90ebad4043bdd6a2c4b0fc5a1effce1670099da) (0x13fed89c7f2a56fe35aa2f18410c9058c6db0d7ff5876e1f6f8dae19ce6ab4f466064dd9203c760c748e02556e1e463, 0xc754d3b6097a1e21116b2dee889fd662b1dcbfb25b0ac200710689c477b0263fe130cbfe5312ceaa7826c9a7fc6367) (0x3ef8de4ba25fe4c18e8d8d8a3af9706fbb772e3ae75efdcf1340fd6a6bb1125a48eea3a620db43af60609f5fb5e6d0, 0x1f439c24e69adaac2003df9bc86ec37722712e796708151da3c1a7e8568763282fb72c17c46986c2bac2f15205290a);
  Twice2 (0x4a22e6e4f7c018489fcdb7761ec376cf1928a2e60b4f3c5866ca0ada01f19b6821e2305a48f01208263f29b2ce4297, 0x10d5656e65f05ff84f342d85cf15c3c2b31c39b3f47d29c41558a71d5a965d3ed58c91de77f06d3e54dc85add9018a7) (-0x4f96b0c6b148222fdb2eb9bb4010564d80c274989afe153663a4176df1c842ed913725d4687ce4db0ebbc254af05a7c, 0x198ef9c8cdfc5b311b5d514d60a2817eb687e705eb06f7e790173b1bcaab45ebcd5d9405a53e24ab57ba383f703a67c) (0x6844b3c0283515939aea69430c22d862e0bf179d3b372a7e10853313186c84e36a84271ec4574978304b5c38bd3bdd, 0xe5f978b1aa787ce6390b3ab3ad1d5d5bfed9e333dec5eaf161211b5856a133f902dae2a903cee3e7a1b7e743f926af) (-0x33e4bf8d0a34d9e76f9c9eef009803961eae98f094eb2d65664adef7aa4751d19c18203bd35d432d553201f77a76f1d, 0x5cd2e351cf5a88e021a2d1ae9db18ae6c43ab1f6b0d6c2800ba7f52467afa1076ae3627a3f5ac697c773560aa89e9b) (0x1aaf5d64879a75518a44c11150a1e045c40dc78cd371f3b5e3f7552676c53c86961aa6abbe7e039ffa01c378ccc2ec7, 0x2d7d050c1274dde023b680376a63ca204aaee6db4872f0baf84d67df523ef949539c1193659d10f9015d3e532e38aa) (0x27fe1a18f65d2b3c28ba48c28d4d10bf30eab8b33369a50408116fdd18b489a7345812f637a1d0a50820ea0b34c4e36, -0x425183aee160ed7f8c85f28e6965c9811f6dd70e8bc2a23e7a2df89df00b92b32e90a7e8ab5991beef3a43063a04f);
  Twice2 (0xb23f5d553bf3743a4bcee92d8767784a5a19cfb8ce40a8eb4f56e127a1d767555985b31ed7adb5a4e4ffce59fa3a79, 0x74dd6847a15b1ed9ce07820cb5b93d201d0bf075a526a3a78090e398ebb2af6e0a0defdde3656c12d25892a3632af6) (0x7ce60ea7f8514e766b4c16df2871bdc671bae01eb3a9654240f66edcdb6dbc1194257be13a3437c716d3d066382729a, -0x40c4700bdc32768d03f4a7fff397202dd907f3c9314050d5b9236d98c96430c09032fd0e672d0daa779c580422914a) (0x17e04148513ea956af88350b4a4e1e7fa43e080ede1532a22b3dcd360fcf28a7ef4dca07bc7f58c10ae83cca690ad27, 0x57e03fd7d57b2debd9bfe686cd0459095656aba84163ef2d9a9fb2019fb19c07797b99f3ea6bd908ac7a9462a64fd2) (-0x54df8cdc5886de0e7d8d6dca13588dce174ca408012464b5a53fd289bef1dbc6a736e87d26c1e6a7f4cf204fbc4da4, 0x60d626340b669649d19f18290ebd83c98243eba34c9616e35125629e0706ef71d35d5dbbd3b306d0068bbb6d15775c) (0x15749f115035f217c4637ec7598ddbd0af5e29ab70b28917c9728adeae668014b07c13d4d521682fe40fbfa93989ddb, 0x19125f6eb937aec14b3d9fd15f8edd5377c355f9378ef1c84c63046ccccb139bd3844e600957ab8d2e409fb41df941f) (-0x134117458acfb5acc41307522af0db132d5d3bef28537f6d0ef34099d81d49871fd0810ada256181576f518e5dcc072, -0x1092b9acff03e0b35a1b9644626455925bdc143c3ec9f5b834bd7a938366ae8c0f72642c85f3caffea97bacec92d70);
  Twice2 (0x10c6dc681697d5fd0069c932932cdd93eb1105a00bc40c4db67228a96cf4827cb8fe9985026f768e0c34ff297d2ad9f, 0x12b827b7ccb0bbe8cec754a548dd770984455885722a3d971f192b57c156801c87f65349a39719bcb1254597312d333) (-0xc28ab77ad979b08c959c3064d6036eb9dfdf83039c85a4180052f55db3537835db96132e3b8d33f46dbd65408527b8f, 0x1fe5f2ed77188abcfe31b608a91ea92deebbdbde93a47b6219db3d5d9f366f4b938ceb7f65664346fd7b073fe2f59d0) (0x19781f7508eda074fb35a568aec6c889404d6359c7e0407901982e947f350836732915e20f9415301703bfb2e278eac, 0x15a03494d0a5611413f1aec75eb22915cadc8c270b985d23d1116736ad0d9f95a2dcff9e4f9241ebc169e3fe9852a07) (-0x36b101e4c02adcc5422f890afdb81de6b9d39fea48ce6538c55b2906c66024887b332aa68da4d78900b59be9bba2d06, 0x175bde8a8eecb397c7ed6d9567fb5a84e4e8e1f41b9bf2a93740823021bce7428671ca4dfa80f8ed8be9fb05daf7daf) (0x1a7baf9f0c059267af5ad2d6bb6629bd304f9a8c048dcb14eb19000caba895578eebd34d8275761d00d8e336537b48a, 0x8a265fc2282da82643d69d4d246bc6e72ffe2c16ca0d3b946716efd0c5a94eb4767abff3b87a8c68da2fca2019c404) (0x372a00d234da94c127ea201ab7addc30129d4920aad49daaeb3992ed366baf47e40213b92b38011cc428d08e6d680cb, -0xb2cdcee39b0504dddced232923c0aa933825aa09ce8d6afeda74f87a490e7418440a295f8deee7cef7a83efb9c3c8d);
  Plus2 (0x6323b0cc114518b9a6491b1f78b20cf63d05a32ec3cf9d373df0812b795bda99b6e159463f3e5027316bbe76978ad1, 0x117bbc228ae05da5e2795b40bbe29acab6c254395632bdb66bd526524206db8ee53f8eb9c165305b824b34f37ab0976) (0x1668d20d2b3c80c28ab4a0f66b196e8d1eb96b8c473643218ec666dfdaf7e8981adda00b88ab97a53fcbbd089cf8773, -0x2614f6eb0456c1aa8f68631d9135888b1b6f9aca4474161e2c3b52b4f2d21a97413dfa339d9f3cba23db1859f88a0c) (0x1181f6ae70f0d26223f8913d9a3ff5f87d469209cb958799550cac98882c002cffc41e639d9961732c4bfb91214b1bb, 0xffdcb28da8737e02a8d17948c3a0e07b5e22a8c33caceddcc1182874322ceef27173b1713a815ae897329b0e706bb5) (-0x37690fbfce53f29fd1fc6b0ea4f0689f03e91ddc71e154afd3871fe5a1e97a2df1c80edda05461ca79b062dba5c1f50, 0x80ebae8cf0475fbf6825e8908fe08017be64b8def17d2b22fa94f926159d36c680ac6c167842c95adae72dd615a9f2) (0x1c36d22a06bc238bfca9a55607e71887bf9412e373c20ca16e2ab8a50a08b4a3c1d13356f1624a577390f381f13bb9, 0x1639e2c0b18d1511cc702c77b66cadd20e27287de7978fa074db07dee684589fd3099b6b1175b441a6c9447758adf29) (-0x107b9bbab98420075d305836a62f1a198aef3708b322a8b435860497c3e0bc4846a4f0dbd6c392c015cf4e9b1a2b07e, 0x679971e83e78fa6ed50ad358302f21adcd313e7cea0017cd66d02a82803c29e9d4b37b67957f919f34245679b241db);
  Twice2 (0xf3260feda1140d59151aae80ae1450a6d54b237334626d859885486367e056599e56d211bc82156d9f43b9bbb39b52, 0x86207914fc86d66dc5c2a9838558f02b949c39602cecfd0f9cc34ece45b9a5e4442fe2a1a77795821d8daca2f5eef9) (0x29286dc623b19ed3588ed2c781a45be40e2cc2e515fb4ff151e70d1da7c7d324cc264477988c1456254d2eb3f483d86, -0x2440013b7ff7bc81774fdcef3bf0f83a0b2522b9b27da70f80797bb03b30062dbca6acec5cda0e13803e799496c2724) (0x196d806ebc914093fcee1a40b5cb7949d316689c1cd0f7773c3836674947f1f7111a4894dd3911de88bd4ca1e8cda6d, 0x196af706150cd1e7c60018a978fe0cdc79691f92db66584aa205e3487e325672686e57058299ff0c37f52b11da472ee) (-0x47a82a2182311c942026b78d5e2c0470df41bd9a7d329851f2b33b90570de34ef26ba9e76f657ddf7afd53fe337e94, 0x979b6617286e40976a75bf199805783c807b5735abae2687e8082afb3d99b377262157d61f3c00176600f4f09f532c) (0x86f97137d0013b5bdeeb3d2c6ad7aa2a8a87d36a30e947adac483f05378bb4d304f77ab80809f5b9db593d0227c8e7, 0x156c9e60b99311eae783a3dec4f07b6157fc0929e413b7994396646bf7f610e04402eaddbdb579a5268528632dce439) (0xa37bc8a43e4601f9a23885b16e49c84f966fa82029a881191c6cade9b772b85d112fe4d696f0ebbc4df8acf5ab4291, -0x7cbef8ebac8c9fd0f54c2510c1a4e88e0ba48a898086e24fcc581908d2e21b1cc140a766b4d66d8bc18070245ba7c6);
  Twice2 (0x141f7f1c966a31dcad3c552dec834dfd711308c334ae82fa1671042ba8803511c804d4b989528f58266762f5ff373dc, 0x39e66175f2d22037c3e136aa73cc74f15ddc8ebd706d3e256ba83e6eaaaabd0d4dd6bf053a57473c14463547bdb976) (0x1100f8e8691c1d367252756fe9aa006db92652d2db24c5ded09c48267276c94a1a7db385d92dbf79ee6f7205ac6bfe0d, -0x6de17cc634d62973be661ac85d45c0cbc8416490dd3401b694cd892d3e5913a529379519756dcab43654feab33b1918) (0x138380f7cc4a0aeb9efb0aa7ad0fc1f90afca9fbcc88ada101857af479f0c63053ce55b9c6dd99eb62012a57e1b87b1, 0x14d2f10283c0e2517c1a024d33d96825348066211bc0d132c08742be87f7ff25540b3fd804d76328f17aa3182ea841a) (0xc9fd7857a9606bce411fadb26852f7004627da552c6617d316cf754b0319b24d03c3f84bf3fbf924aee85e97eb5c91, 0x56a92fcc8e3e4b97c198d675adc8d0b42e3130e81439c635795248a4ad991ef99a72b18f1679ab6a729d9bae875cda) (0x5ba9ce3b7deaff16ca84060de55a42205febec436d7b23b2ecab26fedd1480fd995c3b0fda948a8efb2f7318bd099b, 0x3b607764a956f6f013bd568d0563c007f68fe3f44c27ce0ab1099fea082a17aa33125199b87250bbf28ea4ed8e8e0c) (0x155aec3c4b56869582dc0d77cda9c5b52e68a9f523ad8f4254f07c2b6a6036534e7e1f43b0f2ac3b75fc7ef6104a76, 0x43bda04e817a8fdcef754b25c11c0b7d07cdb521181f477a65fd0d7e9ad477245f197fe1e52334c067cd65ceb50693);
  Twice2 (0x176b8eb203e8c9671ada290c00c647969a227a4c37a7ae2a9485a9e751d1e23101e6d5f031c725ff9e280074ae0ae1b, 0x17a080a1bdd68e91523704d339b9ab6fbf77db917943d7d4d06fa9c871c6aed5f50835df24b5a4199e004a615b6ae06) (0xb0ca67af935078baeaa09d189b1936a6d03ec058f8be480276e99acf7663ead4efaa573d0d8de2440b02ddc71afbe5b, -0x4a23e892ea5008c956a144840f02be516682225c5bcc417be9d1433feebffff5bf04bec30a8f90e35f58e50dcd4da10) (0x19d81a028e12b08e489f2591c96a483297996bb4d27b57f58b86b3a51f0ac27df3717b33951bcab55bd19938a8d73a4, 0xc3ff17a9eb2f4ec0792e4f4dc7d27323c024341a0b051439e7ca3101279c9891d8e2cf9faa6146c4c937c80d9a7358) (-0x53675f2cf69c460adcfc77052ab08a563b5af9101d498e338f656fc98674a7b9ac4db4fc428177aedcc1500334094e1, 0x29285316e3e7499616eca72ce599894fa54fa9bebcde508863f265b713129ebdbb5da34ed3a9d335d5f5501d82961b8) (0x1189bc893b2f19d750a348ae3fe8d98f871e1dd292895065d967ff8c4bcf7b4f02c2a7710410b13b07663291eac8a28, 0xd0b032a9dcd07570d2f953791927181dfd9212b9276d6718d373271eabb28d587e08f36c7b2c471e443c940e412d47) (-0x2b2eff5ce65930a6723ae840af9fb2ba858f094960636659a42b71c90c686ef44c84b7f79f6e44768860335a45de320, 0x1e7d47f4fee18c4e3ee811038600ffed733bb916e6ee44ea49771bd410e0225e0f0fa42502a71373e680e325f93371);
  Twice2 (0x1616bd4db00410a074d0d7ff6d226f26c448ceac2636e6d90168735269c7236710ea9a1ab422b68bba8dbd472b1db09, 0x6bd031fb18cabf4c562b61c49bc1bb90b4bcc5972b25e8c1ff743421f0a11364ee6e581b8588fedd447065869f9b27) (0x55179c8946e323295745bd72cb78460f5ae89e3f7c86e2d968820b6d0169404c308b467e3510d788f3dfe95465bd36, -0x286c51b4d042f5d2cd9497841b53cc5b2e5c4f088eabc3941db2d7736d03b7955b92727a618d688d4f5073e3f955912) (0x122583f98da48c833b403be2fc768189be329e6d1c39810e0a54c54b173f2eb5a4dcf963cc86fb22bb529caa30aaee8, 0x1a703d5d844865dd29034d7b87bfcc8f9580687b71b7901c285da6d280b07233e308379b032f3fc6cadfe6863b44701) (0x9b3d27a4203e53223554c9ca335b9c21c749e6e4fde608d507dd028a8faff1573be30a58ec2e93dd9891124b51906c, 0xb121bcbccad76b156c61bda3c5c596c3f6ee6b04730f152e9b632263c028481ba70a895baaf7dbf0f36efb53b2750d) (0x115f8c4683f678b94c6f33559323bf1629b6cd9dc59394ddf998a3512fc3e9b88c7a32518a2bf44c8482ffb6480fc73, 0x153358b2999aac1cf0f4a91ca36c5fa6a70d58f3471ed12161b60dff03b4d14fdb1e91f845960b5b71d4f95a0d5c271) (0x1819fab1d9967b8e39493ff803dae8bb66d863fd05caca6e906833a3f49b83169e071eb4aa32decaf72a9019df810bc, -0x9ba050fb8c938025a27b6cdf1eafc075ca4f59d99b1b1732a7b45d5c678f0b3eb230dde1bf99cb97878d5f5d1c2705);
  Plus2 (0x7e95d4f689c64c0ff9d71c6a60ba7b8fa7edace63cad6c1075d63c3a16ead571ab93e86ee68e5ec7f4541e58e5d1c0, 0x164eee21d2b2fbcab19d502710e3e419381eb428c410f3012b7600ae9d45effba1487bc0bc7d0df6b526e17aa9fd2ae) (0x32b64260c5b5b2d93d87a5026b3f5c3ca2b70fc6d6d285b83e10d3cee162c74ba7b220f8df510b54a5c21cf5e00bf46, 0x19eec9499d7755e0d87f848e6805cfc153328122ac813554287ab7c61cae0ab02c51ccbe9ff475299edc5c9cf10be2) (0x26c1f1845aa9d29227f9f998406c2c1d7fbc517381bdf7dbd963ef005d15a19237b5d465dd11b641a81a31190ca27a, 0x12868a4f9ccff25bfa4e5eca43403a439e101f60482c7cd9b9886f41ebc4b2b2fd020895d1939ce0d343fd4816cc72) (-0x5a36198987b7bf56e0110b196f10f4b6909f9c3169a8fa0578c6750f325215310baf65ad5c027b92694674aaa5a3a4c, 0xd20a35fdeef344b94186b13641803796eb7b0eab30a14b9a51544483d37ef4533a1140200c9041b523fa47569ba28f) (0x17b5fb66ddd8fadb86db915d8b3dfc34d0753045ec9d4e16b4a4d7dca0c9d73634731cbb5b1151828eeb6002c9f12dc, 0x34342d73b84bad5d5f7f16c7a151d977951fd99d0e137ceb95c5ec774d5b275863471f0f73e761a62dcc315577f465) (-0x643dfe81ed13ed1df7e1f2bc848fe7e0504cf288c25a72b499dfab7dc20d7eeffaa0fa5a3dd6365182a8a3be5fcf6c9, 0x147bd13614fcb73ae285c6962674f813c64e020529cc54a6375273fd36a1408a8f3eb6df2b3a82313371d560ff8a22e);
  Twice2 (0x14541a9407a26b5d55484246bfd5304ff5b2bbd656b1665b79a8d74be41fad1e680410f86b4580c53ae3120a82673b5, 0xff9889da828ff9efa9c1ae49112ec77fc9daa7d3ed77de7635c8faf0d254ac99e9dcd56e09a94443ec29eef3f891ca) (0x108f8dbdf81e74f2a3c077c0cfffc8403cbe875446f23332f682ddd55ec234e140ff01ed2cd5e8c951a1142634e3734, 0x207b00cf91593778f776d2012767e8970f9cd10067e8e298a6aee579433c93ad5871f3afc93a5a142118f019253e20a) (0xce6eec772eb9b18a851430391be8fe90980cee49d121641d0315b8aa99fc567cb0c8a4eca5d683b1943f37b85de298, 0x10ae0a56db53f89c09151c9f1d7fffa08afd8d915b2e9948967b7836bc99ecf52db84a4b3d147a0cf9d393bad166532) (-0x20157da3bb59af03d4e07d11a1f2a3235543ac2a84e28914864c426e71d0139b20cd96ba8378e2be682934f2c6f4a87, 0x182775615fec35bbde43eee69d3ed8cb6f7b28f11bc3a696c5afc757965d72975bae420d523c988dd742d847b2da58e) (0x7a49781d3eac8f66c33bc02b8e99971c5c7e79881f3e168c36d562a23f90167b732df051e561c457c414e20710985, 0x11ded463695008517139401b16730fef3a2a5a756ae442484fa5bbbc8f425493a3e4cf0da5762e1b26a068a2fe38f7e) (0x262f54774182acbb53bc7cb8dcd22996228ad1f32a81d9ec9c0d566decf9b320fe3b881040908ac1842c443d03c79e9, -0x11f5f30f2d77cd2e8a6db5a5e7c901311aebfe7ff6c2ac3cd0cabcb8694cd9dca2af5ab1c45ec7c95bd6953beae594f);
  Plus2 (0x180288ad152adb3ccaacd44abb1186ac93cc284b13b6b8d7db5e35b755a48a17696d12d8cfd886e85d7ec7e963cd8f4, 0xad9cdc0b14a802776f884d12a60d1185a3da6c85126fb71c3ab42d1c93d9543cac47895f41e84cc4f0487f9115ab8f) (0xe426b73df57649cc074abc3018b8f58a032953ab7c628524b4c038782f3611695aceb351fb7196d9056e3e762250fa, 0x2c7358fdafe27279461ebc22c471c084c807f817b980d557ceb032d157ae53ff460254355a77db07b32b2013e3503d) (0x1abe5b89bd1c2113a7db480dd23b8f0f5f346e56bf6bdbf6174367b4220d1c7f3da5d144f6d018560cd323bae88f752, 0x168964e2f3562344a7a59c59d9f923d4512bb7ef9ae0bd01678e7d04c6bbc915fb4c216b30dba8c39e3017253b23f20) (-0x74602e308e7e0e92b7cc8a5187344e107ed17fb85037fbab270e1a8a6783c72a706fd9af23f83ae35d76c78d24455, 0x1360b4e9342ea0d1f6a9392a561dfc38d5113c7245fc433ce9c78d675997608bb060f49aa649378bee72e50b26e4948) (0x4ea25eb504cbe00aa5d76b8a7b443aa56447d0d8781126410e15cdea9ea589b24aab86eba6596e55cb1a99680c8974, 0x3ca0e76bd23a759c15272e4702f453d8fc6ee4c6c77c4931dc7aace304aa50a2d24197c674bde8b4e399bfdeabe2a1) (-0x8ac49d56cbce37a3003f7980cbac63a7def484640ad938263685d90b1e4602f4f10eadce3e5b4a4ab00a117e0b687, -0xad0b4356aece2bfbda463d3e84a4e932198d505bcbc3864672948945eacfd3916b310060d269cbcc166f8238eecadd);
  Twice2 (0x1226d8ef066d1c4383e26b39b18f00338fe28d5a8a0ac9d781cbc0d5497aca5752e96e2ebff816970c6d52a6df9c072, 0x3821737e71c9af1618d7b5be540d352744fa4b71e32a754c1c2264cb0aed787ae46a2c97aecf2c59a47516d8fdb4c3) (0xcd39d564e1f7e822c5539d4e5da0ca35cadc5edfefcadb6be9c1baaeacc4ad8d51221e5a46f0e81efda5b1225e79626, -0x8016e358eb3530e3bd3d3b76755072d2ab50a9916d4fd6c0b2fb898823822e6f99954586504bac6301ed650c21ab364) (0x13f300b22d264337415f928e17aa17b0beff3f91b700f498217acad5de688800a7d076f19246fe115395455d486c8f5, 0xca368e136e47546fd433f2268ae055cb01980b11b491022ff218b3bd0e5beb9528d12f8e0161fca9f5de731cd34d3a) (0x9f706e3433f1e2bd1ab1bad02cf1b72e0d6cd862e077baa6f3d8d768e9c189f7d23c0992a1bb2abca1263893827c7e, 0x4bc8620b7fcbb90e9d2e9b9040d7d8f5d5bca5ed5765fa274a7f56b59689977bf20f6db16555b0f21323f1be37b232) (0x3468b65de0214aced10bae9e9f65d816c0da5168eb30c4d359b1b17357b4b712b9617b4f3b474082f8d253e62d92c5, 0x4590ab3af672444cbfc33d3318b73a63a82fa7a3ed2c4115929e76991cdf638c45c01bf4d5f81b3c2c918b43c0e44e) (-0x1ded93f151b77c148a493066018baafee6758b8b9a712337b854ebaacbe37c660fbd18874e5b39ebb5c0db4c1499c9, 0x79182ffb8a153ec0bc710ef62321040ea41b4c9ae8ccc62dc8453aac368322a01241e56481b981c37598b99b292654);
  Twice2 (0x1a205694c73d421a2ddfc5d268774529b29ad08c1e629eadc5aff1905fcc8eb4d6b853bdbbf20cde8f575a7001dfb8f, 0xba14bf3a11cbccfd0362c7820077d912e5f0118bace5db3483cc80643e902a4d8dd2c2373a934b498769ac1d9b3f58) (0x2043034ff8721bbb3782067faf4580eeb338ff575dbef31a398763465b8cf260716f93e534f77aed6f85211671177a7, -0x2cf9e3576d841feed9d87dfacf3acffbc6bc4fa638a1c0936c14dc8764edf9bf5f2b605726afcbc780d6ef604817278) (0x1496beb9fa5c99145610a5fbcff98b72f3a0681c67b2ff9ce609aeb1fc243508634456dffabcbc3ab8bdff14826572d, 0x4ff4053ed953dc6afdf0597f7d8657e998b464f440ccf3fb980dd9201e9f8eb30d28d2240dc6b0e16f4b788a13a8e0) (0x3be8a1e6d8ccbeda6853c65ef655ae861d79cb3e225b107c478ad810efc9ea106f861a3fdb692733fa9b97f35a98a, 0x1699a60ac65f19aa4de8fc4d8c6310b45882f0fb51704cce073d246199037e269a791dccae49633706951f517dd10fc) (0x1a320fdd264d9beea6319232eeba086b34db22f971c68c8b00cf08a51196dd0bdf06519f2d97d91cfcc1dceae3514ee, 0xff1da453aeaf0ad3fc792d554f7d6063cf7980ec30225cfd0d677b39c9df6dd4b9b7134c294764f0f8e0bb8dcdc425) (-0x11257634007a8f031e7793bb3bad92152729f0892f4a4d4ae6a599fb412bc240f121d0cd3980fedfa71fdc8465f39ab, 0x725d624c299a992c1748d3e7becf95dd728be4394ebd84d45cd24aac751b08fd346205d37805ac73be34c33513b893);
  Twice2 (0xf75d38259a9565e3754aebac48a35dc3c40d3f4c6feedcc9724415358f74a9d348798c7ca0326eca8b3af0c113dc79, 0x433c0cdcc100bbf55541849c96cae4349bb322fecc0d3168939289d51b336e9d8d69773931122debc1030e73bd3115) (-0x1c28ccf8dd9020cd620fb9730921fae155f68099cb71a306a6117637d9c7389ef0975aea12007229613d81e7d463d19, 0x390befc214881e16eac2e1e008233fb6bcd26ce7236d273db8948ea5251ce6dae48cde2285144f1b36c61620b0b1c6) (0x1d300f86d93edd5a2af54b22608fc954cd5cb2fe3c8f576d0fe654e7b92ee242aeeaac720fffa693ca3527ae8d2fec, 0x17ee76c107845bc1dcfa69be5758bcfb5b071b10a4d583b2d94d9e6f86563bc202e37d02d7ec7371bfd759d45913e7) (0x59b051f9ad6ff78ec1c53c8ad3fb8de013044638235d88992b25d79b40cd7d9c225d8dbd80b54fa571cabec8e5184e, 0x4d50847beb2371bb6ebce2e59998abfa978f329127702ed400b4f5cff1e7a4d9cb6606fa2c7587fec909c29fd21833) (0xe7257a12c48b829f8da2b75302b9cf932f5ce038c9320558d60ebd44f3010a999e7a86a9e9b2f906ec5b5cab9265f, 0xbdda7b4e1e9c64997087e00700c85d5f1c4a2e7fbca346bb837be193c3b08235748b965e881458a464c0b54d2edfac) (0x80d92b1e0f4d166afba2264eeef607cd8f84bc73cbfb56c1edd94c8066e948ff7cf47f12200bb052cbf7b55cc1c74b, 0x4f213eb1db1fca40bc1d6fc7595d11bed001509a6febd9cb07232b68180b0b7106857063029dd7f0b3d40a41c56b35);
  Twice2 (0x7b9b7bc8f87dc9621a98ecb45036c0d391b4789b9aab1eaad5b7801cdbefb7fb42cf8339c812d5344ea7ce58464193, 0xac414daf3d22c2c2979365a836e3e02b0b86ad8a6277d7516b17eaebbb0fe30625cef5ad94ba33847b6d88daf5bf70) (-0x2e1cf1affa4713d9f888c99b63cbed19fdc1a2bdbddd49427aede7dd5ea7799d4d13a2ef150d72f3e80d7f7e63f8177, 0x6eeb56d6014dfb0eb37a5f6552ac895964ae0d9be7aa16b65b1e2e25847e1e776993288aad49a9d68938676c8f00f0) (0x18aad9e9180cc7d5431e5cb026ec91182eb2dfeed3b36088c501e4379ae844b9e511cedec271248694b4462720a116d, 0x187def1ac633d014614892325b8d84e0beb11a14b24968bdbc3fd356e2a698a7ea1855d91cb6c1fd9aa03bc13bf4414) (-0x1355348cde73d46950359aa727c501f8c51328c505710905b891b8807dff5bb7ff90de45231ad465da02c7e7b9e0bdc, 0x62faeac870ef4463dc7fe3da9ad3734d5d4ba0a36f5711069c7ab5fa37fcd82064a3d454a13578981c022e363f4ebe) (0x106d2abe126cd4b67c85cabf0e719b4bd6dfcf920d5dde1248d76d8c965528c18c13fc67d0a612adcaaf6b8378056cb, 0xd04c09093e69158b8152fadd30124970e0fe457e78bcd22fc47e543f57ef9fe44bbfef95d93ac3b400af6797368210) (0x277928089753962de0b9d90595d5137cbf09b336c2c5e5c158a2f2921cb5b1f2d17c2b4838af9381f8431ca0d1f8633, -0xfc0c0bbf16e5c31c1217c4443925f883ff7d7f7cf56fee223d11344fbbd0f73effaf1f11ca841efdedddfa3ff36003);
  Twice2 (0x5ee6309709e6a5eef6eebe22c855f8d3653371e90fe2ca95e35e0e997d61776c3dfb34decebc0e692a8e82851d4b5d, 0x6cdf947f2e22947040ddaf18c52224e7a0e2a19e7e70fa797ede8ddc4676323033bfe89c197bc85f58f357b871bef8) (0xf10a37c8d16d4b8f205c73dde3f0b4560a111c568eff676424b6e7122e3f462121a6397ec17aa8772107fcaa039c4b3, -0x78c0882df353e5f7b2fec575e693a25aeedeaf6bb9776f00733aa014f711ec1f863297dff99d419db902e0dae4c8628) (0x4dca33d46cff8c98540af6ad87c2a36ef1232f6714971c84db4cdf637ffd1f5a3b8e8d1ceceeead95bea3c09e2867b, 0xb72458bd30d87e834b85f110f874ad1967935153b1764d3172c54862f9af4d9e25bf78045f1cad978d53fadd0427d5) (-0x74d31b93758c3358746deacc15b5384ce18e35b89f350c78408639e91ed79d496fcb0616e8d305fc99e0fd5dae5acc, 0x3007c53063d9822451aea4272ff71b71e72a95428a4a32deac68e91477f135c9d7fce300a05d76f5dda66e98376033) (0x50819450c5c5ddd46dc8f5c20807f351f8f46116f84a14900945dbfcda993e99180144fb1284e45c12286cde705f32, 0x11d7b49a178a4e60231e88dc4a5aca0457856833dd33a63da17219937657dc8f179da227348cd0e2d767327f18ca819) (-0xc234a57811329addb5aeaaa43be650bea6f519fc6fd65fec6bbb67fd5a68e9cfb47f733f7ccc7a8bdb459f66a1f13b, 0x7e3ba21c2387b6692cf69a321ca3a3eaa0a4c18322893120a360732c616fec15fc05e922c6f44e1676ae999cdfc42a);
  Twice2 (0x120460b34df01b244741aeef55b93cbd4aa4705ada121be362f24dde15636dba609f494c616d37ebd67696cea88af79, 0x17395879fd4323d14089157b8f7a065c2af8ad646ce2e795e2abe107eed6a5fdfa4caba9f8cdc663bcd00655dbac3eb) (-0x4ce9358ec22ad0334bdfd67cc4a0cd2b9ae50a6086cf275189105687eacb0175925c445dd2afe116c575b0c26654b2e, 0x142f4369153de9521d12bb93337b22fe6863ca337c436c67ec322b6d68c10d9cc83d9aff3aa42c341c4ef3d12063f64) (0x17952c965d7fae3e62c1e3147be688898311283a915614926682f485d4023a807d7f29302c69f1a0308a1f865e57279, 0x1218c0de496181f1d0b2520a172aecc7f5ffe86959cbc365cc1b20cc7be6281f265981728ec375256c7b1fb5d77b7c2) (-0x583836ae8088b67fad4f7d8c0795a8bc21e7516125e4f43a35b09c70a1eeab37631ff22941ed4cd0e07d6bc77ef18db, 0x1f1f589d146f068f3da806e6220e9c7af99326135bdc5120607f09a592d35de5b33df222ed634af420a34e8a09876ba) (0x6ff8336063c43635761f62e3fb9364043dc92308fe041e7a9df2b4bbb9f6edd061a89616c13607a8f2c49d1a98f9ca, 0x226f8559a07bfc0fb82e4e71932fe6d5bf9da5d563dd78ee28787ec356b173de2cab7fc1bc2f7cd93511e4c8cddd08) (0x102cdd107f55a1840b2b4f1f301063f2334b2765c89546ad1c756c76a742a3cc60330df1e8caf69e0f341e60addb5c1, -0x14a0055ec4ddd517677042fd318fa1909dc27cebc4b2250475930eb6b6a99ef239aa2ae71a003e391b04016f541ab50);
  Twice2 (0x4819d97d895b5161c84deec34729c10244a4ffde1efe7918ac333174e3176c04d431605fdba1ef479dfc905be07ac7, 0x123cef2c2924ce199cdc461713e44a89988c38174219b74c6677abedf4cca6780906a2e22d7c8f7760d8b3a37450e82) (0x6c6352f05b2aa0a6a1ac48871db6b139cfdf7c08aa9a70fdbf06e40d04f31c2fa6ad8eacc7ffcaa33dd8237d4801d15, -0x55038628f592014b941f3ae33daa1166a82acae92e569884317e29414d0c70509aff64fec12c033194b047a596c6c94) (0xd51852b04595fbaf35785836a53a5c745d3448e539ee19eb7ff001832ff32d15cc5b620b809c2a9f81236cf10876c5, 0x530fe6b1fbc561b6b01ee0c3eac20b13bb1fa8892d5bd40360782cddf95112c5fbd962de7c2e36318642a7a750ea21) (-0x3d188b4097d0a41cebb93508c213ae72f28f7c8297f41dcb40281a06fcc3db4799e2bc3d6521087e70618349631771a, 0x61cea175b8354d21b4d79f1f124566d6a8c718a11f02d633b04610e4e48a8a55a6adad1845d73dd97b1dfb2c701c77) (0x8d218162b625f01b57a6c8b45e8e618cdf99340470af698c81bf527283abac816ab1c375960f597956ad4dc97f23df, 0xd3022dde12215881347f6ee8480f8ee661a09dfb5f0c51de4a24750c4aee51d32eea4f7e9c87503975afebed5480d2) (-0x2a0bc2d2dcad9bd136af4083664985e7091cf1fcf4dc3440ec9ac122de9371e8bfd92043cba8949d36a88a8ae95cd87, 0x91fea972e42a7121458c844b3521229d54ed1dc8f8f033450b1328376c1094f02bae2fbdc5b9738796e04d7965ddb5);
  Twice2 (0x185d8216e7c293c7d4a574a4a812bdf20df4feff09ac195c7c473a6b4ae34158867f97220ad6a773eed75cd88020828, 0xca0f4f5f45b16fbdd002cce209ce5724ca1c6f343a3c4fa9953889c25e05adc2d6dea0a14fb35951c9eef3da21916e) (-0x32b58e32afd27efe54988777b2de03e4450c32f0d96b83cca519d40b65dde23b265ea75a0f8110f09db2810aaf743a4, 0x10c1f7f352ba654bb9642eafc53875ce5a5da04a66d802af976422a8903d1320cfd3bd958717e9adf0db56c35d48ae6) (0x63fd1d88ebe37c591b8cedd13899260af5ff6ca7a8d0d9e0902e94fc994ac49e6f50fd30b1fe67d06932fea3d95cc6, 0x127ae14062bd0638767fb77e6cb12b997e48c8722da9c46af226cc67149a02cad4a9c5db7514563617c29535ee333b4) (-0x793e51da504c245405e19743f226577abb8dcad5e071f6f72d713d72a7fa215c8f1a3fd2cc67665fa3bbacb1e8bc64, 0x16e2fd6c2247ebddf10611f6593f457db58a315a5d8256c2a642b53a20fa4ad03cb24773f396852f652446abbc74a6a) (0xa66d379cc48e73c9d8968f58cbb46b4dfa9214a6f60b8f7400a1fa84ef0f51c1bece692abaf14551ce5d49ab0c4e99, 0x12474c554c03e4f72f04821a5d36836ad1dc9dd444b267720e3b38ad08448181c25c29ff11285a25425d59cfd04f8fd) (0x259c722c465b285fff739090212dfcfe3ed0f8e5732b12bcb4764f660940ba2b76ad48c17f07f3e75b00a76c004f632, -0x8b8a0a2255dd3511a2dc46b8a6afdf12f03016290e0e135da040de64d00b0ffb00d7ae40b47f380424d6ac7ed1f635);
  Twice2 (0x1995d1799c98f27c4fcfd59a4d600a3064b00b4cb5363a59c50182744461bc94a96a3d23edff9d0de5d5d8ad730506f, 0xb37190592e33b50092deea4f6188b35ae1901074cd9c409bd27dfc55981b81a248479c83c0558bf6a11bb0131ed31f) (0x81b5859252e46777b4b2764538a7a59776141c4b65dfd3ee61b179f0a078affbb4f72b78baeadbaf063ad01b57e7754, 0x11b108811bfd2270ce4f41913a7688d3523a93f4087ce6a3d9661d9258a45f01f9c002919467d25dd374bbed7e53b24) (0x95824734bb5aa1f740e9570321639babc0cf7bbb0a851c4f1e65986a58a075d0d465750d782841f8fa4d119a9f298e, 0x656d4839852ee27aad7edc58acf437b51d3eb3673b927b74b117bf2e8c6836db16400ea807843abc7c94428f9143bb) (0xf4a7549c0ec996dad359b0f954384ca14b405996b765104ca8320050380f4801c654207f36c7c2951407601b31842, 0x1557b9f27743c487eb76b79dfac82353d765fb81bf84cae97f313a93ccceb323207adb55c03e0d7be92fd53c8f6c9bf) (0x91e215ec7001dddd27422d5f3deb15561126cf8549dc9836d918eec096b505f7006a59d5070e50b634f1243e99b5df, 0x17b98f2ab9afc7a67ae86e976f4f6e72344259a50fe4cf697407eb22eec40347d98c4215cca54eda5878783af28166a) (-0x1c4394760143b5c4b9e386c8396f6470d3b0b3f303a6c8058e4db90424edc37c988dfaf19d0fc37788b5a374c5dc1f3, 0xa42dab685818a8f3daee8d1036592bd74bbaedcab215048df7434df2da11fc7f2a1f6de189ff714a12c2822fdb2958);
  Twice2 (0x185528b25e17f9af6973cbc110d31a35f2b800139b949559ecf93c451b236605856e92466b6328448e0e40498a87077, 0x16b7125d967820cbe4cc75c1abfba79bb2dc4036e47a881154cddaa4dc9be293b7ef885b6af67f8a778946247fc653a) (-0xab3e1c2a06f335d62db8a90b063bc9043a171b4d9502611918aada01b1d749375a474e0477bcfb73163fc733909e82b, 0x2d20138536ff8a267149222cd8aeddbdf2107ab536afe1f601b27937b67301a467876f25d19daa23989807ddcc8d93c) (0xc0e7267c2a0cedb6621880427e528c4918b2878a9e482dcfa541c34cde9bb5814c521302394db3d7fa4e4d939e6d43, 0x9714c9fd31320552f01f00820ada5259ad28ccf3e9d9854111d080f4e835624a97a9a64d23675060b8e25fab7824d3) (-0x49ecfe13728fd6506bc308f684fbee54cd825599a27b20f9089510a580a278386c5bc3b8c68134d3e6e2753c2567ec2, 0x291c5f514a16771633e5356206e2d84dd895761f86f89bf6712e89860feff6c877d01ffd0686e649a9854c0b6be2fa3) (0x10a79b5b6a9ee5fd100c092a93701a04ef49810cfffe4c984003bd642dbee42943888c7824f6d236692470aff0e2621, 0x134c5a1f49592e635c742e9d6744fd8da32a072a5c84e07932b813a3b4e1489d47981fab1aeacfb55de54b870e724ea) (0xaa76a08e180cb5571e28bb07be1c4fb0f93f35a57990f72c78ee02cd0d710d6f09dae793faa842c8919ce8a6fbd00d, -0x519753cabc25af7a7bea35eb36d9eca079e4c26943da0dad28d0514d0c176c6ab0a2a86c90008aa29618ae0b541d7e);
  Twice2 (0xba648bdf6b6e807939a5d5307ff3b296001c2505d3e3e0de033e7739beb9b39f2e77fc76313054c32a32d1b28bc88, 0x1a172145cce8fabb7592a34d59ba90a1e23c8c91ef34dc9971d62ddca97a87a2403e3787f6f4cc90b6419f3204eb3ad) (-0x98d368bc531f3bed62c521020daf389ec6d4ae25c645a5867b1224573806b813e7655e473a0909bb023dfd71920ac38, 0x7f64a74cf17c27e0bbeb92a35f2e3d9f5f847bfd82a34280fde9a4984794d3fb617565a8b0cf8520b31f92d363b9e4) (0x12045a18240d667e22963112f2fd6048d4ed0ff1497055688ec5b423b3118330bdeeee213487f78281ca8d83d297b72, 0x4ef519932e2a04031bc66cba6ee085c74123201a94caa14e559cd9d0fc986cf88585e0c649053e7a98d1022fd1b640) (-0x7e8e6c16f30fb30d3c6f0ba4901ac0e7e5cccadc0d6dd33edfe2917199f18913ef9ad4057d69fbda7fbbf1b68b33c45, 0x169b5c99e8d23125624282a5a262351a97902dd4c24b0486b7a3a5571ba4229ffc0e12a5e6d1daf406bf5508d2ffea) (0x14e75e36f7f386a1ce7c89e66e7e276ac55f6b3cd8e9cb0ea7263c1123eba0dd68003186aee86baf78f015f71f197db, 0x160abc82bca3c781862f1cf2fda45bb55dc51609496fac26833f4ac99f86503033bc5960f72f9c42629e3309e280eb3) (-0x1607cc33ab7ac6da075b9c947805bee3943678744f06ad94de11a335d0d306f95c45118a373507843a10191cb8356a7, -0x5a952d256a91451e2e9e214f6e66fbb0b6594bfdccd013924fe9b68956a55fbc9e59793135ebe9d377aaf15dadf448);
  Twice2 (0x65e6b90c27f14cee632b287ed3a689c07784974edd65f6458d73c2899fc9d077406b0e87240d8c4c352572c8508113, 0x10dd63bb6470f9cacebf268742a896f00a1bff7a6100b2182049b09d33f59984b1e6a89a97a2bae9cfcbea51a622b99) (-0x96f9b391090112cfd484fa9a6c2f313f371a0ae17d579eed07b981908ef5b6a4c2a4c9802b1ea17216513f797fb8f98, 0x10d2d617413f107e808fa86cd80d8945ffc6da1b5982c7cf0b177d9411b4e162a1d133527d18b00c980acbddee23758) (0x9e59ff512ce4c2ba8f0e2b5965e6636b7d99b7c2a5f75181af9e4e970b30c3de555e4f9aac1723b2c2a111d5b94a23, 0x2da353cf61c302aef3d82da632603d5b029d150d9dca7f3b1a8de45338f227f7976c9c4ce4b495005c524823937dcc) (-0x336110b47cc590c5df7eb0ea51b8390332f01372e385c14f907fac1b6fcee0537663896e9addd84a928597c21ebe0d3, 0x7fd2f3b854344de0c0cfe6eb5940070afbc8efe89a8adcf499dbf1ceed4b68d6816c08efbb03f010462c8aa6ebc06a) (0x809156188976932b7db016da54be9e5e69a34f9aa5d943659d8f6312a651e99d86f7ae48ba2b9d8fea6f0302f26c3c, 0x3691d334725e0b04d7047f5b5809a719eeddea22cf726c3dcbcf7547d0bc252a2dda3c5eba8e542bb96eac9936267b) (-0x49b77d36e9331ac39f3733b514d5cd38d61ffb91966f1d0089b9acb7af5f58602082aabf4a60846c02689beb67aade, 0x59609b57503348ea4f854d68889bf5424672c2466aa57a3450ec0ff7b52aa42795d47f6526df2e02a6ce24e0862ca5);
  Twice2 (0x17e4923cc011282097952c096db99f9e198e52034a52cbf736bda51334a8c4b73f77bed6710f55aa85eb0908346f0d9, 0x3a6ffdfaaae83739ce3669911060fc147d2c75979fbca4f351127d30a0463e13e1092410233aa96d9f183a1ab827e6) (0x3420bc71564ce017a4fba9ac26b4f78cf780f09ed11fdac18b0cd28f240e5584eb0cc9dddce817bb648fe296d4eeb9, 0x1f1e18a6cff8284c98d6b7dd73876ec4648dbe1ebeac4861126819e40609e7d2a3a9be0b5dcc0ed0df758a4a599efe) (0x72f3b997138046c0dce89dcf3230afdababbb30d1e282e4a985ec4b9482f23ece31f8a81cf81260ff5bc153698ad02, 0x940497039013a7af8629dfa73d996c3ebe93c239d053d0938d4d05f2da33775639ff721d16131924847114cb79aaa) (0x12bffa18248a30de408592fd4c6a59760a77e56581d95ce257f7423637189f97bc1fe84acb34a5d9d54a0115100e975, 0x67d9e275fa33fb09d99279911aae2454af2dee0f4f079c5697aba3a9a9b1ce634701ece8f02938c2a3d14438ec4daa) (0x973d0ef83caae117a7371193e656ffb109e02a61c4f4adda9a3d3d2226ed9087499c1d99115ecbc8d9160bbee319e9, 0x1a0a1f8b7da7bec9bdb9fc5f17399c8cb0de9eb070bb0dd4d634567ff8c00a700f7dee9bd29edd72b292f20d457b5cf) (0xdd9f09b579ce58d9f46fb0d005a880cf5411879ef3fe585f052e5752f00e425c8c30f92c9e8f6b9597e0f5a2b6218, 0x263a20f6cc3f34961404bf923f522ec24895e57dfc3cd6fdf89bdd0cd5994ce1cd2c452aa5949b3521cdac9206be2e);
  Twice2 (0xbff3c04feb6921d65aa9da01de3f27a17955c8bcdf83adf75abbc68f074f525c8a32003bc5851b134d5898f6184123, 0xb2de5ebe75e7b153c34dfc73800e232389211beea8bd2eb9a01021743663512903bb7b817830f5f17e3ae36608726) (-0x3e76b8ca8c1e72ab0478f74bc6f1d55dc15e07c51ae803b9187e5388096c5db76cc547689470847790aa66dcd2983e, 0x16ccd581e1e8717b2d03d8c68fe3bc924759cd5c371974e5dfab4efdbb14e35b9778e8b5dc6b9956819a5e63d45b7ce) (0x10f99ae9009702ee2203b2eda7bead556669e4e351ec0f49908a3793e9a6f0dc6cf245fe2446e6b6558cd31a7073374, 0x5709d04671e310adf8f72e9a75a3d7544f78cfa5efc7a875b65853432c3061fe5f0656987f3c607076b4cf556f3e35) (0x543091e5547426baf143ef6857dca38e6576c13a5ee18bf4850aa49b9e814ee1448e1ada1217a4f9d626571bacbd1d, 0x9f9c0b70a77926d31d140aae69d8cdad67f0b3c0362ec105a6e66d6db6dc111332caafd2e6a0de73589445347ccdb) (0x789166c202343911d15609e86a58d9d5982d22087c3a442600a98d5c367a358a10d0632a3aacc6b10bd1e2d62b1bfa, 0x16ade8c464bd2bb3cd4c3805d770f4978dc0415fc15166c5e3e19d092abb8699fcfca824e41a6c6b2b60d3acb923b71) (-0x3bc8d4f511ceda18a10634fe60163bf77d3ab8f2dda7039dae3424fbd0f496e1747acff9955e0cedbb60643fdaa74f, -0x26c6bc2ccad7632b577a09cca6554420803f93ff820f7dd16141f104f938050d0c30fc29315e41e63d6341c8a1ab2d);
  Twice2 (0xd4b963f9b9e97a64680e2380bae87e2d9713ca381d23df83bc03111676e68e577d8b8cee62d8dea8c2b172239884b6, 0x199b82ab6cad45cc0fda686c37330e13eaf0e69cd3d66cb622b9c4c7320821537e8ed30fa6f788fd09115c92d1ab26c) (-0xe02be126bd97fb46d6773452ed00f4065148565da41aa0b6c97dc1edc1d2652d20cba81bc67781fc138b7a6a1dd6e59, 0x102cc7f30bc1adca99062938f8beca2a5006d05a83ad6ff770e21c1880d1647126274393cab81e040e6960f11f9d584) (0x133be83b9a5be0d930676ddd805fecc5a507e6d359b38c94474071bd1acb376bad22ccc2eb1159b4783becb8bfa28fc, 0x114ec6487d8ec9506e7e2932900abca5ad4b825d2e093c47972939bdc6b9e13bda8b0c0e71a15ada6f3243040291e95) (-0x735c36609bc781a2d5643f35af234a84b0cad4dc04e9df73e389bf414dd7fee40486494d5a1cee76f41e374b4903250, 0x1952afef72752865623eeaba610ea89c5dacc3895a9b502f8f218d576b2b794729f564bfeb2c17aa5d83f6e272d7691) (0xb8c7e86aa6e81753d26412a0f3d6556746bacc74cca4be2ca93ed655a5ddfedd4f9b4cb34cfad9600fe78e37df1849, 0x22a0f0a0a9518d3b0f85048c233cacbca9dcd199c49b09a98a507c4e61d3e78440028bd9388754bc26a0d8224cd793) (0x3764bf2d0f0dacab11751c359bcd1f6711d8a53e50872158616ee6165d440b70e7bad358750bb1a15d98ca72cc4278d, -0x804f0e1ac58e721feb30dc3192ef6d2df615de775dfbe3f58a1cf72b56132ad4c39346befb50bb235bbc875bbe3ca4);
  Twice2 (0x18f90b70b14eb04274d66adb70cfde7b0c6341c274178557c38559a1c2a330786100ab99ed3d544bcc5038c0418e5db, 0x72eed405dbfe5c70357fe61984750a53d76411523653d5424b27f448d0e120dba0c36653b6ec317272152cec696e24) (0x8d804d203f18b3ec9d6fa0fc68f67b59c5abb032b5ba84303b58e79ce864a71f992dd19cbb72c3f845ae5f442011cd5, -0x4017617d3bd847e00396a1b4d5d65b87dbb7718896a5b8c58e99fc9d6e05c0e4750dcf7fd888707ac78a0a2fa5eebfe) (0x137fa5cdd5966912dabfd78b95d6a7de594083885e66eb6d3d463b31e7378b4febf012a3356a8806238da80c138fb62, 0x9a3bd11bb48a9c9f0ef6174a6076f817ba37378927e4b5d3087ff0cf40c64072b2707e8eb4d4ec7476590eb897afd3) (0xd991de664cb41c05e75834e6921f16d604a4049d4b10bb6cd13ee19e326bfab6b5b9994c1a47bf16861cb559ad72af, 0xd57bb96f0c2fc2460abc91f0c31986bd748ded08893d874b3190bdb56a1f380a2a372379d816ed5886a6f7a944ec9b) (0xc67c45c7c965a98295619eb5df94312f9a03f67070a1d6f3e15499095dfa123a0fd84eab23aeb196d67bc05dc2327c, 0x14a51186404200c56ce6b69cc28c109b7b2a21ac45f3b97f1eaa890c7267252963c04a024bfae3627afaac0743524ab) (-0xa7cfbc43d827dd3f0d9538583a7720b10556b6900667c0ead1287d5056b256c557fed53d9b12893aa0283dc835326f, 0x70d08a9f5c59ef544481f60e0cd4eba46e651e63b2099e253a60b56a6d40a1882b6b7459e7d5cebc3741321617e360);
  Twice2 (0x16751c8b5c3b64aed0ed6a7c810200c16a0cb03e1588958fe6bbf82cc929ebb42805752451caca3b28a6716b5cc76ea, 0x12cff92305a3f10b0a0ac4c449134bd60fca5f8efebb13eb4a20eddd70dd5730480eb611787c9c81254cdd51e3aafaa) (-0x724c029bb153ea4c4ab263b50aea02f89369f89ba2a348ada0f676c76eb0e12fb1724f03e3238628dd14dd94fe374c1, 0x9e6e1f6c082f92bef197da4a3bc8d778aa7f725cbdb989f3766ef64b0e391215c70df8e4971eaccd88a99618ee22a8) (0x13bbcb159a3e4a42825657792c610b9654d883112aaaf0c2cfa46d862ae0dd054a8bf280a4e7b3ac172f029e2a063ac, 0x197675027c7b23e980e318c1a34893318794f2e5562e340959178e262f4e86fee11f5026505f87de9ff684bc97c49b4) (-0x2f0d532d4b8e2bdd76a9dea268003f749ad5ec3affd19aa667d7b66535d4f2566447b8115274be8da8f171254bf1d00, 0x1f6c73e76cfab354db25ea110a329b1a5353c125326af39a0c7e566b694d42ab94c12632d06adc8267a4e367d7e316e) (0xd67e342104d330a14614877cbcad1bd5ef8596fe834d15764390a47252b0db4386cac596a6c682866ad7e09419b5d4, 0x60fb4792616fd574a26f1d304d456af56247192aca1d7fc43f12581df4703ded4859f27cc3f6dcaaccc3ed8388b5bc) (0x3727b3b363605f7a9e2541a0c8aad0772b9550bf2ffc27aef839dc4e49821c2243862310e9078a82b06638a0671a01e, -0xd612d4b202916588c6e90ddd4c6474d92e119bd267a5c5f9f6800bec26cf86022f8d51fe019702b6a050f3a7a60f35);
  Twice2 (0x18635f05e53f1ade77a256487298765e35a80235c2b45327929da80d2d73ff9e6f562fde3a93de0d97a19446160a21e, 0x173b961c81db1e4142acf4aac13da3245e98b1f2eefa4c789805dd162632468ad4f52a4b5c7d021affc1c8c1554e6a5) (0x1222dbf393cd1ae16c1f7cbd85761e3476dd0c1c14f4acea9057ad6c8a39087c6371c1540bc6890c3a4f0be882dd57b8, -0x4df5912895ec592eb2bb2187b6542e1c51a8498a8b998f28ea4e906fca8ba3ce2e2f7857807df1d9a6102029d02ea48) (0x96e7a031599fec418cc8a4d5279ca0814d7524a288c60bb5a77208c70647c694742b8dc20d987c00632aba7b818716, 0x156927f81f34e75773333a89b4a68e885c0cf4d5f9a667031ca17d0da2450cf64ea6ba3d4f770c99e5ef042f70c2a48) (-0x4e3f6f8be3abe1f1ac4c037670b3cc80847419663424f1edfd6d568ee14494167eba26081efd5f5501e701dbe00d2a7, 0x2a24c3284ad22a07cb51acf280d6e1a267837bdce4017db64386646aade91b2437f4d19d4e1eba83be25317ef8a24fc) (0x1ae1e092c958a66a9038415b9bf1b63eec301d9b42e8fd275fa888e24bfe5b2bae6d214ae84f4622cb7fef30260daeb, 0xfb9d061fe249d6d0ddbb3e2ba66ffc3a054a0093d03d1e2f67a1727137e08e66cd55656ac072951acdf16dd20a26da) (-0x829382108639166f654b56c14b566a07e482de5b15a018f81d2022cc9019c0431ba2c0c8ff8b1de55e076d1cb23637, 0xc938167fb13e1bc531603c6301685d3b4a047d7ac5691982786d7021ce8cfcb847fe5bd7fc3f1f2baefb2fdc3e1ac0);
  Twice2 (0xcbcb9031df35b83501bde2bd24d6b2e370a1916f5577071e22fea1fba748330cc4e4386688cb8723fb3eb5bda23f1e, 0x1194a1af6b878d4be1b8abc1d29bf2665411296f3fc1c6274a26c81a453c6290895477b2a8979ee36c4249a94f7a5f1) (0xa873ef0ac16568daf872c5835bc50427e83212da43b29a5c7112302198fadd4ee16272231988a0595c30e1c9c2b12e4, 0x4fda9b901e1345773ac890b3e5951fb1111606420925f7341058a66ae6b953bb9271e27a620ad007cbdc3781b3e66e) (0x15d1f6adc801925270fad6716604ff9e3b6194197844b65da477799f3dc5d5cebae4ca761e661520e2132fdbbf02141, 0x1625337dd87195e76c82aa5a3f16048910c4a43f7a493eb29004dfceac0a04b620834b0a6c22253fc7c2aa6def0fca7) (-0x337055f5316a10aac3072e372f2f1e1e70ddfaa9d36234c1f546a658d409823020b4139dae6323bd2a1d2f5ea84284e, 0x10a7d26033c7611860c907e04eb5c6a207e6dae0e0b916565b4c2a402a69e5d4fa92bf81ee876289968759ddfb23145) (0x4c15d390ddb9195420784f85c23864dacef3774d068d59c2d8e270991ef1308d984569dbd4799dcc4b81736def4d59, 0x116a7e5e9652da7016bd6256fa9e3d30f5d4cf328b5ff8b5bd407db7ba09fc76de43c90a9b1f82268d99bac4b70d9a3) (-0x377929ed0057cf529654bfe25187bfbc4b701ad6ef098db9fa376d4972bd9d34304f873923d2f655911c0b15196e23, -0x872a47beae44de5abe45db6790217f1d445f70d74d1afbe5ecc238167a2f3d778bd9d76584158885dbedb56a28e21a);
  Twice2 (0x15abe3bd7322e642da6344cea84110c9b3a45c56393054a36171195415983f8210e9328bdaed7df6adff677d465c18f, 0x76af40ea7c670ff85903895f09c5b6760d471dff242b967f398985f5399db107c37efd0d0ecd51b1724f74e95deafc) (0xb4135e00ca64784eac03f76d8d17c158ea19ef742dd86769ed9095fbe385fc35459b673cafa0c12e9b5aee2d45cf582, -0x4d2076487bbe137184ed4ff32b7e4f173e3945eeae15dcfe183bf8fea8273aff6cbb1a83edc2ebb4c0004f4dfe02b18) (0x6da35ebca642416812cb2d675bde4a061eced48f583da5de2718dc90a729a1a594b16e1f654067a793e27501e592ca, 0x16ddf66cd3410f38fe648633969d9501f210bd9a71b753d910f85ae2dc863ba22191d7a7ba37b705932e0e6bdad3086) (0x73c10ea303960776275c37c8af27e5129bfd1d7d286f68f2bc6cbdca916bab8fb11c43cde1c27b702e88a83578d045, 0xbf4eed73209f1d4593550c00ad56a2e69bba809306ba0ff230aac8ba0ddd780c6381436665e66d03a94ddca28553b4) (0x4c4e5bf69ca04fd9d1c62b60d2d1efd70c8e9c8f7c58463dc74e3792ab7d0c66366a8a33e2c9045f97de94946dbd92, 0x12932bc4eaa1b9ca879e8b7be6db87d47f7174d72c584df36fba6ae7991c8a9b524689ed28a458a084f4b14bdc57940) (0xd0f0ea543e43964e060869c12c76b9591065297635505dbc6ed1cb76a5d58f66eecdadd5f0ed4990e378881652bc22, 0x38c22d7c5b89bfdcf2edcc6d9996521062daaed46a1546f9eefc76355414c5706984290e0f538f4a55bbd85e6a97b0);
  Twice2 (0x15cb4ec05d39344800f0ffeee8e41319fcc82de43b19d72684d1e8e3b5a8f3e6c32786486b9a4e4167de566b894e1f0, 0x2a9c50367e00344ee2673f1f11dbd35eb5ce6078dec4492884a94c7914e52b7c42cc619ee2cd0eeb7943662369c6dd) (0x113caf9fbc1eee4e47e7936ff843ec2dea88dae28670674c9fe34b23c412ff11f2c26431838918f8e97270a476af2130, -0x3e8b9b543809c788ca2997c560c45528634704a4020343f4050cb0e5aa543fa5dd0296b22cda95272f3b299d4f4454) (0x15ff6ec5ac47485be61285c64ff7ae459076eb54033f9a0ab5a9d8c4180bec6bf14d3a5b8be40e46f76e3af9589b699, 0xe1e4128c785d07c6744d7d84c55490e2a601735e8b42369346a3013013741c6bf1308a0b98cd4a3b1a9ce0a901e0a0) (0x105880e768f9a0c2bac1cc3ce10a85c92043d0b3da61b2583f17c2442fbec9d03ccd58f5c8fdbfc125b670f9abbdee6, 0x4512be194b0c898e137754671ce60e47257db8bce35e943b415e9be1cf4ea8d1ac03b5cdbcd6931a95655bd11116b4) (0x3574f0e5e5219a36e445084f1391375b7d1ea44a3318f55f2cd53dfa72d7141247a277a9fd2e818d87a00595ebb0d6, 0x8a7c449aa4144a1de4cb65a156e702e3838c0222b095c82a29b6c8cef32518f3962be8cbcbf1dba36abebfb778a319) (-0x109bade85936fb75d4fcb87212010d934eed1abb47ef7467716a83d63ba40031c1f540785ed8d648eef2cb61e7d433e, 0x5975031c168fa556a3b6a9e3da5ba464926e3c96725169acb2e9eaedacc99c1e1f2ef876a6d7f2b0a9edb09841ed94);
  Twice2 (0x18b9e4fcdfe56b1d3cf8dfb2ee80c428c744a8d460d3283db1117e6f17f377abc4a178577a377d83e2a5fc9278cacef, 0x1a9f41f0ee51842d53b8f4ab70083f6c63322bfd005506cef7c094031636bd3e248b5fc0b51a60f17f923cc41155b17) (-0x1658a07c8a59267504d9263ca079075b3fec7bbd68f1168926ec0729a4700e3cf085504222961e87c0355bd31b58135, -0x2ec406db17d2f6bb61bc13ebff84560875a24729ad69311ed620b56fb51e49e317aea8178e497909d2eecb931b5f29e) (0x143e79199a33cd04db9a197aa0adbbe656df0457b19c86c633481a85c44f9635664226fe07a01a0d84935cf6be423a3, 0x1aa08870a852288bed8fdb36060bc4b9024d787b9d4eee08077ccd72ecd40a4f45dd7588ae01c015277dadcef287eb9) (-0x6d0d11cc1b79ffeb1352da40e6dd8dae0296b8881820fc1ab0b0cef34056c5d45dd7696834b96d95cc7b55aebaa5609, 0x30f605ac03150355f96ca5ccf3fad6c377fb8b0ddc779c41f1a4c1f911db33330ad77e7d261ec3ee80747729a42bcf9) (0x4d8f31bb22db6d5dfc5dadedbfd23e3a4fd0659bb0bccbd988921eefdfeadac08a50b48fb2c6a79a9eb296a6e2c7ee, 0xfec089201a022ae25a591e4bcfc9d6b18adbaad6616d24a28f7e7c218ce2dc7881c6500aab08162a2dd97fc17b963b) (0x3f892c455c85b3850307c05292c1599909b1774bbfdf211ffe4710360eb7923d4deb1f1b950ab0132e192e677a37721, -0x9c42cc36315d57e584f31621bd9d7e7e87134910899178a8d10e3aa71fd589f652549d4cae5eb4cce55cdd109af891);
  Twice2 (0xd645159ccd7c0679f6aca3b596601bf56084d3c8a55c22955b7eb45d4a009190d89b8563eaa86bbe8d78aedaa21061, 0xb07d8f2c312aa3f17ae2149ea9af59804eb2e454b7b4245916180637560d33edb2c8361fcfbecffbdece31cba4e58) (0x15e890a7b1f1de4ebe1c8abc3ce0059fcebe1c5ece4cc5da01f9137ccebb62ece0a0ef8ae753a9e12ae48cb95d0a9f90, -0x682c04454ad510a4e3f9be566a24854ef89c33213e25ebd6ccee2c6747fe5b0ca999c74ca4648216af2c3d9ca8e2c6c) (0xa48847321eb9a227bd3741f2ce0851457e77c4cf48ba01176289da446e639b875a681067a2b64365f9704a4f3714e9, 0xfae277ff70f479cdb5a532c7933afc511d4ffcd80763b0e88abd0b5e736a516af51969ab24567ce9bc0f57c98af5eb) (0x694cef628d7f0a4bc6ad97be7fd6bd15a51089ace2d0b8945445c02758e7a59c9fb95670f6ae274115e682d9903152, 0xafcc4c76178754bd252f89090cd98182e9bb435917d942fbb8231ba9c8a85dbb0d5d8c482490ef2ca8b7a6e7e6b53) (0x10fb3933b1bd7b9dc0e9b4f4ebaa9744595de536cfae1c4ae4a66d0b4aac114850b4785f6766626598c7d8bc315c724, 0x2cf5db42531346040d986aff86c2f59c33303d05d7d93f88dd8ed115365e1de7f065cd3111fa1a168d2e652b8989aa) (0x38eb9254f712794209c97d4878d9c4422c738fd4340276cd7acb3e68e19936f011f5f8cf5eaa6e98392cfdb0b0af58, 0x5b5121661ab2a35640a838914eb977998879aebede6ef141097a50a861d5eb91f86c1a5a0035197a8be6e1cbb25219);
  Twice2 (0x156ed8add907c3793119d22dd46157ddad2b2802f817978cd6f0d63d9923768f98f8b0aa6a448bd75b161168381ae8a, 0xd5f5ab53ce6aa64658dc519d62083a91046cdd8440761fddea6db1b727d0b2fd4ff8a29539433b3e0adb52bc16d49e) (0x8a74dbe6192ca0cfa7eef6626660bfad18bf4db9cc49241fdb8d211df30d0591efd1203a3fd04e4a199c0a7cbe32f3c, -0xe9c2119913b57a7d6feea92a361ee1d55f98d4a1427a25151ac1f6163548710c53c6f892cd56518f421c03436a259a) (0xf3466a526cbf4a7532d5bcc006622b3d0efa5b2ba037a45f01e8294e571dc7da3daeaa973477f669deded75bc8c6d9, 0xe1d0961983858c46d76fd56a0129c3f38cb20639fd0e6998f8d4c6d3d96072a2e05ffa6c6c906d3157155cf303bb74) (-0x102afc230a5981e8c817ea9c990b84cd8a14710f0adb95b2a005e553172b7f70602b324c8940219c155530fdad965db, 0x155168453ae0d3f5fc5d326809347e25e9ec19e79fbef906c10ae82471b72566be60c1111c35d9883b86c9946c65b0e) (0x6d84c09bef75f3cead30f68ef346d3fc599c6cd5ecb67a1ebc1d47cf2525da46d806b62c91d2d34cbdc85f5c0659a8, 0x9a4a651971fe556f2e87dd464e697a2a24c8aead20eab6eab0bab75cb02de79cde57e350ea7ed27a49ea4f751d7613) (-0x7d1a5d4606099f609a200c31009e0497d5b6960cec4198491adebc33fe069b0556000cf6abb7ebd8d5c34f6d0c5366, -0x132d64dca24bf7b23351efbce2555e6d0d6b7505ab34f1a76c4331bcb5100b9f1d3dd7c9137c7d61889aebaaf42bb7);
  Twice2 (0x2d6b075b51d824cfcdfe0fdf756f166bcc0dc4e6604a63dbf7ce2518e572d87c2082113991aa1eb922a2feb0447356, 0x9d967cfcd43500a96c1dc56cbab75cd3f6ccae18b5efd81cc6d075d73474011b45b3b14268baabfb5f610064d348d6) (0x3372632a95c28db1143f8b3fe89567899e83a7c66a4638589a7e58452f03f3e1405ea32dae6f9048d58c49a623da6a9, -0x28d52da5cb3aaa9edbcaf9710f5150dddeb997c0915823e5852b0bca690268ace9f904ec137ced455cbbc48e4ace454) (0x18eb865ded8b6618925ec87a8b6b20e4b2703a2dbf532653b2126aa82e17f0e920953247b5181d0be6d1d851c5f7523, 0x87be79849470884351f32ec17f8f30398529b1813ef40da9c803268d137bfd20debecd051ca0e8d2afd1e4b60d686) (-0x11bd1b3f7e2cb999b3c8514adf8f70fa8b4fe168eeee14ad47f083b26e42cbf5f1b8718cb3d858a1a5ecc11c5bc0065, 0x2145b74d99937a9c36d144b3170745b995b09b36835de9442ed001a455f854959450cbec88042236f2540e51ace65a) (0x51797e05113f0afd591374098babe5a0de8829bad01c010eb8742158592decc7e92f9c3239c28ff936270f61c5e96d, 0x3969ccb808b4a5a25f18ad59a869e55577fe4091d36d2d51437a5cbb0f3609e6f213ddda391a44b19963c02e895e38) (-0x19e709a3d4cc29d4eeb2a45b1f007ed3f0a120648bf063e75eb32602595a3734eda8596c0c1e077dc3923a251f798b5, -0x21feb0000b129af164efbda8d5699cb8c7651d925ed94ef1503d616a151b346280556da71e7c212cec6498a4d78433);
  Twice2 (0xb59548db935bf09117411f59ef6f92ef5a31057aff8bcf0958050d9963addefa9a0ec3b5689b36042d4dabc567e17a, 0x19d7700fc1cb0c8eb330c60ebf3d0e15280e41f38c1f6d496770504a003593a73b4f580618990c647c8f55b83e9b5a0) (-0x6350a38c652b852b93dfbdb9748c30b019f6238f0e9cdb9c5c89da07dcde1ca43a9105f922642c75c3505b344732c5b, 0x9de35f26d4442144bbaebe8006d24c776d746e2bc70f4ce78af8b26d25db43797eff51e599e80b054e1fd1656eb9b4) (0x6e5bb415af8e844ea9b8feffa8853a8d321529d058aa94fb60197f558fa6fd1e8024b394d7019f32a7092ffb38dec9, 0x139f36ac0a229c511d738809a318c85c9f045769f970cf0a5702587e1540c804e82648972d9975b9eac54be84190e2d) (-0x77622f299f3b2bed6d0c9ea3e3a335d7737c5d2e8f9701d9f6012817ccde025f3f5dc4fbacd6c8f1d4755068fbe4eeb, 0x15d0432753577648332b538ab68699cdc4054b00213937581dccb570fa523bd76c4e17e960649f4c009e577d7e9a147) (0x15db24a8502cb2a0734593dae4334963d120ec0f02bbaac9998f4910ab25604db2fbd9e4a05fb4c9d5fc19ccd089b48, 0x1a94ad0f02d5cd74b9444755f47b458ae7c332fadbc2da644764f78aaedbe94da431ba14873ad56f3671039dd4d9b3e) (0x6358845cdea974b1e6966b181d720b07f684b66df601791711ccdb550d7da809300b0ab2888671c80499d1f5056850f, 0x9433557af1dd1dd6f2bd4d3caa2fdbbb489548bdca3840e17da782843f1b3d7c05c753eff8d6ae0fd9600402995434);
  Twice2 (0x17e57f60a54c3ab59e23857021004c93876ba042e2630b8babcb60973333ba822661c25b25e522fb9a1b247c8802df5, 0x15930a6820f480dc470d7c367f3771ad92c1b43717945128fff15e425bef29537cb526268c2fe983954afceb9b4bce1) (0x230d306676d69b9a127ec25f7f6e37f87666c85aefa3d8c199e0d04ed37d48f60da7d97ab8ab451dd23cb443d236618, 0x341e05b9bb9e70e25946e76c37f21bf57b9a1e9edbefb04fecebb82b5e8cc0b087da4323f79ff44f8f1279e76b6b93e) (0x94427babc0d6ccb589949abbc6c03efe44ce68090a0da51ebf931bd28176c7a3239a835ae2edadeb3b1aa83c0aa6bc, 0xde208ca79b929a3d59716685579fdcb8c961cc26eb7ad22d87a50d976a4212a86347d91c78c942c3e071a1b8da265b) (-0x41503c2812b3bc22f17b10e5e575789f980f5ea99f3d59daa65ccd435035a2ba2c21dccddae8612bf7486a6260c8c9a, 0x2658a9026cbe115c834c4fbfced4c9ab20e2fcb81783933ec4bc6e7db186cc784f337805bc32cdcf05e1884ae4c5df5) (0x1025be1c5bf301ecb4d286190e67db0a594018acea95e34f4bcebbbe1a34949768e3c7cb8b296a86f2fa9de2a4cb47f, 0x80e3e72ee79ffd723ce443d864954434392d2e22e46b9e28ca7ea166ed5ccbd3b19036a403b3f3f07705480cd9cd4b) (-0x1920db238c731b5fd903984671d367693a2250bc813f6c315ae299a1e82eba6467ec74343fcb0bf020217fda0af3830, 0x33319d4609bd87fa883c6c49238dfbf95a05557db388d4e5151fbade39bdeac4e3f4dd4385277401e40ec067b92cde);
  Twice2 (0x2b4d95fdaa930f027f40e0f8d9614a86ce421318c95e3e788bac7573e4ef797240ace541a9fad2b04b8c6d3176dd25, 0x19b6dd9a4e662ef241393830220db050e07b3b83c5429a28afa05ff0516272eba8284b16e6a2583475efe0f24590019) (0x1826b02bdb2d1ebbc30151a8265e77cf11553d5cb2b52ef2b7b40ddc3b4d5a850c925a0b1c6d30ae4a13d599a910a7f, 0x3cce55030699dd49c91396cff8ad968da2f8dbce50f12d7ad7aa1b10ecfe2d6bc9f01300c9260ff495dd79020f0984) (0xb6c761deded336f6c4d93266812b36e27ce7f4cc62d6acc7c64a84ce17980f8da97779b0f245cb1052eaead094a8de, 0x18917b36b4728ab47be8f22230ba0d1ee2039aecdb82287782466645e32ae8cbaaf4b463f471925a3bc3a5ae60924f0) (-0x7aae6bb1a4f6e80deaa4417cbd0818bc4d51af37c30a5ffaea735a43884cebad3413e81be99373d4535fc5f006f1b32, 0x52d26a8b6c5515f970b93246415b496d0331f5aac83a04b7087053ffff0ef0cc618eb8a096263b84ba78e37d33bf94) (0xed66a5c0be2d09d2fbaf7ba1c7e54224f30d2d4f553104ea0d654fdd61d552a7a3cfd75cf383f75702378efd0baa29, 0xe7f66569fd65fc76e8798582a7a753e1829255aeec1e0cb0d20bbacdcf7909b138a06154593ecad18b794893bea19c) (0x32e006ab8071b2986ddbdf8b6cef1d2cb0390809165034be903793af26b5d75257aa31341a4e0950ff943fc1c25472f, -0x323801d7225c1b1c0a93e01467e0feb4647f1bec138ff2b74db8624a5083e62caff376a922fc41a55ccff09f2410c2);
  Twice2 (0xed7cac077b0121d86cdb8ef346695c17f8a7dc60bae5b2bedb13a44cd1379d9620f6d4db82154bf79b7c2b0826a2cb, 0xce9b02ef4dda51eec52b22317de90b48c1b22b75850e8f38bde1398eee04ac78d6cb6525f0e2cd6f4fd5f36e7e1cbb) (0x10cea3af46b8c8e49c2d41c37823d7e07dabd79bd22e38f4188e162d828dbfc3720f7f7ce7f45aa705ce9faf65c9ecf2, -0x205ea24e7fda061923b414abdb4c8b90a13334885dd8a15a7d968a1696de663254b50a221e20870268329c4c1b7e372) (0xceedd184755090066bc221f928a884814b013f0add1af8f84d05fef497326b48d8ca597f5a16fb603f332212556256, 0x844d9fddb1e19ee145a6939d2fddf3358e91174e75085c9162b2c1155b7e66b277632b1a4c929d78021d4602426363) (-0x16cfda34bbe259a22da1a52dd21de4e2545690254cb0c492ed15905b31e04a9ecbd07eaad319bc87d8677e344385a16, 0xe4180203a1d467f77e1841a45882e1b7e78b10696e5d6ddc056d39aad0f2c00e07ba65f4e24c59ccc913fb418d8f4f) (0xb552a28b2881aae7797823fbd547cc82540803060e9addc7a5ce5162bbb4f0520631b2479eccd7712d6979b7846e2f, 0x190f149d8ce3748ad4d65697006878701d9da9777782ccd1ea6532e882024e7c712d6d1cc0b0f2b81e6084ce132ab0b) (-0x27f84631e130072aa8acf24441444e0de9a00bfd695a2d06a8c1d56d00470ba0be22cc2807488bb00ab1009f155207b, 0x845bec38200d19fff63ee07ad35d2eb45ffbfa6c50ae018b32eda8432624d8f996499997ccd92449e9bd581df2cd80);
  Twice2 (0x3a4b6affcbf5e6f9b7f54b48dfcf417ff1b4bf2652df5292cdc19e71ab84521358f53b1593b0195abb335ec25217f2, 0x5a298114d84afc17755935f214d586ecab7a346aaa0be9f4bc29479c17a3c697655b9e0254ab23578657c69ceade34) (-0x1df68876fa8d95d29fd410445981fdcb6d21547a6945856f8a80cb0c4c7f873254331362b3a561021784fea2e9e21e1, -0xc527d06e8515fc885a54893b5af45df3107273cfc24d8ef9aedb3e0c140921bbb20a912130b4e0336a0ef6bcec15a8) (0xdb16b3710c0dbc2db79a99ae345a1d54260d38b327be280fc9bee7d782befaebdd25d7fd4eab6c2b492a3c5a7ba1b0, 0x8ac620194eba11c0f8f9e673ce791aa43a1d389b89381f1e268b79758b6f413d9fa9ad009c24ee620c19e57623c2ba) (-0x5693b129a48e82b16a26887c3b4204eb838f7427b574cb5bc09d6cc4ed69332f071062141f9bc3d8a7c9ce15882a68, 0x186ef44d337031f3adecc649fd7747c190412d5dbda22628bfc0989637fcbf58b0f6ea7f18366d88a3b4ae8ea0e8d0) (0xe3561692a0f2e779a924e36ff98e215adc7d78b3bce67f38452f4c9f45b027cfef3b6178321596e5e461ce106c37c, 0x496fb385a35902e63b041090578aa226521b784ef80de529c4cfc8b0e31847765b64e8e52082b5c38805489d361172) (0x521f6fe4971425ecccef61765bd7844444dee11ae398a58471e5130e5b8f33e5c5a889a095e70f14b1820f8ade39d, -0x36cd01e757004251f876b7c2d9cd0f10be56ad1fb25c80a8984bcd72bb2151abdb8dbd60c36eb662c023153dc9803);
  Twice2 (0x1728cd0a349ea871ccba3cf58d0041121d57866dbe77d461eb76ce2a6911d37b35bd0d6b651562d9f16fceb9c5ead31, 0x730ab786cdde7f672032404b3b69fd19ef960e481b5d53de7d479bdf52a0d0458f1499a07b947efa7b9a1bdb3aafd1) (0xa4d85732f55307ee5f7b9efdb2ebe53b13a97bcfecec3bdb4fc880a21236bbcd78bf3f0ab4a8809df54004f3d8ace0, -0x121ea8ad154c36a7a8e6f2cf1def18a63fd220eeb02ed4470b230c05410b14113b6b99dab37e9da998eb6b18e03a124) (0x78df127a2d369ebca80aea8d0fdd2b8cb8501e85f0f8692b9e56309994e1a011d5b83c067edb78ec6b2807e7a95cc4, 0x23e9ef6a72b0f261e0c6e3eb0351170b64cee4fef95a8d0cc480eb078663c19a284e67d6d05aeb128c7cff2aac8703) (0xa55740cb1adf4bda99a9dbf6ba5a7ad9cff9eba79374e668d1143140d35cee10e0970a3c91ce50207e77cc21459818, 0xc62b1eca10cd5405d0171f787b0ad18e0d03fad41df8a6a6b724b64409876d328e7b91952be0c738687b42fc9fbb8b) (0x169a0e0cf14d91e853eede9dc4d1ac21ab2f97fdbd4bd9678070a24ff289f77a09d99a1776621479f448461031e69da, 0xcb4a36ec3dc77769f0e9471cf7bfa56a08be5f3b690c8124364675fd8dcca5188ef864349a73591f5114e70dd441db) (-0x34edea4c6aa0cf091d929cd1bc72d50043ef4308f19f46cb73214c2b7a0f1f592828ce4135cf6e967a5203afc9bf2d, 0x72daf4f4645cd5314ac0572e949f5e36a7f92f676b9cb558ea2d17b9608b627b5c9e36eb805a7060062ad9c7945e66);
  Twice2 (0x15bfa66631d5bd0166689c62c314ca9ed526c211bff0251cd0f57bd018501748fd52f1f97e2d6cfc525b444f7a63a93, 0x19999ca15a3daa5df6a89888171f3feb87129feb48c4ce3767348a6bda0109eaaea86eb9a6553d9c92c5be105558e66) (-0x57f5a499794e747e5184c3732da88d5db80b3a882f3d3d78220a82d2cc90fd536d1bf40ddc8409f113b6db04f34bbe1, 0x3bce48ce4ba11d7d95fabaf77ff467e5cd558f331158b4d6d0c2491dd820c5a3aa657e62fe3ab31d592a19a0a806172) (0x183bd9e74072869792d9ae8f489682717389e6c27bb9579f171a122b218ccb64b84ba2300982a95aa698aa49dde40ef, 0xa042e4440cfae73177fa1d03b77e7ac424aa557315c08d812ebd2840de5cc92b1ce89feaead3b04c1049e94ad3644b) (-0x6845c727fccae68126a3699018395287db315a23a6ecea65215651d706ad60758ac8f4ca72081660882b8e805dc9d42, 0x29696d7ab21f603eb6c5bb04d7a094e796013baf60dfe836e16cf1ab7f9a0c29b588516992d65bccc0110dcc4e34ed3) (0x174001313388570e0665599904fcbc65019e58870c13a0258c18bb5b73de544898f84f46e914017a60645cf2be904f5, 0x1642e3e046c85e2799bfe9ce83a94763c60a0e6fa005b66544f434ce999169ce604150f1e037860fc4878c5852d5773) (0x1781422113f97fcd57420a775fff18faff3d5465a615fd0707beb171ed02787f0e7ba27553face000662fceffb053f0, -0x162a64f30673135236a32f3518afd636525960f1009912aeea3ffb30ee4f86eeced4862e91e682fb0a8958b550ebcc8);
  Twice2 (0x3802ed22487df5017807c986bd1b03856528c2dcb5454b7a7de6955062a85d8043a2def8b6b019ce3f67ab9e9c505c, 0xd63aabdb155f213fdf01bb6d4d5db189f3601fd2d1e7452ee3505d259ed5e87ee9d5dccc89e25ef2eaabeddc7b7a9b) (-0x7259919eb7be7ea593ac27ece68d6c612eb0b15e2123f992ea4080d4a9343e9ecb9f30cbe8e8ceb18acf9611dbbc1fe, -0x19365484a575271d3eb7cbbf9590ab13c5ece752d49ea1e68463935ffb7e43ef61e693b6831bb8d7412256e53120cc8) (0xc2e30880384b9c00d2ea12a7aea3afe62bcb5838338be1274a5cdfc4e210b4bef0c47278f645bd73d6ac5323df50e3, 0x14fc2d8e0518c8425e78bda9b8313106d02efc3c0dac7a661005d35dd1d48bc2a3fb23796ca41889eed4b6b63fa65d1) (-0x20e140dfa052f9f4c322b83805ea6b2a53ab6ec268352627bfd248f0a2d582f5bbfaea66a287e8ff65b44760894b2ee, 0x37c7f5872e9138d2bfc28e41361bb6dd1f2d247d036da5e7fdf9b24c34021876817e37073b5e9eff3f446c6ca7d101) (0x1342494cd7f9c712d0b7c472ffd1e9473d3af5885ec567a59d2aae9c230e9585b961e012d2f2a8364f7fd16b00051f5, 0x6a573479e7dc1ebc087c9dd3830a8e4e99fef490f0816a3f0afb4a4d948f9ad90234bdb3dbc2cfe3a6cfba0b941d04) (0x1ce0d8daff3a6ab107f37ac02fa610c2e980278adbfd14095f222641436ddbf13ad62fc04860a61f6522356dda99610, 0x492e98cef49ab586ea43d6ef571ad0c9d7ed45e35d424171e60c2448417161134f62e19e0b1ed72ac5d207949d2ea5);
  Twice2 (0x12d4af4f96108b2994231b07a8fb1dd15153448b741e943ac6439fe3d43076974e7fbdc532e01fe091a1e3be5b94333, 0x45d8b7a97dd2e2c2814e1a0dd0e76e18cd6a457bb4a49a89d2a97fd6176a57cbc7fabd2b94c94ff16f8a9f9b1d8f5a) (0xf54a9284e0f20d30c6fd9db10aeee9afff2df1c26016ce37036821cea9fb9b57bee964d57938f6722a93371a72b4522, -0x29792e42ccb3f8a1503de0740606f4d3021060594bb9ea7ba07bcd34d07c883376e69650465743da3f6f7606a2c9416) (0x363c4cd865353c551753e71a13877620435d69254de5e8cfe81302ffbcf5cb6c82f1f0e5e6db53ed5a1f9db1db4afa, 0xb3962bfd66c974d93906e118e4a73dfc86f5491faaeeb2a1c749262b2693e9e6c49e7b1c86b96c818a42be6e7e8f44) (0x9a4d1c8db6d6c8bad3f33e5a2d121229ec9861c6b9cbeb52a6531e324fc24322be7dedfa4836c54d892189946f7535, 0x61d41904496d1baf06b52c31c7a5a39de94d5e7ff97e1a290d94f7bfba2901392ab31665ea66dd2e65abe04470def6) (0x64b0824eaec1ed948b726a5316844080a0bf69a927b10e63f2567847c55d34147f5af960a57a3656707a7dee328046, 0x16f913f21b12a73c7de988123a8e9fda41639557af3d4cfa26fc7970bdee8ddc941373b1ef15a5bc0c0946bb700124b) (-0x1c4602c507f7005039b78967fa41860f7222dbc1c9bd357aedb44548d9f605c8115d5b88e3309ddd8b5ee3ec409caa, 0x84347e0b6c90a6b7f344c3d989f5f2f905cf44605c2d81538e6f5df955c6b543ecb8d82a467883bbc8b2b1ce3fb0b2);
  Twice2 (0xf8b8dc7c71883cf027ddb50b3a2dd9511535c3a9a5e26ec3ebb45ae783f2273a0bf7e48dcc567de6992791666a114c, 0x6efb30216bc7c1d3bd770627c108867095bcf72649fa6be14a90dee9bb43f25549b495d7af6b2ea3da563e35313999) (0x1102ff09458418b7e2a4377db7395a7d7a190f20eec409c19ef21cdd6df01cc445f391b7a0bd9ae56e403b971e645d6, 0x1551b67c8aed1902e87169d58255eba5eb3f2990d3392b097b4d0c20df8cd8a0c7e9f0fa12247bef53241347fcbefc4) (0xa18e6e282138270ef67c23d661f51ace624f3f36346f99bd5a8b6f81760ecf852da49c0455ebd0c60cc1403cedd9ac, 0xea96cf119ce29340bbb89b6a4bd9a22f7b4a0ca101615ab373f1bd59252067b97a99fe23e65a37447efed7cebd070d) (0xa5bf96d0d3685bea5759c2ab0a316f2ccbab5092056768bcf107fa4e314abf997a8ae8f3c0098bfb9e3901d14bbb, 0x80520241ea5ea83462cea6aeef389268330d6143282963bbbc538c93d34cd26acd37e00d8f20a57512d7a711da5f43) (0x11c70954217c747a97a5983c5216c9a8e45bf155ea04d201a5d161716b47f7d6b5ba01592ef35cd69682eaafafaea34, 0x14a766d208f1cab8fc34767088b0a0a5c5d8fb236b586c997db897906f6544cc2beb59a90055484b31fb12c4ef858b1) (0x8e5e101a9fe83154317416806476fcf007ed585b138162050d2eda043dcd6a7743f07610f758698472d256a861f53, -0x3b7b7801272d516e4a85892a9f0eee7724fe6f9f611d82736992e7b9290d08c5b4542a0a916fb05b751e45d7a13e0a);
  Twice2 (0x9a1e8f6ad833c4ee588917312fd93c8bbff6b7fac24ab8bd3920e9650f37878cc9a06b6548d62f04b4f0ab0d29f20f, 0xc432ecc87f9144783442afa61b3a23abbcc52bbab13aa5472c3e5b296b70227050e32350114a85ba3cc279f69d49ce) (0x1b17833ae364033659ef2c414252d780831f9aee22f82961d31cad70694b7f165b8fb6ffdd9f09dd22fd0d48835e903, -0x205b9b903663084fec3339495c319c071745d0fd6986cb38121943e3ae8d465953b0f1883ee0102b92adfcd970edfa) (0xfa0590ea5b62fbc0d2d859044b4993615b25a7a17e74a80ddb1512cbfb546cc1f8eedd9750bf7b3d1753923a3c0d82, 0x11a79e50a10e68616a445fa0e334877811958700a5367ac5b80e4db02b660678bd481133889097953fc12c4500f74bb) (-0x18828823f4ecb34876f80dc57f248b8dc17cd0b4a42a400e9dc34f3887cd0c85d4a4eae6363c88bebed90a954290ccd, 0x8c915545d1aa113be5c4c03057b53a4718aa18d217875628e2ddf7fa9f4baa76cc9d35895b0739442fe12ce86a9b4f) (0xdbc182faa69735e0e1b56c0d26fb18b9809011000eb2f23afcbac6637d4da84bc61ac97257a62944f394a6e7bc7e1c, 0x1a91d424e51e2f98a7a030d9a9ea19c735cf1ab96fef7f0d2256c6fa8614fbeb918236bf7edf56b357a14e519ec6f49) (0x4d800b1d9761717e4ba7b13f5489293efc3fb2b843a77f7e6ca4912d9306b75ed40e7ce34dcdd7b07055375c01a23a, -0x397f6e959356c1db91d47209fe8699743dd02fc6638b4a3c6e3ff6c6e1c940d1a1f6c988cf946056bb164cdf396d60);
  Twice2 (0x1adb0ca73f3dc8a3a6535c797f6f71ce01bd1fbc2cd774963a15ae55bbfa96e76856be461fd9b92d3c0a95f6275e7d2, 0x8bdd0a3217b92a98fb6cc337f70a4eec424493f0a6f6b75229d90bc837259655d01cc7c4750507c04dba4c30330844) (0x57b0e732c6b7cc2ccdd448cf269d3e1baeac33f59fc44165b26a815d86877ae65adcccc6482459eed285ea67659aaf3, 0x71a4a753860b0a23e651863279bc46ef2d3d51a2f46a55d24c44d1ffa10bb0eaca86e2c24ca1e6b339d7b79026ce0) (0xd80603a42ee7b45c562f7e4f092cd7cee6ba194d376a3a32d6cb34fbb035a7311199e4f3a5785aa5981c22e1b3a991, 0x152f35a724034c5a7e64de6443a4f08cfaab86e47b7e8d8161e81ead7de4e06db86d0f396f3b89a4c563c65b4374e34) (0xc9cfdf0b0303f87dd8b0e11ce98307ce0d17f4f1a05fc83217667d74c2583ea8e5ecd193804a13a6374e2230e7495f, 0x11760b0c5108ce46d2ee8e10589b16d06d0139bde4ba94c40b34cf550225debd5ef93a2cdc2e7058ba54d7e76760fe6) (0x78fa5330c1462064d7ef0bfc716095ed5e9d98f14802b014f5d2637f84d21189cadcf4e3c0426e37e3fe1596f0551c, 0xff7ad68ef856d18ac7642907d1280bef3732cbb6702b880db5e748009ab87efb95894b6088cb07e880f77e166b3779) (0x7dc0afeb3f90c6351314f31e785a5bc84444b0e7d7ddd268b8c18246102eb82b4988de413c1594ac27beb270f75c2e, -0x2d59f58ba98fbc67e908d9132974c9a8c0d43d8ae174aceb3c5e00f1f3b3a486923a14d12e6dc3a89040b824342700);
  Twice2 (0x1778b23bafa84e246e7f33b33490aa190598f2e46839e2fb3dc5bfbb7edb44b1958ca1ac707cd66cbbf68de4c81f824, 0x17a32e9da98edd6b6c2a528b71e3da0e30e1ad0ffab5d0b226cd79036cfaf13542ec0d026abb301844631b9a3ded90b) (0x66d8a7a3123a0e9b0a0926c17d23d8c960abd20aac8355dc106fcd9d96e873466699eb8b4fe177b8bdcdc7f855c51ef, -0x16a714b38d4626313bd22edc8dadc9cf2bb3bcbafdcf6c99514967f866999d731e5b5b6c3ed80df9b0394265ac8ea48) (0x8f9d7463b0c4f095d7f7fe8832f0dca7875750b891230ad8285389baa6b7b39d8e99837ea2dc2877a285dfe98500f7, 0xcba620a0e6181e44a5ee717bcb598e413673465011f627843842e349a2e953285df0c37692035143b92b379d1a4656) (-0x5368027d4933f9eac852fcae36424a98a9056393d55b0ffe1ad80f17fe6c41b195712f7c5d13093f0e46dc81594cf66, 0x2944179ab731404bf993a557e18cb1260688d3a2f9cc8a5e24d44b596439dd0a29eb3e03897058226435c3c1abf785a) (0x19f0196516402f7f0d606293261766ed8dc3da3d53ce2419ea8b984557c3daa2f39f7a69f728ca0215cd75d7365ebf9, 0x14d4d44f04d294f10b126657333565ca1581f52f2da9f613eaac2873dacb45a869fda0ef23667a208396e41a362d77a) (-0x2137dbaa8e9e1464fb01e2914a6da1e4671bf9cb76d279210a07d930a44ced5a5358758a396dc33d33d746d22fff21f, 0xb5c188eba793f8006cb891597a88c045584f7ccbc59502cb9381f0af9e401eda5320b913d51ba6647429f4ff3be4e3);
  Twice2 (0x9e6782dc7f2d780759773776083a14dc57a25c09401b3076f6d677d02552d7e6faec2ea89d2bc1cbbe75294c55f9af, 0xe899650b60af207b74b043bcf6b88d06974bba0bf4624e600ea9842f85765089862e6815980e0b042aab8256a6f66c) (-0xc23a6c4e61f6db309290591889388ac75574f0b61a9cf06a8ec7a7eff2b220c195c812ffa8ae8d933d1030bcfe03d9, 0x11e4acd14194e650ab015e52907fec21729bf7fa2f0758c25d6de53dc038a99b9986b4d61630b3f665ed30963906508) (0x1202d5de64e0e2a9738ed6d1e0cfaad3f6a411fb6ebc88cfa70cc49b7f6a6b69ba2879f86a9906e4437c47c2bd26fe8, 0xe399c2f2a874fa1e13b4dd0f574926d9bebea55e718b9421780e1446431a097935b5fe7fc96c0fa743d2e57c7a34e2) (-0x23a71346db14f2cd936147e4a9626bad992ce6ec19b5ae643e8d511c5f06fd7ab5f41f54149b5d4e5bdbfc7ab734005, 0xab47b6a9a20e4a81d291f94d22157d0a76ee0015743f3a9092166bf9a1eb08f55ce8446a61deee9aeab33650ac3e1a) (0x25580b1cc620bc9ee2024ca2733dec29ec9c07e8bb2152fde1b69b19b52c379deecfadfea44d2e3c58bb18aa4318e, 0x131c84ef7741ba644411ff553d49562135d56fb9bca273a9d49ff3abadc9aba1dc28be0e85f8d62209e0bed4c55396b) (0xb8541d2ae2844b6384b195907731a1b9440a4a5753f93f9cbe07a5f2dd1a5cbd99e107007ac6542be2294a8817a0a, -0x56f9a09b1b2a072a665dc9009f97aeaddb7722e2a0d8938c11101cca804188afd6b995b3351674c6e432e5fd5ab245);
  Twice2 (0x274f59c2ba82a301fb22c12cf179dc55414e3a88a3c4f530567febd0a9296f24b67b9532c44c969c1648e45459d125, 0x50565ace445d0066506163794802d1f1eb97303a81a60caf9ff447f0709c2e35d47c0bdeb3a201db84380c184e3db8) (0x29070888b9f577da36cfabe05c537d8cf09088a0aaf2a33321dc76b17507130511d184c282315902cfbfaa86e0e61f8, -0x359f70fbb2af192d104cde0d547a7c70d29b5f8fa99ef984f7255a15ea618e730cbd2d8080ecb79ceea228d177549d2) (0xf0492dcf08fc2ea6367fca56824cadf2b68f751af9f759baaa2948366ba385774c166783f567d630ea630f3243f664, 0xd3ead2bc9eb913c9c29442160166e2af05ae040d89c1509ebb2de421eb53962c144fbe146776fd1d74e78cdaf9820e) (-0x476a81a8a6a67599f10938bd0f3f635ddecc440b5d22338a4ad19405830ec65c32069116f1f0e2b89e810902576c1b, 0xeae4d456e5fdcb018cfdb12264daad220ef8046eac54d3715215df6444a37b862b2bb918ca55c885a947e9d665b5e) (0xc0b699b348c2e08279fcb86d422fea9808af449aff85c6286631b89d2afb403ea86ffbbc7eecb9fcd16f5e2c1110d1, 0x653a636c8ecf44bc3118e4d2ae4767e48f0fe43de4eb5e7e9ec28024aaa33444e6f69c2c18bbe77727e26072e6f0bd) (-0xa445ff090aad4eeb3d5a012bc50ea11bc6e83cf7991a5ec91ca3731d6c569e2094438e124a6a10845591d4f8e2c2b, 0xa60376f0a618c040c383e5a999566752cc3b2608f70803abac76ffa29e3e1e5bff3415b866619c612ab5f1da48d5c);
  Twice2 (0x2ad77e4d5e610aca167cdcce8a117868fd28ba7d60341042a20ed6dacf62029116f9207b9659a7b7b0242b4364f4ef, 0x14c00aeae2309044a21cf9de08743753d0553c680731edc70eefcc24410174b3735a8bfc85762baf84849fe13115b26) (0x1a45e93a3626ce944c5573fbc55ceaa48c9d630cd71ff11ab3c02cb4c60a21eeaa88dc7762dd1eee31b3d2d5644edfe, -0x1888e255d7cf0a0e1b609ab6d481186784058a0dc0f801f3ffe7b5781888e58ff74cda0ef5dfefde92c95f62c102bde) (0xe5feb113c954899be76d5f38eceabdd9fa4d152a10b21b2055b4943d2c58e2bfa6203b25c0552aa6e9170da92c4636, 0x1962535921f51b80bde190e6a8e0272ee8e5090dc1c90b7b9cdbb7e43efda23e8c5a482e083cf2d47086ae74cad0cd9) (-0x4fcc02e1a66a3ec7e29fd74d306c47feb521fd98025242cf5715eb4a97ab0cd6705e1abcc3d4afc7d163d6d0c23ec11, 0x421f0681aa73dbf9152a67af835e744c3a9b3c455fed743aa915f2ac82e8f58acb34e45ef952ed394e4cc8c7388fff) (0x1098327d062cf35cee8ae245f6176e282afdb35ce69c00a5e8a7fc37429afa787768927b34111b8f78dac3fbe74b10a, 0x1ac5fc94f9d22ec6246e96ff850032c202c8c18e252c1d6c0d7ba510f1b764a78541118a9fbe285090afa4a097977d3) (0x2ee71db4d8256b1ae0d9fea8c1926147b92d9e623d8d6f304bbbf514ba2ff8ea5e079b664d90a153ac3f8f96bd260c1, -0xb664fc597feaf6197e9ff2c182cb1acda932622c375d5f0e8560a888feaf020dcbe04aa474718cecc99c83961f741);
  Twice2 (0xe4461bd56e819c935bdddd98670c1921096394886466d5dbfb51a6884d65b940bdf97f5dff2aacd5d46d38d0196b1c, 0x1308b5c73fa733efe2e9e23bcc774705dc9ad873a4408fc5329d4c5b69a4a8806520b13e6c34b6e3ff251b1efcf0493) (0xa47bd7891c1858eed77c4cd0af23ff4fff73ef6da3f654a95cd52937edd0135e559654241bdf7117f73f97f84ad4589, -0x1d83f960f0a6d6af283005029b8f1faafbb8222c1da00780f2acaddd2bef4ddaf552e2c004a6ec695fb5cde7c360d00) (0x14e533206bc9bf694999e3e4958cbcad14af1035b3336130c1c78fc63b57a3d2e374cbebdca2380ac41a16cbbf92ed5, 0x25b30fdb83631a9d351ae067dd4fdb8b2725a4118651ccb0108c9d1b939d44cb87211552a97551b250f65b20cf0d1d) (-0x3bcc4417d1b427fcd3c9d55dc39e2eceb4b7892e558c0b188cb24ddd8720550da3cdbf5651bcbdf7c3702d0d513ee3e, 0x1432cef9976eeee6d09fb8ed05396818aa910b3aaad29f29681aafa5429cf58ca0fc78a9786693529007d678da8bb59) (0x7c154e5daf03f453995a3539c622b2545171197947efd1d0bb6ac250648ef2342694eb0f4d36a03c8b4051e3ba2f96, 0x19173f7913267731f117d8815ade4855591e87ee87ff55858461c3493ea5a7224ddccc55a26e9121cbdb08ea0949297) (-0x54f6961d6b9034154f4cce1f024607c1ff0f489d45dd13e63121c2e4529510d56eadae65ec49d48cd906ab608c9b3c8, 0x79a4284a3e281d30bf24eb5c2bb886816ca88f2981724be6408bfd63f5a4a460a16030d31a373fc387f9ba1c9c72d9);
  Twice2 (0x1583c70757e57d76817046ab3b576367d7bfe319b91c0bef9fd198fdd38313e6c21291add92284c5123230a3bff0331, 0xc2bc4459bc3f44549fc1aaf0e680e8a490ca61ded6d4e87397e3d2b5a201005ebc6a9928c5c3bbdb978038d06974ca) (-0x92c64f74a2b5fa9cd40bd0a5fe270ced5332645e0a6e7dd1633ca8da638a947182be0b85d8b1385afb33e38ffe38474, 0x242faa393358ceb5f60367dbe2c74992970916d69e804fea764f307287a87ffc21c6081894a8584afb24b7cd81bf5c0) (0x1451e320631dfe16b970c25f80f5974f97c77e6dee77e4e8e791e6ea078b089295db5ec2e189c6a7e84e86b47120340, 0x6a3b1f3a438f01b2a7eaf2accb9a3c2253fb1ba9370984de79b34bea8ee2619de6ec36ed8d2b3e30b195590a990fbc) (-0xa54968b1b92f22a0e1f9dc3b17d823cb68b327a8ec19f32e86bc7b2ff35055fc4b72078f34bdc80b7863ef1c469e7d, 0x137a023619b6698af6becb8c0738a3fb51fa5083d4acc88deb69579a9076e9c621cac51997cae2243de9246bb50475e) (0xb885b9cb32078412de4b5b8dd230203dc135f4e6538f51627a8c8d35aa89de7b5e6a356b927ad29d29d883a6ce2f, 0x46b01de5f17efbc00f5ddc5107e702cb26a0a9a9e19d6c2debfe193f1bfc5427517a336025042cd0a0b4442d9f5b47) (0xa27709ba1709aa5997fcaf963f5d771e09459d17c731b4641ba660eeee20c3c267c5b29313f79d8abd56e4cbcdac0e, -0x32aa97a95c705cf9d122eacb29f09bab8bb7b282277af911ca791d8f1d2c05b4fe4741e70c39127f4d60423f0263bb);
  Twice2 (0x14ae71ad18657d9b1a65c1997938ecb08a7a2c27a3897acd423a583d1555adff224e1090f1c490c9d70ec5f934c4ba3, 0xfcba6c23bf22db693e1b4ba29fdd47321e77c52fca64d485f16ee9d2f27523e733dd57d991e08ae884962fd4b809c4) (-0x2f5bdc2c3ab46f370fe748abc9d20cf35083968aa309ffebf0116df83f7c6e3c037cf5b803593f8ee60e3d7f32dd4ce, -0x17414babe5394fc2808c224ef2fbacd9bc58f89918d7e0923b4f9d7cb673d1162512cf3bd23359073e4cd8361f5f59e) (0x35fc7fc75e445dc5f100d6ff7792abaa0009eb822618f6dac6a5f547cd470cdcba7bfbb240d8b5bf2d9cc9dc96cc8b, 0x1a012e295a9b858840a9541b7f8d3101631e4b9721575db0d02773ab08b0865e7673ac87591331ac378f4a6fd6d99bd) (-0x1e7ca771d5139686159fdf63ef92dc088e1eb774a24bee2c49c20748708c54beba1cd8e3577f629580591498c36bf92, 0x184c38767f88c05acaf8b3fe2584fb6316331e28a4034e2bd5e504b463933307f7ec29caaf3acced7e3302889d58e63) (0x98881af58493ab597b7aeb9ec459088dd4208fef83e3266b71f7afa9314d987e2293e91bfcf7ce0498d32052c2698, 0xe17b6bfe6279068f8a609fc518d2ef7214e65edb954c5a14f4c89e8533d55ad876a0cb9aa85630d8bb24e4efadb152) (0x45e9708d8b3fc4ee1038133772e8bb2a27a99b3740e322dd07a198d3bf26416e2c94a7a5a1bb1a3b5361f5392de604c, -0x4f0a43983dd05363252b2a7f2dde4cfa389774ce2c12a2184f90c562d9f07eb1082ada3b554f0e536563397900f6a8);
  Twice2 (0x12a5231508d283a7ef3309faf987b75365ed094a40d14ea9e71f7d28ac1c5047586eb94f2754b866f1ef51959f42efb, 0xc2d43b9063b4ea45cc1a718c960bf709d61d09f46fea4dea2384f31dcc4611349351e92790fbde8c0255f1ad494dd2) (0x138f952d4d5a6b0c1dc53980d08527a41d8b317419c7c9174ceacb0cb9714a79e3edce3db54d6092326490c8f04f7e04, 0x81297c939a3b6c57e9175e0969885e016fb8efbfb1b1e96b56f2dcd557f66c44807ee5d6440ca9a55820f46676e72) (0x17a993d13514038b52f9872c4cf981ccf32eb305451c6f548e970682fdcb00a7b576fe48fd0d48eab4f3b0a1bc3ca92, 0x1aba13969dc80ef987912e52cdff713c2a6a1ab1edf85a2d6a4471c31851121e323f06d8c49dc79245bfcddcc3b9079) (-0xea49364a1f2453192c154ed3797c53a9dba614f29bf54d64fe8267cfd564e11edb1a5382de1c957eb98fd03af63ae3, 0x10e30a4bb363e86200a3a9aedeaa5b6151902b74fd0f4c57bc63321a63dbfd6485be3c0dbd77c8371ab2ee0baef4dd9) (0x147509df1a54d33b60224610c4572009fd33b1571c67f2151b0bb3ff0453f00035d334e81fbc0979be74cff3515b5f0, 0x121835b01ce30f32f5267aefe7cdf8eea836efaf952a72a8c386c8e7ef96a95bc576e82dcdb2ed1441b40a8baaa0b87) (-0xc6ebdab711c301500df3a33aaa8c0d8b20d6fbd202ca5f05e1969b772235ea366c9d704fa4fef0b995c454cfcd744d, -0x9b0393e56b9b09a0cdee71d266f859e7df90dba655222832c2044cc134a6db30e5590709486f3433fcceb07e1debeb);
  Twice2 (0x4cc352a6ae74f6bf5163da573dd73a9dc11d9687296fd41874fcb8c3eb8fad3763a2fec40dc3fb65869bd69c556f87, 0x190d2e8cdf570bf403c765ffc651e22b542f97a33d3e3997401187394a761a2b39e4a4f332d3ca1082ec90c3bf38357) (0xaebc18b4da104f8f40d0b4c2e12026b07d102ee1378ee78828523e678d3aa837f176fa2c1881a2cc723a7cd4f2d0c69, -0x608ac60dbf08a2eed0be32334b751364912058ec3348df6e0c1eba54d7b8db6949f84cb2a350b19a0856e04df3eb68a) (0x6fe6a504c247d0cdda722ca0ec77f5634823666985e62d263c02b44e36f2c09a4ed692fdda82d4e444e5b737ea5dce, 0x7e9ed91ff14d3c010314cfdb5ec0905d5a4b6d8283b8723cdbf280970c72abd54448284a3b35507c81e1e38cd4d3f3) (-0x73d73bb4884ccd913ff4e919aa147eeca4cf5f9a98d9ca3bab965c5bd36492c5b40b619a284363f93b8154f2df25f96, 0x8f0884eabdf3cdcc8cb9546871b09093f69ad1eb2a1ec4174176bdf1e38cffda4275a2af989cf830d89280813402dd) (0xa0e2958331dabe55e0357ebff9e35063fbb1888c3df2c2862f7bcd15668f65538f1a461c359a178450b28797adb30, 0x6d67163f41b17434aa3d4456a4ea1e652b3133636245dd2701c580dfb01a43097c8f78e9daaf55eaeb39ebca6066ce) (-0x54a99664063c8bff595b59a4d8318aed948841f219b2f3faac9675e8b258351c70bfee3b8119f441bd6d40675926b76, 0x12e2d75fa7952beec03167a43adc28b73d7f5e11e7cc03d982c63addb0b039e15cc2175dca423aed484ad49d1f754f1);
  Plus2 (0x11c365fcc67b87b38bc9e418c92356bd3fb69c4f7da47c1dfeb46b976d66439772a777e90689f44e9025dcd073229e8, 0x10b28f7f9d9fda0ed567ff90571c12a5f5232962f5d45ac0407cb3deb7e45c71efd1c9e9e05345ffbd5de018d14590f) (-0x97d73d1722a684ce886e39669ed953c87bc8671cb6986b8d811a6ba6531ddeca17f2959654b380ea733366584cdca8, 0xf2f2626fc1103985443b3f1bd301d8685339256786f2886ea5c1638559ef35c7c922b3a2dd66bbd8b7c30249de4ceb) (0x17f80c6b747c48709375e0e14a8ddc1fb967fe0c85457aa52f3929323da6ca684326fbe5f5b3ec9d70490f3a5ece9b3, 0x5d41d36b2093d0a398381dda1e4b912d40247ffafed072de2881c682794bb5e24fcee58a083795ac3cb0e67ac65ef9) (-0x281be4d7eabeca5f47a686868a7eae6aa8db4e83674a10f1d20c0468963ebed3cb166b2fb05831b1d678ebc10fca13c, 0x160fa11efcdadbc5b3a4f5e7a56fd0f0774ea81af8fe81854cb65fc45bfc32f5996f52fc7be4dba68c991135f079b46) (0xb3c02aa55b0185f5d17d9012a47981d3b070360bc1c0be1b9151428f84bb6da6d3a2f1aaf5e427d872b92845b32e20, 0xfdb7b07ef149ec3e603f36ccbfff70ea3647cfd079b970574cf7f8e6493bd95ccf55253cbae0fc12c864812a7ba255) (-0x11b03016b0301afe3edfcfb2d1d4166544f3922ffc1ff6ab19951c2049ae3dec783ee1be571a0912c554b9a06d95516, -0x929e1a253994311e3f8bede99cd4a1f763107069040c0b3303747e5a833e2114762fc80393b2b22934f2e6fbdecbfe)].
Definition gen2_X : z2 := (0x17f80c6b747c48709375e0e14a8ddc1fb967fe0c85457aa52f3929323da6ca684326fbe5f5b3ec9d70490f3a5ece9b3, 0x5d41d36b2093d0a398381dda1e4b912d40247ffafed072de2881c682794bb5e24fcee58a083795ac3cb0e67ac65ef9).
Definition gen2_Y : z2 := (0xb3c02aa55b0185f5d17d9012a47981d3b070360bc1c0be1b9151428f84bb6da6d3a2f1aaf5e427d872b92845b32e20, 0xfdb7b07ef149ec3e603f36ccbfff70ea3647cfd079b970574cf7f8e6493bd95ccf55253cbae0fc12c864812a7ba255).
