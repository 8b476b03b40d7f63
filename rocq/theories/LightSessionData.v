(** Data for LightSessionExamples.v, found by a program and checked there: the additions of the multiplication of [pt7] by the cofactor. *)
From Verif Require Import Base PointCert.
Definition seven_x : Z := 198949918432218041502257089511581235475323918409869563147705322684222294999054405184012366214343156058150746514655.
Definition seven_y : Z := 129886259045916885456583399363301157165535250117673924834835929813574855836318715900868799178733640979954852121785.
Definition seven_cleared_x : Z := 0x2f1030e0c5ba9a2bf68f2eeeaa1ff45ea0c73aaac71dbec501dbe01d2704daf99ab484f12f6e971a135415b379d403.
Definition seven_cleared_y : Z := 0x180a190678806db479d4f0219a8b17c040c8290cdeeec9903cea0d372669b714c208640402d01ceaac74715bc26a7e9.
Definition seven_cert : list step := [
  Twice 0x19f1e556f982ca81df0c50e7eafc07864c1df4299e358e7b59addc2fb8c2e31463e7ab28a4726a1bb6cc156d1bdb9eb (-0x15aa580a43c87f3cf1a3902bc8b5ca67e06a00cb90974e8b1f0bc1b78064b039c1454255f21a582a070850f0045b11d) 0x2fc8839c8f3592d9ddc7ba0b07d42dc26d00d05062dcba61711126478f9201a8fe50228ae20fdc8d5e7432f04cafe6 0x1908a3b4d1c582747a5c98fa8b13c44adc4b41a6b926aec1ce10aee825c77bdba1a3f3f4feb3bab2e9df83695250415 0x10629cfac8a527900d47d47e2cc1716e6dba835463814802d0ec493be0e3e890f607ea8839be04db15f129eb8b94be0 0x1112e2807720f3173c9e8f7352493779de0728e6e88934b038490c59ec9afc7df614d4ae7b69e95b1dd8a4c7c38f8fa;
  Twice 0xa8c95898980694cc8bd9e80b7b8c8789c99d723f267660082d92fb293d79b7113ae2b9f8d1bdc66b9342f0ae11cc96 0xbdc83e0b741c9c22184cb4f345f7339e40ebb408ccbcf062c31094603407fa6bca87d8fad0d2cfbd06e447e18d2294 0x15ec4ceab26e8ffcc6747241c942f33e1effd2c040f5d8b67cdc2a83fd6d8e1598e2641f072fc8cf8d9191e9ddba107 0x4237d9d039cd335c87889acfcb1fa8aa3f6f191b1d60db128f16e4e4b9d5cb1db9b984c135a7486f12631438f66711 0x19cb6b801555c3593e9ec529c3e01290eb02211900ac414f8b1965185654f806b5876b016257a50dda11057f419f1dd (-0x76ddf3b7e5adef18e13752d718651f0696f5884225be7263a66b5062d5be017767cd08cfea74fce31f92aeb7ebd313);
  Plus 0xe6daa35306813cdcac96d7b9ca3a335c40bdd50e34a5d3f24b25a78b8dbf3dd8941b628f4baa13473cac5012429ceb (-0xaa86508078904d9ef78afc235d1b35fc5a0272c841ec145dfd43fdb4c54fd9e1961da03f50cad464157b58d407394) 0xb6638d3014b60c757b6b5699f29da9c5457b7f97077ad7d6bad63aca395edc91977b1bf772d5dbb0c4bb7960428eb1 0x7bdf7e018b574f411aefbec821a15e55cad482d12e9d06f6e487bbd62e71ec46821bf06ad426e9604fc0da38f42b22 0x152c0f932ed9cf165cdd92cf8b39379d6947d26c6cad22d794c25d24750bad07a287151113ed7da64d76a42355e714f 0x5a59ab78eb9e8df556d145abc4720dd7f7740cc48a946582b6d39467a98529ccb57580f322f4e4c303d53f6f63d9c6;
  Twice 0x2ac32dc098c444705728a32c8f706cd7e58590f834a35e50f6d23e7843ab8577f654e9243cc7f3ad18c967cf66fc53 (-0xa49f6a30aeb877807ec21b9c6089c3cc6b16ae4e6c3fe1b62443a6999411307bd12a67bb354571fd6be2db512181e9) 0x15ca52cea5ae6221b0c531cd8278dd3c6f1a5b9483d6bfe65abc99a8242337f78b026475ae25b53854cb87183a581ea 0x44017e4f7d3e27cc0ba1ddd6a7343805d61773434b75325e886bb0f2459681474310af094f27d833d26e200ace39d 0xdb8655733ec8fcfe72263c4106346fbeac4cb1c83a627c29f7088a7c0a115a2e766fd94c13288b08a66f512ad852e (-0x10866824e39717fa371bedee1b340b833fd86c8f466f1874c247fc00ecb3ace6165c8852b67ca10fddd1872842edf8);
  Plus 0xc28a7b76a3652b760e29607a51d0d9266a9eddd38ffc602bb2dac532bfde67b729c559d62555cf8fe906e5825f1573 (-0x8056695937f7597e5c61f7e7cb73b4fddb16430cdc67c09b6597d24a1ce3fd6646f109406a7156c96946294933a7c) 0x15837f080e5e5d173b348004052870392725ba99a6483877a6f3499222c6200b475b7a8fb2702137d32fade9391ee7a 0x57f7c1f99fddac2478d7672b92d7344f51b8ebe376cbb81711ab829b69a20161cb4adfb7709c0aa14010b383a5bc66 0xab13602b69f307277ea2eff1e8cd551a9855935ef52020b62e4ad87f64e474fbe4e8835fc8a3225e87a4f91a96bec 0x2006da30d39e3505998bf1198c2a0a93270cf258d6c997cc71cb287fef13d0935bc8dd63c855b9daa60c1661c7a36;
  Twice 0x1a8f7f7fbc0c51800ffe860275b5dc36fb9dc346c6bc0d6072d536e3ca52d35e1ad751918ea580ba7ce4f812f5a0c10 (-0x32516b8e486cd285974daf3e775b959c0bd6e9c73415803cae8c0a2426b97b7052ef02e19eb2c307b999fc5bfd598ec) 0x633c1bdeb6cd58f916cb626e44f633f8f6bf04bbd4a411dd6170c84de9d6ce2f23746afd75e2c2eeb133ee76ccfea2 0x1a3c61ed8dcea281c5a21d811217a197b94cb8b488f511e6c5453f2a74d6f96692c569403de1c2afc3d8e8ebde0a56a 0xb8cafa213b73f291ccd4d23cf7d4a36f60293a081ac5786155722c6a330da34e4a0a9f290855d4e5868a0c51d5e911 0xf1fd34e4024f277fba3cb8404cd77bde0e918a8600309acc4bc0143985b72074607e77d7d36e537b49351c1dfdc883;
  Plus 0x22c666190b49e9f77dca4770745de45599462fbaaafc931a54fc548aa6f0ebd416860d80fd040e33382249dbbea6cd 0x12b9d232965d8ccb1702213c32ff12c39e805ee4fccc47d5b74a709bfd570f8638238436d73480257ce9802eef8931 0xdcc332a1bf3b28e372e48fa80ff1117f2fa74e4d85f6f32b644ad78cc6eacfffa4450aaaf33f002bb1d90983ad2044 0x2cf93193dbd57987321c3c13bf6d6a8695a84b4b90ab6575dac61983fa43a1d2e6cfcaf41588823ef127caa377c64 0x40fecbd8933907699d671448def50c83f977e81779bd5244e62f7bc00bc717a5bd5cb5e7ab0289a64310623a3f7329 (-0x9d2aff496f6084d379fa82c8c0bf9c7ad65524118773cc4a464425a2bc316bd97b8a808225276936ec1c1bd9b56f4);
  Twice 0x14317cdf975d0d4b52e9898aa4a51f33f4746852fd6778c602ec6af726a639e2b3a2d57664f195e2769ba93b835a9ae (-0xf237fd816f368a55bf9f0e2b158fbc2290f7b7da52b76796986651705d5cfac1958a1b5101e94feee4735114a48874) 0x1503eaa1991dab94e225858e03f5be0d33003b110a887f337fbf116fbc1b37d8620dd86d8e931f4754472dea4f591c8 0xf2a308b20e1cd975835779fda338a56ce39ac8a88c414d0c93b0af1ece43b141bc5797ac265b5b293bc00c26335ff4 0x12f3b9dd266f51750bd95a7f8365d0f403b55462f786022cff0d554dde0edb4218897a222143c7d6212caf080eb9670 (-0x56b99dbbfef68c4ac2feda9f98848eeedbb6c6b41b2f46c2362de55da2a4c143d17d607d86d1a14546698a8dac5551);
  Twice 0xbc7adb6f643afdec3b4f38543f7b63e12ce40d76880fa14ab9929e5edf19280add7dd49d775764116f5525228feaca (-0x20ab043e4dbdb4bfa612b8f5d6f90f965950c52143d661b082a114e3318bb87e35cb21715c09fa8092928e7df8e5c00) 0x1198d14727008b1a2d43a9be76c6b781e9cbf7661959ed8b52e4d4af466a4dd8bd3036b8d89364ee585121496b4a7b7 0x529262850bb757f63b0944ef0858efb3ae444cd6493f51bf2f2ec9f2bc6cc01507c95512a196f5ac4ed5d7ec621c1d 0xedf99861f23d3164f0da240d9f5bd22523c3cf962cd15d9633afce3e3c8865f20fe260b6067f11a4e43e09f324a22a 0x17f600aa59105d5fb8fc2760036e3675347c8c4fc29b6f85115c067e92ee733173040af55f713d0e23164a229b02d0;
  Twice 0x10c46f695d9d75d4c40abcb175d98f543097028d25469c8d130bf6887496c37edc279653755c3d6a7db5a1b200df2c (-0x2163633c958063abe1603b37ce6aacd0cfea217d2c675b11c8fbd5e1fbde5b2267b591fddb7169e5adf3680628be403) 0x12bf30b8dfecee143028806e6315c06c89e7bc0f4b2f1515fb597cf4e9283e267604ebf3cabc9ab68201f25d7063962 0xa74a2a7ab26f9bc6a168566592aa704e184477b31f79422df9717861642d315b09e61a631086372fe062ee1e26c0 0x16ebe282c82feed8b5f4515428cad19170bcd6e700fc19475ab9d7ed06678de626a6e893111787f6a8ac846b8d7205e (-0xb78fea77c88e9ecce9a854552a0f4d00a712b1e51daf849bf2ba5bc439bd760bbc5f812e28bd6ae88722ade4c0ec);
  Twice 0x141a0e3d34cf78aecba9ff2f85f4b12d4ea5f48fc1be6d7160b4adbad99cb705a733ebf933a556979284724c810aedb (-0x4f0697bd4024dedf8da985d58e3f30293c22ae50d299ef753f47303326d71b2ca60d3ded1f412722b00c6c708d33b8) 0x17ab3d846ff4c7254a99c28b2c7d12dfdc57ae1cab87b26f1d457572d4d3cac2891f3cfe1f7014cc4e720bcc3338cad 0xf07133c8506d66b615324ac11d851f985c65a4d3f0422aabedd7cb4b946ff4bdcfe57377f966045c235adc118e6fe8 0x10f04557fe7440f3a0dd1b7d24633b568af300f0d5b0a4003019b768be9adf97a18a5d4966913590bafe6c410951961 (-0x3adfc25d96f89c24a46886416ce870dbcd8285eb7c09706910d14f40736eaca1f3c0adb3c2c73891c34f216f7f74e8);
  Twice 0xecd34af09d4070e0b08c9b81d11a509f08e1d72868fa5f5398222b248bc824352be88be90212bd6ff991f4bee5fb7f (-0x2bdac79ba43d3e671c6716874d20246a637221ef1e842334902b6410a416878bef8bd6e6b30f0ec32efe3fa8175a27d) 0x13f447bb32f4766fb1e3937c9390193422624d4ac0ec3749c81759d72c14128b86bc2ce2ae6b6dd854b1c58fa0f2706 0x825d37d061398a8edcf53f929161a711c3cec633ea9fa622ce55ed8c0b1c157249f28d6e3f83dddb1b5a31ebd208a1 0xffb4b84b66ab47eb53f5c26ebfb1bfd3fdbec58dc568de8c4f5b1424d7f97edfb0918dab94f4114bb18ac624109c19 0x20b7872397903cf0aee1b77f17f158204d6597d626df88fb8f5fc8be0c8b5eddbbb0a672ce4bbdea92bd5a2476755f;
  Plus 0x2ac06faca4c4494fd7f9ea2e7addae72382a52d9c58ece9fbb4f0cff02687912436228300b05e817d7c1b6536e80ae 0x12815019486a6830ddb4749fe49c3a97e0895f6a62ab94f84ade12b7215f81554b79efbb3d3cdca308adae7cad8de 0x19735dec801dc980d67ffbfcf364eca91b68ac7602453ba05d1103e8458a168234938cfd91ab68816432a38f06e7416 0x43f8c5893d674a9fe949e1b31c275a993e6b2f8f7e9c86e9dd160fc9a0b164355dfb1bcd0402de670ef25a16ff649 0x611824f18ed46ecd0591aa786bd89488a533a61a1282bf6f335498be3a0076d353ab29976fb8c73e9eb52e92e9b4e9 (-0x8bd2789a6376c663cf249a1ceb6df480fa6ff3e669c13d4614edb3a0b30a1091975048b3ad3b757c6c5ad1f28b1e2);
  Twice 0x125da61e3a06079bccf7013c5b25720f90ea018d7cb2aabee2160ef38ace56debf5326b36010474baded10753f4fa9f (-0x3ffa3c32a48d8e84ca0952ab3c965e62a6b51562fc41cd9039b1fdf82179f14d47e3b58baeabade43c16a7ac0d6083e) 0xf1b74ffa3042c99936593aa17d2b20ef095b7e9dbc90fbf37a1d4a0d577e963d9b91ba1e4f94c87b8475333581e3e5 0xc8b4f1f5de6b670d77534ffcd44b00256c532685fa0543081beee51174be13b59ef3418fdc65e7245b4dfeb81422b0 0x45352877a077e0bcc4363ad5df1cf6d4e326e15657ac943e79bc556e29f4b7b5c2e8706053c55210dc39fb23dc4dcf 0x71091b1455ecc00a9ec28be0b353763b1f6f2ea5a828a96dd8c7ad4fd484e2fd01d43b31bb40a7847ca680b8ab65b7;
  Twice 0x178e131f7407befd3c1ac488b89ff9f0fc3dda11c0a718d0b73c93a8b3cc96add8b3a9a9045d9ec3ea874dae10cc44a (-0x11e29077a4ec5c7ee1cb08e51d28aa04a910284b9bb86a1b34ef0f61981804bf7d5b5bd19b02450667f6e73a113ccdf) 0xfb3cdb446ea22ca3b452eeff39ebd6c78b1e18a1a85f939e6a722cb7ecf7a3478b6da9c9f1e0daf0a5409b499269f1 0x14a259601577d6058ce88ad199b9e247981d2e8795f93d90147cec1b2cc98d374bd643a46e3aa9c61e3e4b35cdb33a9 0x14f27f289b91acfcbb9ea32525a975f8eaf240946aa674beacc688ccdc9e4b4f6e5d634e2ec03dbdac7521678d7fcc9 (-0x8574a4582a668b12bfd762616b20a46cb5262bdc2ac8a510ce9058efdf4044acb81ac16edb78b0c011452e4ac3a10);
  Plus 0x10ecf3fafcfaeb94727472d470fa4178b1b79aaddb609fa1fc413d7280d17f930bf4d2932aea472e7efd16842defaec 0x3225e72aa725e3c5f3bc0a0456750f82ec420a98c28d4d41671c08712c7bfd79fe4c69ef797e76d60a267712d26f78 0x7f4d153f8b1489311a5429a8cc2a5118c7254797fc655dc74dce5f2f7044a1c546707b6b6d94d673b92489963906c8 0xaa767c31247c7faa62556bd287051b878023fa4f18433d4b60cdd1a5dcae44ba935b42e56cb31e4d4c5960d92d73f8 0x172c86f670f69d25a51f544fcd67dd1c126adfc3d4b11146ed616a5389c6f60e21e2f62af8d2306dbe92b03250f15a2 0x4e034092d50e038f3141b96cfd90f471ede5822f17808645fa2177dae6046f050f2a3f5c4677229d74411992e46161;
  Twice 0xeb9b84f538ab6fbad067911faa8e7ba9dec7d47c52a2e2e71afb3b6183f37a004b131de181120ef96f685c7183371d 0x1251ad24424d4b73e7576dc86be12b31628f67ef24c2297d48975fa29354d5926aa4c3918e6820c03955b78d8c88df4 0x145b222edb25ab215b8255ca6ff70fc9271e4aa315b74959c5cd2f94cb582b7225dce71ce66644c1fbffccbe3788d7f 0x8106dc19755fdfc0103df5762b20a1b84bc9ce529ee8d8941b01ea23e44c1e72b0d8028d1b7d1bd8e480e1fda0de3a 0x1386cc1e96110c09749d63ca4a459b3a65c9b24e84035645a7491c60627fb886c504e12f99d8f8bda248b8691d32efc (-0x6ca5d699be971080f43edd7a0df96e7809937d56ba453356ee967aee69c9aa2d9e9f55681ef520712e0861d3aad859);
  Plus 0x8a9863d02f1a514279b94b37fccb65cdae4c64861a181304a68754def67d162dcc4b72cf2f3429550137fe772243bb 0x1adb885957601b4677a7824f8c659dc2a0e529ae67269217398ee6fed61327f456e510b87c3171a78ca19a0f1d563 0x127df64ab7fcb5ed5c7501cd6903a2faf57a690730ff441b0c44df958d02edd988f8ae48522ada3f2f4a2bf81adb411 0x2ca5cbedcf3051caefa69f1c83fe6b0ef29a47f4d92011027b4752f031e7c06434daafe2c35d642c3f4c426628442a 0x1747ffb3cd96b5192069072e5bc34061d7c227f3ef3a1c05b59ef76246c685bef857eb9c28268c451aab267fbd749e0 0x99b7cb3a42197cf68915351ff418c71270effb526b7fb445bbc2af27374d69ffe60ca4a97d49a4280ebdbfb06247e;
  Twice 0x1a16c4b7659244faf902f2dfe634e62b2e826fea1ae956ad33d46a6ed35b85d36451c4f4341ec644a7e026f9ec4dd6c 0x7066cc4bda59a1ef9c54228ec81c811ec4eb4a1540f77464bbdd0503a201b1011dc13c709967c1c5cf118bd34d599d 0x1920d811291db22d2dc838428aae6404a59d6273807bbd9934a4042423821210c0740bd0bd31099730200dd8bc9d992 0x194ffe052b4cb697e1e364384e709ecd8c80d37b00a6a71a3d2ebb11841ff6d918d08bb5452f74dfc4506008dbe63dc 0xd7e853d869330a482ce86cabb1fefa23a6c9d3db80079b09ba68ce64b2e0cf81d48e05b8ff18d0c047c591e74fc34a (-0x67051b2e0cfe317b68d77a98afc5e5c7fd5fabf0265e346741b8f2585db2931b946fb2ba19274154effd01c82b3c96);
  Twice 0x7c0bd00546b6687b1ca101d6bcd812b64c0631ea0e0f78bbee33d16dbc193f9048bd531ff6ad6d9e3a70c59ad4c11c (-0x3eaaa46e1aa7d17acf35bbf25aea8c469e39b8ebe0e4a4ddb7a4f610453c6a1caad614fc4a0e1de7a8eccda6c0e399c) 0x92dc0e44e70b83b026dbb70b0b3360d0e4fd66b059d972c3a3df861c031d52f54a1eeda9f33e8003553e7949ad43db 0x23c40d02d74da29ae6c025668fe3d6b687068b89f2ca5459b21d3114c0736463ffa13b51ed1c2650d05e09b6ca4411 0x15ef4a4a6faceb4f254f38b4f2761721e9594a3dad9dae0287c0ef0b99a31757270841aaa5cdd1c0cbf777876f890ba 0x49943a90499cbf28b95625b20322b5a11ea8cb2e1affa73f6bd45bb1a1fed6b33b873aaf52cfd3d7ecd3537b430300;
  Plus 0x110567b6348a6dbf925d0d113ad1ffe06307064265a4369ab09d2935ba596a3bd5cb5d9eb800cbe76a638d57ae87c7f 0x7480d9728016404c5278d92e2d766022df5089aae0175a2255aaa499aa609a6501a2a4719f6ecf84370d3f7d1c14fd 0x182e03e5b33b3c55cc2833a7aaa4a1a81d7374f30970354147b27a71e5db380ce03a82260096d3e493b14f97d2dbf76 0xac646745ce74c6c0d547cdf09580f1ad7bdd3660f658f673df45df67663b039a69df2ec3440c00f93bdcda09975ed1 0x5ef421998bcf630140441273ec8daeadb4cbbe430bf3435c2742638e38e15227a84751305a2abdb5478508672a26c2 (-0x97eeb41844d7b3825cd2acc0a4e15d47f6607e31f45f4206999138f5d728de38e5561f2dddd2fa270e665b89371d61);
  Twice 0xd321755ceaac77e5fb9f1add699f5ce9d807472428ea14800602cc0bcfc5f6cef6dfb1119fc3461cccd3cfbb65fc13 (-0x3b67b7824a56f4b0f7fdd3efb87d044f05d9e6059c50714817dd4dd89ac1660790f6e8712fd7a2864a20a1e02642e60) 0x5c417bf5370a289c4dfa682dc3f9a43cd7e6715f0392c4ff5bbfd23114e2ee9182513a74bd7b0c5cb51870c943c375 0x679c5491ecb8504bfa6d69ec5b5fbaad78252a255e1d2bed3da5631529b95a160063a499047cec2f39dd3add942708 0x146945d704da11942b4b01152b76d4ffd5d9331b26ba0a019e2b9e15d9f85ed905f6b26fd3b4db457419e2ae549950a 0x90951a6dcc8c2689e7d8d312fb99d7c8754b5425fa5c63e1b3a316fe76d283e1ec45c77a82ca98a8a06a40895ff447;
  Twice 0xce887b2cd2ef6b31476b3084658b9f32cde211033f816483334343dde05b05075e4699d678e2daebc1820f324fc354 0xfe343b205fdf1c85a949cc3086a1994644e1bb5b623ae1f6b184c30780102ddbe58e68acff9d2ace01f2899a16b025 0x377042d6fa963260e783f3c38e73dba1cbcd61c6500c25877ad5c6a4ea826b060999b2319936fd72c5052ff704011c 0x6325b95592360bae8f2eee8a5572d7e9c3fbf1444c7ebc2d4aa4d340b959f8ab1bda0bfd69bfaf4b1ebeed69558b8a 0x30c50d21901825145e8ecbf874e6b167038c0bff99e18affcfeda67b5c7f8d544f7b0daa624825e46f70327563f273 0x11aca144070a33e137a3b1ccb51fda1d8e8b30531936e45e953248a2ae242fcbefec179ae4f65a4b164de78ebf08b7;
  Plus 0x8a4259c0e3319523af14b47435ca59414e96e2cf59bb523b4cde380640bc4ba966599cc8849922f796b13a3f99d431 0x5886730f8964f2220c7baa5ac4d8b4ad3095bed6a4519175321e64ec8c4cf342cf3ea7bcaa951acde3082c7a0cba0d 0xe58ce40e592074f3a33b5e360094bb9744968e724c6b256a867b2497483eb3c5da3975a9cafae2fef58f9f4dfb9c12 0x2c6e6e01daa36440254e441231b306b27bf6636c597935b55c7862f91c6bbe7a394d0a9209c11e93e331700d2aaf54 0x1729f8c2f99b43fb879a2066fa04d4f561998cde4692575f5b900f23a5fb29cc8aeb0a1ea3e1c7eae2c0b76d55a8581 (-0x37f3fcdd1576e2380d9287c83cdb114cd00d1756d925be3f10dab5ea1494ea48b535f609b272192cc5c9d8237cd90a);
  Twice 0x17fdf8c4fb581de17ccc91d8cde8661d6e3dab68e350c08929b62b117680c24ebcf5680e04cc3fc0f58650d0318122d 0x125f2b4bd1db772d584751d5fcc7d0fecd1f96e046ea2bc02b021704661dedd62edd09aca380e9ca627ce5d0f733f8e 0x172a6e3696238630064fb9cd7dad5bc366eb1e0dc51c6cd7ac7089ade33a3ff898a87be1d07d69e2725c05e6f35dab9 0x1568363b8845e07bd353b55a788a5c55799b5d2d654fe66aa702cad0aefe7921d573b399b93e53473890da56c8d490c 0x194ced049530dd2eca3d33935a5225dcf75ab72bad6f8705d428b39a97aa66d6bf9823f57913709a292c81b84ff117 (-0x7de612b4f4a3e889bc55f986af00ebdbae393feca647554eadb8d487db8ae23599082005f0a9612010d79451f737f3);
  Plus 0x10a542c4f86af535a5af8de99159b1363ec1f3a0f896a5aef95c76df800f11f72b3d85effff9811df0e22d8deba8c5b (-0x189aa1c4fdc5fc742e04a2125218b6c2c40b8437d7955eca40f4e268ac7c1df11c32c1d639ac9fa57d4f95f771f820) 0x176a66768dd3e06dd0d00c87dd7a5d5f20feb4e34790c1cf88ff243d0d3a904ca8c2cf9ce8a9f06b75c3fbf5ee97dde 0xa4de5d0447b667c2416286704631e0fafce7c4bf642a08397186c3295001ce11d39fc02fbf9a40b070a3fc28c76ae3 0x488ebd33f33a24dc67ef50ca2aeb040a304177d8897497deaeff0da74ea5aa4b3b8ccc28e945afe9413f3c900fea3d (-0x27999474716c5db3d7b97297af063d8d7270e1db05d4d6a4d46d683c898c341e0766d161c4b6c100cf7805955157b);
  Twice 0xe60fd019dd03cd840eff857a33f74a6196f4c986850553e9f7e4ee222810aae8991ca0eb8dc8b2e24d85b58f83ab9a (-0x385281484871b6fbdeb0f39b9945b08646edcb563fcaf6361abc4b6dec957e06b63c5ea9f45392c5cfb566db57a5628) 0x4235c14e40b4b7693f25693715e3447f4dcf563c0d40f35e9b873c2b1a3fb5288cc496e0f85c7c2eb632e047de0ae1 0x7b063317b603e7b2b6f908298cfeb45969ade8b1634ec2c4651344eb1aa4dc2b1b57d2528f020ed56b16d418f21207 0x694f42a40955f25ef8a5c38887a3852ca535cd0cedcc9f6398cc628808e5d29fc81ddcc88d0cd66fe7712bb065a88d 0xa4efc189e34a8d0eda5d6697aff498b803fe36f1d9bb53a35852042e3b28cc53297d6b18038d81a9bd00286cb39868;
  Plus 0xb6ab975946e58afb35ae6705d641ebc892ddb998919eb91e374fd9123150c82f887c4e05a0569183f2a751853e565d 0x7063314d9bb06a177298eed5950de9f3689d1d35f37fc0ff267bab4572cfb616fb19ab0a1414d38eb21cea9346e11a 0x2d8f2f09a5df6f9caf4147fe57012b5291370c4ac51fe4b1ce60eb32cc9dae1440b13df44c0103904a3e843faaa468 0x4d8f5868d066916e28e62f74990b58bfa7fae34000d3fd99ae7e525c1358736aa4cbf2d1be0f8f40706b8bee5d09a1 0x5cb7f160d5e40d00e91938c12c0129a32d6046d86b5c9aa4c6eea10da4cdb1288ba18cf5e37fd192b8cc9174cea53 0x8c49fdbc335802ef119c96818782552d703b8df8913243b2f1e6668f644c8d9c7006cd8fe1261a4cefe3425b44d15;
  Twice 0xbf123a2f61f785642f110ac21be5a0ff00452f4e1c5a083557a4e5ca5904e9b538fc1a3670147f280672444433ae1e (-0x9538e94b46bf89b237b048106a5575ba659a305392fc4fd9f1fadb1fd24187223f9efff51eff6195225b6617e7f4c) 0xcccbd6c3d793d5e2d9bf5610b70e96e3bc7f441fa8c905ede9e312445e1eef6765af71074234e7f5c0a33c7a6960ad 0x54db9dd84200728ec1bd4cd52ccad36ffa6578fe08418101d783cbf8f5a86e69136056875378647b085699cca22207 0x20010ffbaaea9d80e3e88491bf6a7077603bd14dcc01979e6b070c65c72644c00f87b93d27d3639552e0eeb4bf6140 (-0x46b841c77c78ca84ac13f8c876173a2d33e034a34890fb8853b2c26b5193fe06438f7001d43c94bbb9cd92281c41a9);
  Twice 0x2cf8bfbec438a78f490bc4515262c55c16a6c6c88422309fa266597d7ec749e4ff086ea9d700fac5373a6678711e4 (-0x1240ac975ad6fd11bfec0eaf9c77332e3f6eef8759596e3e7751cccafe06e3b909d261bbc7fd0a82773d18a91f4e4bb) 0x3162bed072cb241ab5e30669c7297ea5f7ff1997219679f6e3160660a0ddabbdaccc6f97087133be65de68cf0f2c47 0x4b36d5a1e233ceb5a2d63152e8122b9a4a976a03c9cf771c0754ee06728ba0e3c2e2075bd7da4819e7793d6256f 0x1085b47e93bb143041a6619847bd488778b74c034d40b356ea516340f7b759f92dad42f0e5c500f3c48b2ae96031589 0x103ebbeebe33a512093de4011fee6e9316287d07348828c0160f45612c902fd77117785ce9c9e47f4fb12fad8fa0f;
  Plus 0x31924feb972da67846237dfc48205ec9694a1781f58ca2e4f08bacae8c3c6a65b9f3a1f192e184a6bcfbf2a30a8ac3 0x206ff23f2473b6bc1bd71717d99cbdafce7c061ac2c4418463da78ee192c8546cd30d3cb1a64dc27852f3d61bd5498 0x189547a08473b6fdac8e72c53b31077155ea0eb4c82e5e71aeb926c6a4e9c6845e502d5061bdef9c5c3c190dab50e04 0x5b632d3b15d6f9e78a38e3b518254f2ea6f48ba73549b894a0bb3a550a8dc8f275009f11c95c2ae821301ac65b15f 0x15a03f37aed72c4cec90714d4fef078af2269c4cbf975fc8f1392bf257d8cb4b120f4906d5c393f879e3f70618c5ff8 (-0x27a13bf271b2ea8c980724e48d029a3f031f2fb84d6e8683a28ef64170eb082bf65588e4619d89742f56c76afc4a78);
  Twice 0x17780c4003586f931c4098e61b258938e96454da3cbc9b2e8c89d57fcf3658353a60df90e23624412088b4c82664c5e (-0x1dac90c81397fa2c3e0b0d85359790aab6205d18b46f96f8668916c1bcc24cc5ffa52dc04cb7996acaa103b91939610) 0x3f3d1024768fd0d076fbb8470f0d28c10f49db9fe81c0f7fe4c0cc083764092f77ea9038eb9314d94ed05a8d93bb18 0x147bd41b6413674631adbe9a03aabf7c56faafb2098d4d904e8b600e8f700ac9c4bd12fc4fd13b0fb7626c426b21b64 0x2ac12c915e3ef5ff80a26f09d8104e113caf66a83222149c600ff85ab2ec259c62897279b7d90b068ceb6649755e35 0x1201aa418321848ef159471d4bf34f91938de9a7488b5d9db07363a5db9e0cfa80777f58be58b193a45af726de0c47b;
  Twice 0x144720f24157cc64ba0278ed996a831c166468da65042253e9e532b00fcebf5091bd67f809c9819b4bd0cb24de11bec 0x24993ee521047ac5c399184b676dbf0d51cbd0b674f8d0d7072ef2502f0a03eebfc5951df2751df4d3721b2a8aa8f8 0xf0ead17c73e7b6dffcb134cc3a6b9b2b2b21392f7c53298775cae1224de6b55e84b02e7937602685bf000692e86466 0xf4ac2f1dfa0179f877c704e9787951f1d1bf5d1a3dd619fdefa1df37671247792ec2df6f92108f726a043261d3c6fa 0x594976ee4fce90325ebaa63f77b730f298ae611fa6275b8849c1a31bca73a4716c556b9fee77d71d663ce67de9f259 (-0x85fdf57f8348d15bc14e25ee78dab91aa6df6f72fec703e0dcbc0bd23a60d4782a855c2a6c553b5f0c4602e2d49e76);
  Plus 0x1843e16f6bfefd0a9cb009123313d02e5f30bce4858e4e4dc689cbea994faa3921925ce6db9f2dbeaa2a122374d6ffd 0x5135188d6e73778020104858f2a5a9907caef33a2da9999127669483fdf16187ecf21e72248dffacb10bcd0eb31435 0x19861ef541fb6d4353f637ff6d22b4470357abdf69d131df34bc9f0c518e68a38a45ebe6bfa3666cfe0027767779d28 0x15e5acce695968bf898007241721d60a7c4c514522be72a45fc59cc2545e0c67960f8dbe18a7dc0b1441f6d2c86799c 0x1a9630ad607c2137950259e10473eefcf38a183f153ff4c6e8eb1f497b72332715d36532e1bf9e9775f0925b6fee08b (-0x971f67f3d8584937d9e793bbd7caf6dc147ef6f8db5bdb169b200c61f51a1cb1c234f2b80367ebcc235bc2206a089e);
  Twice 0xb47dc7ae050024fbc3d530db314753fd6b770e5f8fd54ac86c25a3a861bfce244f31c940b332b9433345f5ba8e7267 (-0x32604de6fc27c6ed12b2faad3e1f3d42b0a7f449554c5b463b595cf0e8e18a8fb7233d45422fb753b6b0e2fabb5c6e6) 0x194d22087d638445daded3d82b39ac39ee060bc64a1e854877adbf1c3c8f9e922c4a01757ed9759af33a34ec02e927b 0x4bb87d1061033b19e6bf766688ae2db2685a515d44de584f1c000492eae22216ff08597b87af1600afa4693a4618a6 0x193dd8169d32b425ff56ed01f2949e23982b437ea2c2abac79d99b723e4993be576fbb436690155bc5d519d8db75eb 0x17e86be4004231b9dafa94d98fb071a752ead59b7b1ebc619b4be8058832610539a4b6e529ef465687a70e33fff25;
  Twice 0x16e6e787558656f4e73b2ed470a839e399fc72506cbd89027e47c8edd5ec856ae6a713a00e663dac4dfb57133335911 (-0x44bbeee514e5740bee66576ae6ee114246ef3a042251afc93ace45bf4fa53de37c28526892a97090751155665488615) 0x1607c94e1181786c0df77a520fe582050c7ab001f50817fcc95cb2e69988b71777a6511dfa0025292e228d41a4e35fb 0x138186bd4a6cd813fcbeb28008c207fc63b95670a115a500abe83d7a88e5828dabb16034bddfebbd034bb59c7177830 0x138f6bcf73d3cea5b15d0e64d10ece0d62323fe598ce68e131833ca393753d84c95c30988a708c77861bddf69d64c53 0x2c92e58a3974d031d018aa1926e98cbb37ee08f32a8d3b358d6783f924a9a326a5e202cf8abb2a9d7ec576aedce242;
  Twice 0x16f7be6041c9ca4b072db3a373de0df93304ffa12e88d60b7b65deb6330f65b71430e3768fb5f1975d512392bac0e6f (-0x14bbc7efd7532cf6a21c443701a7c000c44483f6a313db729c9a1c53985475ea0a715555672c8064f7fc1da1b4a6851) 0x186f9c3e3ea8b9dd7532fd3089b4764ee47ba3dae39a7e157e3ae00c12d2be73633dbd9830fc47fd1487cddbb42778e 0x139e4083fdb92f47c7b78a35704204730f2f9717ceb60589408c945ab56cac3b8a91608dc86aa930564bb64c019709d 0x457f2dae9b58b70e49c9eb50ee750858ccbb6175ba55712819b1a962a37df453b0fd0a16e9df82ac3ec15278f95748 (-0x20e0365eaf7fe2a85cf71fad08c1e1b0e9571ed2774055a171c59bdc1bd0a277738871772dd5db71649106c8121c58);
  Twice 0x7401040e3f6b571f9b0dd001f273bcc967ec32da4c25eba2cf1b2f90d8b94d6b176f2c7bc55b3de69fe158480dada5 (-0x4046fe5d92d3b5c6c1b3e3f500b2d19b8b398e0142966b5200c1ae9b7e92f35a466988686082bbdb569ad89a476257c) 0xa8ba63ba9ae5cf2ec27449c582cfc6a7c453365253b4cf194fb8dd5aed23e0427d8756715b7143609d212cc82016de 0x1f4752ba38c47f6674a3e0aa8c9cdc24cef2686278d2abed2899727e0ad61b2c3b0edf7cf839b439f3c2efa9e5665f 0xf40276146102bcce31bc6905b780be1eababfb9517972e78e45ef5ac6abb1c029665e915ce936bc5f6ba93a3433a3a 0x3becec818081d4ea7002defe336cc8928a97f3361b74b2eb15c2508fb4e72ef94d7a8df3f75272344aa1e53d32afee;
  Plus 0x57910b970257c082ee2af57313620cf0c517703788648461b9786713719f7d0a49fd59d6b2b46eb73e2e68c83b0605 0x210252657adf1278bcac2e998b07b5965f532446ab22194577ec72d56447506f7b604be090ba823c6e933fe06ef986 0xe03947f2bc3162ad6191f8730cae74e0e00075c54688ca6a3ad2a3f559a66e3a9b52a63c20554e2d84545a9e64b037 0x11d2a9f11f37ff9e40507d5a493c94b615c4beba914b3485e06499edb4548e0abb6ef2edc631da36258cb811a49025 0x124fc529ac0683ceec0fc9c2ba50685e9529a70347bd34cfd2c8011c3c2357aad6b4d5091e73a5623b945b9f0575085 (-0xb4b9b3857db533b2944a84a1b8ff2af54a20ebff1e1cada35e9e192baf6fd1af4b10a34a65bd932da56fd3e0c9f7c);
  Twice 0x375722fce4f30c30d44c57b2dc5708af02b7d62f325b784b594cbeb270abc62cbb0605f69fcef5ae6824b38db9689 (-0x159de4e17b7b8d232f163c0a01ba9b9d33e65b7f784919e9e6209a0cddb878b2465c9625ba94aa375a85e28956cf919) 0x13638cb6900a38a0462811bb4da98eca30c219ad60d9a670ca76fa12dd702a311c8caa458a39571286d6a28e63296df 0x71e53460a3e2d7a87880f8c345de53720bc561eaaa59dce6da6ffc5d99aa1049b9e7a2bd8428641139eb3eede04 0x121cae0418547b39e2ed88b376a15687ff6b1a2c0dcbfe89fe6206712d88426101271c2e46fc061fafc91a09145cf7e (-0xb0fdd980e2c570ee964023974ebf28ce92904bce6b5f2101e7a93eefebffddad3b124235a9db8c817ba2a5abffeb);
  Twice 0x612642b2e3bce63b754095cce5caf770fdc8dc08bf82971b5850114b383a766ed5db83a8bcd32724d9e3287479d996 (-0x21c31b108622e4b6a59026f72309bb09d12a1d7228d139163a7623a8705cc3a21f435471bb80522e60e467d07637f1b) 0xc82cf78a64076865cef37ef893e7316d5f5e0f01a0ad88534bf0aed064ec42f8be0ce5e0426118523f9dfa210e6cea 0x15eff07577d1e06cb1391f4c00e57a54bf9f6a7dc7a947fa19ec41ec0e6cca9073f2ad92d22cf0a35737c36b48093c 0xf9ddc20ad3cf276460b312b36a8d45ee208e165f4df3802267bedc14f199c87a0b69d310b4fbab15319c82e99d6a9c 0x18d976d9ed4cac026000782e3f5b27d91d5607de9257f2601990dd682ec890764332d5f029177a09bb78c288ab0874;
  Twice 0x78c369853a5e231012e320c3e17a6db1a648d68982751377ec066ca9adeae8dde1593b60477cd3914bed9599515712 (-0x8b23a0d3e93ff404cb04d2b96cff972556166ba2f8c8b03914a24306889b3f118cf0e1789e3902277473ef7c79cbbc) 0xd785310df11b27ad2cc8c1222dfead06eb7986c7b5ccb7b7a33ac226db28f0ae93135646f205026e593cb11affc357 0x21e5d7f408fcb2bd8b8e2619c998ca8ec5119940ec671ba68ece9028a54188255e006b2a8203534f91ca3a5de4a019 0xb71053d05db223192b1bac2528931fb33431fdcc3b30d8cf36c7a091ca5c1fcb6c63ba5f43d2906a2b6c618145f151 (-0x44ea36afec7df6886a65f3c2d73722de04179dda78d9a24df34676a04003c15801f917978e161d320a9277fb77a97);
  Twice 0x1aa894d87228f7398efa23988835019d6338b03198c11ee3f39a7f1e5911ba78e556a07db10a894f95e75671543c16c 0x27184fc7d21fb4947393701c492831395b278bd1b47c1efc1564506a8f4231ea58f036edfb943e0306880aea26c7a5 0x28c0ceebc3a2d4aea084a829c067f0314a6d60c03c4d36e7c0c65aa6935833ab7db3ece12a83a7d1104c58c5d4ee3b 0x1a6e07089eefca3b2a3e73235613feb6b90a2bba86ffb1cdb97614b4b8420bdfa5fe49b978597a68dee86d78cd790a7 0x135a053c552bd11e00be874d8a16f905f6caac3639729eca6e693f696b45b613779a280e9c9007d340f8723e02990a7 0xad44846193850517584489052cc5890e04cf2be74ab293e4721a7c7de9e55eac55051ca6ff6b868b9f61e8e9a081d8;
  Twice 0x18a7a652413de8aff05c066057b2a3882698cbac1f530ed6386a989bcd66365c4a7a7ceef92ac9774c5c161acd2e326 0x22c371268c80c43517676d6907cf454cfa81cff4ed818b3673cf7438aa25e868e074a164e644a5c78536059449dd6c9 0x3ca42227af5ae4f2f08548e160ab6a4e7d2c64bd9f3ecbe59a8874af8d173acc47fb55262b88b3d18c42c74328dd18 0x169b2fc94c06ea35e2b31da84dc5d7fd939c5fe7e29b6be108870eb6c6b1c5c045ca05a0edc5c40c90a2247b511b016 0x1092cf78d7eaeb00023f23aec99c79a21da6ab8e35911665f46f8345f96e149f0899fa8d70000be34bc9e0ff4c5cf92 (-0x123c43a901753d131fb8f60e75eea312e2a540a31e861db04407a799c23366eb447bad54ec0237e543c4cf497ccc07);
  Plus 0x100a15b568445a206c0de361875f6072db3664ae42a49ee6650200a6fa772a31add8763fc82b0f4538aa0e4b0b8420b 0xa13687c2ef549e48f7957c8af54a7dce6ebe8c50ee5ca0f97f4b59e0e61e52968df8d13fc86d837a0816585f802666 0x13e976cf96cf0e98e3f96451fee95f003fad85cdd661276bda169d4b932c47342d3130a722fe51dee90944392036c96 0x9914664ea1a203e7166fef8ff13ce178de5a9f95b09658b328e66cfecc375aae7f17006219ea8f981337272d647dec 0xc7f830d661d5a3f9f288656e80e0d0916cfbf809a159faf14edd72710b05b30a82c4730fca98f4ec98285356bd58d5 (-0x99ddfa4f09bd7967f1e17f612b5f17dd84a7974c91fd6ff3785410c2728c9cc546e87f50b9a75226b30f04ca75ced1);
  Twice 0x187cc4148358834bb90ea62fa3c1749f8f232c63894f45fb6fe9d53e7cdb4ffae55eb7db7fabd78343e34d8b21b0713 (-0x1578dcf2cae066d66e79926294800591158fe6f3f845b2dda1f4b4152388030a995e475805b12b0645f753a48d3e20e) 0x7fb8c8a31ea4ce3ff8ce58e47e1f828d21ba3c3c86376c6897eea592151d5bc2303e1770825293adc9d14364d3848a 0x164cd02871986742fb65cd91f3e4b0c222817ad0b9553a072229cc33ba2d43c7b497ce966bd27b0efd006f66159adb3 0x1338069a4579f4cdd1dbf9589b2b0dec113aef7ee3618110c77db3716de7d01523d0d548a7602607d71321125f816ea 0xadd205e7231a91108ebed50df5e8d4332926eb31ce34a4893492b5dc04547af211befe20056a4b0aeead60fe751d25;
  Plus 0x9c61809adefbdb655378e69253d4dbe3d0085a456c5cba82e7fb92284175fe7dc4b5afd5a5eff18be57382c890381c 0x49daba419f342e354420a38a9fe1bc91756375b6697b09cac09650da22dcbaea57faa1fbe0b0b807908d8c0b01eb7d 0x730162dc4d64f2e2de55a42183e59ff4f33f7e78f767362d87afa54966ebc2bf97c17d470fea6640de2164b58d9568 0x38d789cf32001bf5b39324aecaf037835ad054594abf1ea7906d5e2bf1e8d9ba87b74d9c70202a84b065deb322443f 0x1a762f7b9dc42e12d57a3a9fd25aa58db2ed9d4392a811a93d2350d46353dd162d585cc54691e715caa5385855ec509 0x49f48f50b310fcd15ab03c8fc3b837c58990be803b1e45d34653edc1db0cbbce4e42a4236d3da0bb39c88dfbebbc5;
  Twice 0x554806b55682afd575dca5e238161f16ef428dc1119e397d3d8e10e626dd38889300110ca810aa72c48db713757ada 0x4b9f8f7e84a11fd052ed557d6c40cb3358739677cbf5d266306563bacaf3765674d570815c37a8f402f2c9f6277894 0x1a35b24679ae44fa55b86c8237d56e3b1f27d4d7b37a41cdf918182e58c971be93d0240a2d64aba4c7dda11be94a485 0x10e7a083869de35aba6bc48afd72a595eb3485a3d7f70e6ee739cded716ac4d5b524d28e5c125c912710f6b888b24f 0x9f6b8f01cabda1e2ea4a870aea5d17e369a030363383eef688da287a64fc61e5f5c0e018185674c41be6c3319914ff (-0x3c545c30b6782e27cfce752f1f32dd180270bda2bf55fa6f8091c7508d659aa4c3cf7003f180a29743e103d36f8aba);
  Twice 0x7396bbf34fe9779cdc4d74678a2a4a19c718af3c2581380b0aa02470f6a8f85ad7a5b2a83b0a88b6b0f64413d5427b (-0x4749d6b530d4ebadd0d8c5bae3f7db7a63cefc350b6310851d854cc3730849e1ad55e82e96e1327291a6612cc445e41) 0x1445755fc4e6ca8610fc491005ce2852afe67376776568098d243ff58f938624d87409fce1bf34a7f4a11937fd519bd 0x1f0e1c86a95663e1bc7878fda68dc7435ba9138365db578db08e7903ea05654cde7dd3d505ca9c6ba5c926f6f34452 0x11bee6e306f941328a7ade3f34fdaccd030462ee8bb3a5325cebc28afe899c28c09fb40f5960fa64b356cd629760676 0x19870d2c9f6c1a73bc2e71e9efb2ee043204f823cd8d23a31d9c15544fc3201eb5598226350ecb879dc7077d2822a3;
  Twice 0x915ad6a41805391cc4d31da242a255bfcaf07362ebdcf27d7d3c3a8e35befbeda911951d5015b87c32385a699cd48 (-0x2d18df71d664059660b7058f3e60161080d6e6b1f970068f7a1d07c79641504421ead63a0cea775a4f14d02fd80c23b) 0x8446c5aaac3f32c8a3ac26889f5e66ba698d0afd86e2a984f4053234744d950ee10fb80126b3fe77d186eef1c5c0e 0x311be46293ebad88ab191de03fb79cce7487f328f328149246fd369509c95ccf5f0efdc01661beb193da75e5d4b8 0x12a81bf9e37b25c3d3d2dbbf6955b2ffd2c43e5d35a21cf5d1102bf801601f4f928800b0263e01a858dd3dcbf9eef7 0x6ac98f87790fd24f0bf4b4e28f2f93042b4a55323e1e2a0cb4ae6830d11c6ceda185b778ee918e312926c860186cb;
  Twice 0x129b247cf56796fb5c52fdf33faafe610ad0436e6ac170d5c48906d46cb6a114b22d13a3c2152c82c5c78c7e1bfcd91 0x1957a896e3bee9786f076c84b616ee62bd8cd9a75366a3a3348a81e5214504ffea5634f43256a10647c886e3ec1782 0x8ea1f5853f5314ba4232345087277a480daef7c399090053585395d63230d9244f65aac32b73e9b8c6b3e226646b27 0xcdfdc62e3471fd3e5e1dab057b52058d9b9988ae894d799dde6d1f48b113d00981ab7033e034b434dcd9bb40d268de 0xcf57e86b62b92ecdebc8fb3d9410dd99df1204739acf488f792c8adff1d36da024fc2ac65c22ddcbca5fcdaf3b8bbe (-0x5cf96820381fb850ebaab32ce34119317f638f5fec79ca7d46274d8f7c1e49be69fad903fbfe0ee1591509bbc40cde);
  Twice 0x4a5e8196e8f24a526b21a4df0bb26ef12bf015bec9ea27bbe874e8671177aa7cf8913fc92b0fb43b8c938c435c738c (-0x462d7266ff3b45c974f2dcad4939eff0eeb2b3c67c5bfd97a8c4e2913194c90d322c6aaa38e058c531180558b75403) 0x4b1267165b39e27a359f9d7cb9a50fc21e7ee55c66634dc5bd050b64dae86626d3104c7cc7bf617a2b22d3159e9468 0xcdaff357216835e91597862bddca82e636e49149d844007abb38b28141676a1816c6ffd80a73e98bea467265fa9da 0xad896efa1ef96d73b84e4edd0c1ea68c93e9f520654cacb6de252479784aadbea3056d1ca2b88ea44eba228d515021 0xbadb5e5a41c5e6eabf124da6ddc612f7ecb349164fbb66a0b5eaced29cdae3e09a147a55445a93f0f2a96f8c06195;
  Twice 0x8f97bc8ea007fcd21f5347b1e51b7e3a5e839a1547cb511d5950fcca88905d67e0e91d35b75a2381d50e5c3007a6f3 0x4c8a668dc23c7176f2add65890c7812c38106545dd9bd72827a35b236b22b032f3b61e8c092c00dcf81b06baddabe6 0x185c5f357545d2f873b2ca0fc1b070c4832c63c95f790d8fd725275ac0441ccd13a6b59928fc95a2d7edee4767d9b55 0x2fececd3027cb5de39b894a9a12aa2191d684656ccc282b948a93f0d55051ac5be811b2c9e9754bc4b4cf30c6f4684 0xf8636810021a0c5c96f43376110ddc88ce239b9a8d7706dca258ebc881d4db85179b706ec05c0e0f290ed494ffe170 (-0x6908e13464709937f0950fcd7cebed3f15448cabacb6b0ea39db8df4544efa6330f7d49b9aa05a7f1c7cd854fd7288);
  Twice 0x177496058c1e7249b51caa20dc9240d2c398201cd38fe9db9f918605013076783a4eefbe8fa97e3ba3b34ac415124f1 (-0x27207fda38292e65f44c4f3ec6dd438082827de8d577aff7dd63e8080f7288000d64cb3405b10639591cda237b829cb) 0x117d696678041b3afd1ad093f85a52e42cb16a88cf6b5c6b958778cb3d27260312c25eeff45972b3886f43228f9b32d 0x1475c98d16ef91b6cf4748145f1ad45890052339c3a24a9162f5b36998d56967f0f727992877d4ae92fa857b1e1c10a 0x300816d178e4db5462a00e8c71c32894fad1bec81a1dc118ad002905c52dedd6e22672a2edcc90f61415bd380485aa 0x5fe564ef71d70232a79c5e416f660db7e5054e308b3dcfeb0271eefd4c0ab4029a98e689be13305ee67fbe5576c68e;
  Twice 0xd80927a22e0b22d4a7cd79ef9bb29f870898de4d6de3c05cb0b5c5301cc89d76213b5c4de0e82ef7bc1ba0b87c175d (-0x1f1d1816f4e9c751351bb236c23e89fa90a2fe7ea448e3ba70a259697fe86094646d2071629f7b28d8982cef0d83837) 0xa4a2ec1ff7d0e38f281c8d51f3d396e9ebfcac372d86d97c6ea262f4bf72e8d7b06f5a51760d28425fbf7669cc7213 0x6c7b1796465af8a60265682eb8880c1e4558c3c2103515861164f339935765bf83fccf6b5c194019c2c8219879ff5c 0x17e39fa66c6569c2a8c0587a6cdbf19412d3cce580ae548e636a5c7237da0f79a5963366e2b37a7672ffe9d2680dc34 0x39d907ed5b19816bf445264c8461220d507028f6ae24d03f2c33ed38c72c4531d4bd94a8a5ca1d0bbf80fd5e5c9a94;
  Twice 0x48c0bbae4420254076b7d37940f35c2bccd2922c4a42f33e624c988ea57f6b1eed37fa69505da2b0f475661f3212fd (-0x3bbbf4f715d52ae1378488cc4bcf68d41cec27bd5614c47fda948495a0b42b693257e106285cb40b67b7f5ef5c3973) 0x4aedf21b01ab4395753227b9cf29236d50d0fc1ff5a6bffc93580a67dc1cac5d5b26c968a6094235eaed0285a1af9d 0xc4d8071809f0d1279b32817d357f6f78c5706de8aa1a88fe5bc2fd92e999c717565b7f7cab79a50c8a2115901fa46 0x3fcaa82dc7c356dae37662f291c487f7fa7315701dff171c13916457bfaa1a915036dbc54ea760af8080571c86b7d4 0xf2b7363dd4aeaebe0247ff6cbade10fac45fb6e0753114b22a708d9e7aa7055658374b8bbf6392f944a8981f2e696;
  Twice 0x1a0db9b86ec5b0435ed389e6656ad91ebeb9abb6676c777539056a722e9337957050d9a0ff44d162c64213148b2dad7 0x547801da590ce345f69470ab230105b09690a52481f4e4bb82fccd1f02bf9abcff2e208d23653b4b7e23abc457c33d 0x2a317bf8c3e1bf82c89915325aa6822f87274ffb0a1b95e3a79a4964af7768573989588714e79f2aa78ec061f968f8 0x193e74de7ed81c0232df1a8cb2c58d2915fd6b6fc67ff25e350a1d66bba3ce2cd724f231d0364289ec3a39690d2185f 0xbd7e4d0879f47f70a706c04442d94c5d6f04f85483d988006bb6d58436f0e1d03a49d60a818ec06cb23adff96fd388 0x1fb8078f877a01a8c456e7afb897121bd88a04f8247dbaed9a3558a1e9d315bed96e2d615e6790ef4d6a26af3f4b37;
  Twice 0x175c2294a2ea6de25b545d05eae3056f4c5e7d700ec0d3b9c90d94f15bc1c6b22238138a8e7bf0c16ccd2e944565337 0x13cd444bd2ab7f29b5c9c58649264bb26da5a5d02dcbc63a9f71c72e6b6556baae952b1646da2ea17f91b722827c3b0 0x4faf2ef524c8eaab011862cf6e67b169d6317d193aa72b612a98a7e2de46de56ee5fddb39b0fcab03ff862b1732373 0x144b37975e66c49e256e04f8611a9f86b6fb31e83e96f1cd42c36ee783d30348e3c48ca1f52d8e8ec3e198bc69ac06e 0xbd4e7f754d97d8938a015d8b418e566a9b9f25e3db6b9f132445d378c6149f2432c58f164a23d4226c88c4958e2c7a (-0x2091f5f0f013ffccb8ca0b2774876a7a847f8a2ffd404b44370338de48df6c13e1d006eb0fa430b7fc7da86aecf16f);
  Twice 0xead69d20932487a96fb26f12ecd75f4d947dbc42069cf8ad949ff6928b008576016dd769cd82d1bcf55c2bf5cf4fd6 0xa263872a8ea1467b9388f269190d602ab9dc3f6ca9d41bc921a60584ded4854aef3c58bd4706b34fd1be738dc1b6fd 0x168eb3f1662fed966ea7bc167760c8de8fec0486d29b1d2d22470698b4d74e71190b0bb57c76d1035417751081d6403 0x802f8c156c3ac7c38d513d2046a8fa5de2c9f859d1fba3c189ff8a6e4ab86845971a31595d2a5e2f13707f65f61bfb 0xa245c37eb824c99a2001311ce6be1e2f7da3d963dbe782a7d7b4e738934d62133c240ec0eabad882b2455c4dedd066 (-0x9982d04ff05867175e58c642b7e3e1c95889196e6e715bbd5f4ee1e35efbc6da17020bc76ef98f17e011bfe42a6540);
  Twice 0x1795a16d0a4e1b1d3803dbad14e1d25b4027cd642fcf1063d9bb42f4696463b1d9322161e460c049b763a1128cd0eae (-0x26fab5309fefd8062cf86a7ccfb3f90784f0da149bf3885368009a6f9e8ac6fcd4fc333fa7d2ff8473e210669d29573) 0x10e7ef01a5757fd06e1d459ff3f78275736d969f3ab275db03fc9fed51d4c428ee40791c915ac6144ce076d82681a34 0x14af98665e6987c252442a40cc6f22e45355b0c448d6ab4659323443fece0b6d36e7ee780283ea362230de350e09c0a 0xa0d107792f98ba329beaeaea5c9319254b181e62df7824dbca63f0892e0e3af30c9f808d929475a1fb97c58ff4a305 0x4f4f575fe82ee824bc1f7e03f1b305c9a4bae079cfa0f57893ddf23931176f58ba8d529aa9919359fc934660220947;
  Twice 0x1605271b5f7b529b95ab3ed4481170bebaf1b5c1028d9e34cfcdfed5cf4cf442c2073ca7575bf6e118a06793e4ea028 (-0xf6d00742859d6b8e5aa64511b533754ab2c58cfa38046d03b4994140b63e093a29a50ee86c1c419a42373bcb869e20) 0xf6e5d7a4c0dd801e28f767ac49f961fe9e22a39e2553edf0ca0b6a367f28bbba2a4ff302a107d9812320991f3f7750 0x120860aa67595da3fa664e70b72c68bdc205659ebd4f861f21f2aa26ad10a24f74b2887f96310a8553a441538825a88 0x422ce636780f831db7f85adbf542794488e2fc50aca4db9b363ba03c550c620f6c3804935613aa923405c357c1ae53 0x13532ca934b7cc9cdba875e99bb2e7fc89301a88b39c22345842fba13e1eb6f02e22c903888db6047b9538d5e9a248;
  Twice 0x11f3a8a6907fd3790897442631957bf50237a5529065f21563549a4bcc3d1731e1a614d371de28852f52419bf0c8cd8 (-0x150b4ff78a537c0d88221d5b1fe20fc44dbed606b73ff4a06b1227fcc4a8a05a1b1be4097706264d85b22a5d3a976f0) 0x147f1cee5a5d3e986a13ef3cfe731b2761c91b4df1e3fbc341ab266047300951da9255090f262e560d395bf45aee97d 0xbfc27a24d30ea4b95544deb25904d42c58deccac5c2b3d6bfe3c0794b8cbfdf66cfc38f27f0a2d8247e6064d8f1e23 0x73409e8868e1cc3c12239c41726de8a560ff2743a91cbdc3e20c97b663126e85092ca47b94b34f610c883a2dcdd83 (-0x361bc30c4de61fafba61e98aa84287eb2ebffdd53cf322344c51b10eb52c740073f3ae5dc5c60b42e6714a48337dce);
  Twice 0x8a9d44a37dcdf6f8956aa246738cfe9effa209304c1165e45144187a064975a2edd6fbe41482987436755371be97fa (-0x2e94b31a87211a991ecf2d1665bb0589e9aeca9182028f06f11ece4ee27bee4d6ba4a83aa98168b2f98bc1dbd7d273f) 0x9a5b9667c950383689d1782571f669cf51220e98cb4fe02b70f2ed34062f78e5fc7bc92799707b3ffbcc293953421 0x2ca8f0966e39b7d0c424be2472d7d6e94134bd9f253c7d8ba918f0d6ab7c4a7039c63a9d5281e48acd37eb865dd909 0x97b47d875da561c86d8610efd836345e35647579d29699a89cc0d21db04a3e6ad5dee213b008d92a2169a5f761c62f 0x668d38dd96457b00ca0a809ac81390699971a51d332e949017a11463142b3a1882859b7101eee9b52aa29fb31dbc26;
  Twice 0xcfcc6923d946f5cda0c701956f170284bef5968854abd22a6b4698e4dc4771b6a15e4027ea1cb78ad206ba064ffaf4 0x91e5a4849b29fdead42450514ffd044039abdbc87630052c9982c0c710004e92d6f10d59d59d00cbb0bef2316150d5 0xb3d2199866066db22ee0c9164115f28c697dd073148ccd141eba167a7699c29026a30ff9a1ee73269968745e42a545 0x645daf5b1d6c98845a331b51347fe1f79b190819e56d78c1208f4cf525021c1a1ffeb691c9a234d04c5156c32c6b09 0x66904d6152b324d2580ec55490cf7ffdd7563e3d98337b12b2820d9830d1614b47f263f3be13a6ccdd4630e57b8809 (-0x523171e83cbba1cc87874a55ae3139729fb32b76a7d5a190eb4767eb83bc68bac848f4cc43c2a92e4c9d8e2cc64c88);
  Twice 0xd0f1120388cc16d69f024178454200bfbe9baf6ec5706b88fc5d80b4b6a119f7ae6989ca4a2c6a95b3e54348b724a9 (-0x7ddb2da6f585ecac068de65b5af3ed9cf2a468f8e1689fd776f7d9a6284043b25ab948c80d58ff845e7ccfa297e9e9) 0x7e73aee4fe60b111c01c98691ef86ebabc37ed453dce80725c17945a063fd26747fa3b19a798115d7441ee05c01c11 0x65792b7d2d39f8beb13586cceb42eadcf23786bd96a858f41cd10e574cfd851c5fbf8b568f5c065d617f43bc9890f6 0x16b8287766f3e0a5e62b10d3f9c00676f763d1e1f48aab5a26dd14a6bc4da02b44cda6f05dc96835f502619efe7d711 0x19eb345c489673b7d1c121cdf82133762667d82c532848217f31432dc7368a871d69a3cfd17329a4f7cf5aa840843a;
  Twice 0x18abbc9d0ca81a5b4b14e5e71395b9c51d7a766f47363a45f3bf2a8d4a3c76a4042813d19fbf2bbd03d494d56564cdd 0x22b8a5a846a5f168e9e71f6c6a9f10e1822f684db97818cb23fcf865c49543fdd6d70b7bad7cc4b382c4d1b75ac3ff7 0x1202974b68025364011db578ae3a16d4ea728f5d81b0304b0349605faeb4374f640108c54089976cd327099cccc3ac5 0x16a2af1c17d8b8cd6a2622a62764e16c45dfc92a9d6eacd2f30ab97a54819d91676182363e594d3521beb385f4383e2 0xf5a41b18e6020545f179f6587a5c915148f7798eb8d71fd4cbe973e62c58caab789856e96f1f881ab610ab73c39ac1 (-0x945e6d5d9393ee7e1a791e1b298dfdd5bf627e6409ee29b3496ea5ff932915ab593efe824046c9fbd480ae9ab76336);
  Twice 0x7f96801200c59a89ea398e82776ae16c45e02dc2eb9513c930fe58ef697d323d735012496731f99901c593c8de9d5d (-0x1b154508263906c6c985783723df15c0b8b360128949c9b92ba72a19203a8cb44d384ad03aea905f9bdeaf10fb66891) 0x63442c16f862cda875204534091499496702b020919dc293f630d662e9373275548bcf4ab6a9d90f43fdf938331629 0x25d65c0dd1b58ddc84648cc7a6c1c43e60348b8d06ef3296732f2d52b591439cd1bdc816ed151339c71317cc3ba816 0x4138e71cd9b6ebebb0cb4c52564483d03bc4950fd11f0cf345254b7fa0cf6b8f839c5a22dc4a0f9dac26acb31d0ec7 0x3804ca1769345305de168af484363c2cb3a3881ddf2f29d11318a18d07f439d3dae1593919b8a5c41f7b1b5f7d4f24;
  Twice 0xb605caf7f44d7ae4ab1b9f66a9f5eefaad83cffd2ce7eb1fd026349c5fba360549cd8d458a1fc854ffaa15bccf80f3 (-0xd85a10efd1fa2b76525f227a7368194b1022849143dae3ae3488ac7f013fd34fb6a31f8ee7ad81687aea00d0029e9) 0x12213a252e77d69104074fa3588a2300bc7cb495675ef038c80aab94ade64f2df2e88423c96297ffe1c4021b25baeea 0x4d02cd66334610fbfc97696c5fc5ecd51846194860299644ac07229b57c91d37add0943e35446b570b55608f2c0b6d 0x17662d963a449b330524181a09310249b1f2e22d0a75a135ce676a1dd8e59a65f83b4b2fd054b17f4873b5b911b8a95 (-0x50ba9a33c7fb59a0b6bbe59ca81b02f21392d25cedda588e7ee67eb283dfa0abbd73a218e16f14381f745ec531188f);
  Twice 0x185bf05a68808bcf03ed61b934726bcc13a212019eeb5d90bbcef469d56dd14a3fe4d2b4982ed576e60944690b43caa 0x5b92f0d34dffd890922d81ecce64a9de3aa4d459b0c670d9f511e4fad79d3d086421fdff1f920a43efb48a75751c38 0x3e0f85dce68fc9d9194d3b624e0e74976b443ab6dad0ad3fe6c34b84f226b60674ede72bebfdbaf67264570afeb50f 0x16112e17e828447a69da03eee0ff9b0255d60ae982af6f4c6d5b63330a326d93ad1d5637b180b81ffcd5b822dba0e01 0xbc93bcbf946f93f0993df43a5be4da847a540487db3c13e1cb6672cddc9aff40a147695129735c4a95b88a84b7c0ed 0xce8fb2be80868ba8b527c577f44dc13b7b0e6866a2fcf53f85f284b566bc0afe2f0489aa484bcfcd8267b3b675f3ec;
  Twice 0x3d0c96ea3f6f3ca8ebffa0564b5b6480ae2136a26d4e0ad9b4aa32d36c7ff51e77d11566546889575f7e6dbb262c7d 0x1aa9448d22b3ac54b31a63479d74663affc8291fd8e9be7249dc09a5167aa4f8e3ab80e1a76fd8ae2901d568a93acf 0x702810de9b5610b2cdc6db205dc430e93b006d96d11c87dbe7a2d4ecfcb7f79cbe84083d4b84b417e4b7572dc903dc 0x8a9b13f904c4b618d77abf9acf8038a342f432defa4af1fe1b2f0c4d81d1c4b583b8786c4d836d856f91c9710c70f 0x15772747158b3076b098ae6998cc5ae24597b1f5f1d6af26a2be5e87a823a770ad8840181bb9874038883afd8ec8ad1 (-0x71bcc89d8e61c83d9f2bcd352ac1f30fd7c7fd2f94b65da57f1829b1c740de023b5a633bd4d5bbd89ee26916601d7);
  Twice 0x194474e4163078621c64ba967564d178d94b8959c62971bce6507026400f6dbc7f36da18c36c0d868cbc9723cd0ac58 0x22dbfeb937ae36c4c973bd62e9b03c0f1d4d3452de2c5201b45ec7c131d5c011c2cc84ee006c4a1195bb7cb52339880 0x188d8f43bbfcbd176ce083a70e1154b50e74980e90ada0d4c63b94a954ae905fdf445ac7463965cc3bae8153985108c 0x17be501c26edb930a6904dcc5e8b7c43d8fa6633af94662cec81f8d4217b8eb43ed781a943968e4369cd27e2def45fc 0x144ce3f7a9ffebcf73c26053b76b797f8ec89835c434c38e1487d7c1091610821b930a61fa3263ded4a0476e1cd7e65 (-0x107c2daacd7e582b4f931b8e86650e27f36efdca374ef2a7c658f55b209822e40f5472ec3d2a7ca47a7eb80aae4a5b6);
  Twice 0x7773d94c02a7f2cf544fd3b726e7e350fac61e5d9d5d1746139cc3e0107a92daad5c60a8c5e1c62ffa0489e77da3b1 (-0x37fc7ea18cdd68b3b27b5ebcda4c5fd83c307ef64aae9dd4860c39f1c69d4f409b0bfa4ee6adbd4058d1baffdde0006) 0x63494402009d604385628c9b163407f5283acb7691d9bdcf274bee753cb7a383bc49df2c3ba6837378f26def4381c4 0x212a7bad2f829899160148cb2b957599a47cdc16657a26b85a40e56567120a86a4d98f1e6ef979c86433ec4f373d85 0x99a30045b78c3a3680a93604e656304cc69465d64e873e9c8a041471453b401582a30589c509cdf8048bcb27857331 0x5181d645dd8226300dd7d4c1dd414a72ceaad53a950462a588234a8801d7ba2686ae90e087dc9862713f913b921eb2;
  Twice 0x122360c1c2abcde0845ab56d6a6a3e857be264d59716b1bd01c71770bc9aae78743bf97fddb03048532199b21d9b5a0 0x8a88917820e9e7519a8aeba2a330ccce0d4dc460055cf5e9bcaa6739eccab795464850014136bdfc4fee1693a7ed10 0x19e8383b6287a2cbe6ad375a3158de533cb6ce130993221219af1f59fb3892c0a5d458242b4beed2003e8915082ef41 0xc3c33c2390fe787327c58c9406841464dfe2e5c25ae8a98572f0ca02ab04fd0888910fdb73d581517dfc4b7b11b137 0x129d36f1e57fea59f9f105e282679631e32fdb5df48bfb0093549365f62b1cef6ffc421b4c2f2e1f17341a465015976 (-0xd4a3347d6c5dfb031310e69e31d2d81fba42632c8a1a6a5f3ba5ebe260e87d8f633f8f0244e7c1245482de18899bc7);
  Twice 0x10a83720be5c93d316a0672f32631b68239ca97f3563ae6816bb9d5b6c9a6cf41cf7e91836659ce66a975ab9b6a55cb (-0x33d21e43888fe6d9b8f6fb13a134d8cd23d179d62e3b1b9f273ab75fec4beb11b51e7a606d76608217fa38569970e5f) 0x13798f489b2b98c437870ae8fbe21cd3338c31782f84bd2e2e8e623c10051ec879fc6f9ebf3857c855f2c2bed0f9b1f 0xa518e92aabe8f9a2bffc2d838a21dd3f0ba4437626706ca21363d927dec538ef799b33d725ddf4dab11df26cc6f558 0x5e622f72a6e3e494b6d02fc3cfbaabd500a6833d7c07c526504b9509dd0edf8e50397e9dbcfce289ada2216bb3b74d 0x3fc0eca35ec5a830ad65b0e9927ecab342986996d6cdee26a82291fd761b1e8bd7a77203faaa6c0270a90cc2c1f033;
  Twice 0x59c231c42b6df293515fb3c0178b624129b6c1c83fb52765877618dae3e83dc3a359bd7cc6fb56078e78fd15a5dec1 (-0x27da6e9346ab1b13718e34ae677033cba77a59447dafc3a42ab180161b734a492bf26749603ea5d8266029fd2bbbb29) 0x1655bc2d8b448edf51c57dcec90122a427eaac2645c9a3fc1ca6509b969b07ade44a5d5815f0702ce1f4b7942f1d5d5 0x12b9f34b1bb32ba69d3fb63b6240c3f728972ad57551edca630faf7f7441407e3b4a1f0471d157bd3fb7ad738c416e 0x1914d6ef50f007b26dacb095e1452766c0dd9d72c14a71cfee761d6d3c228cbe216647cb9eb66c2a57a8c9d1453e83d (-0x98c109c1bf6cdaf88796733a1233bc75f1fac4ca6d73ce266f436b444300b2136c3445a92ec0fe006180533cdb6c0);
  Twice 0x17172d62bf427e16b1cf37f79a2b13e2e2a7b7b596c1bd5f6a724e1e43da64ee226a52b44d68f6a97ad9899faf73a35 (-0xc9464e6138c637a74efa9115687c40f1f6efeb73551c858687ec3947f600ff26be6c6e2bfa9fd28b984d84ab429c69) 0xafbdcf9abcf6c3a7ff324f9afe1e8ad91954cde85c9a9f550a58b701b8ec1f1f69cb384391f2ded9685578e22bc843 0x13d418283b386a2a5b1a4587758562c36f09b1763b8c2dc41c49ac605355d903d12b78a3a8d75ba39fc635f7b729b0c 0x16d3d106e385642ac7ac56d2a7eb4406b710532bd7f9f57ce368d70ca357864b50e00162bad2a3da38459bb1932eae7 0x9bf5a9fd6ed0fcfa808342c995e49275c0f345c95bf440c683e6952cfb70c4b1fa18437f7f8d1e0ad33242666b1016;
  Twice 0x4b5d9d2f31ad055ba100f94eb5a72c206a287835e2ac3cd836bf570942bdc8a10cb225ab5988fb654551aebb69ef47 (-0x57669f9094fe1dafaab0416b436282df081520b6b757dea4a9b2760ee240a9958c1a007ef6b6cfdd9647de5528a679) 0x1b35a661c8928c9af206316a79e8c371d00a7318c34284eb740eb773b5342bf710a27e9c75300273bedc25bf70b076 0xd33c89fc9d7a64ebb0bbeb22bf8eb070a327a62d1bee808878ef11720c88120c86ceae837c47d7826dad45e1b64b5 0x723bc70bd1b9afd9b63c21dca9dc318d9a804e755fea8f6ccb6bc1a9a5b98a4e45010382621969c93031ce43e3435b 0x1a04ee6fc8de1c8aa92bc5afb406fdc61e18553b91eea433131251ffb03eec0432ab70d57824138740eb67721ace99;
  Twice 0x3c38bce3eddd0cc23e8528c2945a8566f64d69caa75e3a88b4a81fbab481e44953e184823e11d480535374824effd1 0x1ad13f434249801fecd8d4e7c6e4eead4f74c685fde90c5536ca378792fb4a3f73320f3c682cf14c457852320fe16a 0x120bb63fe1571e000116bb1835db864a1e5cdc196c119cb504d088e7e57bbbd5320f4691e2c67df4e25ea958735c688 0x86df9fb8e3687d7aeb9ebeeb7f4dc59be3af2f17d48bf1207e3dedef9171a86bab588a9a3d9f3ac664cb820e6e12d 0xc69d43e1fb6eaa7219f247fa218ab2fb578acd877ad803b757fa466b81db4b03207e57293851daa8d95bd3e9d1fa3f (-0x249b5eeba113ced9cbbcf478252899970e6a124f019d61f782e6edb1255aeb7dbf47ace3aec15501c1784b7414304c);
  Twice 0x56e20dd4bd461ca80e7315f15554a36d5c125d3a82e64dcf9309eadceb6d3e1433a31067818613b1d1c2d8e1311723 (-0x1f51901b22a1a9ef483ff20e8085571b075a9ad228f14fbe262991674d3af1eae43cc46bc003bb0b8e8647386543986) 0x174c3a72cd3c0218ad964402852c85c55f965bc59e7c75454baa82a3c0f33552df12c3b87c43da5f46815bb1e0dd437 0x118bb54092a0018dbd3affbe62110e494abd4209c34d6595077c9f791cb04652ca2e48f0bfdb37e440003f3703ed82 0x936c11fcf20cbcbf1528860bd8145384c35e59c3e413110f9c00c355adc935b2f555f7745ac3af58f86c21514dc9 (-0x10f8543d2481927515bd3c6a49be34516a475cec636bae6ae888cd0da088eae5b20c2647a3658c0bcdc7fa8166dff5);
  Twice 0x16072a42a9ae662079ab8ab058470a987a8af73257b62402b57227de59f6432d1581aa228a75799023d2984e437f3cd (-0x3c7fc079d14d1c79afe2b3569533657095ef5114dd82b2f1ec2f0d6218f04afd762ed8aec8fead702cf454f3a434189) 0x102857e006fc244f2f78cd4d29e05710b852af9ff5cdd186701f325e1a7e6660250c00078cc1ec09257d9566fc274b 0x120bac8e27704fbfb6c0938373cdb4b7589898053fa588e89127e5d60528d2222e8dc9eef0ffd537da722dc2f2d0270 0x120b3075a13583e64c764713c9574cd8535382fdf691c29a2c7aa41c25c81d453b351cc4f3eebd6cfc7e393a811bd8b 0x12422f96f10eace1b429fcb618ee8e1f06d6a01866087f70ca634eeab52c343e93c9490334149a27e51cf77ed9c71a8;
  Twice 0x1793938770224efcfc79201875260a4008d7b6e0ed41de5c226d2e01cdb6d01799f12b541e8612a67d4198e70afd9da 0x1f8714f21d45457c6c4e3aadb15e7b93fd0cd7f7b27c47d9164b79dcbef94e3da3713c145bc255040733bc5a486a6d1 0x74d092b5597166e417284a2725b2581210caf918e00362bb95e9d00c9ae373bba0084dc2e17d99d5a9f606df371f13 0x14abfe07c3bc45e0c27d04d11460d3cffd8b8208e997b10cacbdfa43e49cc7759b79a456b2e275b93836810a43fdffb 0x1459dff0a9cfe79f1e7bfb2fc46135c7ae4cc01e1384e790fd6910c627200dfeac5a5be00323fd42931bb031ca0e3f1 (-0x584194683dce70d00b67de6ba202b2ebefd18a49f607280611645dfaba88334a5cbf03a3da1fc498da53c804aa29cc);
  Twice 0xa48df1b326f589517746fecd45eb363e207ac3975f9af6eab3b90a852cc335b1c30bf02685c6be4287a0db4085beaf 0x99eefe0b82204596417cfdfba8fe0236ab2283b8f9eaaaed91abeccd6314e210bed8bb9af9b15bba6a558ae6ec8d43 0x10d441b1d3ade8cc776804f9894ce74d21a35ec23f8c70a6e1dbddfc8710d198c5edc9cd330d90db321537d6f7ca688 0x3ef06df26a39b0c064e04e1b96404ea85373c0511cbf6b2d373f41a674491bf3ae6896dc71be1525c0a51601f356f3 0x735420391c77e2b70710993e705cb069ef34f30b8a894f219f8b39e316937ffdcb22919acbf35974f350855476c97a (-0x3a4f57861116d07799c2e9993a6346471581ddcf682159bb3ea578a2f9f029f6d5c21ceef5dfa88f20c5bc4af11c66);
  Twice 0x3800f864ab1a2cd72a3b79505493dd0c82e4b59a2187ff8f909050d0897f003de1fe63f6c9c122db919c51d599eb05 (-0x1db8ce690086f8ace6b55ac88c0e541261f2a0b6f0316adb55b521182da78b6e3c8935812f292bc8170b305d5e01dfc) 0x1358d1e10d6b7c0d9c9e8ab497af2c0e5d6b68f1a5fec3a6692f22e74955dd8d884ecadb21f1618215736c6e73fc63 0x74a475a645f571b23f3f7139654c71cd324b4939c1dda59caf8668b05c14dea4c86fc0fb9654dc6b3b463c84ee4a6 0x10c215a4cd1d6919376ea360321915088086afab676302691e8e30f13226f59163638dcac5ea60cba0454772b08dc61 0x20885758e0298c3768eaddaf9f2738c7d2b17be63999dfc71eacf26104faa6f51d0824be0af3c46e840cbef2f8a3de;
  Twice 0x145679d5463fff9f3cd87f2e560012b8a9ee7493f0be67f1bf228e8e3639a82389d0afa18181493f277420726b0d1c 0x16bd7b098eb9d0da18080b5add31db3f13894b585dc3e1743f9e9b85ab67a3efc6628bdac644acce3c5d718418e45d 0x123a30fa3bc8c3c2cb052eb9edbc21c6fa14a366d71b8a6888d4bcd00ff0efec041685997d2434a3d533a18eb9f7049 0xf61f17342d4bbe206b68b734e299c60262dd2a98bf555238019a36d68ac021a119ed4d144b02ec494a7f1d8c7201 0x14bfbcf8b762a6c6426ce65454db95d651c1b93d62e0aaefffff760169a1885c94932e31b7b217e5d3bc4d1b96bd0dc (-0xcdf2a6d9510188191b8aed5d5152174e451e3a5da0039942fbf96a4b0d08b208b0d13fcd3ea35e4773607a73a0865);
  Twice 0xa078b393b8d980119c6d1fa474c389e8b7e108cb5d696d79b927fa8ffe061a3fb522736abfa955a1c920e38a6a7c28 (-0x1596b1a49d31c5d7fb8d9d80f93a52c81e43851ed5d9a20e7426fc9f2c7c47a28b5bb344fd7ff77973e999f8b9379b3) 0x4ce2aa8f8eca3fb76b1614a2677e01f414e95133c5cf05b081bbeb0ca52220adc5f3af50c18bac4d1d8a7e4b38042 0x3bdac68146fa59b39b1b8cba68f9c62985bcec09d6e88d87c878abe7d20906097befdf314b929bd69fdc3c7164656c 0xf7e93ec2a5491a0eb37b9b800955d9a6a5aa11b6382ba50d518da32791dc67134aa1450b2305d0a91dfdb14edfd5d3 0x6afc64fdfab1a1f293119104e5af564b98778b78d61532a26be981eb2e983314483345c55a389e4e3739ca7dbb3e69;
  Twice 0x336981c51dbe2eacf554612376f04b1fe0b9ee80e26858394183776d70d831f7bb8663d3320187d20fb0ff54572b51 0x3b16f4361d58bbb20d27d5e05618ea0bb4d198f8e8bf12aab78c88a598b004bb6939fc75105d3c785864386339fe7a 0xe94dc92facfc23860d297e9ff12c8040397633d23aa4770087dd656a7a549c596463848238d0619b5aba4d88a4f47f 0x624cc4e2f756923ce382060105c1c63f89111718436e04b2af42875e34ad1534d67eb9549bcf8209a11dc4e565a9e 0xbb82ba8ce1440711594829416577288b5d745fcdcff1588ecce35f1e6058daad7cd6366949904c6804f0dea3b6f4e5 (-0x1b4e37b2f07c3140e0a2ad210d0778d05330ed1378f8897cd567a383fe6c6bc2658c3707af3169a2831077e53dd105);
  Twice 0xd5fb5cd092c42f45767d6fdc1d5481a884f4a83b18dd97cd300ef6f5e752883f7226c6e4299b22d20be9dfaccc72bb (-0xc1062a0468a42d8039fe9dcce4f46e0309442b92e43de6ce31a171631e399393323db2d2c1d08624f7b6b330514a75) 0x7534a5e793dee4e82eeeaad867613951ff517ea63e6aa4a296694d5dc97182438e8ccbaa718b3a15e7135c9fb4b972 0x6a6d8e7720d7541617aa2039bef20e4808d4d42f4948898269b602168d8bcdcd3aefb47f17d32bd13a5d44a4747229 0x82c53a91f651e36bf29b0a2538a2242574e31d056489a5b45001e38c00fc28b976aa4e2bbac9e75695112171545d37 0x39be5f58d14406c0dbfd88ebccef1f36fe415ed3c3b16d194812bfca0708eb8532db4d27626b81ee624423d7179a63;
  Twice 0xcae440f8a5b6072d62cac32e1fc7b4a92ccce173a22c6b190b7995ba507c4bf5ca07124efc00e325dc5236e6ceb7a (-0x5814ca1986d3f581e1c1e4a855557f9171b8c662665be51012666a70ac780106b306f9915a616436549f5dedfe11e0) 0x177c32df2d9c457be97af5adac6846096ddbbcbd7d18a5aa13be7f8ccccfde0cc104d219bf6fc18077ac466115d202e 0x5fae92a224c1039e9b14dd609ae1fe7c609b08171e86c8bd8dccf4334251c96be5bd44daa2e6225184f10ec2a312 0x19e30d5adff7a3856238ba744fc412b5a3aa6ea1ebfcff17d0a72fe3db2259b39c64d7f0f0dd55cdd9730ccca06191f (-0x79eee1481f2f7522e1794fe4d6f2f5fa882975d8222c9457c4559379326f0b64f2abed9dcbb41ace2d2a81b39ffee);
  Twice 0x16a8a5a995d38bb0048d2d290da5f10a9c7ebfd1711b13f8525f11245e551621dad330729044cb1fabaf316d5caa031 (-0x11e860cb19bedfc1ebf8ee81ae88ab3800a30c9fcd74947dbec48e4b3fd98c06023b5136f00ca0dc1db70bd53be3aee) 0x14fdabd09ecf3e7ce3b4be457485314144a301cd267887cfe94d63f8ff959281ed0413ea2550b5faf7b40d3bafe4f90 0x131809d4c6bc1ce8ea99d14cbfdc3bc2d39598bc37ea8f47225877c96ca648e7ca5b7f1b21eb1e8ba7ed3beddd8b975 0x4a797b6cd2bfce94f90fa46169bed44e7c78c199717731c2ce07c2a76391b7fd4413b91b7727ad22649eed6c89adec 0x21a119d34078f4e30bd9da92cacab56b61da393f914754b8aa84df6789c82b105e352582366b800276873ba6a4e733;
  Twice 0x72199682a9e6232384a6f09666253ca0f108241030b1b1b6bb36fe01b6473b7a287b3382e018aa5b0a7366c8bc521f (-0x2eb0b9b1f2964d8d5dff2971fce3b3a09f4201fc6c6b0e2b3f401aa0d0425f9606fbe4770fca4aa43594dcd000b43d8) 0x51494f8b695e09fb2ad58f43cc8730b82f075e2913623e1eeb8eed76423e2ebe341d34c9d92fe311ccd59cbbaece90 0x1e42a0487f4827f495b07a20df3ebca6129331439dcd3fbcf7ac2bcf9a8a9812a8fd3b4f1b03b20dd3fe48f6347211 0x13271c548c5b7945899b85c3bc06c141e732d936acafe161f07ba79d75315e21c99abcf3bdc6d6838ef79212f39d735 0x438379a9e866b1e5645931567f462c4e2c9028953f7e3d307ae5b1b170f5d009f5679f0a316060cc3d428c822f19df;
  Twice 0xb66276d1c2fdd6c32f691d4f1d59a4e2d2d2b5003c729696b1eae93731f667537f6fffc3af7959592e644e160f7d9f 0xd5bec37b61f29f61cd5e262b1827555d86358f88d0d61ef32c24fe494142d502e6c7e01d3cad9335bfbb7c02f4e2d6 0x1924407bbb81a9a2019d1b4a8d485d07e6fbcf1cecc120f4804cbc5b6287825e4ab1fcf8491a04d30197ceac50c49dd 0x4d514bbf07d9c3863a9f6bfd0947c9e5023f5bcb8b132d9bd98630eba1d550bf9bed118176087b797947470ddcc1c4 0x1ab78f517e1acc23770af553ac7ab2cf85ce5d42a05aa2972c5c6a4bae91d3e7ce0ad4ba8f26f31613fb9fae4ea0233 (-0x88124b50353788cfd72acda0cace369eb9474d5ff9233db63f918ac89b570b78d1a4c07fdc0f80811431af61eb073b);
  Twice 0x18af0c085cc36699796ebbbdf225b40019a9b6c333ac60913c37c862028ad46632ec40c273000102d5da146a6ef2c05 (-0x1578a80492042f3b51a99f3be0ffbb92ec678d0541f5af95f70c779ab472abf19ca2050686d9106add59aafcaf7bc5d) 0x273800cade5f592d7eac9a27c52f2a71345b94c82bb4f04f0a818c59855bb93b9557dbcfc721758cafb9ae17ee86ec 0x16a8c287bf8819c3e91e9eae88dc3abb8c62b1e493783181c4661bcf993404c8e0ce7198c49984e3d1675c212e09d73 0xa7a2ef5700f54aeac6399fcb73de4d2e626f6cc9fb3b566622543849bb61e44bbbce67d30e5727210a7bd27d9760e5 0x14d451a3e04bf89212532719fa1a81e31bd93e08079ece35b59ec9767c98cbc584e0c3d95121d1386e8123a6193d79d;
  Twice 0x12d7cadacae1611250d5257d735a812150eecd51248f0318e4ac31ba68f57132e8cfb0064c90cbf7aa811aa71b904b2 0xe03898a9f3c99d88e7b383c6912902c24099718f20eecef44c53beec91475d47cddaafa50b007b86245532ecc029c4 0x13fe6c4d1cb66a136c9cd8102dcfcd7306068ef4cddb7bc6dac5ea043f0776d9dd143136fbe9488b0572fe328f25e57 0xd345426f6e444998f187cf70b03178b2433194a2bdda1a2a5bbd88ba671fae8c29283f2ef1b16879705905948a9f95 0xc82eaf1f1c647f6c232c3676b7d24eb999b3725653dd8e17967d700296c9529e341a02579e5d90a829dfada322bc51 (-0xc4b1106c6dcdaed43503a1429829cdf5b1f66e9363ee81089c04eb70e83a7474b4ebeaddd0a9bd6e578694ec16919c);
  Twice 0xbcdf075ee5780efbea621c5fca1d2197f7a1b04146f2204f35364614408f980d839c64187d9ede3b6db522c6044012 (-0x219d6eb82aaa8b764a88d0405335064c94cd8eff0d266f6bb0d4a9475e1fa2e5b98f50543f5c7b2b7febfcf902d094f) 0x19cd9e8486454c0e8fabc54d26f9a7a138195ff56fe87befc1e11364cc06be97f096f2137f9fd783870de4ccc58da82 0x52ea3eb94eec10cf999e409a53d5d91f9456a0a04cba94ab0b73e4a468663033d3ba7f32fd0dd432eacde2ca5b6a14 0x1364767914357ddf8c417a000cd2cc7c8e6d52b59d0e3707515a5c9c116b1c8cbb478b287ccc259ec35b55e731904b7 (-0x28ce22e964829cc98cb26f388aca1684eb996d4d91c804411fc6748a4014d8abb55ea2a102cbe45d0b77ac65273c0e);
  Twice 0xc8e16ba777378ccb5c6565165314be13d28a3468d91f8b58033490c8f55b97480fdc9ad8b19d8d496813b705d5adda (-0x382c7e34736b443a06a4290a3ff02d57f0287cfd975c25f9f177282387c5e6e92670b248593f265f915daf39623a060) 0x126dd5d7a1e76f08ac7f41025da13ed29631158ab5e6975719a10522fdf1bd4f060b6d87d8a9fe1514ac725f2667379 0x5dcb65c4e10c8eb92ca218c3f2c8dfc0e619d39f330e45a9b419d701348e4a8548eb65523da180ce4d3111bbbc3527 0x13ff929dffcf2c7fd5c81989f99646833ee41c3f116ede8ffe8c92c222b979a7b978a3745f66d3a4d2097947528c55c 0x371702cfae9bb0721765f4898389f52766dbe5db66944c1b06b6857c9ed637112708fbf5b337dcd8bfd08d67480897;
  Twice 0xbd29d047d01bea8fb7955272c79368f24d1c5ce1907cc836fd131967e4e63aef117c24e639e9e7d614772b540c4ca7 (-0x144e684b0f6706c75c87e99d8afb98a86728560528d6ade36455bdc605be9edfebc97d77099a91f39f653610485af8b) 0x46647e4242ade7fa72d90ea3f6728f010e8d472afd51fabdd583542473cfcee3d55b6c568f0b7e89596147710ed74e 0x532bf5115a64127c5a6d01b131ea13c1c8df37e5c3a00b3c89c472583d056145be242bf7be72943d99656b88bfd6b1 0x1815abc9575a62fcb795643b5a46c146a9269ac0f58b4eb34d9e03bcb1a956167f464b744a0bf297e252cf3e8a34bb7 0x62b244b00aaaf74ddc84a0f34b34691706a353eefe0d5eab9a819b84823a278802f5c1237c989186f0459672bb92fa;
  Twice 0x30474419472ce03a2c0908a3c43cbc030a76a48ec172169bd76364b87d4e546791cba90da35cd7211814afd603b3f9 0x33eefc8dd199e264e02ff12a627e6d98c5aaffec0a4c97b3b055614f121b4f006098c5392329fffc7bafd14b00e0b2 0xd23e13a31761cddc126b963a53802e0d210de331ccc0528c5422a99d6fca1a0f6dc5e62110d62188a95bc381c19c8 0x56ae7fda29f01af985ff74cc40838692c8b2a11873caf8ef6ba6493a93b0049b7e30674ba5c3b5e4a0f14e8225fcd 0xeec535137945de428a2bc911fb43c940d292192d46c6335719064e691a630017ae8c0015a4bc5083b39e6b84f30364 0x66cb4835efff57ee2d139951ac581370f99b5c4993e941ccef4bd08ce31ea16108c9ce46439317ea3e3bced9aba3b;
  Twice 0x626adfbeda1526f568f34053f554bf4364cfa76a0bfe58bba19b138557e94a878c069c89c1eed3e2de0f39f47bdec5 0x6c0962c574aab07d9d9981704d548db4ae079fdcc3686a09d03bb2235daa9f6eab7124ef2db94548c5923c86f2a328 0x433b944bbc502d1b57c77609f2789fc8da312c438d0d5b2d633e24d204a3d327d8f88306afc2a714671b389e27920c 0x16837f626433458cb7b05c2cfb99dd42931e44db0e734074b6ce25fe769e115c108d6e5b1771f3798a9fa04cc87dfd 0x181f0c9c8b575660bbf92339dd599dd48afb9e4f08bc8246472321745afde227177f1567097067ddb2767f93b12ac5f (-0xc5fc13995787527d4ae36b540eedeebd9017cc77d50c7dbf0d19ba7222395448809740b58e7661c2018e4d1d03417);
  Twice 0xcc3d56ea5357f6d585cff2053206fa77de270cb91d4bd37af81cc42245291e9a24c23ae6e0051d652a948363be1cb7 0x14ee939fca1dfc0eba0566d67417af0ce86c628ffd433522c7ab858a1e78f03cd4a86fd6d80431930342a93f87e2622 0x1799b9c15a207fdfaeb1885d7b2fb462b7dc80ca364be18410703944562b71a1150a77d3cc3737513d65cfb5468e030 0x60f52203b9464e43228c5c1c0f047190156e1be80344697d4ce8fd2c640cb05d2495721eaa8a5adbda3f419c248689 0x169c49200a8b2d4c757fcaea42349b6e888fa50b0b050b8dcd60482af6a27b8071e86be514c25fc56c8db5de37a2ec6 (-0x9357b9e565815a863f749119171133c0f15b519f00cf02d286736e592b08270eaf0483fc6044bd41f72392767fa6e1);
  Twice 0xe0e30a38399d26e2c6bc9458b7aad422d242016055832433f5be5a8c1bbad4e3dcd9b6ce0cdfeb18f5fa7334055803 (-0x268115a152f942b97164af022ac9840b999bb16da2563e7fe2f63c08da6901b6ee3441f57c9f00450416061a93ae25c) 0x1274c36d3643e178e3c63a14b1f92c2ef6d8d70e749033f88427d041394152e4c49b5297cacdbfaa55201398e80591b 0x758d4e03bedaffdf7fc8acad61ad69a985056c5cd2734d81ce911daba326e1ae3809e936aa6ff87ca9df5f8f0df68e 0xf4b4abc6dafd2f47822dbab9902c6ca2ed69013e8b185ff93908a1e4ed85502d57af72b7e4069047f55685ae024138 0x2b065b21122fd0188e335ad3a60e05d53763320b8d0da52ea4e0923ff3496f218cd1740d743336d8d506d396155d41;
  Twice 0x151b9ccd43be81322c8b00a1780059147a0c3a6ff5e38ce71b1b53ccdbe78924a853a018c2e8404a867d95f9ebf1780 (-0xdfdee2752e272fe82041242a5e917c71e1c04f2503ae855ed0110098d295cc5de64f9b06fe0b8f83b5034aae82128b) 0xe239224369bf83961afa0b797a5f6fc8d03a7cb53750a2c3056d309b7bcd3498bc7ee5c0eca4cac40e243bc0c8466e 0x1091cc9d546f3b18969788443533f105375851f9312bfa4f1028e143741b0f402751eb897e0979f8803b9f7355f475c 0x1876a253604a7c8263f0069a774fd6bcdbba64246e9bf9b0c3c55eadd1d3dc2ea5103c850ee9bfebae27db447707797 0x36391935496a3b574eced7d0d723f61e6999774fb0e4a6b1ba4e48b31c40ee39a7292085a5dd5c0ff76338255728b1;
  Twice 0x9152ab960da7f535ebe064f941fdbd8c681b15100c387ead3addcea2afb84851b31630f7bf6501c6841d8c37789f4d (-0x5c6f265740c91c185e94b062723741461cd9d9a3aae62ea24706e97d5ba83516a725d86aa2d2668e26e7e9affb82f6) 0x1195d2c6dd8ef102d6e7837f655e7310e7de2ffd1b53c1d2947b63ef1d7a2e110705bb8c3298ee649333379d4b0ec54 0x31165f973b2e714c3d99cd16bdfd8dd15ed0c64a2b97d19e11a5a6319f1532433d718c6d41a135ae607f8f7b0f43f9 0x14b73c74515f1f5cbb49b9889105be289e46e19ef0cc87977b9e2e60d42f3844df2b23bc5df3837184e68c4a52903ba (-0x12a0230dd3edcf997d816865e364e7f53139373ebea2183a73ed33cf92a61010f6e9fee31cc80f4834e2fc966d3b7f);
  Twice 0x168d8236cc942bb4a9a11b3fb2c791702d5b7a0cf0f59148717c7712d25200efac0646c34c9a6f18fc37c5aa79622d0 0x3f87bbb0f56d0c9fca2c36fb2332201eed3f78d84ec15358ecdbd9fcb80049549e5ec0638253d410b35d5889a8390 0x10b813f82acecdddd1cb096d693758de2a8d428b5b73e4c80ea3a683098b3ed6d4e91e6087270d85f4564979d81d0a3 0x12ea68643b1bbaf1d7dc080013fcf612b00345052dc4f4df3b89edad22a11b1a263a6748a85a3fef5c3a82ce9983fb5 0x17056a3660b293f6c10d8db8a61f3a739174b9d46473be333a4f41454649fc3d35899da046699f31476b64325501ddb 0xb9fbf44bf3ab472b7bb25f6d77f28567bde4242aa7c5b4605cd467133014fb194065217be501522414cfdfe30e03b;
  Twice 0x16f59cda53d0ccd3b429c62e34f7bbb774d7b808fc6114d600a850767ed1e9e296edc92a40887436f4f2412b9f27534 0x820788ee57b26595fde524f76b017f22feaf5fa881dc95e1fbf4d7855a514294a820a414ca4e06c62bf0bbc6f4779d 0x79937b0d7f0ae7f2c178d4a6d06d545af8ee9b4a1018d318d558962c04ae0a70e05a07d5a111bf8355e13d62689a3c 0x139a9cc123a0a544f190a34d3410626667e8a758fd632a0f8a80e0011c9527d9036504dedeb2a33ca9c43ea568c570e 0x146f396bb1665c6fdc19b5910ee7915c38bb64ed034fba7f83d4e90087c454a320e7494e9471219d92e70b6590e8ed4 0x7c9a02b092b01949c7d40ee1698ee3b35a7fabce8b13cb69231589657797ea4100e8026dbb2f5edaea69c0e4fb733d;
  Twice 0x2b7b329a83a4dad6a718ca93d3dd8629f0dbe5045abbfffc3170e5606c288c0768ca6af77524e6eb6d14d8807cf286 (-0x24fad350141e6e35691d7dd055a4b4bdcb97a8d7dcb9394bad1958e81b627ef17a80ae0d4f9845f3e3f24fba5e6440) 0x458cbbe2ddc7f83ca71f3a0530e495114a88923acea8e937e5c3e4dcee13f4568e388eb7c86ee8e1dcaa1c3406bfa0 0x464fb5c0b1cc6db40f5364205a8b2079c9d0a0f82abf6f7a6872758308155519922bb1c4aaf046ee5f50adeb9aa0c 0xddfaa32d45b3f6ba87273fe94fbcd33367074796dc569ef5ebed56b65ef8e1d1f970c8376063a32d903f8716a17f9f 0x542116689f83bee40277f1feda069c3cc21a75b1029cfcaf4b6f6998213d755982d30032f0f084c15d14d3bbfd735;
  Twice 0x113e5b614ffe2bddf9b430f985bb8f9747ef208ff966285c898a0c85e94e96a92f62f6e250f4828e225ebaf19b1193d 0xfaf8fc3bce7eccc7469d395b215bb69c11d5bb314655c3e6bf8a416c536e8eaf82ec50819abba5a3c3e95a3af173c6 0x7f62a2e724eee7e27c3445107512c7f5a7052e6c477fecc6b43126c731f5b16c243b8125bf3a74d70f10b023e87605 0xb0ed93140b08641a0a25dba1d62cf084aceb1c82090a8326b3fea8061ef45618b6173e7a1496967b512bef46e10344 0x3cb0142969b4298647e268ed85d6442d56ef148c894b2e9283cb2cd0b11e7ef102452300e9429d690e05fe2f7b1b28 (-0x2516c2dfff0a5432e7bb92ad752623a5024c4c854d7b9f5aff8cdd9b0c636c95f209bd32b57562e98c751c7289edd8);
  Twice 0x763ea6274ba89d9fc4db13d484387a7f667629568a46b4157fb7ccf4cfd41c0e49611945509db9447b2ae3fe93f454 (-0x4fcaed344a97b5e5c381a5fd117f1922f2f4236dbc690f63b54889304a107540e7e88e6cfc5a7e8ab80b2c13ebc20b) 0x12aec3aa26213ea359e3177f960a7b7f66e05b26e52e564ac22e500c5877e4154b9f7281d2c73cb98d952569e0a98a 0x207fa71aff00e86cb0bd921e05c57350bfa13817806cdda3e6958ecdabbd064973ec8848c9ffe6ec6814cb7ff6a5fc 0x15b04ce4c168ad1c9059452c54cac7a0f9b31cad6427ece425d8d6edf79937b22c6002a9ef9c57f9cbb275dd886385e 0x1de046438ffa4815c54560efef8e52a483154230443bbd47786f2f06561f31af0e03ca3600a13699ef23e5e61400d6;
  Twice 0x89e29011e7a6541b7d8a1fab97cae61e6e67df9644f53ff3bb2e0fdbfbdcd30440d297e609506e1fb57fe048e60927 0xdc0019b02647495175d7032fc73397a742777a025f89296040f42e014c81e2b965cade0456eae2bbcbeed2906d4d78 0x1211d02eee3e3864004e351b28953b6bf2200745e170fb0d21887387db2331d66bb39fd6a72a2c51716faa3699c07d0 0x2c30f29e013c50696ee978b37351a62d67fa6d3122cf120b00da85968250b49e6216b5ce3c77eae529052c250a690d 0x2687112f446782f999a21dcccdfd3856cee79088fa3e5f9ddba05abcaf655ee5266d4f69344d9cb61220bb0c1f390b (-0x56abd1fd98e63fb26496ea816a49a0058edb28582c43205b07c157791710a9193bdd5b3aecda2aecfc9862d3654413);
  Twice 0x699ad98c3b8ec83145cac608162fb094be07b9c1f530c53a4c994323c15342e3ef5473d28c895ade1d2821fdb9ddcc (-0x233f0621a47eb1bd9dc31049419854f77904d2dd900adea2d5c12f5cfb46b5084ccc71361acc2702364336707113378) 0x544be89f29866e77dca0e59a3c45826fffc4ad7c3466f926d5baef9b7a6eb0235c24d661ad712e1fc730fcb8fefe90 0x19ec0cd3ba3a7992468bdff3b40d67a1ec3dab048c571d8637f3f560d29b8c65630ef99d37d132e0aeafabfccacc60 0x1ce1233f9c967014bd4da85a3dcabab2fc8cfb247d1687c11f6492bedbe2a6f7c08133afad9f1a56202cca6c6bca6d 0x3246606687cb7588890a45443daa86ef8463119e0bde7144c19def6292fcb91d7afc2b421b895b3f824ea6c4d49b88;
  Twice 0x484c046162adc0afd27e3a6ee42fa19510b1d76029a520f2c6179097279b01601fe69ce5833b6815443178eb85353d (-0x27d80573813fcd4a2746bace16c986840da9391f83b5c272bb098ad7e7bd586b9dd96c8ba2d2979c2e6f16a834990e) 0x8afc6a10a8bc49cb7815def34491eec9f8737942d7de884a99dc4a0eb0f3a41ba8103080cb2981b91551f7e2e59c76 0xc2626bcc07514621bbcf137c2efaef736d77e49cab02e07beca60b09c232afe7c11c933f7b0ba75e7244d0590b6f3 0x5cf7af4491616a8b2c253d56a5cf851f3249cbcfea02c5c1ab575af6ef94e362f276f2d113adca8ecebe51b2d3c037 (-0x930b187748da95784699feaad735c8c7dde420f4835841b2701ec18207f5888c8acfc79f7ae570ed9c8340461c872);
  Twice 0xeaf87b361760636ad9ef07b8e9c7526d032ce61f84210c31ae6a8c93a3d03dad6eba3d801c6eb299774e67b6b7fe67 (-0x21266679581a127b1a9f867948e854cbc5a2b646a29e668f8a6727877fcdc3d53671f8abaaa58cc264b4c9cdc042ea) 0x3c414c3e0f036e5a6fbd2535412906a3184694c0dd928351f52a5786cb50b87312d4bc5ad2ae24b72de8fb37ec4b87 0x805487d2c6962088d9764803a3846610c8fc9121b223af289a7cdcaf7939ea8b0b9f822906764d9d3a8fef2a5b08fe 0x17378c1be792135e1440bb8f91ef5ac78159112c93107e0148265e6d6237ac20853685b4fd096f2fdbbbbec2dbc13d9 0x2affcd367970b10e278df90c4204d500ac151328b9032ba83cc48afe65956929aef4213592d695629d8efa0ce5de19;
  Twice 0x17ef8f19c4ed59e6b7aef2bc6512847af2a448186ca1a4fc4c0442b1ebad966c88475dd9a419a2bc5acc3b1257d805e 0x27c05fba3602ca198836a7ac35dfe69b4a8f470cb742da93059032d386e4a04f4c02042cbaa31395ca5f6cbba506fc9 0x147091f37e5f6168cd51e2702dd60518a1412eeada83ea79c151066b8f3f6577c8a0923c85e84a6425e09f0829599d1 0x154e85b2e3a02c0a30689a1251cd422b59e6a336084f497aa28b02c11b215e614add9bab5dcc5d44cca9eb6d5bbf1a5 0x1149c2286d06b822a234c369065ce1c95181c2b7307e48d66efd25a8e85f47e1ad4acefe33d9099754f3eb177508583 (-0xed7a5eeb4535b091d24ee2443ccded3fadf5fda7201a3ea374149f59e4d462864949d833a5690e1d852629a27e5888);
  Twice 0x901d88916217a831be685d857b8bd9eaabca85798a28db0cc466a9cdad8985b7ab11ec8f5c2988b22a7715efd34faa (-0x230782d5ed6e6574a6565c112c167dc2a7e4f4a7d5034e05897ebb11170fa46357600f61b3bfde52d015fb32fd649e7) 0x1125f8a10dc4cda7799bde13061a00754759e36c7df627fbb4a7137690229f3fa5b6c569bd2e24e56daffd8c418570a 0x30466653dd477224099be46322c4a5d0e0d19f9862d830d5c3e51256847f10938ee90a286bf05b962e47560dc2d238 0x59a568097cb97cc529de105a58dca286d45ff99d08311162d8cecad0186b6f42310b07e48360e345232db96d6ddaf4 0x11a3fd274dec3a136b345d57fea35c3438b121d31fc02ad51754ef59e3b021b2a87c4586e086a88b14490b151060af;
  Twice 0x11a7bd4cb9d398fb5e46a0e219accb61545a76452895f45524c6367461e300f3d7717369d60e46a2cca684e091b9f70 (-0x19736d90148a09c03f7db3b13e8a32ae9f727e08e838be4c118f8ab2801a4e6af5578a13d9cdc04f7b669f7b0d4b7ac) 0xd2f695379b166bc08163327cbd2ba36d6f95df15733fcb473cf19b7cd2a4ea24374876405ee3a8c690a5eb7767bb42 0xb979f1e4407ff279a494550f041b3f07093a45d225e98ddfb38476a6e892a25a05c9ce6dbf90172a1cf6d3e553e7aa 0x5c865b3f1be0a4bf3108585a1084863f3b86fe79cd45f1f46ae0c8e11831774c5215711ded5de93fc334b104ae3c2 0x29a26af52ab328d520a8853deb1185ba6140e4ca056a18163a54ef1b273aaaae9e407b6b23443940fcdc793664a0ca;
  Twice 0xa6cb37e1b8a9abb3909f5fdc51a53990cdecbe73cb6f5b4685da14f3f033706961b0c8fd6af4f3c47bc1ed08d10d33 (-0x131daeef6467e0aaf2c17dea8cd29a14ee17f01aa522d9274db84c2a56bd3cd96a903185bcd80b8d4bbda9aa08403c0) 0x1656f11223943786b00d6eeed8df76971a2b0806c5154b204abb9b7840ff0d3314f426a3257c2a220781f04c88b1cac 0x40a9f2a7441703588e0050425b8372c085b940d6fda2b4a8dc7c832d40882e354445f603b98845e22ce71c0699a4f9 0x184d94876b85d5bdce1ae07a7f28eade97f21ab85142466de2ba5c9b38206afabff9cc91c26260d5ef01075a4964b5d (-0x38c8e9da09edc6f7a200ceb67f45dd0796daea9c6184e5172fc46f55bff142e3b61753a9af741f0fae5efa8269f93d);
  Twice 0x1aa3e2b721088b66913b63bd56dd351e872b51cab4cc32ea22b0190234cc47f46c2b953335406ffb74c89b5537568e2 (-0x786021cea4f32b520132d87e8f1f95b173555c59ff79828fba3b1d46bcb39c31c02a355a8366251748fa1cca5f9a7c) 0x1a39ddb3123d48997144a90b59c1dd892a9e719a1c7f063ff5c970e865301fef21db9193c3cb5c708c45add90c34de3 0x1a64b838bed04999e07e15563b5318ad5edb59d79ae5c082b8a03f936d88301c9d385fe80fe69b9ca7a328873b2e049 0x761a0c8f8daab5486289d4f089f266c0cb1936799e5114dc3e3198a7fd2e3a463fe54357b59cae8ffb64aa9c4bbcf1 (-0x3d9b595641b7c9f5c4136edccd5953e7d340abdd66a3631550da8f43ba43eeeac42fbd80ae19462be6505e299ed2dc);
  Twice 0x177ee57f1753bd48d485fdc51a95cfd8ad60fcd56be20f4bd13b9967f30c174fae8e6f0883d7d3ed0774056210ca725 (-0x3fd688bcd48fdde128f60700235a23103a0923c0f1437ac7128e053c916c2fa61de308f580b4b4d286316af878dfa31) 0x112894d84f15b9bf8e4328fcf4cb62eebf466d9785eca4a6e4eae7a9794158c0ea85af40c0b10226ea1b144f09aa379 0x1487ca521f51dc2f21ab7adc9c756c929b88eaa8f0c40a477b80753cf4d60cb086b7f2c709184b7a4af299390780c1a 0xbb2b6e7965e43fc55e2e07fcba9bfb4153a3f5a0f0767dcb9fdc31a9140e91625e2d28820dcacf5ee12f3db6c86e8c 0x7ec540f0236a4f0f993f985e18dc02d56f16a38d0a330591ecb31654d9cd3dfc6e6b91ecc2fd88a7973f1d00ef9bd5;
  Twice 0x18076d684c236c640212f241f94ce8a26350d649337edd4c2fa31e4294c1f75ee565a54b91ee63d69d9a37937680a8b (-0xbf0a26b15601928919140ac62621500400ce24f8b61158ecdb9ee3f223482c19e3bc8db7ae3d55a699a49dc1daf18b) 0x86f6a6a6edcba708d5fde7e3c87a8055be3ad6fdfabb9cc8080c24eba2b9dcab9869a37c9c59325a84a66258b3e98b 0x157919373462175e60a9d3066fb09d59cd16191fa39878a682ca7e478c8160cd10721bb8ee4cba97a85cf4a1175f6fc 0xb596d34c7fb61dee7f31a084a82321a92882b81d26f0128b3059afed5da6677d98ee99c05d50e7dce55126b15dd53c 0x7cb9f932050c49fa82dd4930aa7b764c4623d3a7f49bd78f849469c5b526e9a09999b8c6958217bf6475bec013fc72;
  Twice 0x18655026b2aeb0ddc451e8b83fa960d807a9f36ba876d858aab969cbfadcf95dabd80649e41c2f975f7c546f53f7f11 0xca7c354697226b7f437ed65bdde95117b0bb700998f0962e0367453414edf78581b70ea56722c2331d81fe7b3ee58d 0x16fb6e2d8d8c98cf4db16a499f01c2062f1172bf35d60e0be35d0f22dca3d7544f261be617b149b30be23fbe14ed294 0x16222d593d8e58be0ea8e6e86ef7f50e56be6077f4acc5885cfeabddef502de4e6e6c663c592eae10718f81c0b93977 0x1c13f8673d3fdf6027712beae4c322ca797f6448349bb1d43ea300c431f1a1fabcefe2712ae5cc0a1f85abd5f54a7f (-0xd32ae97d751f72c4cf7416b6e976d33d04dc38edf6b78ab2ed52d41df774778e508b1443a7ae169029dd64696f1054);
  Twice 0x54ce4b4fcf943c52bc5ff19be43e1fc2ef5763746ce8c90632767d4218161139121bfb1400f7245845c0a9fccf8bd9 (-0x3a3c8bcae0a81d42016d092adb9b64e2dc5d279fc932332c69390acff8e3291a98fd09e79f944443300a53fdc153b62) 0x10cf7df58b24951504af356dd1d86a7b531720391f278bf5809c1c410dd47d7b06f005bb855cb61021493b5c88e7138 0x10b7804de9d06d87777cea59aa49affc2164e7824a12a386a0817b63495688640088f4bbf8af883da9cc6b22274791 0x14b1e1d5879eb200d84af7a612268fb8ba16f8baa36c96bc49352aab48e38b2e812493fe59d4f7e5bfe6e4bdc3892a 0x1376f63ffdcaa2193c6fd124feb024e155b0c48bee19206d2cc530f9639be65165c2aa2de105257ef8576c259aa753;
  Twice 0x17449812cbde4fbd7d0dafd67657ad31124b50c684bc78fcf72e0261beede7c382967c94b7ef50cea5a9b3d6ef0dfad (-0x1d4a473e51182f70f37af8d24405b02da301ebdfdad616481055291ced84f86c24e6c0ea188dedf852e35c37a98e5fc) 0xd351a124b7039956aa1c907a7d7aa12c1fafa27125096046819da890e7e03df50f2dc125f5cb32feefe03c51ec1beb 0x1422653212dc829b4f2d1fc03da4ef47fb526f5c00c197ea2e91edca91255a7889968947efaff45346a71a6f0c5dc8e 0x69bff288f9064f7e31d045ceed6a53c252b1102693279643fbbbdc779b2b2ce44f7bc7a2394991a6a37d79868747c3 0x31e2b0bcffd510def5b36215009c9d0b03190af0e6693e2d1b748847e3ae5ce798066bd9393787f9ca9e3e5de6e71c;
  Twice 0xd2c6b76c3bec33ac1c58fa8fb201a60dc1f8acd1d918a7acd70eb0e81808cf28a0996fe78dacf2f6d56adead450b47 (-0xcfc4d36f49173a163fc4a4385dbc1f575bead0043b1a6f0d22e80364a7d7a783baceb46ab32a13dd7ab3ac1aa7ad01) 0x15463aac9a46c4c83ff11ae192c98802ecb9e7cfc1a7513fd74023ea1e12bdfad09b7e909c629c003acd734c1c9ceb0 0x674357e6ef7bf0f23df54e06de5c57a9f3678786eb2783453d0016f7af3b7aa5729762617801886f3de753a523272b 0x7951f3378dcb04e9aabca8c79ac4584403e9ba4cfa0bbacac5e4468041e09c574339d0c78e6c35f41b18227761422b (-0x3f3be319e82fd81cc123bb9ed9841571abdb052161aed6b9d75fdb91db4cdf38c1f4d75bb691ade6cd92b7db2c9591);
  Twice 0x5aa72d5241fc971b7c4662990a024bb27e37fe461c90125b74a125b926445d2c7a47fc2e6d8e0ab549af81fd1ec733 (-0x2f4ce2ff5bf4b1ce4b4e22d7bebe481e7124bef57325b52407e3a03bb10c69a5a5d39a6c38f0fb07dd91c73800bf3de) 0xc348a264a2254564835904b04ddcde4100696950ef070bbb9621c2fe7021b9f53c4ceee92a702d799e70d16ef00eaf 0x1319f8cfa11e44051daa551adc18e325cb29646b7cd87361ea4b60a0760a16a13696fb9e89a3ec1edcb5992670a81a 0x1879657865f498c86873101997347aae192045a06a87332233d55f4ce63920f2cf9d81fb70f5cb8d90d997b39fc9567 0x1e933b43c631ecad59481464c8d0645d7cf01b5a022918988b14027260bdfe5603f8994382e72c5754815991622fa1;
  Twice 0x4a60fd066e009fc74b782775d5f7ea5bae4081dc3f18b930890d8bc0acb75f10f26a20f9f2d9dba73a870052028054 (-0x8286774baaf4f9a7b7c3240927e58aa7480ff7f9e52a3bcaa82b27756576df923dd82f954caf8c6a2f49e4d221c74b) 0x26c07c33b2c676f437504c1cd8eb1cc0bf669fda4408dc6bbe6f5868938bed4e75ed0b7f328c92f4ccd98de3fcbf81 0xcdbdae7ec0689471eceb5e5353960c051311bc5423524afc797508e5458ce7fd5195f8f5ed0373a17b70b4fc73eb1 0xabdcce6892efbdf2d662f1c400c3aed7ff6c77d7457ff010c70be62d7490fd2bc444363189f1a5ce6bd5a6acc4ac4e 0x1b0fc6bdf98399b70483615c83619c41ad30fa4f00843336d4a37237c9fd8a13807c2364c43967c601ffc4b307b963;
  Twice 0xaa2ed57858d05ffb36a6d418f604333eb3ea0cadfa9393454079b97ca7362ee2aa2d92dc45432e0122f606fabd10a3 0x7d7e7ad0973a31ee65ff61a8702d1f516168866a5b06ef056480e3228f3e708f87001de9dadca1b741cca8497bee51 0x14299194de97fc3c9407949bcb2db376758a7ef47afb3aee6fab6656d6e41ed5fb13e0707e66b0daaa6979e68cb105b 0x4351827db455bec75e34d909d8cee0fbbf2d49d39a397bce57773306cf00d0ed6f339cbc35fdcda5c69109bcfe386c 0xfc37f111f12c6e5240f00d4b4a9c6b672c81b051b4a95a27133273c50947a8be41db2240833faac4b5797308f48503 (-0x704791d975bd61c83e500054ce2fe95068927777f6fe0af8b5b971f79477210754dc61c42de7832cf6044dbf164c1f);
  Twice 0x138a157edfecb4bce33f01349f1020806c4cfb9d6148f375fe54d38e2c4e39d488de580f237a1c9822cea72178ee5b0 (-0x167206ccafe3f2aeec441c1cb3cb33eef2ce41c85b1a005f8e76b0550be38a4719f69301328107e630e9c0ac4963eeb) 0x1051e767bf718fc9e5ade5ca3f389b80cddd4731ba888f15b4fc8bbb244ae3881c31e722ae8bec986c61517ad843f94 0xe32d38e57ee1c4c45613c8f32c2f4a1a00bc1b4c50884a16196dbf5d4d1328f449fd98067edb1943898974be39f8b6 0x193835d0f56aafdcccf16fb0ecf9c4c00d23bd616fe617844328017fe092e55b40a35d5e2ba4d1a53d520df4168f1a1 0x2cacacd874e0027dfd84137c8981a708b18b25679b8d08296d7c53d97f092751837ffad685bd82e372c47c7e76152c;
  Twice 0xea0fc8ad6f92001af3e3959dfc434b39e3512cd3eff0c5f015a8d4ccf877c57aca79ab4fad89caace3a733b23f0eea (-0x24638ab8238baa4f46286889d7c72bbbcee19f5f2805961cb8306a97c142722668773e32a2f7418aed2b6b19b9325c) 0x6d372b658f2182de1b134bbfc946535419563f1304223b1084e1cb69b73dad9dfdc1b34a27a35534c9b9cce5c1ca2b 0x7f56d84998faa04d31dbc73c3c2e8b24082183bfc8f328c777f5270409afa2664228310dbfc4ccd26259857f402491 0x5fb98f2932be346d3fa7eac2090fd138b842004626abe6056b0a52934c7b4fdd8ff3fab28fbd530368cbc6cc63c6a8 0x52a44c733dfd1ca9b9c7def4aa925c0eecabed62d496a97ca15274e8f90f662979d8f5f01cc6b476db1e0a133557b1;
  Twice 0x15e1e2915c6959917767ab0c0225123833263c95a7c914cd11ec8aa9ab702ec026cf1e52c95d80cb2a9ed3ca72557c9 0x48a058a989e35b0e802c7244a0ef5376e46bff9617d0ce0c383b43b514b3febf217a931dc9e5226982eb1d3aca7a25 0x13945773c15997d383ae68a01670258d73f23eecde88ab5a462b5f0bc56a680253f153391ceb4e06ef80827ea389d71 0x11cecb9e5be0be92f5c68ca2e42b55ed4d7f4de74c2697c0c1dc6fde0c29ff7a1b11877062412b6f42c127106780a0a 0x1907753436f3219c29c3e6beb18e9b7a7923f62907503974e143710155a5d6c050b275b11a714e283bbb1169b8f5604 (-0xa60f59feb46e4d40e2d3fab58b63becc3ca71a243f8550ad981643e76f4cfe576c780b75de6b08124fec3f7e29c8a2);
  Twice 0x1a9a6280228f180cbd3d38a6bcb2178da9710b71fb1dfb0e2fba8d64c46125a9eee7e5f6819e2850a94ce591cebf76c 0x6c149c80543d4242a6a0e75c402f5e22895a9af71b5b9aefe7b55ec5d9b7a8123dd8e6a600bb3e3aaabfb12178e7bd 0x18c366d4096e1c2437b0ec0144093758719dd46680a9d5ba3ac16ebab5ea00ba5822fe4937269cc0a99bd47d6774cc8 0x1a51e83416dc3bce7b95149910422a824f14ade62619314d9faa1824d2e09bf3002292ccf6110c4c642032024810de6 0x25b0a9b65df1cacf6c76e488ac722d6322843c0f0e8c454c7774b137dee215426b09f56204eb083efc01772b20d7d7 (-0x520efeac9d196b5cfccbd1e8caeb0cb26330171f10ef23f26e92e47757ee5ce3d734c9fd6dabb870e258ed652c178f);
  Twice 0x16faa6fd7f302af487c082577d37a87e68ab73841125222c44d066b44c278d9a75661184ba6769a70247e2f05a4cd2f (-0x4063df329657bec33d03e3c87eb5a3756819ae5330bfca895ad57ec6c61e3fcb4c891a2b254c29413cd646b29b07dce) 0x16ccf371f56bfbd951f6c5fe947e95553b5029bee71bf8060be3a5cc475d210eda6ba27ed043b7d812a1878e7029a33 0x13a338df45f1ab66c0ff315a0388526a28a2dad9e2744ece25f0211c73b1237aa062b4a5d1c1ab00a616254cabb1ade 0x15875735647a1cbd8d3485f23fc078b81658a5fc3796aff5d021fa00ce6ddc688393e10c8385ca84364ce76dd654a99 0x1ad62f060a08ce24e20c6598608bd2f389d985e3442797fa8b5721e611196958b329814f22f0daa254b56ab15bf7eb;
  Twice 0x1394f7f78027386bc66d03d0bed86b01c578546b47dc4f5b6d6617cc20e35a19f864807b40b709eeff9e62206054bc (-0x380a8afecd9f434afcc87e246fd805f061c7574f65d366a22e00f22a83f25981d3861d42d9d3ded7cbc9eba968e39c3) 0x15d0af9f09412cfab5d723a745b2215321459d1d6e397ed6eb5de3500cf50522e6b63ef47149dec0e55282d757997f9 0xe42a99c1e96df8e5261a2804cb588803a3d421fcc2a8b65c7d9220654d5c2a00aa82548d825b4b83103f658d1db1 0xf49f0e1b2e152feb41bf0dd35f540bbc484967bd0900836011185d81df515c70d5fb731470245746c908dee31ec23a 0xb7b5d8a999fb14dc723a6b2c35d6b53043a9be4c454d5a0b297fc4e8f547a4716b041adfa15f9fa3fb2eaa949dc5;
  Twice 0x11629089dce1771c13158359ec834112bd24feb2f180159b3e644f5cb771d5b914b5574d664637f41eace556acf17a8 (-0x21537b0ec978f446cd78feea5fb6b623de733167d6beefa9a3bf8dea0da4d1205ff20f5dba55192e289cc2a17bbb873) 0xa96b85c3521481374d50ce6beff27b9cf4886ad064a8cfc236a5f5c2a4a20fb2eeb449aafb92bfcfd4173e9e427a9 0xb3d7a3d6277a1f4723f8a7cb90a39cf9e1718fe95396e7e54a569686b8603f033d3317766b046fb67ceadf8f0846a5 0x167b137e04ce28f7a16c70b8ecccfc136866a776d012d1c51d2333990b2173b5d5cd605f6c0555608e927323a5b478b 0xdad3295bf55ac88e8043ac3d4db0210a9f120f65d984f3e65d45733bea38d480ea74b742976ce2ccc60e23da5edabb;
  Twice 0x1aa104e9f7ac18f7373cfbd35a991725853f0b9b64bc4107424407a7e3bf72890a1f9df31755d2de91e6adc445ddba0 0x2c7a3e20746ef961370492bda82e7a2cbca1e6cb9a65af11e91e0e2f96cde2538407754c4e5d5d83f7477c209f8770d 0x3c0e9713241e5bdf6863f9ea140ab202ab4726dbe1946e0275ed628d58ec7086c65a3ca934e64016b7fe0352777b88 0x1a5f0a84731730c158cb27e83ba35a6b7812e8ae52076067fe1c7b96b89e8f422f8a40478b1bc97ec34f92b286b5926 0x17273ef05e2de86ce3255d4202386cfbd923ae92218dc9b53196323e61791bfc4bc1b5c2771ee5edb7402537e0c869f (-0x30fd4db060bbc2b4956dd0bd4301ba276e39f4707216b22ae368e0ab9c62910302edaedc857a671582bb0dd13efe8a);
  Twice 0x7165ad197ba84a5ca0085b2acc4c99cc34dc48a6bed2f22c8b49482fa1f62408eb4e7faed7fb04b6a3bbbccb4175a0 0xaa222639b2d9e7aa5d5ba425c06363ebe6ac29e7932954507ace677d876bf881bdbd447e1186a9212e84b3ed4fb400 0xd893dbbd4424352dc3ede234b41574512ea006973cce0267b4c67c8c2a9c9d458ff795ede731b67b4f97a660256c21 0x1de37de66be6df4dc0b63125d5cce152a0a58750354b1582dd8de47d8de64a4a87935b7470dc026a4a909bac3740cf 0x5c2474b50457cd5672eef2d783640c77c2c200ad9b1dee8c9d558590670fc80d40fd73f053cf05f4ce769d28300c96 (-0x29414015cf4bb8c750a17257565b7e81d3784dfdeae950e855003bf9994c9f481fc5ff64396b7248d91e691bc1dfd5);
  Twice 0xd7e264ae7c15e83d0b0f5932bda0b58fb8e21c1f68d3346b2a6acc18b11ca2cfd892ac320e8172fac59b6329d6b83a (-0xea9abec895eb5cd337bfa1df8e9e801056a9c5c81f57c09da493c98e2e20e380d514621be14b839ed1e0bb2efc40cb) 0x1081d2c2140bf8530dc5715382ee978425849957281de8f4d2a08fa9daf94ccc33ead10722a6442d36cdded64b00dcf 0x6c542d995ba4475f0399c62ff8eb52292a2cca5f6e1dfeb47d503221d660da1afdcda4bde84d36f050e6bcf4908713 0x2c2150a1323a14367e1b323d9410fbcb7354d8cbc139300a735c63af609614125d96a91ed5ff3e5eeae18bbde54131 (-0x17da73bdcdb9d3823a35d3cc823cce3de84481b92868daf3fd387ec62302cb02aadada06f00839c45eef959726ff33);
  Twice 0x4e967dfc3ad1d29b7a421786f8651a130fb5a7eafe64fefd870a62c20788712e030fab73e36552d53808299b759dfa (-0x1d64a99735fea8f6da9bc10e009f842abc9c4c310a86d238afef968dacaecb0f2d72030bdfffe0443e6a35d1d989a6f) 0xd8eca207ebd4a8a4bd32c9439953a95e97635cad78d4399b3d9e3c52ee50f4f6abd0ef94180c2a98253ac4f8de728 0xe5af5b39fbef56302502de441e9087ca5b7e0c0ca71782e921e65ef2929a6862630ffecc7fb34e4014de36b12955e 0xf3e99efcdeb3857efeae29783387f96b9622b8b79bea47e73d726a6836c88dedd4e2a806065c10034643d54bf0912 0x2dc49e132e3da879a89e82c13e2044f9b522b3c2b1e793ee046c8a7b79faa27344eb849b939f7c93ff267d49bcdfd3;
  Twice 0x1d023589afe0ee516ffd9d8b38c312f931264ef320d4c59cd193af9aedd73292fe1c74d9aa1025228523fd48efd967 0xc62676d6bff555070c1c94ed0d901663a30813145c950e95c55775b4969aee9c803fdcaf9c7f151fdb2db65a2dbc 0x110cdc4bb881849acd09dadbfa0173f74c25bd82a819a605dbcdeaf3edda7513710fd83dd8af4f58a80fe5169e07212 0x1f4b8a89146d2ebf8978fbb00ec9636ee6be1ff454c8af6d11f23280b54f1c42d4db9d6fd537e0f0ac4ed8df5870f 0xbc11d25055cf4ca00d91d598d98e9c924751313a98f8118729167c6684321f709e307ad07e5909488da513440280d3 (-0x117ae021edd72b04d47fdc94d2d95c996b1c53abe5625882a41eb5a3d4a0fcd6afd313623a9427ac2c7671a82dc80b);
  Twice 0x4c23496d6ba7d8b80ba3b2eb2c90c674b3bfccb9101e53353a7d69d06ee511ffe4ccdcd1448a1e40aac221a7c9214d (-0x1c461d1f97c6f904e064c56018e9f9096d37fc372825303faca739fd4ada3d19f4177bf5d6e9924f19185b49eee36de) 0x17fdd82b273729a2d06cb8dbc62587712c1d3e5fba2ddb58093ca0c54d0033c3842f009ed5614b2cf0b74b46153b06e 0xd7964c629c6a6b4712a2ca42d584153c2adea16250e70d3b584189e651a69fae1d662349ed2613f589ffa902a5c97 0x1a8cf8ece078288e8388b1dae2fecf549a734e9cc9f1edde9585225e82e51a07aa300ea4cac57e65224ed4a690a5cc0 (-0x13a798708c67ab17d22f83a859c166fa2772270765bcfb1578d5d04692b9b5c7bfa18c5577f1e94788e90deffc7b3f);
  Twice 0x17a5adaba3a11199b89769b8c977ae191288bb0a1891580e6715d177b664c593fb8079a0b64035a13a65e2c34fc5152 (-0x1185096fec9599d6d2b058d0e27030e6ee0b78b11344ad9a4120d0aa654ffc8ae61bef5cf0c4278b7f6f705436d62cc) 0x2f1030e0c5ba9a2bf68f2eeeaa1ff45ea0c73aaac71dbec501dbe01d2704daf99ab484f12f6e971a135415b379d403 0x14cbc8a54f26606e7f7f742e166a5cdd3bd6b09496422541037f1ee888e6c8fcba5b207b7dfe0e7dc65a86b0d23c965 0x180a190678806db479d4f0219a8b17c040c8290cdeeec9903cea0d372669b714c208640402d01ceaac74715bc26a7e9 0x1283193e6c964a1beb4d9c942a3b588640777a8467fce5eb541ae0ae9d379715d496bbe22550edc68c943142ea9709d].
