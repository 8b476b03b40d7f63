(** The multiple by the cofactor of the point that the example of C67 hashes to (generated). *)
From Verif Require Import Base Constants PointCert.

Definition hashed_x : Z := 0xca2d32fdf963782c6552600b0f4b56b189b00b59310ca327c83fdcdcec611ca97f7d26626e75bcbc22d1b599148140.
Definition hashed_y : Z := 0x9c73922a785f15f1407226ba7921b4ee001fb2949ff36dab9aaea53b84f0ca162f94c4949bca12af83e8a7c9554522.
Definition hashed_cert : list step := [
  Twice 0x1820a1c9d0c9bd62a33425d454045b98ecc4726f391001e6d1777acd37e6051dc559af6ca26235f589d2ff34cdb1082 (-0x442d1b8cb105380cfd225a753c7c92b799a440956a3141c472786bcbfa1dc942affb71607fe29f83c42d93e5a3978) 0x15032cbb2b0192cbafbfab14eb5a833d7066b4c1ac2b98bb332f37ddd7d32e1fa12d13ee37d392c20ac96635b431a56 0x15a63ceb97c9f3826aff54a3f177cc9d064b3b5518c47b32458ced8516afcdf76528b25167446b51a33263fe210652e 0x16d69dadfcbae6a8daf7ad9ddb57083032f60b908f7bff180bcb9a67753fa8f0d7f06d02a8e9299cad416ba2bb57678 (-0x7841b3948433e66473028154ff15bbc21275126a156cdb4a8776d3981285472ccafab3c4809f48c6f388f2f817d8c6);
  Twice 0xfa20a6c454213951e9c8a0a7450e6feb15e460d9018dd252cd05c374879c125d3c4db59a1af39baa270ea8bdb42435 (-0x16b44c0771b737b133a8040cebd910be7a9366fc0e01a873a0a48c394e11b9943926c9714a7caf221b8fb7ee3f7f0fc) 0x80d4cdaec3bf10d91f142ec2e17f2cb4c833bf0f0984f1066feecd74c78bfb5823bf4be22daed68ec4ef9976d07f72 0x916b9245f6398ea9d19199c05f6e874246933ac34fa7d97a7f195aee6a57361ec8082f3f1baf8bec04716904503edb 0xbc0bc694049f97a5d76b2d8750b67832434170c45ac68da33ece69baf17203969feac0bcc68526b7c1d36fbee05eb1 0x788f5b54d2e6e85455810d734a3d6afbde48de598f14dd9e254c4462d9b0af70241b6c23945307797b1c51bb3c4c0b;
  Plus 0x61a6b5a68aaa837c1397432d8f1773edc0511366bae006cf74423c3158e90c244592fc202d2da236cfd4274cda8d22 0x10a5c9021590202330b7f3798465921e0fbe29bcc539ae1f67ce6f701a5fc7c464f747b0a7f1f745c56e38a8fdcceb 0xd10e368a5d6c1cabc5261022423541bed2946eb97f6d06bea8ca0daa90e189bb3933e2b74f04f5dc74b0b56fc4bea0 0x162a195ea4c14418cc112535d8e743fd7a81201d7b3be9bb947962d1bf3bccbff1eb79a4ed42259a93dcb85c0cb932 0x1a8adc8220371a49b353c2e73115fd0e917ade9f4aa9a6939a848b6ea21c29eedbe3ca419b53918ddb087d0e030dad6 (-0x12357e14e5745e6368b556c5525b2cc23d6471d86293be28de153354dae58952245098dfefc28dacc863d7ab79f3a3);
  Twice 0xefa8bee9c64092ece5e767e81b1c9961e2e5d79cf679f28378b52073b885ed05f96ddfbe3dfe56c1e29c54a677751d 0xa862769eac5be3f6118f0ef30c57db3a0c79f123fd403f4a7fae9b799ba03844f468d3e44e15fbb6199f9ed537847c 0x9fc1d0b8d5f25d983ab940a7bd6cdc7d4bde897fc4936b673b47fd8cedbc59de2a337fef6e28ad453654a99ac2cc4b 0x8580ab7567ed620b4ec972fa10c324916bb8b8180c5f704b698707bb7d2defe6a9b781711b5d2143b52093383d3bbe 0x11ce07b9a54450ad2d9c4cebd99b9615da51ec13595741c0100323b9207038810ac923560c324e9ec53cbf832872eeb 0x1b7637c1df73ff0c2904455d20f05c0ec5424feb6d7c96648e0ca71f73722778497415a0a77f75bcee18d6b5c442e0;
  Plus 0xd2c040214030bbf00cb1108ae5586615bc439ec8ebd09debcc7650997622fcf22c8def53d8521434711075889075f2 0x14c791c8c742c3cc905fefa253c773217a0bac387b57caa8c919344c8a223006b53bc039debe203648cdf31bf2f263 0x3f6ea720dea4cdc160b17cc294bc4cbee8b179b721fbd9805143289bcbf80081712efb6d4d0c731439d97e1271fae1 0x673d0215795efdb03930ec2a25a5535b090177f8e123cd01b432bf42dffdd29d04907a87b3f186eeb2de2cc04dd058 0x8698bb5cfbf289ab95e615c82ba761b6dd2cc35fb4cb9aa42bf1d9c15c55481e92d50dabf2162deb152d0de75ffcb0 0x2f2f84b993c15788753c5b1764c5b476ac1b9b8206de1bbe1e5c86295ed292227e1f1f4244992e070b8d95cdd43c99;
  Twice 0x3ec178f5dbf50086a3c68484058daf0d2232d942c22c8da2ae21706c4f994e23e0d2c45ced1c3baa24426c39047e32 0xb35896511bdfcf590c762a85510ea704876ac3040571a61ad263fb351b6e07e29a6b954eb5991dd3992ade641477d 0x1912b64cf960aaf0b9924e4a1427150a105e05cd8f1f55d904501f0e4b85251a93bde468f7d12628c34ab85449ff5ed 0x9276999175f5a929824e9ba0bc2bf6fe3a67a85e3595ae7218339f13537cf06fe6e1f349be05310bf23f50a415615 0x115c69c35537a9037215c557cd2de5f441e69a31cd804be14bfa8b0a27ac4e58bbd66582935828c4b3a6068c5697aff (-0x3143b75b653823bbbd909536b4f9035b704d1e89ada9ff52269ba0c643e06518fcc17d48f723541586e43eb3846807);
  Plus 0x6185767a81d5a60281c8ecad741c0b7fd6987947a7d5b342f4e5aaca9921196aaf6fd347f7da52ba9ba62412dc9130 (-0x2d1b42fb2accbfc8ac52a87dcdaf34846e4a76e46e56adb9249ddf23a6357fbfea7f2fa08bd623d7458fb999d3a793) 0x22a71050c6e9eb1a7993a9e283f4dc61e9bb25dfa502f4a4652504d0ca3bb919a268fd6cebc54f5465760e93558324 0x161b0447e3318a271d4462cd3f1d155146155f5630efe5b918af2d322334c9b84daeb350aa2327db9ea4ab2bcd6eaf 0x31b6abb50134fc6ff6ae61de206d87dd09420e0d53a4e66a0e1fb6d70b656e1c00c1aee043d2d5a0de36376772636a 0x53146cf57e3f73a74386566bdbf97287f8c8df680f9336483ece75b22f54c8c81e675f32378997ebad7c5d02d98047;
  Twice 0x16ed2eace46b5a4def0b5afbf6f9981bf6c9766da0fea90c85bd9ec0ac75ca6e9fbe2b654a692816e05df772409fef9 0x4c66aa09c2d0109cd5c267f620ddd4838d5710f88941867ef3c1e9b6b8cf0d17f8670bdc9922bdbc4c6847f3fe2504 0x18e7a7b1106b4b35e9ef9e54c961149038db0b02d8cae1d58b144e62026ddccc36f4eaaca07ff77065ecf5165b3cf6a 0x138c39de58f2706fd2fcc7660d1ed976d28ecbd88bfffde59a19c1d04e2aee2fecf357cc22b673dc9ccae296716387f 0x4d0a668b66237c273f615f39b41aba0d76eb5a416fa94611808135a800bf65e21e32861b969cf3250b363b70b31568 (-0x13635399b0b19c613aa709cd0f517c09b96d2f721c4a4918eacea92ebf5fdd7514068a7be2ac7710ba6a1bf8c011ce8);
  Twice 0x1290ca946bef6d6e36f1d847d56594dda64f90003ce725ee35fe0dce4dfc0cfd0153c24b945719194116d6b7fe10047 (-0x3e8d4e9cdf0d0f230e143ccdf496e55e7b1319f0e4e2af3bbd1485ad693c1419c2b08662bd4de720440d32abab3e7fc) 0xd1e11948befa7dbd45119faa32b623a3736ccf0aa6246587fc4883e159f80b093d385edfec5e87a1f477108d9511fc 0xcd18d2871a6af1d32fa59c110ca583dddcef59e7b5cf743bcf0205d8f32fa2483c7549c94515ef2cbedfae95d162e1 0x215bf32c1a67886ab2d58717712a0f78fb6bdedcb143a00d04f78382185c1f014a1daeb5a5ce53bd4c163a806c38b1 0x8237be8bcb771febeb2820e24de2a62e0a19e506c02315c26abba22c1b8771e17a2046ae33a681f654a37e0f153b69;
  Twice 0x11d7fea334f212e960dae2d713363242c11167ebeabbcb29211f79c52bab3e2c0f4f6ea5bce6dfc22b9d32a3c2714b (-0x130641ce0935923ef0de81cf7e6237be6cd9b6e1531d49b64b00b5163bd66cb9e19960d490eb43253be5d567e18d67a) 0x178396270fc81497a8d0372c7d6adc6f15547a428cbc9d8d3bcc4947db4ef78efd4fb7c83f8a8edc3211cdac40de54a 0xbd753e79d5e70e1520ce14eedcd8a7935fdcceebc5a762facbb79c549899154fe3af42068a40f91224458a9742b7 0x52ddcc2b01e0fff3564493538b21c80d3469c7afcbffdce4a9465c574eaf3a78ab16c8b976a27550c2936f840e3058 (-0x6e62fe13cb50f3ce7284859c1000c661e7916546cafd1d493be11b30cb4be9d2d938b05a9951901458f4a1a41bee3);
  Twice 0x122021d1963b83447c6be4356812dcaaf9d4519e875533b238a7b5efb7905fed2b07c2e126341c29be927aee15bf99f (-0x36b47e09f43cf5e2256b2ac158302b65e8d869678ef86200aed3dbc986ec499375786a5861c6ae16aff7f8c82692edc) 0xa8d647e12b8035ad7e5abe3b93489dd5b069bd9d3c73967e297db5ef483393af6913830d3c9d769bb5c35cfb183141 0xc37d320ae04c4533154e9863c41fb92d18a876fd98f85fc1cfe3bceccd3e033f937575c85efdac25dd96e6653cb4ec 0x12813dd64edc44fb558173958efe86919347c76c65527951acf25475d1560058e38d1e7c6f009179bb88de2ae6b0c0f 0x8bcbb3cd197c990f21198a92be03504c89b08aebfde21f83f87adf215aef3478f5f1754547ff06090debf582715630;
  Twice 0x53c2ec63c40f33511a19b6ccff2e84dd87b08ddc0bdce23aace0d2b50d35df29245039fb8f70a3a478839d637d9024 (-0x537c780391cecee346f4ce3468890bd850d38fcede0331aed7913878163d94e15166cdb9dc5d15628c2e8756ab934b) 0x13421defcbc3ebf807ce58dfbd5f377e3ce449f82954b340ec47d4553ed4c60bafb97a8e7967e5c209520b020a4de50 0x104ebe271ca89433128cbd1c2945bfbf8a353bd556e5787984afae684c977437116407029a591eced2d7cfd57b443e 0x19127a5e84de523bcaa714aea4a325bca57422a26132db42f714ad550ec1f9c1876dbb5ac73689a6f4b260a673b917b (-0x1b1e9953d27358406023b07d02be7c1a9f7fbcc631acae782bcd97127067ca8f121cfdff8940c2b0faa48dcc1a63a6);
  Plus 0xbc23add835080f83ff047a000beb3387e3f57024708af02ed7587c1bf0d51e3b3a50c3d43beceb27b3a27aafbe8e2b (-0x2e55abd3cfe74b33f9ef0033b813f9135ed437be84589123a1b59d29eb9dd35b09492050dd69abd9fe84473cd83557) 0x1725a62ea8cf9cdf4b394c1e7f87ffae3974219247636a2803aee4d4ae8d8f3a597aadc77f11c5aeb454b1ecdc16ce 0x524611cdd2b6f2699e6cd77c489c88d49e34a43cc33ca17210b28886feed8a0af2d1a2ee9fcf1ae36d7a1a7a3244db 0x8321b47872d5b6f3865f91b3e7a26d7ab3ec1be4f3ec8bbe993b985b1a66adfcae8d1a2c57295e6ab02b7d8deb51d0 0x7c9fe56f4ed7323e66176beef6513251e4498370c89405da8a69a28c3dc8b39773439335b142098dd3ba3e0cb8bb8b;
  Twice 0x1ae1e4b3f2b4326e87315b1e619fa40bec09375f266c65f3502019cdc1e76a57b7853fb0c5ada61fb33e927ec31cf6c 0x10275eb81f1d074978c3c1ea44a67ba2c1b198a0072a3c3110dea1389c156becf6f073ff4bca1b7f77cbd6212333e34 0x10292dd20b909bc6f3c439a4ef17c8cdbaeed28c5d14f66a1bbb9525d9839f7331191aaedd68873efdf9adba532dcf1 0x1ae02523867744d5692f0e28b094f566ee4b74ba554418695c88b7a8ca6157262f3f0216a7d10df1d1126c8b07ccb03 0x15d1afed96f5a295170fc24d490e81f43716a6ba14113e26913cc02584532d859cf7613db6e3a620e1b3da452c22826 (-0xeb5de755d5c435375ee5e66d1105b2add7c0086cab82279f81e4bbc35c5a268998573146fda5755c20906300325dba);
  Twice 0x55b632b1c07c9334dc4ed4b3871fd2739c88a8213889aa82b37dd21b0eaa616b1aef173134c80d960c0d765f2d1b4b (-0x1471ecdac3a63d205f25f4f83b8e90cc39f1b117803bced42db53edefa84ee7285e3c39d59fd61dac69a0eb60e1c65f) 0x1529b325c425240772ff7e932e626fdc335723a92eef73d7d38794ed2208f5bf9fa33c991068a14ad26aca5d29e6976 0x11136a20dfff6654ff099ed8023644e3e19775a95c937e9c875f4ddc61d2b0e511c1159f550ece7e5ea6fb2842c4a1 0x20bf20b258e260f977206be15fdc452001754cd67b7f2e3192a8b0851cc65a2d6512a5943ec68227f13ee21fca1202 (-0xff1c504f62d8aac4797c75b770d1930949e56fab16f6717cef8b97b2164acfa18c4faa61f2702ad0630e727416c1f);
  Plus 0x17fbfe266beca6388cc41ee56046de66b7a27cedee78d2283e37594964ac726e4e850f52cee05225b484f32e1d44441 (-0x79b0e4d77a4fa539abbe2f76f2e53413abe759f738d39fe16d12961482b6626a6d4df2da0f27a228ae6fe4a9f580d6) 0x1a613303a116e7d87b5607dca333a83e2409c1c2706cc7fcafc1b41368d8defffdf47d90948356131a8c72106fb1e3a 0x1564ae4f4a339d72d87d360da4bff7ccb8cab7c9bd7889ef99b47240bbfdb778c76fd48cb1e159fc2aa91e2ed2c8f91 0x7b0b961bba9d39e2e568ac9cae54bc57283241970d416bde07def879f5ee9d498fb7ddf9fb0ccf4fef39a0fc2eb48b (-0x4a7393fdffdcfec859c9d8a3a3f1cfab64a4312cb11a3d5ac273f314f09d4f814e765d4bf9729e373dcda1fdd6bc51);
  Twice 0x5f7820d1dcbd12ca39cc76ba40af65ae8a003081b5b3cb4c446358c4fbed78201279e8676efc34e5c551d3f5472482 (-0x4a39f2fc70d842458de258982d93196eb3253b79d70fc78ce8a406c76f0a23960a1003f90014b1f74216f0f8e987a40) 0x48f6d3ea813083c2b4d9419e0fa6caafeb1aec74646f590481972f2aea8443bc558a6fb5bc8713ad093a152e8ba831 0x152f5cfdf30e1bfbefd00d8d638c8c58de191ff94121f4f4dd3a3adb230069d4d9af70d69fdd18ff1ba99adcceed5f 0x1bc6961d1719153d5ffcefbae9104a1dd7ec329979a47ce765ca2401f5f3bd3f1c5594cf8d8fe27eb1d983b4405cf0 0x4d78168e85bfe225c33a8102727778ec4777cea185b8d58e5290a6f676910980d633115244ddf692c0cc9a3e432317;
  Plus 0x231f0dab3699a1255fe35a60b72fd508d8a8e550b93dee7022a5e0b0e07948f09a700839efff1eae790676bd08777 0xa8c53d35b10e6f164b8aa7df1a29b552862007391b791e14c6b4f17c6412a6f78551c9d1a582354a4b8e3c2ee6c7 0x1749604b730fb479ed0d0dd27d03233b391998079fb269c2f6004cc3905c677a60c15b900de2b916dc5dada46ecaf99 0x2ddfa4d127f96377995ec7294ccb332781821185594b2b07a19b9d1bdbb509f60318ac407c367fdb636d481e047 0x904cf230c45d86d100d2d46d263ee10269210e874ec99f434ab0b6a563cfd7224485396d17bf432ae4453e8041b2ea (-0x18759b2691d925b02953570bc8ceda15ef522d7bb181a3511ed13f0cf52895031a49ab415e5b3d6f8220231045932);
  Twice 0xcf7749cd8f7ed51a3111660d2b4edf6aa704b208d3f6df2432fdc9d7423df48cf145201cad5bd96b49cdec53696b45 (-0x33cd4ca00ba36eba3b4d728cbacde26961e8bf3bc6816a698c89e5e6f21cc23205231e48a0fcf90ec48880f24b18e2f) 0x1b55bf1535dc6d91a20376ef9e76cfa9fd0e73d0828993330473010fa4925a49acb3588a4af899e1e13effd0aaa5 0x640b85ea2dacf39e3a1fa18aa0ff110f1e6a9aa30158e6f01d2bc784e0b978dd4bd731278f63779822b93c5be2b6c2 0x6efdb7bf68f2426287b81311f42bfe5a7031b94f6e16d0d9f934e1a9e1129810c24a27949cf48a6c7b5036dd4dc2d3 0xb39e4a5414266fb5c6d4e50e7ea13e4e2d4827b694efe9246ddda863036f5a55a2ee1bddb30f9382478d26a723dc07;
  Twice 0xdf8b5e103e8fa18d70dbcb606133297c6f148c202061802e1b68e0f5cbc067111421b484b3a6f7b3539f9940d975fc 0x7357448662a6d1b466b69a8a8c2e7077cf2ceaccc6f7d27d6c502ff8d3d82fe06a816d1f40f5e857bf2bdd3343c25d 0xefa09f0d925ac5e6f4c42af276ca882096e02eae93a0c5eb66a47f0e4917669ff49704d6cf0341961d47ff9e070053 0x742717458ef8c32bbdcece06d64e7f2dc7085bb21b4ff554c758a73c3b10eb034907982bc8f251460438719deffa73 0x18e3a5387858912ee6b5511891f3d09b3d7ff2ca8ba66e91dbd99ba8bb85232fad8d5f574ea181667f7b031ab4bba3c (-0x7c7431e92f716f7449fd194ac0ab312bab18285f5bf790ff87f03bcdf6617483a9f8870ee225f5fb56e6cb3bbc5a57);
  Plus 0x4dabb2c068ca155beaadd894d0164fad32392d2b63d982f58ab17b6b9528baf97d30a9f62ea1b0c55bf9c556b76782 (-0x6c2daf0f99f3159acd485c30d1864901ab186da0531f1175f9e8f6375f8daf7d7b18b51b0371c5fd456b26ae3b78c) 0x67819a1b30fd9532f5daabd5475d8fa9514e46e8d9a651a71d5555c142ad5bfb32ccbf9ada70bbd08228797e8f6f62 0xe05aec5683b97a47e9db0584be0ee87291ad997cfcbe93ecb744725bc46dfe95b0c3547370ffe7d666cd5c80aed0f 0x1387921971e13338994453b3aa4e9415690ec14bee1e3513cc94fa13fe9f60988e16f7b36c703dd16abba6a389f3b64 0x189311fb8b0eae435b032dade3b5922f02b01af3d89540b683198f042940611fe970fe377161263c0aa9c7c4649bc2;
  Twice 0x10a2d25e3d38f91804cf8b35a6dc17af439ea17caf18e5bad1a3436134db71db7c5d78bd2d6d4295741cb2d00495428 0x137f0b2a7f5636dff9b25350d1ed3d508f89cbbf21cab516080399338b2121d66a8104fa2915f743a62745fc7edcab4 0x1870c14055090edaf24d35745db81e3c58cf737b40c17370199f4bd3f63053c43da408a22fe94b9891656cc1bffdd45 0xa4ae0f95a859f2e62f229dbb2470422dc204f5659d68e70f182e4578389188ecacc5ddfd9606bc9b133352015b8a37 0x120eeb076e48d2dfa4554c4dd68c5b8726116c10cd9d228c75c7a1388898a078609a1b91a8cf2c49e211db2f1a1ac9a (-0xb1e5dd582a36a4a99f0b9b88632122a4828f0641c5e6f04b0df4f1f5e8c55901bc8e9ea083681bcaf6e7a4fd9b8f76);
  Twice 0xf1000a4dbd00420ac49673a3b18affd0968508729d21905533c34047312e4cebffbd63d68f6afdf9cea36956d85fa9 (-0x2e69a49763b6a74d4260a5a75e176f293073cfccc7190b31b3e2043c9eefac6a9f22fc4290aae1d0633966594b26e77) 0x1a9ac8d835ed815d2709a0b07e1eada1959d5e83c31ed8b2078511ba8560d591f9195345141d8fd6d3af6d542708fbb 0x8700349f778d307591e666734599e3c608de644f62689956e35027345bb81ae238bdd93bee73801681215ba27e934c 0x13e7e3e00dc833932945e7b0ac99fc281ac7a4a003465705c5f9bbae5b48f552693ae9ecf7fef072dbe95cfbac60ea (-0x13659a749d5a8aa414f41a71913dbc46e7f3b8ab30671ed99e7b671270f07e9a30d81176c87971bb1f31ce577da76a);
  Plus 0x209ece2a9867f0ad30b7e3ab130ebdd7491b84af3bffe87ec05b767119142aa72bd69ce11367fdd3eb68812824ee67 (-0x10f221955357dae684b87bbff9c7c426961d20422337ed43a340cdd80a6755ed9925f0f9cd558e200b15abc87511b5) 0x18993bfa12e10d6275746ebb6288a48cd5465c9f3643ac2c5680e29b624c4d082057bebf0b5cc2a5b3cf7e9b774c432 0x2792ad1fdffaf818a0322bb711ea12fe18203be010225b6d473d69bad5f504c698d767a3869d8fb63c32d8801d844 0x8fcb85c9ff5e5187a4a2efa336e93074e49491b8acbb3f834ddd8add7f66f4dbb03eef74737273c07fd633ca1d4a0d 0x26f01d4ecece585cc7b06aa03cd5c890454a35700050e32b4651d1d3257b79b96d042ec3446a27661e7a944029728;
  Twice 0x1ab3d60d62e737f1e58c9e572c8a29c298f6f93638b9e24b2d56ae8f647d331e9b9ded0c85f2929bac5074e0fc5ea23 (-0x31a8dc787177f967bfd9234713f022d1c1d3cbc00a2c798b1ce623fbbf3f7e229a3601faff3190fd51338fd51a1c9be) 0xcd5e030b29a79f6fe5818d2bc4cbe5b0ed4f5bfe82497d666550b69e2b99f2e9fe63118d0a8a4eed940ddb93353043 0x1a845cb7a2bbd91fbf87ef20f74ade52a51d761ab61f9d8c7d6c8abef4f08d1855007eda3088493a107e41747e34822 0x5d520c5a211252d9b4dff2f1adf92b35a85ccd8cbd4a10b590422cf789f7fff2cca007bf9ccd5205e880245ce534a5 0xbae71ef7ca35426d32cc6095f386a15dee9ea00367a928d0d787d76ac0850d8655da4d3054020440639122c2d230fb;
  Plus 0xac63b17ef75a217e1f05b2ec2e92e899e918e79a7e3c1a2022b73f8546dd8b4e123c684e68b7bf20ae3f58b8b01612 (-0x1474aa3cbf3d2d3a87c4e8f16115ac1f63564a1966b9d88b6776a431ef34cd7e45480da691d39e1da00f84bd6a0b3) 0x669071a010a6ff3ad53fe257cc36a925f9dee31dc91efab4d7f2d7367a16cc32decc5fdbe23a7ead8ac279fb013848 0x451348a9ced2c3b08e29f52c391b8796ddbf07fabb1461f938ff70d1bf1317f353f727c82e00c9d5fd3f2d135c2f79 0xb60c359c17427ba1322372d4a02cdbd25fbea6be10521d82276ea255b6b4117f952c408a450bf13070c450e06a52b6 0x293147765deddcc89ab7117ab4aa1ddd47f1aea53f113f89e957a872fac9a8c7a5db1b31862d1db2b42cbad2377a4b;
  Twice 0x9a94119387d184400a0a38b4ec483c817034e8eb271e85fb6fde8bec817fa134ad0e8f4d70a4306a95b12349cde7ca 0x3977079b524e2e95576a3492fd2a710ed8bd21712ea7a6ac5b62d52859fa327aa15ff3ca3d267f29e8f28e45bc3e78 0x1087f2675d6810201ef2812b5c0e63cc2ee7a2fb9f4cf7924842f4a92055e960032a0b6945aa38cdf56d940fae77853 0x378a062371e8d8251e4c343936ced24a7dab0906a8f5328e18a2a114f3859687ba04a39507f89b91e8aad54e784281 0xb23f11841c9bf21bdd1ab226f77cae0d3face7c74b4506992fb2903d8005998925fb6239f91d33afe10b22bfffe6a5 (-0x3a2e71fadfa1dd9160591d27faa0261531fa1ecc43b4ace4d045bb61cbd3da256aef596128ffacead78987bbb1af09);
  Plus 0x12a4a1138bfe5c48dc679d9c49bdaa3e42323d7d32a82af1d8182c8d5dd1287510399eb74e84a16b1a787ab69f1f48c (-0x2b35568d128e5f550ae3bbabd3ccae02ce7a8da04eee8e78cdfb4af72066ae7c98faca6b75cfef2688c49e001598e1) 0x11b1bc7e99f855b216822f62d203404b0f3d73aedaf39c4686fae615130966851449d579a97bfa01539473441fd675f 0xced00a9367ea8122e646ec77c27c622770130086ee5a6eaebad6a19aa0dc44cb93db59b0ac847e0f4f48265b39cb9e 0x151ea512e5bed7fbd38c0879d5b4f7ae86a44a457a3f726de841db7aba1b7ca852f974c8b745b756398388e0ee5c367 (-0xce774fbd32115a62ca4316d64ed8c047303e39938d1702b640a48ff21fdbade80938a6dbba0ea5f7c30328d07d49c);
  Twice 0xa0d0d999c31965f5eb4db7e7105a1d9a3cc786ddeeb5ca24bfc4a01abb64578a8ec97969359fea2257a1ba3f68e383 (-0x13245da47f862e95bb6fc55020247b2168580a3426f8bb7d042c55b572676f18fa6d18dbcf36f3672c0cd6cff2c1a59) 0x133216cc576738a38e247509f20d871162869130b7beae851eca5e78055866aaf58417a924204622f9616550f782c81 0x3c1c9a75f4a0511cf223c11b4fa0a7682edf635229cc5f86db828fe35ea75fda3c102da8f26b1783a406928b2e99ca 0x99ce52e9574d7ac2e062b71afb4bad8fc91c5baca4937281e3c9c6fe29f25939af132d885c3bbcda217eb58694bb0b (-0x8fab0b0e7ea6c509b103c91fd5b67463d5d052fc778c2dd87a15907d5070538ae0ea684e2c256002018580bea84d8);
  Twice 0x12307ab9bf56da7dc8a7a1c72b20618b5c84ba898f72789c4be9f52e57db494f31fc2825c4ce54fb3ff4bfa292a0bad (-0x1c1ad31a58ac8715affb82f561a1191927bc71a737a70c9c6ec8b56efe019bc25af34ce97813d15ca94eac509520c25) 0x1467f9f28b8948195cfc83818d93da26ffaa78c2e246a2c16b9ea33800a0af19cba6440bd257edcee7db54bbb312548 0xc4de6ff837748bec43dc71d3c84370845d85c4ff1fa6bc87cfa594c042c7aff10bce487fc7902193218893652ad49f 0x133f458dd5fdf32718eedf06aa4ea03c0a0a31fd16683a534827c932269eaac8713c56511d59ae30917342f81215e5c (-0xd1a00368160b36f992371c4a2b5cec2db596e8f938391feae81c0346ef614b1c666cac0399dd22191447eb60cc4e2);
  Plus 0x14c8bf9a323514432fc0c4f33c5265d4f971d4e91504ea2db8239baff800f1b4110a564ee5603fcce3989d08b187b3d (-0x601867d7c72d3f4ea680da4b6eda76cf9e6c14543211241ba1c1dfb5d507b88067b91c83b96ffb01e9dfe1e496d4ae) 0x177350b1f5f1b2b0bf3321565ef593e35606952e59d627f335424f89b8e4088b493769f51d26c3f3fd77f9fb73ea2a4 0x1010b389fcd2ca80547185dac6a07ba26bccd2dded98205b1a3658985adb23914d4e063f5f3c3b4b3875eaa893f635d 0xe06ef7c8f461c35aa4e965f5b0b1185aed1f59fc92e2ce4c79fed0328724c4cdccf910aa33006240f4cfd51e0a3882 (-0x25a64e9aeb8792cfe797b5ed5d3d530fab91fe9096894eeaad5e7a3db83429ed381c24e28172ced7431f36de3da9ca);
  Twice 0x18a787a71c1db3decbee947d102918f2b3c83a400bfcf88e36aba76f3d36a42e98347ae879f6e2f03bcb2164e071fee (-0x23a1bd348a91aa4cc4f11109f736dc6c29c8f455727fa62c5bf7130fc97e896c0654adf2acca1750ccfa7d4507f5d78) 0x1318a0f6c9d26305422f866d0b5430ffa9d99ee7c6fd20a82d811365d015deb3f7b5c7df625e3a6e8d73734a69553e8 0x169af78beaa9539ee6cf95cb6077456b5159fd39e84fdd6e72bb5b275ad2ab4f5950b13e56ac47d27c3961bb5ece814 0x11ead01ade557c52381ff027e22e7f1e8661f55dfcb475e11d858e9153b040b5c588c89f72fdc939764428b4df28bb9 0x3fe0af4dab37e9564a8caf2acbf0d5af5af9984ee8ccdbf9aeeaa3b0f05511bac5b983eeb413079eb9fef40117328d;
  Twice 0x173e0b3ba8801903e42f0ff3ba207c124f1514a32ba24fa384112c0f9c4c777877f89bf30300d1170bdd365ad76f1c2 (-0x9b5fae95bba511ce399edfcc08095cfa51c2a4f9e5c57c14f40641dc573d6a62fabd0adb5b712769604c334f76b05c) 0x7bf2507dbb2e1a1b41be245b261d09639d1e92c28912216fc2fdb424fd25aafd8e22fe1e4a7de4d19c5bc86dc92fcf 0x141710c3a6d53da34e3be6940a56fef5dccb4d74fd0be2e6a6d38d223e2fa6de114e272c35976a2c95ffee63c32ff65 0x15b0fcb9b4b77dd3db0d0fadf2220c9387576b75c0d48393ddd7649452c4ecdb5a8561ccfdf9d0d12ee43a1ee44ff90 0x9cf6d10321db298b211d0f0476fb64028afb6c1f05504e11fab6a9733bf0d6b31600156cb459b14b15dea884fd58a9;
  Plus 0x8de3bcf429cc4ca0ce051f3a795bde38b7618a923203cdb69be5bc684fe39285ba7093eaa27c6175b943196af50b32 0x19cce426d465b9c1d8d52403f51f65a2c66a38f5ff379ef332c8eed253dad39f13906678629b332edab9ff914a7d80 0xffa8c538385d3d5ebe9b512f0dbd7f448c38f5c4b868848a27fb13dfd55c0c3dacc419b08fbfdd8b58654948f75732 0x2ecb9d0d192d8ef292eba7967f467135fbaf0ab01f648a53af282efb814f5af41de25765b28f60685a60d0865c4d83 0x395c4ff86dd689351d2da6dad16560317aac1f2c7743df50b4129b239572a9fd5fbb67e8642e9443160fdd4bb887db (-0x2b706363280bedd905c7440843af3c8264ddb4b9d16dd969361b1e099fb5bedc251bf0656c5fc3273c993ab47179c1);
  Twice 0xf4a81c6d2fee2d39882086b92a88028c618eef5f5a64f567fd2ba7fb23626de2bac3b5ea1e56e2b050211c65ca2869 (-0x1868832390939b0ed84f8e6ed878b9b80ed0110c41bcda1100b721be1475949a6feb056f1b49bb1f1e1c819851d2fa6) 0xdf4dd508dfd4192317bc97ad5c1976b4cfd2b9b4496828f3613f996ab90be6822792b64cdbf99cd616641aacaa9b7d 0x8b20e078acafc1d9309070eb5481aca1212baefd5d93f472debfdd68f00bcbac363601ed08cad20191ddd1677bb130 0x18e5e217a0b4f9dda51d4a357d2735eb52ca0a0326079f57ca059ed9c011724934fd9b8be46af94fbc638124549274 0x12663de9daa332a34eb5e878fb96800a7a19e6c88f5bb69563f3eb97067fde9ad26ccba4361c1edf6548922e922aee;
  Twice 0x89246113f49358d00bb607506041e25410dad993c34703e985c3f98ad3054f44945158aeea8eda5d5a02cfb3e70fbe (-0x14bd5f9c9d8e6825fa13df01aacd7b5b5099799016cdb58029f9a6c7916bbee05b0bc6ca6d0cd4cc4673d1a2d52d4eb) 0x90edbb69619689a1368d742d661826b61075c3c232fe32fe42150d8e9d2382abfecf0b691d07b65e255d7c3a187bbc 0x2bb75efe4390d286032b858ba770b1167d4009b221bb7f5492b93127fb395a87a7f07dc826b2e10e72b8238a6e1e4e 0x135089254211c7896d52587e33e52d7ebcbc0bcba807a4e8a8890edc1291cbb3857d6db2befd0f13bc1ebc72bcb6b0b 0x18fbc2b815604109448d7d212c0c1d06d0ec0b10a8ea8a2c130d5697c03d5fcbaf978efdc4bc47f0176024e256e2bf;
  Twice 0x135d972dbdcbb7fb247911cc0ef209b5d44d16c48e3fcd37dd96534cfe78626364a8bcaa157a99a247c18174e16379b 0x12aaab9a30b6e31aaedcb764b8c4de2473d9f1ec6e9ba4dd012f004a9e16a0dbe67261986e28b6cf37bae91ad0bc322 0x98a2eeab24d2007fd461858fbb261823603ac88603fd33e840e6364fd3d92483fdb9069c9dc384aedcd53e92e65ded 0xdf2735944dbd05d79bbc77ea1833760117a595d22bddec365779bbee3c180bb50697672bd1085383c6097307a0a274 0x1a227b70ad477f972aa2630140983fcdf2c74c3a4f64f9e2f02e37014829419b376ebaaa4221603dd1c55e6ee33cb3 (-0x58d18ab222de13cbde63bc53fc06ee9cff1ce17c79e2f5ab947844148ea03698a6eb048525fbb867f7be8f9252269);
  Twice 0xaa70d725d6390e5ac73f2543af933bd28756ec079580a7ceac4df731bae6514dcacef172841105c456d226b275265e (-0x8dc008eca77a5a61b8b03a2e9894a95745b2e606c939e9b9676f46808978541cf2ea984e2e45028e49122a687270c7) 0x124b38d93cd2d6d244167862a80241af21cf2d2dba6091d0d94f4f2e58e561cdc018bfbe8aaa6a61bcc08ebc2ef1ac7 0x4385c4dfb5892c8953230e2d8009ee6dc141058779d048574649581297bc65c73b61a42c3a2a6932c0c775e6f033e3 0x193b29b2ce588f6bd841a96482e36f73b536f454ba60f2164838668c9a36bb86bf045ffaced9cdeb32c8ad002d4ecc2 (-0x377d1bf70f86bc5837d4477392be48dafaae40b1472a9b5f05107c5d798d45ff6d53593485f2914a5622914497dd81);
  Plus 0xf659dd131202360770db3e530680f1248948c75f8a7053c720e4e599b29d38384d58e2afa5a47408f30910ae7b8cbf (-0x33d5c79f600e285aad78ead26325bce4724892cdf7c41caa7899a7c7b498677c1621d28e6924f6f59b75f6126bb819) 0xb11993058535c96cc8cd89a3b2b28ef326e012d971414c13bd2f5a99bbc87c71463f3cced3475eb77ee1173e9715c7 0x8d0fe84d6a649c87b8402578cb3e3c42a553494c9dcfb6973179526cfa3fe14a91c6e58ab1ac96d151391b9650c4b3 0x11107038c12e6d692b502e71c2eed61218933e8a81127ad4115be55d0fa24cf71da86b28ea9636a88340b513ebaf1e5 0x4231b27436bbc6fc26aeffa7ad41caf0b8e08b4e9c9ccbaa63351fee5ec608a0477acca041840278aa537e05d7dc59;
  Twice 0x9a4fff0540c97ad6825ded7ffa9aadb52ef546ef035f7c8c51ef7412ed85718dd55021a3f32be7281bb2224811354a (-0x16d936802a7f79acbae451d0b5e0c817902b7fe79923311186875855a352bc975236c4b352dae38c701dc0a72e17af) 0xa3e1fb5ba4565004c85c2f0cbd7f9e60c1ea1559e96f8200959a3adae0849c12a1be30a7c2798e358a10d914768284 0x37592661565e0b2e912927b5013b9648e25a273e27796025c33fc5391ea77e5141caa20d534f48a2fd6bc22d470b52 0x15f98a155767cb457465da5b4b97263a1d692db04914c35fbcd384664f150c50bf9816f84ad27fd2754795dd8d498f7 0x4bd9d59b8a7a22c1dccdb9fc5d07279ae346b528475f06e618934b2f136ec949b69cf3ec9c7a03cea267c73cae582;
  Twice 0x10a6363e8d6960465e917770956f4c46b6b0819369d14b1b9e193405c99ca8fcc2e0f4c68cde9b3d176ab21119979d4 0xf81f95ff4dfe3daaa46c6feaf61f722d67feb9f4d224b3a400c41949ef3a800cf9a588ecf562135d87116a2145dae8 0x177aba72add27ea2889d5966c7aacbd3a1a15ee0dea45e2a6ff950be69c1a1843873587e6a8d112d4b26e6c20b1878f 0xa4f134a1660d2e3e75f08306de88f97d9a7afe4d0d2ead6b987ed0a738a2f8c2d75b80e50227576e2f0ebab7c38af9 0xab981ae07a5baa72fb0e97019e94f661b02e18bee45cee2fb57b6510e8338c14de841aa51b877790ce4e9da9337b7d (-0x83227c1964b811d80a7e263bfb3f85d093258d67fee0875b4676e459324406bca18b2af31fd15c0c9d009046dd7490);
  Twice 0x16a71559bbf71824c80a5e3ae7b36be50c6395f89a7c9ce18e8175007702e7077e98cfc2103b0ac6d6b7e72935f3f03 (-0x2b6fa7886b80e456c600bdcaaf6b09758bcfa5067989f9bd82f3543b4368a34edb6f583f0e87997508378a4efcffab5) 0xf2620082333beb4381d1aa608798347bf12f55a6a0e0bf1a6f8e68e279ac510eda4330a5634506d4f42b6340297d6a 0x1315674269cb68b6088befdafc2e6d01122058264bd5cc01a466e726916100ebd5e7a7b2aafd374b0b1d03dc42fed81 0xf19631ceb2dedd333ec81a4df3b7e880f7dee9454df40e6d2ef7dcc719df4499d62935c7e884551906acd64d28c85b 0x704995091baa8e9df0525f7f181a3dead8b1fadaeb1262701edd636ec288e586dfb68125158841793ee7b12875f597;
  Twice 0x16890c054e459a1ed364b24889c1a5fb2a49383d21202c0910fc6f976ead482f457fcb52ad290edb44c081bb84e8db8 (-0x4b981d1abbdd56962491adce0101d4ced1fc358823b0ffa0e756709768c3ec85a866cc778c2d4326d07227d65cedc) 0xbcaf2ff5f2c183f5be5820bab20e2889ad25cb490b22599cd9d3687f7b4138ee3b8db1f2837112d9afaa318906ed98 0x12e2ed26aaa18e687c9e8d448a5c05a2f8f8198c10e48d977a5297419262ce12457c5509e0063e0744767ab213a4bd4 0x8ffec50eefdf883c3a52a2841186b2abc356ad8caf64a75485c566702932e058f67f79ff3eb4285ac75564e8679241 0x2d00f051e752be5cbb9fad9330985ec79e31bede4d539c335f17e8a6f126987fcbf7ff25e216885f7a9a6b3679ae54;
  Twice 0x6a035ac7a9105eb65673bccfbb1079579bc919d15db26b70a63749eee8767d56673e4f8404b8bd94f3f1767bc5a8fd (-0xb149f32454f5e27a97583a6f5bf42283c76901e698cfe50d79498665385b9bbc02507152d6a7db373f95ad3431fa46) 0xe0fc170f7987e38d75281f59b6d5b62ef06069f320c5046b7a02fb05ef0d2685757a4d1b206bd66e1ff407861a0bcc 0x1a1f740f0c61c70451d8afd726f6958eeb3f60471ef151ae9414fad3df1a8c054d3181354c64958158a3d20ac7230d 0x2a7807314b954cd840306ec4917db9f222d666b1f731d691e61dd363cf29b4074e16432de1bf459395f796e8420227 (-0x8f1e12b3f2d71a37db785c55af5865946cfbd7f1c4e6053e4f3467d6303cba90fff10505be64a80f082bcb2648dcc);
  Plus 0xf9fab01b9e92e581e44f297a4729ba060b7f730930f867721d429b11731b1e2d5efa718f1e31e3788923648d2c1907 (-0xd40a052e2249f8eb7a84462aa600320e9f021b5244189d33de9312de6e12f63d80f68a9e4541238c8ae66d2d1b8cf) 0x8879f51dcb1ba7673b874fa391a3072862971d5ca5e37d9b0e3cf8287e22ce20a13f5f90cbc0d4d7f30bd0bf8dea66 0x913f7112e0f5bbba33aea2afb797efb1bd558c1b82626ff0bb518e9aeb10f404c4e19d102903dd20660114741de6bf 0x11e92f9af08485efcea2b352dcdb5f7bec084522080907373a95240e5fdbfd18c498427de1a2c5dc184dec4b2ae78bc 0x336d45260d77d751435ae3840bab5a043d323fb899047f1a85093b978e61f4f1270a5408d75c27ee90e8da6daf64e7;
  Twice 0x7361ece23faaf00b2bd2ddca9ac7440a48ce95fb91fe4e5a14440c4b0a3960540875fe20cb69032094da498099ffb7 0x17d566252bd579efb7228d8e051de2e77d9c8343dbf233e8f9e7911dfc502016406a49d832e3b31dda3d1e9dbf42dc 0xd35e51e99a99d8e7f64cf646f5d1d21494821ccbc19c25a1a7402ff6784b7809f256955312ec7559f6030ad2062b77 0x1ef1c2b386c8f51d029bf3932879952143df9272ebc226ee535aa8707cfb295d7ce3ea118fee0347d3440c570a148e 0x1a7732bb0ccb89b079ff571a6f7c34f45f7bb4f35c9813b5b796b712a0bd70c38b11a36cdd7e4119f106251981e0390 (-0x1415d363d72339979f875499765b1081bdabccaeea06fe648c69ca3afd0792d8d0b51a66aafd665400c63faabbee73);
  Plus 0x10ca8c8d7f0fc1873e5c38f1a4e7dd72d8c7d0e785c5eb5d350ada719f6a883371a0aeb1dfe01f88d368dd732599626 (-0x5bd6d24ef3855fb9980c64abe18d9001a566bbbe8eed301b25ab1bc68da4bae710beb0aa3e1432f1806ce29f1bfbc) 0x116aa2255a5ea68626f8118c2d0a3520d8fcbc97c45949157f9574ee671e1de1a4647eda715898ff423301517de71c0 0xa7c43ff0e47229f325916fcbe2c20ff876110d229781e9ae645c90fbdbcfb9509fb19f5a8bc5eb07c968ff13836f2d 0x142422a34a233698af1ffacade8790ca0a8ae292bfa5848f5328c053becc4bd291d42967acff537fc178d435839ae79 (-0x2a060e350c628cf682b020580d99e0346c6cb5dd4450146d36561c34348f3409d20a2b9f32d476f1172641b901e6df);
  Twice 0x16bd2186f30dbc34f2e32afcdc282a14b90549eff52677d5576bc08f66d7a2c5c8e67c5c8618db45867459313638a49 0x38c74b7d31eb93bd5600d2e469d7401a6988b2e86ca2a31883a4a07e67500712b741ec440634e4f20e75175f4c502 0x1030ddc68d67be534ce6e825217f4ea5ab18df51fa924b734efc54b179e90fbc7154e1ac32b968be1490cf557597ca1 0x133a9f24ab6ca3e9948c77840a063d2b70f9dbda00bced60be1c227a16a92ac3cc3a352130fb196177ea9f18e1268b0 0x9258f989822234ffed2d6a394e174402cebb347f66dc926fde5c4c76a6265a1468f699d7d099636a753ee304c05907 0x109560f11914eda0d47cb0e5009fc7f9a0af4624aeed2604865431534bed440089108b40dd0101a61183184d0f9457;
  Twice 0xd33ce5104f8af55c3f89b8110735fa540e39e8491193155160febd3307b32717def1329370e0f42f313484b33c2e1d (-0x1443e8a4dd95912d8e69ab3fa1d7492b05a50b8d9bea8595d79bd9ff46480248ebf9e3c9aedf40083cf4f703f00682d) 0x159762df4140824903131a20dc23ab4e5f0f45640f28277d44f9359b18f9b3f7db96ed50869ff5276a33933db1ba678 0x67b743f79e34fb92193a720909b9a569b14964cdc4e1f5eea41fba3ad5d31725f2d930ed9fef4a3709f96baa17cf8f 0x181aad36c6c408ceff5611c75ec45ccded6f3569765244b1549b67451c01187680f36806d6886106536f713bb921116 (-0x2a6ce043616d44101f943103b63c28608bdc8cca3067eea8dee9bb612dea9bd4d2f74729d5adf9e4885857b439c978);
  Twice 0x1a409485255fcdacb82c8debee53652a1a5e2468cc44f65e9a0070d90735256d881182c6055418b771bd8466612ee23 (-0x4f209529a360889d74675e7a5f982fb4bce07840b834cd9eba52974cc04d100b133f7420018d8d9f03c280bbe1f4bc) 0x12a889a12e794f48958916916ef9f2f269c1af2aa3a6834076ab87910bac7c8980571ea0aeadc836b6385e46d83956c 0x19a161806692fce3e9b214b3e54d11d8223e3ef75b91a17d52eef652529263825c4a303adfe71d75c66aa021ab6366d 0x18a792be6d435880ce0be0aff01d25a4a9b792f19e6af27dd3b4d5b3831a910ae4f9f5a60d88d2d92b71b5a219133b0 0x2dd0ff0167b612c012c98769227d11b96ecab0eb38089c4bfd96abede7e5e02a10acaa4d2a3552731fde15795837de;
  Twice 0x7a8bf9d214a8d20920f17ca8859eecadef2376c02f4093857365afd00b1474bb2a82475687716668e089f186cd8108 (-0x18cbacab84c0ca5d4b842c0e7c26ee516e1be3b1c25c52f7ab702ba6ff3818cd35a8534f91fafecdf1712413c3215b0) 0xd2a4d82fa13a454ce5a28bf84f5d53c1c62d5fcbd748d97fd954e2779e404088bda9f10207edad53a15b935cf43bea 0x22e80c36c81fca077fc6f69db0ec4ceac460ef9e09d1cdccab117cf8d3aa94f8c72ec46536ce692c8c61c00fdda97e 0x10666804441cf52be90c56239e13f1edd363189875e2c7006c5f744b3e4638faefbad58e2a135842f69e5e3700b1269 0x1908dea4584461b2b8696bb0614962179e613d176989fd11c4472e5e3f600a7de9abf6ef7daa94bbc10ba9e81307f7;
  Twice 0x6ef4667e9b78f8a25158f17a9ab03fdb47586ebd82366b62010010dd2654b5dd07f7b6299c00b853a9bb3ef0d4f322 (-0xae0e3450842b067e1753535222a10d15e6105ec392f999b78140b92982838d82f044285ec91e1ac02d5f953674dbc8) 0x906bfc7acccbb62ed36c959a085b4c9cf2f00c595629f860777f19a7c26d2bd512566b9094a38a1b48ac0e23d322c4 0x1c9d6d7cecb27d0ec76f46a51b3ef93e820524bfb17311068f61685b727954008cd735911afc4b2d710646797df5ec 0x16136f7078a839e734b6d58960d2a248fcc9bbc5511a17d98c434005044dee0ed5306049cc22546d3540007148e3c9a 0x11141a1fdbb83ad2ed22a0682cfa08319b402dbd9b2b9fe197ccc6243ffee58261b1884bade0f306314f31f0231a09;
  Twice 0x190b12c3f6cfd7ae1914ad67af91007af5f583e25bf7f63ecad35d46a6621d3d691f0ac08398a7f6ff752705273aebb 0x2007da23e6ae3a5ced75bf66ed2d572516a0e3e9e6074691eeeb779546996ba60fc54d7b50895cc080c2a6ab917eecc 0x12a6a4a5ce9ba083ba57e4e61bbe03944ee877bd32319799af3b6b5e67c4aba5d9709ebe331683f1fde494ec2de4e2d 0x1752f261f1a2d2f9e4d6108899e5857632f6665be810347d8e6bb986dbe285fe28267fc6c4dfa4282565e6b34c028e4 0x2dc48e9ba5ba1082eea5a996721f6e811d028f6ee977e1645873c3498ce8123ab6aa9f1b0e6321b933189b30eb88a2 (-0x8f6bec99f1f296dc34628578a28c57222015d96308083cbee05f27e8be9d6e6b4d5f96a145b0d66a9a48cc2c4ed8ef);
  Twice 0x7808bb49d67b620533e85b0c9f6adf32f5cbf0a41af86c47da2513638b9533bb113ce60f9efb568fb91bc633a932aa (-0x2536c5418c22ccc1f05be6fba303764f6018b8f8aeb68bbb5ce1bea492b175899f3e9038031fc503f1b739fb9ad9c93) 0x37542eabb09bf1a7418d05b2b633a954385f204baf8b58f189c69ab494be885a15a2bf00d9482c8eb9ee541295de95 0x217d5bde38ad8a40fb39cb6c3d9b22702eb9879f47b687668d1b875d4b318e9f45c1cb580d4f5a7cf4d40a12285df5 0x18203867730e947a0095a1910ba2de8a58e6e2774dd5bb44eaf8845fdbca791e8f91869cb0fdb18e211c4c88102e7c3 0x43d249680cf4729ef89f1226b69914061e750f70cd85987a17ebde2938f8cd284a6d88dce69dccdaa46920774f5a8b;
  Twice 0x189fbe06d0af9798bd13938d8cbfd13e7ceab7cdbc0e0a2e3f917e47534f6d8af2a9ad3eab8526a21d45da7a7f76d0d 0x2ada49d5fdc249a9e62f133059605e112b3c51710c08b97b243fbce713e9f72b2e9c5d6e4f46fcebb2fac29cb074fa3 0x4b7786a7417edc7d90cf40536509fe5c873c3dbe2162a1ec02c36af313d6b5686bea1c3ad9e011fc9eca7dd6f8f27a 0x168cb1f005923e1165238b308996fefc94d8c9fb830652b0a2d8e8e41e08e3625639bbde6bd12f07a4a113a97656305 0x5326002998bac4ee99e030f47a3620fca217fa94f9f59740cd472d8bc59f11a6c2843ce0b0e46411618d050f0b5c34 (-0x12710a8be0794b74402ee325d6ad46593fe5063a32b38aa533efe3cf4614730a5f98bdeb473082344791804d81c798);
  Twice 0xd61053e0b18b1887a91741d89711103eace879795b790974f7364c89b96c9b917f1382d5d03f40d595db60ed1359d3 0x2b077e29c30e1e226949131fa22d383ab001002dd2b722b3095dc1a40d16e6a161b2806e62fefcc3c4ee58ac6d7f4c 0x1217a66f6dbb7e0fba3afbba9b5a0d11899edb52647e887b1a86e81730c7e28445c25d5d927c5d4acb0a7602cbf249b 0x6a826a4ef3ef93118442c2e8959ff08f60be710af9e3b3d02a539914c562ef5423d987f62644a134db79ab48255a5a 0x168753b460181bfdb73ea7614623293c41248544b43f1cc9701551a6c07389085395be621ed3385c2995b69775fd82d (-0x6a7bb8edf8da19f4653cb1ecf0303b42fb5aa2f25f877a04909ee11a9174532d3b71ed5f383541588e884b65a6fe94);
  Twice 0x1a4af0cf1d72e2a7021722c8d6fba0dd402a84964353c8773725846db7000cfa0e0f33b313ef366b1333f4b01a26d4 (-0x21c446d50d751ac50b626aa03d34495246488553bdb251c6da7ed697e321f9ad3602c5f15424deba09ed20ad1827b03) 0x5cadf8fbc0e4871cf4f08087f65eb987aafb6ae6198e5dad4b3cc03e2336d9ca69d2ad8c1c93bf44dcb3d9f307a03a 0x19b5a06a314bfa2b2c5028974b4237d9d49c036009017783b4334bda234ae35d6e9390f09ca0a5a1871951c6db620 0x12b346897e35d138c19c57ff5e4f2bf4be931540fa074f8463071001dcf78ab87d86cbc270beeafc5ead076c200020b 0xc06ed42527fdca56856d145d77e540dee50e30b8a58dcfec6aba211872db5b1ee84e939d1ba694efef2f2f21a2c1c;
  Twice 0x44cd5c417a9e6ab0ca7f9099b01ed8b995404a15ace7d8bbe67e71c91074869c52c522a7ae329bef29519f943d3ee7 0x23cd8617193706506ccf1e923d7b98f56a6b11b145a427b5426b2dd632c7981ebf677906f6dfe65d84881d03e15c6e 0x1384fcf97892ad9297970c024216a4575de837a8a6ba425bfb99b2fa7f553d77a27c60370b74e3f9b1adf8c331b4627 0xb00bc781bf73a236705a632f61af9a192c3c45ddce9d5dadf1840108c49b71788f7105ff4e73bcfd2691408602dd6 0x636f9e008630441de24423159f6267f342d6b537268cf7b0493c1e284b49f332a763b93106bcae397984010574fe99 (-0x231fa90e7f62c005310f7774b97d4b68a90df4ec6ac24b0e15db4fa1cc5ad9863e0e882235afeb21a959a2e8d81f7f);
  Twice 0x6c9b48fe4cd2f8cc0943180756fc2181b956cd29db7e6e24cc406622b3e9345342a0e18f1e7b9ef345e96bf66da689 (-0x275f05870935ca7552434e1824f77d044ae1a6146f49c0fb7e4d07a226034d585cc8d5d78b717cb551b7789d0a92211) 0x1a338d3d64e8dc2b4fe210fb2c429468ae776f41c9470dc8a71551e9646066d3cd96d161ce29267a393c995130c15aa 0x1b6aa7f441dbe90358b9809eb24642ad7b182380d67efa20f67e3ceddf54fa85f1d0346dbb978eb1cb3adf0fbd5359 0xe2d2f667be4987a134c018feb7ed7d2458c76c9611a829439d6d50462229967b9b00619b032707e70a0b9f6f0157a (-0x1afd0786c7d3ff097982d63c8b8a07fbce4e44645f8e61835d4a8369bd588e0a1bfb246b319231d55b5c62379a132e);
  Twice 0x75a3375abbca9a1b336a97217965dd238a4fa3f23b860fa43ed546a94cb0fb12436c466df414e82e6e5b0d366031b0 (-0x4c1bdb30e1339ac4f6a8ae265f56e7b34af66c4ab284ccd357665459d905539ddc6c5c5e8451d4c801c4f48cb79c2ec) 0x15312b30e36309cadd05f1f22d36d193f024a39229e5abfbbd9d43473840fd0f41638f047cc58fc5cc4a73d2e53e8f4 0x202a6ee04e430f2daa19d586beffde9748325f559b06575f6df0a9100eedb0ca3b53b4f508502cf2aeaa943938c4b8 0x71d5c4e18ca355f0fbdcfb40889418d4c24f0d0cd26e2369508ba0fc9e46c913dc4370273e9bd72a781f561c019dbf 0x15ea4ab87e96ccc5869f8730dd4b22c933bb43ac23af1ec1dca7741546a33328ce9640881c5d432b9404e1947bdfe7;
  Twice 0x1590d2d6db89aeea0655d97d628e71ffb3ac91a5dae6c68c9bd79537c5465362b0e3c7ece1e45f587ac3eb2118f7259 (-0x26b19764c3798c4fa297248e14be8dc87fd65b9b0fd18c33971fcc21d261322c62a662e7945bf7dc4e581533399aee2) 0x19aba0a31afc4d36e0a8ffb528f02dbac1912c7f7057112d978bb826f276aca037e389841b6591d262257ca3fc32367 0x114bd09d62f5b2eeacf6ae0757ad6341c1afb8a7175a69bd25ec3d7da88100614580e15c648674424b5571028166da2 0xf1d4ac0e438bf1c5c0819ba3684b014493dad2e27a4f218c32edcf50b2820165c52ca85e7633114ff60b8642a19d2f (-0x3977bd31114a318175d39d53438d129850b175565fb4e82a467669e4130cb9e65ab1689176f66df4e03ba43f92c2e9);
  Twice 0x14ad1f010d71b93ee1368646a9ee1637862217fd7190fc8ecc9facf7df560f77376fbba95c64ed6868c0e97f56cd68d (-0x3246bead7a435b9886fc9b5977362cae211eadd1edfdc3d4d1d786b4267652b48f4bb64971dd709e5937830c2f4408d) 0xd093e992f4af7505b21d0265c38f90a3ba6fa2f1a50e1ea4a861cbd51ea823fbca7071297cd5866ee0e8ed5d7b0536 0xfe61a518bd3bd347eded01dbc24fd9f919d7ac5253ab5b0f9dfcd4a3a911920196ad2e6c0b621b2fd4aec3bfc6bda5 0xd47c866a2032b6123362bd9df17b4eab80dd2994593deb5a21fed10f1bef5ad34c0b54b0ef652ff69a5c83a7dbb1e7 0x9b70d7e248eb2e13f3c59614f49090379312b1495b8627b07eeb3cab28b1fba0440627bd8d4c6b9fbc04ffa22447e7;
  Twice 0xc8b9c54f247e290f4727742c8b3aa2f4ee5c477ecc845c3455a4b8428929c17f39eaa30e206e14b24eb9b378434223 (-0x691624bf5541bf624565a471b770fe2ec3d43e05023d4291b402f4974c3b375f57ab917364e26364733f4add45b502) 0x110ab669618ec1f95db231a8cbf3e84d79101c419356e2d3c354af3af2ca4d305b214eb804008c8025158c26eb52659 0x5da662b0266d6d690b413a6b5c622fa3ed6592513bfc3c21d139dbf126024a08510a6d2c9799a3f942080155bce004 0x917079e1359c45dcc4fb74b812bad841bca4f352788947b285832b49f62dd58712f21c53e7d71f413cff39ae9f20fe (-0x1de706da01dc50814649c5dc4e963e91f4bdf0a6d6fa01de9561d592c15c3940ea482fc901ae2e8a314c87c22160ae);
  Twice 0xcb4e513ec0968f84180702d431b940279383a70c2fb821b5d4a6127793a67608f12c6dc986e62c7da1cbc78baf4ac (-0x1fdd8a2f2af6774b505e886eedae62d21c1378dbbefcc3bbd8d49c787cc9a9ac1dce9931c6677768612567b24f91b83) 0x177b45b6a0d2ddcf5e9eb5c8f923ba4fe36a2ad6355a7ab6fca4083dd7cc5825164cf2ac59109c0c949564782a8d8e5 0x6012b65599f038724f4f807eab5415f08868d7280e18ed1adf5b36c5ae76b3b96fedd30a570210ce02bd53b52df9 0xede18c41ff0b8d4e3e910fdb42b6748971626a19bf0e783802685e8a229b988cfd5689796f2d2c8432dcaca35458a1 (-0x30b08b7450208b240424e6d015e766fe9e00a98b03c70b9b2d8249ce993e6658f12f36b651ae00336f1e55994dfaf);
  Twice 0xf8f2ed1a6786970ede38f36c6d098131dfe6cd14cf2f59aca91d3745b1b77c281bb580d3b73acfffb51a4224a6e54c (-0x2c4f9eec81d762a51ea9fb51506be1f657db58b66d936700ac57a612c195c237f0f638155454b6c59ba2ff9cf890cf3) 0x89a03d621471b0a55eefa5d1459defc25f708a4bfc5f405d14d1ebe80e6d2c6f55f58beeb2f692434b495f1b03d1d8 0x900d8fb68fade064ab4dc1671328d6959553e63f2a5d96b6b3cf23177f64dad93e87a754a0cb6bfbd8928d6b9b8aee 0x2b662b47f01c6e15bf920b0a27e8d85af0a3d8de264380dba391cee12f225ce4b57c51d5afb6232aa4b7dd305414e4 0x89c34dc7b974bffdb8988ede3f3c6a5364e01928ec6e17daaef8965ec57892f0025c77753b938d8ba17285f7124b57;
  Twice 0x153823aefe1ed5e42d65824bf1a6c0fb461e2cb38f8fd07864a9939d5039d47c83d90945ca956cc6731c7b8734ec79d (-0x3f9486e24b2178c9f135385b2c35eb9d800a44e5bb2a5e7bddbff9c5e6f4715507d8713c5e88b04ffb51b4e2ab1b18) 0x150668e865246ae4771781ab25c8e2a6df67c6fc6e285ba8cf1aadcbb99d613ca6a2a051a18d12bb9d6666870189e9e 0x10beb44dee81758858863aed9aed048cf6648c30d4fa5d6a0f8f813bbe7413eeb575ae7ee43e9eb015dae1ea73133fb 0x101b9235b2078c074a801cd5824a3290c7e458f2b8364419edfd16819a1d9a87e172de6a0198fd8bde91ae9587947d (-0x9cdc4ba52d98e84c23005986da1f3aff2e2c6491cb4142c509be2aaf56b4648503fbaf10024ecd956a760b751f28cf);
  Twice 0x10f03454da59691969dacf1090fa9584ec3bae1005a79e7df7f8d8015fae38650ef176050aa91d926e0855aeab1b15d (-0x300d090a5ce9329fba130cf2e1e774dbc5370a9edee03734a5b1ac81dcf78928a911e44a66f5c5c9303522727057fba) 0xf708318e2c6b34b7688bf0c58009fd671f4988225f9aa67d5553c3bd685c0a58496d1aea4fe1ea6954aa88160eeb10 0xaab80033b96a4f2380e6f8866505a51426d9b86b912eff52c149b1fe35620b4dfffca5371f6f43649d739fcb3b937d 0x684aee96ae8400759a0402ea435338b14031b73211e9c9b4dd8c06985e0bc0dfaac647e98aa98410911c81ba1eb628 0x384bbd67de8575a500719f3f999e90cde6d6a7b4ba458b5db1cee2b4f991500d15ac3275d60d2bb4f7f5520c331df1;
  Twice 0x13f719b856163d56f637e2e38039fba431bbc4872a46a9d8c57e1ce5aec8c27b7ce7cf2b99a068e5dc9f25390fde86d (-0x10ea799aaee596d10e160d20e1fce9329bdd537d9ba3b3bbca11bee877d03d5f2717132491758f52df9236eb56384f0) 0x87da1b621f2bb2f90642c5541013fb2af982fbd18ee66cef93dd7bbf5b424a931cae7b51d6c8b8ee4ffa4b83c112d5 0xed2fd414324e0f30aeee6071ba4ce12217aae3ec18d1f54d1bc1425624933ed368b89cb0884fbd3eab1ca22a98d574 0x9b26ae7f7ba28dec5bfe3a77ab9f3916ff700c5af4d8e556a4d341860023305edc8fde5db52c88188d268b59d8f59f 0x528d1566a645d6efdb41ff383512ad8b6368dbda4aeeb6dc1643095ea97eef67d25e16bcf201f9e7f5ed04a571dd58;
  Twice 0x81fce5fb2f1ac922a7749325dfa2fb88947c2b64d0da254bfc856a63c447b45769f68f0b0356629804b0dd47b24843 (-0x22f0672c45d56001d7acbca1eec4aa01ad420e3464e4a08be3a15c2d6967ee9a5aa31b4bcf38e481b3591f58cfee71) 0xff13de084fc6960dd88e3fd4681a043a5f47f7fee894b2f7b3872e5ed708d4e76570f0992001f3c5af530d453663bb 0x27463293e6d40d55b1aff586685bf61cca3655946ad1bfafa1924742cabf3700e36c0eae07d50ad1cefc476ed93824 0x3f302af0ee6dc3ec9e1cc45966a529e180d5d7ac9c01827257a3b4fe3c28ac26d230a7f3b108855b00ac207f8dbf59 (-0x2405c464f6720e264d39e73b14f0d9d0075cd3aaa715404ffb431a47764c5e6e8567b1f680fca18b260f5a83c7912a);
  Twice 0x136861316403d57282f3ce6bb06cb5e7f7a523cb384c2afa9b29734ec5e51bfeac01e8f5a19d6e7afd82f8f763a369f (-0x16a7c121b1ab9d868ab63deabd3e803e3e88a089431a969628ebf619b431c4f24e0ec0cc0082ae46dcd0eb01819433d) 0x13e23d30dd18b0fa6b218355c063309098ad88e4530ec675eaed270c47b6385cff24512805314cbefa57620e59ffce7 0xe02021386963016453154b2611630f30af12014c06615e06986ee6c7e7b2af6f2b94ed9bbcd956321202fdefa6b264 0x38fcd887da0db09fe88f0abda37425c11a7f09d843ea83aa5131d36167bd0772c630e31b7e2d7c1841ea6ba017aa8f (-0x2d84294a57227b9c40eb2393d54a7014cf599aa4c648cddba9a0e068e003c3df3745b5c6f29bfccf1a2bae0382d43c);
  Twice 0x555b9fb769d8947b2c6e7bec145b287f14cf6f3a018e5f8758019529acbe68a97726303452e7d3e0d2539a2eaecc9b (-0x2ab269cef2a122acefcdbcf3045cc98af8c0ecff4a334375f3aef30c210a93b31899586dadff03bf74d2f97617c5829) 0x53578852816f668828bced6c414df6ee60d0b9c6654ee9a608bfda445a7fb442f6d0daf4b549ea241345b88ca26aa9 0x10ef666320f0b43b542a9076dc4dbf89faa7209257806081cd99369cbb7a7a892065a061c4f7b5c052436422590162 0x5b1a4a76ac7e9ea8e164eb14a2b1240a4a2c1df96a0552cf981ec5ad3a077b9ec567311ad162f9b5dc1af63daa6220 0x2e9596c982b2400202e78da6cceb2b6f3dcc6f81ab93329a0c7fc65af800a60f11d5a630fd88dd63b650a29e72e6db;
  Twice 0x1d8f0fb22f894e442e8f122d05e3ca15653518281cbae0c274750def47e60ae91fba3df497f215191967eb58e6140e (-0x23ea5fa17d5e8cf005ea969bb21ec092a5586ca61aa182480bffb02c550753743ffa81d3a2f5fd56c7e4fc57856f33) 0xb0309f2946a8019d4e3b3b81ef8ce37632a95d3b2c10809dc25e6af589f632ef1bb5d148a71327cc6cc0e05fd7a64f 0x207e54dc23549ac5247874510c266c2fa06416e22a73bd5e27c4cf93e9a8536489fac65c000d0eba185f4319db523 0xdc68c7c8eb59429698ce63b45dff4127cf67c4709ee85d6732412bc8e88a0fd19645e4ab3aaa0066a7145dc2c51143 (-0x6610ec508a5c2a2e24fe9623f60e0f4d7ec580b278b9b7684549618b860f7cd78437712afd6ba71eb61b85d25ae77);
  Twice 0xb00f3150e8e40cdc3bd4eb9304c80ed0152913f56ca0d20cd6604c8c60793dfbf4f84476b23c51cdb886c7a4129aff (-0x2411ff0a4f461fca614ea8fa81157d9f45e5064b7c0402b7df12a287f1f60e54bb03327786d9137ec8eae8d16ca5a9) 0x9894d81715c275da23459f7e9b2e012b6729ce968189002ff5a423ac9bec75bbf1105eb9daf1bdb4ab0134ace7145e 0x480c3354c8df8a7b47d7e30165547d5cd7fdae10e96c095e180043ed0e7328b3ae28bd2841bf6eef77816d751d6905 0xaf9379cbf52745a89a4094b3f23c7995f757891e63c7f7c7b1a3540d1cfac8a7eadf9bd986931ac0ef57ebe144279 0x9a941cffdb9ff2e869e670d70759c7458130fc3517703bfe8433085fc1aba299d34f51e214ec97751368f1b850553;
  Twice 0x33c75b2de3714edf1de0d19ac9d98ef4a27aef66cb40099e14739a7d5291652c271e78dedadcba720cd13d2748a029 (-0x9fb2eb9c728397903c4e573b65cd1875f84a18d94f7b5c9a4f6cb3f1de06f7c5286b28228dd25e3ade1ae9c223ecca) 0xfcf8c71bd5d9fbdb74abc4e26dca6f400a01e60d0786dbf7e98f9ce163c3971997f7def67896cfb1cd50318bb0dc1a 0x63b4ed7d17a855972e0d02db0a2a62367d9284edd2281a9c6419f2c0dbe8de1c80937e6fbdc615ab6e85613c441bb 0x2969e92288d8a5f613f0b9a260e9af5ceed374cb5730bf1de4d6e16478b7150edd3b9b20a8f73553be99408b1d792b (-0xc150983b634c288d1815287fe961d697be14a4a875bf84a48bed2dd2f3c2a5b12aabfa7b72e27ef1eba76e53838c0);
  Twice 0x1277a9f4c9b959c690d327e8ac136ff48bbd1cc2d80bc13d0b695e41386ac75c38795d0ab8154d1f34a507de01c7059 (-0x1855a5d1c3dafcd42f6db7d7694d7d5cff8237e25ae9f3692d5e9f22de437d5431d87311f68fdf557a16260910a3806) 0xc523a7911d90cc89aad883d96a5dfc73fbd9180245b4584641a20c4be08337d52efd209b22726269a852e0fe2d198 0xcaef1dd894b5c800191f1964d9a8b8f7f3a3a282800ebfaa327949a2bc5ebca4772073b56dc833cb6a391d5d817525 0x8ffded44e4e97521505c25efc87bb493480326ff3ad8ff2e5ccc7537a8854932f51c962959c0081161a65f73778064 0xa5472f82104f86c53150da6b4a3768c507fd366d83284e0cbaf6b7b4a9f3f9bad2ca91c49a213179352ff516dd8da3;
  Twice 0x315a363dafc003befeb687d1f74ab3e72a21ccd8346ffc83a47cdd8be7286dbdd0d135b2b69804f488bb8763a2fcd0 0x1ffa07ebc2f43190c71cc890d6e831bf5aa7f0ce7dc31629047edc3ad9e7d3eb526467ab476e65b3eb77ff1998e3c0 0x179dbf8cdc88fca6dac5cb3fce82820515d60e9253de75ccee35c9cb8a1ec614e28ee6f099b2be1b5a29abe9ac6fc36 0x5a94c96ff0fce7f4faf52bcaa2bd201e455320735b71e6c6b62a9feb9f773fd67aacb0bd17265fe2ad593165d899a 0x1a8c266867a0b2d21712d1980f1a1e5e4752a73ce525dbb201760a83917b23b6581576b4888f6a62fd98917d73e0f2a (-0x29ee840a42ffc3cbd769cc172fe37924e46303e624bf8bdd4c54a08aec4d42876a02c5964a657bee3681d0d007b7ee);
  Twice 0x369832af67a1313024c766901cec7bf9902f8eacba8c0e7c9873219be69fad9ab13b1500df200d1fa224412ca3ce49 (-0x377cb6feb54baa87bb0acec110343557af0ec2239ea41b860b00e0d5c61a33903390dd092fedb461d4c8f39dabed438) 0x163b6df05cca6a2c4035ef9ef07430af1107017293b742afaf0608372f9ff819e1aae514a90f83651062ce6c6b3144d 0x6ed8905b559cdd61728913bb4cbbdcb27923bf997c81734ecbfd242db99794002c476094b5b954f429e6772ee8418 0x13292ce124d8131fc0fa4e1798c97a7eb64c82b2a84083ba6283ad8be84a897db0c38d0d7eddc4e8cc2257da94cb051 0x2cf64133603997ccd4e4dc60c62af7273b6d5e69643081e8eb4e33b6073c3791f66a44dcf32f885b6eb4fb31adff6;
  Twice 0x17dbf66f840bd46bcc3acd8fa0e7b4ab07753d608fb04a71df98a69309b275e1a8eb64786f4322de6560403fec240c5 (-0x15243acf26eb85164c65dfa14f2ae1ef91578927a7ec395dbd2dca6549a0b8a332815eaf9d1b547e1f4a10aa4ea80d1) 0x173b1c039b787af9493d3cbdeb6dd8a6a08d513a1d433efeefda5de1865eec2f89a8fbf3793fc274af6949b7cedd40a 0x152bb0b006526f4177d37ae669d50c29ab73ed839987ffedef9ee71b1c1f155bbb78b1af762ec0526930a221ca31af5 0x5e8ac917c7c2cc003a1c42a400c96d0fabfd853c65a9c920a8e64254e84faf2e285cc98c51162c4ba5e3bd9ec8dd84 (-0xe2de6b12ef16958b49d91125ac2bc9185a84be619fb255bf140556565838bbdc22403fcd6254afd5e1ad406745a46);
  Twice 0xe306bba92d3087581cbe6ccb0a113d753b04509fdad5782c1f4e950db9c47ebb5c89baebed01de95fa6f43812ed303 (-0x35f98a01e0e8b47db20ee037af091750f88458192af0a91e0f3c29bdb0d4615ac4e9b96f4234a684cd7eeb07520e814) 0x375d085dc7874dbcc055defda64fc94fe7b5e5caee4d7a57a7ab9f18f543c9f2a68ce1af14f8ce3a49c941b5a04c8f 0x77cc9aafc59a995921ac3f953bfbab3f054654e89f2ce3f9d3df9d2a9a8550562eebb3e9e9ef05e317d452d985fd66 0xef71ce90fd93abd6bc8baaa3f2d08f0cc2ca8141fb8d57e890a43484e2fb9147a58ca24c8a4fdbf2b0a713ee8fedf2 0xa6ec9e1e81459930b737f4c5fcb74660dfeaad07d3dd5ad4e0cfe57906195f2937070579b66e30eb2d41e502542bfb;
  Twice 0x366d97472122c78d2117eacab17439101cae5f3f070b09f1d8d1f335529f8b09324807b512d67746174fa939448ba1 0x27360aa199274067bdcb7286008b6a7f2527745a711e281e1cdd0930b66ea95c7569aa36a631b5569ee8528b0e6ec1 0xc4b472f406ee0aec9e34df9817d513667addc482b7120e1a434c2b80808fb5bbb6fdea53ef89bd260880bb81177983 0x6e2bd02cf27723d5a934a8964553d7e2872c487d5d068b5af1f8a67ecee835a942dbb2111f0d7fc573ddb3f5828a0 0x16e20cf380bd376e1679d56be537da02fc7df6742bad0f798119f9b910e3bf0f33e3e60daaea52968cf7ee06c411fbf (-0x11e190358575201c67e13f206c2a54d2c7637c69394b37f3ab2e9082e9a5e642de050ac8dbb3a593ac78c54afccf25);
  Twice 0x16452c738cd3494110f8cb2fcb10b6aa7543f69963347d7c6aa689cfca6e7365ed89c4a49c365d0befc3f791b878496 0x150a9a7404d08fda19922ad0691953e58fba512ab54df8064be4fcab52376c1ab0774f1dd3b776fa427bc948adae0b9 0x1571fdac526b24b2d5fc5771c6a0fadf4120cc0cad17b9fee72d64ae80ee22bbb806c678ca9fdbb7a742ecd333b06d3 0x1271d438641c4145f91a40d279e82e42e3b224a5a3437fd2fec1b63ff2d77b57fb9d75c5b1d6bf1b33d973c89750e0b 0x14f27e9185fa2e9232a900cc45e2fd0f602d55aff29ff85c3ec661547dac71813a75f6b826b6ec47b4e8f48ae4c140f (-0x7944868b0da5cc7c3ee822a7e1b3e252f6874ac0e42c211caada259fc35f835fd3537bf6e4428c1b77d7d8c56f40ae);
  Twice 0x1142744fb784084bf1be64c9d2ba7ad8222192232df947c260e03a2a617956f97392fdf37ef09b0f1e2cdfbcb6105d3 (-0x186b5c3e57bcacc5b8f71d5826a85af9a29b6897345377d711fb0f21fa3a896fffd14b6381fb0a5c8b21b475ec20f01) 0x29cb60e98c180b37ecda0da9b78e4da96d6ee4c7ec2859e2885ba143c94b6c0e02d8265dbf19c9a74ea82ed53e6cf 0xb141b237adb96c09f8ae03a9d5fa693c4684bf7dae9094b1569ba0b27432ee4e7c026cd2aced065b2015a6b83df774 0x7fd5e9a5515126ac717572936309e5af3a5b2d322d94867e52c7963bceb30b302fcab0329225ca9803a4ecbd355f28 0xda912ff8c70deea72a818a277e29479d98d630ee660a3cc379f9012e9b134e6190dbdbdd5ce755670b234203220415;
  Twice 0xb1d61947b182fb2e5f0e1ef2cb7c10d56e3c24dafadf4547f46e764363e1ef00fa9bc6981970b38b3d46a16df06aca 0x69a29856e8e580ed395401f2cf8f60370b4ceec4dc23869e6190af4ebfa2f83fdc66b83286aa32659c7871050f78fd 0x1997475e44036c66ec468fbce369eb504184018a1c7dd76a142e36472ec751d9e9b9fef9b392d5233db99d4b6cb9205 0x49826569f22e55dd4f7ac35e56c7c3bf7213d141803016aba8aed4d6412c1c3476cb06fa457bb7e0a937f1d9d887c1 0xc3c79e60b464269b273340c02f9c6c0d4d6c17e64b8da9b3640c830783f82989b95b61bab80aac396aa5ff4699e3fa (-0xa82b8b76751dffb41509348d0931258a2d7c5fad9e18eb457a1a4c391b7a887b703a4c95f9c5271db443ed09c0b7be);
  Twice 0x7b86b96901735a7700f7367fd8de1574d9388257fec83e95bd9d2edf3cc354836b33f3db2e719b89d35196f58258df (-0x420a1b19ecd6f541befe642d5258c92f908284d4ffab5d333ab034ac49b7915d8caf26ddaad0cdd754624712ee80ebf) 0x1a4aebe922029c3ab49ecc326ffbb0be327ff16c4f95b9f6cadc698974b9e9674c44fa1508a79cbcaab0b3cc1408ae 0x2377773e3f068e2a719fbe5e7bbe6c25f3f2a4a795ad22537ef95cb54e6cbf2c3fe7bad6b6dd4fa0395f6ffdaae589 0x93ff860a2d24db95c8317fb67d5efb0b364d530819b2196f02c8db10257c72277afcf0b5144e192f89607347ee46f 0x6e034f956136b8b77ab5433780d8595c45aa57d812b63bdf8dce3fb13a6485cff7c8fa64707cb6519ffff3132bc260;
  Twice 0xbca9a7e300b9cc59f3536b0ad89063117fbf785bd8f3dbcc816b5b6b82fa324da5846ae7bb767a07697aaad2ecf9dc 0x34abfb73d3a381eb081df61d18218b4fe266a49f0a7b026eb250ee15e62e746fb071da4cb29809d45107858ae89fc 0x1982e4f8faace96c9e46c34b766d9f337bef7a749afec9c3f863be70c98cbf2c70eb714a8561dbd6d4e17156051a295 0x52bb68b9a8e041fe72605011c1d5f1a2ab27b11242b97439fbf97b336a24f6e772acb45f7cb856a1b074fd9904011f 0x1528842395bf7a5b8b62aef98131ff24f396c40b3a3a2bacba420c16b8d1d590b65764846cb256ef4b34d19f1d1d24d (-0xa7770aaa969724c4e3242eee7ae0ad76b828f9cfaa194b4d1b77f12e873d5bfb21ca4936960a8b6d0b429bd4e6a840);
  Twice 0x19b694fe8b1f386f4f9e9c6b050a468f17398c2c1b8025909a6ac2afa8dc323ddf980e292c622c51377d716700676b (-0x4615376a3172a7de784725b1656a984f20a433d8b69f97448c6fa55001f0f63bd99da431e62400756f78dc32a00fdcd) 0xaa5968c64bf919c1073e4d81b21dc5752e93d219474af843cb4a3f1671398427f79ba23812a15501f48bc2715dc61b 0x1896b05eaf963db5f97a1b4cc2540654ccc433ca6bfe3153611d74fe226e3baa1303ab1a5b7fef9fd63c111c63b74 0xb0702cb1ed7013c888707db94d782ee799bde8d4c28284df81617672a7cc12db6f82320d5e60d8579fa864be2d512c 0xe36e10985389dfea6c6ff8172b52972f385a4c2f60fe4de708f37eff985bdbabf11c5106ff5ef4382e5de63a31985;
  Twice 0xc18e2d5c09f34e7f54f9714e54ed461792ba97e8af67af78a2edcd26277b760b56900a774520d8a6f0758a7861f7c3 (-0x2b9826532285d9fec3fa10e4768c3501c0617b960706e6ceb14477728535c6dbb105a8426104c780b0f4262dbec383) 0xb2bcf939f573f450d915de0e903649afe60387285b31e8decaccf0a136f9a748926228aedc31ebc86b7ca82f4e87cf 0x5714290c0b851383b5c35bf27b6bd3835372410fa3ebaee2ea8027528141728aaf135aef2d7461f3fbc5d36f85ca84 0x578c324eeab7f3ff574a614905b237c8cbfc90f52df1059c00003be7b44cd0693c73e28694e47bf857908635e94b1d (-0x3c62b45f41d5617b16c8311d3d1f00fadace48066349a2437020651d32348ddd4230434f72da1b8b0243bb292d465);
  Twice 0xb3d255ff41ac114294836c25cf2c18477eb8c8f0d87dcaf1c12bc7c9dcfba2a02c0c122b7ab5436fc386be365ee2c6 (-0x95960d277a8109a370fe36eb1488011a7129b516ddbba550a5edebf3a57dba2abe73f63aa923f8a3887c1471c48747) 0xfdb7343218c89378d9b727c2896d558f5fa5d60fa2083eb587a7cd40a6ff2c352c776958f5f8b11002323d2849fe13 0x4b28e7baa3ea3aff4125d9795fe32bfa72e6816152cb5f640760875d0a5345533f2c063e7703826d68a53153632373 0x91069de1ab9eda0cc7e62ac69b2705d50ed0b259676e36948dd96a3b565a5b65f765fbd3fd6d2ebe83399dd3a01d69 (-0x1f5695b947bd67b70e7a5218a4e19f018ee09e7ad7aa0a5a7f5f771328472436775bb3d51e87b9298014ea5f66e91e);
  Twice 0xfb5753203485aa010389dd1993a1d48a4fb04ee8114fff5af7a4c10e32018f323cbe51c82db160015e11b4e5cef2a7 (-0x1176ac7f37eab60a69787b8c9daa5d5ba11c77293d7aa866945fda46af04d9873a05558004b93091bad798a77823d3d) 0x852da2d24f9c18783a1baec8ebf7cfaa9a64b295e7db53e30d921a5c06e69ddd59825b7c9dabef3a68dbf0fe5e38ab 0x92d5b053caaef71684dbcce959872900491a83e921b36940d2dcc2b53e1b607003bb086660ea65e3aa0dd6e1d1f420 0x18c9456fddde465192ec06e945469de86a160912b0611fac5463e49771290818d86319e83b6de6dc07131eca0a3a0f8 0x466b24d5ac608f8e66205fc530fb788befa709ae87c1f0c1e268de48535e246e17006429e2fa3b0b71f834a6d65877;
  Twice 0xc1a51387c02e3316443f10e31bebb7025b29e20c59c4ce525c2bb274e4a4858557e1ab1f47c06c5bf00885ff92a269 0xe9528cb74e8c707a185cf44b381e8e3e217d9ea329ef53c01b0a6e91adc7b608fc1fed9161e222a866dd298e7624c5 0x1269dc7366a4df78b04143d3eef1f0dae7d38e3a5954c4953b5274ad3d7000ea6c8c7bbc1c007ffe084a1b8ab4e301c 0x5728c4efee4f6b5f7c72afa9caf5c54526ff3310d2fa726b4bf57ba4cebc949dfea287cdf936a4b3032b0a2cc26d9f 0x5c6fcd05fb41cae2a388975b092ccf250ec50b95ff2fe2c9f1bd083f3e7882d36d611da184045d3912e7eb9049188 (-0x48a9bc88eb1d3b5c55c098b90176ab8db9ee3e90752c00f19e9fd972b13db00bfb3d5c65801d5f05ded8cad01c31d9);
  Twice 0x12b431c1f7b52037ba4c629780dfbcca775ef323d23974a0781c0a894cfb830f98ca788dd8369d4515617fbf9c8e735 (-0x2553716e2e04fc96da95de90034e04d072f7b0c0336e0b89ff36cee630f0d8dd745aa1aa61cf759c2a807e77747d6e0) 0x14106fda3a938db529e6c159df701185b734ffeb3d702f32bf7c5edb94b57d3116b247b7db697477b75c290c0469325 0xd029f0fd8b7b7c73caa7dc8b32125af2712235ee806db9cb02e59d7f2fb45dae91cecc1c5e5c333b41515b16bdbd9c 0x196a25dd6c9e1abb4b3a55f94ec2bd856e4b461ae89529b346f77f2423c6f458a32348552c47f8726e666935f85ba2 (-0x125f089992da7b395595f929319ae13e06677a1af7fd64b919b6929992c1f5a441291b6e3d659acd3bffc487ce8d07);
  Twice 0x367b69e9b4df4813ceef28ec78c2355b0da8aa2b1d86b7529b63fbd3fd4a6b245a213227603d05f5827f6d6ec9a74d (-0x2c8321fd281dacdd9353bb79a3946c31daa777d8b0a783152c12b329342752d4d9be7ea920a49469ab796fd4b160e97) 0x14ea72ddc7a2728b11a89493526b6af4f5216c2a1c4138996b5e835ea8754d3fede001cbcf495da5d267770fcabe6d1 0x6e63ccce6ca8078e0a5e74629bcd44278de4c55120074bad83e5a2c87db3419a29934915261536d504b9dd306800e 0x150ae47e39d15d6120fac1a5fd81cc1e8ba7fb41668fb5fe335c7bdf13a3a0e8ae5748a7b283635e3b513b427616cf8 (-0x1b9ba7a1b53f022d8978b7745cbf8550879159cb5ceb40ee149e2990985f157df4387dbdaa1b02b1992b43b752756);
  Twice 0x19b827c668a50ed560a85508e869651f6cafeeed89d26e45fc305857ea8e0027248eb38ef8ccca1e15c766669d98f1d (-0x88dd782972910f54a39fdea1942806028aa727bb21b51c9314c0336fd1df0d5ef5d82ea897ddf7f2d5552ef9b6e3b3) 0x9fad03d1a60851b1d82664f0a7ae4a6a66f0f9569e076cae9075e2a68c0ceb3f4c375f1e40ed21c79f5f0ab9bc3d36 0x1899b2caab4ec303434bdc7df7f1026b1cc6d2d9afa61b6909d7ce2bc7fa224ba9c975100ac1cc33a9fe97906175e71 0xe5ddb56ac668d7e1e16d0ed3a1cdf6928dca8f02d93b5f4fa42ead12c0efdf77be9ae08c5e9cc092678ff13fb9277a 0xa75d4dc07df0bf6b6d358b747dcad313d1f608f723502370de2da5c5a8e59edc7a86a289151c5ff0168ecd652c371d;
  Twice 0x1108770719d5f1f7347f468c6a4cbc61de47d57e35380952d5be4b701f3ea7f6827aa18d22f43740abcced5b897739a 0x716e62f0267e0bf91a22ad15ed09b400c966cf63d6f62197842f16b8eec0c4276fd8054f6bbd6edab4e662f04ec49c 0x1a3603ae5c34067887a545c13f6969c345418b21ef24635173079b26a2afaa748706bb32a55f0c841d1f57a7de46064 0xaca267e8ec54ff6dd3aca80eb8743bda206ce57027bc11aece803427f6ada19ce7918bbce4dc46374c927b0282ddd4 0xebc8e83c3964559635e45ca2c2f29fba40378cd0d91af1d9e64f850fc35c6110830697383c230a7e41df0b40acac0f (-0xa48200f41e227ec25762a2d51e34863530c68c25393f4d3ffb3ee3f243c5da934b97b3a6eaa044c1023992587aa735);
  Twice 0xe8488f7889577e4ad1212899acf659b9a94bedb2b118cdf7bd3c150da678c1b60f8e21d6b582e6e9e2d1ca7dfc919b (-0x3cbca125b25c7a58ddc59a6fe95b366ae85bfd34f68d641c6581715eb5f42ef2cd62f463d8817c4c274faff2bb81d06) 0x1821a8568f2cc0185f6908ff01086242e056fce293e7bb3a8a0c2cfb641fe1921e215f7926fbb507308c1ecf9501d7e 0x7d6967d274b9275146247b1dda8e713bd0a162427e48341d263666d7b17ed5a1425a3bfa8288a39f8e911a64e01593 0x7f29d7f4c2b1f868a1d2a0178b43d66bb951c0b62bdee147bbe2d0ea4302fc6025453e7723274c97d8ac6618da82cc 0x11f6c7f9a25735949258b340b4d29d880277dd9980b329c02162e48dc8eb5f2602f4e675615b7e8117096e0e899867;
  Twice 0x29d767dc3c0414f653309a08a3faff058fada874a4c45160ce6e0e66b46cbc5cec5d954db4a21f38b1b6b2400ed275 (-0x3f6c7c7b3b7450d2662f9be1bb72ca8ce39afe61ba3882ba6dead4e6a49d5b7b03781cd9ca54d399dd5e92f25cf1f94) 0x6f4418d145f85f02755aa1e72528257c5bd32d2fb2c5362c626d795a6d2991609d628bbfcb59307afd5b5c548e8499 0x411ba92da0f6298ac33978b43f24dc877d3a218aafcf78c3dd9779990d81d5cbce884c6011b413a129193eaa169e4 0x485a7e968628c4e0e9c1ecec5797327ad9656a976a9d92251008f0283820402d3f509c1d5c42b9af88bcb1f368cad3 0x1abaa652c16b4d7c6f0ca179fe1151de704bd989319a111c26b463ba9933eda60a768528c740fe889d2433ac296d0a;
  Twice 0x2de665b0d02eff9d947559455462fd788a7091a60220b57ef359a81fe727839f8202b9d2582d6696d3bee123860b0d (-0x46e3888ba3d1152c1169dcbd0f0dcb39046995f2b4a03f8bc294cd2be3c3f683d741bef4adf96b5bc455ed9247aee5) 0x1851afdd8897501315faf90c7234edf5d9399af37b2469b635aeedcd1fd86993842e01a8b9e7be4de6d7076ea005ad4 0x4e59f6636dccc331a98e322cf4a3edb8f15eda1769d600d4e5fc3826570da0560aef581218242fde83edf8cf8baa3 0xba5b994d3819b41eb3e81db30b1964580c97f75a0bdc75eb4beeb8bb1a53e1efeff32e4617ec4aac01a2180cda2be7 (-0x1da45d139c8c680ba09b5a9545a49c2970d6dde35ff4c3062a8b7840d3cea99cadfd38ebd72080b6d7b34aaf2160b9);
  Twice 0x64ed542a2c97c7d8563174bd4a38762b4d392c8716792d738be928609a961183ef509964b129939d2645229f2c5454 (-0x3c84e5a904182b5d94910e6b514a8b14ea10f6f0ded64e36a0c7df6035354d598006dfb988220d3f0bbdf576b48d718) 0x153f5592ffac3a9ebb28c49db709863333c737915ea79c8ee2aa9c098a42fa0198a40c57daaca3838106215d1c877f2 0x17ad2d477dc207df13537cdc074d3c0314372080c978ee51366ca4b783d617daa1286df05c4132e41003b9cade0df6 0xee566b3b0f5148099fe762ff442b66086ced0502e289c91fcd45581ad4225330f4f470f4ad6ecab79f033a87f33954 0xb8786d3617bfbe1901bb60a44b1466a234f270ab155da3088410a8518d1603ac7e70afc435affe1601a0510d334ed;
  Twice 0x102f7be5d29f042ab5688153c02a18d61c378f648af1ff5b15a3eaa3c66f0e36bfa69e31d641516e5909337693aa43c (-0x206f62dbb9cf11fdf93beb95f7dbf534ad31c41caf4e4828727bec12b336d4e6e8131238cf9e6f63783f8a6157222ec) 0x17d02ec49a624ecfce4f94391a64dcb3b6c6eec3cabd654aac1b390a4cac243711670bc2747556758b5c443d96d1ae7 0x9be1865bbdf76a41c951b06cec91fb278401c8040c00cca43859630282501ac030b17d44d0fee6f01e59808f8ee345 0x1431bd1edf47a4190688b0777ad94ecd1371ea1a9b198ff1efcc5074dfcae211041aafb5f41d610f3d1ea45514fdd19 (-0x18b60c6bb6daff6d99c032646ad3d32fe8811489d72100c3506398be0926d81737e9b3705a599a9cc0a0f584c03bd9);
  Twice 0x15540839d66f7e1fc8e4cfba657ce9482a7f934f28eda5784e954ad27469ba9134caa5cfe8a9da3d339d7f148096e2c (-0x1f3b40695b8ebf0041a6ac2af59e0c8c670623aef89ad27e14b3525d79c1b267aa1e28bef296f2c8e7c944e6b65b8bb) 0x570a0224e43e029de255a82f21ae6f7d3bd165b69686afc5ce1d977aefd31ca3f3286e807ceac045da14067cef1844 0x10ead6f9e193d5243972c67871ee5c57f0c4df6707748659273ad9de378d49b2ea042eb1dbb04740458889b7eb8897e 0x3af40b9d6dfde8d945578bce051f9c4fb4b369bfcc02bd473fdd3ac79f714cae78568348eef76c18f18cd3f4ac4b31 0xe92cfd26e299552116e4cc4f7a26e6c4d54790324ab1e2bf1944489ce04e47bb7636186ca78ad990ebc2cfb48955ba;
  Twice 0xa81de5c1c02b58b439e2591fb11e3812d1421641607af9a9b04d6c2c36ed98f33bdf54a71c36dd8a974ad1d2c2b104 (-0x6c0c5750371bda51fd62a53bc9dd49e91423b6b2e0a6dcefd324cdb15a53a49cd7a87792108c4ce8eac8a542e5aa8) 0x21d916a359aa1b52312dc2c8206aaa36f1643e6961d14b7b440bf8e2480e9280e7c56b27418f94bc9a59b48aa1dcb4 0x41b197b5a7fb660863620eb868abce30ea4137581b75738459571fa243b0d01f2767a4650b84ad6169d541cff67ad4 0x14023f876fddf8c0b51ca592acb178272cc26340911a0f3fedab93bd6d26959b5695d679094c580fb59b3c2e6c5ca99 0x14c8fb00916da9150a9f2506a3446a3543aa0ece7d3cca3884374b7276f2d2c9832ad7b2a0c395d1900b2b97116876;
  Twice 0xc8f5d1ec75df56b0e21afb088ea36dce19044031ab1519d6a566b71d2bc82170c4452fed6e8e2bd85e8fc67795a3a9 0x1231672099c6096433dbbd8863a23e6b586803e77b92ed824f13bef603e65497d4c49aaeea747b8767d983c6b34b852 0x18fd849180f327b8e0a633159f962640c7914e362a0ab3b49f8984b264a0fc15a4439d3512d890cca01c9c463c38a48 0x5dde7377cfbfaad97ba024fcf6ab05459e1374b324a52bc096d3957024ffa1a81458283edd7763ffa12fdd905361e1 0x3ab701b12501c0aa431b99ee3a87eaa79e647fe781c5d84bf00bf3addc3ee91176bd57fa5e5905d72df4d408b4b64f (-0xaaf539652ccb0871215b06e3578810bac892819dbf6d000e6b4d82e32fedd635837cf454a482e45417af0f8b5f539c);
  Twice 0x4baf6719a76c98e80ba65c9f4eda77730347a733c049bfdaafaa98f2fe76a3d0db3b0855f4b14fe1430563205d37fd (-0x4462a43ecb544b5f122439d577d4cdef6a61c5dc9be72efd8cb97c34c127c67f7dff100a40b685ccabec2dddc38d29a) 0x113ee22a346a4ae26c335685d8b6f976a82f83ddb437b8cebd3c55396d83e6c6d5a9724bca8a59da5d58b956dce10f7 0xd507fd3509a184ce4526a4217461b372e137d130bdca35c880f6be402a5b17c8ced3204805aebf9040080c4bb8a82 0x115ecfa76f27b8a99e2aa949f643c59e349d591ba3a51d3144a1f397495320c0be1335c06a85826d31ecde1fa3d05f5 0x15cc86819c60fd47855276fbb8248eefe8f32b1768becd0c03c6093afaf8af7b201430f40d67298ff7913500248fc9;
  Twice 0x1702ff63cd1e8e99a2bd7942483e319c02ff0fe091c279959de1233b35b0e8e2ae43de272ba23cae785b5547e39c204 (-0x3737076b5d0ff6726c053e2dd4c7c7f29de972dc3d83701fd4cd0d5633ad042f4bacf3e4350ef157704360cbe1e74b) 0x14318e0ce08e9659d95ea4d062db84df9c0fcf7dda9ab20dcdd6065ed9fe0cac3fcd8ac9393eae927c5370aa4fc2ba7 0x13b17eede3b1e3bf94bdd407fe121b8f5ef2f2568ce371a38ae4ecd9296b5f0cde36656c639f8afd081546e6839c27b 0x7c22f5d9ffd6b51e5d393ebc7b1a70405bddf8eaf6be8bf27ba312363c6c49be08fa534b93bbe89f6246255316f025 (-0x285d8627dab441efe33ea6401b95617dfb5dbbed4fb8e1c1592fb237ac9fcb9286cdde03958360c06c41d3ab75c0da);
  Twice 0x1262477dc3f06f1dd40f9861c7f5a8821f1e0b1b952b709f67a384f1645270439d09fd20f7185964fa773b47110fee0 (-0x22e30018f9f7f537629e1ffcdc20bbade874b354e79f260f1616c3ed71e4324fec992f807a8e66b9e4d0b06355ee813) 0xc57493dc176d54a9a9a3768709fb9b37c04cce8bd4c2f376394477f048bd756c5637ec131906c84e4e25ecab1563d 0xc91a32e741b3388c3951408bad97de5a7aa4ccd327952d854665b98eff00e7790bbcb8138958c73d249cae85179675 0x1d4709050535d2ea24892025ea7a9dedc314df6c955c67065b67989473ddbf75f6b1fb2b330da172b952af43829193 0xd47604afcda32a135f568a3edc4d0d76790da054223ee9210dde4247b2cdc9ac0d1cc5fd71713787665989cb406708;
  Twice 0xc69ff8c08ec6f1fc1a33550f1722efbc38632d729935296faca31e14c128a0122e7ba4437bbd9eedc028cd90835894 0x19f8a7bead797033b7cc550ecdc78362715d551b9fedfa33f0271b007416bb169462b9a9ea83d1e8f54aae4b4a425d 0xaece67dc2a27e5a8755ecf4047c7dfa8594aa7ca9be45e2cc6077b21c6a5801aad313ec1f16138cc74708829e6eccf 0x5bb32f0fdadb79b2320b3b9c07fa652ffabbc64026eab650b89f52277f3e6aa238ed9d71b2358abcf2aecc86d47c47 0x7f41d5395464f6f666b5a60093e402f642d4e848a8144d14d3ac24278394a03e90c2deabc1f25669fc80fb6baf2860 (-0x4b018950c10af92239be6e096f16ecfdcc99f8c4ac7be5a88aef65900b3db2187b8bd37d2ed0aa9ba03c5852a4f65b);
  Twice 0x9e6e956adacef786dcc2d09526ec190ff0283fe165997ff477ab3383ed280359498cce85312884ae9edbfd694c6984 (-0x775a1774a09f8c636df3cc5c5a13ad5bd5d9458ffac5b30fb2bf6a709e5b64255c344eed44f1c0cd005dce92468b23) 0xdce2597745a174e53f83a2b3fb6b33868e5d0ea9c023a5dbe7fbcbc79b7ab2df5cf0e91b112f37e67c1ce01bb3f468 0x3a57c24a8b802483bf81fc8794e1702e4ecf842d0a06d07b199abbedf6cd879d8e79a2187108dc4793ae54aa5bbe0a 0x416180369666070f3db2f9d89822adb07c05350bc503277fa0bad9d415da0afbed61a8097e6f00b6663451e86d83ab (-0x10f7dfb792ea87410f432c5e535898f26f37d9943e06da4c7c0d6d5aaae56d002745048a4217f94d73ab041c5e57ef);
  Twice 0x1d9dd809c90e48b32bbef98606d76d2a14b063fd1366846992c695ce0b90487e97735a31c966dc61140d0477846f68 (-0x14b3662a7f5270c1f39631d6532432a182736e3627fbe4723138da6081694043a4ba964462cd296ac0f375c54d1f9d0) 0x107ad1022a66204d229de7edc13155d6d6d2ad287458722b4f7942ae502e5a51712de46f84ce2f76ae84cac112dae47 0x209edd1a3a696846b80d79d2a5d3e0646ae16e3f2e7ee07271260a7c1d13827c70a3cd04002bfaef928e97b25c329 0x996bde691c96788a5e7b524d3dacce583b17fd3aaa8162acc12a60521969838d700f23daa7721c6d198ed7a546ca94 (-0x2f21d72e220b26793fdeedfae42a2dfe7e49fd260a6cbd81b3484bc6f4f190f4ff35cd25ef533f21cc01b8ebb81d7);
  Twice 0xa71d3ef6638f971cae823ea061c6ee691648a87e9af283c790480e9ad9d83802f5d4f6f18b85f13108fc03df36df4a (-0x16d9d3f7b970d45dd3c58ec8c193f4604715d13ae450ffe734ca3afeff8938ce91bbccee2ec885551969d3c4c84d183) 0x4e51e5993a629e9a892c9efc406a44e921499336b2a1205c39be6515da45a183c4b03f212b84190fa683740c906696 0x40e99c73294d845c0c266bc9d0ae4cb414cc4f3c05c9260ef8016751dede4dde306ec3df3652a387fc73b5b30e3e40 0xb8bddb1086e159c1f986f57e718d9b5fc8126c47b7d169a74fb0e68b17eacf1fd127421aac5b8deaf51738ffce1db9 0x47ff8ee9f8953c071277c981f300959f840a246a1c4d813f79c015d76761279d5f6779a0fef85384379dd9002affdd;
  Twice 0x10b6e3301be2e4b9af3e3306394ae523c8c8dda5cf2e6a675f725d9c8e00875d66374d4c7e84794ee693d7072cb82a7 0xbae61b7084183de86ff5f5bf61cdb804decdad7184e9b4a6932024f4796fb1c34bdc1471e2df5c7a831a6216ed0bb2 0x40996e58075d28610e1d653e95c9758ed97e93e97a2a9b234245cfff294865adc0d56ae56333c436e0d98e522b8196 0xa63c41e2a1b61194dfdb75012a55d68e2d5b65552f3711db6e86a13aba8aefc8a17db765547155f484a9cec83bba2f 0x12b040aea1a2a4c5a3fda65bac823a90208b5a35b13b551673d9ebb5255002244a3d9424ae72857727c5a3d498671e1 0x8875b4f890a8f9c1dcb2bc31ee114342d0d7958542bd2f9c1e4f151a144bba95ea8c40e2866c23deb780921c6d366;
  Twice 0x103ec4bde50b51afc3196ba385aa56a2c643d8c58509b123684a21e025303d03592e5e0cefb32af950c992425f6d4c2 0x14c33ff31a09037c3589b1480ee9d62172ce93059f5946c73cfe1201b5118b5d3a35fafd81bc6cb34c18ccd5cd7b558 0x34caa4274d99e0c08c945010aa70f0e2c0635d39e85c268ccfc178353d93223a4f207ddf62df5975c157ad1f52a6eb 0x9d0879df6f62e297ca2f9d281472fed9fb27310c3b7b626276ac2a9388a39262f9153045f6458e8cf03743e60038ed 0x15e6db518edf7a8035cd1dad1ebd8bdf9baa3155a4f0ef639985f98eb244b5eba349d2f748af9edca6172eeae000b65 0x72239bd92f44229d3487902c1f3387b41a50993591445f5b0e69130d97d1010b7efefe5f79211c5c844a0fd36d450;
  Twice 0xd6366a259932e88d2f4a75fe6d048a478a3de37334990f9345b4d051db7b5f9c411e77431028fc74778b0832b9157 0x26060b992b66e749b21778ccfe5c4cecbe66e8fef83e5c01a2435a9cefe3c163934c842b01f00da83c1b4b2b9557b 0x1749fe7517e8e55b22beb446ac1e83ffce0dcda6fdea88d5da1d3a34614b45aa39fa6f53ea6e1ed6d810c761064b46b 0x6aa8545af38f4b1f0c9800dc40926add2552a67049da55f580ac4134fe647487f2fab9908844652149f8e0b3a950 0x4c840d460ea3c75ed90c726253c0eea7f3eec378530af4669388b389d36bb8d34cfcd1adbb27625c4be35490328644 (-0x9f3f1c7bf64f848841525775a0434736426e706bd4f904983a322ca1b3aeee478e2ce32788d7b042cda09297aa829);
  Twice 0x11de75567d4fc9303dc58252d9b6cfd09de5bfc1dedac666d5617a04974e845e57ab796f481a019851e0c78d5d697ab (-0x36281a73bd59802148ee09941a25f3537ab03f2fe6f74a634b10bb89365909955104bf3fbbd1db1be0a2db298a85753) 0x16e20206f12d01b12f55179ce8ee23864271b84a6bfb69f51af52b56b97f23e9834586b0b6cf35f43814d4359f4556e 0xbdfe994da829d7015ae627d2ea2aa8a7f04eb8d3757b8c710ee3c94ecef21a4f7e9c1003c9d7b79a75de64ff016df5 0xffbb6d22260d6bc07530d33c77e02caa6dc773bfbe837e473533bd4dbce47ee7bb4a44dbf844414630e6eece5c5cf3 0x451a5a05a64acfa8cdffe16146ca9a9eee75a2bf7ba6b73ce92a169158eeb9ad823f10c59d9b710bf39c8af05cac8;
  Twice 0x9e19d16e100bf4b33db05ee4ed94a09b872bb6711663adf0bff55f71d2fed46357bc19e9b3e394c64d03ff783378a8 (-0x2eac4e320d51c6df0a3f55a69692e81659155bb8844e1c6682894de4ac00ec0378de6c76ba283d11a9467980d66e2dc) 0x16bd6caab8e0566ccb597aee4b5a20d1086cf98cb81c20302fbe9d579c8f21fb7cf298af652d48dcffba53ca35ef5aa 0x3a1964e2f808fb543fbcc6e3b62ce0106d55afcaf4dc965e883d69ce5fb6748ad65489547e9e5737c4da6374864dba 0x21e5e11c03ea91a72289061e3b6f3f3725e5a2b0a3df1381bf3db27c5d98d5f55d60b567dd804b4712af180590ab54 0xd71999b91b9d84b17ab089cbab164ba09c3dd9e2248941263d13f7aa631a826e10fc5287e26188f528d8f709b059;
  Twice 0xfca21531ab1e4782693ab8c2126ee304e76582fddd7d1e9652c458939cb97791d35fca0eeb65d0e9aac59d45d6a12a (-0x373463a02c767f4b42b2ba1154319bb2e73f7c718faccf0469101b370bd4f0106ddffb30cc6a091b9fdb11bee5c9f1c) 0x6b81ee10ddbb6769c2fe588ce66d62680b83180df88e7a92b74565677000e59fbda1a2cb87747f29c6fe30e5520fd4 0x945924a208ace48ee248c7297d08875bfaf5b34a81791095d6a967867f5b516ae3fc67daec0d4ab4b66fac4f9ddfbc 0x15f8ac8d25fdd62c13088c222ac80dd7a36c7f0dcff9b8d86fadb18ec13b89e7f7c6d1a08c793d86ec9bef7ddcc95e7 0x9685196dcda91ab46c28f046ca66e9081e5f8e636f575eb53b7fe3016bd160eb398879f7d5cfa21f51975c363009e1;
  Twice 0x7faa4a11658c1ac19edf81bb19f5d6658c0550ebdb3495d4140267ba1db0bc4676e6695dbba5b0c353f5938342b4a7 0x8009e64e005f359a99ba5147b3fb362d4b5b7ad1e07f5a4bd0ecbf6f64dff4abebfb29dc08993efc86a51e8274d4b2 0x94a1e2ef37649cde5484a962219d60419d0e263a26a75d1f290fb585a124cb8b2e27d3d82bdd28a26425029c35c6a4 0x25e219b2eee1b06c417b2150a0f7d96b11c7be8938de7acf848b1f319c29333c5bce34d40e098992e492aa28bd5ea5 0x18111e0f4e2d1860f154b0aceb9bdfbfe04160aad6a80a22a27744173a01bf15d5577374fd80adc539a2713d34155f9 (-0xc340d5f956a0535ae123ce9250331eaa4dfc2f13b416103df537da8f7c43d369e27c30864d1985c566423adc46d90);
  Twice 0x1105795200fc5bed8ee0a803a0164ec27ca8507f39350af5d78902845868ea816a8740013a18bf54e90a14682bfe26b 0x14d778ef4b6ba3232887357d46b3e150793f91478758e365afe8112381a7f7c7aae9ca377e9f3c8e9f8b0b1f3d936f6 0x1863d660b0b14b22b32744d9503cba1c94e8a5b73f227e5b1e09d1ce96f552636e20c73cf29360bcca7e12513633a03 0xac65cbf5bf082db0a057c69045ffb268a6fac9afca7b5f91d5f6d9eac9807648bbba24744a11e40aef2f22041c516e 0x186ca5afb709efa8732dff2c2493251d7b362a2edb40bafea376e5fc6333fbb4b124797bf6893620635c62071941a4e (-0x98f1294e398182a12b549668cb385232bbcaf5e3eb92ad28ecbbc97e5755ed7d88bcf0c73fd40de8c1474b868f86fc);
  Twice 0x15be0580acfd8d2edfa990241bcd20379b84de1988024c5fd20eb6c89795fddd74e98ecb21b7d8346da510ffbe49925 (-0x1adee2719da75869bf6c97f45f8b96df6adf60905ae31e50e9e0268103bf627756ad0874343f22242c14a256d353d8f) 0xe436f85ccc96b8b5cb0336c8463ea5a70a1d0e2b1d15c1f240b5b198da3299318be65f198f02b2dfab5130796b7587 0x11949c693c7465f8f83e57fb9f8e454c07fdc30461639082044769e65fba10caffd0bc1ebb95de290dd594b135355cc 0x11c541cc6ce558a79b736125167aee0e601af940a6099e122cf2f85d71e8e57ee3ca26911902eb83b7f25cada8257b 0x8302e7e1771cfb4b81d9b02d944e28fee66815d3a851bd3f5260cb5c37284f3fab32ea7d2044412400d376c8714223;
  Twice 0x19026caa5352f8d94d3eb8ab220305ecb46880ec04b9a93d0b2f7d85a0efba47601ab46fc333725fe2a6f39e611e116 (-0x14a1d20ebfc5c94d31af9d532fe8e7806389a23912a80741b24eac6cda850e4881b19b9e9fc5c48f34e68dbcf4d606f) 0x3a0aa65231ce9dfe25b8728febabb48e79338120c14633edc9481d0c7fea11229a52c8891c0a5a0382baa9e7bd7238 0x1742d8f6e778f4be5b5462c2dbc0fa9e655bfba85852ac632354eedbcda4d7d14cd1a1ea177c6b16ce39474583f509e 0x7aff9bb0c39f4924458aafad5b89e1bd0edfef6234ca0585f5a6c1e621c7199b0ea8c72dd9d2f4ad4751b1a4203322 0x9e46d9f2f4d378a88be5841a2e75e83ec91e43c5d4a4a4632307084043749d009fa4379341cbc63af632aa56535f2d;
  Twice 0xdd536a8dd2ae7fa70255326cf89aa3b06445077945d1259609a4e5549fc034ab2aa49425394c31da973b0166c556c9 0x670f344ee98df53458884354bfb2ff4e969f0497693e840b6f4255fe772a7ecc4a3cd56b1520684aa01d026a4d5ea4 0x1793bc8ebe8abde9faad750a27151f56b106b78bf2b88812cadac376a853dcd3d3cc1c5da3074ad2ce1ba672cc13de 0x71dbcf49858ee0b3140e0467b5360e78d668a293963ed6ece42024c4e346dd704cf674c5ece66127dd5bde987eb183 0x38cb95bfe241fcaf9be38d24380159be94ff48e63b108ca04842e118c208d5e9b00813bfe39bb625ee69e2f136091c 0x11bad99bde3a77c65cd1866a2880dc3e68622e4092bdab9a5012784d46e11386903f4de276ac63a85c8d1ac921146c;
  Twice 0x18723c4c5daaad63ef2fcaa3ee57d9e7efaa96495d15e3237fd94960293820cf79a4e321b661a8915811eeb99b5c1bb 0x6364e8bc0b7c659c620f6e3fa6d36d9525a3ac777b327a475c0c777a1a0e92c7a9627dcfa6529a1405e3180e35695c 0x1a5c73f7e709f609738a26fd193b042bb63060c28b7d7087a01ca5c290a99f66a42fd7f3525e38b9d9398349f24ebae 0x1639a650ce382d392f9dad5f2be51fd14206960ffd292185342ba3f4576a37ba57a3ff7655c2508bdcf346d864c6b2f 0x2186f730666fc33f4fea959b228c43ad69da41c579b633be58dad427a5250fa04edcf6c1da88e9ecc3dec6d8e726aa (-0x16a05e597c8df0a0e9ba01aa3389d68e77b4caf9499551901ed6919205605e8912092e7d17388c65c51e3af0fc6a4b6);
  Twice 0x58ad8cc7f5303e72f3d03ba4ea55d5aba0929924a6f4f5987619edaae510114698d6d155c14ba99d15bd860322cd06 (-0x4caa9e383f90dbbee00f2106cb6dd7cf0b63ecbf5678e839336fd8fc7591301bfb1a2906b5b48690d4d535531d0aad4) 0xdc7b837c2a760a37f2295d73cb40b35f16cc2425040ace127f4b6436eeab62a50f51cca4194aa1ba5a7fbb45dbb7bc 0x1247365b6c78802a9d6eccae0cb6ee4075fdb8814a6a039c1bc06098e15f69b1696b02084565ff4684a3acb9a50d0c 0x160b51e0cf924a134651ba8efcc4d9a9173f67d86487130578a54cd9d131bc3034af29f611ddbc0c72a9bd59e5e978d 0x297da68184309fa6b6c050bc33ce0fd8ef242007daa1920a8bf222741626f476323c3e71bc44d1e17016bbfb2e4375;
  Twice 0x1772878d3e056cc581b40a8f44f489582cae4732aafe4880f71c2ac7b428eab3ecb930557eb4a072ded059e6bed3f30 0x11424bddbd633ac4302cdf60560080eeaf4014afeffad23fcc35fe5755f6b7db6e3a3128d70ec228fb30f18c48f44b0 0xe33bbc47795ecd20f41a34289416c4f34c99124bb8847d5a1e8f912d5e7823f2418af4a9db6f1067d77ae97d63eba0 0x1472333b3330e2afb4d8da5275374fae4c49d05fbf988356d01b1ce75a73886000ae4172a613fa0bb779390255d4de8 0xfcb6b9185bddb332b63f35ed7ab5287a8bc8eba132edfd5df57d1548dc6ab3d8b08e9650035aa6ac8f30ad36e69267 (-0x5e30201f7e8235e9f182f4d88ac912d2d0150fedd5be84e43ce773f2086e0cbce4b83b03e93be1af9165819a800b4);
  Twice 0xa6c911959016f1140ef699cf1bad89fbc4df1a3e0cd00d684089623e399dadd230ef35a8d0190502f63a9d3277577d (-0xa41d9291ce6c22a7970b5290c3d1deaa1d5cfa5de26543ac8c3f779ef9d2963436f5bf3a441ed1c3064eb4576e716a) 0x6262f5478b265e0df12cecd55ac4a54c335e03e1b6b6ae706dc38d5f3bf314a57042ce6d92aefd8046659a61bf8c2d 0x40a847fa3301cbb383d78248290ea9daa34506c7e990e6a90974e875dfb38b2682b11bf09e20b0a7aa6db3eb94cf9c 0x114abb13fcb40cf0181f2168f7debb3f2a32c6ba352a5947ab7e5cdfd803c6f7b2739b23cd21c5c25f8643cc817531 0x31f323529a95e12674c39b6a68a6cc91238899b41a60a0283fdf1e1af5541015ef41233b8288b4ce5fdea82cbfa88f;
  Twice 0xb87794417d57ebb92da50c1de43428264037de0160149b3b9a5e59134cb763122f6b1f38ede8108c97e0d55165a73 (-0x429260211a527c252641a9da32051856fb3310b39185997c3ea0ffd1c0d1284563ee797f8719405de95150449401b5) 0x5296193d37a1720704c8c1f8bc8c28e6f3fab2036c7a6a6f85dd2245b6f2bf1ccdd6f607f4aad23392411379e72a13 0x4f17e0fcb3de169170f0ec2624d2b55ff5472b2886037e54baa7c28a6d7b65c03ba768adf5d916403169cc52cd3c 0x1620da1e576367a3243afea22968c62b12114318f6dd42e6520435b83ef34eca11f97acf897ee5483f4bef07e075b9f 0x6c64ca6ad44ff07e795ed22baeaba250a1be08e4788463171776aab94ad0a2f7e0351fb39d9cc61b9d64fe6464de;
  Twice 0x12b55cd3d11422293a01bcfba618330f65727081c400fd8b9245f5c6b4e03d0d43d49eb027b6d273987f0924dbc66c8 0x1bd1cc93c2a994e55c506425e7a6987914a2728838bfbf2ced8e9ec09711f490863ed682bd83e23f979b37c3e6d2435 0x6cfc5c071768ad4cd63031c7126737f2d438aa2f12b61a69fa52c66000478ffaf0bd7680707b64bb4bf747bd648b9d 0xd043f2c3134b274c43c16800c3836c88edd7d0c6633fa32398fd38a18d984610acad5cc35d370bad70e32cbdd11c7d 0x81c79491870d485bf196e2474d303f18929a3ad7770e0458db56192ab9dfe08c654516abc005ffc25c1e8ac326fe7 (-0x125e209b929d1494aacd1484e5289a3d7e4bd8502577b8ed8eb75aa170c4f21a896da26c75876c7c0073affc62fb56);
  Twice 0xe9196cd7b01372df72380a9015dc438586839dadc350641e2e95f692e1cb5bc8850bf0317e2edda8898d35a4db7348 (-0x4a092bdc59a3cb7919ca28c6e6f388569f86a0f03f1072658d8777cc915c602390632ac51dd4be08c5a743f8411eeb) 0x18a9b4ca5b141a8d2e6a0b33e97a2f91f3eec971dd125530d203e2f39d96e64e85efcd84d143b40bb0200ee2eb31c91 0x7e4b56540c12deb830465a5019234a99a6773a7ff18889ed79b48e959bf7e1a6f54f3655b3769da27b4425079d9075 0x9d41496ea5f78818b5730db6cdbe3fab3f1a745034084dc15c19eeebd9e31f6604ad77716d8110d3aa13ae4c60ac40 (-0x9ac02ddecd200e4b0c998753ef5c0ec05bd5520285c2917638be5f2b5b83416d1266fa400bfee26a32bae372857cc7);
  Twice 0x104b2bf531f54887ced290b75b82b29694d31334cb517909795ee0f1d0567776cc0b3da861ad3a2fd4c45c1d18d0784 (-0x37f39de2e7ccba1acc0d79af106099b5dcdc6336d7bf8d948c888d79debf286a162db863182dbac7a47a368ea44fc63) 0x195af0143d1934dabd96441952bc74b9f19aa6019807ad51865a391ba2d452e042a39616a4a650f917b90debe3eb0af 0x9df89f7779cfcff21b35ff37b04fe9919e09c46e72e95fca7db4706c354c031c4e9a269c335ff604733e43b3fb923f 0x167dee8a9f789afb563ece7cd6ebb6ae8ffaa6501ba235041d6ca8f9144d16f34c78bbd6c91096a270780ed0433e737 (-0x6b64ec065919665b1b01e12bd636260bb1915baae993b2b5aaaf339731d8b4801866b2a7352eae0e2e4fd381fc4ef);
  Twice 0x16c441891c1fb0116c381be46c7ef93b9b306e2fe9cdef593b481021260450035983d3ae766169e90eb2d14b4d9d673 (-0x21a3a2cca0ad54c6a7c95b5abd04db4e2e233d6ebfa79dc4ac471c08e92fb658aca19f0a360a4ca2058dbb197af9779) 0x157af96a175b0be1f7aabac0d30c8649f41125c260c1a098835548f2459a702692cc50549827b5868d91aebc883efd9 0x1346adf72f276bc02ed96c61faec25f16e6ea787ed581a9f847f55c01179d8b6bc5226ea1c210f9981d423db5992672 0xfc005eaf03448f63f2e87ca343e3f040b7f7b505eb3738c6ccdacac8c75cc0b77a1b04afb69d665444903abfd07292 0x347e0b018ae97a4f012b19b76d528f58ec57d757fef7d36972a6aab36725a2804055a343dcd4575f658e02a9792a59;
  Twice 0xb2345073759c43ad110215fb2daecf75db7f72420edf0fe6555af0e6141e679e2314997811e66cb0c37fea2ec2ef8b (-0x266e4e942a264548617b285505f8e12d0ded2c0189f4e084c594e89a5ed51cf7ad91109e48f2de4ed1503839ad5ab47) 0xfb57fdb84bdd1d701e6ab262f7beef27a47b3bce7e86cb49cbc1a3904b51aeee035f283eea89eab3ef6c2d77e4e6e1 0x49d05d8f12935832b9b144bc07b1585404d1fae3220105e1ecf5e0db2d2b1575d282d7a6d7e95a7658549cd9e40ee6 0xd9d7a6ee9b39226e4316ef44b70ff98eb922724ef1fe372c2a29dc424f323142bb6dc8936032a6d0a960ea8bbbcaf1 0x263fbea4556a54ac4ab3ce4d2a692c1a3237d6c2660ffaa9aff00274c299a22f897ec551bae16a6982c446501d2925;
  Twice 0x10ffd01e81113852cc390417f728b0de0a9cb06f72b92d0ae44eb589f7d801909eb30ad38126dc026179be7f031eb7e (-0xa5133283fc1b001f8d0d1aa314ba2b75b53a0616aed227b74631ee54d8af73767abac1f76a1153397be87fd94efa07) 0xb369c4c0fe871961e1c4b948c06db68a57aa5e15ff9687920c5015517e706447241cb066304c02e4cd619a9cde5a18 0xabf33324f019aa462d195b90ef740f11ad3690275e55190d728f0d32e3f223c4e60f7628b80096c7a77ab6b2346a2a 0xa24de07ebc6ffbd8af03ceaa2e7ac7755d4f1a01332091292904ff730d681bfcc946ce5dcfd0df3a5176fa1dc2de47 0x2d79672eb1b26639c326b4624077dbf7db8e5220da2838701846ef61131117c1767c5dc5c6a0d921ea780e897024b6;
  Twice 0xe5550bea12737a9f25b02ffd9d6b53cbc26487808d2514d1426f14b47d680c0ac7c5f68ff2965c1510ac38c603a575 (-0x336c934ab67f97d492f55fada8bb3286cd5170cfec213dc0d78692234b6261fb3faca2739887554acf86f573adf3da) 0x19f875410498773e7e32ec86597cd3c781db0ee71a3f5bc242e905b16f7d5d64f2c03d834c843fbd0d362a7cd95e076 0x7a3ec59513eb65759eb2f705287f7ca041a128639e19c3c4ae979b31f7a070bea768d2b60a66949b92d951405b72d3 0x881d5017dbba1e3ea848d1cf9e52629cb0e3f03a61f95ab511e3cf892e8c4bd32199fed81ef5dc586983bf80b43287 (-0x7ddc6aeca58cc54398fb360a9053ab38bc8a5e31e8135d1d8a3479a48d0926404f60a2badfd08b3b5606ca730c0fc4);
  Twice 0x84556834eda54acebc5627e271e74ed31137f71c0d279024c29d590ac39194310f1cf16262238292b9e739e5eef20b (-0x46042b7190f0fab591b843dbe09f56f8194311a8d151ee0ba58d18a0d024fea064a8e6b38fb59db2fc10434e6788f92) 0x149e059a7347f3b7a5fac07412cc8d5504659648aa8ef8e9cbae80df393a4a43fbff9fce0f4d61a4d83924214f741c6 0x28b458155f5bf8b0f047443b49f4fa87b9e740c28d6c027c4714ab14961c8d4575d501dcad7e13d3eb6762ef29c9c7 0x13c96097823dee4e57a3bcf57dcdfc03e3dd738f6096ff8de8c87d5d1a95de21b22189c37e04769b6592a44beed68d2 0x1a5883aa809cb518dbace1c98b55d9dd550b57e546658fc5bde5046b12bcf13544627f71727db499b3db7b98d19637;
  Twice 0xf534eab6705c3b43d5a3f9ad328ea8b564a1c8d5818c43a942405c1d8389211bb9e59f7d21e35742c653af5f5be92a (-0x18dec1f9d62cfa5f1b75d72d7a421f2ee192a014f90f994aeda97f186786460f250f466946f2f78136e8bc196edc684) 0x36aae47bc5f9582bf5d9f4f2e9fdc67a93f93435016f4f4134b4f6fcd566d4897637319c284354edd4ed79eda41290 0x8bc1334afe76cb3e214a46dd4ef9627e5a209476d517504c4e2f2c0e580c5fadf664290fe501d1aea5497aaca6e4c8 0x41cd224796ea78fa9287f79b9c30391473c903d59cc29ee9de34437c77e461ee03f304b888b133f2b626850d0a4716 0x9cdab27fbbbe7d9a601a51edf5b5231741bbaf580c0f0372b09a1de2e94d8deae1cac70301ef5d8de884d82fd834f4;
  Twice 0x19d84e4419ddc12c1c2f5c48f73590390d49e9237f40d9f0468d919409ccd54c858eb74d85ef55eb133e9c463a92146 0x69a701f8f026d000ce3e3603892267df79d8426465c7ddec76b630713f559ac91e8c957c0eb3b64e794f696974d908 0x19a12a716006a97758ae16667dc28b7d69dc15217dc402d2237f763fd2de98bbecd481ec0f6981a0a83e48750165a04 0x18d75a0bd91533fe0c9651057e453c4a97c96f4a9a8eb555eab30157fde8703ebd19f970f70f76f500edf2deb60a000 0xc331d78c905acba8d7fb72b705eb36d8f1927c69c4627caf93ca013a6dd1b896f3297ef32973a38ed82253c3cc3b1f (-0x1559a4591dc1f3cfb2dc45cfb8504fd5daa4109487f799c56f57695dcc3f95e26139500c21813f9de7048157edfffed);
  Twice 0x847bacb94a296a2ca74e273e6f7a254c112b101800f196b6c71f0a4733fc02af12f72984ee9e6a318a30688ebace40 (-0x41c5f147c8e71b20e0172d7a803c5fefdac7a05cdefd072f53bd515fd6fe2bcfef693d061bd2aef066566bf66b4fcb0) 0x170037511e86422604a10ca63fc06561193b84fd89347323ce28f77267ed33a271f9af8442d1fdb8f604242130a60b9 0x28cbe61ab1a384a5bc3697fc79ab960411d9afcdcfc60ceb7e90fee581cd51ce52cf291ca24266fbe40dcea7f3fb3f 0x10042990bcbe1099ad5f14e78c6041be276c66ddb91fc7d136a173251d67eee8407d5f9996883377eeafe7a6f60d74d 0xcf39ecb9bd002ba4bee9c146aa92db1f181ea0857f70f2600d3566a8595f7e3d4bb50b5b6e363d48e7d136ce99a54;
  Twice 0x1a6b4c204b0fe1625ec725bd895e67b9a6aa5da9fc86bf6de59f1974341cd4c39b263750f8554bc619686a26430404f (-0x1b8d3f593419c1020aa1a2367a10867e0d80e0a458550d7a86de3c6372d936f184964d4bd9c68b7b5b4dd476cb26f8d) 0x61ffc407ecfc0168cd89399663b9857c8b0245f10c4f174b12522ce0ca797aa247b879429294d7edd41f6db94abd64 0x19f50e7bbf27368d3aa709ff0cf1312d3c03fc6b3fb1a2881c79b02ad049f5441ce0b1715678b518f18ef600668198b 0x17b2528fc2ec53125164e47df58276fa94e6befc316e38f5590c018ecc70fbdd6193542feb5e1ef7bc6838d620a137e 0x1094b38cac89261a997f3a70a06c5091b23eca0fd1e98f778518a60079371189f9c34a32c59373e05dfdd759d7dbc70;
  Twice 0x17734c61df9bd0f34573fe539b5023dc78d450504c64910e3060eb9ff72dcbb5d3cfe6ae1cc2bccbd7852d1bab3b7e7 0x252585ea83b00ecb667bc894eed044d2aaad4040c7f100ebeb3b3ac20a5c6b355000f81e371c360670b0559fa7ae434 0xd731b9cc7022547394607337cedec425f3a67733fff1ffaf9efa057bc8cd63d82dbda0bcbafb26c391b0c65d0e465e 0x14738a8681c4d17735a6f84ca8106bf60168263d53e17665d6f9117cfbb0f2327c8341819c4f0562471b8f28d82514b 0x1ab8d6a17ac3f0f20d75a2fc48afb5e3b213959d6544f36d47e8b08ca86f8486d55a31d975744df77e97b652eeadda6 (-0x6635083fdf379cb97e73e8a81eae3ac164703b19edbe724e0b2de8c90c5de67c6ffa0a5aaab60d1ff27e57881e40ba);
  Twice 0xbaa9512b3c982e4444e66b4bda9a212a354549edb3e1df04a2f718667a29ded7ea3bad59e767ae5ababe0ea8f2f294 0x3016e01aa5674a11cba7ddc0e9cb325fce525219e2c378f9644e275a5b5841f6f2fc74ed45e60d47322ad303978064 0x50b251f8385c5fd14956bf7ecd58e9b7151de441e9cac158ba071272a3dbdd28ec6c60180166076b72dee86927f733 0x50fc73d550e05b63e9e0b3ee49367fa8ba8b8fce9fb1b64d11d56356e01e4752d522684d01300fbb5efcaca267a1a1 0x33eda819ddac9a9751303ec59e838c285271c7ed6c1f19ea872f4f9b0adf56bdde3b703b19dcf8ebdad323a18292dc 0x3a5aa2ef1e501b19f06d70954dc1736d729d4c1e29f115a1ec2492710880ce63182f2703d4ca9c5455485cf634fa5a].
Definition cleared_x : Z := 0x50b251f8385c5fd14956bf7ecd58e9b7151de441e9cac158ba071272a3dbdd28ec6c60180166076b72dee86927f733.
Definition cleared_y : Z := 0x33eda819ddac9a9751303ec59e838c285271c7ed6c1f19ea872f4f9b0adf56bdde3b703b19dcf8ebdad323a18292dc.
