(** Certificates for multiples of points of the curve of G1, and the points (generated). *)
From Verif Require Import Base Constants PointCert.

Definition X_PARAM : Z := 0x8508c00000000001.
Definition BETA : Z := 0x1ae3a4617c510eabc8756ba8f8c524eb8882a75cc9bc8e359064ee822fb5bffd1e945779fffffffffffffffffffffff.
Definition gen_x : list step := [
  Twice 0xcdd45d276f40f76bd122d9b3c7085e3a2e7d3f612e959511b76d6b1003ca56a814436035be9db9cd0c2b835041796c 0xfe74fe8186204e77836e96865ad4a153448f9ce7a2ba2be2cd8dc38c7560871eb4f7d4a2adf3b37dc4843bccb080ad 0xed453141939e91056edb5a4b5452ed7e61f7f3dd2a4b7ee90e97c9a2301955880661656781dc90857aed6d6a416390 0x62791601643e0de8ee7bc8d11419e7e1b23906201c3e9bf34cae9918ee5c8a46701b63ab7e45d4947db8df93f60e22 0xcfb0b9717bc8e5ae04601813171337ad99cdae42c561cae80b12f135c64479d6a23f5675ed5ca7e2dd5e8727d7c7ed (-0x30504527e21350a33bc82517f14e513340f7120d345db3c95e63e7e158831b5c95aab2852782683509714515a1bf7f);
  Twice 0x2c15ba942a126526766631005d0bdad82f1f2270d86512e9d7566d69ee2d20e5df30c3be4bb5d4cc82edd441755e18 (-0x15dffee62c36a6723c7268a9fc3726d35215dd204e13a8f72e5d6c57177bc1ade3c2490515e833dc2c1f36fd9a08a90) 0xc1090c0750892fa132043a3ec67b5dfb5aa24b4772bef1724153a759353c27a216259fecad4b19be1f169b2739bd26 0x4846f2ccd4af46d7ff4f8a2a2690da8b198988ac25ecc2f95b71bb7310f26ae6efdf67a14b86c2a58a5e158c91dfa 0x3f820683c042b943bfb056956d1c8dbc16939f19bd1131ab15caced9f05b7fd009962b3d13907fde8175d86f72e3a4 0x4885eeb4122117828f736769eabbaef2569498e5275488eb85ecc52775812a227fbd94397032a38b6c97b78f9da5f;
  Twice 0x36df7a4adf46c20cbafd1b04290a9ba61d3c67856027a68f232a1c8b4fd6bb2881bede4ef67fe8c9b1bb1f9f12093 (-0x102d265db878541332e70bf9644dc0ec30d974a276286e5c59d2d6d8242d61b3771b03b5c1ccaf9796f81a7b664f694) 0x18aff632c0048f5afb5c07fd197a44a127c829be3ff6170c6cebc1154bc72633b45de2ac855e0da30cebfa33672e7f3 0x6ffabf57e3fa463fdcc5c6cc80afa9dd8cced7606dd1095a5086a5ced06d2cc538fd9768a80145a94e8ca04b22a 0xefb82d5f13565755df1445db9ed4c4969f09bb31cc610f83eb1490be76ab3817808c52d98074f1a98ff896012a78ab (-0x19c252f8bab13074a54447525c7a8a28f97dbd3fde972b75e4613bae593986e846499fddfbac3996a262603c79006);
  Twice 0x7f1301ebfc3a27b16748d9a12e54e15125650d3a4d52fb7f28155e3d40b17ce493686f5be1ea3413778886725294f6 (-0x3b2590c6e214150698d8fa45bc37e19fd433ac99d9bcb524c8f346567ea0046a627f82286e6a0a92ba8ed4acd0bb157) 0x107db75ab97dcb352b7e3e0596950ec2793cb394f821b1a2e7d5f54d11da8215a998cc84736ddffed74f549052a9df4 0x2588869d3d25b71edd555d0c0b6fd5e1193d6de1a52350b9e5a8bbf8b08041511ae6b0998ee5f5783104476a34ee8a 0x7d8459036fefe53ffd95028a2be4f8588b07cd359b0955e1cbe986d4b1ee854e452d7c14f05c41b861266522e3e887 0x26bbfa36939f98900fcfc9f2c4abad275105cc79c88c8b820d195be3d055bcd80d7b6c8cc0e81fbcb6a5c343de25d8;
  Twice 0x1624cf0857801abf4e55e093d05664a1efc19b6d4975cf28c7141968f89431de9cd2055f9a200628d15f9ea6f7ce971 (-0x116bcc0e9d074b65d5c451dc04c5cd587663d152bc6d67dbd6e4032e0f6e3cc7304333b8777f887fb22c73d394e8c82) 0x680fb4caec4a06f92a7f4f1e20624b4eaf74001df5ab3ca6f4b3fd9c2d49f257d3021400f5844e227d9763090d8cb 0x123c5ede4707a566940edb53c7f4127c83e0d5c1ac60eaa7bf57f046a105b538e0dba327594d8370dabdfeebd70cf2e 0x1a9a941bd20effaea30f547d27e433ddf0e29bad201877d54995e73586e8847aaadc0b521762db07fc7906d3c39ee80 0xd3ef75a263933ee5ed351ba6a314e217b669cac82ea76f239cd9de5edec6add53634dafdd3c418bad3b42fb4108112;
  Plus 0x1b5676934ecda89171f3de27780118e83e6e7cba649a2bc5386d61be408d20f15f52a6a6a360bd5eb1c993f5296fb1 0x83f212bc3fd9f2bb0f0c48bff05339c53089d1f79ab6ae3f63a55eeb6e2b49e7d1066dee035bc377c376df6f6d5be 0x17ff204b8122c70e0bf8b099f055da95dbece5da7c4ab734549e5a34006bdb1ee3abdb83d4fe6d706210a438beffae0 0x1bcb3312cb41184c7ff6a2acee9ba3ad0f16628b06fd58df4a786cec435abde2be97e11350d98c034b89b52d03ac7 0x1a3df8b3bfefe7e19ba05216ddbc21986762d3f1421d0d189c1e5e0f711b9e2ca94bb1b80573fd4a2ecc176f582ea2f (-0x17fbcc4f6d92d9446ca9f629f90a6289c9a0738767eea70f06500e8f2aa654948af6e6976875d20e9ed7682ca78434);
  Twice 0x3fa3882ce2518f36ef23c859655e911ccc1d1ca823d1a242f28f2069c87bb307d15b9c81149584e2ff76fde9cb8a36 (-0x387b62e887a72ceeca149cf9c2373972da9b4d88f8b544f232482320a4db0de964c61ff8160bb6d9b8f2641400f542c) 0x11929f2867250f4b5d108e76187a80a8a4420b58802c9a90ebe28b9c32d39a06836468be50d8540a8433d8fe8bed7bc 0x969d34f3d9e00a1ac4b64e374003966a8db3b1e07ff41339e6159b02a2d1b79cb83e1fa3c448dc09dc80fc7a375e8 0xafc8acb1ac9959e185a80108088ca0e867d939790e96c0c0c4c28b13e438795f7bf054c25942ef8e908d7a855f165a 0xf340d71f545741e47880883bbc1d63a380e652f887223bd391923dd02c8c1ebee7ed2bc8d3ba8c3f9e8720ff8d10f;
  Twice 0x181cee97723127dd9b518e7bc805a94f45b600af4a727750e9d71409e40bd722305ccd8628e6bfe9f6568b9be54c0d2 (-0xebf8c92957feaed12566704780553c5c1a258fd8ee94ab4ec1e29f48c33a7c05b5aabe682062c74f93353b5e004a88) 0xe0f06856c55c5999d70fa081bb445946db15ad71e4eb9db0d5f376c723496b9ebe616dddab078e636967ecce7e3682 0x159f999b4d002e03aaf65486d7665b60daf9dd3bdccda093e872e16e9b964c7525102c0d2dd91a85567d6be330fc64a 0x16b90900c1bdb8b62e1af255332b4a32c8f6c4dc151d21497c49cd51c2b5d4350a7f1e00d66b4f46daee26a0bcaf31d 0x326b760653a8a697ea772b666a48aa9beb6e3516d335a6f52a5b87b5852ae2889260b11118ecccc5c50b5f63cdb81d;
  Plus 0x576d583b282a63fef8bed6afa7a51e31de6e35be7e61603dea59eb34766708e29dcc45f7e6352ef827ee11c5cb222 (-0x1203fd74ea8a3e068299cdbd2ea3b810254c2efad7e42ad38ad9879a994c9594f633b53f9872966f3434e00f1fd0f) 0x916ea4e2266948007f2b7fa939b7898c70538dfb1dafaac192cb4d6583af59e03b03fec162758381640a8582888fe0 0x11c42489777519ae1c9f5f87a73583ba0774f0dbc12356fbfe30ae05cc1727ecfbed0a3fa3e9deb19c6af1409c33 0x9e816ba640102f691ceee5bb94404916d7e526930b1cc58edcddaa475039b8b8d357dbccf19a488fc5e7697efe55a9 0x10281d823099fe321daa9831db181313914b29c5af41872af70af87e330b60a2282047c2fa7c6ed524b98f3eb7cbe;
  Twice 0xccaeea8d2372ceca6ba90ceec9843854acdf484e44f76f94b8a0cd4909ff1281ba2cb62f876041ae6fdd52f9bd4897 0x3560bbf45db07cb7da4f91fe68229d45b6f5fa447af28343678383a6d39b55325ca92f668a8e245c8d92a112e115e 0x5e867cd02f3876a25bc8db2de9cf1c1f9e775efaf119b10ed39935dd2a079fd96a45f1d6f7b7de2f434b14919649d4 0x616115d52fcebcbc6fbc2479505d4c755e60963622583f89a20b6516ca8dc1165170bc31cf2e4af099d9c66ae3df7d 0xb30627b67458d6830b7a78c8fb7422d97ed963bd9a5bf997400a7bc89a5faa450e195491a2402af27a923644cae33 0x18381f90b725ad6076d5bc2c3119ff16145ba0b4d8d1061ae06455febd7d86e9afbe2b94c3059a309573acc22bad38;
  Twice 0xed20a8cec1d81a85b3679ea5f79a487ca6d997f1137dcb500fa6a5ec1ce9a4cee332a592dc17c8fd6bfcf5c8468a70 (-0x31f870fa58a381c0a57d72c2bf8ceeb652bd4df6b0c0981fe24892fc5abd3d240ac9871e9c0aff24fb641ee2645e10) 0xe52295461f3433824d8b1f009dc7314196df34f7394c9134a585f37bbedd8d6f30d6de6f10e33945bb60a603952cda 0x82b2729c5146f70f6d25830828518cef980ada9a5a349959704105ba32edadbae84a9a59f6b4d7eb4f4f4fd95b307e 0xbd81bb84eade53e5f23a8eba96c86d3a0acfbb66304a9ad1db694ff245c1ec835f7bff91cc216c93599d4e089a8d53 (-0x4a314aade844e57dc5254bd661d99eda2222df99db59799bf0359c66f8d8451fa5975f25662fbc449e1753766fca26);
  Twice 0xa5636ffbd25695f2249a2d873cc60787cd38906f4c9f03088eddb833ab3d0bbc4cd47ffb999b7f051114238fa63c93 (-0xdc679e130f7776912df046fd74fabf135dbde56db42afdda5fe8ce3a84591feaff4cdbed3c4390338f576cb77dc79a) 0x1a024f75919ed41eec89eca962ba66abc92a996b33503dfe95b1692e96c0e07532ee462fdb98c73442a2802987d8ff6 0x3f94287c539689d5798e7ed52d04e8df54678a69bbc6ee6f6ea8fb5feb5f012f4ce0e2c75f4ac3bc648282375152bf 0xacf7b98e4f6f9248ccdfb2bc221c1106aafac8c688e7311601124666bdb4219fc321c14c7e309a8ed8d3c471de368 (-0x47e3e7f5a4a5bc855dc6a267017ef8c7a603f3b50e63a6e75fccb5b66cf5df7cca11906fb115e32560327b308be9cf);
  Twice 0xb613c1c6cf55ea4ac896eca6cd824eef05041d4ae20974a22efd0e85895f945743c9fbbd38641497c0a3b5d44f1ca4 (-0x4ae6a918d6066519e10039ed7bccb4b8ac0302f1ae8084c094cd55fc1c661dd4d527b3cdf38322f0916de35d35823ec) 0x7f71d388987c82728039db051c0da04087d967a608094cdff6b0995dd5c0bb68cf0a11d84f3a6a0ed17dfe486278b8 0x4d0e9ebe73fa4146c6ac67034b5b100f13bf5fd1a78984754109848ffae83ac5b1453fb558a2ddd993a9c6d70eb06c 0x153dedf53d3217d59252c25d716332147e262463c5ceb4ed451d80cc3e145c9ecd5bcfd1592eda99ac62fed47cece78 0x7a2e55559d20bd839d30ba788169c6c4425bdb5ff132db3bb304b6635a9975507972d1e7a313a446aeb6ce3d1af9d8;
  Twice 0x9a2d020dde707f9c1fc907f54cd70e784359cbf31bdd6523b40c07f278b4ab99099aa8a16ec9e79f61c14abf6f73ea 0x82557a9fe1503bc6ec4ecf9dd2f22863b610ff0775f0a093902a6b546f8b4a2c08028b1c260df1a789a260be3a36a0 0x22f82922f8fa40f408a43df14dc8f26d0c0c03e7cd3d6648ff68bdebc3538f1aa9f7487886fbbac9b231424f1b6a87 0x37400febd9906fe9b8bbb40f73e6708d75398126b471696df30579cf7b32913eeb28a1014a50c14b8269860587b5ed 0x17cb2b641354ab94074441e28e1b266f62e5de086a5dd42b06e6c9b3a7b7c87f8414b8fb63c68060d8a7a900896095c 0x2123a9f5b4e19677c13a2e8f4dd6e87603fc2a6c252347ebf9363182b052412ce04fd13e229163c1668edf2c2d23f6;
  Plus 0x17c74c97dce8b8dc9967770db7f6d879d61860ba87d56f762ded10ec2e10ffbf81a770549f950cce044b89577aa5f72 0x5998305eefbcf43b819df24ef87a0f7a3a1cc926f9c2970df410340562dba7698833b24a67bcaa2e7689d1eb89cf06 0x153f472648b752e93f37a8e0f03b123e7a10c6b980e5be1164c143e251e797977fc3c6ee256dfabfbe10fe4519c0492 0x1507150c493a3f3dc18db0a0d585d484abe25b595e8fe92f2ec01c44182155139eccc75d9b0792fbf8cde3d902a75bc 0xa2c5ee77e92b6fdcd0bf68daba431ba9c92231d05b3392800ed7bf15218fe03bd881c49d08b5f94cd0139e39ff12e7 (-0x10db3ee6edf25f9d70765c6721b4a9d1703ff8c07d98c865baed146c892aa4e601d03362149fbdfb72e12a98151ca29);
  Twice 0x680bd6a849fb5c54d52ef70691fe9b68d224483b55497bb370a0d939fc217fa1e2b9fd28ead8090d444fd5618804cb (-0x2d7240bfcd99c01cb945027ef30999160fa644cb9a02bb2f1b4bd0564d465ab294ef583f48936362ca18da0cb7f7772) 0xccd146075043c26ad252b15e18427a4f88c6e73713d8dfcb0d0a1f7727e339389e702d2ce6005831e815691e00986b 0x19299c5cb8f87d7514378eb562e0f8cf0472b48e9914be400af416684a32d4156f76738936721ad5c3ea832c8e576a 0x140544f5d65f63d89fd07036f3f505fd0b11647f9c048c108e82147e4e3ae705393a15e62ecdc5b907969610e3b4d93 0x20ae7f06d79bdf4f6ef622c814f06a6a93491d068b12436d55fb2b26e417f2ee4e583aec61ee5b19af23804d6cfe73;
  Twice 0xd6c31184700fa0a7fe8e4b682278ce2fc2534e88e6d24a81972acc814040f2631641a9d884c2e8c85b3e47b4bcd1e8 0x1b48d3510da6a53751bd0d6b46ec4dec1c2cc2a139b7b41f46b040724ec594c099b9652468689623f61462fbd0ea45 0x6f4c9423e3dd573f5b4ce6caae6fb8fd49f0d9fb8bf965022e5959909db5ad0bf5242f9a7683fdbcb515e00f519dfc 0x6b3492d99b26e279f6b0e7fa0e3827f7528c4871ee09054223867f018af5711796901080a12c5cb06b2070ed89d36e 0x224ff134b5af98a423764e3e2927bd2f01d99cd8eafba6b3eaf60d0c3fc18da1717090b0937b24af536fe568f1f2bc 0x2eaec4f1273abf52dac0966a9e4d04f3a32a9b41bb0bfd800a56969a91a65ed39b6de04ff2f68d8ae8074aa75e5349;
  Twice 0x1a24e13f1d29ed03df3822cbfc03f4db7088b332f2a6866f6b55a5ff76731d6e3435249533b8ec657ba0e9c497d7115 (-0x13a7e78f0797635c07c026b27835eb552f7e01eb3e26c620f8e0e89e49842bb062349839ba37c2d84db27b95516558) 0xc4b07bb7de2cda13619adc583504aa71b1bee6d00a8fd9b5e28f92aa4b78f2d37bad5b2aaac2310e1a5bafd473faf9 0x196b677377be0c1d7e6a2a45072bee550821d4a31ba8199baa398c273ae05e618c0eeb60c00786221825e1da75e54c8 0x15399356e91d7fb1c6c14a8c56b912cad9283e8346b17557e041840adc63a96af5caf1bb308e0219200e574b4a155aa (-0x53061d3b16e3ede5635ec0c9b0f919a585011188ecbfccdda36cd452ad9158629ebb761b1f59de602113e100f99627);
  Twice 0x6d013a2c85bac481d3436f25cab1f802ef9c99bee39a1e5450cdecff3d4aa40c9531f467dad5610911a94f3a5d1619 (-0x61adf42bd245a7c1f2246c4f883bbae562230e63c7d1a79e93e251d7aa6c1b610a378f0ad2d40820a58d254583df5f) 0x3d2554a009a46ad7eed1b5e798afb45876064a69abd5071b49b2861b37523c971205d74850aed25d911bc16a9226db 0x1b9e380b3fc2c5c939d0b6943e4586344b56c9743bce63cd6b185494d1fcf92a09f3bd610f923e4b202229509831a4 0x18e1b74e7fec4e7ee4628e044afe76d3326134cf1236fbfc540b905b5932d99c40f8f5c402dd07d8eef08f08428378f 0x22579085132ac7297537fe1e0816d2a5d59d33560c5156acb387ce7e4ded0294b7e14e7b0612ae8655f1576164bdb5;
  Plus 0x15ad9ad5429efae28e502693bc13fb3932423ebc4adc3e9cc3cc4336747cfbbd8d6ff7548caa536f173e7169355691a 0x3c93ba51caf92800eb9370a16b5421a00b86d3b90dd5d332e6d158e35fb6513535974381d745498c295c063530acf1 0x184956ad4449e8b0a3266aa3f108f08fb30fba4c3ac4ab5d5136a29a13f8e2af479d2186554dfb5d500ca96496d388d 0x117a19fd0a2eaf74eec8d89670c2d74cb5fc891fc2d04b89903b2f3f663e1b271cfc98b840e3c0559d4d7e46c4f0d4d 0x180035169006cc133c1fcc38dc95cb14ce1a5fe8fe8cf762addd540f728abc1160c0e9e71a63c66e9290af16d0e02c6 (-0x107fb21a9ad3d3101e1474d45a7953ec9f6713161c08b0a786465309d75191190ebf5c1655ee2a8b2f5521a83d20869);
  Twice 0x1849e721c1570453aeff5820ca6d7ac092cbc2d828269a147c4fbe644ac53d00c832c07295c503f6bf49d277e8f1b4d (-0x1672a0abbea744f9fad027da07f8d687324263133d53364c73d1ed6f550366765cf1db9fb64d741cc58af4e4b7889df) 0x1816cfd09fa45f33f0771d2e3206487d203177caa22cc7ee3f2e00673c79521bae3b7eded6cbfd45d16c4e7aa95776d 0x15f08ca5556d3bdf23e31b169dd68e16e84e678845ff2a46cacb731448854f47a2901cac1fedd0c96ce1841117f6ca2 0xcdc8aa83bf8f299f32a19b5ef686789dccb649cd0f179482ec43bad9a00981983745870f6fbdbe02e527f324e4c768 0x2da3e3bee8ff2fcf5b9c0a6b6fbc06717d842438d6455d94a7cbe5b3d5e078661916e0a282996ca9164d49730ac72;
  Plus 0x4072c8089aa69ce94f399790b2e293c064d8ca52c4d4c406d6bfe645760da61dd5d3c9d077ab4fb692b49681cd30a4 (-0x25524d0a60014ad2b9d3125448c45d59d5069017027d3dddadafd6f8f565d8107b64803de2baed5ce217eef5040bf6) 0x11369cc26490564dd2dd578b55455a9a200a4aad87930aa7c007197dd8fb6d6262f0aa1f3b33de086bf2414ae1d1d95 0x9a78712e8897da9ccb4bb2733e0a1685c1ce9b76687d411bb84c4f7466f043fb0776b50623fbecb9d35412d176a1f 0x6860d02d70ede861f2cdaf624dea3ef8134ba4a3d7ef673654df4e85b2d5d0cbf688d3651d8c459e92e29fd4a6f3f6 0x107add06f48613b538229df110033eadafea3e718c8f7486281f56ce8e42e369b8b1a9413f530e318e62231e5e5302;
  Twice 0xf22e189ca87ad29991441dfdc3c3ef67fc5d6d5addc2ea251011af7051da63c8017454cd738c16bf566112137ddcdf (-0x19b6974af03bd73e7dd887c2dcdff58d3fe1946680ef03c7c98d9af4327f461ef25ecfbc7b2e9801fc4669e991f7397) 0x3ceca874c3c2a4e19f334b7c655853676db6437b74bf43ca5be824bbf49d17aac7e18ccd830d0a9bb810ac780b1eb2 0x88537048b4bcf284dda17ec5cf4cd4a9bfde748da42bbd2f5d2c85605adf569c07150489af0d031eb9e130b610b065 0xaa57f1157bf9d216fc83731dc9f086c4dd5ae780258eceab5316547d8da5e47cab0ea20d033b5d18e61ec31b9e9d07 0x78bcfbd1219f55e203d13ab167a9618ebdf9f4f78ea873a8c8b03c190e2cb194e14b8201734404ac4e2085ee498ac0;
  Twice 0x14d3e241f21b28db46e09544af22b55d5b8f19613a840887d7fb71f43fb85ec8d6a99ee771bcf7e9604aa7b3b3addad 0xee0128039e6e8e271707178144fd18a83019dc4d5700b7fda77490360cc86c9e00ac6b5d31383715b0fd05fbbbb62a 0x929a6c6c16e431646b55493e7406f0be592ee6e01eab173bc643a843ead9e4dee63235750127d11b646ce268705b43 0x1021ef025e8406873793cebe2c6b99cd9a4803879739ebb9c62f58e5a4030f09939e14a6eb9a6ad9680e9b997d18e42 0x18d9a54ec44b34f4b4c685bb76309d1df880d31b202b12b7e5ea4c3221ec9cbd310bf8ae1d85b2774d26208f5b7c378 (-0x425d4ddaeb7e3dc8eef399c2bb2fa9de45b005e04ca26aefd19ac550269175cabb06432af800bdb21091570ee37b7c);
  Twice 0xf6e16d40a4d026b1fd772c850c91bf78a0ad0eb140341c9bc1c4da07f301de4e4eae3699b1bc92a228ebad9f08a26d 0x132733ebe4e9afacf125d6ae2a1ca07739d838cdf090fd6a6ce071b6d9addc3c5a060f461d35fea2be9c1d1d7e63995 0x5e8008d644ab80b6a59f8f9db600be82b871c857397107b1d38cb2aa393c60e794d31f7d8e604d9376d083ad7be342 0x8dab52ad16778e3a16eb066796248cc1ed81716fd6023468fc6a257f207d7e3a0c10ed8d79f43a09faf517758188a1 0x885d615bbbd09f533153d5c509969c80265ea8760897e3902ef2885f637f359ca5c209329034550dc61bf782d74a95 0x1de60ff6d2e877b6c2a705f90fd6168cda109b43fb3b3dde46234c84d6ff8aadd697467fa9c678d2d8ba7d3480ac60;
  Twice 0x151eea9cbcf6bfcefaeb7f99e93fb1f356dffe2b98ed49c309ac99410085ae883f16ad1b629cf861eab96bd672e9067 0x97f3514a9d9593ab84a61d12d6dec51015ab71b94147c9ede77557865811d6e43c271e99c084f23586ebcc13334cda 0x18accace2b398788ebf6b91c15bf76617016a3531ef8cfa6ea6103c6cb1834876c3a8882b1f82f48765f7fc769930c0 0x1096fcee7626a8de9c7ccfae63517e607f0cdde50660b9adf5f3e6a9ba964e96bd9737fcc72848634cd13bd46e7122d 0xde756e26b2843f99fe02eeb0e07cb0d1eab363bf16af6cb8c43baa0ad90bb6adff06ea2e525c654410d94b6a67019d (-0xebe08aac8dd0e2741824cc16956146d940e6549693e18ae854a86c5d100472c2d6271e29f51516148bbf73f24359e4);
  Twice 0x17e806f6cc0a9367888e41e0a04aa9a7e433c72b495942c4e641d6cc6cfbfe14da0d24a2d7cf9d11a81e7173ab81c30 (-0x2b34df34b3465d179179fa35faabd9d70329f9076ab7153a629a1d924312455331ecac0a562c149fb5cef4307aebd20) 0x14305c7a830e9bf9f665483cbccafddc1b58551f83089a3e000f913cd4c569420a25d7fbd3259dad9051087b9afb76e 0x15411f19698cbd32456bc3cc8213ddf97c7340e06e802a9ce9404d96242bbcef43d2deff849f30eef5d214da1387012 0x373b339a8d15a8449b04e2ac68b5fe5b0b99d3f667aa0fb2cae00493191ea57ff11fb9cb5c6aa8d16507083d81fe26 0x3fd088f185afe1b573b2e4f68ed21129d64d8dacac8c2a89344fe67873b3d08bd9248d29b535c1c8e21be31412b79d;
  Twice 0x96bb6a01ffe713959353bf1227d92bf4b7d9dbbf701aea52865c62d2183717b1d6ec165943f9167dc3bf1953851c66 (-0x2b0e46f32e204ce5c2154b163297ace8a7028f1ab2853c9fe5f4174a3717f852c2024a412bd82b5fbf0fde7accc8384) 0x7f9e72c42602d7e85305ef8d9dd9e0ef7ca401f0d95c918adfc416f9736daa20b33bd60d31d080ace23b27c4b2f5a9 0x34cf43e0b3c5af76599ee9611db0189d74fc25867adf94f83dfff929796cc705409fee2f4fd937c107b9557110141f 0x11e4f036d8cbfd288575ae95a9f9100b46f5d8fbe94cd3f5b14781a59dec3b6c5fec1e98ab778f82293e40e8405946a 0x4475e33c0cfd33f3bf98bd17b41d0e2b8044e5de070b441350b00b154336efecd7e1438a4ad7f97bf439510ab82dee;
  Twice 0x2435bd2aa018fed121520693e59435c0acbff073c0dfe44d0d4b47cd44e175c0a50c04596a2b454be214ba411f5054 (-0x415f89cddd398a35c8ec6747a7d5995f2ecdd40e04fbadd6bcbb42503b192f2e8898728ac1a407b9cfc980122b1723) 0x10b71d89cf660f816a9118789d85aee9937748d9c975b09e953ddba12bd16002f88287b7f1bd3152c78ec46e842b57d 0x30c2ef76e358031436354693df68734b4b5e6fc42a30a602bd0bd80f6e6d82fd83fe01880e3eb0598a218c3e3fac1 0xb2d72a314140aaeb3873d8e42a38cad2236d63a8a07170373c7fd7d1e027744af526fb5939c18ca0fd4d3f666e0dbb (-0xbc4b42a6820fcc68254d61008a6170cf4ef096ca610dc72bb6c7d33c6a5c23abafb6052225aea545008c7903cd3b5);
  Twice 0xda6eaf4bf5cf8967b485a72b03f4572b9cc58c97c8bfb0ad484c6187b5be35aec86aa320114aa26ffea79bc33ec3fe (-0x13d28ea564404778601a8626bb43127e8eec4c0b872bb1e40bf078c6ead6106f94cf31ef065962f0d73178b7b77dc07) 0x175f09353fb6f22b0755dc7d26115c8cafc4683bcbd22767c5434e399ac71859ebb7942db7eaa089c3df15725803c5f 0x6ee6ab54b7431d38c2d8169d473b33423eac6ac3bbc0cb252cca081362919a5d978d96a2585fc38e9f5da7830f48ab 0xec214ad3abd530eb620a10f6b831df20d6f4c33762e6ef32cfef5269ab3bdd0ba0461e4c602c65f135fa75e9c59e8c (-0x3611a7a23940f68cc4bef468ffac20eda5306c6320df1e1484306faf7283734b804142007dfbeaac9e37f2c1b9a683);
  Twice 0x1175fe0e35982bbf9829e49082066abaa082897ed9a1d8b2ee7bc9c17aa9d5d7dfccde1e26fe42742275ee8c355adc8 (-0x29c612c5d413e5084f54a5ecb291623c3cd7f72852ba5a42529d10b636a5c7b759973cb5baf27058fdd380ebbad0f03) 0x17017e92bb4ab2c1af072c16b76d7de022dae5ad2625ae58327dd4d233fc10f9b349604c7a8b652646a65b02430fad5 0xb56a773fdb26e07887be29e5479ddfa102a779bb0b7d375279dec8df9d4f7c20ad58df0452adc18115758d1d9678ad 0x12f9ba3fcd993923fe67b7d08d8504b416b7cbbd73ff90ad394e9b101cfee41dfe5e561e06d18db59a89d66e074063e 0x3cbe17d651967167da852f6365fb188632a25b3e1aeb2a923aceb9dc68148034365d455274c63b32ebdcbabcdd106;
  Twice 0xffa37f76d4abb34248c9fb12073f4e10cc61fda6b561b491ee41f5a0f746085aab9ae8616fb574bec401fc3c34bfcd (-0x247fe7b3edacf3e7ce93bd496f90ca157a98282b753c946a09bef1eeeea83291e5c69fb94244ad8f7bf2290949b9c5f) 0x17371cb62b916683380f297a3eb82e7251c1936ead78fa2b8ab4030ed175061f361483667eb3a3addb392b172dd8918 0x97e621b5f4f0472bc13e59ea2258d4892014822deaffee66d7f8623df410b5459e7fbaed7869c7701c5c4cd7bc0b67 0x138f7cdfbfe977d63343ba66becee3e1b807d63bf793e358f381f2dd7bdf4c5f1270e3a494d56dfe332cc97f59635d4 (-0x1fdbfd1894c1c481553610a9bd9a6035d70687879becd6b5619a999c230c8a329f24e7e96c122cd2067162df824b9);
  Twice 0x61ce46c9477fa572a2b1318d7ca58eb0efc0b8742a82bb492e4299bf7617352c61c3fc840c8dedb30dde1f021db3ad (-0x333c8396b2535fc964ad92612b62451f6a3bc0a4f40fd39662e246dc2588ff52f902f3af67d1bd52ebb45f4983cde38) 0x18e73222dcff500984ddac0f0dca78e8f02da4ac89074372829dc091fd309b3d239dea8fb600750b66fddb6de93c44b 0x163c1324bbe744973f0af72332f8f0ab07883ed58fec358be4299a963c0cd6d3897eae33e11f184fce870d22fe8c6e 0x95e1511f98f02ab6aa85b91468eace5e3a35fcef0549cc32c2b5db4c1c5cec73bdb177998a87866cb7897fe0dbd60f (-0x623a4b7d171a8d92769a232a08c155b0a7093c5f7687676229507f0fb9faeda47d0416a45d39f797d585a26c3b65a);
  Twice 0x1addeeba5ce50b7da3d54fa232b6d5325f7e872e9f637c55d42b404f84f978451d2e573872464d22ca7f8916cd46d61 (-0x3278ba72f115354da860ccc9cc841833b879448d98ec3f3a5f194987dfc53f7aa3af6ee023e398a46dd550a7e35cc8d) 0x493bab261f71e95dad32342ec09c252c4fed7f18c1f9e727706c0c8ea75eabbc2076e5ac64af115fe02aad4677e18b 0x1ad83a499a71a19b13ae3b3d269f88c0f65c2b16771c9d8a1a304897cb5fdea80fb487f0e6a96bc4629de562bc454a0 0x1a66fa2b2cb87784d78984573bc5ff5c07acf2f474db04841fe10f5c3b107309521ce2dca6956d686c902bafd667b05 0x144f268cdab1af2f5dd0932b2477cc17afc046133e8a428469f14a36d81eeb861ee29d90f5b7aed825f89ac6ada59ac;
  Twice 0xa881c720b239fa4737f8dcfbafb2bcddc0b23951e76e813e379a969fae229353c34d2a8ea736238ae508750c35b5b4 0x125836ddd57e7a2b78db44698b1b31d547161f72528ff1200c89e77160b0ecc6e8172aa949bc59c8e9d1fc43c552c9d 0x103062f9146cdd07829bbd6aae989283b9a594285f1231417d1f7e91ab294b34284794dcafc95753e07a622b5182310 0x41ffbdfede3c4d7a0c857b56cc33d3f1452b8b0eb87e2d4a8a6674d49c1fe52b693ab0f97868b27da8ef585b78206a 0x16013d21c9bf47182e494c130c6b56452a8105efc2099a8cd895fad6be09a3ba3bfde86c5f1d84d7b24439d6b6cc960 (-0x48c4c6d282c7332801d66426a356c2a1ebdedfa3a950004cbb7869c71a3976df5582ceba1976e00445e02a4c5d5ee9);
  Twice 0x1919e2938a19536bb335f15b1934cc4511eebd14a21e78a025da010c11aafef0481f957d1e585dfbe80e20e84ac678a 0xbd7b813575fa97f1090590d83ae9765d6024854bc4f5aa330106d62656a1f6e352b81c92113f06b04e06314cec3880 0xf4ea9776a2ce60cc7371ed8dadfb02a26a269560e25297f4e07fec1d0386cd53b76ebd541eb231693d354546919bc4 0x176e918a46e44579dc732a8e3993dabc2ebee96e24606505133a4d7d86ef981285e020a64299b96afc0b86eea8e7480 0x9948e9ae69bd0da8839b52970f39f13b02418b8dc8344c6283e447f397a6832e1ddf8926fe4b60064302bd19c1ce75 0xd2b6d0460525daa0c6076940f7d8dab9f0f7a2689ddc924e90101fc67606efe702105bb24cf4e8d4086c946d5eb23;
  Twice 0x49a90f8228dae44f67e247c6a40150ccc45c5446d3e211938af67e32e56edb522c7b9feb1469e201c549631a390420 (-0x16dc8816fb78ae17779181431b572debb44d84cf6870284c589071ad41390a9129856bb35118cfd6059642ad56b84f0) 0x2f582fa259f131711b95e67d21a442a8be0cdb5dd2c5855f5ae915c082dc4a40af2458ad92af488622e6a34cb739d2 0xc9c9101b6579d659715b6d731c34fda084828aa22817da3dfc10451a2ffffad36195a8da7d2b14e99411b7c7692a6 0x10d282900a912a5ac28dcd37f8bb136cbc2faadc7de9b1e0b5dc92f14a4a37e18af8f3238b5eeab56046ac0aff434f6 0x21d3a915e62daa4f9882ed9784cf4e2c7eb104d8993d4ecbcb7a9cc5746c6553918332447c9572da81e0d13e0002d5;
  Twice 0x1390635d3cb86aef7541b40002cac57ad740726d87b8b665ae450f099411f41c8d198b55fd0bacf184d7020e60fb13 0x8d9577ab151b39f66c6c2aedb8be94b6243606dd1d57346bb33b9f9b47c1e32982f777024c4250ab191c068b8afb8 0x2322bf2e1fcc6703f10c54e346cdd1fb9d97be8595364333efc8b6acb625bcbf78c3c57c9222b7e1e3ef15f8f94c 0xe3bfe8264106d68d9bbe65edafd3b0eac2b8498869a3bba8e334faa3e366ebb2f8e8fb798ec75bda2549a916d679 0x13538008fba3028345e6924cd331dceaf5864be4934bbc25f40603191337c38822953db8ca41c287c88f0fa4f001409 0x2258d1ccd9ac88a10b24c5aee1c03b42aaddbda22aae8ce6378de2ce52e732483f8957d45b222f876433d20ade2f3;
  Twice 0x1983ef6456ddd0bfd27d43f91a82a18807e8dcc0a86faea540bdd084017425106a08036a2f944b984ed0754b793636e 0x24ad6e7018dd3196180f7a8b62bfa6f2f67088eeb1872bbd2b8b24b1a8dd1273f607b7d292d0bb998f4fe0289d7620c 0x1a4595e1a569852da7246d87bfed85082cbf78d8936e8982f0187bd7eb27ce52aef470e5a66fd861ed7ca1cf580ecbb 0x183632ad460ea4823cd68b07a06d3ecd1ef157b540d3edc48cda2c62d449503c4b08c74939110ac2760ff37797f63f1 0xaf6132ccb1be4edee925dff9a42eb28c8cdc742d27c9dad2294b3739f8bc26c98d1b52f51876b9140454a8bd2b591e (-0x18ebdeccfda525b9d472f89264680df30468561b4f4db9b11076caa64be4af97db4394d106a3668f4b79e4bcd76f3d9);
  Twice 0x1170a34c4cfa0041373287015f9cb34e93a27680c2e486650c395ff9c6575ca73d637b208fc8c2bbee8109ff4d4308d (-0x3ec9824c5ef40dd35b278dfb953ad7d87d7b8ef4f0193c17aed08db70b57765e6b6fa26feeef73eca0293191ee086bf) 0x6c83a69cc5c47e9020969486e7b55c61537ec06829244d59a03175ada47a7dbc93ccf544e1e4536a2c4d8a87cd3cf0 0xb4fb446ed106cd6c34ee16ee9d5c6e955584e90ed46c6ebdd3c47afd352fbfe5474f09cb05bbbb18f4f9cec7ee1743 0x169ccf13429a9e5572cc1e50116668ec4b93ccb57979c3cdce36516d6b2f4ad6476a69962a7ad0c3f788e617fe33db3 0xca407b9aa3dc1ee5f4d698b6bded67a83928345c9a57c37292ee06c8c574bffc7aee5dc535a5ab98c4a99deffb4bfe;
  Twice 0x2d842cf763931998db7fa188f37019b16ecfc1452a8f2b9d685083aba8b2c41c0071bea8c0061e4f56e571afc73b24 (-0x58e5b94a46c7f35eda59e84d3741b4ddc2a78005706e02a1d64a7203fd9cf1791988151b584cc67f154a5f80046a8) 0xc3c226bb3b7fd4241ca623ccdb92372974ed9d2ed56f5cc3341aadb19928ceacdb08d87353f50f65dd9f53bc8214ff 0x4d0c08f03dfedf6ff2200166339ab1aec32c1bca0750e66f5759abba379ec5538dcca94d668e11f2fa1476b850e31 0xfcf916f1f1f48839cf6dacf469a1c5ae6552ac729e7cae9b60ba00f2789233fe83ba6e17028595af63606336effe1b (-0x93ae5ec99794a33f6f5f4d7828c8bf958c34e4e0f0b006b85f4356779bdb58b4b105d3735136ad7b7b01b02b612ea);
  Twice 0x1395ce579d39b40f4126d3371ef83315ac55ca583c4186a964189abd57c94e5be7b74dc7828a28c93e6bed00cb1983b 0x654bf4ac14190279f1a31da5047c5409e9df0558b9caae2efb99eb4966aa4c520182cc5951c745f27765aaa396ae6f 0x109b18a2298de2148c4241f9c46f37ede5f834c04db8b500c8a45f9eceaef3602ba984cca6f8dc47a0862b32d056b86 0xe43e1defbcae768520b10d687cce2de33c151983d06d2a503f0c9e90cadf67b9f6f0b2c33154ad35b8b3febe128815 0xb3598a88ae677ada293bdcfd50211bbbd091e873f665f0ecac2f4f9975c425956d11508a44ae0be481c60840dc9db1 (-0x32f034eb3c80039d5f26e3cf2003bb6e34ddaf4bbcfab45c13b052585dca1cb137022c41e9fcc717458ac588c8b4e9);
  Twice 0x790f1c48b63ae31149331165432629893e583f41dec81c11998d4168b6e4ccac3e8f2a5a8b986cb6121ef680001d1 (-0x1e5f0d584d93498eb98df23d4188bfc14a6f0f7b91174f78ba909800f80bc9b7ac06633a580627857595b5203bb016a) 0x235a2c418d29e220225c088c60c558cb8de31523261b6259bce38ba15b8319b04056c5cf10fe0b50f876868d330070 0x2210645e77e24fca4a036844b9d00b8153f711550fd006840c693c5ab5e07ee0e381c3c04031f2104bcae8c57525 0x1aab02c95e8d42060e2675c916323b835e0afde5802c84f2f753900cc6275bf183213c6f1baeacf12d76284d362146f 0x40d07412c632819e3c0e95c4eb870ce49259a46a40f81d3ee50ee56c029696e870b0f9d0a6df108c59f8c28f5d0d6;
  Twice 0x18a7091f3651f07dee3baedd63902036b6b6cddffd8762a984a1f97686b75183c2dc444cc7a1dbab955160e90aadc0f 0x305acb36b6f8fffdb9d805939f5ec72da5dc0c2c1b6eec719f3fb5f5fff9e2aad73cf2f7f5299a86323f297b6289a02 0xb5d037277f72982d410da1f5f1e2e6db1d7c78dc4a43ae13c83d0638be703671a8721d10dc493e7991ab73ee281b5b 0x169a0f86bf8634415309541b62bab8c8816e5f179d5a010648e3604777ed5d3d885cb39fea78856d20a36bcd887aca6 0x10a4689b948fb1d47d753719c37bca4e332d058a88cd9963f8ca30c8043488512617ab14f0c4f22480c6d8843414de0 (-0x864726b76af6ab38c5f4280367c74778adbd0d11aabc5579a0955bcf884ca757adf55014c306fb8e15d60a782fea14);
  Twice 0x2d498123899d47ef388d2a4b83fcf0529868fe7dda850899414b674eb339866d7c036eeecb46a32027491bb6fd9c6 (-0xe2ff8ce2d8b621b37a937ffd051a02a9faafafc6cfcdb9f615c34105446a54c44c38edda01c36a528699c3c2cac08b) 0x17ae842ee523640a49da1faa9774e480a2321520d49460082b025bb3c1738791f7b62c8b9e5b66ccb0e8b9e520f148b 0x4c45e7cef87e5a70fbfdf08efb993703300395c401b1be12e9f74919d050fa8886cb15794bf02b098cba895f9e3 0x71532404175112c538b87a58adc6a7263021b645d08b693b23a4dcee2524a3946667971f808326965a704a67d963fd (-0x14bf29e37b1abdd5295938e9b6db7f89b2f2f441071263428b3d5df1b7f8e22156d2f827dd1c44ad25aa6d4c91cfd);
  Twice 0x193b1aabc2441b3cca523b2b4d5407bc795f1a774877861af5af59a6d75cc0794c99d3c0340da2f0cd7817bafc57fb9 (-0x3147476aef8e9ebeaac00c71c451982230f8988e8a7b862403bc532d1b72046d513fa9c0c329dfe1470ede7cf0680c1) 0x1ac4bed47b2131f4309a6ef09a5ef1f757347ba4c2712026b2637658d481e0f29e61613e03b46ad259177e70fb1fc04 0x17acbfbc92ac51d327d4f177641cbe6d59df922a14d8882b2a56095352af1f68f6bcfab12fe967e7596fb9f0ca2ee97 0x2997ff8a72a3d02cb86cf58fb77f541f069133de8079810dbc94f902d2332239dc448fca00b13b6e2a7d16eaca2829 (-0x2e57e31327e50ef80742a357baeadfd8be7fe09e04739bf409ceaa8ccd56b69cf9be06e5a93ef5d194fec1054ed997);
  Twice 0x1723d24f8986ef011ffeace70d26ea3636a2a1464243be60bc53968c8626776b4de7a588223531d8708619fbce2a420 (-0x4b788ce9acd132314ef6fb55153c327dca0f964ea08179b48b1dc031ecfda38f0b9ccc6ab97479f4eb78c15f27d0df0) 0x778dcce223af868f52daabf89307127202c25516da22eb51c1cba136dcabbfd8e7eaad86fadeb693057c36af802657 0x13e9d5614e9d450e95693a8e8f37a844aefd6520e825cdbccf7f567fc6294980b6454149e91cf2f92dc9d7062d4e5a1 0x83b5cad52a829e2de659a2e41047b413049b661beee4034735acdcdac1cb78eaf999517781a23292c3e36776db3ba1 0x109b1722adc625b43c396d9423cdaa08cfc81250d0f5dd7216372b4b170c460cbc5936e3e3cca2546695b8a403225d6;
  Twice 0x187df4030772c236306e9638f974c95387fbfb19973fe8c9cd9f431aa2a534fe0faf0d14964feefddd92d0f881e3d79 0x8c44e1cdbb08446f7918037256e41faacbd0ecee193651accd91721a79ce7bd7be0245c264eb51a756ac3df32b437f 0x1362df20c140feedbd5608f2ec0f5d43cc2cd3b6b4dd0aa426ee05d61a7c9c0a1afce7a4fdff322bccef51cf2f65949 0x164ef9c6e0b0dbfb931444a3086aef7a880ad49ff48b4a42b15584c3181d6862487db6d31f40aa1e2147586b5283d3a 0x1471a031afbc81ada1b8151003f17fc3a2c17c4836ea70f174bceea3f9bfd7d17f6baee99f442eb55be5226e3e259e8 (-0xada1868110fd433bdf8e961bd0400e8a0c3f0a13dc5f3883bb317e7e6a345129d3bdd977f90cf4c819318ff01b53eb);
  Twice 0x1abe85822bba651ac01a866acfcce3a8742d1f0ba5103f1846d1d4d3f02f895d0caf1b558af5ecec71cc88989ec8ec3 (-0x14360d9a03f1b3501310e311fc592a275e328133581466bc43cf94c7999453f6b72a1826e0f4d2d38a1b92d7fd2d03) 0x1355631e422b2899a86b2093f1a19cdab38618e8971dae77e38fc29d1f35a33c68331e69d4cc5e475735097e075a520 0x1a9999e193cac71c92b06291c5ef0ea4b7c4c27580e6bc4f606682f6314be886a606fa418c8485cd7ce0d4876c290d7 0x4e19dfb809de46b73fa167a9a0a2a9b9b50224180f767b408c094a2ad054e19ea18898928b02c552ea5ae267c7bd97 0xd6964fea8e6ce4120bd8d50f760d0ec41957d7c265d1fd18803b66d0253d5802596d02fc563b4cead5983719e1bc;
  Twice 0x919f5d6acf7f822bb09c119482979164136d52ffa62bcf9f729034978280ad5e8bc003d8e54f312a3121eb6b8b4e20 (-0x2665ff533036d363d3c62c78e35790957f2ad64d7ff2effbc3ff37d74451eb517d7df480ea5d64112f54be347d56240) 0x18405cb9021dead21ed6b184a38c21ac5fe0f8805104ca3b1de65d17626766edcb9b274498d8214b58c52e7bcc872e7 0x314a3d26f5adb5b9015fba1ef9abd0a2162a8de7a41d9dbf7a7b58b63dff96ab8a3f866aa8437987f5b9c530e3c6d9 0x13d4169f7e8498a7816c7418533847d36dab69f28b1bf2f782ade9d0c4af45498017b1ba4e1abaf0077dfa911bbb6d2 (-0x1aa2298c0fc7d07401594f832378f5c6e9471378d78b3cd5dab603f96cae7f342d3c1957f2986b8a8be34d269ccf49);
  Twice 0xe6efc0f6c0c441a4b3fb58c6e58beaf805380996b2c58cc2e59d8adde54cfeb239772b781c3a2f4dea89fa4e04e13e (-0x2c5484fdb8102d4a93551bf745756e436988cc8bfad7b3fb11136595f253e24f94bfc63809d8900439e8d4cd0adf39b) 0xb9fb26359c42f61c80a509ad4a4dddde9de5e3aba361411a761ab620ff3200917ba4de439f9a028c3b66a9a6273b96 0x7bf62838bfcd0f1a38c6602bd04b1f4abd8ca7ab19f8461ab0c93e11c472e39618e57756c88b64f02f35f87865e9a0 0x180a58e17b484886efed68936fd5f5b7bea13d756997e3865731fca83a3f1513474f46e0f94aec2fea98bfe80bcbb4a 0x6c738e3d0b83a5baf7f2fccf39cd62aeebe82617eb1f2c5a1df52241626d6ab7b53bae99015767819ab4bf25752482;
  Twice 0x988d9190104c4e8f0b87d0c67d24d1877a7da868ff0bace0026228055217804fe62e91ae904a3e71dc06082e2e352e 0x1f9733a996bc0c02662c9de794cd5519d64a28b6bcc5111290bc3dad8288597b0d23bbea416d97e908a28517407eec 0xaa752961ec34494acb4b96bfa54c6aa0d638b8e1d3fd4d3f83b5d60e1013dc06710e15d525f6bd47e5de19656571b0 0x3617e0669c3bd7df5c89f2a77ab3e68fb8373555738c275dca037f2d28beea52966ce0fc29185a349b72e6fde02b68 0x607945ba57610f15383e10468d04b1e8a4139605a59e0f218563a4f77cb816ed54a64397f34d19fe04c5db7a572aed 0x5811f8a7b25c9aefb5687db97f9c7333cb64a18ef6f161a8df0776f372c113319cfebb0ac1d1cc4b87dc361deff1d;
  Twice 0x113eb41a8be22c67c85e6e9b7700f84531c8c1b1bf0228cba22d5e9da3b6f2d0e8dc2f08bb253c5ae33f35fe7fd68b7 (-0x4edd4058d29146b261483d4eb4cfcb0a7f4b4c299c2b34a1f7b81d2e3cc3836817060f6b844ffbd6d85bff0c249c2a) 0xd134a5331a5a42f5637043293f4a20b398ca438062df17c870922c16ab9877e5e76bb45cf4e6b9a03124045e94b156 0xb0f4afd948685ec7076e10a9ce9f8001c4b7b3e040716de496fe7c6d7a1c4a5f71d32326539eb9b39b4f6d3d2b9e1b 0x4871c3120e366595292464c1b3b9724f799eefacf0d71d6c69a832bb2f93b781fe3b085280877f4e65b154cc77b1a7 (-0x18d9affbba201bded11ebe48c6d67ee367ab35a3e997b473d9a126cae6edb582c39330d597b38941997e1e4a7ecc3e);
  Twice 0xde53f0a6a04e5665b786da506a8ffb6f5ee01a24c62e29b1d2aa5bf98ee2a82bf23ff2fd4def74a8ad8e8ec43ae042 (-0xe650d3f677566da8bf19c6fe3430f965098604532fd7c9e18191f73c7e35201bdc80f0b75bdc126061acc6ee904090) 0x53e5adcbd43bc8a84d29a38c263f1d004b870fa1f3418f6641fc0629f6a443a1830ab105fc2d5587b55c1f60e2a740 0x72e456bfcce637e0fa3155653da56d1842c655c715770185c116abdddb967e16e0ed3b19823959338e91ff544f8718 0x104d768816f10bb25d4490b9940bf1df9f1431507622887227e28ac39372107b5a210dc729f40f76efcbccbb2529ab 0x40c162785b60c6a2c9286c3ce2f9bf72c59b9eeb12c4af0cdfed1f2f86ea4b3ddf46f63c421be7bd3e8026ca18fe5a;
  Twice 0x11553586a058668debacd769dd489bea23b6c0ff381d4d30639a129238d435d85e462d1cbc13c41d2ed6e90bd2231e9 (-0x1c106a7e6b02179b053f7dbc1bfc57ef890de241788d7a1856c2c9af798dc02b25442a0ec229d5b4fc92bcbbc860ba) 0x16e12e08d2b431f5559b283ca321e2fc261b837bfd44f5ab7768be978a0f2e1de80cb41c17b9749b44797d442a8193d 0xb2c3bcd487e4bcdf1b06ac65a91be3bae3c70da4352b3cb38a55946229ea829a94c8a1debe103ad170945051319e54 0x14506156e9dbabb39ead131f667e24589b3d957e3f6b835de585f16b2df4b9ccf02b46e0cce4c0cad821974148d77c5 (-0xb5e43d084b058410d5d92c9ecfdf22e76f9e124ec8348f2068b18c61b8fe9a0b080733f611ae588200b1ca03d2cdb5);
  Twice 0x10af345f425911b9eaaaba3bf97f289b5bffc8e9ed17dd499762c220b743e7a1eeb944098e4e33def453a335b911a1e (-0x2131cfa773529e1778c725510901e78510c7f513daae3b0cfc060fbeaf975df17fbe7a3c0ed6d4c9e7cf7fe7b00d36f) 0x6150ad13e9bdefa5f46708fe8d4767234afb869e4be080634cdefafae53a6b13509760bff850cbf339f07d7e42c8a3 0xa5a3928a1581a6f17bdfd3617fe0a337cd10f32a02a0d1b8987eb9c8202d81d7bce4bfe8df1a773a441a9de9132067 0xfcd53b22c786a0720d9ec2b10caeee1fcecea6232bcbd3b11a5560f2678eb8374bc56866c90d29804a85891ad7b542 0xa6c2d00e0fdc14cfed10c6488d616c0154b0ea5b06f7de5311eda607cfc2626b4e699f560eff4838c940d783e3e905;
  Twice 0x18fb65c6f28e0e4628dc668bd45fdab4fac5c6c0e8aeee0f7e0b3a48fec79fcf654cf2deb23869d984a80530b13d03f 0x193c36fa447d7ba3f7940dd61952758ac4438609fe70cf4205ac90d41e772a7d15817c0fc9974e3f36db92ec0a12f21 0x14e91e08cf4f49ea0372821a78eb7197d98c9eed4d263682cdf3b71f6573224e3f21383bede8764a087caa56fd6ee37 0x1735c88921037226f1f507a9fb0d733fe6577375759087c25939bc16afbaf045bc482ba4cf931f024e012a79063f004 0x1a365f038ba503103d2d7e1de4e6f45eadfff220bda1e2bce05b039751e202f8fcabc63d04abe921b3eab9502fea20a (-0xdc6d380ce7421e96f9386dba82314a9fb5478006c67ecf2aaa8fe6fdbfbf4122daa1936d2286805f1acfd315cfd6b8);
  Twice 0x141bb28cb77a4fdb65e797d93e34e8d69447e1e7662604438956ba0fbf517c2b518d6306a8dab925a69a3a432079d93 (-0x9946ef67bd7ae424f8ac5abf01123d1a3de34a6deefbf74f234f4ff0172718d721a16945ede3a36f56d4eff32093f7) 0x31224633dca44460e2f26ed4c82122f843bae4da1b45bfc627e89f5fadd0319ab8068deb3cd9ddc501067f1abe41f0 0xf0987c41e6fc70204282914fac947612cf2be6ca44a8acaa853153cd81e88800d22a58bf32b62af4573455709b840b 0x54fdfeccdad88a67504764ee0e6c7418c6aeaaff6c389f07936415d12ddc96f095ef129ce048141544c4753f595b79 0xd5741c7489ea4bc3a12ed00345ad4e0ecfe560de806f8cf7d27853278d68fc1f56ab7a934a21247eb2ebf7506b7a42;
  Twice 0x1a0cad4a720a76d5c81ac0e47cb0ec0e6c8ce7915cec41db3261dea9ed20b82794c18253f715d13a1f25e3f8a1cd5b6 0x93d792b61d85a94bac0ad00762d14f818bb17df150388c415aa1efc136c59b004ba1e7e37de73cdd4fe919280a270c 0xcfd10c63c142b7bcd7bed43e1ce50f14fdbd9b0185060e28c42eaf5a18810362c6219e919b6179ecbb79321b77fd38 0x193c6cbbf5ded24be9df08b628f9e4d35e0a83c6ff43c6fc300fd8263a5b5ad043aab6b7aad6dceaf676b0b5943dc4c 0x8e2d43f359cbd4af10f3225fa11be1cae23afb78a6d8919afd6c3b68cba79f41f4d24f90240c9fa7d2d388dadfe005 (-0x99ba308592808f2c1448df860f2fecfa58851abe3757033a20f9fccac339d2604b2aea50b19f4db7a34cd872f748ae);
  Twice 0xd036b60d1b2ea7558b1723e6c9de144f06125c63166504d6e0fa53988dc583ebd8a8b4753d5c1979ecddcc0e31d39c (-0xa388ba31efbacbf2afa2d658d0f28d68d49dcdc68cddca96e436bd847c1fae0368408a0fc3f2fb2a7bccd1838bf0a8) 0x8f678593c9ddaf9d3b57730ab3a00365ceb3ffd79a30c751cb90f16d90aa155fa0b0fef59d437eacee23718e07297a 0x64c4791b7049f7ba5360b78b689d53e75e84aed08e65a22976e6ab72984870056d38e2de9d42775f3c7fa1fbab6326 0x904c515ad87add84f52a28532d932712b29050f6791b7320db2311ec8672cb47934fec1e1e7e1f95a34cd1ee3a457b 0x1f2c4cd128370f6c360387823a1d37b0c7ee09aeab085fbdcf6af19063fdd49f40891277eec213c954d524518a7c48;
  Twice 0x1a408595d1df2ed24d8307cbb61805318303e8ab4c51b2868d3c93406c7d076ad02eee9edb667f93c7a516ac89b34c9 0x8a5b9d7e3ae874d611fb8953b8eb600f2f3e04b95781a67ad5ffeb2b901c084c6cdd183449308f3f458dac2c8028ba 0xefb6497c9990ce2853f52089322af2b7d1c0b195a9b286275c99a2ea84866eee1aae3ecbc9974a5ffd4e6fc6815d83 0x19a14456eac7d5d4d5778ecdb12125026f794b1bf76583ece841b706b02a05025a6e1c1c9ebe4bce608b3b423b8955a 0xd68fbb193eca99003a38a0331802a7bd64f97d191b9fe7cdc93db811eacd773d32a507c21d795afe29491cee7b5124 (-0x5e0686b5da8150c58ab3747ba1f8eaf222f7a8490dcd4982e3032e31c4b1a97297f65094c976c047130a6090ad45b0);
  Twice 0x19cfce4a3b26474f07fbac0b17c51887dce032670fd1b8e0eca6008ff8508a41aa8f0983ff95d76c5a5b8f03e5f15cd 0xb3e23dff7e234cfb06ae6bb29f3916c8ebb95299f35d567a2fdc2f51a4e3816d15abe108a1e31b57cd8e9c8fc888d 0xa9361ac586d942de73adc32646c968f0ab5331ad3d34bf828fa095fe34e6fda47d285388da1d6877586a5835d1db79 0x18c705cba840c493c30d80f1a82a2c0cc018d49a97fcee65c89614348206cdf90021db442642cb1c2b13b08b92cafaa 0x106194f14855273528cb2a48902946b1ce571e1882532d5077389c30dd1e3ab028d220f3d667be0ab91acc8a94b0b9b 0x43acf807325d90f48a0ceb589bc44e6352d284308d5d6e7c1a6091c27808dd339c5357c8f14f3314b7abd758259743;
  Twice 0x144482e5ea081f35893ef145c156fce5e30cc8487c5d791704a1df22eeafa722791d668ba80997b9e15d6ab2c9e98ed 0xc374a6247d5609133480ddf45a5456304864f05c2d5c286f03a0160d33ddbf106c1d42073fdf67766265fb98e0cf6b 0x199d2da828041d52ca186e251900c8c7fb023cd1930867312110a3f95b4e4b7708855cf24e5c6870372dc67c9aa170a 0xf46d09956879ffd93546f047e6781fd42d60f3f7d050327debad8b3ae2c6c512a2930778055c5d9197fe5862987d6d 0xc7d9f627ef793664dd55d1d2be380b94628510604a4a0eeeff40a5f265b96fa150433fb97a8a9ff248d39b6135fcfe (-0xb55c3ef9f837375417f3d6b4857c13544cfddd20c8fed47776987ca9054f30021c2e51b1954ffb6c254224fc8c45d6);
  Twice 0xb8d3cef4e3c8c7fcae6e8ca6e1342e52334e8d1fe9c929436f5ca9205400ceb0e98d3d8385ed1660125178159d824b (-0x3e772be5656b729dbec888fdb25c5c88c325291779316e896fde7fa8a1a3879fd465878e0f563334326fc1527f03058) 0x8f8d407090af871a3fa992b8814d2424abd3a9a262ec1d142af554e3aceb7a01a9458d94d217e2caadd07595e5fd26 0x4f670bb42cab8ebf87f53f9e87cd4985f759c6393577787f68b7b140824d9e1329570acae9ae12b0e20b54371416bf 0x143cd358fb1be7171d0065408442d20f3044e43d229e3c37c108419d4540105a89c8d3fedc3ea0a1fffd15b96a085e2 0x7264319e9110bbd8ee3857e218e7fdfb15a2034ffb2ca56fc424d2092aa5981a2b608892d30235dbdff58b5c96daec;
  Twice 0x17c06a886b724ba4ecafc765e7829df53f8c782c50087a8a56770c877197bce23fa09e47c0b938f24ead97b551e1723 0x1ac57a6b65c218b3c410d7260852cb4341ff9ea90dd4d6fd3f267232a227a6ea0eec9c9f139b5fe1a1f61b427fad2e0 0xdb72680add60d4a7536e5a9312165ac147f2f701ccc21bb4337b2fe1fdaee48b6906760dbd24fd71dea51fa3b3eaab 0x14faea61b36f0b5e0967e6ae153e769ee3eee37b612095c0f94fb07176812a6aea58580a2781fa50f44ca7ddccb69d2 0x520221bebef955600ddd740b87bf895b353bdebb8479f61300377b33ebc029224f8f65fc390ee49736480f6a98bf54 (-0x430a0a695a2cda550551fc44382ec197a41d15b91641a660cf956cfab9fa11922dbc320cc8a8320f268dce634db165);
  Twice 0x2282f99d6399731cf527bb9b207a075e608230642ac5b5d8c980a02ff4b4a68038a7116603fb4673b1f9a3ace973 (-0x14fbfdf92fe4912ae60cfb0c24bfc1fa8f3cf2220a81d98cfafd465f698e8a5e532966ef350de1719ee73e36a5a5d33) 0x13b7c85d552ef6d6f0bcd6ff87cb7779b09559a69ac6713e09ac387ea19422f953baaa0ae7df1ea547a3e5e5c31e1fe 0x2c4b75c1726b2fb32afc4da26ceb0dcf25dff71365937ee52b9c3e16ff2ef0dae2cec563cf987852b55d0d255 0xafb29d8d38e6223fae7ae98a86dd3b9fe116fc5410cbb04744fa1666cf29efbe839d7cfa20898285b244c511d11e7 (-0x7b43a38fbd7a879b8079a82433ae5dfd8e7cf8423739b3c5617cef1e3e0ac0828fe4e8e4a264559754a472a7684);
  Twice 0x12a1a041cde235c11b812221fd3c423355da408e96f1201e992a68e9814d05ec09f617875fee9f59ace1aadd8906f2b (-0x2a6d27b7e8597c2a9006dee2983b17e870bd11126a385289b6a54d52b8624eba93e03823a4f04b1a9435af2270b1272) 0x880efd3931e31ea648bd4acf809ae89c276a7ba53b9273badc156fe26ef3c8753e7abc7883c7e13da9ea21725dcbf5 0xce8d6e827937d8a5e1c2c5268bf65140b2de6a75573f65875908aa4a5e1d1c6532979b902632da7c5ea255a5e4c148 0x38a4acbc2e1744e9480b9e552576580bfab36a812c43f2dfe14518f7c0996761d1339537edda173f91aa0bd97a98c4 0x7c5303ae21a59b758dec9a94d193dc02aebd82e8271781f3aa708d1a5451268b8475a68981e6a91252093f0ea5efd8;
  Twice 0x8e73c831d3bc03dec20af6f527734e6bc6366a3ff7353404d64517013f3c5b4b6033c86d9f1a0c0fc75ac08f810a68 (-0x5b931034c53acf2e58748d358a08f95f827a91f596798916cf86dd9016b178062db57ad3a0c4056e49feb2de6dfa2b) 0x192effdb8698ffc17396be974886064e409b3c65f000ec0781885f1a677cf2348cbefa47b9a327565ba735275f3c3c5 0x2f2ad0472155af66b80d0b63e0c867cf2044c38d0c5edc07ca2837393d0fc57872e0206a39fcda4d7f1f16528cee91 0x27c7a6c9d2b57428000ad67f1059f93422a155d7b0f64bd7f3a256cc62ebd1030b12175db4d3922e46159ec61ea8fd (-0x585db42b620b16c5c4a99d2dd67aae90dcb0e82f98f829c40dace5c80ddb1733c28716164245b4d72f35b700040e41);
  Plus 0x142f0ca05a2d5a6dfd4edace7e6115da3e77104781c4fa36cb7f92ca823512f2a2de22666ee046bb1a6ed311c65bb51 (-0xc82828650c4b66db528a3cc340aa22afab3172e18c3e8da8c0a87df2679bc3a7a7b506303e9a1e5ee3f1c88c57245f) 0x1a3523d1ded47df2c82ff0ac1d06679d0a30c04310b3ded56076df5ed50aed248e03349853d83be0d85abfcdf6a823e 0xf26872b2eccaa8de9c7f624bc73b320f2cb0e108e6e3e015e98e2b6d9ada7745a6d2ebf398097977c307ab077f3faf 0xf3ffc2038e5896d8a8fbbcf0dba102335528d80b09b4d2780714d320d330477dc9c61a8c9552a1190ac52d5dade30d (-0xc4c5109e748a7941bf679cc6fcddb9f6cfdfc3e911615a46da6b7aa97f555a49c010f72bf241cb9371698a13e3353)].

Definition gen_x_x : Z := 0x1a3523d1ded47df2c82ff0ac1d06679d0a30c04310b3ded56076df5ed50aed248e03349853d83be0d85abfcdf6a823e.
Definition gen_x_y : Z := 0xf3ffc2038e5896d8a8fbbcf0dba102335528d80b09b4d2780714d320d330477dc9c61a8c9552a1190ac52d5dade30d.
Definition gen_xx : list step := [
  Twice 0xf9e81e731830b99960c0aa79d98b249446a6faf30acfa241c445af9185640987207e4c7635806979f387fe1712b0c4 (-0x3ae9c3031184995ebb7d621f8b6f933cb1ea2fe1d4e700d3ee5441258404e96d31a3261330138de493fee8596878924) 0xb0a0b3bffe72bfe05c8ac4412c1dce1c99298ccfd032df7f2f255234955843957b514456fee34ebecc5d6c192664f 0x9129ddbfa98289abee6d86e9816f9cc7c5209d3fae2816139b4dd74f56c6a844e63e613fb5a19a231dfc400d36ab45 0xe90ddabd26b6b0dbe6afea8cf094fbd2830cab187a751d4b37481a05898cd32910fa1d309430a9f6063e86d4b25b69 0xed28bd8679700c6e53c8a0f8348d79a7221dbfdad8217b8964d274e49bf0b1061d0cc5a8ba7c4e980529d5aa177486;
  Twice 0x1ad7841c385df7b71d249d30075e052b83c57aaa02a9aa6ca880f2f723449c62b1b7977609031de5eb6b654960ddbf2 0x1d06ff8665af8f95270583851e9500b92a826241655979a40b3146d454c5f62f7648097b4117b2362bff0c7b3475361 0x2ca65d2f16ecb8bf92a4adbb9c8cb5c34fc0d158b16cf41448395c5e6790ff97163cff43bdb39b854975af7732e0a4 0x1acb694eddfc1c040ed61bf51f1f75319d000ebd0c354d59b6f530e92c1b0f4f0f9dd649996c09fc40c2bf2b1344382 0x10cc1e55ea3dd5a1bd50009d60c80c13865a2b948781d367ef7bf8d246faf21b1073ba667fbd740a1cdd2461fa1a4dd (-0x218d29b75a35f3b9dfcc4e5f0094dba1782a23b849c576200823ab29fc151054c02adcb302b3f720a481c0f2ff5ba0);
  Twice 0x2216a2c0f4d3c6ed761b59e723863b4e75880964170074c614e7294ac9dd9434cf01748d7a6fe976fec79c32ca0bb6 0x1cb00707ddef174a73a576e6af7049bd6419aadbf576ce5ee3a307c99d637c9061536eda93c82611a977bc67372d0c 0x1ab66d5b0b1806121de0f0c99d2130a205046598f8f90d8ed4c85274a400be12d4a0c1bf4913e048b02df7f48aa4499 0x2b371052f439cacaf3790b327b43db54ec15e5e30511b7742c5671866fad3b78af5ed7c8851a29b5ebafb5cb11f83 0x13916492204633d58d81848cb469e8e92338ff1aaef2ebce90e4c6ae22f026a7182bb53861420147bee03cb72a6c9cc (-0x1e53a5e164a3850d17d12832ce4c63d3cf9986efe83b796cabd25226c04d7aa4d58ca001ec0e1ca46eb3d757c705d7);
  Twice 0x9c1cc499e250e811c2f09c44c853c11f72a4dc3c517383aa90dd9456b27d0a4e644fcd5aac6480dd6c7d9e2fa3ce0e (-0x41691c93e4cd796be804bef992a106c71e36945105a4281921b740a9bba6ae09d4fadd3ae9bb2b15ee6dbd6dff68803) 0xe75f83269318afd4ccbaedb2bfe0fba9611bcb9ab5c10706219299912b437592c527010c390b8f1bad15e6df1bc9d6 0x38a59d0ee469f6d75002eb61087b9c7dfe57184fd93e7dd0b6431f9712cdd87fab42d20b3c3b5ba239bedbbf3e35bc 0x24d121f048c2c60c0ee94d84d3324f1b40a3c67562981752855290e4164e65f001e8a19e5d317d8ae06bda1aaf619d 0x4721848249d086edc8435813bceb751b39ebc8ad7c154be100a24cfc86e99806aa0d8395fef25a01b3d53cd6667541;
  Twice 0x57791ce23cb3b13142ca1627d1d53c6f8725a19231049800357009e0187deca87b0cc9b0b854a36630f317339bd61 (-0x1745b35f8b795447b740ba94233eac67e653991ec63426384ff464d167d94c25ff25ef3689309703ee920f75ddd71b2) 0x1a25d014431f89b8e7b8fd65cd0e75197fb7eab18c27dc5d85cd7ea122d48933a47735c6f6b6b478d882ca8d9f00f4b 0x11c8ed44e7ae0bf55ba21db8541776e104b71f7a0cc39140f646d3a725dbffc84b8be291bb49d724f1d66f22bbca 0xf5a26f48158f3770e8332c6e9c0cd34d7291544f0d167c029a441831fba800af82833ea1c6a4c8fd589168ac7960bf (-0x2604bce5d2748ea200e55f0df0dc0f9be8a6c4680facf76a06c180df64b869b0a8009abbf72706bcd6dcd8eeb74b1);
  Plus 0x161a3601ca6ceb781b555f65bdec124488af1ed0f9e6505b57009a99a20ab7df564925c1701f6d85cf500fd4f3e73c0 0xc993bbfab4554ed1cef349bffdbbda3abb99a438a131b4a218cfd88baf87152fb1c8039cbaef7ff740fd401edcf2 0x1857865816ea7f186b9728a8af3234e771c44f1a2f57454298a4b3d84c19105c40f93a40f489416e5ee627791459f72 0x122aee9706d6e8cbeb48c22878c99bd30bb1f934d7aadec338fb1d81c38036c0ba65828872e6dafce10690f7ab5df05 0x13040140f9aaf2a398f29c23c6c57a18830a16e18b6b9efbd6ff9109144a56737445a886484b8bea8558ddc18ff3f7a 0x17bfdbcfe9e0b4223b4dcfe1f14139c83cb5b0f37c9154dd0daa991399892d20f668669078492d4a9a24965827bd87;
  Twice 0x181367ab5319c5e5215826fa8912fefd85794225471274e7778f5c931198ee2ebc2512abd919ffba7bf62a6f1dc98cf (-0x200e3a348a09bfa31fe5c251a019c72dabf697e743f5aa4013507c5c0b06a5b525912c861acc9fd3608528f1a6ee500) 0x69e9194ba84a779a3bd7918c6758d4a8f1e9515737552873d9910edd9070fd28b108afabea8fa7a0ef76d86ae7b68c 0x158e86c1abecac018f96dbd01d3e4fedf1c1445f7154abe80c3dfdc9149e3a9c4d6917021be2a2337aec2792f8b81f1 0x9a6f0383f68f875669a7374cdb69da947c4ba1227d88ad14e7c37c54bb167feac53598018f931968bc7a262a93ce85 0xfde40d707f7faa157bf812b7ce648bdb820ae72b2b215d198ddd87e279823bbab5133429f75d9d60ab2e8e304cd3fb;
  Twice 0x142ec8505b9f045203470e2a2616e9d481a3f9130129afa749aa57359a877235999661f157461ba416b85c5791d707d 0x999d7dca2369a295718f4d47f387b9ab0bc58ca6b2fbfc4c8dcb27507c40c911ca3827036119356b53247ac4b3f832 0x13f1157248c4024b2cca8ee53cbb97d03bd40f3067e892c1fe89f07aaebf4cb202b3655a9e0d6d0d63ad1b7b9d91359 0xf26209dee3ec83bd02a0448d3bddcd620b7ec8162fb55aa16b6b9f37c1237bbfea04a717073ac66fb01ab248171c98 0xd18d238dae6b47b01323be3d845de09ce3219e12ecea6081a6c443cf116caade989c7dbb7a63dfb7dd29773641cf01 (-0x9ffe4b26bf2775b4ab2c8544bcf6baacfb4f0cebc373236283012ba3d49253339d4ec6ca16fe0a73356625ed829d9f);
  Plus 0x128f0103c860ee9a50c656b3c6814129b6cc1bd5e63c2830afa0bd26198cb135f0954c51e232d18a908c557c448d4f6 0x453197c5422d2f4419ab60ecc65c0bfc7a8d7eac88b92cdb0cc6e5611300d955fc84cde90d37a7c290b879e6922002 0x71334239bb51cc754537ebc99f92bc68e89bc0d2a0fd1b51ff04331da9f9506bb9635f17d10859d42664e4235fccfa 0xccf156d889174c5a226b6952322ab2fbac7895ed1af8c88a664c36038c6199d7810b24f40de7025245d36c6ee4f9d3 0x177950acab17d5f11fbcf94272c42e4f69fd3f5eb01517824aa3128a2a5a3687854f279ba89d975be6a3b2e809ea24 0x8e1651d9cb79465c59da6473010446f012813cf09ff5e9d081576f410a1ad108134af4094f44499945700a6f3c9225;
  Twice 0x7e32b5bed5e9d6e6bbafcd5ec031eec982842c48bc33a95a607fe0ea7165669473de09bf793ece4b757496185d4e8c (-0x4b95674c2ded4655ecfddb1f4ad01a6c46a42e35c05f09c2bfa9105ff850e45dc93873063d434b4d48c343b154250c) 0xfd7f8f6b26fd08b06a49460844353908f6f2484a81b7465dd855d5ce8a2484e0b56a6d8b8f9284e2411cc1f32011b5 0x25047bb691e4b6d34b475083e50171efc9748dbb65aa1abcaa3792b53649fbeda0200c9c420fcf695d66422ff1f0e7 0x162c1fcc24e7910b6c92edf1bfcfc4ce042392ff328784981c7d37c2b6714577cb641820f112a1abf168c84ade48fb (-0x292747a3ce1898a18adc6d59b9213267c5925ce4d4bad32f39bdfa1e031905428fbd87e45e02f6a92a6ff1e4edc363);
  Twice 0x341a8152053aabcc969f031bf0620ab455162587c7b69d51b705bae1842d6ee72d3849042f1701fe952c333c45562a (-0x1baba3ff2ad89da45e78296742c4886435eef9b8f7dcf9a16c101779677035af0ec5ef8239039dbe97873933c26078f) 0xc3b1f7af4051d98757c14d44abc75790a97fdcd9e5a0049e80738d9dc9d4c01ad0e8e0002ab72b775eeaf7d8f58e10 0x64f6291fdac9874197a821915278e4da652302e141d53ca225734753b4d171e52bef69561af89e912b36b806e8d6a 0x11e2c7c00b9669be6dfb61670970adec80b17c9632ed67501e5b71bc7e0010c00b658c3bb935473d30b9673890269ad 0x70017327739584d32253112449a0f4c73b715154efd9e03490f607763d88e07d2f4a4071a939675f62ae5e6cb546a;
  Twice 0xa39b7b62a0bb6b6e974bb9ef9bb0e130e68a962042c7dcb76fc259d31664951f34995da435ffb7af735b227dbcda2 (-0xfd70e235dc6e7447c6de0ded6ac17da210332ecebc94dac451a2c10ba701ef1e9a7479a4ff2dca379fd9dde416720c) 0xbdf1b1f518e2d6856162ec0e8aee654b66bc1a199a7eabb9e9463900ab54c45a7f7403be306257af5f378079984e5 0x3e377cfe3290cd69a98e8880de7b044ff1c50c8bc47885b105c6c846dfa07e8501fb3c56c13151d4b5411ad4397f 0x4d01b9b996961914ecaf77f89d6ce46621cf8e48cbe58018b27c887bf596ccba0a050f4cbf8d96526d751b98191d5e 0x45e79615bb5b53eab7ef40af56a77c6a2e5839b66fd56b5f5f8dde8cea9405c13d4cb92a8dd44c48b14017342b52b;
  Twice 0x2d43104396a30d53359357b5f8f1af099699da850514613c88873cc8043eb3059310257c006aac516c5e6a2d8ba21c 0xf385fb164d35b8ef8174c75c293be334a6222d68201338f64c499fac39f3e9fa22acfd455dccd4d50e1ec10988605 0x635886af267282de3205bc53d7bad22c45b335e5f8b1f40c1231d51303a3a74605299fa875bec6d82937569b7ac702 0x4c30373eeb816ae2565635178a6da7127cc09a1c9cbcba1c9311cfd6a3aa181d301b40106074d5c8114109e61a244 0xaf073b2ff2bfdd18029bcdce6474d1facd47ab966a1cce5ad08f420a7e2ec918584e1913a239480fad6f4b24113d75 (-0x933e497fb72748035637c2ca6da14175130d195d17cdd78544dd5250c58689c8ec8353f9205d6d252d4437362efff);
  Twice 0x15cf7c9a6e25412c9add064354802ebc75ca75534e7cd354a9a4f286119f242d89f3bd807610b6bf7107e3102be10b9 0xd71e3714799b431ea32e0621d973d13bf931640ba8a36f1f9735e0438f1cd7120b55b7de0b3a0cbd74d4cf38711f0e 0x147be10de4fa84d29494b305ce9f35c60f4c4ed9e44f761c7544726df4d81bb6ef9b93ef273c52682ad9c0611c034d1 0x11b0e64cda30bc9106c34c6da5861d7d2b4511c685f31bd6eae3e99f0ea23fcea046523a507d0043a5afd7e6efde2dc 0x12f52751dd7ccce8674a7066d7938b82a5dfcd1595d4032f9de3225def98916d5992a64ac3f97ecc525e2d5177685eb (-0xb9420abcf0392e6f1db2688ba3e823bc5b1835d63e797df0d192130dd5fb097477da2772dba5a5c606055328330df7);
  Plus 0x1adf9ebbe8c2116b139b6fac89d89d046431334727c1cc4b4ca9956fe995aabf6c70d795fb04b0f7c660f64891af67b 0x5b86797f6c6b25834c7215fee58ea1deeda873ecd264880e4501c1b711660701e7574f630cf83fe8cadb2d6314943d 0xb63b9952424b93fdb4651b32ce317b1170afcf740c402166e114710f130bcdd9da8d8bd69e2029e593c8ef4eb043aa 0x1adb99b0589b4661b60dd19b745eb21317a69577d4f0bcce18428a31ea357cdc947e41da7d661e36d55c7cc6471a460 0x1a9c4d913d26628704f58923e9e99a20518955257504369e6c9760fd89aea109f9303d4e8e39fd9785c481d2b737884 0x916cb3aaeee4f2cc63dce6798bce8042f24b4eb1e208db4b907875f15455a868122f5d89477fae34ec74572470594e;
  Twice 0x1171358c7dd18d631b9510d96e57fdc8ced178334ea01a81ab3ec65d44e925f4ff84692b7a83d9d9dec63c86cacd8ea 0x140cccde25423121d489f0c3c74ad10848ddca0dc9bf243778a10aad1e3e90eaa689da3ba14bb155b5cb7b180efcaa4 0xffc19aad6fdacb2cbe11226ee54c6becf22b4b1359f4a79d7565a052c9e5559eaf523b631028a316d160ee5a0bb8af 0xb5072007199c84ff0451e8f8e2407a99cfa630d6311bfacc06eaa358a5c56f32ffbf6614e18cee9100828caacf75e1 0xac8ae64624ccfd5c0dc3498db7e37bf918516773d4ac7207fcec19ea1ace8e67e9f4ac368dbfbc998b2f06f47e2864 (-0x2fb14318e82420de72e07ca8b4b2ff47d9ba336f60e3356dc87a6ce41e669e4272d8c940aab599fa7ea99267a2cf7a);
  Twice 0xc9a770d34502ef4695c4ed70697afa73a961ef2ac0765d883113143b15b609e8c4b1f120e8abee761f8e8ba9c5b7fe (-0x1265ea4c16a5b34a9cc9f81d67702f9a6f3339df1c25f1a77d970ec0f3b18f1e85da2121676ee2f85457fe996d2f873) 0x358189dc0b486fd35315f8b3f49325ce7a92a60a7c363617bd808aad3538c2e87a320c38df550fdb9d2dee2ed136d7 0x5e84abe84719783d3fdd1914c1f4eeb69ae03f01f8135b0d2e37ee2c687f24d193e140ff773a09305b0bab2a4077cf 0x97b3af600d10130a7024ea098aaaf466bd9be7fc08a45ac819daac5817676236a6c3322b05583a48b2a9bbee62d5e 0x5ecc3587789d2a63e51f58834e6f59126fe62285f58d3195824340ef6f910de449b351e4120f71fa6c137486b1e68e;
  Twice 0xe666f8a97abce94d0c0f1299485e329f68dc0ec2b86196af638058dcb16af32ebfa956078e135b65000fbd0e2a54ce (-0x9ced16f315acde9c735a7b3a95a067e484fc01669d1ee4a31be16aa7194ec7dc08f96d6a0cc54256b60241d59866b) 0x9818073f08070e28231a33e609733046d0ed4c4de20ee25cb3e8491320b72647edf8069232b1f96604eca83dd176b1 0x7b637bc765eaef669d3d0e219955d3025f45c75e7b3bba830775c81ec0c6f98cce09893d9e311656c6fbeddc3bf165 0x45632de2155d934bdd76c9db316240dcda893f1af22df650cd4f031f8da15d7c69e1578c5e5f1ab00e6f9724efdfe5 (-0x34cc1c621d8b9733b985b68d047df45961a1c35da29bf8a21ebf58cfa7fb5ed2e46840de955094f574445170c0f6af);
  Twice 0x776a06f62070b77fe72b301fbf63ff9d37d377281a957ae37c2e77401cd74264458d8046f2b5e39f5404f156b19abb (-0x7ac939a2771c2241bcb2a5f57adfc9fa4eb733fede2048947c0a9f57cb5785cc0946f9d19abe11b5f9483e13a25695) 0x170a1f2de8fe4052da6b24710a6958e2a8bee2979435d0600b3d08ca80a03bd31790802b4a8795b28866c4ed7490144 0x212507b1333f8277724057c67ba206c64ec30d681d3c5066aff227f9d8f240febb4d1546434b0825b075a3a52f95f3 0xee3e787841ea374c5098bc7d2fa6549646f2a3968ac50d167206a171ec46b35c78cf35bea8325759e5c535b3fa46c7 (-0x3c1a43582ed88f23abec9a166aae05994c2b425ca22ea41d1c963163eee0cece1ca9b614cea2905012f0680e3bce0d);
  Plus 0x574e5748a1fab6b73e1c35ceeca1a8f2ef9f73a939d05104e0ab89bd2bc74481bbfb55fe7bae789ac3726348071b5b 0xa4946bbcabdaf409e91e800b2ba0b190a89f5839db131588bdcb6fabe1d8a1e2cff1ba3bc5c65f579d79f99a59a98 0x1ae1806ef48b5f1288516772474b67e631d90dd4b2028bf35d7d2755760ae5f97f451ee829b1e0304cc8bf807d5705a 0x11b78d0419e57f660b3d5585672b88d1dcfe3b0b0110ed24e3e78439b4f43c8c7f9616f2f905102023cfb3f35d5e7d 0xfed69ddb899f559ef4e4a590330c83f88b030439eb6632282a8ddcdfa5e55f229534ba009a7282407cf66ab2875653 (-0xc78e9f00263a54d7771cd7bb459ae9ea090dc495d6d5d27a1f54b9b59b25c311e1467e05530671d26697ab1be6bec);
  Twice 0xcc19c83c5babf2893d02ed249a5468b179a706108d9122da43ee6cd3b5b02fddc6de637ca94b02f6e2ff663f548101 (-0x41816c11db84e9ce5a58e137695b0f251bc58a801fc5d187dd2978137a6a101cebde48d9de83f738ab27b37eeb24c46) 0x90066b4ea8dfae6dcdc0c1353a9709a4edb9404146654311e709e67902f57feaef419a35761c02136e89ab0a07b13f 0x60d3626c4006b9cd1d0383fd2685c5de0bbe2953f2231dc0b935a2c2f92761368f670dec061eb21a435c944df7700e 0xaf3f926786411fb3cc56418078bc85ef597df0b036243a7f4e367d0dcb6697f794df9718dff2083c25cc030b988338 0x87b6258b99e25530218aeeb12cfbef9b33c141d497db68a09069801bf24e12e20d5da4e3cd57da8bdcff1046d68090;
  Plus 0xca0b8dc2ee215ba109aaafe3de48f906f007796c7f363ee0fca789dd7bafae5abd31d4484cb1fc6fe0203966739087 0x81491f21df13cc766ea7ad3e9c4c4fe2cdf93f4cdeecb4539061fbaac9c0f0fa6b755e1fb6961c7d89cb75472346a4 0x175fb074f0dfde043f4e8ad7e4c3710e72616190d8a7aeda967728b2a3b2ffc4a4adf5270c4bd2205c79bf5a414e851 0x5ee29c871202316d6b347c43c1114132623c593fa5d947a17c9e18d1ec96363492012d79a9862c717a55d7315b0b63 0x19165455dc51d49f5265590cd93605626ff0920551ec9e5df630e60bc0a4535ee300f220ebd4a716694c7f45ac79e3e (-0x6bfe197c2a3bd4f41ce9e55c71741cd690f6cfeaf1faab312961b88db21c4c0c328023f6b654b20fde2ad8fb684bf4);
  Twice 0xb20eac7601c6d2c17be8e5c7c6f2dedbd1611b35569e2dff9b0436963193f5975ab8c158d1d41ecacb93507f135274 (-0x2830319bdad612023446025d29054acadccfbd6ab5104b71ee7f0842eed16cdc34469d571c0bc621b1902378ef59cb3) 0x113dfb6bfd076a23d9691fbb6aec1b8829faa234e7624a25f597ba4f6bc3a922c3d0e579fb87788b467d5c48da6a255 0x49b1323737c4763b61c7ab0645951cdb62c8373b646d634d5f75ee015d03d59190b19feb85f91958df201499f61199 0x1341bf921ae7aabe4db6d39af4e7ef3990d911607b7d9367ca3b015e3aabe3b5ba70959c31adc7c8c1e318f2e3b5b20 0x289a6add18bfa44530d0fc12f5b22fe0021d88968a8c979d2d806fda19769ee77d8989502d9858fd3fff91291374d2;
  Twice 0x190d6937582c9720991a2415c48f7a258e200d8cc3921d2714a06ed28483592bb0cb5271e98f34d89190cce4dd12d80 0x2b6e0b58292aaeb66e21ec8358a85733972de44316e96886c41351fb47835b9a39bb8497eefe49362e005976214f55 0x1991d8a196c7e1bd001c61bdfdb576c23d0cd4365d65f887d620d1b20bd3525edbbc63643df9eb1518907fb82c6387f 0x17574d519b59a746cc6e0f595024603d70fed62e0b4172e8b43af231a942b16fa2960426ed285463d5ec6c5b502c2d7 0xa948d8274fdb32e0758e15cc6de8e6cf06395fc0a913e2911d0e3954f0ec237e4d16f50d172936a72e00c79fea3d5f (-0x7c23bc79a9637ed9aa7e47151c72f6709b7ece0993a8a80952e1aab680b2cbe6ce96adec1e6c5a7c4923a825a00f7f);
  Twice 0x1930b5cf3d45cdf9451940439f2cca701aeb49b6a2ed7d22874d08af06f9ccf574bae49a41a45132a284e1daaec9c6a (-0x351f0bb8f7fdc7719983e3db930b834cf3a918262b0d59ccb053b3c4b3effcceff7f90cff170e4e587204940ad4d257) 0x601303a722e7155ac74a3be51a4184e606c9adb23efd6ce1f60937610acf2c22d8812fa586ac52edab538f3419c22 0x1799423d95ed6c137a58bbec2cd2da0c0c14fd16cb7771e0410aba8db0c085e2e4e4e85fb1f71436d0b5d4192334ec4 0xd1a2dfa58788a51412e7c9c8ce9c61129feee67a3b94e8acf60ca83fd34b0c1303b8dfa25704fd9863cad699b376c9 0x179a40dfcf9d661b4832b8111ec877b1b023ee791e7620ead7056ffe5402a36c5c44565961a0872f253f304ea4fb65a;
  Twice 0x1aaf554a32c077b80b67da8467c80a0754aedd3d334699133b66cc1618fec2d70ef679e3605b9822dc96516ec8f9983 0x19fd5c0a90ad92d2f67e22ceadac8f4b646f8ec9c29583318a983aee81be51ddcbf78a5f93575b06c60331b80bd762a 0x9f8eb200a71168b5fcc446711c3544e008673defb182cb2895fa1dae7dcfc10aa5f46ed5756669aff4d446f30c99ec 0x1a7b6bf543f03e39f48efc3df5acb90d75a6145e2110590a87af1b9f4e7d2fb78942f69d38c56d4e989d5618ad806d9 0x5d13d0689359a86feeb3719fd1b1b6469a926e0dc8884b67e0d201a64e65201dc9a1296b124d4b078dcf5c745ac8d8 (-0x9862cb09a018222b5f707366f2d6acd7b316e9d091434f7add2b8b1a53055185509f0603e1926cc7b521f34071d7ff);
  Twice 0x624431af937dccb5da6bd48af91e41f00d227ed543a89c45130bf681c01c540b842f805451b26cf63349278251fbad (-0x8701500f044f5adb37cbc4d70a11ae8da80234420b30395ca9d71d92f751e250df4f1ec5e3cd7b9b902750b6c8d0c0) 0x8aeebbd884170d335283622cfde3e28f2e7f551d8e58ac4a0faca28716e20e0e5d7f8422ba29a4390e18d137f89072 0x1671d0892c329f30f5a3eb40c1d54969be30795e3446e588bf29309d38638f6426a9027114ff071fe1b533d0d4ee9f 0x18d960f0c17f6a060342e6051610d57232fdb3fffda3721a51c16f1f6829b3ad4e1ba05e58faa780b7996c4eebe223a 0x4b5f8fa965dedc9de1f0eb032ffcb2b9c5ad2787ab14066c74e6e085b0553bb86e3068a4b7229a9395097a2561a60;
  Twice 0x11053bd9de979acc16ce0e16026d9ee4bf7db6cb0f9fefed42bce87341cec606e8ca5c99a9d703fb1b68fa751ae428a 0x170bc4ce7602c3fb280843cf1e19cc8cd6e887d5d3aebb8e40530ee8f1560a99829041e23e6ddc49ee37a8f2a59763c 0x1c28d5cfc302131b463993fb2985050d14fe99162cb294785d8559b11da70c14ece7df47b1d36b523871c50e3251e9 0xac60eed5feae5805cb61edb7e40561b745be729d7c5edbba93cc44b954aea0c43defdb977375c4963ad55e5abfff97 0x17bac45aa97b2cbdbf4e5e591b2244ee19e95ecab3004e833fe5928a9ca6df2ad3fab68aa22e447315cae76ae11e751 0x461e16fc0dc70662950855669f7466757703b8362f1ad29d2392ffdf8d7a1337ba172bbf6be37c9a571afede4afe4f;
  Twice 0x172896291b5035c9bd704695357ab5abb4efd94c6f12bb7e0ec336182fe24c60b33c3fccd2a7c6f3d0a634ead4f19ef 0x2887679634b51741268012428838ecfae023dbcc60559c4d8b6e6fc0e0538eb8b63d78e35b84a436238044a02ede90b 0x1214a3ca0887fce9ca469a117abba1b77ff1cca9fac0026a0b8aacc0c975b8dadf89c87fb05e56911f70287a5c61139 0x13f209bea8b2eb965f96d3e3ffe17d7c5618846eefc2c992fcb4ad15c8654073f1bddc3b0cb6ec9651a431047f7d816 0x82b20d29807235a54e793463a72a294747cb24b6d6970203db6a969044ab516cde5731370e13f66110a05c18f8a94e (-0xe0e687ddc0cde2f08d48a1e1b3b95e52e2397e9f1f1bc6a1f01bfc2b7d3f5bf74dcf6572dc4c938e620e8cd158fc4f);
  Twice 0x1096ed252e5167d3f63337dd1345f622cae055973fbc1cda4385587cfb91b53fc947ad0e0276f3595dcef0330982c70 (-0x1a64c508de8a88da6776622345f61ee4d35a76bf18d9ea500c8d678fd6ebd7ab24d1117cc8d396f25a530eabd96e7d3) 0x1ac3933b01ccf53e14bd4ee42a143999ab41269838748bade6de1f6b8981a50c9ccb0de0f4adcede0cdcbfa3b9bece3 0xa3c2e27b605df6712c97f995f8f8221ab909decfe5e2b23d860f5f6459a7a025febff0f733420f2def84b5458ea1ab 0xac622ccd75a7b6f4c5be7ea6a45d53c12e90c3070ea7918c304eacfd5c87afa835f11c588dba4ef035f303cb618bad (-0x55b75dcd5d8af16dbfed19ec5e3ce68f941ee0a232bd8586bd0adc5803808757b4b2e1163111a5cc50806a809b875b);
  Twice 0x45a9d62fa0809796ec3d082c65d09da9268e6a5219bffc8faf3c3fc9ca5ac337a6865264247ba9cf134c442c0aed1d (-0x4c6dc3f0b0da2d396627ad850ba5090d1aad7f6d700d0fc7fff70c2c4454e1454798f067977204974649596f603fca9) 0xf07cd22ea7a7043152e385cb955af164b1cc233c2542025bd046dc042ff049040918865c4fd68950633877cac69ab2 0xb47b1e4250022bab991696f121da916a1c5c4835647b351d4a29d0d0629267bb6d5cc95cff88d245560f517e440d1 0x67affc48eef59afe1ac48f414e779bd23d238f2881802628f6dfb4d9f48242c8843e3b49940b3697060b60cdf82540 0x1e660b790eb5346c82e5a00bb7026d8e87fdef3ae791117e1f21cdb6c2db013be2b0bed23d153739deed514dd1fba0;
  Twice 0x10adb79dc7d633d837e5e2a3b9996a995f0b9945a14bebc36094cbdb040dae5092588afc02d31c8e9d3e259d55daf26 (-0x112a72d0f4c5199a0060091871dff0558516b378fbeefd3adec61e1bcb6219814fbb8bf4cc69fee33fcf1f3b95f5c4c) 0x173afb3d92f45acb24e91bebb59b0f53cb7243c714e015a66bade41ea1afc3708261e53b5a3c23c2b8189c83eb8754a 0xa5860bbcdf78918a48e1f05a31b76e9581f93d2506c4b52bf24778724ec7e3d8fe340f6a41a351cdab6d72212b4ef6 0x132917b5e04b83a908ae572185ffdac81cc9b94d3f9341bcbc35ecc821213ebc353a60b31e6eaad6b69dbb38453e12 (-0x5160f00e318e904223d0c3de1d5e656177c2c12c461d7d8179f5157916b2fef25e640451cfb4f6d662c2e471c9bde2);
  Twice 0xdb4da7d5f26a89d64f70ed5b305bbac7e0bcd0a1bc7f701dc682c67c1e884de9b2f995da34f3d843d665e7b6d504d8 (-0x3afcc762807a66b66a93bff5101f9ee91ebc2a728c95434799ce903e2939fcae2fc93ff1724737cffafaa61f798ddcc) 0x18c7039d1ca5fd0e0df6ce2241c28f54791f0178aefd077ecdf13072c2d0bce0269f8865f4145cada22ddbb91b436f9 0x6fc9880146c332543c820075683b30db653c280b4d6a5ae121beb22c9de2b1d0a1aa70f2f9158c20b090a8206254b3 0x1a80d94ecf956106581d67341e42223f250f8444ed1d7ad43e733cb3f33ce2d3099c01ea7c0df2f91223002ec7e7066 (-0xc9df75df80cc4358455562724d812ebda2d7a2196b26322c66e0f9ce87a967904262064b18d9a1402476ba8d0d620);
  Twice 0x1350706d908160428e471a5f494fcae023702ac2569450d6ec30d37a1d5b509a6cc17fd9fba099e70e7802c411b85e (-0x421d5a75ee170607cc2d94f4bcbd925ec3ebc75b82eb5199adb42b2f0db12817ca2aefd2e7db543f08d8021b7e8cfab) 0xffacfe6e8133a4fa36154f36c6d457a18d5df95f3f254ede337569fe2e44ba977d45575d02a29030e7befacb3c431b 0xddf88525409c72aa52f5c353a6ab2e2006a2f6a998a2271559347f931cf6778560b09d123e39e0936a90029e9177 0x199155d77e67e87be02fa66fd82fe1348e3dbad9cbb42463032d1bc82e20fc23154cb0437499ba2575acd4860335675 0x651baeee9b7a0f12c2fde4acb8ab891f544e1c5cbb7773cd6678d27e9a09a03370c07c13e6f69d9b1188cf45f54a9;
  Twice 0x169b68e21ab7ebbd788ac8b9022314a37ebeee4cbc5cdcba550f57b20fa61f0150e7f3e30aa41dbc63efd7c7368239e 0xe80b125f9597b7c18b9d70ff859f7e900631505d029e279f3353a6b0e55f7e05dc1720defbf38722a86c571d5547e1 0x65acd0466cfbf28e8a88b4244798b1bc27654894c90a1bb38926a18a4dff9bf14237a0b4ffdcc8efc34a74bbdb994b 0x1301c1182ab20ab3828e824a3a026151fbd921a50e406b123dc9f4ae75f74739d4fbacafb1859fc96aa7f0297007603 0x175144022bbed79c8d748b654e5c3ee631f8371ac1f60c99971f54943c73fd455c9c4417d9075bcc4f6814f5c94bfd6 0x8179cefc1ba9e41cc0931988685da828fa17a61a515f995180f3d41c3bb916d5e8e924e220577656c8ac8d64982815;
  Twice 0x4b03dd6fee3951f70a215465181ba8910ea6c5ec7508a4c2cca9438cfa959fdb0f85996977db7ce15c7a8654f54f7d 0x3a03daeafe5a05a15609e0cc35cd29dbead14af11458f8693932b767751b3dde34683b554370afed819e663aef3711 0x1010154ac4e39b39b368319f780b8dfbf1f96f86b1cd9bc62d111e25a4b01730dc908812514f49deb3f962abaeca8e8 0xd1469bbfe6add0f65df50f92f099ad391c4f983ec5d6846082d06cc3e07df6dfc74d88eed1b2114d5d703134c878b 0x10788688b0a23b0ac9c1eedbcf6b7e43c437595d2693b2b616a5485bd26b67c35e305258b74a25e6d0c1137459b5 (-0x1b1565badb8876ae8a1c5e7393a4922282d99451583789b89135f325b6bd016429d3e9cd9db358f5ce2645b4702c34);
  Twice 0xd89be7c47a83649bc54231b4ad551e5562d43f4865e3eb39816f9745761ffb868adc57236ac3e20a3ff7cd29fbb850 (-0x1cc845acd5073c6c0991306561c57d1877444cb004d6bafddddd1791b5f5b2e600ebf934c6ed62b15dbc3a1a4f9b5a0) 0x146017a2066be2213650f3ae74c0a9eb0b1a7946587f41ad7d553151ee34df56441ee817253770c390c81acb87d4dfb 0x6d0eaac9f19353d9bc4bebeaec6379a1fe9246775dcaea76d4f082a17daddfcc10bdcaf83c7d693bf6baaa633c7935 0x45a4788998f948ecbed3d2f796f8c77ea1eb2eff511f6b0356a0e9e5013300cd65ec0f566c5d6addb8ee94d632f9ad (-0x22bd764f1d182502769bb5d2abb0864545448450a5bda2a7ec0d744d4eed08d8c83e8043a07925ff3792ae02219152);
  Twice 0x1190f6568e55c8260c0abdae26cfb96cf62e41280870e5cf11bf9bd7184bb25cff31cf9460bc4fb833fabf473742219 (-0x28a1a1cad4956e1aff3c7689f2c017e9a41b99a8b80c263501115187b207a8dabc4793af98d6d61e54279df198e2481) 0xe97475b2b7d97c259920c37109c78c2ba02740b40c341bf99c2dceb95387d9ad1e55269771fc2665f31e6d90dfb3fa 0xb79c94b86aa4829f0e7e5342b6fbf10ac2de511bb05e327490e57f329c455e3ca98162fb76bd48fb590f325f585681 0x1798092261b01b72c053adb0bebf6f6f6707c5c8129845906bfe4f438e1dd76a51ae074157c1545e67d069d00f2ff36 0x3c763b344e1498db31c871695d4c49442b4287465abc659d28fb306e6d1f495eb58474cb4e8c71b318d2c831263336;
  Twice 0x5d55984e8ea5f1c91344936ee576a814a90a2eeacd25529da3de7e129a083211ca290aa4f5d90f826cb96385f52121 (-0xd83f6ac6c705975b2c1da4d4e40d4bbfb1873281fbd064e146711a514ff2b0d4e707b22a9c8efc9da4edc1666cf880) 0xfeee363dc78095a13f311eabb2b32e182ca3ae91870cb83202c86681a105e27eec9264599d3b5e647ea135d0c051b5 0x143f84f7c86a2eab3a68fbf9313189f374d5855c7e1293b71e9945ad3573663497af222dbf76593cd31299c4f3cc98 0xcc98ca8c938a30d7a0eac123d6098a8daf6c4a38ae85db77d7c37b731f234da84a06712d6d06ac9b286b44fc1aee21 (-0x4a8b1355b1044b3c4a453018d5a7f1557e3f7f97744a14321463fba57a02ed2df458d59bb6ea11b699428484e5d72);
  Twice 0x67cc78cda3f70b5f6334c7a7e3864bcf33377d22b3f26390453875eb73ed619b50da98cc5ada08c1a7bb506869b89d (-0x16273a3bf17cfbea88a5c616c658c6c166b095b82eaf478f2aba45be4d48dc9e39dab1558460a1341ce856246529971) 0x11e4cbe6ca9e424306324a81a97e9da1e065d9f07c06c1214923b218bd7845db6dc3017056bed6c7f4de1512bce955c 0x190aff8262d5fc00c035597d6c00dcd43d6d84327a97daaa3ad08110045d29bc1729d0625ab26ac22f6e0bb89cd783 0xc65fc00c858c5fe06a0d0275aee4ba8cc73272faffbbab2f5fa807fbb45efd8c14c428ba90cee7fc2c5ecd09314c4f (-0x7917bc4af7e1ddcfdc38b62dbdf2b448da3991bd19b30e4a67b16bdb62df6a9697cfe8541744079cdc9d0b52abfdb);
  Twice 0x133bd2e750c439caf6cbb9e0e7fe1e6986c79ab82f34a9b54fa4dfad2bbb00b28cc08b21e226773bb43abeaa7d9cfa4 (-0x11fc5dc2f1a0ff33d5239f1506f2b9eb694a9ad6a725183cafd9fe27a578cd2ec11a6484c3d52bd2071de2ced1d23f8) 0x2ca5f368cc3f8820232591238e4641a4f1c3eb4050bd2edf6eee548d203a7d46c1d3ac159344f70336b6d047a06bd7 0xdc1fa8f37da0fd9ce32e56e8858a89c0768686a46713c5ecec8728cccfa933a275cccabb8cce3368bf5c9705350a81 0x10dcf2a054cc8b4a1e2dacbce6c6a3d7821f412288609fca278f38f94f31e67e3087ca8e594678c14efd365bf2faaa6 0xacda0c56a0ea6187ad6d1f3678dfdff51aaca799e2aaed53f885a4ac1c5a39a2f4c673ad4bc23aab0a53a9ad812d3f;
  Twice 0x16632ed26072262ca0c690753f0b77ca3262b38e98f7f16776e0bb1c602c4745768bece6e4d41dd32a6354d14babf53 0x1b36000f84019eed3b5a87b7ce313450ce361254eb1bcf27db4033dac66e8127fe4469f9a08ad105c84d9e44e3c0ff1 0xfed0233f73a2094937c0fc571f789c55d4c212b5fea5d685bc5a8d9103170a1a2c3c01d52e74de151eac6b1d91e466 0x12a3ab1aef28f566d4e4d1a398c77ba155b106dc9d8da197181e63eb472cf879de7f0c8dc0afa6c230d5201dec638d5 0x6cd705446f496afd7b133b025e92da9c2e381d4b3aad9f30fe25e37682cbec8de7e805dc51557c038dfd87816b3181 (-0xaefaa03ac5b1fd6138a72781bc31681a1fcbdd166e73174b450968b6a5375b0287275380967d8909b5249f8abda384);
  Twice 0xececb5e9ee05364c25464ca5860764c75e9e8c0c8d3fcd5027716a13d1a03c68d6ed8bb75b9165a42e917d1af255b8 (-0x14ce1f7dc3b32fb9f856a03c8a26b18ac426afecd569f20b597507577e795ef5e20054628883ca6d1c2bd09e51ab67c) 0xc96784204ca97e3f0ad6d495a700e00d4841c323f6d9e90a02a8494992ed68f4048f4a90e543285d16e13ad37cc6cd 0x8279350aae8ab15b024633cad87f3a4a1fa6ab850d38f33d9b3f8ab76cf360ec20b5d65154e8c59baeca6e7df324a7 0x1370f94bb18a5e8319318e9c22b57b8fe3adb117ba2a6d5c30b6437f80aa6a5e0a530155613c5cf3d5bde8a702fb044 0x1d69755eacdefe6989cc17e5600182f087114bd09793fcdadcf04f9e49165045aa1fd33010eb7de06640e8d5083133;
  Twice 0xa2c7190bc3af9b9fa1a4772f90730e458ca8d47312e9ccdf70bba2162622cf207c2c720222b878c9cf0746ab921539 (-0x2f78b9f2bbcf9ddc98be8e329033d44b3f83f00100f5d2b0aa590eba83260700be6015acfe358664b23923af359a33) 0x13f8a9a2430a8c22c0c942dbb1997ec0f6b0ab7c13a3f363502464a543c1f2aca7612322c6f5aa2becf69ab570321a 0x3d965dd593e8946f37c98fbfe4a80c7dae409bc630f9ab396541950a89d959ca9f882462547fff0bf6bbd2005ca6fd 0xa75c9ad66c25ebbe1511f579663d439054220b71dbabf612b819b6db2373a50dfaf31a52382e92e81fe3848fd6953e 0x44a54931c75c9e63ac2d6a7cdee38dda0dbc20ff4730245b52a7b0d88148798c07eeaab3b11f004beff681180f8559;
  Twice 0x16fed7888ce2c992318ba011c268389db4b2e2dcb05e1d9e8814281498746c1e830b4189c53c31a3d165502a077170e 0x11b78cf1c2c9ba73ce5184a577061cf53724b18a9697c073aef48ab2e983a4e8495e0fe4b3333357516e3769c42f6dc 0x826c57ce393151a450ee7570c9edc91c7be22454fc13dcc443f65cb04d19ebca5c9a930373a0fbf3cca8cb60cd61fc 0x13aa62ae989c4cd4c3d4073d9c40831db0e64a8ced3f1f122f0034c4ab844011a3f40b9a9cd13322af3266f2569be94 0x8bdbd39ab144d0f366938f45bda07c978894a6bd31b44b25c290cfb3d7afdb9dffa11e466ea81f258fd554b997f75e (-0x5e75294ecbc18d6572f1a095e2f4b49fc58a06be7bbc5fd94448eab7fa7787cb6bbf175768e5ca193a26ea89e278f8);
  Twice 0x342f760c6004520de224867ae133fa6641eb7c6b47ff82947fd2652607e1d91e232705bc1349d9fd52f7bd8ad34660 (-0x54af279f411b7bbd2d50a4aaaeee9d973f2e899edc88299a2e55043b0f7446d50acdbb3589223f1aa9bab7cf15e1b0) 0xcf7d092bc182981554833fab7534a254bc02e0946163eb51c159e0c1e9c75811c5459e04974605af13cb7c97f8325 0x65477008f6503b553e482eec69835cbb5b6901614ed05a4396bb8b515c841c423e44006caad00f03ed1ae0a7e5ce3 0xe8f7b7de77ddd705a07f000bed309297db0699b30f69066d7dc7be85e173a465c6a292c051fd1ec58ec90ac53051f8 0xe3f3a3973420128e817955273820bc2eb554385d9ff7eb8d36086715d1e416d7e80a1d1977a82738269621a8f114a;
  Twice 0x156b936c65503546b1f796fe5105f5cc8bf749b89a9122a8f806cde5c47fae5c4876dcf828a56bab61f58159f12be02 0x171fef3da44099e858808253629d84eb70b7851b138b32e1b5e0431181337801b7efd98d98d9962dd4e1d1ff19ebdd5 0x24a43bbe26fa730a3b2b0bf1557ce8752f53df481fd179f862d6cfc5e58cef148833afc4c22c4ef509af214b57171 0x111045025c55a285a13695677f88cf2bcb90e23fc1b8f93fa1933ae0c1c0d70c380283f54d84e99c6570158199a8049 0x13a8feb11187263f1cdce549a9a464fa4d61850b51360617cba7a1f54d6f49830033c0c8b5b81764c441735740dda04 0x881928e71b48d925746a5be5a55ccacad0aa40f9ce70710c77a7fbb8fad05fd4f68bc013df9d2cd33aa7134218f6c;
  Twice 0x451d801ec5013b62ee6d2dc40131145e3dd6ce1991a29e467bd911cf7b53cc1c543df3875c43c19b72657164603b0e 0x6507f240f01c55a7e8503f93d96d41179023bf68461694ed559c9194159f9cd9da4bfc843c0cd8763d11afead4d4cd 0x17db8f2f191ffa9c6e1a66d9c8770b2524dc686e2cf272933aa384454795225801e985f86d135c904035bc653841b7b 0xb1a6d35803aa74567613d40930b9d693bf4b33555d56663f231478e001d79c88b71320a8e5d02cdb6af00cb307667 0xb9f08365748d171bb47153bf1876e101c1d7a6840bc91afd4acab0d570df4fc83c779b20a69b1d3a55b0525e02e02e (-0x3cf47fbefe24173fa30ea84c52556263340e0ad8201f9103f133ec6dd4e335ed4f20d127bc61b6003605f28e4e54be);
  Twice 0x19bf947b3dcdbfbff4ae8f1e17cd0ed9640120c64acca364a6ea8b7c62f091ccac0eafa711ea494330c651fe72af4ca (-0x293f4fa1f4936c0b5a9d0f254b260efe12e57922c6600f4bc89dc5567c39044010d10ab75c9f49f528280ebe8680eb3) 0xef9ab80b5f96523713ac940fe9bdae8adaed42057ceebb9c718b7c6a4d452fd7990b4adbb4152eb2f1fecd366b381f 0x18a7e8ddcb49124eb6bfcf938c35b17b7605fe09c1ee145e9c303d117ab54d5f2e9cf86e6486bf8a891438beae6404f 0x2f0558c3b3d83220bedd8998fa99d8ac0b050eb0ed1c17f9ca2eea06ef718db7a01dc60d2bbe41434f397b0225e603 0x881696db26d58331a540d025f2e5cf69c4490b5162443e8638f649fad6829773e75f00079bb246a24db1e09f465067;
  Twice 0x148ed9f0a1c3eb8d04b7cbe55d519e77e47b267c2f311ea66b0caa7f483ab135035e27960a58f1a394c1aea28fd4724 (-0x1486cf4bab5c8ae906fb1eb02a67be932cbf3cacb0cbc724e471be6c443a6e79d9bc67c63b1d2445ea494a1ec7a606b) 0x6871d6568d509d6f0ac8c64897c7817181694d6b4cb19eb835aa49dcca39b596bc26a7baf94230dee28dfa7d6aae40 0xfb7af3baafd27f47f6fac33a938ced20c0ede112c4f8dd7d4ed86c2a8ed21c5804f3ca80f04052b325730c06abde92 0x989e6ea37ed49b7062f97c2c225d72bbf2b6022b2faebaad6d48510306b14e0e1da322c23f6776c8610b020454e5e4 0x6755eab63bfef2b79d6c871ad6d02f13385fb3572ad339793557a9180eedba9c61536159bce27b98a1e15d3d387075;
  Twice 0x108fff23585ee4f1597e7418d811b671466a10fc896becb02c136b7222499cbdcbdb634855d8f6f7aff429b30cf9455 0x6ff1f104d0429f8233057d64118aaa84aafe605ac290548abe1e223bb78c62ab2dacf4e224d14ee30fdf1486171968 0x15cf3a2455b82ef0c1fb25b3c6440531b2778afbe7be786eb54cb36c04ab1fb78377cd0feb9330bd277a5f70287be05 0xa33a2f5fdbf6e3e4b59f329ee00f9557816e7f6c659645e2402aa0d7f42309e6fb899252fe5944d95a30f31a0b49b4 0xb897f69a711324599d22314663679447bb529e72e8cabb0f5de595586d5b57a7f4c90f5e9b3463778ab57d431014b (-0x969ace5c5f3021eb63a4be76c1e1bd42491abeed2d13da34c647ab70edcadabe83c3533acced5d83d015e288950798);
  Twice 0x34de56edd715fec184e38abbc6575b60c8d6770783fc59247c9881fbd9d303921014a75df7eead77fb45bdf762aed0 (-0x34e4115c9db4667f9f553f2e1df7c106db43dc8af11c33a0fcbca3571cce9cc5875492aa29cffa5e3af23dafa24366b) 0xf3841a3a83753641da655d93b22625e61900a315fbc82cf422cc7a3a961bea7ddef279e2d6d0bbf2d296038009ad04 0x67f2ac3898380ccf78673b5089b49706340248380eb5af55e1f38a2d0679d53882ca24a93f217939a708e29863ff2 0xf731f7c05b19668287833fc476f82af8cf19165859f293806d0b2c2c5377439e98c021d68f3a80ba73142b878d593e 0xcf4da92695454807275c6a2074bb632c26b90f4812ffb0e7b1cab96dff18dccaed8a11eeace45575de26fd3a02447;
  Twice 0x631afcf557126033d3582acf736fa4ef3bf721ec8c28939cd92ba4587437967c2dd96b82a3c6bbc4fc4efaef63ed39 (-0x12b9de21bf0f18b44110dade4edad60791be5a27bce408f670191f0580a5c702426c4af6be6d60fa94dd501ff80ae94) 0xed1ac23b90cf1cc27fe267be044a8a5ca83d7864f12219fe1ba9b208cfb8cad02919f4162499a5079bbc50d2442ce5 0x16d45a921a8f5cd235d5928dca6b10d64b6802306f541ea0cdc56c2d6c7d2f1897e443628853169899e2edf1910fc4 0x17faeec61a60f1dcb1a132aa49b4cafc01e7962ba4f3bc73ed860098bb602f991aa1a8a4355f81cc6cf003dca5d4c0a 0x17a17d00c42f3f5fd297e88fdc44fdacadb1bb6c88d6b5645b76e1f024906b1dd7dd8c39d1a0fb0d0b582b3a8949f;
  Twice 0x10483d4ec9bc77a2ee2f77ec9d6f98d75f69ffc9129b7f68d873dbc1182b545e59e88e37ec15b755f740937d14f40d (-0x16af93c907aa97a47f0256bcfa62267330f8b7b936e57831578a5f0fb95f5ca65b08a11221df2531b14da74b499c587) 0x307d818362c739452b18304711815cf85d5f6a496df7f7e410edcfc0b09e18109bd1a5fae9bf7748a5a62a15c781b7 0x9dbfc913fcba149663027c54d1065b4ff4388370811bce4f2e05b750389e0726cc2b87ea85d1b54f202e0260ed28 0xad0e4e869249d23b22268695bcefb1995b95df642d203cbfa5c50893eec324928aab5053d9584bd019996758adec6e 0x7236152a974a62d0c7d8309ce4b2deeeec57f818fc50fc5d4d85c2a9f42c17b45103923bb150149f056b6180950de;
  Twice 0x1228d88294cdaa4eef7edb1738105eac39e64f9573d86cd0be29a2ad5dbc199ae2adf9c0acc51037a31cde931c57140 0xd959865aaea48e0e5283cb0b928a8b5a2df3f2fab3e773682f4fd10907e29f773c89e77ee1e5daa0751bf50847808d 0x113b78dacb88e6d37e256fe9f5801330e4ce71f19c0534a7b77ed4270e62d6e62d7185181df57cc595b947af92f5f3f 0xc439548d91a5d49dbb5fe89583ce60fb915b644c5e5db3f36db2eef23b3ac7d412b54b22a90ba35eb8b352d9db2d53 0xe2f46eb0ba36f2064f95ee0808b1b8f754269751ac6d3f56bdf79a1522d2a010b37fb1324a5f72de2bc17b07f0c60e (-0x9974f4be1e8731445ffb3d831f516b3b6b4962712de59cac7c06d28c41837c3930238928c392fbc1720c9895071c7c);
  Twice 0xe8cc6f565bac80a28caf23c73d2f3876c56cfa3f880c7294bf91ec7386d57494f7a0ba2bcc8b4cae6e6ba0db3306d6 (-0x11c7a3e610d741b06aeabb284435c79bfc0dce0b66ef6e2240122a5b358f1b7ff0ef2971afb919c06cc8fee924dad1b) 0x12325c765a35f4c066899134efc3d48e7d8b39de806d0d11d63d845b3935a0ab027c2d112baed7f8e7959091deac814 0x7df7f6b44019fd28b8ee05e48d9021017d6556601d2360b1325c729c156a34d388461a78308414c619c55ecd293452 0xf835aa8c93f49a1191d897c3d090d49fcfd966a9672036b600b8316d18b1855765291d604fdecf69eb33a12c905aed (-0x8597d332e1b0f4c4445399ae39a516d3651d8fc71842a156fde8e38023d62e2681970422e638d78bc08ef670ec109);
  Twice 0x12b9ccbbd65bd154026e70b35bdf9c49ad34ff45271b4a13620751a4b145fa3e99dc3e3686d4fa7840c6d5eecc95dec (-0xf56020a56c04ac401cd7a76923bc770623b1b6b55c67fbbf7dba184f15112abbeecfc4866d513317f60041ee6bedb8) 0xa3f049bce01e5c8d3dda3d4c7d226a98c659241834bc91bd7116a760df4d32f616c23605168364a5a2bdf6bbea77b7 0xd0a6c8a86fecf6713452fd9882d4c6405d9d7dffd8e6eb9bcaa6613d646f8f96ac807ef30930e96a9da4d6c74d49b1 0x1811a444eb08e4083b8e9cf795efdc1ed273070d5086a483c8a8ce0f28d91f0ed9fbd1178b1d5b9956ab53201469d2f 0x5896c19a231d3e45436b98180fea8d7ad0b4f0f0b36b73e04ab3cc89ada505a8c25abb4e48f049655711341ca9e6a0;
  Twice 0x101ef80922daa673227f8d7225c9c7f567f4f4e0245f537428a6330489990a32a124ee9485ceb41f38176072aace9c4 0x1125b3ae1c9471300902e445b87cf48568b94e034196aaf6e3668ceca28e3cf64e73ebc1d916ab43d6187e3dbd14f85 0x16dca8d2fd54a1d6dc2a28f43a156c0c396f643fdcde0180310f3cd826fdeca7033967ee75bf17bd220895ab45856c9 0x9aa40c53d493345aecdbd33ce7819364ee1df9cc69b2521d450bc407401a3a60df1d66bdff85b00889e4ef18a917d9 0x9d16b0b89d5d0faadb56dc37ef2d15901e5187fb245fd357f34fc5c8dc641c9df7b0f811af415e0144d89f82844057 (-0x790469cecbcd51233ee12a2b8d7569cd8aec4133f7f4256f89067149f3ab72bea97c2d1651ccfe898519608c09094e);
  Twice 0x609255187bc424496bf6280d2d9e8b56c629a7f71acedbb30f1c835e8a1e06279d9e913cebe78c3f0e4b7d29143c6 (-0x3a09bf743d7cc6b8816a4556711b014b2d22d9b40d90493ad3838e9b67f533516eb901114d879174dc1e2be9203ecdf) 0x10e9244c6d20b9dccbc5bb8c5b52aaa6862e3dcc0cd9e967f4cd4a3c60acae03b6c7b6feb39bffb4c9973ecf2042c43 0x15ad54b1f9085ada27fd8f31a28e4cb1193d6554e185e2fe7f333a1236d369dd8085314d175bd00c74105588634f 0xe428455b94f4adc73fa4d0c98bef53fad23a85e3ab6d71cf1857e0ff22c7c629eab7e572b63b07ec83ee33fd33bc25 0x155fa784fcb65352d2c507dd9d0e22181f0332b7c551d0b645b2faaf05f7f6b57669fc8014930236d6044d667f928;
  Twice 0x171bf3dc0262cf3d64e09a91d3e0588e3977acf7908e8580275b936321f351305b58e3e048eba363da201c5afcc5356 (-0x76528f5272e9d06762773c12769a7d1ffbd2b1aee5c7e6b8863cfabad579a5d08449b63436a33e09b1f21a2582e5bf) 0x47aca511246df76b4b9a6ada27765c540e9cd791509aa9e637bb1e3650c9122fbbd861d6970e59d449fe3d84a8ae63 0x13dc4c8ce2ee2f4f03101254d40e36c5f9bbae076072bc0dd1af1da936f9549a91090bfb6319a718edec549177fd9fb 0x1f2d2ac1693672537618441adc3aa38e47e10fdf96cf99248422b40782b08812b89ae8f6dbfcaa94ac587512d9fc14 0xaaefb831f07ae11cf19382663dbd763b0892cf9d734b58f4b246c7d384e1008ba2086c016c41ba1ade500ec4fe3107;
  Twice 0x10f7b16e5f4913a03cb025dbcf8b9166148c008625b7e262969ba27a78729c61c4bb26b9d14ac24726210ebe44294aa 0x3860ad4f6ad380e3138127a55bb788425af4742facaf4eb7121c19aed18ce94870ad65a500a616dca90ee5d19bbb5 0x847c031e662d7e06c4e7f0cb019902e744e97b52cbfc5280c0099a66dc6f0c8a9f4ced50eca2aaa5e8763fa69cd858 0xab4f15eef482ef5d78abee209bac1c55f6123f6bc6a73c9dfd2431effe13f561c6a98d19b06ed8c6ffe7811e0ecbc6 0x39623782aea07ee6747e6d65f88e7656459619bb7860d60cf9a6bdbd5a0dce85ff9d12f12a3a49b2ada164574574d5 (-0x265f44ca1a29fe3657243c0f0463dbd986bb16cd4d45a571729539fae222af02735ec1276a487b3d40b11d23aef19b);
  Twice 0x1a050c6b2dd23a0d9408d3fbc99c1b49f3c0671291043f83eb2d61209e3c3ef4bc2342eafc40a5aadbaba48bf3e23f8 (-0xb55f327420c614eba247780ebd3c258f818e594a18071ca17d897f9b54243feb87b45460343d53f74e3df048d4010) 0x1748af5008786cf209104d28326fed64bfb11becab521b8291dd35d5fd8ab399df13fd33043d58b7e3f3ee96ba6373 0x192da71fd1a78db9deff4960647f4152dcf72ea4b203e4589f0f82b3c1cfe01b1669905daf63f0a2bc3c3d39d39ac1d 0x12d41086351d6e7f6ec08a94e151f6f682ec88c4eb08af20d76025b1a4549760a242e5fabbb7c51481c8022ad9c14d3 0x69ab58d7f479d5fe994c99bb4cd1ddd09a36461c3daac8a39225301df277be51e26d993b91039c25fe42a37ef10330;
  Twice 0x85bd59ab7c4e1b3f5afd9347cb2c430045ed2d28d91dc21d7207b036a98dadf336baeaf61b01b9241709b1117799c1 0xb783959dd2ff3732dc02367f697c5af01ee706b5d4753ed5a22abdf03aa759a5e83b1406aa983be3c19b396f2b2b2b 0x19403e03450a4c7020437e9e2d165d4fb88a7b896b732bbeeae940ae22cc434cc165b06bc153e99ef8e183f3a23876c 0x2992f33aadb49253268e52381db39abae7ab41d37356763402ae0cb2786610d18f5d73b6a76e228e600911882df52f 0xb0af37f24b02a3534b1b771c2e6e55d7ac66bfa7160eead88cf81417c98c09dd9ae5e2a3499776d1d8938129548ce6 (-0x765a71bfe4b06061bac99a0396eaee2280b4e3a81d3a621a9e1112f6ad0ae64b43f37d4bf19e6677f3b78521739172);
  Twice 0x38c761c69b65aa8e61a74e3d3983f0f75b56ca22f213cfda78bef442a51c743fcd97be4dfc187258ce41e8f176ec9c (-0x443904874442c416148180207e424c0fccbf5967b1462702168c4ee4e076b30947dc8f9707502fbf4a5aea08aa57860) 0x17738c90245806d805edf832190a5c489f33288ac73b0b66fac73dd77d885dc628587a86666d5a069865bee28b6f5cc 0x77e4aa7d4dddf1be3daa4db36f80c144957e9f61d68d22ab11c4022a84ccbf1de2c8b5fbbe17546b1a7101581fa6c 0xb4849766d1576e064166e0be7a978b64890da39527dcff0e1b098a0b06539b6ea29ac0cf1d16e4afb0b5776de24d6c 0x3cccab7f4d66052125c206a22a799e79ee807dd4f25329d7e3b4ffe9cae8f00f48bd7259bdae3ebd88aa0dcf1632e;
  Twice 0x9e425e360de290c2238ab148d7338ad9e66823f1b61e6317462e80b3d7da1eb2df55358c103213f97d14350d3eee51 (-0x350f05b5b917d2117123c69723ec312b983c7964a5a25c2529ff206b4b9ad1d1be775f087ebcde96ba7328fb4b68158) 0x11dda6ef1fadc6b3e091149b462853ca6aacb5d546d3983a28e2419619ebff6cc195386054c60d5d60d1261889bf72c 0x3a373634c78499bc1bb56a7e6d1dfb8ee8f3d97fca9930f1228fa89a2043c145a4b06184b91450efed3ef8ad0cd2dd 0x1aa1288257b1af206f87585570af20c599a0b3787680e3814e899039f431d8f38c680f1e6c62288aa8f92e9e03b8b0c 0x20dfcd737e68ef502b9945613b63b60f128e88f6f254ce6e0cc17936ea6f2fc4925e85c813e63497ee168e3de57828;
  Twice 0xd956961af301ada1fa55eb0fba16e8d4919c6d634271cf5120b656afa09c255a36e104cb319523114deca5107a5888 (-0x8b4def08e45d7f2cc5e63900ad98377c8098e8fde98de7f5b7487c1572a07e83bed510ce4f4f3c592b54b2c37dd1f0) 0xc6fd0a59e100b71cd3c054f7e09f3f9fa2446ef46e637a8e33b04d525fff8818e28b5d589ec79a3baa5792a1d82672 0x6dcaf64e38b7e6fc388326f92d01aed256709b83498fb10fd91615bec6e367c9557d52d37de4890bc36883cd2db376 0x10b447f0bacd81dd83d3642e1460f998105365ebb88d4967f84ecb2bb9856f2d25dc2b22ed27265578916a5ae4b7da7 0x2be1abb7e7b94641c2de064d178c28e19cf4ca5997aaedbf4614c6ef786f62b707d3ac82956b4510ad29ed71e3ca1d;
  Twice 0x675f972810850f3bdd43c5ef026c5db048e64861ddf9884c691bc4a1e9cd1c2e7895127dfa59667271a3509a75df4c (-0x93abfa39189f07b5b733ff786c3849a86b8521cb831e9e1b720e0319b4d136ff096f96e757e7f4451c581816109324) 0x62ddf8d6915cfb6eb30ab4d64fc7371aafb2b2f8f37affd639c7933973e61e0f02db2d111820945885934b2a2e39ab 0x18d69136b60bacf282e9477be24a66e4cb63e7e7079098de22a77677647859f47c340b8abe2bb1836d5bfce05ef801 0x2627f0fce6c1bf0c01cc2c7f0b69fdc6f490cd888bb3cbf22b9b348d3ecf89f41b26cf6dbbec91c2ca267d384c5f 0x180e88394e3482d0ccdfaf78f87c01f2706471a1132e18c86fb44203d9b87a79bb1df38d21d333bdf7c1f14d22da0e;
  Twice 0x46c0757cd27916c09dfe8b232d92a14bcd7beba78420c0434939f74212a1dd234be05685725ac4f186ea3627c58334 (-0x441c47d90357f0bf3c07cdf78047fdeac97d6a5f515056c7241a0843ca5dbc3f8de16b0056cfbbedf2969bae168813) 0x47522ad4724df65f95c12cf8444bf7b97d724007ee049488bae15348382ac1e19eb4f36b7a0d6134343072597a61f7 0xba2a148ff6ebfa16e74ed7ccb943a8a513454438eafe49c82536a67c7db138fc2d737489ab53a738299445b6f6d43 0x9de6a3259c6e3aa486e5410ba2d601b217e0115e073f8c2e369bd37a1a35f8cac8071548c8e7ee54950f5a609bd73 0x487aef0ac63c3bb7a4b4c59b8f63f90c0c40c6f5e5a6e2fb76bafcb431cc13290584d3fdd83fd770873f3b22ae2be;
  Plus 0x43ff5cf18ee2e54a039d247bfc544259276c5376dedac844904726eeb6fdbd73583470bb5fba3394242837aab9beac 0x3700607b19f664df832bc79c65fb25d4828b2d0827fadb1765a8ae269aecb6694ba77f0530169e1e752379f6f53c1a 0x1073b7ef3fea8870343a7ec878aaa843c3e2a77b00390d0434a306044ed91e8eac2f2ef6d8ecd0b7ccb8ba7b8931c32 0xabf3c31e4f09ac1a2e1bc0703f0c8ebd209a8ae612d1f7d22442770617971c4d97706752b2e296274bdd2a123c329 0x1cefdc52b4e1eba6d3b6633bf15a765ca326aa36b6c0b5b1db375b6a5124fa540d200dfb56a6e58785e1aaaa63715b (-0x1e54e4f425122808e1fd8127dd4148145eec3cf1dd431051b577691a74f90d752289a7253cd590aab9f64751e51872)].

Definition three_x : Z := 0x0.
Definition three_y : Z := 0x1.
Definition three_last : list step := [
  Twice 0x0 0x0 0x0 0x0 0x1ae3a4617c510eac63b05c06ca1493b1a22d9f300f5138f1ef3622fba094800170b5d44300000008508c00000000000 (-0x1)].

