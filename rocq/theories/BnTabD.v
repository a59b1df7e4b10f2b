(* The Poseidon constants of starky/src/poseidon_bn128_constants.rs (c, m) and
   starky/src/poseidon_bn128_constants_opt.rs (C, M, P, S) for the state widths 16 to 17, as the
   integers their hexadecimal strings denote. *)
From Verif Require Import Base.
Open Scope Z_scope.

(* poseidon_bn128_constants.rs:8442-9593 *)
Definition bn_c16 : list Z := [0x11e27da7b7ef964948a332974d07cceea778bc33aedbcd09de222fa22ad0b101;
 0x1f60381b83b44a8fe65a0f4142faaafc5fbf55f79133c5740c53f036a3065b65;
 0xfc1e1ac8ad3524ebdbfa45dcc51576548234d0292adfe1cd70a706a1b6dadd8;
 0xa40798ead3a12b78bcd8f10bb15cb0c426bbd2282a81dcdc070084ce78b8d76;
 0x2dc09d3357051155987ea95594436b6cbf393b0135f51e2f675ea5f462f4a9c5;
 0x104b9241d534264532eda181de1a154dd175ee150f349033e46ddc54181da088;
 0x127a6208d98f6cd387b802fa44cab2037b3b91f0622f17084f1b8d8ac9d12698;
 0x2d075ceebab54341dc02fb1f50d938ce1dfdcde659955a930ec18f8625f86d4d;
 0x44fd5c2101a20be2ad923bebe15a477f40c6039a3dd0d7443fe72758042010c;
 0x2b302c8511fbd3702b815564c5399acb8a8f2a8eb77f96c7f0849628e09f9bc8;
 0x7cbe339db90599455d1eded1e8a870bd302c92a79b1d0f4ee87222cce99e22b;
 0x1326749312c6e8bd4ef24c97c809f78ae548394c94c3df2f28ffa8105debe211;
 0x54021406b8d1f8c7080e7c245304e4b7a797cd236dad92d929b223f269780e0;
 0x5c0e033b589f8ddb23a9d559eaeecf98691a8d018f1279bf406d08f2787cc42;
 0x2508a8cdd450f969b61c749d566c9459a16ead4330e35d5415b12eca38584bb1;
 0x264dccc02e574ca7e736da25072bd8fbe9909621fd4f4169b2bae8d368ff12d2;
 0x2a938c2540d63615763ec3ba10c1a26001b9f4bf1418d1092a6b02dda5195db3;
 0x254f370b85f58a7e4ab27a6203f3a161c1b070faa3185baf2852a75a865a400c;
 0x4801896f1268e5abf83712c7414c8953d6223e51c44cb2dcab0b29c14952ac8;
 0x1f7188e4d4f7549437f48fdab22e874e71d0a1f18c30106e3dd2721f99da561f;
 0x2b9273701ae02d7b231ce443af1d80bf21d65aea616353336059f755edeb68a0;
 0x1597224cb8e905ced829620aacdcfac76e509a0f7bc186fb7060196db93742c6;
 0x1d8c5a65288346907cfd57a752372196841e6323e96b39da7fd17a82c5e12716;
 0x1b75dce950731f508251b86a7e1a5139920d2bec18798d439f581570c1dc6630;
 0x2773a01869bf9ad359d5ad8209b337119ff8deddfac6e4ed2c8fd0158ee8f2ab;
 0x1a5d47883f24462610cbe7ad0e9b1b8ae5930bd3b9d4c1ee01984f6226515b7c;
 0x19827732059461e2073cd90a09ad54149b1ca5909b96281a47b2d9c398506cfd;
 0x297c8bf54b03a6f7ff272465fb881c918551bbe984751f3e9f2b30ea37b1a4f6;
 0x1f3da36b1ff5283b078b69f5f3a7d4bab15a3087c5ae8a6dc307eba7722e40e;
 0x167ced6e39dd3bd6d655eddd2abe6c68ff247d86f9a6a6bcbd41c98d37b4f132;
 0x85d19b0e16f0ac29f32da541445e8a8a6db9a7bf45e741f9f113e7526b8208f;
 0x4f365f710e9acd5c1653cc6fd8e93cae2a0d363f1697f3ef829f7435525ea4d;
 0x128d4f03d03d7097d3a22cdaef6b11f329caf0facbc1a67ba91ff493be9ca715;
 0x280210dd41268b133c9fae770b799affd3e66805c6167415aca36eaa02db1021;
 0x204ee7c7d4ea06f7ca65faad631e703e0e3dbb59c45b51dcee73b0ca64d45cc2;
 0x3042aff09c1765b4fd7365a6dca0f1172666fdc0e549822b03f7388eac33d786;
 0x23b78077e751602be7779045861cce3ad318670bb82f33c2939f66d41554c7fc;
 0xf351e14bd3a41ad7703cf9a906bad791a627996b935121e6cdc3bf71292cec7;
 0xe67b0135f71d48596749f9fa8585c3789441022d45b5b4611a507bd401d0ee4;
 0x6e84634966d462bbd68c14ce6ee1662769e43314e0eb85e3d5909f518da9df3;
 0x1761112f15f357cf96422bb46796f57c2c7d6da40169b8f5794841e8561fc02b;
 0x24387ac57313799c7756999bfac495b8fe377a7385526c8acafe14e5afe039c7;
 0x1f3c817cbf94302a06e3526fea7b3218a287a31299f0dd162b66d358cdcf2370;
 0xb13cf25c272dae339f1a6f30d43d40f74bc0b938ed73bf16a95ecc3c4996fc9;
 0x2c731e62db4cc41c56cd465c4a5e8d5719cb50ae7737044fe4ea859665997f02;
 0x961bfea8f9f2a708f3adfc127fdb17ebeb4a5632a8264f17a494c0f0601156b;
 0x1eefb99fe9dac9a91963f112dd357ed51f599b9254e5be2c75fd01a58ef7139a;
 0x2ff9863fa2a6cae3de116b1d6aa56a8afbd93c70417b8a0593855a1ff574123;
 0x29655fc030f0a0f6dd2b00caba527938fd0fdf41de89b42eaa16ee598fd031f1;
 0x2d9fe744f2beadb989869fc205e9487697f56721beb1ca230b59b82eab27b050;
 0x4b4c3f4f1c21d6f389848280e6e006c0552451cedbf5ab96defbf0c2cb9ef92;
 0x13a8f3f3d0e87d53b9e959662a069638fbdf077024564bc2a5676f0247e8428e;
 0x1875c2e8f43d9660e1a556388fd81741eda7e486cf6243c2fe1752f919859b7f;
 0xdb7a917f7efc1d2167724af4ea32b1f6a6cc23c1db5abfad9020dbaf5ba5371;
 0x1c56db7a81fc78b94b267dce45a4dba48a4288b99eabd50b1adcf132dd4a7c3;
 0x1c9cb5a5d0274d9dc31ca07743d1d7b4d416801d964039851f05678e4be82853;
 0x2f786dbf83bdbec66ab656694d5348988b8252b4f5a3f4a452a075f60dfe92a;
 0x18b9789a7a68183ad384ecf038429f75814593c0fea1fd25f1001c3bec4488c4;
 0x28eb1c34f770ab912b55482a946bdaaa29df2b4c947c29ceb7c8a19e38881d61;
 0x26e9c9daab62a9f1d6a4c694bb0c6fec274787a8322343c03f95dfe65ee78e81;
 0x111977858879145675ba7f1d70f301294feddb0a802cfa944a75907a4c2ed15;
 0x164f34b7c356b9fda1a7d8415fabb683bac61ee70c23573fa72a9d756ba52cf3;
 0x163219ca5322b3774e75b1e6f75657e0bbeb76a9e323b7c788a7dd6638b2b3a5;
 0x441594f59c65d1a8576b8fbbab4058dc39002a1bc4357084194ce632b9611b2;
 0x4cb005b4d43931c9c4abc50b639a8e6e20b3ca5afb60b06140cb24b7e4a691e;
 0x25eb50203caac17c399c83c674cfceb4e73f227228647f9d220e95d3434a04d2;
 0xa605f7fe9e36bb7504523525169c6689cd6d2fd076d7dc11277ee1069316776;
 0xab2fe209b9dfc7c9007248cb7ca36b4c14d991ab3b8d04a163eb0e836a46c58;
 0xe1459cb5c0add6f90f949965603320b313454e6747af5f399566f5d23461326;
 0x45ae1dc4a86d1ec80dc442edce9682a616d26e76013675abb04cca45fce07aa;
 0x1834f47c13698cbb916059cbcc88975fe15dd0e9c3319865e08147e4d397a970;
 0x2039a1c7335a7e4c7a694b5c5b4e1b44f620960d88933ed5237422ed53189f5c;
 0x2a10316f1e66acf32e2adcdc292a350a00d8d5e87ec5dbb66949e3f03350bb3f;
 0x1360b91415459da5840edf14826aea05281f973dc18133cee5cbe2761176824a;
 0x1505e255267d336a081db6f08a897bf2ba40dacd4ec1d61a990cfaa40f6a5f6b;
 0x350e3020ea30d1e779d9813a0b650977adb1842691e8a364c12b8e458f77d33;
 0xeebbd4c2b0c9b32b82d96d64b0d221a8dbd06413b607ba69f4b9d42cc12cafb;
 0x15b2d4b361df49e3444a2404f7003ee043147cac3d1428711f1226b374d87f8c;
 0x29c8338c5cfe98df7fd49f9316b4950814dde9d66535ef624e892c35d380b18e;
 0x1d7a2627f55aece0cc81b775580ccde95fd10f112f8ea71a7f8dce7e9ac798e6;
 0xcd634c27ab406058abda156af456572de2f5492005587aee69c7e5d345d75ed;
 0x1303fd48e2656565e7a16ca8e8523131493035a9721d354fc44d7bc59b727adc;
 0x52f5a4386ea22f5ff06ffea6179e58617bc908a3dc6b1e7462819c9c9e906ab;
 0x77e3bc5ed1c34ba3702fc0a42c45ba5c714a6b0c10ba2b4d8c2a7aa75959293;
 0x8d88160882fc8afca6044904e7a984f85c99efcfe147bacb0b7f1046f953d65;
 0x1ce3b22dff95f834c7e5b6326029c6bcb4d5ae4b19ef69c40419d1aad796a189;
 0xd4fd994dbcc15262df5f3c0c9adfec2683e3effbf506e5309dbd8c2b988ab8e;
 0x2ba6be5cd79aff7462511ef5a38a4f8c78c74fd049e6b8657cd044e82abd94b3;
 0x9767a2d9dfa39e67c95400400da96a192da6fe5c0f02cdf1b9c39dc8e96864a;
 0x10521c723f47dc5fefc35bfe0ce7e33d2e045b2a018e1093662ec84f104c05e;
 0x144f09b80346ccfbc0865fa64d220d6dbb7b3e8bbf0363e62fd8ccb457bde1ed;
 0x1fc0b9932f74b4db56d09315cc6a8e86205276ca3e3b124963dae83db5ed6baa;
 0x776d2d972a004c04a8be7b5f2fcebb02e1a3b1b787036e3514bb8f972c8361e;
 0x221d6e560e54eb27665128f37e1c312528be49af3aeecc9d7c56755f076758d6;
 0x164189cdfd9833b71c1f8372e999ba27bbd20de62f965ad406d8aee67b88e1fc;
 0x1e3e736ecf9745b4abf71a4d863d8b6d03523eaf82d9274526393e103b08a3cb;
 0x1ff3d30b3286b988f501ec920b1622d2a0ba2cfa9dfc589c53f639d379c10051;
 0xa50d9824fcc95a9d22bc08a592b1a6d396cd361940abc3f873a725230083a7e;
 0x2db50a1e16be63bb63d42de51689d990d2e4721b93a07edfba28f208965740ed;
 0x1282594ff20212e8a581a228fb4405f2ee7d34445566fc9dea011d89b202bb92;
 0xade27c077951cd335ff789b7b4d63ff5d0bceaecc46dccefe0680c0ec6ef09b;
 0x27374adf1b38ac62d078fa4e713692be324ca24f2ee43e24eb62adce2f3e67e3;
 0x2eff75fa36e8716c9b6ac0acb78da92970cf7aca6a0ec3b37d86e97538242e11;
 0x1a28225582a1edd464784b11ec7eff190fae33a61a783b845327642e82fae68e;
 0xe1113e81de1bcf204e51a8cc3f200047f3d8d85704c44f5f5ac6ee862c9f439;
 0x210575d20f3c2816b807074e72a672a50738ed0c4fa09b6f966223903a479f5c;
 0x21e897f749c84ac2faffa9e264ac61b983f03bf9f337bdba4dc48c5971a14351;
 0x1a5687dcbbac62972aed85c50e70cbeb50193d831c0790ee7bbcde7d9738a66a;
 0x4105499d5cfeaf115fe0a40d742844e806b107296b306c4d556d2f244e49577;
 0x1af9497a7280e1414956e80f4f072e2f26b50a06876967cdd57aece720c6be48;
 0x2a0e2d3eec6259b7ce7e0eb1667e8ed0c16cdbfa2247b8bc7e308ee32e2c6031;
 0x2d7c986d3d3d3be8c70105e48492160ef85389f1e31dbc8814b0cd3e84ac5ed1;
 0x251d1231e763979238b7df4a8c0f5019271de5e4389e84c09e5a596d4e1e22bb;
 0x263b8dc03ac7d253f5cb7b8bd922a290675babed6364ae12cfa1fab8c56c37ec;
 0x7c59c31f979dba930b94c897ce7016c9ddfc527a696786b7e5e1c1938a2c28f;
 0x9f47f021fa65de6b54e751dd5a4bf917bd7574e071c7bb31bf1a4e63af2150;
 0x1c160043dcff2330ce441d49f2804832969f2731383e524c8e7a9813f741ddee;
 0xc5b6896687f066b9cb23f21b32c269092cd6c711dbe66bfde09858735cb837c;
 0x23acbd7f928bbe5b72a7ec442e6684c8f0d50cf823f02804c7850933b9b70cf0;
 0xe8ae8a1d1141dc07829413847ca857105e5189a65df9ac40ead4cafc21d7ddf;
 0x2eca0989f9ab916d07ab296a0224fda36a0bc7a5abd571f3368054da7795e302;
 0x2c76ceb7d040b4e58fe06b7b0fe83ea88b7b4cf376296771ec15d12237cd8f24;
 0xc53afd1b381167d73d14ab7db8ea41b9335cec4194b105aab7e0060ee1e3044;
 0xc36629562a7dc67e58cc15bfdce2392b3a1673602e970f174cd6c6b14555322;
 0x52d66b614253ade8f74000275db8525f88cb7a71b14df9d8aa4ecf26f4c9bd1;
 0xde6ba1409046058d8320fd0ebf9fc5275f837ee5dec27963db414509f608f9c;
 0x109ae0524afc2b1187e88c2fa3a16f6388568b7f8bdbc4b399fc00a257bc1b4a;
 0xb13e5f2c901b454ca49bec29ffcb5da3e13fe237ce86ededc17da40b9045053;
 0xc9a986af2ad58483b553e95c68bbb3b45829ef6e4e7a4ab85f1728209ec059b;
 0x93a4e1fc46b86a210890e741a14ffe41249eb0b0008264ea6dc319a0735cca;
 0x1bea7e52a3aca2937549923dfb7e35fcdf8f5c81227637b3015ed1ba712657a;
 0x11e88dc0b5900bd29542fbc23832e749bc9aab6347f0bf97cd3a36c6308fd596;
 0x138741f5ecbf395997f21f212e76366491f0f58ec195200f1033855ceba4302d;
 0x2447012a946927a4240b4713db8d27e130e419df4fbb4d68a1e0f1b95dd366d1;
 0x276193a782f6de5b903945371e5341b9e5dcace04b9768e67be9830a2f674d9;
 0xdf9bd68c4fc32c8c064f6c47d517b13888677c985d3ef1f1c49fb880ded7bca;
 0x29091c18613963c6cba4f4c0def50fce1cab647a8901957ee2a55305c2b0f8c1;
 0xb78f8ecc6577966fed47ee607e25f21b41fd67a5416de3641283f2fe825c959;
 0x2e8f059c9b78f62411b017f87e900fd70c8036be1769c5344eea4159c62b6b3a;
 0x3e34c2876a83413029cb7018f657b52ac287ba351f2521738ad7d309d1b6732;
 0x13a1f660a87557cecf01b505c1a47fcdd6b52c5f05a1ec4262db308ce86f6b2c;
 0x10e9a5996f8e3390b6b786102cad914520a8e93e7ed551b48f3245687f14d35;
 0xbdbee9846a8d67cd9d54f0433279044d85076041b07c3e224b38d208ff48c4d;
 0x2381dfdd9bc337d5d6fb861e16ca28d117d586d16d5eeeb7419a661c782c1f8a;
 0xb856bd8fdd6ebb7f0f1ded0ef19204691e1c3781f8a9c4f58511f1fa484fcc6;
 0x16ec15959be8357513caa8a3fef0b2fc10b1696b81519b0a2cfc18c913178b70;
 0x1943d70c0ec13c9142659121156a773f4146d548cdfd42e40a215b1659486e31;
 0x29e5268ac796d26efbc2cb4f98e2c2a01effacb1501b8582ccaf1e311af2edb2;
 0xfd72d28e75be53d626937f75af22f744ea1b7dcffff94c866f3da8a8978e4fe;
 0x19ce9f98a369869ec45bfecb1f112a5f7062fcd6c75dafce902ac70ccc0ce370;
 0x8a4d149a8a27a2170bc9ce670438eea64d211d3a97c702c1b01dbd3bd5e91ff;
 0x19150be38fa5e5fe4de7ebf98d59fc9af1abaa13f5a068cb716002f3a6983910;
 0x23c45261101440def1c0c23ee7aaf5d8b15ee7bf31ff7374ab808374d8daf697;
 0x204a9542c690fe338feab653e9a46aacebaf2df53e4e905e896414cb5a0cb126;
 0x128efd4c6254cd03c21b21913ce52665facd0e9c46f465c51a458124723adf10;
 0x305becd1cba07fb742c9528e4b9276d871b1815afaaf6218cb0e758aae5ece7f;
 0xbb14b69696ffb4a46fb91301af32682fee9a391a5372ad19f3a4e320bfac6a0;
 0x2f981d8eec9950e39c6fed8079fe44a2f256e7e686a60cb754bf183fc3aede0a;
 0x2e38c6f6a7489a54ed982c483a2a7951eb3d0b28e48ddf8b57d2969f78369337;
 0x1bd7086eb7150c0dce1beba39a67cbade72b8b72e1c1bb6f0ddb51c13ee583cd;
 0x1c8b437f2be3e61671e6b62fb698e8af1872031196a43ffe76d1527b2315b461;
 0x2b91c7a78289a7c43e1635e8eecd50ba4c9669431f10243a65ccae6031566fc1;
 0xbdf989e7dddd8d9451c4561ca77ba707b738f9cdbff5d15c110ee7471370f83;
 0xad1a3217e86645a6cff1a4d86ca1f19afe85a45e74912d616a4d2b430bbd479;
 0x256ff8d3f524e4ea685780448f2f8c55b5925342f08f944ac78d4acead07aa08;
 0x209d7ab297f5a31258207d3ceda7b2e121683d20ae561c6d460c11ebfb1b6b01;
 0x9afce8ac2c2cf3aff6002441b98ea52fc86d3ec411216e3d669b55ce5b8bf52;
 0x29f82b1ec02e68c25099f0104815897e33ed9c26dcff3b2c89e6a3471222c934;
 0x3cdf7f8fb015f6861322f7adc221ada280021197bdb71f800ceef89ed021dd2;
 0x27eb263dbf7ceac824d85f2a75380469227033dd02153365636df044d8cb0b61;
 0x1628cf084280bc149a9e3ccbfc5bd08722101ae4a043d33b2f98ae76a9d55984;
 0x2b168bfb1e6c4ced6a44fdd5618617dcb8e9c4dad7b04c4a8955209f1b61ab93;
 0x57de07094dca307236a6a8ccb3f1720778549057aeb7a7daf8a463ba18c85ff;
 0xfb079650d5ee3f78603c60e8b545313be5e7f7d6c1a6103fd79f100ac8ca101;
 0x18d976ed9d44fb7437320b91d3295c8e336e7b402659149b2cabaeb272fb06bd;
 0x1edfbbef180142c47c4c7f3ad1e2cc81bd020abfccb432ee327caa22e93ff45f;
 0x2510fbda0c1b8256290a2ad3b4519c815f0397bb8c85505af672aeb7da1f925a;
 0x14783ce9bd49860f364d0e46defa666d36138dc406255b9200904fc060cf0424;
 0x100e00477369c0c6778fe65369744816331bfe377db33e66f63ace31e3b56857;
 0x1aea93b51726a8d70439ddfb7e2f8774bde996b72f9cb00cc3d7f2ee2e0c45c3;
 0xb14c0df6b2222d977213161401229763a551b889694dfd30e80df7e6f76cb49;
 0xa643ba72531a192b1ef9c8274ba8eab73fb1a64c3951b672729c60eecac354d;
 0xc36a12c83a445a6979b13a16b87a12bcc635ced8c8421ef9a8cb2839f396b02;
 0x25cb792acf147080d3a3c2e87f729c5ebec1c43898e222fd0e50a951897d5d39;
 0x1e1064f65448355486dbfa2c2c83579fef6431deac35046fb277b5885b09bf99;
 0x26440ee4fc4c477d379980c1834a3b2f3b261d7ed7b913e2950676ed20f87854;
 0x300acf3e9a901b9c681b43a6ea7b482cbfc4495dd5125247d4c9b2ab843aafc0;
 0xd27833da8adcc215d9a530696c52693b004de152c6471945ca7a1701c3849cb;
 0x1c4e8f6024bb796333f853462a295e0cc16a6098572ef58d159a528cf886aae6;
 0xdb38e1071218ef0ee5d77ac780dceaadf1cf79dc9f24d2f3c9d58412b1a5939;
 0xf8a423d040aef0eddd6efc469f4dd9ddd7fe591a4aee3ae3906da7a77f8bc22;
 0x9da570d55e2f64c94e3b2e7a2e255f059dd362f796a69142966756fad8590c1;
 0xd7cd5c265cfb5b01a59e4448c67c7addbc2c09b25f078b23c520d78af40057e;
 0x2c9c47bc4c332aac15ac68bdb464ae193a745c1351c7d1230b261fa40b95df69;
 0x1ab135f3c81fc395a7b94e0b9115359101ec75e76adfa14529759393a1789c8a;
 0x30521d4082f58b8f3a12b7c8e41d1fd968284acf12143d85907ec782d3dfaf9c;
 0x1b90102210279a42b7f8f26c7bd068dd82b76cd3fa2f330145698a11f5ed996d;
 0x2e9ac434179029826cdbc624b3208030d4f0b265e4a8e1c70b89513103398096;
 0x2784c3d71d125586185496e3fc7c369996e700ad9783b23f41fb483cdf8eee37;
 0x25305428921f6e34da2ab05c3b762268ed1b1bc3f06acdd1dd5e32691e62ba8;
 0x1d3006e6c5725e17b5828b5b5a23716f9a6d0a4c867fed2cc2543dc0ac99daa9;
 0x168767323e5097bb2fe6682bf6ac8bb5b8f9af071ff2602564739988a3a6f0bc;
 0xa5d80b200e7ee00500f5268dc319e00b797d0ad358989a15d8af551421e1bd7;
 0x25dbb5423ee2a7d7861f9982f522b0c3aae6dcfd0e90508cb6550f724d7b8282;
 0x25e1b972aa7576ff000acf7ee101175d1d1ef18264415d4fc9f4c5c3362ab026;
 0x27a9c670e696ec5287b8b606a5c231ae0fe3cdb764e2ef99ad255231b98500ff;
 0x260d6606a1db4854bb358fa415ce13ce114316d871a7a2b90d112ca2eb7bdf05;
 0x2397a374f84a29a5ad3798bbce567eb631730c745a7d389e654208eececb28f9;
 0x11ee1c616304dccf020f88f6a48fa4072126e64e2796ffba89dd93b3a91f1f2e;
 0x55ae011520b4ec5b5a77d3b5f377a252ee98781a8c2944d2bf0ae1867ef9215;
 0x17007f74a2fe2b85581af879d136d587cbe18e9a9c3ba1ac01c50cfa2fb8ed4b;
 0x214ac964b34b210e03297fecfc88f4d06a85fcf0f15e380f948b15fa1304ec1a;
 0x1c2146ea153de11fa480b444285fdd1cda53cc2728a796c375c47c2e2d574042;
 0xca0af024d983aea8ff6340dee9ec828dd798762c18f06bda92259b3c158076b;
 0x12f82ce9da76870a65735548988e6e0af180c6d4b5d98c5ae1ab86c055ca6e8;
 0x255f614a333b1375e92526e39d3763fa78f13e535f7eca2a2a7b97ca0d44cf6c;
 0xd0354ad322f5e1dffa7aaeec44429ffc89e4df6081c049b7ed3d3de082e7b92;
 0x39f496e8bf76be9faff69cf331a848e9280eda0326d5a191311b5dafc27eba0;
 0x1b0b0e8dd862523da0903ccbd518edc5a129517fa698941fdb0925ff03cf5794;
 0x221b67c9b923277387b91fd41c7654d37ceb937ee692fbec3afe6eaacf2eb6b0;
 0x125249ba3c9ac4c59c1dcdaa6de29ab9ad1480f8b3f020e468608f65bec51157;
 0x264e9390b7b2787c4ae35d9e35360d7807e3414b4077b533b85381811d1e730;
 0x1a8dfa17839af5cdac40ac89c5ff2347e70c17706e32688cf7b18e09d19b752d;
 0x2ddb274e22f13d1e9c186eb710c2b3cf7bb0378ce46226c1bca058f802e1da5;
 0x1ed91d70a1e0e229d8566bbcaaf63b0aaa3236dc72dc772ffb5264c340f945ce;
 0x258d9714748ca3bad62b1fc9bedccae02f8861640906580d683f21131c5205ba;
 0x28094fb0c9ce3fa37073de7a1261bf0f3e70f6338fd598edaef57849297af20b;
 0x1b268245960a242d8d60f4830928fd10b2bd9b27d8a731dfdf69475603e4779;
 0x1ccdc2c48249496818618873ace0bbf4ab3a3f2f6497f939be73330ad18bdd6a;
 0x10d7b6fd7c71bab6887f51ec5639a447682d7fd6ba710e8fb14f81ed72c71f6b;
 0x14a136a1e4827d707dacc928f8bd5234cc327c8a3e4ba6000c6db5ee3b125757;
 0x2991208842feb5c9b11c6180db57f479c3289c9bbf2b6d5e639b14d77cc25858;
 0x864276f06cf50500d51cc2d6eedca092f1efd1e35717c91b5181c66eab3485e;
 0x1da1115c035901d42d512b03bc2962d2f3de504caec08f18437c90363a5cd18;
 0xce4c61522cf118b66edd2dddf683b407fdd1d00213f2debf9963b5a8a297613;
 0x22822be14736c770dd111018ad3a4818979da22eb522bb3ee4b3ebf4f94c0138;
 0x2488c2ef3cecdf980e826af298af3b81ced49000d09ef6cceee194c13f3a44f;
 0x22b3bd43bd130c0e2e989fd0633e352805ea72c21441ddb14fa2a4d7ff5b5ebd;
 0xffea11d900b5c13cd8e4632e92d28e55f4b02b9ae182eb262d9fc054c592acf;
 0x14acdc065935230efe80adbb43ba56e4815cc53e1ebbfd39004294d9e376721e;
 0x15fc1e7cb819924b6faea51fc1adec10cd1e3adac0d0a32460a0d4a95a03c6a1;
 0x547d1912834376f0035790ee7f36ab73c9c8f41e1c4fbcd7739b4c767622c51;
 0x135f9f4c16f97545b9cdb5ceba5acb9a4e52ae255e2a69e22b31145737898099;
 0x8ce4af40d7de598c564f0c38c6620eddc9fed826c4060aa6c28f0edb3345e83;
 0x21d6a6d971259296ed9b72872104b340cedb9119c4774b5b08ab4bad29c161e7;
 0x2abc622ac35f50241f3652aa962d4b045c8ce1b4d3a77c51a5cae9995c6eeeb4;
 0x2545b28d54fdcebe42f8a4562de1061eb216272889536260d5f32decdbc4c82d;
 0x2854260e63dc45d22afd22d8c9fd8c22e1da68f4173a4028bb885bf7fbb4ade2;
 0x95d54e568987ae7c379dce46d678537a26d61558a370609f491cfe778e8fb9c;
 0x2ac03c440c8ae0f753a4f633e704bb41f8c751cc463b91976dc63157057cf8d2;
 0xce597700fa4ef07ccefd26ea346c30618eb42bf9a4b7d791a957736798970be;
 0x2c13a4027f4153b3680a29b7268e1eaf78ddeef9f8d1ac0866595cd9503b836;
 0x21a643839be351a4f38fbbb173b5b0eb5ecac4f78b77f6830da680ef5aba11c2;
 0x53b07c71cd864b2113abd0705fdf242cf3ca016b2ce545cd1877ab44ba35cca;
 0x1889c70502e3edfb3f20c8b32fbedaad51fc6ad1caa14755c7edde52e1d4ba39;
 0x16866b664aa3f628ce9e1a79887af71ff1bf20d4df6e707d51e05fec7b8edf61;
 0xab47c201ad315c7220412e1c304b812546d4a3d84d0ff71c7a57018e7dc7834;
 0x577bfc93b1ab50ec622257ceedb3d2f4a5486002f7581c9ff3cd22f3a5ddb65;
 0x7900aa352bf959e718e5284a4485f241a74a0bb7f730166c297e448732d6ccb;
 0x2635df956b7df3f7de298ce9e18d310907e65c1c96502c693d1be9554bab45f9;
 0x2e7115f1d6bb75fd5adfc872613922aa172fad9a29483b4872e5fd21c8374306;
 0x28e330b6e413acf334dbeaf1969d566977dca676b4618ac27a530b6c859e5728;
 0x27e821c205286813e130ad991acbe2c71de552ceb2cc34ee727666f936b0e82e;
 0x8222684d80154930f962ddf78b2c56568a59e5d9da21ae8f063adacc9c2c38b;
 0xffb7cc3c05ed4a3084dbd743112c05f254fcf9b593abdb82e25dfc5b4db8fda;
 0xd6e11d9b51ef8fa12b034fd87068fdc22f0a4a3f793dc6c9662eb9eb915d279;
 0x2c5d6dde18d28b08d919f3981e5f27a99f2c10d9af52677d244ccf6480c6960c;
 0x10582dfc5f5399c4c952550128efee21169a4727ed9e1c140b9a22db6ecbc0f9;
 0x1c58fda68ba74bd534d519006cae71804c2e6074aba61d95f7d8ac84a3def0bf;
 0x271044c8d54e1a643dc46ddb909ff4078e9534e8d23a8c2a1916c9c5c2b1d8cc;
 0x186c5e24015fb0b6a140d7f5ecec132b14b85966768ce1b39c20365cd3f5d335;
 0x1ef5281243bd23e1a1d3f0eaa8653e2a642556af81664859c816c5f69b1365ad;
 0xe9af53215e2364935a0272589b5c3b0c80af154cfa6cf64969885d37cfa68b3;
 0xc0a5c9bf118a07540485a024f1cf7c7cf0688827f6c1d6d93f6315c62a02337;
 0x2752ea3cdf410169a2b9f7d940b9301f855cb888ff55dca8d5fa0f14ccfb4c6;
 0x1f484d4e14af3b11cd257eb79fc52785fdcd8ff152dc56dc9f822475289e3d66;
 0x18a42e21ac35ebf3034a6b7e836af6ba99686bc07b1ee828fd18ce264f98af14;
 0x17bc4fcfe167ed740800167e4d386431ef1bdf24c6128a964c027aaf87922fa8;
 0x2fc3b7b410acae015c637749d9fe90d89402b6b50c9d844775316c204bb4a3bc;
 0x23050b3666768fa91186ced8876f0c35998af3ee48ffb141b841a792151e8e18;
 0x91bb332b35d6e464789951159003f6882fc864a87bf52899711e84d7a696e7b;
 0x2ee7bf6ceadb5749612d3f3237b181d839b32c66b51c3e0e518d6196e3fb1ad9;
 0xe5037b387cddecb84346cb5c04ba1c9a7600253c75f28d14c938916803ca018;
 0x1556d870d39bb506dbb69cdf14cc083080b8d81b1450048090cadd910ec7397e;
 0x21994dd012c107a165f93ad7e28bcab73468645266ce123640cfaa8330db37eb;
 0x2da94256d843094dd9bdbc75b6c88634cdaa76e6d2bb2c7a4b9c23260e28144e;
 0xbe0a92edc48db09808d50a03956b3e847dda5481fae1dfd077d7821d9b537b1;
 0x1d332c7d075cc815dd316307189d93e14f0bb9e201638579cef3fa74568b662e;
 0x15a8d58dd7b443b1e047e330b99eb9007b48e5c1a48a65f04c2ba40e136ba98c;
 0x15f0ba262ebc5d722d3cfe67bb7d2fc20375faf5cee78716a321ea37907c7942;
 0x2cfb417b5ebbb0015efa9458687cd92cac12b9d78c640336eae91934fb36f1ea;
 0xd331b322888532737741c8cb532728decddd7e7c3c5459d830a8ff4395b9dca;
 0x188a4855919f14b790002d9bbacc7fc011980e3f5197e53c509b9b04d7023d5e;
 0x8cee96a66c1ed7e3f978607c188fb906123d343f4bbf02d00920a66d243ea9f;
 0x20b61c43e264decca5db37abfb717521e78ecf25d029bf4ba611426f1a82d558;
 0x1b70bea273a40aaa74ced8369d5611aad3452804196ee87a3870450c22c1cd02;
 0x24c234bd6c73e17254efab015050a01b7ac6dc82a3354d6e136a94f75a1a7796;
 0x2a21a5594707eef1b1070ca39d553ec74f8fce88f64f5f494e3ca2b807a77047;
 0x9cdcfd503958b901b3c6dbc1681386b7fd0e338313e3bde4ee4cc6907175f35;
 0x37213fd6b9adf8b983606125320f73ec38b1e33deff6a0e719ea82fb5d15563;
 0x2be5b55d83cc6fb32ec758e83ec576f521dcdb1da1374cc2ae0224725d6d5d85;
 0x1f9b9850a392f6da10fd0088fd06054e43d5e204bae3ab38509dbfa188589300;
 0x968a47a748db23b73e1a1039b2ab2533ba91a12ed80e30afe4754c03ca1caa3;
 0x1a624785eae483bd8ef9d81afed0c8612bfe450a124e267dd83957abf6a3dd15;
 0x25ac240c7126a642eeb1298bc19876d969d9cb5ed0952cd446eb548962bf1586;
 0x27151bced14b6f53383bf4553bc9282c17dbbb8cb47c1e847ea89be43ec167f5;
 0x1ece2bec2de7891272f8f2f11fca0c00caae162e3fdb06e0548a1fd905fdf49;
 0x27e856df227cff7d93cf1d0c05a10d1849345e99d6956a6659ea11d7d7374c43;
 0x1ba8591af1c58a45df09034774a836e315884127d62ba02b4e99157b62b8c467;
 0x2f11fa9402c5853bd308181c6596dce77c95a431928d16b85340980da12e532f;
 0x19dccdf36783961a18c8e432618fabdd0892cc17cbf38ebfce63a2bf846232ed;
 0x1350eca5a8cbc2c53b6a9df1a39ac7d72f0183bff9fbfd01757f08768dd52d6d;
 0x230585af7582b6a4dc662070eb37eb1c3578564f80a86702d5a046fe7b251272;
 0x52a71b5daed70d11e7bb9ab1a6130cfbe019383dc14f99fe2b53108ef831183;
 0x7851ddc73a2c6f97b8a08a05bd1de3dc88e04910bea0d837164f2c574c3d337;
 0x69995287feef5bba996cbc5a831ba001095e26b3e6b5e35f9765fefdf460e8f;
 0xa69204150bdc7bc73297aa4bf156b07fa581ba2def6924e2868c7dae84c74ab;
 0x20fd9fbd1536a33deacdf27678b70436cb81705e267cdc3bcd6926ad26285114;
 0x2eb1a2eaf15db5d578a921d8e77da62f9e62282bbb029f0cb241b6021364eb40;
 0x51f55bc0974ccb75e69b79fd695fd54e210ad37034836b401f2f233979d5de5;
 0xea1386d77c0f896d00ada2bf96303b17f1b4318a7dd5d959f3c8ab1c25dc3b9;
 0x11e2fce0eb7e64e488e0a639a5f1dd20f1db91a1cdbc79f47111e0e0148b4c2f;
 0x22633874fb5ae4774d1f02a955a7475f8e929ab6749a17cbcb0e12663eb9de8b;
 0x1ee2613b8ed5faea8c3bb5f38f8e7427528e52b36a5cd114c8d8465bedd6213f;
 0x1b3ef2535d759add05abf42ddde283129274a71318834b561b07e0b9895acb23;
 0x24a084eac600612e07a30c5f1651b9843fbefe25e65077f1bbd4ed75e478bc35;
 0x49c2e0e7e177a16668e8d6a2831d20bf52c915586b52be3a535c386e2e23fb0;
 0x769d2b56d0d48053a2dbad1ddd11f7262f80f04bc7a8f61dd2c4a93615b609c;
 0x1aa20a25e4526401305fb2432c897ce83c4e4daf9d4b6fc5609df0dd8d0c8279;
 0x20214d534469f0969a8f57b36f6d6bb2125e2ea61b2126143cfc66f7377632ae;
 0x2c25b9f5db0feefc72ea94da35fc305c712e1162b921c9594b8c9b3b9095345;
 0x11d06d5cd8414889b209f08264e1f638b56befd0a7ad4d1cb91a87986426f3a2;
 0x1118c6633adbbfa1f08b73dc28148ef5008128e94946e47df78e52b53a81813;
 0x10cbd0a971243c100cfc3447d5987790b60420664da96477b29ed58159d3c0bb;
 0x2d7defa56218b1d02e64b31e0d84fb39d4068e7fef2f8e47c173401d5a01be7c;
 0x35bfa1a3f16472ad0964a6603d44cb70a930f4538ab235d5cb1d90e75a8a935;
 0xa172329742ade46e7f37612e637f8a0262620ccd838892f3fcbce0f6340fff1;
 0x2c58c487ea60769242d19dd8230a0e10a9b600a055416858160cab8996bd747d;
 0x10753b36168ef4814cbce8a92176fe0d0429294a7bbf562599e90138972345d7;
 0x5cab98dfb3270bc9f27c6151315ddb0af0b292642297fd763487949675ab3c3;
 0x244babd314036a353068b387e78f064b6c3c21a1e4379c64034852528b8cc286;
 0x189d6ea1975420c15108f928975eea4f635afe80fb1543ff6518c5dd989b4ef4;
 0x2834b06e2f31e1c2e013b589c306629d588c9677ea3b4729da29e5b931727e11;
 0x2ea65573cad7061d208bee93d6f72e79dfb7a9b0c58d1c3c43b295b7edbc050b;
 0x2a8afaf324dca28c3319c642c939fee380fbb0992bd00c0d507bb244e79f3b64;
 0x2700ca9644562122c6ec1339a9ebd06170fd8350ecd893f4c4b54ca714e8cca5;
 0x88d20ba63d5235d169351e5ae5382a65d0a0e4542466625c496484e527caffd;
 0x1e3b2b692746db2e3221d31c2c9d2af6cbae59cdea2df8c9d61d09cab543651c;
 0x320140e2c3634e2bbc6eabd67e3150593409e17c8a8ba14d6ba10b48f57be7b;
 0x25fcceae7afc449cf6fa958d7d01bb57c0cad966b89de9db049e4d99aa35c63c;
 0x2d08ac7c3d1ef44252da3c40aaa7dc955760672fbbdabcac988f85dd7f61659e;
 0x7723b7f34c31a1d58c5d67e8f0082a117f77b403f42383783ded75501288e21;
 0x8f93f11a62858823b57ebe7bb4f2c7fdf0a99ad9ae526bc7565f7fcbed531dc;
 0x2505c08966f418cbb7cbf186072cda3478ba030cc08a31d4dc8353f14f5fe9ce;
 0x22730c77baceee5fa6c5607ecbebac0fbcca0a5faa48ab37d4f49e603f33c1e0;
 0x2866da8f65cef794177ed99ca0e5e28c45e33f059a6fd8db8bbdd83f37b93ba7;
 0x2cbbd169f4a32d679b818634b4018a00a213aab1df758cc0e5ed696914d2794b;
 0x152d67da16d24a00a82991886c6e1841bb58f19c064618531f66feee723badfc;
 0x64ebd9f00d3aa92502f6ddf8fee96e7a247af07493edff59a6473cf2b877b5b;
 0x17bf7430be0ed0a5924ec6889b870e3a5ae1d005432e965597264457be3a920a;
 0x2d8cd6c4dabfab46a079273c4b789b7921b68909a69dedfb64974cd1228f26a;
 0x616e7fc01785aef16700dd740860e1445464ec05242217c1d7795fcfafed0be;
 0x18d309277b33ca481301e0ca3d42a88033ea83fe6b9abe2c2e7d93061a31f3c9;
 0x7524811ca357fc32cf3c5582cad662b040dcc15f0afa3e04550687031984655;
 0x1ec065e0ec95640ef74fd337db8c6e0fd7a1414162d1db45bbe523b373941339;
 0x2471756386b3496c2180e68c6ac6bd0842f8cf2024d6e519a37112e9c2b0115d;
 0x15b16796e573ee84ab8676dac041a3d2b088bce5b17ef437b3dcc5965302bc70;
 0x218e6f091731868afd5aca4beaf96fcfac98acaaa66d5738014f0139c02ffa42;
 0x109fba9e59cf55203fe971dcf32608a57e45aad64a7c8dca57db4811dc17c808;
 0x125a6c051a7816c5166bacb3647bf54f12ec2945ca6a51bc9df19051cef9b19e;
 0x1b2e6621d9458cd5dcdc30e3eff2ffd34677b2dd8af74f4d742049e157d5ee1a;
 0xee6a1864ab85f0cc60a19372b13b8d1671821a681cddf68dfd82a0e9acc72ca;
 0x2c5ea8b8d22cf4ce55d4a3811ea4ace1daf2127a92c77bb3bca51e636c5dd5a3;
 0x4769ebd949f424f925e09d2f1163a6602f26785f701a0f6e46eef91a79b2d81;
 0x14ca5631f7309cdd27c353606e8ebbd48b911a239d86b45c5589bd5a9d5664f9;
 0x17085e091ccb55cb01d45c2feba1c8c18ca380cf17615edd10d3fdb91040ecc5;
 0x2b58062e06097f47843198458a974bc7ba88aaf01bbbfab7235cd990c3ec82ab;
 0x5f19742b6b9cbf14b622e55b5bf45bc72639533c18c98b2dd811c4dd677ee49;
 0x2af4cba34b3365d68f5b0775bdcecc6ec1f42972af48d64820eff166e68c4589;
 0x304ef965cfc0cc4cdea00e9a2b8487dd791652baf6d9810a5efdae392c334ea2;
 0xc6b70050e17d95eaae67e03b820be7bcf05e0e99c40c7ede3a4d69434c2ce4f;
 0x152051567b1ed7d6f4d2864eaf1d3b052ec28037ce709adfcfec0dce364fae76;
 0x196a7e50cb517e21769d1fdbeaa92abbc040c76404d7144554a4a88b27bd5a56;
 0x1dba4d6d2eba84339bb2a7a32f9cc9787264acf687504ae4c69a8b1a296b9a0a;
 0x114fb35839ddb57c3a833d40316eeb28e32221d34ff86ab96507ad755c4d375b;
 0x152086d1247da80503965412bca5b020f0918e05fae4f40293c5c1356b015832;
 0x248f8659574c27b349b97c3403dd5f08fcaafc9f606a59693b89d743ae952fef;
 0x212124ced78bb0cd0b708d1f0dda3a8e4f5b42cb3246e7a64ecef935e5fbce2d;
 0x9d68a717d8417864da716b3dc29a6aa6e2dfc0b661cc9526b66026a7c9e8b52;
 0x1009d9033011387d7b59d758418ca3c0742dd6af7eca2e5e6889ac3651b32a01;
 0x1dced90604d29cc66f5810108713c09579fafab7b3175b12f7540f1a03de6851;
 0x12d425da9511657071f3700e73d3a357c1db3368aff5148d40d3b315c3cf4d50;
 0x27bdc068f23f8f9287c8be55469809925dfe5226108913794b4782b07ff59b8;
 0x7d909196d6cbd2091e7b66d1550e3772b360afa4f9646af879002bd20e674bb;
 0x2c5408234e473efa7269604e73d12733713a47b552726332dfc58877bafb84f4;
 0x991a9a7548e3c5c4f09473aac60815c6e04cbc7138bfc02d43346f46a5bcd21;
 0xe6c6e47926d2386b0db74b20f6778c507bf92c3fe5ebc26327ef1bc5a9bd57e;
 0x1db7d7f599538333bfdc1b9376b38e8cdba27e8c49bd819e08d28e132fff211;
 0x14e0d2bbb5969c1e0f86805100c284d8f6f6c1c101e8e7239a38e3c7a006267c;
 0x26ba784e04d92ef59d57a171138b2f2bbbf99cebb2d5bac21cd86c8af5106755;
 0x7de069ebcd67dd5880d098549ad3e1cbbe74f219b8c53f8bd49166a9725f72c;
 0x3028949b0dd33e015aa6b460691d837d8fb9b9d5e70877bd83df0300b4a0d843;
 0xb5f2ccb84db3c03ee4842f663479d9b0a8cb08d3f1d7ed41069fe30120038f3;
 0xf56a30dc396d6c1b178f692530945d187d69c0828141922f2923dfa4d93f821;
 0x16a873c3f3cd80fd6a45e7826eca59151c03e4ea8c1777b20b4fbb42d7118f98;
 0x227479dd4a5e86e44de806dfff98d05ee2c5148f5b42a5acd07747ac71c7b474;
 0x247f177204c1391a4bb0241cf0d084ed79f81fb4049498c003ba1b225514994d;
 0x1a7a0d3e02ddfd68639b98edcca6409b511a4c508aac4a3ee26decf3ab74118e;
 0x6109074715f90196189de280af6d0c820c8e3862abd69a5d050932f442235f5;
 0x112ef9d464e2ed0c3f34862cd955d29628c3116fe54520e76309b77ca91bc2fe;
 0x52afd3488a875bc44e73c54eae6ac05cad2d7e19b480f50c2858b8ec5a4dbac;
 0x7fea8911b7c2841f4f7bea4f3b7be7cb5710a624297be767b313447fb2a1f9d;
 0x253b88bbf4610d15934d7e98f4a1303662f9cf547bb61fa5f1035b11837312e7;
 0x10ef8f2a1e54a3e08d4b642a5b584207885166843709469691d3383502834a88;
 0x2de738c01f72522b6982c758e01540c6d792040f3ea15285c7864e3bf92c8e35;
 0x1869a05c2435f4ede2ca33fad840b07857efde65f8509325e06a06f89b3093f5;
 0x44a3c589cff1b0095a3bba218c63c451998d5436243ba1e93f726dae82593eb;
 0xedf15cc47ab50a92e54014b5643168988e253adae6f0551e239d265d10f1fcd;
 0x1dde71a388e1a9cb075afd6b6a13354701e041fc3415b5d6b613541d4103f409;
 0x13101734082cb23f9bd2657ecbc31debdebc886dcb5a15bbd8b120c8a945f82b;
 0x25a3a7c128ac6ffddffec4d7a17cd3044ad0ab308b974260f083c39ff72937d5;
 0xc5a938393016ffa071e3b9f2fe3c58ca3083967a294e62ed8be565724661b4b;
 0x1b63a0bee07072dfb3a33c63fd00d2da4e682adadc666db1205326008cba6e17;
 0x26f99a34fc19ea7dffe9c6ab96719b2cef9d38d41a209ebe74b51b2f8b0f60c8;
 0x1f1884b1cf3fe36cc0e0aae88ac6686375ce66ad770087b66b2d1c401e4983bf;
 0xd7f0e2206d6a092c502ca25b440455da98e69d7fd5e4e205c5177a8a4df812a;
 0x184da09fd45fdba360861f125fb5390f5a476252fe71889582cd7b73da98050a;
 0x1840781562955cc1a9035f8b1ba651c833b0719fe283333c249c8b263bb01573;
 0x2d077d027f39896d9d8b1a619ea6063290da1477d06d6a244b48023b6f3cdc8;
 0x2cba8f305b009310a36116769a2a17ff2230b4915e156c43c2b5d9c977813660;
 0x1e1c46b068f4807d6832a968be9f79bcaa990b6493844ad724f8a8b37bb7921a;
 0x21ad357404bb8cd9db5355e5cc479dc1aa1e48fc6c76f62f5d1ae768a0e1a419;
 0xe19ce8b72c6453c73a3538e919f48d4eee11f6609b60cf430e14b74ceac5fe;
 0xf89d945566a286b7bc63b937036d40fe58fff3b13a6fd1ea7676eb66194d06c;
 0x15e6a57cbb53220803c4e91e066b483a318bab0be2119a8643ed1cecba61137d;
 0x1c45c8841fd5d4e675a46c9911545c14e9e468ef83e1e7c6675e91703f0e2327;
 0x10ea93f02575126c231458b20f4b77480a0f10f53cf4c5b6f1dbbbbfe8d88a01;
 0x1bbb7784b1f4971b8b74b714d17266e3a45008805ac742477142767ad0c5ff1;
 0x138941fb4f666acf374fcf0190a41cc86f9429386ad7ca204fdc2ca224c3405a;
 0x2c8991fb3b6295cd67162631ec3491ef54fba71727c22957740552c825943423;
 0xde66b24c1d4e2e56781bc629c1b3989d78dfad628716a843a32c5db418c7501;
 0xe8b37c16fb6281255cb27790ac523f5ff5c15be286b1e82d973b4e0104bb2a5;
 0xfb41067dfd9ee6e840b88280597d436a0cbd61502e06898cf8b5fed9289c85e;
 0x119c19df693f80a7a7b0e64479a9a77ef4b8eb70d6bee07fbc33ef7acf857db;
 0x2826c0eb3ae0b75c96cfc181797f6133d8434b812058bd1887e71aacbf095795;
 0x1d138c8733414f701ebcd319a6858178037aab082b804e2143322a87b6477c76;
 0x22e32c8a1a9e200d7e31d69e4277c3e679494b1d970e0c79217587e4955d7c07;
 0x2d52b65582b83b5d13f288d67ace22c5c51f8a4f075b8e6d7660a660ad5cf6e7;
 0x2e2e7048c0a0db8910e0827eadd124a35947cb26064a22e793b4d4ab6ab9021c;
 0x234f9d96cf483333c13f5224a40dd495370dacb7b6799e3f9361e2ab893041c2;
 0xbb3e00222cd3d72f5499a2749dd7e36c8e2d55e255fe81d758a107070ba481c;
 0x199ae52b7547a3da5f54bd2b9ca9dc0f21d11594eb52a07907759b82eee76612;
 0x1a3d8048dad09581c18d1ab2e10666d3eccd0769689d612199c26550f3a181b;
 0x1666ba94ac2cb3a58c5cc86eec751353a14391b0e06fbe263851396decc0fd1b;
 0x15c3034cd79cae75c00b7976817c5969598916ed56344727b811872af4042e8d;
 0x86ac6932de61a9ce418b612502851e06d5d70f4dc3b1e1ed8ea2c6df75b8789;
 0xf43a70c864e7a81e0576bb27764656141ab43b19925a1b4d3a1768bc722b72d;
 0x1db3a2b7c6b538ad07068d97508df5ffb34a09ea1f98ed30399af2983fa145f4;
 0x1b15391ca85237ee8ea48570d759416f1826aab34ea87d3a3cc3547d17e7dfd9;
 0x263aaa9f9e83c255e67f9a09901feed268df56151e79df345426341e0f38f33;
 0x2da84ec38f7707d5d71faeeaede793d990f04e8cdd016cbbf3bd65c129138213;
 0x13ae9ded4812d1f4d28d379642ba7b79bb2d3eb81dcd223e8910c55e8f77be9e;
 0x25b181c72550002c2b1304937efdc34a0d45e709511929cea060359fb523bf6a;
 0x2d141f87778ebaf647f2da27abbe0504d46442838f3ae21aae9074583f6b64ba;
 0x5cfb5698f68cf5130c14bfd4c87741a0b65e2c197f594831ca414ff53ef5505;
 0xfba377e6949b3908154085c8457a2980cc5ea3472ec30e0996cc8dd9da31d9e;
 0x2ea5bc22fd3e4ee8585ac883e574501215972b203e21d3cac33b4852d9b507b5;
 0xdb2fe84aa7d137472e72b0ffbc7e76a76f9224fac1d1b3da6ee35a5c724f8db;
 0x11c804a419c47dc73db1ab2682979afdb042c12ce349a00dfeda1c72f0a4db23;
 0x1423df99c89efe43c3e80af699fefabb861fe0d8974624dfc1927d2776daf241;
 0x2e07c1f81bba9f8e1bd8915787ca74c04607e83c308f4da253140de0e3cb4ee0;
 0x1b945ccb17bc27e10a23926ca5537b49b28b63312b3278cd16db144ab27fa3ca;
 0xae9821243e03b7ea9373b032275d32dd4cbabc93781f36d532b7cc9db7a575d;
 0x18f2e62f9e91c3e399358234fa6a0c907c3f3541fc0ce8ef1b5ad135d41c4c02;
 0x17d7aee292dba3de1943cf8334254f9754b17ad7a5a2c57230eef7e06c4049fd;
 0xff75f8ff73a55d486beefd9f5d8bf6f6f9d31b10a0903b24f4a3bf2118f9836;
 0x2f8219f3c7c148dcb2f38c697bffd3100e34b0ec8dcf6d7436de37e9dfc65a4e;
 0x16ec1ee6a74f79ddd9d142216659d99b9123f7d789019ecb5cf3a043f7d820e6;
 0xfe5612d8e5fe5ff4e224078cbf3907f25078d2604dbf20a6aeaf18b0216b57e;
 0x80219777df47cea0bc385242c5263eae06b2a7eaaca605b7ddd32fe0b0cfc8d;
 0x8e90c05a9091040815ec08eb142106a1b2c94eeed5132c637cf9c0c40403e77;
 0x279d2ce8346731fdee7a49903b7e6ef1362c59970e31aaf01aac51dec7f9f026;
 0x117e0047acd22b61fbf81e99cc13e2b9f1d8db8fb38378592d44372779bdf165;
 0x2bc7053dc85295a51d0f8d051189da22f32f222487ec9ec39d5a17652d9411f;
 0x790684b4d26b9a83225cf72e60c026432ca5378678eb8c744ddbb6e645fc010;
 0x8cea9f02523e9dcb87709812e1f78683f373a33895774491c1d6072e3ab079d;
 0x1a28f5548ebe2c210f3610ce30bff1cd5f0233fe045f0da2d2a7061f63ad35f3;
 0x1551491aa0e035787242f5bf43519ad561b6601029c56fc863c63474cbc6713d;
 0x2705e73556fd298b38cfe6b3d042e4e5f4b457e90e7e8b16a3c9b54b49c644f6;
 0x19edb84862a4a113e372e01c3835b7167bd58d6edcb038078de507dc89472728;
 0x938b1c265302b7e4148906fe0e90f9ade375510950d475224a0915dbd2a3429;
 0x435d661e18d8bb28bba1a4648b73af64441623162e5b636ba1dfb7a7e887c08;
 0x2ce71ce2431662911ea33f99ddd42227b1477573b261f9d38957f9c86286b2cc;
 0x17c75da1521bd3f44b2ed39799b747fb4fd28038a87a50a6efd9bf39060f1df4;
 0x2fa18e89595e69993eaa57f71aba15a8bb83e9a86c5daf770794567ff4ff187a;
 0xa97b5f7307b9b6b4614dbdd9ca06eed80fa8ec636008628740f04673cccd983;
 0x2fb02323a8db7ba7e3bea78652a3dd50fd90705cb65f2f99115ce510d1ee90da;
 0x10984915fbcbcb2c7d051c06a00200823c6431435ff387788b87834b46a645f;
 0x25faefb54ae7e8ac9b3516ed44536847045f98350fe8020edb24fd028cb95e74;
 0x163e9a85805166386406aec43091656df8a354104960ac7097c85d2107dcff77;
 0x2e01e39fdd209edd00393dbc792737828f81d0a25706436c45868a40c23fe53d;
 0x1ee6ca0156eebed43a7f02726338c9259484634883e64cb6c34ff4b459dcfa61;
 0x25effb4b84c2c0906ebb6571af7a151325c6ad696ac0ab5a7e7a34366a923f44;
 0x90185086d0cfbdf941af09f6e85e6c9199da41c0b294c049e2143e2d1bf94c4;
 0x196921a374020f2f7cf6bf76b7fd8dbaae06ceded49ff948268d3728d0baccbd;
 0x2e30a88a9c1a48deb66bb1fe9232d73aecd2d81976822b2ed437aa9c11080577;
 0x18fc95efb840dd52f4de54cd023b0b552d57f549acdc4f86c1635685225343cd;
 0xbd2326b0caaea6d5141b3be470e865dae99d86dbe6bd7861a22ef6e2d95c08b;
 0x4de1aa3fb9807b22fe3c503dcb0a58325340ea0b5a50702e62767018655a8c3;
 0x279d21657b39b694181d5081827940f6e6e1271a084c55f42dfc737a187eb989;
 0x2594a94215dcc6c73d64510bac3b30414abce18cdbfeb509afe6d70d3dc97a8b;
 0x95142e3ce6e5fbdba9885833c614bbf459895b6cea10edfbadddb276ddd2920;
 0x4f7c712281ecc56dbf8bbf95fc1af4690f419b84130342647be3ad1b6773261;
 0x150c295bb04a6280a5cfaf70de3e998f8a42448b7a8ee56d1fcea8c515fce483;
 0x40b073aea01b55948462b3c96965e070681ba42d92705beaba7ea9ce5983783;
 0x285854aae042c3ea616da7b02a6b2ef30975aaa2a90aeb8713f189c4caa36c9e;
 0xab00bbee202a51e42ec8fb9b5cb61f9165ceb652b6956c1205e8dd53bea3b04;
 0x1152e1913091cde5f38a6bdf0a4eb0ebb501954b721f3859a0aa262cde13f80;
 0x2df4a938e9488825979442d85dda528501171bd09b780d43d1b2e2532e8a4d15;
 0x1d10433e676c08dc3ad49d71ac027dc4b2bc6f21a2fb3d37d7e9e95819279a77;
 0x87e2ac12cd1267a049093f730c2a461aff6a429c231e5ffedb62cc52676df26;
 0xf3769737a44340e6fc9fedbb6b760856826f7c3a6ca8b993fb004118718ac38;
 0x29f6d54a21cc0209800ee613b44585252e7c35d3c0a4f00cf18a8220f36cf76f;
 0x106dfd6a05f7c55004c6d0792728985e392d63c6d22e183b76c13cd4ee465e;
 0x3024b6653dfd68a1ab85ed24f30bfb88690c50b9960daed59b460331f8e36e3e;
 0x2f179ae3fa16736110c2911a504837d71c7cf5d27a4c83dc447a7ea54e9a89ff;
 0x57740fb88ed21c6f4ad03ad49ab3386680d3d0fb5decc4dfe65e2c187b397bd;
 0x157f8573cc1f9773b3852c965bb00bc1189bc83355c7d831f1c881006d3d2286;
 0x21dae9de84c896fb3e060fe467c7dd0b7471e76e961a3b30d37644d20e8f449c;
 0x2d76eba37f90108bb9dced3f9da1acad5a29d2a354edd54230afa9b76e4703c8;
 0x2041ea40d491d2f1062862372715383db89750828052255b1e071f99ba360196;
 0x25b939e2c40c6e075a42cb8968bbf928e3d6a8af8da4cc79c9bfc72d6821c673;
 0x2ca8f0a159782d2ab2ff4ecd6edfb287ef6e5a1f20d50cf7a75a8b07605ce461;
 0x8e18252ecd58de85a74fcf2a5dfd866d780e8b3f592153b7e7c04707d2f1ffb;
 0xe742fa26b8408adabaa17ca7dca2bfc14f40e3aba46a2d6e85d3e3ba0c5767e;
 0x28743cad3d872842ad23dae6978295d26179d81275e52dc30a7af80a3b3fda7f;
 0x2b78a47772df0f8005e508cc47a3c2a37059fde340d3886c2eafe79aeafbe868;
 0x16994b815229f66f90e88f89e047b4ecd3f91a57dd9ee5e9a56294c2f350af7b;
 0xe0f16cd75041288520edb1897af5ab11b85a545f4d642ffb157f5772129430f;
 0x1b01e8e91d773dbd4ac756122f8e79aa9f017da3e15d48656d07e98f9a73ef04;
 0xd1f2525b6adf5013e9d76170afe6f51176a4497c1588c8be575c04e567d332d;
 0xad15029458859dcffe10f316fdcc134527eab1f97c0a6b0994e2d16e3f45210;
 0x2eef79034f8cc2ee04f0f188115c01e22b41d429feb2a66bc239361eea4af45c;
 0x25e42a21e65e99f63f05b36cfc485e97e72de3aa38a8573d343f95ce50c62dad;
 0x6c62c056404aa31061978613c9ba2a052ef8531eedd3263bcc34c4f166f7c8e;
 0x17a698b583a769145e307795122804023f82be37618acdc120d41eedee9d4cfd;
 0xe1cbcc11d65e21409282179563ab3e273859363b0bee9cff0681ce5a11f520c;
 0x220b8ec07c64919136db6bffcbacd9bcbc2a560bfe98b02ca9d2a1c1620dd0ad;
 0x1f7195b3bf189a997c2d4d7f8d107d91c2ad5352b63d111cf142505c2ea35645;
 0x946e22a5fe1252cea749730aa63636b7f99680f6299a80249c399c38b566709;
 0x24785875bdec9ee2dc76560daf9dc2b016472189b7b2a7d7dd99e86329313b5d;
 0x24d6da0aff8453f029531e9a90cab696c4329fd05d5bc33ce3e949d2d35105ba;
 0x195e3e21079ca38093bddbb11591cdbadaccecee91d44a9c797380fd2b701512;
 0x1bff6b43a453e16b2b130323317ccf68c0116cc4e69908fc4feaadebc010209e;
 0x73f9d5f52694d81ef62884fba9a31432e8c590087630266a86b89f3c0e9c78a;
 0x2be3fe4dab84c18cce436f93d492a73d3335c21a6fb6f3c325c70f27ab0717e9;
 0x280f758350e2ce22acc0220828c374113c0a04547216dec766b2669ed6874db5;
 0x6a4b8aaa363261c2ba63fc31e73c4704152908250ebad77bd7902e381d5f251;
 0x6118135c6b1997f96d30a6196877ee0a103713b91004027410a76dc5bdfdd5e;
 0x1a89b2b10aba25ad34445917055b958f121305f7b31489f50eef474494c31c07;
 0x2e34c3a24b90fa5afcb3b92b40591c3803921db4bb1475fd94984127afe1f4c0;
 0x29f4cd64b7c9daa88c1e0cbe36c0b53840b9241af6be3fa3528cbd8495d89b76;
 0x113034f899c9af84654ee734cf5907134128528f8ca2fc627261ade006dc5da4;
 0xdd5e41e4d002d17fd303a182c7ce4da1c12c29e5245a94e678960f79a03c221;
 0x9495239a4fed063a3c2928a42413f02cf9ae08868146f80054e6d5ff531cb67;
 0x15486ff36b7325528afe532981984b6c06a63a0b6e25b1fb271f63b8ca6e8d82;
 0x2d8aae1d082a60db6b3b1aa0b244929ce37c13927e8d61fb0e918f01a14e4835;
 0x94ebb5501dae50b3d868311700fb837a5c69e9bd0900903601616f693545e0;
 0x1fdaffacadac41b6154b16c9aa2c8859c42fd8da9083d2ac07cccb26e690c7e2;
 0xb7584cee1c78e903017e3a2e83e815830db9118a5b4779b594d764aa5b241c9;
 0x1412e854da8a4c9e0a11d27ff0c4609bd728f2e0d566a56cc2936f370c40c875;
 0x3d34dbc2e6f77a1d12aedfa5e11de27cc991c49edfb396ee74e269ef5da2981;
 0x2aedd5795046dbc6c913783882d4a45463950d108a7e6910532ba1a1f4d317c3;
 0xa5dce1ec5c7d1991d275f91ed2fea3793edc4afa7d3b171d6ca2d5ec880e283;
 0x158e7fc9d1596cf04bac80a49f4a93445b37178a9e5a76be24d6c708cd38959e;
 0x8d73061d983610d3093e05e80f0494cec6e6a9752f85e7f604b4e65e6fa595e;
 0x2eb16d92356a9ce2c7372015b5f16ab18974df29cf53f17e1f641d5360d7f209;
 0x2e9bfb1c072ffa1f1448bcf3cb189e3c8d0454857a93f2db4c1f08f66506d6d4;
 0x4da3ae9ccf23c44250ee9f32095b2d3758c3223aab85cd4e21791287baa4d08;
 0x164495749ccd7eae205ca14f4882b6d5a9f84d70a2eb1265e7e3619322726e5d;
 0x1c81b3933e302e2a23052a1ede80c8edc7a0830fc90d4f967c13e8fa199dba98;
 0xde77902a2da45cf6727a6e8790b4b387d26bbe3d3a10f8f1af7d71be82acebb;
 0xfbc8f1f39fa56f501d218cc4283d9f4f7c5758bf121ae97978a0546b275a224;
 0x1b158898ddeaf57075ac5a033d069543ffd9226ec1fc9f5fe8cd17428e9f9c25;
 0x10a9ba7d8fc36249b71ce38282c550047c0723d4324859b8f33c07233157f7d0;
 0x1e62b7c53f510e60c1ccb7826515c00d62eb21aee00b0a12bbed33f3f0a41013;
 0x21e2a30973e601469bd38f69e6bfe5fc6b1f2c546a298dbe4b759eec183997e8;
 0x1f4256c012bdb73cc6324b6059b196f6607c81eebe0cefce37fbae343a0db862;
 0x283815406e80c945ab6a80b4b7903592e3325feffff20d60df1eecc01c310936;
 0xcb4ce0de05ffede6708a7bb1424540d7811962447dea07bbd6b3e24ffcff3f9;
 0x23f9dadf82c522df3d0b41e31a7f6ba53230df9046b8a338d3b37127cbad9683;
 0x211306e19fb65ae10286d8b629d4cc7bf2145ab76ce513d4afcb5d058a5cd059;
 0x26f18bb09eefa70257d9406c53b1703ed3202ee7ee291ff66b080757c8bcabc1;
 0x2d69b46423fe79aa1ca07dc9a2406f2424577e3bfafff58ea504c104ec4f7dc7;
 0x7465ba33026ed23dccf76d5215c11ffc8c750a30b5d9d39cb2ad3196d2c7e32;
 0xe4146dee78ceba688773810e5327946ae20f047ac4fab2cc45a390b4d46d64b;
 0x1624e960b1dc56e5876ea8b2e2115cdb5f60a6889863457fffaeeac02066dd85;
 0x1fd0e3ae2786ca41e655bf8e0247a719ebfdf38df0ef7f012ee5a5f9358d7ac4;
 0x2052c36e6b89e1840e6d174c96649a3d2e7b50f2558cbf862a05c36b177696a1;
 0x12c7be80bf7ff89d69d62f5c25d1cb829f598187578d2fd1158a47f3dc9b187d;
 0x1e71226367cf0e67f9ee1e5bb9bcec098a0224003bc724f044ada63f0dc88482;
 0x1b1aefde27d4009da9ca9dd14d8d9c546a7c84e6747a8b1fe2a561d62d4732f9;
 0x28fb6fbe80d161b9d19d64c68bfd2467db0399459e4e008699bba3b0901f5b4f;
 0x27034c9a18b55f5259805f96d8a1d9b7716fb1c87571f71f137b02314914ce19;
 0x2e6ade49ee96d2b99cec94c7ab90989cafd911d9d74f6b969130dc9f6102c8ae;
 0x1efaca3d5ae87a5f68d4f3114902e480a9416d69332914e0c3ccfaa25e819665;
 0x1dbfa12bb1e7b0cf39195ab98b2f4fe7b0b523c43f61778b2ad38e17b660b8e0;
 0x1d21adc595bb3462aa395e9dacc67153a5ac4e2a81c8ba83fe337e64d9981dca;
 0x183a031f65283a2c57aa61b93f71f8ea2aa7ea9881b0a4c8a7eb62a99c62a4e0;
 0x5505d703f7fffd323dc5679872d9bbfde81a58ce5a2c4fa004a1fb57005b3f6;
 0x2fa94b93636e509a5fbbd374f111a54974eae4dfa857bc927d463fd02c665b2d;
 0x2f1824efee6b90c7288dbcc4174d2eeb29168ad468c9f3433d183d38fdbb60d8;
 0x2f8b0043c7ab7df1252a365a6536b5ee4586d79bf4edd4ce4d4ea1236a77d294;
 0x2a066fa811754a4c8df61a3eeee92a7a80420f92541d0dcb06eada3127f4b346;
 0x2dd483975bf2124fa85dca41749188c4f74da8127ecefbe78dd972b7e9d9e144;
 0x3875224d3d0b40a164746fa30f7835ed6dcbce9d23dc4a3c41e65e0a70f7a8c;
 0x29848fee626508de066e7046d93ce678c736cbfe64839b0fe774772c6514c1c6;
 0x28a7d8aeabfc1efaa515c8550248e34412a27e7fa6cbd78d20b0067c12567a3b;
 0x19507b15686e20fe2b1f98c9a1e495b36ffc24dc149ad29f233961e6415f92b7;
 0xa61b968f505e0704be2f676b267ea44908d929ff8639bdc4144945b0075cb95;
 0x10975a7f7060b302abc4d5cd2e8d2b5d330d42b31bd5c8a478d7a76859059f5a;
 0x23d1ef3b42d0c153d621634f43b24232bf75c90f73c5bc30b85fbe18b4c89a2c;
 0x15b66bd3ea7986c7d2964117894f3c43fe02b8256d2c9c185dcb7f8c63b7aa74;
 0x9e46a8cefa89c5ca6a5b961fbd945f07255af54c53f732d32619442b8fdf8e4;
 0xe72db48726c3049121cbfbd1c083459c0a633cd69538cb633b879e4af6c6bd9;
 0x16f05309db91b39d38acfc1debd39a91cc444330c3ed445812142016a64d7846;
 0x6fffdeeb381cbf39795f83c9d69c8b3accb2d87fd6ce4270f5a6606dd0cdfc5;
 0x1a252b1f347d8d894af61bb2f75c65cf5fca1a2211de1f905cf39fa6d384e77d;
 0x231561bb687a5aa8aaf7e1c595bf155ad2d93e0922dab327fb9c1f27877210ed;
 0xf8d4030eac93ec6da79f6304cda6b04be32f036e80b42addaa351e7007913d;
 0x2f49ddf565cb5324e9d3dd48bb57022ccb7b479be123e003de3f2cca6cdc80d2;
 0x1dfee8987696c32de30440637725865531f9d7c3d76fee9811656a435bf0684e;
 0x58217bdeb3065546892cceae218f7fdf3a43c2383ceef12387fc29d4dc74380;
 0x5f842392a9a07d4c7d70f1ca1f72b9e3b5cf5633e199ebf54ba2423560d4f55;
 0x188b0807b79105dcbd5c36ecc676c2fee603aea072b7712f2ebb69b9d1752e4b;
 0x1103f6ea09cae621ec6f695e07929a36037c52efcbb493f10af13cdb0055548e;
 0x1a40f8ba3192f0c929248b4aed619c81a22f8a0bf03745d15372be437b0fc08c;
 0x8823b7625f84a5f5c9a8891cbf3dc7a3477da215200ba420e51821645f9d2f;
 0x52a494af3ecdef5031d87994f264905d25fc6c6267b6f7de4435bc6161f3f32;
 0xfc8cd19ee31da018d0c6c59856e6ba369a5429231113dff4c8e53d50f1577be;
 0xbece88708ff447f261035600d99b11389aa0725b446c9e8d54a02e8ff2de3c0;
 0x2bc2fc2f7c93245f1f5ed0ab6c4cdfb771544f8dfeca02250d9ca1bf6dc2ef92;
 0x22b16f8325f2a2c69907af42680101e4f86de80d901bb6970310dfa1bf805fd6;
 0x2782823d5188cf5d414c280cfd8dec816ae7ff36c0fdacd870ae6449f25a6cb6;
 0x12da3c90acc4189b45b06a1f741598dfb2d9c24f459120debece5c5fe23db5bf;
 0x2d81a5f9fa4173f58f754643481d08089726bac7bb7078f4111b55106b5adf0b;
 0x286dbc990140046e1e2637885d4d2904875f0afa51219ab2b758fc32cb600c6f;
 0x20e7a3674a066766d04226362e73219b54ca6a4258260375e8397f8fc115197d;
 0x2289f3227f4ceebae0c1dc514de4c642f15314eae937b39a3c3c12476913fcdf;
 0x213251e30a761990f27fa1970426f9d44a093dd04524016706a1180753aa4616;
 0x91655612a93f5be3cd31db248c7b627a2df2aafa1ef69f7f27659c13f3019ee;
 0x1af60faf34b05755f1941195b02e6463bb42df76c12b10f14f8b162506b8d5e9;
 0x21b41d0effd2b0440c0d3b70123b7731903bfb46db3c7a23acff016eaf107fd8;
 0x16a0876c96d45b59dde82c8f1e1022c5cad31638c4e38cece5b7a56c408d84b4;
 0x185329f9e4aa85d49d42a62ab4f641d62c5fdede17015a7d79f3164b690f6407;
 0x123f208db0c4ef54956335d16ae7152534d2d8ba793d601f15524969639ea3e1;
 0x1aa5654278de22380da76be7885381c1784c80ef4f4bb032acd13b09739c263a;
 0x955b8a1677a5b6310ad8e0492e82d1044a14c78ca87d1e30e0d7f3316ea6ce8;
 0xc7fefd4edd4ba7d92756b5173928904d18f9b6fe995a575f0e6a6e88f7c0e58;
 0x116d188997eec6a1e2af2aec8a5db1ebc5cfa588fbe5490f08ded1503ecafb06;
 0x258d2eed2c2de759f0b394b6a3ccd2d96e28b10018f3e7f45393ac8ffe947ea6;
 0x229de8c2965aeac1aa7edb78fbfb5d7fb12e7fd7ffe6b9b3afb5e888349a6c44;
 0xb1fb0feafe98d6cf6372170d4c595adda71702c0e9d41c6ca1a03d7518f83ab;
 0x285a05be9b2dfd8af2d0f28f2e32f5cce6b153d880d8acf6906780ca636c4cbb;
 0x1d8240e9902394edee2b76099db03d74dff9185434f3a4e4fe8575969ce4f295;
 0x2160be8233ce1b0b331989349ec4bd9b12486448510831e6414678b312d57f93;
 0x2929b839d44bd2b3fc5bf2cc815ee7910db996cd5b5dff426c8f18a5adab52fe;
 0x7d0d43c3f633701e5f0dead5516e94b91f97725e46982d199de03345920ec08;
 0xb99c27daff90cc053b37132622fddc5fd52bcebac1270b1cce378a7f02393ef;
 0x2e952dfcc924c08102cca7e9565eedfece78965083b853ac1f4128c7f3d78691;
 0x2190b77f963391066d6d26f3d74620ec35e501376b5299cd3f7e9c23b55cca5f;
 0x5be919c52d2f1dc0d0b0d161f7ba7195510208aaebb5dceb0815f2a91168652;
 0xb4e4b3ca8aa834622cbfffb76e6f30f9df997dcbf93df22a7becc8ff9a0672f;
 0x1620522a88c3b531c45d51e5363f94f9333582e5f6ee1c3cb76408d116144fd4;
 0xf442ea26883f8e188715f5841a690cb2b38e479d8ad7074e893ef19e3c7390a;
 0x1a855bfbe80a7886ad81ddf0e7bedd80c1e0e4d1bb03130e03035d53b59ba710;
 0x6a93868612233e3d6098de0b8126649036cc14b1ce3c7b19149a17caa20b66d;
 0x671424962e923da926612e9c0661665c4a67c524267c45a83dee528130d4c44;
 0xb119799f6ee67e2775cd4a71a8c5d455b82426e00ae6cecea32b5f4483b6d45;
 0x26d468d55dc31cd5ea1416dca0f7ea5190642b77cafa7741f1233213796c165b;
 0x276fcfe17ef821818010494be0aed24abc1a41eaca531c7f5d2f7129eae80325;
 0x238d40c836db7215bea1455cc92b6d73f5100568d71a6d1e81abefc18c21e93b;
 0x64c4fd1c50ef587dfc7dcaccd4ab7ad5c7cdb0230cc8e0e34d76ce399fb49b9;
 0x3718669f16fe30adc38474a75406af29431ecb57f3db1ba7b66997b07b2a425;
 0x19f104f90bbc03762d621a274a325c49f5073fc50c47db885e9456662421098f;
 0x2486c93effa24890bea4ef9ae6cb9b8f65fd7591bd84d535b760229c0ce27ba7;
 0x29ef7d3ea32d9632269fb022937c78a91d7bcaa063a818c5924b7b92d01ecbf5;
 0x26d91e7cce1d8deeabc8d7c549cbb1beff0c152cb8819e8684cf20504a0252f7;
 0x248d08993b5ebb254ec885af2a38d3e415c4ad154eb53616b9b09c3934ad167;
 0x20ae46ea2b701d379bca7431dcd231d5a0538a7df6d25dfde9ccd7dd02518db0;
 0xa484d6f4b86578d49193e5c0248680b9614950d8e391f527df0f478ec51db0c;
 0x6717f5b869d2656c2b35c01e28c56972b04bf97eca77613e5b8ca92bcf84f3e;
 0x3783c713038e54892dd2a76fccf0119a329d633ac533e811e511817c4c4a350;
 0xf13bbfec1c7fa9b9412355719d79deb7376afde0da0e70e2cb31f752e4f9d34;
 0x251adccce5317c9893770f1694a37887cfeb26f1faacf9bfff6caec93a6182a0;
 0xf825a06fc69017ca9e572c732e7aa8595be6f6caaa1fdc983b9af1284f63dbf;
 0xa3cf2fb30ad2c7358975d96ffb895de8fdcd61f74ebb24d3f1cd6d251eba933;
 0x251b2e061b12c56019ec04c54d7446c13bbd7df46d1fd9123d6f91b9bf77a42;
 0x2951702dfa126f50ba6d0463be4ca34e12ec8de2818075fb043ca471bcc2d379;
 0x182c9f08809a2953e6465ccd361b57ca28a529bb951a355643b7089eab715698;
 0xdea1f640e09dcd69fb450088cdb061df4630db6292f1d6085c11d5ae6b6f850;
 0x157410ebe0e8a0c81ec70253bc16022ddabcce7070c509e78aa1bb6f49e17c6d;
 0x117b09b34738397c6163ef647d60969d6f797cfe1f4b4a55b59490aa6ff558ab;
 0x15737e5a5b31340f4aec578a73d86e4da61cbd4d1a54bb5fb9fac3678a762fe7;
 0x196b0672513f279f5db200d1264c03c1ec5f0be000255a3d256edc3eb713f115;
 0xbbdce038ba792300cdb18e689d2e0678a095e69e10a3a56bb6f2b18c076f698;
 0x8e4fb5e144e2d867c55ccb2cc02c666060be0ebc3f6faa98b40974a53dcdac6;
 0x254cc53ae8aedc8323b546a40516f9ad27a2ac1afef9dae8bda7d56a2d6baa68;
 0x1a2c40f1984dd2338de7281020ad784dfd936ca376a8bf3491ca61cb00287204;
 0xb02a14f5ed5fbe30f98b6bbee9ba25f3794994280c633b7dc03a3a9bf532100;
 0x15228b44db9915e56aef3fd0e965f2bd0581663dcdc77e5b6a9869480744160e;
 0x24ef8fa23231f34c98b1e19c0e2b2d2532ea1048f0a45c3ec605cca741766317;
 0x25cd05a9267e21e2d0b57f22fc07ca332738a6e94fde2ec72f766b7bdd4566ac;
 0xceea6b6d86dde8d6313f7d6e5199ed23a6636984c8bae0113adad98acf71272;
 0x2263c0701b49306df1d77f6f1a14726d2b6ef465bde4b950492ea402f9014657;
 0x2fb656f4df02841248f98a4630369337e443d1816e16a3c1f084c38f005ee10e;
 0xe6f9efeb418fa0b4016757e12e6414760bcd4598e641d894aa245c6f3a96619;
 0x2496c73995124ae0044151bb698f5765f8272f388d7b512ea9436e2cdbb8314;
 0xdf3c49bc65b7087becb1940994f1cdcebb16f4f21121a3f662679e361bd695f;
 0x2343f6b80186e6caea2ad4df26c37628aaff7131761a180f7ae28b9fbb4b312;
 0x276b8652e6133ec164810dafbaa40ce8fc3a30f78266d8e7c61b2fb0be8546e7;
 0x2bf09a235c89febe7e56f002df7b004214bf00da1194018467909ead95ea85fd;
 0x1ef9064c20f83e8c7581b609ac572bdcf4b6e1fb368cabc0dbff08ad95b73e73;
 0x210b418e297eee3da4e80b3c937e1906f5b0f55dac023e27646bc1dcb8cf8e83;
 0x2ca9e6ee5998c2ad06753624075de0771a7d019e89a6d6f76aff5993665beebd;
 0x174ae2a5db32dca4d56226575f1e5c4fb0ffea7ee7764b1f51ddc7f5256c86a0;
 0x1862319cee8de3ee4d638995f693f324546a5235d22952cdef52040d8bbd9025;
 0x1221906c99798cdeb66c50f140b8b579e032128cce09179bb263390ecaf9cd49;
 0x84dd25a4d141a723b29c69cde8e0bbb53d031926fb0d14d09137e3f8a122f1f;
 0x29341ad04e73a6e69d3ac654d4450a386ed2c7947b01769ed324d6e331381411;
 0x1aab0dc965161f77eef8d0fb4e72e46bfdf6e3d718eac4e5cea176339993dc08;
 0x1852c126862b742ffe3e568fe27ace0b675fd5df36155a66099985c700d26984;
 0x26eabee5c1a5c1b0fbe224177ac7a16e8f0d7b48c4efb62eed96a931202f0c4;
 0x268b607a75498aa86a1eb65db5fa72a54b41c3e8ed9ca5a707d76113bcdaa492;
 0x10a5051f064fedc0bfc0ec7b6be56addf94d1077ddbf456a180f3a9bd5029beb;
 0x2c27938ce4e1e0f98d5e53359bceca5a9c22066cb3dd0f765471dd85ff641214;
 0x60390a2034599638ed0dbc2903cecdf490f1c20d605f62b7f95bafbd367a3ff;
 0x2109e7dc4aaf6cb2a13ff62bc3cbd0ebcd3ebdf022638f5e480d010beffec7cb;
 0x106959e10ce6819bdaf48cd5c19432d35ac8a167282b44cb0a6703eebe3ed2c;
 0x276acf8bce26b9321591bc588392605b50df7f766be90c8317a19ee93c8dcb40;
 0x2625cb1be09ff63c5e0340798d10b774c04321d22340e5ee8d2cc4aea3dc924b;
 0x175223b56bbc74a46feb991a4fc55f02fad1ac9bafc75c76ca3db3a69ddcff22;
 0x22cd6e17bd1426b13e742213606f1558d5619bae25fec69be0df6c31ea6b9970;
 0x33307917f2f058ae6295611e36036aabdb91a0fb9f3a4bad3e6afdf283b1836;
 0xc74e27d536a6274a8ab91df7afb9d4ebf944c68157c4135a81993632ba4114b;
 0x11b2212a08cb877ccb3b4a5639ce7825ef74875fb213f0761369ca5d87a9a809;
 0x2c8c8d42080e2e9615d4c8dc0f20c3c3005dceb1697d9623ebceeb638ba6eef8;
 0xd61124d06cd75baa08d463b9a3a3a1cd1fa3bf6ca508399111e206dc19f7be5;
 0x18a8cce9e7aa6df3d5eb35406b0cd46b87e4b08f8fdc991e91fb5924a07340c0;
 0x1453226c75742b840fb71f151e3e5346648b9a07fc10aac31485d7c0f071a80;
 0xeb05f52067935d0b5517addb97ad9134f66b921c80fbe68548e0c08cfb8e60d;
 0x17883a0fafa37d03fbe3da640fdcdf02fea822bcf612d7e82e0217d38db4020a;
 0x7516cbb3f67dbbc050bd2ec21b18bb9d0ea9971770595a85c4863633b0e19c7;
 0x1f86ef9471443b26a59da67e1c2a223e457baeeaff2ae9f0090c550c30bfe2d3;
 0xb84ec6355cbfb43ab69709d4fed906685f02613d9b48612f38cde33c69e9f03;
 0x1ac016b40d30d26723c5bdb4e9d2fc71a1b9ef8065cd08ccef66ca98ce789730;
 0x10b2fa89de4545606176a004568cea6c3381be9612e83815467cc4bfaeb585f1;
 0xbf5674a5ea1ce6fd4cb75ce7f26710e510639b34354e53ca2e6631b404d5e8;
 0x2fe1439993bd33783ba21c5ec1f28dab97147a3e8664866dd04668e04c0137b8;
 0x2f403be7d38ca7336768a3a9c7f656692853628f4378a74a52df4896fdcc4034;
 0xe1c171baa0ba3e825d242d1d70454b833c3e23fe89e7e223d48decd8817db94;
 0x172fc861c822a0459d27e0783fc603409f835913f73b71d51ff31a62f6e4fb87;
 0x1bb9e2454a33c3c08cbe31dd75b33d9d6642cd9b0a978c0251f5b91f0823523c;
 0x29293f8422d4f96e3dc694f4d99846ccd6cd5b4a78662625efc72034308d4c3a;
 0x29b378f2446a9a31f37d475c830690532994edb64baa43794e13f1d9c6949d13;
 0x18a82c74bad8aac7b761794760e090acf55a8f95556f2aacfc20fd98c19616e;
 0x2c1fc04ded87e37d9f1c639ced48dd8c9e46618cf49218637db54755921b1644;
 0x29ea0e1e015e5caeb3ff1ce6d2772502e7778bcfa3dc0377cad7d5efe674b2be;
 0x2a1753c6a4c7c43716ce3371f140a65903d228d5939dea928ec37968610f3349;
 0x2d94aa3bb5498d0d77ef1efc5950519b1029350d4746394aa68e8526c09e1df;
 0x8f269084ee637620a11780eabd8e8f96c2b04b8db6027ee88a7be850485dbf0;
 0x3abf553fb5a4b9d5093d3b5f898a111a4261c2419f3e055060dfb45d82e7db2;
 0x1b9d84d189c5a22bc9be2926623361fc6be7c714d079536427fc7a70bfbcbbb0;
 0x23afc200414f23e7496b4046294db690a60bcf5cb72c41a61ec7351365c885c1;
 0x26a5ce6ea63bfd9e6e1a37318938d4dda0dcd5fe9d6c2acf1abdd27ce1453799;
 0x227fc0412f71fbe4902252237859f0b8a694990316918ad670c3454ef255f9ce;
 0xc6b448a7deae48afbfcf34cb758d847568f75d7249dea4da09a90f96c672bec;
 0x218c92e39e62dfc119c4cb2ded9512dc217a9907a9a8b0edb96a275169f8e9d9;
 0x106bf92a017c308f0f726df3d0515aa6feec1c18020c380333cf76c25016bba5;
 0x1f283fea17244f043b7c35ea1e71931649cf7000692546ac543a65b18ca3adaa;
 0x1fc5f58e5a06e1c70ebf3fd2a2c8dffe7bdf2c2c179b817fc1f41d1a26ee7dae;
 0x22d0d77f0ae4cd9396cfcd8a27a246303cec70fedd54beef6dd86c91938fd560;
 0x1ce511212d8688537a5e039957276e9935b3e8d5bd47045c6d5835108eec5f0d;
 0x1c83ca5df6ac477ae74236c49f9309ddf52a4290f9c7c1d3092c113012d1c3f6;
 0x2e72da0e1d1d1cacc95f8a913d87a10688af0ad11294b350cee6d128a97442ee;
 0x455ee8e7552be76b8e7c2597d97871d6102b49eb2cf1ddb6f681b7e05b0d0fc;
 0x107863daf4cac318dd06ab14f132159794902e3b8da171b8848d3eda04e6c449;
 0x132abaf80e33ac48982da9d5d2fe91191f17f1910fbdc06731717b6bc63a9d8;
 0x134e4567b290ed94c47b163fa304ac8d14f00f9e26375f6299a846770f4aac21;
 0xe6c1008a6d6cf304a1dd9e6194a360c1e9aa6d765a2e5328a1be2b5235164fb;
 0x2f8dbc0f86cd3308a3d598a9343d638a3c2f56e9736e91f0f77d508bfd3828a2;
 0x1eeda9a9c6d8a03c3cd9efd1bea7e46840d6c70d7fa82e085bae67347e5da7d1;
 0x1e2bdca3589d22bc09315622837feb89557205a87714cd8011fb26dba1ae0fc4;
 0x1feb959112175ba6f2abd9d6051f3aff32a9c4da459fc5f3baa166b7e01204a5;
 0x1b6a4bf2fb32031b9837654b1fba8aca04b6472a91d05f96320bb5bdd3add66f;
 0xbc2076260db797f04ef2fa60c6cf5d014d897d3202be009fc5d8ea60dc18cbc;
 0x39a5ff324caa9dcd65b8c44bdd1d423b6c02e4050ad8ae931ade6dbb2273cc5;
 0x1e50c1f7a5bd8a96614ea267e0c22039cb4708670638b16e4c4e6b4ba088ff35;
 0x24315140db1e03d34a9e890d85fb3786861adf648212141be6f031edd51b8c0a;
 0x12cb6f35a18d9485c72a073c4f9037dd664d98d011e892bfa06df8bea2bb5dd;
 0x149a528e7303119ce066de9da4177803d774e3f1b2c6dabe9edffb3951481615;
 0x990738ffecc6f8dc0e6b5269bd1dde74c6f6afd47779a119d8c963d5b65d33;
 0x15b319e4f51ac8931ede6542ff983cb2ed3bf30772e681bade4cbd64659fc741;
 0x1553343f95b1ff226a6d8532af3e489d305a08e8d5c532787d351a5c30b426f0;
 0x124d40c154d4454d10e254fce373986e8a2ca1b43dd221b55a8fb8d19c5a2314;
 0x8632672fa4236aca43f4dfea0508cb6d3895dbfef58c5f80f65ea0f48c17a03;
 0x18ed4202e081efeb7107021aecb706f76f7466e5e36101fd92674c690bda36a9;
 0x22b62d63e4daa7c6674dc97f43d7ec63fa9cfe047ead601eba36fd375d840091;
 0x1f76ba188448c2dc50cfe2ab65caa6462866c5e31bca72d12cd7dc1be7ec16d5;
 0x259b4968f9e4c3288590bb521b2bef5f3bb1b30a728acd45627eba45d73260dd;
 0x1a1af2418b1ecd4ebad24c5a54adccd009072a2b7edbac04a0803870fcdf21d1;
 0x13c488efb576d98b2f58c265a0d76d450c74c0105d225a6b111808cfcf13e8f7;
 0x2e0278933d94b8434c52a364e5aa39d4c02e268295819bb0a4c999b15fe36beb;
 0x26fc6a0f560e5781202e95e5866e679ea3aa4a76cd8bd4fe67550bb4e6c1db59;
 0x2d7ce0354e6a457ed5d3621afb91732d02e5c99248786be8ba0c51da68fe9488;
 0x2de1db6dab7e00b81838596cce66e8bb0aa26989a69386ce5061560f2693cfd7;
 0x2e306809073d4a00babe836e6fe48eea8e4fa13b9932c928641fabad4944f587;
 0x21b9bc5ba7bde0787a20a8aa9ef9a17d56ae2afc1d7bd7a2ada77506d16b66f7;
 0x37e12238029fbbd0ef48a32577480a4d9f663ae39a0e3b6c6ad0f8c3914c711;
 0x62340efa1a3061910fec854ff5fa9037ddd749d9ffbd5a6280e9498bb7b9e9c;
 0x28e2ec6752d07e64574e4e92409b417686f725127f1564d1646c4ff44beb9dec;
 0x1081db39ef41961aac8cfdafb8c4785a847ca3348a9b6eaf5a95e0ff4f3c4541;
 0xac03c48add6876ea8b8475ce16d306f80aea6229d08b3c986662fbbb7a22370;
 0x9941366c57343c57df860782d53fe8adc2a75da2d0f174364a055aa7ea07d8e;
 0xdc938da60ab9182c7121c8aa04c1d955c1f729b7ea6bbd8c37ba58b74bb4dce;
 0x7426bd12d4769e174840d4a3a64b40541e85ed86dd21ff5d71be7d7eba930eb;
 0x2ca34511539337cf05471caa3ac6604ef0705b3d2e4874db17877f6a3a2d666b;
 0x23db1c118022fca90dfc9a2abf1186aac09c22372b5a6814835458d33c1833a9;
 0x282b59962607ed3c33a9f9a36899a24920768e679c43b319c781acc020c68558;
 0x1cec719a4e8fdb8383d544623cfb2ecf5c087ade03a12cc202060ddf23baa05e;
 0x279d1490e81ceeb73bcce66e0a6dd98443b711ab1317a31ea2c17718c534ea41;
 0x168da84ebb303fa935e70e85321b10b67607392561e6ffba3364f888d2a715a5;
 0x164c7be1367b220daa33b5f8f637e9200c43c9223fd71c41fb9830287caf3502;
 0x1c09e997ba2bd1625852c50e1d6abebb6ec6c61b20d1cc91b015084942162bcf;
 0x2ec385a2ef59f594167112b1491d5877520634bb30d00dc682d089ee458336c5;
 0xcfa9efe4507963806d38e2464287368238b2f90e13ae6e520ec5f1e5da1ae83;
 0x22f8fee0b3132a953bb0f4d4acc621b5a534403d922f9bf5a22e512cc0c103b9;
 0x14473dd3650a7bf140743b43c5832193823e2506c60db669d71c63fc7cbb42be;
 0x16f91395a42f68a912148920e5b9c30b536e84f15ca7b509e115e33a08df45c6;
 0xd9f494ee675c250cbdff49cbd786036d899117513b160c0271c8ba6faf30da4;
 0xbf36d4c6fff4101d84dd07cf6d0a9c9e5ab346d5f14c9185af3db3e13d697fa;
 0x23452880a7cb59d393e5980266f1e752c686b57a87f041f75ef1318932577905;
 0x305f2a14df1590baa4d62da4c168423625e3e721f20c0c21a0fb45ceca2f57f6;
 0x1947f0175a8a9f3be490f60388486781533ac0bff5b8730a08b435f8a3407acd;
 0x2de417a960b566abcf86d9abf49ad41144c3b6110deb4f47ea362257345e748b;
 0x13b887c77592f15dae0d20fa25330e19201d5572df244b98dc2b03bc0683bea3;
 0x97b35dd0b26e46805e16fd0490ce0560916e49ef1ebca21dabb4abf2c445370;
 0x237a037ad96a360aed5937d3cce38ed91e58917b143f17233bc2d75456dd4151;
 0x18cdc0365a8dfabcfb0494270af4822c29a6d9124e8c190a9c0b4826774adb46;
 0x163428bf966085965901613a1cded9f28d62a74d001e6684bc3f6a47a8b3bf6b;
 0x1dae0d15fa1822a5e59b940d81b3af27a5bd3f7dd508167ea6065b6d49c332df;
 0x2add9c74cf22d1e4927fac6754b5cbcc172d4adc75ac1fec05ff8fca0d977dd;
 0x1edb562e5b4376324a0b647b90690fe3364078dc212de0ad36f5fb26d14f67df;
 0x301dda97e290a7a01ec100e59b59d78fe4021973af1d9e7d101231ed8fe9a1f7;
 0x170a115e7fb0e76a4edb05ac080dd24ddb5c27c0c94b3b36ef5e6ec54eb98da1;
 0x2976381557759f24da99faee2d6c5059bee939a66fb321b9fb2a609e4d47e9f4;
 0x858c7c6f9fec77cc7b6c2a5df2dd6312140713f97cc7c8503b4d7c6c81effa6;
 0x12557c612c0f7718ec112701d8057a1dc301ccc30b2c8475a46bcad3514d39a6;
 0x1ab063ffdffa216a5bce2900f37d819f2d75e6f00c67ce024ba3f832de64dcb6;
 0x28493d04672068c6a6e94f79cb1af1d4152b823546363589499c0a141bd2a580;
 0x23ef9e5d4688380ddf2c16c0d08a831237ee58775797c67d95c6e0d8d8af345;
 0x1093325100722f8836caf30bee53c0ef14eb18410bf915570b327ffd9464a5c1;
 0x1705479cf3bdbbaf78d4f103d38eb47413c9335478003810893f35259dde8d55;
 0x896c2b79cfdda5eb7f6f9ede3ab477ceee2b38b068174f15a3b37bb8b348e6;
 0x149f13bc3e4e2b0515b378a2747dfba90f7d5c7731e59e9f36bde3f04eb50cb2;
 0x2e14222448be50c068ecfebf70944b593540c7295ca0e47f2bb7f63199b8712e;
 0x1e22c0396024ba3f6db181ac92b229a5187187033b138fb27a1cf7f6d87050d3;
 0x2c5a1e453406fcda5d58614353f0a29842fb54af88ec4b73f7778563e05e07c6;
 0x2d08dae6f1fb7e0250a660e71b1cd31853c227b188d87559216af1c465d8abee;
 0x215533a77776226664118a8081d87e212a1250766139ea38c769f93ca2b4d7b3;
 0x1cbbbb26f991a721c7bdf835ec9d1ee0c074092fcdbf0079e4df3ac287292edd;
 0x8f57bdc3c7c95681f005500427ad5399259f69104c22206aec2f99122924e8e;
 0x1b45938c7b84f0176f33520321500d1297cf97aa6699664fdb8ccd75ed39912e;
 0x2aeb209044868ca84487b7916e6b4033ee6cbef726e269d0e916ac2cfd3fbade;
 0x27635bd2ae7e0cacaff0b836596607a792403dba10ac3706c9e11977403a3eb2;
 0x22e593b7a67935027938149bf16fce07fe9e726055fc0cdd07e7eaa17fe57301;
 0x1795962bb5100236a183de49169d6b83a427edebd23711b89694da83cbd087c7;
 0x77fc8d7cd9adbc283c25321bf37598cdf28827ed35707cf4887fce4707c437;
 0xae5b494d166f6a32442d1d0bd59b65ecb7ad8f6571b77486a45ecd827dd1280;
 0x2924229b6d648184fe63719ada7041e69272cdfe895455d77f01634a8b892c87;
 0x51e840903ddabdbf22103674933685142981c0852a6ca6af0c8d15b068716d5;
 0xfc508b7e620bb6c47a85971bfcbe28df62619c5309685d0a0a6adf3c8bf2f84;
 0x19f7621bbd659b27d189bb32010b95fc2bd877392e2b56afb558ac5fc0f0f22c;
 0x303e98ee35bfcad292680a7956e0b932f7c572c0a131adec5006d8f298b721bb;
 0x1a78253e57f825b0cbc742d87923b27c51f4a531d1235a8a901d997e31b2ea07;
 0x15e220939ba64b3a3ab29debf3b0884a4c4385a74d845e20e3449e7fa2f39320;
 0x160486b6e621dfa0e90123a4e43fd69221ec1b0ec73d196476b504bccd290b94;
 0x2beeb42404db8ab5e279624bacdb614b21b5ae386f2c2a34a798feca76311006;
 0x24b407500416ffb0459b1db9740670bdb8be8adbb4fd5af8fe9c4b5ec021f0e1;
 0x7f5fdae988285c49bcffff23fc1123baeb103bffc97df6839a0c3506b7c042b;
 0x2ce9b5a08decce4b853e67d28af6eb4c755c7bee8190d7806af042759a399503;
 0x1daadc911c3ec3b8e5f42cb123017f1fbf16e4aa2e32de94b018128845bfd022;
 0x1ff80b169617b7ee5aaefbee67aa64bd64dd14ed8edae148f99a16e3f2205651;
 0x2aff68cd38d188b8ab85c008f300c50882498b5068d3cd3b82b5ae023bfc6ee9;
 0x114d0b3f54f14de45cc4db5a1feb1c4750ea0247d8f24e8f6f472d92eb7086df;
 0x12b607578c2d349b69e0f756850dcc21258f85ae8d8caa8a3a021cf8d02abb9c;
 0x14c692ebcd07fcef55092bbe950589f47dfec7ec4f3a42944b0442690795a054;
 0x2229dbdfb92ae7eb8344eb56d746d07067637d75ffa439edb3d75a8b08199f20;
 0x16f4648ac47c197fc572f58351e4b00773ad9a2bcad04ac0f873a556b6ecf6be;
 0x12d90d55c8d3ec184dd04f5c6aeb639bea70a7e3d013fcb17437eba662122ff6;
 0x4e2c49756b8b5ac26af9d939411caf87f15626ec4436deebc7dc0749045216f;
 0x21917d723a33db266b07f81948955c45dd507857e9e5981831d35c56dbd0bb36;
 0xd13b46aa1b41168f81b4d236512268c23e7bfc4108948b5e9f3a5f5ee0c2661;
 0x17bd731275d602d17ca1b8ec47cb12df1a4bcbb9e3b02a26f86a08b2eef1fb70;
 0x240ee601a6823ec698a4bc774e6dafc2f3d1cec2c5c89f5bd13629bdc692745;
 0x2663ff9d0eaa6e910593d11022d3c77b877a3bed8d007f6fc207a8ad75bf252c;
 0x2c45b53fa72d7a0d7a244ab3ab0b41fc40e9cc38cbbe294e8c84a72c7c3fbe7;
 0x10bb8a7531ab05d22872880f96834d23a31937623df3fd2953885abddd1222b7;
 0x2222950c8a1ccc1c2122a353d1482744d42e61254dd653bd25ae69d2ba79b031;
 0x2c3d3eb720537d2dde7bfb8ef6265d26c9d6d918e37f2e97030fbd6b04457db4;
 0x539a696e15198169314296de56dc874312e19e5b3518ef5d50a72cf98a30895;
 0x25e2a5fe1f155a2eeeaf50d01664f96f7d6772b108ac5c4cbfa5ef5a1fcd5ad1;
 0x2f5d3e87df6904abd454efca9cc30f154164220c9e3fef27e1812e0870b90fc5;
 0xdee20e4731c0e7542e4e543e8be6c2ede71d6eaa821596e4fc9e68e89dc300e;
 0x61442c13b9d1fb339615cd8afc0bc9e11be741cbfcbd2b3a92194034e9d2e54;
 0x23a56185e12d6230a0ebaf7cd4a01cd18410d3d2ca991f79af5716fe22993123;
 0x3344b7b9adb15a3b7c3d64fe1eec35342202ee3c4a36db2d49e81e5174235bc;
 0x284b751ed61d484ba2b5940a1a1ee1ec536d392b113d06db4995b08ab661e675;
 0x1701ad26a42de77f4d58a4c8191f9d4730309c5f4bcd0c6dc3a0aab396340820;
 0x27cadda519a8370108d7aa6e9102f6b29e8fa2386cc0296593f2f63449ff3d4b;
 0x2626d61cb110bb03b32712d59f0e3b1b2f5b9059eb994807b267e4ad261ed696;
 0x1cf3330897c54f25f15f5e8b8da57bed0865f3fa841ec48441a9f0457915138e;
 0x1b5bcce9d699e55a490d3d86e8c92c83a7256a7feb9fd8af6c84d68e148f64e;
 0x2a175105d15ba3fecf5bcb2746b3c81fc8ca468d1d4aa999fbbaa8d8112026ef;
 0x20a2382295eca0a61c888cef81115ae0637d7ec792d30eca6a0f298a77f9b26b;
 0x51549bb9adbce26e4b218b29ca79e221cb691c9ab5b2786239ef8126bad2e51;
 0x81ca5349e64d60bca080bfc534c8b30b18bea4309cf02f44c71185fe688e079;
 0x285a400d61a5cbd6ca7baa7c3c9aca5503b17fd702e00420bce7332382c0b82d;
 0x4e1bf8c955bc3c8708262e3ff148bea268adb662ac2459479e6af2e73440b21;
 0xbbe19ac4f5c67e9eec32c9e6b7dd7bc8059c91f501b2f26a92b30bc268b0b4b;
 0x2724ac58e1ea4df19e6644b8e7b7665d9248d34ffbbf4c4ca8934c608d2e8f6a;
 0x446788d95426afea830d1a6ca8d2d085bfb4330cb2514dffd60a9ab70fff709;
 0xe1ecf26c286c86abd910c2b37ac40bfc0e65cb2914269a6a6aaec5cdff5758f;
 0x29a267dc9f3d12d601a849148a2449103f25713083b1611c386d7d0c05ea4ba3;
 0x1dc34a60e783b5daf42125586ea2a5b49dc2cbeb9d2b90ba881c34ceb99d2d3b;
 0x2b9fce58534bf4a486c3220f0ff9026f578ca9c435d8321024d10eec82be4e5b;
 0x2fd9c97f01054fe61ca5e07e3681c1dd9a9d1f8ba630dd24ca5a344c3d666d19;
 0x4e6a7146c2ac015037f0a82c1bc746bfb469cec9fee37f1b708239f433e647;
 0xf5beba2020afde73013b7efe0c1384762db8612dae058d0f849c7383c07943c;
 0x1c5e1e6ef1be1aaf4b6e0d32d590dc5b249e1b1bbcf7d05d3e60c63e0a18667e;
 0x95675c6e1e8f6daa8dd42060883a7e9795f1bf881095e98497d33fd5c8cfa79;
 0x60093cc9e1f54f7bba74af718e19a10f033198c22d21f3ee80271258099dccc;
 0x2c44a35ca8e24a9f5093ce1cb92c8d0a49c5337cc3601c44e4f12e044ace0dc1;
 0x3e89623477c5f1365bba16ecb1a8a5a70e3d5c83d50f30715a4074343e68f68;
 0x1925fd586e678334d1618a7563499f6b4d001cbf3afb202328435f2d49cf734a;
 0x1a187d62deb639b820168e8b725a76c96e556a6e90304a1aca7f1971057719bb;
 0x17238dde447d9bc6cab663957ff54c74b47d53bad425dc3bc11482ad4484aa0e;
 0x2d7a0593a56bd337e7eae8a984181a77465891cb699d069efbbce87113570291;
 0x278387c4eeee6ace12f06531a312b777895ecb43495bf90a740b5ff258a733af;
 0x181ae209709983bd903f41b57eeea056849f4a86d3d79e12892a45250e01f478;
 0x2867934ebe66c335663b038c9622b41cb6bf88402c049e91801d416d73441a68;
 0x1651870d1a0d7d05a218d811e464fc4767e798061515e43be016c6672b4db55;
 0xf17095f8a2b21edd50126d275134f29cfb911a7846d5cf2da795be0c1a70024;
 0xf29ea40097b34f39d01cd889e6319731da77302171713e2990e838edcb51ce8;
 0x34503418f27ccfbdc0ee2529112d5768087367386315b530a2d9a052b608901;
 0x2da658aeea1db7b2066cc982a3a4a62fc22eea96a956b8c8d4f6b9f169bf34f6;
 0x99891e8f2205b9edb734fb0bc6c8e14d4cf2eb7850a5496ffb44dacfbee6877;
 0x22b28527a9e27d65b7d9d425f4b2f4d57bcdc390089d3ab210cf46373565b251;
 0x24ac41c21e032f1205f48938a1ba892716ae8d4c7230864b86f3b75576d249fa;
 0xefde17c56189b5dc8dd3fc9d4796eefc7dd52347c0dd3ad06538c2cbccd8601;
 0x1f321a1be55e4b41c5d5a9985d450f6c23a2db580cde1fd17df1ea16f393998;
 0x1284635e8aa17e34bab161fc58a3e85ec269123593797a44622f6bc5b14a028a;
 0x18403a5edf30cb8680f7eb86264aa0efc6422ea6f34efe55f9783bb6bccaaf5c;
 0x29ad7c5e7c5ee93c961d4b670c2998047174bbfa7edcfe28b2b4d19f3c95d995;
 0x2685b8dec7109c008c4eb559aef8b289648738087770d65a8a4f61d933309ce1;
 0x6d1a1bca7522d697a93b448ac11d95972e2737c9f6da9789408ef4a701c03e0;
 0x159f8629446b261b17f2bba98679cd215ff18a8e22a0addadcaa084ca728be2c;
 0x2100c1605b40e1644c527571d1f2a268d17a89c1b0274fde3c1856768e134361;
 0x14cd583763c5aaa5965a6cd810d3aa708ea1b01e865ad84926b6dd8a0c297f3a;
 0x2f9afdf2575f844497ccf724cdc060155b29e2f452c95006bfe54d4402068272;
 0xb6ce3f06fc23b61e6949086a27891cb2132730d5d976c4d036c7e5aa960ecd2;
 0x2096a4ace19cc7c0d94c97584f8bd1e1aa0f38a05ba444b158c0a4f33def65fa;
 0x1742909d20f9f17efb5c6ce8b23f6b85f7db0e01111ad80e910da7387926bec3;
 0x133c486c3be9d399176c89777872f6f65cc4bfa41a00b11a2b07db79541a4d9d;
 0x60b5bc9b94f45495d6e3fad5ef7c20c1d304c3d0b5dbfe930c8ae22233fc358;
 0x16c0f928676951faebb1a97f70dd86bb2439c4fadeb26028d69f33107949dcac;
 0x457f42dbda7cb38de3369bad13b68321762477158c3d9b2edc65731d2b0c43e;
 0x5bc53f4bf388b5f477d5bf8c5de1e7f38ef0f94c775d737dfbcfe40a7fcca47;
 0x20d057e30e2563d7dbc5d2641226c6f6000bcb549e7dcdb9b7df819ffd10bcdb;
 0x16f0574e7c13b41c5ececc36f9590719c31f29435a736c33ad9ac1afb9287583;
 0x1b9629d5678b18eca5f9c5244adbc287bf1b1a89468e549d1765835db5fdce7e;
 0x27d80f156488fd903d07d2c64460dd644d47db5973d0c736d914e3fa60fdbb1e;
 0x21197bb3fd8b66d8735019cdd7911cfceaba63b49dcd07910e48c993fe79d950;
 0x28f5f49728da96532a66a2d377eb299de91cc1d78701d44a0a5a5cc67ddebf9e;
 0x165bbce0d62d6841124276f53cb28883ac5e7ecc12d12514e2feb2e19b7913f5;
 0x14937807a2d9d72d2234699c5f3b12f1b72e282b216fae910db56f68cada4bf7;
 0x7142fc4901f0e214ec4c74f1685c35b0485516b7b827d75ea1b801e78f0445d;
 0x2714d6a77ac0ac766c4da2cf468c59fcc7be39c93129b9d927c2abd6843bba53;
 0x1d3110379d97c5ca70da7b048a8bc859587af977b5fbb83eaf0f951b1db2cc69;
 0x122f9b480060c35e6b1b0bb0212291b0adbe2719c660eab107abd5e632e2b96e;
 0x2815f76f3eeca94b8f2c42982cf182c937af5efbc802621c4ad9087603e5b5b;
 0x228acef677466bbce8160bd59c938c5d3400c24a10d1a3cf145519ce1397904b;
 0x2f6f0800c73e0b58c4e31639c1d98e57aa1d7b38f24198ddab4d3bdad8b1b1d2;
 0x12dcb00b96e9729e3e440eeab56d23b49592c8d306826ee18efc8f7fb11fcd3d;
 0x14c934fddb9e93c1b539ff3c72692317d0c365fd7a727f2b0d40e0442ee6cd82;
 0x1f5b48fbb10cea0ef59ad9b12483ed7be5c601513b0ccce1cda3a80c45a80c62;
 0x768ab8aa5cd040e5ee5de5261110d22bbbd30c0b5d9ca3d2b075ab0b0de8f38;
 0x2b84fe02c304f24fadc1edc0691f5bffb0501f7be8a381d099a67a9b7a870347;
 0x1827d1191b15dcf51a200bd968f5ca9cd1f96c3fd79edd645406ca0cad18251c;
 0x16950a06b92b5485ef759d0a43945c48231b0ffde5b2281ef87eca0180bfadd;
 0x211297da4d70cf7d43f3ccd70a88c15224cf043f6faea68a74d6fe282a831607;
 0xa181217d1315fc3fecf5e801814b4060a742f8186893db95f39ff21721e4d85;
 0x286058ed6304f12c9d7b6053e6d2279d34a0c187f029810854c809486d834444;
 0x2cd0a562132678f5f840cda24da4d3060639841f53c603b1a7ad459f81ddf9a9;
 0x21ce26e8e7c83045d9e79428cd905ad489dfbe75cac1fe58540867c86ef30135;
 0x14addc67a9e923ff890ed279b6a29656b1145ee2a213e3c067578c17758c517;
 0xafab4df7911d1154f9b5b9f9d44d08c2ce948d0e92a06e3a466c1293618db80;
 0x756ddc46866ba28ae20299eac58c3d58d07c0c68f84fed9cbe306a0b9a00228;
 0x15ea177d8bc1f254c3d290e72d8ebe6f9e5f672ec4fa5bb53bfeafbd30c41227;
 0x12d41992accc7258671e1ea6167ebb3dc99fe6275c38f12fb7fcc994e3263025;
 0x570a07021e7f0c979ae47d42f9e3e371249eb2a583b7060822d834e689cf8ee;
 0x21b6e9c4d6dc7798292e4900ac89f5ba6dddc3d27bbb50c45f7ef63f63e6d70a;
 0xbd7383dae8fd3f1af1696a4973bac5a34a01c54adc73f1aeffd5f31f01fc1f3;
 0x11a866fd59e5ba1d90c39c5a4a415ec8303611f3450d52f0487aa7acc82dee9d;
 0x2e330e0fb2955d8473ad9e1ba6233fdaf44fdd2fa188d4a4aed15c82979b33d0;
 0x2ec61414765244f6b467c5f24e442c939c04c3811b99def64d52b1a4f17d9dab;
 0x137a770838d8523704e776827dc372e55a90f20ba2dd51320c0ac783b023967b;
 0x1d6ae5237bba6b6e32a89f30200200af5dcaf294019868e4e152b332765e0c86;
 0x1f9037f9189a53ad5773c913e88ae7910fd020299ac394ee2e4d703b62fa69de;
 0x2c6012259c33281c77d02c61bf2b4b3db3b33146557747746c9db1eabbb7cf7d;
 0x1217df830ec5644575209a75abdc35fa606b271775f46edb7b7742b573d289eb;
 0x1d39b721d48d3be9d3d5155c58c545485e71d003f19a9fc0c663fff57f8fcbd3;
 0x144ef6b529a19c55c07e41d2859d3df72b0f756026d79f32eeb1dae57227c237;
 0x2d266907d986d7e07303e2eb45b6620d01644cb8c381ea3d1738d7674728efd4;
 0x1b31b63b9c97363652e64ce04b844efc6a63b122f164fd3d2f87d49d4fb0fe66;
 0x1a8c452a31afdc62a25380d738c6cf4e5841c5620dab19410228094537ecf537;
 0xd9d810fc7da5931c7a4907976b7b77fb68ce7fa860435910ca346aaa8b2aca6;
 0x15e7308841e82cb44ad00ba4aef9a4241004f8adf496819032375a10fecdc8a5;
 0x2e17f718ae9f7897e72b481f0c779a84c41bfacedb13e09530a7d16fe355f765;
 0x127e7ffc6ff8ba194c9422ed54f61b63e58c7ae6729280d1b6e1e881d4d02fa3;
 0xc730999ebdac150b6d5e7fa69d47f090863fab10d1949911a00156d328593f2;
 0x111418254b9d16ef8d649c5a2fc4136ac5762191ef61f1ef46d35ef199f92a27;
 0xd0e3232f7be8a95699b9bd11508fe495e026daabb9efc935ee7c4b754bc846;
 0x25130e977ec4f6beb4ae4dbf64f196f48d60f80bf80c8d5f228118383790c927;
 0xcbd22ca70300072163ec1b61ac95a45e959f6a6843d1f7a8fef6b5b290db4ca;
 0xc4e5c71b46e2663bc89392eb5775c7769c080551d2228d8103e545548b5812c;
 0x763b55731d105220bdbbed3e0f3d8dc921b4aba2d5bf2d5995317a39d43a3d1;
 0x2e578b9c3527502c2cf248f9d25e724b252b1fea5d30b96840b142b066acf145;
 0x2d7262bd89e73f64f7850e56ab934537f62cafaf511614bc8869875e33a69381;
 0x233e5ef397661c73433fac490b72a375f31c6f6774dd69330033873c59a8db85;
 0x2047881d542bbf974b9e9e9201453c82b5744730ee78d2fc226bf73dc724bfb8;
 0x1392e09d8e3d6943778f5023ac577ed58573640dfa8cfb2261dee56f020cae02;
 0x113ce5641e8c08401edbf8e40a58f7f198486c943d988b571265da3b80098b29;
 0x6fe34aee96332c0dbaa756704f0acca6fd488b7a1a424bc50759ad66df3ecf6;
 0x210eeda90df0688f37ee7f4db012fa7051daafd3d4e62a8a75aad73ca0c45808;
 0x28f55311ca526e39e26e38e2065861f3cec1e628de46f4356441c8ecdb716178;
 0xfb3a80a4b528a8955142e642194ac4a64f5b345c86e0ccf70250016052d9532;
 0x1f678a57a75775bbb3ca95f5dec0761bb71ab147df107fa75f43aaf930aea3a5;
 0x73ee51a98aea4e9ce5ddef9961b599770e580dee5cb29161bf81c0aa74ba6c3;
 0x1236c1a9259acec50a04f193506918990da1bcc9f23bafc774803adea417e9b6;
 0x169ab9a5835557f518a17756db5575e9a8273112f54b1f63479d261aad5d780a;
 0x223dc979f2833569c24130f59936a05daaa49b610c7af1df373c81ad41876f07;
 0x2a7e07c42b264f8847508f7767fad20b7e85338a7cc7b8db9cf0615a614b2a7c;
 0x2d374c9ec1482f4d7b0cf45b5f6ae5b09f9b4c5e0d3e428646822ffc583320b2;
 0x17722a6c97af3611c31e2e9c8a7c1be2cf1b1e67920cc61925228bb6b1719fcc;
 0x1bec21bd2b79bf0aab824d2c73439bf306979950789c762d3f246ef172665c6c;
 0x1e4f5c4c15166b2b0d0f2e1243ce5e4d7df0e4086f1b6c13c24760c23b3d2b94;
 0x1b266d6a03fe6a667e5bbbaed2407aca042fc65ff587a37459242e347da908ab;
 0xf82ebb4a3a2d9c061231d072974da7867464d45a092c369337d6f7f38f19d4f;
 0x35f0f510df053ad98d957cd63f2c511acb8d63f8ee734d9b9cd9d3cda717c55;
 0x239e2246410f90abaadc256d0ad649458d8a2f3a98b680bdc8648328706e59d0;
 0x230a64e0e39531bab69e8378bec5ecd45dd04f7b91a264d4b852b17050a2fe7d;
 0x201d93592e63dd8ed97eda0c1ef8f54ae33556e80ba51ec6c7d4ef5376da2669;
 0x1bfe78c50d0b855aa69885e63537eecb984c18e2c9ffdf6f76a0d38cd8aa24a0;
 0x3029708c7f3b5bafc5c0ddcd865d174e1b9ec7126ad730c124274c5627b8bfbe;
 0x15a0692e27780cc154dcfb7bcca7d8c69d613ed71ac739e88ccad5311d419393;
 0x158580885b4521fab1f59255bc74ac46dcbc6f67e4c5bbe3c0407f6e79f99663;
 0x22e542709e136b18fda8d1c59e5df8a9efcf226296ce6b99f0c5a4c6d8c5bf53;
 0x984d184c20909b189b56d89e1fe31074b711b106813e31a430f9234845fc8;
 0x260bb2c2f561af7b4bba3c23af14460e63fef91913779d6ab8780093af2e76c8;
 0x26e2ea372b49821ae56bbe19786ebf21c4326c188c47b70f47b2d120765cae;
 0xb6c4d9d36fac30339d96876a3040224baf38b59f96fd0aa02aea30ae1a2f4d5;
 0x2cf5fc3d75ef42b5b3743bfabc21490bab9a8bd9d38286f8d6ec65b3c13753f3;
 0x846aa6aa21f18c74000f044143fa266ff1e7be7bdf600be16ce4fdc40ff1e62;
 0x2f8d0ec8cf06bdb3e4c638733894d5d0a95204d648fbceada053acd9d3ba40;
 0x1ce8ff9b74b79c4cea0bcdd58063f744db9630f3bf5963f1cbdd959f61126f87;
 0x17d79111e385452e615c442c6ef083333a8a9e08628bbe1e84f4dee795dc1cd;
 0x27d064dfb09c51348c9692abe74e7db7d899b06d63af1036ab74953c08b3c55c;
 0x146874a68df33461692546b88bc079d85961ea462f0c4817e5121d74e2bf2f53;
 0x52b6352c27d080dcf5d1e50b8770c1bf6cfde559b24e7dfdd17d373e9a94852;
 0x1e7438946d79cd191bef0f79ab4f9604669367572252eb82cb0f3b19d4691159;
 0x4709da1736faef43d616d59fe1010c92e91e1410e5dd9ac376efc7386702426;
 0x28381d4a02a8a55fb06bb696c5e7ec20b36362f885b753b1ddc517db813f62fc;
 0x160ecf90b4e27a49d3f40b2cbe9f0a6ad7fba8256b9a52fb4cbfff1507a47113;
 0x30e521d91a1e1f8836f39b27733745fdf96d0867bbfd6ccaabcc94735a4704b;
 0x2b66af33183aa4e53cfb665216f86b458fd3e909d9a3b03758bad9e44657c43a;
 0x1e8516b0a2276dcba92d8b88d6fd8f9b04d61ab367a21058ca5bc8a752aabb53;
 0x2b2172b73311ff4eebdf6b89af516d2ae0b8ab75b8adf8044eb7e20d511826b8;
 0x64c2e0636845a3b22912c8baa94c39e14e7df6bb6d52cb8914521bab14371e6;
 0x1bd4f8967e443e8efe5a18601bfed7d2bd47b34c60dff0ac964d6a4eb059b417;
 0x4efc234a1736354be10620eadb0fafbf030092e0f16f539eda958274d543430;
 0x2f42fc1f05d90dbce413777f74a353c57e8e6632d30e28aaebde88b878df46db;
 0xa3fdc6b2d46b0047731f5994f193b35fd23e6d4d4906d0622be96f29d9b5369;
 0xa9a381a6f2be5b71450314f356fcceeff031aa46a27c92ceced2cebb547d960;
 0x2bf2a0d3ac00be9e5bc060a39053d85f4515d3ecc6ee6d9925c557eb3ffa487a;
 0x149cea4acc9d345af9baa0b0aa9dbb3a275341487b4809a972d4ca49fd02cfa0;
 0x2ead343a42b0ea570e1b35af19c93b0c25f50f1503cf4a637dbb9bcb58a0bf21;
 0x1c12759c6c33c9cbf6ad891adb1cc2ef432de342518651f8b1577394d7527edf;
 0x1619230feafc8101f6bc79b2c7204eb8a8b083a38c0d4bae74b31fcd353d879b;
 0x2bdc4bb87fececa61ace09b0abe8b6dd75cfaf7ba591f02eeb5635808ecdb46e;
 0x1d833c7135d27610e6972fdf005780ae41f0f98e36b6251978b6bf95d7df6a3d;
 0x1ff7a459526e796396fcca196dd04f81ba3401fec67b6b6d83422e987782009d;
 0x2440fbb4876cf36a771ae13594f31b06f3ba1748ccb06f3a16a97f94d8d66b28;
 0x10e5d84b11ab864879fed067da2804f75c9a75273911cded8bb551cff3ebb3e6;
 0x2e56c1830fe663703064d0f77480bc78b4f1d17939629fea2e9e39284f3f6262;
 0xa099027ca6f5c10087a2f4b38caddb366b98cc4dd0ea74f08819e75029f46f5;
 0x1a97468d8d9b841a57dec26dd4f17af8602de695fc539d284ee78ff852949904;
 0x394a6458349a524f4995c77b6b7f9ce6455a2162f1374383187a751a908358d;
 0x1216cf8f079a098852635296432f576a48c6dcdefaac70bd63c0f86d79de9591;
 0x21c53a9ee1d8f71099fd185abe9772623343b8ba65e3f969ab665cc58c0a6003;
 0xd00e1ec990ebd5225c709906332ec218459d452a34560c000a4141fe92a1275;
 0x79036df6b30a36b4f6a52cc876b33ec8cc13beed3e49d996bc31130e9942fd9;
 0x7316c90d57097c21407e647c1290a42d5766d43a8f324733420cabdacc16580;
 0x2caa85f3b8132001bb0fcf4114d84dba8d6ac61c96a21f3195d74803857085b3;
 0x1a5b32a122696df0430fce233abfe21fcd11dd0731f969f95f2e9243fdd98df5;
 0x1d46a76334170cf0b58ba0cdd75b31f83b3ad2bc79f7c8c930a5eacb0ba02e1a;
 0xd99bf048437a3cc71ea6998f890a532ab3a12024e230e8536d8a8bef084e956;
 0x1afc2f4c8ba126e304c61726fec22341f447302a246b922e339cd87bf2def560;
 0x1c9f11e8631cd4664da9bcf45bdec1d92ba81407e71321c727b14c4c53ff491c;
 0x199268e3ac14b60c2a29efe18ea87ec108721eb881f6a49e9d6ba1a1dd94d3e0;
 0x22c335d47bf6718031e83de42d47ab805bdce03e3eacb2ee8a5dd88caf5d5657;
 0x1160bf99f0f4ec07b8ef2d15be5a3a8d1cfa192e406bbef5ed8dd5fb75db41b9;
 0x2254cd32fd4087b71387dac3554cfc9de00194f7472fa41de674d8ca01cbf08c;
 0x1919751c378a82506fe30958a36bd6e75ec673bf25d693d98033602e73d647e5;
 0x27916b3e4a0c89922381ac94cdf88b3a4e82a539fcf5c899a5120a63cb4f768e;
 0x268d3ff9e18dc9c373616a6a5a1b81c93ec208dc043414557310c749b77985c8;
 0x21286d51d350476f7b3a2ae3ec046c13d5c911173de41ac1dc9e59bbba669f2c;
 0x20fbf8d6843bac844b6cb6324f7054344125db54d5600a06fc9b720f2229941d;
 0x1a2fb57443a3a3d7030aab81b256c8b9a84da724036a003d435ebcaccc774f44;
 0x21b13b9a4cb8e9712bbce32f178f59074a35a8cf0771061ca0764b6b190fa139;
 0x2c7a11815a420038f71fd201baa6412ac292a63dd9f7d3090ba15573bba3c5d6;
 0x18c9638094626db7e58bffd717b1287c8ace706823253bf6f91ca06a37f7fb35;
 0x136fb4abc4e094fb4b5bff23de0d41bb4764481de793f828bf3d9f9df1aa1cc7;
 0x3ec0f79bf7730bda188a011089b92d26afaa5bad67724d8e1932572c65796a8;
 0x629f306d8b1a0682c7794c32da95adaea0be483fe4f631c2b9dc250541257d0;
 0x1f0854ee6861491721684270879df687a12c28a0a7935c0bac0972ea398410d6;
 0x58928f7c7b8503a2585ac439ae4eda9310d87f95042402ffafe98ef48ea713c;
 0x2fe5a4fac888cf8dfa9acfcee249f788e86c043441cd3623fb972ee519ace172;
 0x29e954045cccab9612ff8402ad222c21dd5cd3b34d4156541d5024dc885b8d98;
 0x251a3962ba0f3e9f8de881d104643c9c39272092312a2a771f11791e63957b20;
 0xeb04f89599cba100ee5bbc4704ec638d102c6701083c6afee8d26cdc64b101d;
 0x2d2057ebb4878c47313300f8a161c6d6b3008c263e738ed1b77f6e2d2368b082;
 0xf537c7681eaad752061f5946a10f248f8afe02efaa724d97e763cc8c0971556;
 0x1e40b9aa000d70d6ee680f23d34ba07ea043561b79e8b6c306fa7878232f1cfb;
 0x1aa38f4a119fa9c3e3ff99d0ae54aa6cb1180c41d7585ef4e033678fac84b2f7;
 0x5661c023cc8ffadc425af8edbc5a45a5daf64967bab03b91c6f2383a61949a9;
 0x23c4d9d809b0d3afc1c27cb6b1dec663e9625fd44f1f1389cd1b29e2db150e0;
 0x9fac0eb9231850de7965393a8bfd15ddcbbf26596278dc789b3e40703db42b6;
 0x40b84ab00737103ed5ac312f5d44e27d4749cd191051bf8a6231bb4780e354d;
 0x2e2eb4b8354572c267ce846c9eb223e3819628b26456d7244899e57d70dff93b;
 0x198728ec996ad0953cf87bfeb8810be5c588ac10b738ccad7b1f8bad50c97e35;
 0x2f8a8ee41d90aac2a91c1cc70772ed6f98340052516b3a54bd8df388870c5b24].
(* poseidon_bn128_constants.rs:12399-12684 *)
Definition bn_m16 : list (list Z) := [[0x2b6fd7bc3a3b595c206c43daac752b765a12255c37ab51ae183933737a8b8099;
 0x69b1779dec3eaded3f07d0c3e6cecd6cffe78d747faedad9c90665aa2d92cb3;
 0x1fa4effc83498d19aaa598b7771f88a0554dddda89d32dcf8a6f4cf776d13b99;
 0x1676f5c07417ab54c37ec8ae1a8314bdeeb09964769881592043dffcb26bf41;
 0x1f4e7bbc8d42779e58aa07bf54ff324b814fe687b4c8eb81b9b7e74448ee27ff;
 0xf6b18c98fc89fbfa99a04c8c96ae5db35c296479f484b680df905d4cbd1dfa9;
 0xe6cd10883e1e11c6c191d36329f30eb0045af06c2d86d0c439f5c1f4fef54b;
 0x425a9641fb01558bc7170a2ffc24eb6a514198b296a1629cc284d983bca8757;
 0x397a7d7434b0aa941348de45aec442cd5cad2c398884950e8233c58dd50335;
 0x1d66f208fc04411a1385c22e203dc08f0bac2f7cd9dfaccdec20d3b93252ad04;
 0xec1ed3ae3beac4ddd1fdb17b9c7c648e7ec81885a07a5bcbd967e6a3676f356;
 0xb3e601e36a5d82e0214362c8419474dc1cc2c0ed8126534d69a3f790b27c603;
 0x163cb4e3a5ec92e57b25b095a3aaa8cfdc4ce59267718cc6090a07e14af10b0d;
 0x2dca90f3e5a15b29895f48d7a1290d7a33646b89620dd0a8ccde3aa3a51d41cb;
 0x2c78ee5ea16d38f0beb9dc0733c4bb1893cb33ff671b737a1122d64f729cff22;
 0x2af324ec4f9e7786dcf00439c75a294bff753e3292bbf62e66471fa730f19c79];
 [0x111d04c083f51a6fdf87412a537f6601076d61f435094ea16946efbfa4893e97;
 0x187aae261ef3ee21b37023518a071675c6d00bde82bd7f5441448abb632a764b;
 0xda28ede7f63f75596a2568b2dd7a584576e5b282f284795b1a7aa21663822b1;
 0x2043bfe52d2964e4a3b2da5e30107716cc764f9b1c8ba463f215ab1f7f03498b;
 0x27b48a636a39b51a938aea3eb552091559fbfbe71e096d518c40d908dd2570ee;
 0x17fe75a3d11b4b9d2acf7856d6dea3bbac62ade0c501347b16864f3c73ebb7f9;
 0x2326c3dca7aab6b1852654fb13fff42a152ca9632124216cc7cc6f6d37522a59;
 0x80c442909227f4a9da92e33237f9a82cb0c6f7d0c4155bdea5c6517b046eb9e;
 0x2b1c00ea00893f9f91331bc907397db865c37d3bc6c4b39b81cd931696fd7837;
 0x92f03c7e98e61c2a85943ffaf9c04dbb0145fc2055e4d5be90bb68b90109746;
 0x2a0f77bb3624fc4826c9a2a66be4ec75dbc21642a16fcc4182d2d65c0fd8d7ff;
 0x1083b742d35332a8b79b80e7dc04a72f7e86692e529b6a1ec5687334b607da7c;
 0x53e95f9455bc6499d447b6cedd0b6aad9cbced97ccf10060f3c9ef51e28e76d;
 0x5904dae3470d40ce12749b27d646e620e8519e2b17cfa016caeb89d9e34ee6e;
 0x2e563b9dc5a3d4d5a93f476b466e371019c77fd6eea506126a4f79274f2f6b9b;
 0x14560083d980d172dd40c9426cff41467acea41d7f48ff11ac5fcc087ba2d5b8];
 [0x133c5913f25ff5eaa860d0318f6a4b4349fd22f2d53530e5c785b70988a3a88;
 0x169538094d4f752529471e3fddc9ef994cfad4f96dcc7d636f0fd509b8eb9c31;
 0x199835da95f6eb22c591ebe514c7f283f674fcfa1eb787dfee5781a64f082439;
 0xdbd8662511dd7000991b39da129f9d03b565a0cd2f218d6eabbb49a25f105e5;
 0xdd0c118f15ae07e5db55077dfa46e08109954d99e18d72cd2caf613920e390b;
 0x7c921bf45e354848a60b0e5f292bb03c2469498b9c1e4d322f4afd1867408c9;
 0x1f694d1acbaab0ea5bc026a1864d568be555b89c0f49b6134e9b895ae141da86;
 0x1604de6a2db122bdd5d839540a1005ed402425bac3b85e3a72224d337402bdec;
 0x25970ce31b7b10cef221267bb1be1656ec29146df06fdb5b4f6fe6607523aa08;
 0x14956f80a65b01f9ee97e2eb070e9df2711cb8bcb538dd98e532636cc60782e8;
 0x1d799ae83ef6552f30edc47b9e82adc0503dc4b74da40ba0bbd2cc9eb1b0a53;
 0x12417c001be86197013b2b4871c4e9b0dceb83991919a9cafacfe54666f590af;
 0x2171fd11f94485466a819e24d0acef08b0c87d78b46d93bb9462b443fa40cdc5;
 0x22e9bf2aa02fe65e3cc74fb3d83d4e3351869bd30528c378958af462efd645ff;
 0x72ea2f5cdc8a3789fbcea414a91e7b27bbfb3151df510d080ff4ef7cc73f0d9;
 0x260f751c7823abae61b8f3748c84791c0bd84acf7eb6854870250178e9a52cf5];
 [0x8875f47d6f518c8c2df51a786bf2207aade284067228f440e7d0307520a56cf;
 0xa68830f19c0a729b2f89be27373d397ae1157bf507e7799d4220166ea0982d7;
 0x2af560600b3e25abcc7f78a4d6e2cd3fd99bcba075ab82b55e9841bef7b9210d;
 0x11b33a9f1818ed7f581cac020051de26fe28dc0bd8cb1a4457d5a8447bdbd6fc;
 0x45c617f604c1ac9fb8d76e8d380322e5a3b69fa7b7c2ae2c8ec5966d6a4c788;
 0xe6197fe502328d0ef7f9b930355312b347204b877e7f85d9b569dc34f064c1a;
 0xcdfe099e7a154278dfb6c0388b9daa1e8ff323a20be6a6aa7a8438333f879cb;
 0x15ded859d501c2733feaddde22ff36fa8ae85803aec7a204f42b1f6553bcc655;
 0x2d4026bfa7b37a19a300abaf2e1d5c32dbcd42240ed860f681f61dd6d6214cef;
 0xbccb669cb016d498464944f7192ecff6716e6cb5f895d2715bcbbb65b1288c0;
 0x5de1099c65f08a990ac0f1f45ec2fb872c771e10275dccfa4fce1146639d0d5;
 0x2c465d9b5eb852d79338b427b3184d941f34046172a82cce44e2b8e5c4379478;
 0x23918075c8fa0929befc2b171f99ebe9ddd6683594ef9a83f84d4acfd9592d59;
 0x15d7fba62bac57be5d97452a3c06d9fa757f144df166479ee7306967480a287d;
 0x2b6f16f812ba903901355955cc4ddb99f24f1c6e26430947e51811a68311bbf;
 0xf6673b7fb4be8cdea74aaa7802c9c73ff0d53a98e94a2bc60685d890a24fdeb];
 [0xba9f44a107a81cb23fba66f2bc34152728f5f5ca68406649a7efe47c9473f21;
 0x18ae39086eebb98d1fc5f05fa0f87ddcb149b0afe38d1bbb85a65697895e63f;
 0x101544d131454f20b549b24a65ec84f1b3221fd9b43461ddc6d156833b34c52a;
 0x26f2f58d63ca6ef59bb95206ce3ed3124885ec21762bbb1db1d6a7771ec6650;
 0x25b974fc5129d82ae4c6246e35f802e03440ead09995865313c8ca91c820c2d1;
 0x2d409bf78bd6f6a4eca7397d065023f0bb6732207925d3ce4beef9f621da2ba2;
 0x17f732cc1354b1fb476e70568d2dcb0b6683d30b02415dfd385504736aa86de6;
 0x40db0defe6ba4797b74a43125cf34d86a2b33e7a22e2710b0fb7a5568893aac;
 0x29e89034942414a1ff6833d6e22742d4106e0f5f37d1f2ab80e5444e5a52c9c7;
 0x121d2ba5bd8f232ecf44aacf1044cd6ab6f93f1e537d7d1541754fd49f51b225;
 0xf0913eb4ee7d3c02d8ce73d1cec2b6cbb176a92129b34a294adf066243ff6bd;
 0xa0fe66c0d4de00cc7761008732a0097fb14d6465f9d1df835e0423fb207d979;
 0x898ed1ec1a43687ff6aba32de5f819434528a0752b3928331899b0646b2f061;
 0x11e0b2343ef371d2d6d22805974f2539b6e510d761e0da170d0da90095a13262;
 0x1d59d5c10b0c9dd347899377da35b7e677c7d39ef1b49166b974a7f2bc99c946;
 0x1a15b7e2de27125f2e6a74f4ec7cd2455f1bbfaeb1155f1af819bdb5fe54241d];
 [0x542832ab23b6c7a4b547a1066037152a2442e998c5381ba97698413153ba6f1;
 0x4c5ebc771344cc0612765710bfcb1c2e6097abc3d346f049495f7d7b7f06cb1;
 0x1a51740cda5e45ea4d4bd7bf5ce5466a66a11afb5bc93cf10d5309e07d410e4e;
 0x2eb6ed568377b696ad3cb237064ec68e390c24886e1f122d21d7cf3290dc6d08;
 0x181589b140c9109e492fc3ec7d8ca8e3c25a7ce58df06f13ef43561d58c5926e;
 0x205a6d5aab2d224b668c70fcb41582ee9ebe1ff099292b4bc50af8b292c0ea42;
 0x28239a882dc7b2f3ff7b9aa8de9e3d81af736d4ee6ed991d5c6b4fa540148f43;
 0x1ab15f2fde6f535e77e615c8c2602193d45860cc015849df578f9fef9a5bb283;
 0x32b6266f24017fde1b281d0fe206dff30b539d5c5ba13b5312e488d8d6f194b;
 0x4e358f259a33244f4058a056110a26816bbec3c76ab6a5f7be93c9e0c92f3eb;
 0x25a9ac2d1ef84abd98927b52c24f38796ea60e63858ec5b50196d7e169c93b84;
 0x2f521f24bc02286ae2bf8484fbbc39843886755f52bfec7d3dd5df78d340721d;
 0x1dc3f7a659530a13accad181b6e265474108d8b1469266552dfbc38cb679d06d;
 0x2ba39845393fcc776fd383e535d567621c7f64005a83a6f7f48222bc902092a8;
 0x4730fe04e0108c9a5145a5c48e60c5457e4708522157bfe0f82af5c664d6ea2;
 0x75a09e41e74de8a2ac7fef27591e76a77c851e1a51185f31e99b5e08f01cc74];
 [0xba1f764367360952942ccb6edf051c8f937906a816641e0d1e9e2ed26906fa8;
 0x29faa7dadc8b7e9588d4a601e77bd80aadf272a1bfec3c443ca3ccac81d9e1e1;
 0x1324558b8a5d4ba61b17790128be9f2440c0085dd5d6065b88f0a3b2537bdadd;
 0x18faaf1c91e002f7dbbd12f408bd5c5b92f38e02ce3635824821e0347faf53ec;
 0xee1288b29855e2e38dd26292b39e260529841344538d6499996a32e7cc523f3;
 0x2380ab051d0ac580a7d116f4a9337eb31090a4c7ecbd4e638e7717b7a52bf106;
 0x158926b9e94b10fcb321b293bb8a8647627a5bd31315808d397c1c94f650f2cd;
 0x264fadcc791aa18e76751a895242c30cdbbd1197a90a456dc278e10bf0bff5e5;
 0x2ea014b61ed575392239bd9411c0a6c4202b7334cf2e0dd8c3040528e4a3dfda;
 0x2da2603a26d4fdec35318204ba5060663e15a0b1e4d9395258d5e6eecaea8fb1;
 0x20a0e3f4e1249c4c6af100dfdf63f8bdc69ec7885bcd0d2c2e98d98f9bb9d104;
 0x2f1d3eed36018f9679711e030bdbae51224b5efb8b1eb1cdca8ab886212f0fb;
 0xe388bb105242406e372080e997a31392cf4ffbd9c694163fc366eae770e435d;
 0x25143649c13e08d4b00bf34d2aa1a8e450f89788e27766896217047155c5bf1e;
 0x12ec24239ba1b0fc9f952550a223a52d209d8d22b8b21ac24881a2719276be0e;
 0x79c04944d50b4777dd0bebe953600645ceca9d65fba020f97365146bef9c6ce];
 [0x2e0611fa4ca3985d7bfaf512f21a4081141f4ed0dc4b022834d3cb6cfd8b7ffc;
 0x2acf3493012bbd818724e7ceda2431e97c8933bfaeb5d7463b512e6e8e8f7fcc;
 0x13473024ba419fc2a7743e7df8fc8375aab150d3753a54250a808d66f2d06b91;
 0x29437af1b14f637a1f0e39955f2604bf20439fcb2a090e346aa65a9ebe69788e;
 0x206e4d445315b764280cc643b9479f49946ea86d7304b6a2c692ac34d7c98d34;
 0x1382c3c24bf2489fe9efd80a163e650111f5d9885e58a9ed729dca1f9a74e59f;
 0x17cd11864fd2c73d0867d37264b4ca14df935a82f2a6f432c4998135fa5f4aa0;
 0x2de279fcf77a270823a91a6cd1aafb58e9e3ab32fdff0b3b05c98d554db6fad3;
 0x12ced5254e260a9db7abe0cbea26396680f6e57dc07732a755d409ef751200b9;
 0xef5f9ee6ba1ae1d1264cf1a36e0fe4b8043ab0bddf9b9c3200fb687a8ea5c83;
 0x6b7e18d01b47ff8e4ef08078e8128a06693be657489492ac4195a854722bdfd;
 0x23aa7ccc3751b740eec9f35a29986bc958a4dbc7c4b12eab2be8376706deb20e;
 0x2273c370eb5810c03903605d7cc94d5a92af6aaaa7b844f35189e77406a7e86b;
 0x2a7310e75fafe902e20287a91abe388aae8420b1ea4660dd7c159c26b9632cd1;
 0x20098399725ee15d93ffd3e481e4a7b95c8c5083f9d69bff1714eea7c7d82d49;
 0x2ca2bac7c1aa0c64e684123f0ffe22173923052b6a01f3c29be80137fd8972c];
 [0xe6f23c0ef6f159dec68341a87830fb864b6c08cb954a14a2500876697897fb7;
 0x23b34612e7d052f6b312ca0e0cf70034ad232d9bf63c88821085383b6f6ec4a3;
 0x13f15bc6453df6f9383446550534dc57aedb10139e3053e83bafdd99356175f0;
 0xedf86bf1b1599fe27c66f3494862d75df7764070a8263cf88778f7287938d8e;
 0x1641648c26b5a2dc297daaa6d4ddb6a2f258ba738f9094e7c5cda6efa8c993b1;
 0x280c4522ad0ffd92c391e94c70f87120b8341890c3329af050625f2be52f3a41;
 0x1d772098b6154921db8e7506e6f0372ca44f20af3386e13bcf71ff5dc0d61b1b;
 0x53ed8ad550d8992f4b9814920183dd839bf355eaca8cc7b07020a22614a808a;
 0x1d4f9ba4fd8ce4ef193b9f870f44956079538d63bce344f9016ac5ed63a99a5e;
 0xd53d61c8a5214e0c4715274ad67a5d6a2cfb9fc3c1e791d41de22c8ba8468a4;
 0x12cf87253913d45d287e975f2b4f5b909d16a87d89c889057f666f6ba61389b0;
 0x2b088cd30a10899babc325bba32aa343d329f9a8782469c4d25f0f237ff607fd;
 0x19972ffdde7898ec8be4fb28e4b19efaa43c7ee20c88e29096ebe872e1c19475;
 0x1fa6944703fe0012a16ee6042529ff02bc804313ef8c6d8b0f910a75e6f47739;
 0x18237af733bc44418ac84e623f483a6be28b8f21d033fbf099d645ba20f1fc26;
 0x13d9035a0dc798b04dcef0f08edd241524fdca0e95ba9cac05d207bd317e19cf];
 [0x1a7a2a4a08d87e75f720302bead7ca21c8f7c2ed2debaced9b8b1b2da461cbc;
 0x11680cc6e80b0e430a4cd3607017fa8331d86c4d03a96dfc18767c97cbe0a197;
 0x1314b54f8786096244532c9f054b379636e2b58bfdceb3d48dfb2210b529b4e5;
 0x1336b208e00d8ebac83246a96ebdde351063fa3f635887e753a0ce3e29c7eedd;
 0x1887be87f7a352410482ef3bdcf7ef17976e087eb8990c76d7e971c44c048239;
 0x1f405a9483311e1497568f1bdcd6d58cd6bc813982a0e71561b620003b888204;
 0x209576be72db7b0c9fe2b8329125e7dff0489a8e900a5f14c1e6e48604134264;
 0x279702b135d144ede943195269c00bf620f058bf0186ce9fff3cb38b22245a;
 0x2c9c3135cf64b89eb5b714d7b2ebcd81fc7edae637cc6116591df208b6b2583;
 0x252e78b4838ad5007f518bb9c6a4ce501871f71128eee3f0c9784cd64b183fbf;
 0x29a7d554e9ffbee639867842fd0e7d41ea9b1bc9621b654fcb398f71c95b668e;
 0x305a0c2c2c4d35998e9913829f5602504363f21bd720347350b604193e79bc3f;
 0x61d78e1953d1943e2d968335b73e15fecef89075e96c943d39702b214ddc5fa;
 0x261f975babd7692822473b8e39f948b9cf98730a9785de393179d4bb99dacdc8;
 0x1e3d6cef37f9bdac23d1b381a6c58d0ecf06a6ebf58dfa7a995a443ed7df68e9;
 0x1d6657d791831169c56b6e9a201f8b7b240246a2d0f854430489b983454032d4];
 [0x1d8005df48c8565987dbb442b482cae5bfc10ee486ecc5b670ce861345979d1d;
 0x1fa772ebde6f3732444623d67fe991116298f8f30a2d1010c8ae6132a3d6907f;
 0x56a8ecd232a674c63d7b603ef8cd06321c560df2fd3f6c2649af576467fd798;
 0x2646341eb44b4800d56084cb48500fac48fc533891f557e96784cc6004d8928b;
 0x231f2c98bda8d48bb4a6d9c98bbbc16027235a22a1ed4f88bc8d3a6e582209f2;
 0x1cafcfb62926fbc04857b0bd7d7392b8d8add16b5cbefb54b4d5312826e89942;
 0xb7ab1ef17ff6235f7737f044161902f03d594cf4a0cc67b4ffb4711ade1eb0f;
 0x179a82b77f2ccb94b38eb582ac4abbb16df429ecc22471be73cc7766f96d9948;
 0x18b63685f6fed2aa1904856378442151dd1fa01c7ce6121d23e1e9ee20b42558;
 0xa27a8d1af6a0460ae1724f32f21a06b036668d0a863be50fcc47fec5763ce93;
 0x186756775058d09c639cdabbacd01bf3c2744152156fbf7e8f3e999fb610ed38;
 0x8bd9ddd192d797a19dd1da049beb39fa6596598a27031ea1c2b28966d96180c;
 0x194184a825de9e9b63ed7a7bd071253ef5903e1e75a50536db93c26311a72017;
 0x2e08b28bdcc417d9643b3008085a27f4a9876792d3915c8b9da3567a6dd6ce82;
 0x28e55b0bed59191216d5dbe1dd05b22c009b079de877fd54aaf5401d2c867e02;
 0x1c89d8f975f0304282ad8f7bd41c12c3b18ac6b80e4065fccda423bbb3ffa786];
 [0x28122254823f8926acb7e98f557e796282e5e1271618858e76d49d0886da16f3;
 0x2e63f1740332f57e8317f2592ebd8db0812714d6604132d525e33e19b3c98494;
 0x98b740976c2a1031e75132e050bf3838b739d061582543c1c7f95c152ee262;
 0x6f53c79fed9e09848e112a0742d8ae84a04bd9ba5aa2765b1e5edfb1602140f;
 0x1fcea89286dc1db61fe1111606af396e98cb53dab5199750aa5e5d11561fb145;
 0xa12e162620e71beeb203be56594416b083e7e94eec23e0f44a5ffe9e159508b;
 0x1b1bbf4e9f706051716a0e28990caf17573086a5d818c038836696808b12d8e5;
 0x89efed00e9d993f5fc1d5af2f2b5d47a9b70e6d5a603fbaaa8f65102123efd7;
 0x2b202e1d2626c6793d68aacf9c3a8fffb27cdf5a0b83ff8f3504f9ab26a43d15;
 0x3048a265d0eeb40e5a531633ac22bb825f75cee9036e66a061be3d4d248c862;
 0x2532dd7487fcae0dc3a7ac50b80ec330c6fb6d4cf885f1135988bf6dfc010a6f;
 0x12cee8e3d1cac1ca84517ab3def487c460aec058348ff220c801b78979af9e61;
 0x21c0d1874decaf90613183ea827b91c1b2951839f71f329cb9c9b0753ffaefee;
 0x17e9ed191c5641d768b0e55ec0d4a85f6e5419d32f5668d397d5b6cb805387f;
 0xc6c9ec31c9e3be0744919fc555c77c0c125927bd16de2807712b35ca26dd045;
 0x20829ef3df9c183f8965e49c8f315c2995a6446a76053543eb750145f1a77400];
 [0x2414d4aefc7b4857df681328e68a582d23b2dcffd579a8e6aeed6c61050e05cd;
 0x1202e349d1d7b805846e90834efc911eb6b10c2a09eaeaa29ed288bd779b14f1;
 0x24b96dbebfab6d23fa32c2c8e7758cb240bacd8143323c53cdb48dc8b65f8e4;
 0x2a3c9f55afacee735a1b515526426384ad044291f7691974d9c05c634b43947e;
 0xf7bfcfab17db34c144cee44636bdeadfab44a6bf4fc8ef384ec89a4ae9ed209;
 0x17203c4d2e1a428a17be2c27d1c4c5960dfc6aa36f22bdde8be56a0cd44e71ab;
 0x22a8ee74367413eccf7aa03fdd420c6bb6255a6dd82081d6b14eda9a9752329b;
 0x21e25f0a7f8edc38de25ba605a86cc08e08ccb03e77c5e0b9edabe74768b60c0;
 0x6a78dfde1458ee341a089c15f953a2193527dffb43f552cdad595da7c6fecc6;
 0x3fd94e51bbda6843d31a282530d54240aa496165d644d5d7737b1e5a7d60d52;
 0x2efe529db1de3c01d6fe7fb8a71f1eaab6af1641fb1f7aad4f2b88cd13c9fe5;
 0xcab504b22a3573d09509f85d3fbd94e94417acb25392342bacd684006c37185;
 0x1cb33ad2ba7dd0c2063443432a847bccce775a8daf868e0c474905a4fa36d70e;
 0xaaf37d1f53dd0556e347ec705962379077cd543198e1c27593f4454521261f7;
 0x2a607facd3936fdd0e84e9bc3e4b4bac86e8102c2b5ad15cae550d28b3654e73;
 0x14a2bd5a56f87009db981546533202f3af812d2ef4d6b037f2830853b9f9039c];
 [0x2f710c72d6da19c7d87cbffd55665b472b0265d13e2326a9a33b96e95d3746b6;
 0x168fdc32d4aa8dc9034ad4a4fafee89f0ed5c980d3db424d38f8ce5cd04c237c;
 0x15bbd5619f0d59790804f2b9b37e069fc909a2796d1f77d0c62609deda2d0278;
 0x1e16e9ca2502d696023bce3427244ad6553ce86bbc4c349a34ba61067c6b6d6a;
 0x1dd0a5502743aaa9f583bd0ad35de13ad8d5fc98f1961f2612ad4c28fd9f9fa;
 0xed2cfae7b36f470a7d1f6940f914e8ecd322bfd6b50f9ad9f6a2226e7a95db4;
 0x2c785f9d8834f5cf5d08f106d5f9918340fd414abe24f0a9ff2b8e0492b44d83;
 0xd8dbc3fc854c0665c30c48846d7bb0eb18d3d78a4f70fef07f242e45b865eaa;
 0x22f62e45e50084696ac2512a25db9925244cf0214b6b543d3a9f83b8e8e58ffa;
 0x2f26bc13ae48520a439c9f546abb35a1222a307e38fafc3e7ffc843f6c77d7ad;
 0xaf825f7ca24b4a285f544762d9defdc99f2b85c1b89fc5ff2079d3d50e6d4ea;
 0x160590968429f480f55611c6448912fdf423d37bf483c36acccc1ac9a29d2a53;
 0x2bb32cf60f8d469edb1b6c56493d4c9338b4051ae2514d4b6082ef18b1d5228a;
 0x2a4a72e9dfe5bf25f6fde750a1847e5b44298ba58fb504be57a595e7fccdc404;
 0xc509a4bf48ad76e90410bea34a8919741608bbbb6b5503c93e732036f079d12;
 0x199733da4aeed8d6cd148461617e8e46de22d3720431fc1605619b12a7fd4e2a];
 [0x2e285441d0bed90bb41d6480836850e4d76da8211b04a236dbc7c3c30320c00e;
 0xb9ae9f5ee6ad70a651b4b66e34f521b130d18c49464d86fe5d4b1820489028f;
 0x4760054bd5d07132548bed7657f17c61c038ebcdfdd4025c7b802e08948e108;
 0x2a4c6d3259779c396ef8173ae5fe87bd611dbe25d1c048ada96306db1e3a40d;
 0x1959db01f5c8bb0cf483490373e75b0451b87b43e59181be0b6016674f3f5efb;
 0x1849cd0910d72eacc32d891b71faf500bcb93e1cef2504af443b94f8b1ce7212;
 0x4b5dc2057b88170a718a102e0ca9177afc757ee26773a0290c6bab159ca4fb9;
 0x17bdf338072884b522ce3c50ef4711091b9daf48a43374bdc0a830c37e5dcdc8;
 0x2d9379e69b178208b8496b8a0a0a90d578b21f090c53042be4767e3c10d3b40e;
 0x14057d02e5ebcf33c166e18fe904defa9e342a19e88d42336377f1c5e67ec30;
 0x17818dd0254b291d0d8f4f1a458c6a21d8841153661812bbe986b1403cf270df;
 0x1c95c2917353c53b4cdb7f750a0fe86ce10f8d5bdb018032d3f793797d7c0a35;
 0x2495b3c1bfec60741808149333fc43f04d79dec56582c292829ffdfb3c1a3c4;
 0x2adec8549dffde7238b2bda6e7732990a911700c8d35288baa39e67015953231;
 0x178074303b90d8985e376584b8b8dfb7f952f8f4cf84d815f90baaa3b644c4c6;
 0x1f5fc060028ba07d11fc9477f4faffe79a81040ea9a04c568267644895e6737f];
 [0x2964901a2b42e9aea1a6593662aeb9e12077a287434bda4ec2012e36a19dc95c;
 0x6c2194af72fac58ca13a2a5e3223104ef49a540fd2eaea0d67a920d8567040a;
 0xa5494c9bcfa06aa72c36fd22d98fe72dc14dc0e4e74e03d1755f38ac34050ad;
 0x265ca211180b012c378e0198f0b5f7758c155e3675fadf92ca79156bd56fe339;
 0x21f659fedaf6c2617f17d637cd6f54a27782f4e8431f87af5c8591932ce7dab7;
 0x1e463ae3f4c3bd047aa1049f4f091a2f1d5d3550e3d5801fcff68f9a5e6828f4;
 0x27412191fa2b2e5327a11d290e4b439a4124f48145c61ff4ece8448a4373eadf;
 0xb3a769c8b371562260395ee4f348f88bb056a2f0ec0f98e4e633bf7d943615f;
 0x1adb4c87433d866e8fe5ae26d01477e3962879c20c8c3a170c0727167c06d0b8;
 0x1fc26ed027db7b9e7241c2c760176662f634ba05a9ca7a850e184ae588cbe215;
 0x10175fb6f81b16436af30682f36fbab396eddb7829a50e946c75f27e260987c7;
 0x23d300373bb8ebf7dbcf314a3c0b1fdecd5cae23f7e7bb915bcdb6a6782b57fb;
 0xf0417fa6237167e741525261306c17664dc3efa9247aa0d4bcfff38e89dedee;
 0x1e8fd20a8030fdd94e2c4353d8f82b4b212bf887bc59615814890b0f92a47d90;
 0x18572826385dfc6eeca4d3c71d110b04abae013c5450d9e4947a3d019bb41b6f;
 0x208b7c8c1ff8422d4a1bd13a02a94681ce217d925f40d2875f73def14de7a220]].
(* poseidon_bn128_constants_opt.rs:1850-2041 *)
Definition bn_C16 : list Z := [0x11e27da7b7ef964948a332974d07cceea778bc33aedbcd09de222fa22ad0b101;
 0x1f60381b83b44a8fe65a0f4142faaafc5fbf55f79133c5740c53f036a3065b65;
 0xfc1e1ac8ad3524ebdbfa45dcc51576548234d0292adfe1cd70a706a1b6dadd8;
 0xa40798ead3a12b78bcd8f10bb15cb0c426bbd2282a81dcdc070084ce78b8d76;
 0x2dc09d3357051155987ea95594436b6cbf393b0135f51e2f675ea5f462f4a9c5;
 0x104b9241d534264532eda181de1a154dd175ee150f349033e46ddc54181da088;
 0x127a6208d98f6cd387b802fa44cab2037b3b91f0622f17084f1b8d8ac9d12698;
 0x2d075ceebab54341dc02fb1f50d938ce1dfdcde659955a930ec18f8625f86d4d;
 0x44fd5c2101a20be2ad923bebe15a477f40c6039a3dd0d7443fe72758042010c;
 0x2b302c8511fbd3702b815564c5399acb8a8f2a8eb77f96c7f0849628e09f9bc8;
 0x7cbe339db90599455d1eded1e8a870bd302c92a79b1d0f4ee87222cce99e22b;
 0x1326749312c6e8bd4ef24c97c809f78ae548394c94c3df2f28ffa8105debe211;
 0x54021406b8d1f8c7080e7c245304e4b7a797cd236dad92d929b223f269780e0;
 0x5c0e033b589f8ddb23a9d559eaeecf98691a8d018f1279bf406d08f2787cc42;
 0x2508a8cdd450f969b61c749d566c9459a16ead4330e35d5415b12eca38584bb1;
 0x264dccc02e574ca7e736da25072bd8fbe9909621fd4f4169b2bae8d368ff12d2;
 0x137199f796d310d7fe22d83663c8e607d342407dc28c10d27aedc4a45c8ff70d;
 0x2f6877c1a818cf1f087343dc38dd120833574b9691540d03128a2d051c1be240;
 0xf418e13a90e4295bd384c4d4764398e1e44865058e6d85f10396a7cb0716494;
 0x1a6864de7ca70730f8657bed417c428aa5dddafee26ee78b942c86be61a962c7;
 0xf8be2e253cba2f128e7365d8b1ad95f8986968cc60224445f2bd717c26088d9;
 0x16a8d9f265a66f69fad6d7b744cf090e490552c6d4ac77f89f09d0ae70095a5b;
 0x25f1a51ea7f88847cd19c9dfa9c8587ac7a4f4b8a10bf900d20270398b9613e5;
 0x28d4a6eebf392a9378b7ad9aab8862245279a9f2c0b1678cb6d3141ebb14644e;
 0xad7537d9d5bb7e34936eadf66fe924d80c893745fdcebd5ea08b79f9137aed5;
 0x6ae9e1b3a2edb869b5c6f231fede58dc7dfe42bf3802394ce5d62c3a65567f7;
 0x1f5d4250771eb130c046c8df1e77f7f77da20709346a334dbd22c72191045cb1;
 0x14bd6a1b5678cda4ea3a16c3b5abbf38ee1d82219849cc37fbcbd934e7de1162;
 0x22905156b6bb357e2727bdcb8f39a66a09828307046296c6d5322abdb932d0bf;
 0x2023fcb87f89e6fe4cefc3d315249ed8133834b56aeab6fe07b7fc246b096c;
 0xeef78e23ad00648fcdb65eb246c737b7b4060b37b6b845eb914108f1316646f;
 0x1f3030be5da4e16c0468d631074a65f5457462fd6be6db36c3a522453164e48e;
 0x10dc200b8c1b565d4c2e88d5bc1bad12c490a20d05dcc4cf55e9644f3534455c;
 0x11a9cf0b8e97ea26ed0d49abf3a09233703333789a390d72db661fa70b1cc2c6;
 0x15b97860d1a835a706f54a97ff04a15c69dd3beb0f86b51c83803d490c2cf2f;
 0x1225bfd0d701b349214873ab03716319d9c96e3cd8d962028b17db843e4a7f19;
 0xf4ebaee2abcbc49d408aa52c60dcc093cb0da884c4a92d0f280d7b100600560;
 0xadeeea75944cd5d35045ec8cb6a57487287a92d1f70cd0b2389a4f128792ac6;
 0x1874870c72a32f0d385294a73d0ff67d7234af8e0ec57c63b4f77e72130591fc;
 0xcd011ee52170682d3777ba0085ec1620e19b1485d9898800dd2b1d74f613576;
 0x2e72b9107cc1e1a9bef16bb21a308c9fe3fc9221e55f5d4cbd43ee8de297e02b;
 0x7ad8d8e863868745d2c0c6e1d08dd357803f4653ea2045792edb563399f7d84;
 0x273d3298e5b22284dd66bb0f5e963f0a6af68c14018c728fc42cc82acc384db3;
 0x111b832918546dae5a1a71d312b412462b9d2bbe867be4fdf089eb15820bfe13;
 0xc4dec2328aabeec22bef040c565b1227753c1dbcd9e470f906a4fcb5cdbe7ee;
 0xd21f2bf0ab2f74a5eb38abf787121f015d88ac22de1490c548d0606b8e6d7b4;
 0x1e08837512f3cfe1319b8f8babf49e738abd159e322227401b7a5441978f77d3;
 0x211eaccc37cea3485cb8300994538c153b1dc5b8d63c96b437b91434642a11b4;
 0x123e045851f8649e6332e3e208b9d4db39099f077a1104555bc38f68c62deee8;
 0x8b66ae60a35e192963af9ca3e8681012d5288a5abc67065ba52bb151d4042e1;
 0x2e9188c8e02a08b719f7cf8af307de827d424a166e6f9ebb172ba41855a405c;
 0x52458b94157b0e5d0b5cef9ffe8e014eafd7cfc1b43611faf31c2d8d59b4eac;
 0x24bb0266c20a04010addd514bf76e3da1276d13cc58faf89668e238b9ed2ed6f;
 0xcd9a619dc0621a5f4cdba8303b5f69da6206bf28a04b96d4fdfd3a214e3e54e;
 0x119949b91445ca55fa6ea8da2c11d93892e5b4cf3485599f41106eef149eea9a;
 0x265ec37b545cd5dc12a27c1128c314a13e8cb222b5d25c3b9061934e93cb97b;
 0x6aa84e7c246cd723c78fa394a7ded19596e074fff4ac200171a1f4c75bd7924;
 0x1b4e6c237527565068aa65269cd73b5c4675b1148fc31fbabcdcaa341f63205f;
 0x2bc7d97b099113c5ab67254ffaca493041bc43e8d344be98152e98a4fb786da1;
 0x1e8fd4145c4cda03e17eb62c0f9d8cc97f5b13b83ba8400b57a3d80009c00eeb;
 0xde458ac4a2ca65e25c6c028b23e73fcad1bdb3e3f1b6a730eb47e04dfa65318;
 0x2d1ba2bfddb58785ae140c239197729f0c60ef611f3b377d4aae3c6dd444b5b;
 0x29d94b0688e3236b20967ec747b92e837fcbc396fd6c348b1e0c748a6ee021f1;
 0x2ec6c5500bc7998c7b821d209c608a630195b734c02a5aeb15b1c755b7857d5f;
 0xd185c970b8d03fab0cb058605d2c0871c76af2047efcaca0e1be393a4817ef2;
 0x300c58a0b3c59893a5acfa7a0adc1de29dfa3f16b4689af0535cc2513d60920c;
 0x2360aebfee8827a4b9037013a6dec8af8f38308d119b3167df19e3eced62ef6;
 0x43ba139aaacd5a1c1349104235e9855ee8802cae5a30a85edad853b092b5181;
 0x1b0597b0023cc90297b8a4e996676d65276b1a4c6409d7c3c26008e56cfe6f63;
 0xeb1857692cae615046d0febd92edbed96417c07b841b462f78b90960771ed0;
 0x6399b5873506855684d027c760fa5b89721ac3004096114ee2b0c5ea727eaa0;
 0x92636eca31acead1a2e63131e25a2cb4cb5e5db766615861f4fcb06e4321eb;
 0x2e1d940f15c6a1f49a28f66c0d539f5ec4431ebc533ddfef8acf0f5463b7d0fd;
 0x946412137bd02c889bc3f6600635398e5c29347a580994338e44a6fa41b40b9;
 0x18ec2c5948557c8699e5e425ae42b5f51db8faeadb62bab808d1662253e61cae;
 0xac166679eb2864d7674a89bda016c235736783820591cb9504b890b9117fe4b;
 0x4db97e1cff9f2fb62e16077221c20306c32f579be40d7838e6ec15320c38443;
 0xc4d540ab17d3ba0328f95369e86fb073f3660896d85a679ff9c6c99268bb7fc;
 0x2e6b4be5eef898dd7bf66b3754ad1bdbab013ab0ed99c1632a489c76987f2ef2;
 0x15f2072ffd2d6caa3d6ca13f7703a47c0bba942b0d9ba0b141047a297ae19899;
 0x1ef8155e5c33f8855bfdcc24ac895db935559d5dbc442514d4272e0b2270604d;
 0x194f4e345835e516564677d1af5193e67f26573afe1d12fd77673126e4b6c1e0;
 0x2a3fd58a40436abcf4ff7d7a582c5bab55edf2150a786ed51c56c6ff2b668c98;
 0x11729c1bf0a0f91ac34e4456d39ee6d2dd1c064368c2f0a8b76f555802d9af0d;
 0x2e13f7ce1f37ee5f2839bacd94feb1063960ee6438f10e01000769bc2856e755;
 0xe1442f5f0fa8737f50d8935fdfc204cf07e6fb3acd7c7cbc78fd28dce78deea;
 0x1aac56dc7ff6d0adb2cb7b01c67f487e3c812350450993bccb186b2fba077957;
 0xdb64a35a35a8fd6b486cf00f5324887f84c20240637b071d462a8896af11134;
 0x2cf6b1eb727612b4676e65d750a2cb15c82f13bc858e0bf6c1cf87b96f8796f2;
 0x761d1ff3a90fa0ece518705f2f80055b7667ff667063fb5bdaa950efc805199;
 0x92a84456e8ab1a26ed09f4c9c78dfbedbf4904937bbbaaae9a23dc680fb01c0;
 0xcf9cb1a0a9e17a9d6bf4b296ee0530c1b88141bce69357f964fbc22796465ce;
 0x1fd3b34a7c3a44e18fa8eadb896e5a17ed439bed8efd723246a009446bb95f0d;
 0x4b5ad182b4ba40ada5f69e436740417c1bc901b58515f969cff2fbde530787a;
 0x17aed43f02895475ab9427f84c57b965683d44ac92554d140ebd0434fefd6944;
 0x302772848bcacef898d59e149ef84e4822edaa6091e236aa41bd683acbd43a7f;
 0x14b66c4b0f5ee36c9f94644a4110cd09825cc8c85f6cb328391e83fcc86c71e9;
 0x18d6d00bd7b85619dd8b979158baaa87e5fd97a0c6d536c211a3ec663458fb2b;
 0xc094c29ad77018d4da01ac5d06bbaf353330bafc55a942fbaa30b4876e11240;
 0x1f6c4bd9672a340c114623c83ff250c8e410f0a3a11b4fe769099f8be230e4d;
 0x279d9751ee739e974ab65792beb9276773537e2095dbe80baf236adaf2d9de3f;
 0x2560999bf8b9ba17804b13067dd4b0b0022219dcbe167dab5f9300b68236da2a;
 0x211d8050a0cc08d433d487381dfee76e39c8afc46292f336565121fddf4f8b4;
 0x26dc6f484d1445c5f5c208ff1a487e372f1f8782dec0a5da03a85f706ef48e8c;
 0xd11eab567c463fd6796c3bb711467a6a78f7d847de201eb717dba516808d237;
 0x239b30a866e3778491b842a8c2df9ae14a6315981c2394c26d99ce97c4e7fce0;
 0x2e35cdbf79533471e4849a97467eb4d1b21c6ad8ef34691e08b74ef19c27735a;
 0x2237729ead5273e8d6acd40a63eb08813a2293e21dff54ea02619c6bdbb18c77;
 0x290c8723936f36b91aa1fc42768007ea904952ec0e41480d074b96d41703d648;
 0x1c279f1d50860ece8148cc1b59f5c14a850af2f3a7e2afb8fddf72964fdf9c53;
 0x1938e4214605f8e2fa59e7f90eb10eba0e984c24a5f5c1b719f41421229922e2;
 0x1b45ae36a32c689150489056ea161cf38ed1506f33a711d6b471657277d770ee;
 0x2f0ac8b7be349d38f0ae7f7dcd7cc86eb3aa06c708b3faff90f6b24a8b691431;
 0x1c40238de6c61dc8fdb5a75611be0d4bf7f5c4eb39fe9c065c26ae970e2b1f06;
 0x1b4baa71e93d13018ae4ebb790bc188c4b46c892c6782a27115bcac4d165f3dc;
 0x145d0fd15960dfe597187dcdd2927c5170b853928ee08686555ca5a57ab4b1d3;
 0x83791a423ac40504e7c99084980599a3359ca693c6aacc47b192a325d6df626;
 0x2999885c947c9dd00616bbfc088819ffe4c0d2f9033b04f408acfcf1d79651a3;
 0x8d0a62a3ee05bc36241af5eea0b62dfd4f28c31fbe77fbaae392fa7b05af4f2;
 0x18e93970a8a8070a1835114c4316e7ffc242eb128031aca086d3ce2cd3558e33;
 0x126590f273bacddc28fc87c100b5bccf95eea5c1607dbbcbf05b6db2992cc12e;
 0x21a7b2a18aba9b81406cfe7c64c1b0b4037c241e7565b52760d74e7720e92117;
 0x4985dff243cbbd8eac16b7b6f03603118293966de095b2e057043891bf5174d;
 0x18ad558446b1c9342e3846c398d05727ebc22d4a8c03de6380cbe55aab7241bb;
 0x1b055d908da8e662ee4b05c3c66886a35bcefb67946cfa6baeeddd8cb06fb65f;
 0x1a10263fb63bd4f23fdbacba6fb3f0d7499fea2e1e1547b36b17c4fa79dc0eba;
 0x114b2c3f7730ae08a1a31bbdc27ca1b3fda63d5d8eb55bdac6578b27633395cc;
 0x1a3f27e20df3c4045f3a67065ed869377e0c63a9a367f09f7a3bc63d4006bae3;
 0x1eebb48e654885e9fdc60b3ad67b988530923f65fa76983851b1092640bebef7;
 0x2ab3b05b9cc58838ee853f9d4a4817c7bbb1efa9deedb84d52c90ad9d80c2b1e;
 0xbe8d510c3f0d8edd5716971f2452b3106ae0f4933d894404bc0b5eeecebe356;
 0x300225e792be5f679ad2d4f8b3d070495bcdf876e50523cd877b4fce9bd30543;
 0x2df4b36388d11c2ca5d95c24c93e8ad10ba7b74735753cd0c7aa4805fadbf0f7;
 0xef6deac5ae321c054639444d4f0031663195997b4cfde163c75e989eb0629b6;
 0xfe041753831aa6a6bc0ea08a153bd5a409de14ecf636b3682539074356e5852;
 0x107105d12a394dbcb31832b57081aedb73e0aa17ac7c2faee1870d2dac147f89;
 0x1c2618562f04166bcfa93b80c537ea8b35aa07d8ee33703fda76079f7b78f1ce;
 0x27f7f4d91b9f452211799438a638f0c80e3db58ecb8d194e97e211e158df46fb;
 0x2a9982f31c9f628b43652dc20217d9a91bdfa94bd125e1e032e4f6626eb3bb02;
 0x2676c1451011dab5891ee8f715409412396960849613d13334af036176b7f343;
 0x27c95df56dbab27660262717556e57b6d3d66869a0f834bffdcdf58c80de932;
 0x50255c8e75aa4e294b921733803da9d6b9a9eeee28606bbda643a9122fc76b7;
 0x26a0dbba1128c1eed674bf21e7a7d23163d48634967d0daf7e467501768d237;
 0x16e80c84883b3370e75f1ab266b46f0b839accab3726278ec206998b62e789df;
 0x9782b1fb5ac39e3124c5e857253337a4503950a6dd151f005963c92254ad7d;
 0xa6975f45d3f7bb18c7db0a286cfdfbe0d75b79c74e67ad2265cd168c1670c1f;
 0x9b2d6b4df7d70732ad35eeed1b468efd932a780e9e74cb82c3dc1c47b4c8440;
 0x96195e37522c163f5fd66f13cac8bee72ae4b445224ebd85340a69b5a322739;
 0x26d015d70931042ece8bd15db6b08bc1496b7501baf0c8bf4a5534fd60422941;
 0x39f5d3bf59ceb12854079a2675ecece7b8cc5d9ab9c3d79adc1d181ca6198a9;
 0x1352b30ec61d92dd82e2360d38137d2fb02c1e78d6f99cc437e8640becc56122;
 0xbd8e9fb03b03709c0be6510b233fcffbc1f9f63f4d6019b110f77417fe381b1;
 0x14d37b7920faff9ff10ac3568122fe38221ac783e675bd5f6e69494755853723;
 0x2208c576d439a6c9c0c380e7063fff76a1f2685bbed6fd7bed23c732f345501a;
 0x8f4fa71b7c3c71c66c0075a5b7a0cb6271c6f7568979d3742e2847cd650aa55;
 0x30553e47d42844f4dc97d3b96dee7b6c483d2868125eb7de508164de2466b74e;
 0xe10c2cb9014f110cb54d27ae0130988b0c32a55f8d111f2bf797dc5b2c39a86;
 0x2801868c0861bcc953405e4964dfd447a8888d8839aa7e414de176c7c061e238;
 0x23ea7dafbfe7bf1d8f8b4ec83aa1f0ce31fdfc9ac5d2cca02f14ed1b87caf599;
 0x22ff012edcab66b7416dca632a59caba6d641e02f6fe47e7510ce945966f3721;
 0x2dfd80076ffbaecd97311a5c0b2314400005a1f07b6c21d92228583ca5b5a4b;
 0x23c45a61f4f2c8b3e066a26e232e26db93aaa24e2f65d26601ab2d7a1b95606;
 0x2072907f984ca35bce9ad3e82d8c30f9acc0ce98d145e4fe277e628489594e2e;
 0x8964e49de9a9fee1ca762ffbf07f8c4a8122bc4e90e7b567fcff008a6e45e6;
 0x2dc503267b1497a821453a73030f2a3523213bf0db9d5b061342cd859a1cd907;
 0x5fd4295ee0e76dc56af4119e7376a593e4bb185af60adddf232b91e67fb2aee;
 0x2092ffeb6b7760870dfaf471823ed7591fcf6e6bd5b1bcf43775d3c07b462706;
 0xbf1a49f9b9ac34d30e463ba797e3e08dfb424791ea612b280932ec208c7f800;
 0x272a88a53e263ff0a56bff4cc645fcc269d3ad5a63f9625ffe9eac93a36b77d4;
 0x27bb4022b1f689184b10d6f29824311ccc5e2ef14a3914aea8f06ccb7f2aa8ce;
 0x178f0ee74c834c0d22f7aebc5171f960b20546dd9cb53b3ded78a351ab41ce10;
 0xbf6df276b3f28afd5206a8646dd6f4c095fd98871a5060502f3a6444be321b5;
 0x219d4e79092df13b3223f935d2a0a2573c1f7d509a91dd7fc5533d4c3c5d098f;
 0x20f5702b749f56df810411ad9950ca9f87f1e0f97b8163280b3b2df05b679b4d;
 0x117284f038872bce68c791ad18246ed84badb692e338f716793f5a6bf216386e;
 0x2c2dbc65a26b313f84567ed71d40847093d08ce8c2b8a343c62b7f57ef63d968;
 0x1743373e3858cdc0582049ef7e0284d33403cc8bf56997c508a10b5fb008ae77;
 0xba28f299d1ca31db5a3bc0e8202e9ce8fe85f80c4f03f9eae2dab5de051a659;
 0xe46831dc32f73c1086055faeadf047d3408c2cc0dc2e725c878dc9ce68f17eb;
 0x1d8635cde2ec64aa50d8d979e29ef11fa0060bf86ea00762250e314e2881f70a;
 0xeb6d86f7e11b1e3dc21882511e03b7aa64063688fc52f655f12e34a343dbcb9;
 0x20bb2d1b0caed114b06fca648b0703a7346f6b2690f220f82e7710b586b6a81;
 0x1c4db5ac81e0e47818bfc08f7ec2d66bf15daaab8ee766728f588539eb60075e;
 0x16eba5f5dd46415f55abb8199b0069ad3ab7a78e8eedfafcae845760a4b1e525;
 0x46718c49cfcd67cfc27daaf0bc00db0165a8b34bd1801110b85c3f890779f02;
 0x10eccf3b4cf167cd78f9eeeacc462eed71eb92a2e31bdc1fc4b16c0b19feb44f;
 0x16e1b2c0dd88527774f18bc53f4274fd15a5afcf3656f149ba7bf0d67050f3dd;
 0x1d13bd396da5a68e7b801ff0b2c6c2725f961bf633d0dfaf1a4b2c904969ae53;
 0x2023518104868b1b97d9a5170d7a33230bff0618df4a31b381fbe9a0ea3224f4;
 0x84c4f9050120239d86cb0d84535ccb94821f0a1def04495ffeb559f153ddc26;
 0x1ff6f423d94667ef2d79660600e05c570f74d77ae07139d2019069ff96c83566;
 0x7b5719a1e09b96a5ce2c130b9d3ec76002d81bd6a8b46ad27274036bb363bba].
(* poseidon_bn128_constants_opt.rs:3758-4043 *)
Definition bn_M16 : list (list Z) := [[0x2b6fd7bc3a3b595c206c43daac752b765a12255c37ab51ae183933737a8b8099;
 0x111d04c083f51a6fdf87412a537f6601076d61f435094ea16946efbfa4893e97;
 0x133c5913f25ff5eaa860d0318f6a4b4349fd22f2d53530e5c785b70988a3a88;
 0x8875f47d6f518c8c2df51a786bf2207aade284067228f440e7d0307520a56cf;
 0xba9f44a107a81cb23fba66f2bc34152728f5f5ca68406649a7efe47c9473f21;
 0x542832ab23b6c7a4b547a1066037152a2442e998c5381ba97698413153ba6f1;
 0xba1f764367360952942ccb6edf051c8f937906a816641e0d1e9e2ed26906fa8;
 0x2e0611fa4ca3985d7bfaf512f21a4081141f4ed0dc4b022834d3cb6cfd8b7ffc;
 0xe6f23c0ef6f159dec68341a87830fb864b6c08cb954a14a2500876697897fb7;
 0x1a7a2a4a08d87e75f720302bead7ca21c8f7c2ed2debaced9b8b1b2da461cbc;
 0x1d8005df48c8565987dbb442b482cae5bfc10ee486ecc5b670ce861345979d1d;
 0x28122254823f8926acb7e98f557e796282e5e1271618858e76d49d0886da16f3;
 0x2414d4aefc7b4857df681328e68a582d23b2dcffd579a8e6aeed6c61050e05cd;
 0x2f710c72d6da19c7d87cbffd55665b472b0265d13e2326a9a33b96e95d3746b6;
 0x2e285441d0bed90bb41d6480836850e4d76da8211b04a236dbc7c3c30320c00e;
 0x2964901a2b42e9aea1a6593662aeb9e12077a287434bda4ec2012e36a19dc95c];
 [0x69b1779dec3eaded3f07d0c3e6cecd6cffe78d747faedad9c90665aa2d92cb3;
 0x187aae261ef3ee21b37023518a071675c6d00bde82bd7f5441448abb632a764b;
 0x169538094d4f752529471e3fddc9ef994cfad4f96dcc7d636f0fd509b8eb9c31;
 0xa68830f19c0a729b2f89be27373d397ae1157bf507e7799d4220166ea0982d7;
 0x18ae39086eebb98d1fc5f05fa0f87ddcb149b0afe38d1bbb85a65697895e63f;
 0x4c5ebc771344cc0612765710bfcb1c2e6097abc3d346f049495f7d7b7f06cb1;
 0x29faa7dadc8b7e9588d4a601e77bd80aadf272a1bfec3c443ca3ccac81d9e1e1;
 0x2acf3493012bbd818724e7ceda2431e97c8933bfaeb5d7463b512e6e8e8f7fcc;
 0x23b34612e7d052f6b312ca0e0cf70034ad232d9bf63c88821085383b6f6ec4a3;
 0x11680cc6e80b0e430a4cd3607017fa8331d86c4d03a96dfc18767c97cbe0a197;
 0x1fa772ebde6f3732444623d67fe991116298f8f30a2d1010c8ae6132a3d6907f;
 0x2e63f1740332f57e8317f2592ebd8db0812714d6604132d525e33e19b3c98494;
 0x1202e349d1d7b805846e90834efc911eb6b10c2a09eaeaa29ed288bd779b14f1;
 0x168fdc32d4aa8dc9034ad4a4fafee89f0ed5c980d3db424d38f8ce5cd04c237c;
 0xb9ae9f5ee6ad70a651b4b66e34f521b130d18c49464d86fe5d4b1820489028f;
 0x6c2194af72fac58ca13a2a5e3223104ef49a540fd2eaea0d67a920d8567040a];
 [0x1fa4effc83498d19aaa598b7771f88a0554dddda89d32dcf8a6f4cf776d13b99;
 0xda28ede7f63f75596a2568b2dd7a584576e5b282f284795b1a7aa21663822b1;
 0x199835da95f6eb22c591ebe514c7f283f674fcfa1eb787dfee5781a64f082439;
 0x2af560600b3e25abcc7f78a4d6e2cd3fd99bcba075ab82b55e9841bef7b9210d;
 0x101544d131454f20b549b24a65ec84f1b3221fd9b43461ddc6d156833b34c52a;
 0x1a51740cda5e45ea4d4bd7bf5ce5466a66a11afb5bc93cf10d5309e07d410e4e;
 0x1324558b8a5d4ba61b17790128be9f2440c0085dd5d6065b88f0a3b2537bdadd;
 0x13473024ba419fc2a7743e7df8fc8375aab150d3753a54250a808d66f2d06b91;
 0x13f15bc6453df6f9383446550534dc57aedb10139e3053e83bafdd99356175f0;
 0x1314b54f8786096244532c9f054b379636e2b58bfdceb3d48dfb2210b529b4e5;
 0x56a8ecd232a674c63d7b603ef8cd06321c560df2fd3f6c2649af576467fd798;
 0x98b740976c2a1031e75132e050bf3838b739d061582543c1c7f95c152ee262;
 0x24b96dbebfab6d23fa32c2c8e7758cb240bacd8143323c53cdb48dc8b65f8e4;
 0x15bbd5619f0d59790804f2b9b37e069fc909a2796d1f77d0c62609deda2d0278;
 0x4760054bd5d07132548bed7657f17c61c038ebcdfdd4025c7b802e08948e108;
 0xa5494c9bcfa06aa72c36fd22d98fe72dc14dc0e4e74e03d1755f38ac34050ad];
 [0x1676f5c07417ab54c37ec8ae1a8314bdeeb09964769881592043dffcb26bf41;
 0x2043bfe52d2964e4a3b2da5e30107716cc764f9b1c8ba463f215ab1f7f03498b;
 0xdbd8662511dd7000991b39da129f9d03b565a0cd2f218d6eabbb49a25f105e5;
 0x11b33a9f1818ed7f581cac020051de26fe28dc0bd8cb1a4457d5a8447bdbd6fc;
 0x26f2f58d63ca6ef59bb95206ce3ed3124885ec21762bbb1db1d6a7771ec6650;
 0x2eb6ed568377b696ad3cb237064ec68e390c24886e1f122d21d7cf3290dc6d08;
 0x18faaf1c91e002f7dbbd12f408bd5c5b92f38e02ce3635824821e0347faf53ec;
 0x29437af1b14f637a1f0e39955f2604bf20439fcb2a090e346aa65a9ebe69788e;
 0xedf86bf1b1599fe27c66f3494862d75df7764070a8263cf88778f7287938d8e;
 0x1336b208e00d8ebac83246a96ebdde351063fa3f635887e753a0ce3e29c7eedd;
 0x2646341eb44b4800d56084cb48500fac48fc533891f557e96784cc6004d8928b;
 0x6f53c79fed9e09848e112a0742d8ae84a04bd9ba5aa2765b1e5edfb1602140f;
 0x2a3c9f55afacee735a1b515526426384ad044291f7691974d9c05c634b43947e;
 0x1e16e9ca2502d696023bce3427244ad6553ce86bbc4c349a34ba61067c6b6d6a;
 0x2a4c6d3259779c396ef8173ae5fe87bd611dbe25d1c048ada96306db1e3a40d;
 0x265ca211180b012c378e0198f0b5f7758c155e3675fadf92ca79156bd56fe339];
 [0x1f4e7bbc8d42779e58aa07bf54ff324b814fe687b4c8eb81b9b7e74448ee27ff;
 0x27b48a636a39b51a938aea3eb552091559fbfbe71e096d518c40d908dd2570ee;
 0xdd0c118f15ae07e5db55077dfa46e08109954d99e18d72cd2caf613920e390b;
 0x45c617f604c1ac9fb8d76e8d380322e5a3b69fa7b7c2ae2c8ec5966d6a4c788;
 0x25b974fc5129d82ae4c6246e35f802e03440ead09995865313c8ca91c820c2d1;
 0x181589b140c9109e492fc3ec7d8ca8e3c25a7ce58df06f13ef43561d58c5926e;
 0xee1288b29855e2e38dd26292b39e260529841344538d6499996a32e7cc523f3;
 0x206e4d445315b764280cc643b9479f49946ea86d7304b6a2c692ac34d7c98d34;
 0x1641648c26b5a2dc297daaa6d4ddb6a2f258ba738f9094e7c5cda6efa8c993b1;
 0x1887be87f7a352410482ef3bdcf7ef17976e087eb8990c76d7e971c44c048239;
 0x231f2c98bda8d48bb4a6d9c98bbbc16027235a22a1ed4f88bc8d3a6e582209f2;
 0x1fcea89286dc1db61fe1111606af396e98cb53dab5199750aa5e5d11561fb145;
 0xf7bfcfab17db34c144cee44636bdeadfab44a6bf4fc8ef384ec89a4ae9ed209;
 0x1dd0a5502743aaa9f583bd0ad35de13ad8d5fc98f1961f2612ad4c28fd9f9fa;
 0x1959db01f5c8bb0cf483490373e75b0451b87b43e59181be0b6016674f3f5efb;
 0x21f659fedaf6c2617f17d637cd6f54a27782f4e8431f87af5c8591932ce7dab7];
 [0xf6b18c98fc89fbfa99a04c8c96ae5db35c296479f484b680df905d4cbd1dfa9;
 0x17fe75a3d11b4b9d2acf7856d6dea3bbac62ade0c501347b16864f3c73ebb7f9;
 0x7c921bf45e354848a60b0e5f292bb03c2469498b9c1e4d322f4afd1867408c9;
 0xe6197fe502328d0ef7f9b930355312b347204b877e7f85d9b569dc34f064c1a;
 0x2d409bf78bd6f6a4eca7397d065023f0bb6732207925d3ce4beef9f621da2ba2;
 0x205a6d5aab2d224b668c70fcb41582ee9ebe1ff099292b4bc50af8b292c0ea42;
 0x2380ab051d0ac580a7d116f4a9337eb31090a4c7ecbd4e638e7717b7a52bf106;
 0x1382c3c24bf2489fe9efd80a163e650111f5d9885e58a9ed729dca1f9a74e59f;
 0x280c4522ad0ffd92c391e94c70f87120b8341890c3329af050625f2be52f3a41;
 0x1f405a9483311e1497568f1bdcd6d58cd6bc813982a0e71561b620003b888204;
 0x1cafcfb62926fbc04857b0bd7d7392b8d8add16b5cbefb54b4d5312826e89942;
 0xa12e162620e71beeb203be56594416b083e7e94eec23e0f44a5ffe9e159508b;
 0x17203c4d2e1a428a17be2c27d1c4c5960dfc6aa36f22bdde8be56a0cd44e71ab;
 0xed2cfae7b36f470a7d1f6940f914e8ecd322bfd6b50f9ad9f6a2226e7a95db4;
 0x1849cd0910d72eacc32d891b71faf500bcb93e1cef2504af443b94f8b1ce7212;
 0x1e463ae3f4c3bd047aa1049f4f091a2f1d5d3550e3d5801fcff68f9a5e6828f4];
 [0xe6cd10883e1e11c6c191d36329f30eb0045af06c2d86d0c439f5c1f4fef54b;
 0x2326c3dca7aab6b1852654fb13fff42a152ca9632124216cc7cc6f6d37522a59;
 0x1f694d1acbaab0ea5bc026a1864d568be555b89c0f49b6134e9b895ae141da86;
 0xcdfe099e7a154278dfb6c0388b9daa1e8ff323a20be6a6aa7a8438333f879cb;
 0x17f732cc1354b1fb476e70568d2dcb0b6683d30b02415dfd385504736aa86de6;
 0x28239a882dc7b2f3ff7b9aa8de9e3d81af736d4ee6ed991d5c6b4fa540148f43;
 0x158926b9e94b10fcb321b293bb8a8647627a5bd31315808d397c1c94f650f2cd;
 0x17cd11864fd2c73d0867d37264b4ca14df935a82f2a6f432c4998135fa5f4aa0;
 0x1d772098b6154921db8e7506e6f0372ca44f20af3386e13bcf71ff5dc0d61b1b;
 0x209576be72db7b0c9fe2b8329125e7dff0489a8e900a5f14c1e6e48604134264;
 0xb7ab1ef17ff6235f7737f044161902f03d594cf4a0cc67b4ffb4711ade1eb0f;
 0x1b1bbf4e9f706051716a0e28990caf17573086a5d818c038836696808b12d8e5;
 0x22a8ee74367413eccf7aa03fdd420c6bb6255a6dd82081d6b14eda9a9752329b;
 0x2c785f9d8834f5cf5d08f106d5f9918340fd414abe24f0a9ff2b8e0492b44d83;
 0x4b5dc2057b88170a718a102e0ca9177afc757ee26773a0290c6bab159ca4fb9;
 0x27412191fa2b2e5327a11d290e4b439a4124f48145c61ff4ece8448a4373eadf];
 [0x425a9641fb01558bc7170a2ffc24eb6a514198b296a1629cc284d983bca8757;
 0x80c442909227f4a9da92e33237f9a82cb0c6f7d0c4155bdea5c6517b046eb9e;
 0x1604de6a2db122bdd5d839540a1005ed402425bac3b85e3a72224d337402bdec;
 0x15ded859d501c2733feaddde22ff36fa8ae85803aec7a204f42b1f6553bcc655;
 0x40db0defe6ba4797b74a43125cf34d86a2b33e7a22e2710b0fb7a5568893aac;
 0x1ab15f2fde6f535e77e615c8c2602193d45860cc015849df578f9fef9a5bb283;
 0x264fadcc791aa18e76751a895242c30cdbbd1197a90a456dc278e10bf0bff5e5;
 0x2de279fcf77a270823a91a6cd1aafb58e9e3ab32fdff0b3b05c98d554db6fad3;
 0x53ed8ad550d8992f4b9814920183dd839bf355eaca8cc7b07020a22614a808a;
 0x279702b135d144ede943195269c00bf620f058bf0186ce9fff3cb38b22245a;
 0x179a82b77f2ccb94b38eb582ac4abbb16df429ecc22471be73cc7766f96d9948;
 0x89efed00e9d993f5fc1d5af2f2b5d47a9b70e6d5a603fbaaa8f65102123efd7;
 0x21e25f0a7f8edc38de25ba605a86cc08e08ccb03e77c5e0b9edabe74768b60c0;
 0xd8dbc3fc854c0665c30c48846d7bb0eb18d3d78a4f70fef07f242e45b865eaa;
 0x17bdf338072884b522ce3c50ef4711091b9daf48a43374bdc0a830c37e5dcdc8;
 0xb3a769c8b371562260395ee4f348f88bb056a2f0ec0f98e4e633bf7d943615f];
 [0x397a7d7434b0aa941348de45aec442cd5cad2c398884950e8233c58dd50335;
 0x2b1c00ea00893f9f91331bc907397db865c37d3bc6c4b39b81cd931696fd7837;
 0x25970ce31b7b10cef221267bb1be1656ec29146df06fdb5b4f6fe6607523aa08;
 0x2d4026bfa7b37a19a300abaf2e1d5c32dbcd42240ed860f681f61dd6d6214cef;
 0x29e89034942414a1ff6833d6e22742d4106e0f5f37d1f2ab80e5444e5a52c9c7;
 0x32b6266f24017fde1b281d0fe206dff30b539d5c5ba13b5312e488d8d6f194b;
 0x2ea014b61ed575392239bd9411c0a6c4202b7334cf2e0dd8c3040528e4a3dfda;
 0x12ced5254e260a9db7abe0cbea26396680f6e57dc07732a755d409ef751200b9;
 0x1d4f9ba4fd8ce4ef193b9f870f44956079538d63bce344f9016ac5ed63a99a5e;
 0x2c9c3135cf64b89eb5b714d7b2ebcd81fc7edae637cc6116591df208b6b2583;
 0x18b63685f6fed2aa1904856378442151dd1fa01c7ce6121d23e1e9ee20b42558;
 0x2b202e1d2626c6793d68aacf9c3a8fffb27cdf5a0b83ff8f3504f9ab26a43d15;
 0x6a78dfde1458ee341a089c15f953a2193527dffb43f552cdad595da7c6fecc6;
 0x22f62e45e50084696ac2512a25db9925244cf0214b6b543d3a9f83b8e8e58ffa;
 0x2d9379e69b178208b8496b8a0a0a90d578b21f090c53042be4767e3c10d3b40e;
 0x1adb4c87433d866e8fe5ae26d01477e3962879c20c8c3a170c0727167c06d0b8];
 [0x1d66f208fc04411a1385c22e203dc08f0bac2f7cd9dfaccdec20d3b93252ad04;
 0x92f03c7e98e61c2a85943ffaf9c04dbb0145fc2055e4d5be90bb68b90109746;
 0x14956f80a65b01f9ee97e2eb070e9df2711cb8bcb538dd98e532636cc60782e8;
 0xbccb669cb016d498464944f7192ecff6716e6cb5f895d2715bcbbb65b1288c0;
 0x121d2ba5bd8f232ecf44aacf1044cd6ab6f93f1e537d7d1541754fd49f51b225;
 0x4e358f259a33244f4058a056110a26816bbec3c76ab6a5f7be93c9e0c92f3eb;
 0x2da2603a26d4fdec35318204ba5060663e15a0b1e4d9395258d5e6eecaea8fb1;
 0xef5f9ee6ba1ae1d1264cf1a36e0fe4b8043ab0bddf9b9c3200fb687a8ea5c83;
 0xd53d61c8a5214e0c4715274ad67a5d6a2cfb9fc3c1e791d41de22c8ba8468a4;
 0x252e78b4838ad5007f518bb9c6a4ce501871f71128eee3f0c9784cd64b183fbf;
 0xa27a8d1af6a0460ae1724f32f21a06b036668d0a863be50fcc47fec5763ce93;
 0x3048a265d0eeb40e5a531633ac22bb825f75cee9036e66a061be3d4d248c862;
 0x3fd94e51bbda6843d31a282530d54240aa496165d644d5d7737b1e5a7d60d52;
 0x2f26bc13ae48520a439c9f546abb35a1222a307e38fafc3e7ffc843f6c77d7ad;
 0x14057d02e5ebcf33c166e18fe904defa9e342a19e88d42336377f1c5e67ec30;
 0x1fc26ed027db7b9e7241c2c760176662f634ba05a9ca7a850e184ae588cbe215];
 [0xec1ed3ae3beac4ddd1fdb17b9c7c648e7ec81885a07a5bcbd967e6a3676f356;
 0x2a0f77bb3624fc4826c9a2a66be4ec75dbc21642a16fcc4182d2d65c0fd8d7ff;
 0x1d799ae83ef6552f30edc47b9e82adc0503dc4b74da40ba0bbd2cc9eb1b0a53;
 0x5de1099c65f08a990ac0f1f45ec2fb872c771e10275dccfa4fce1146639d0d5;
 0xf0913eb4ee7d3c02d8ce73d1cec2b6cbb176a92129b34a294adf066243ff6bd;
 0x25a9ac2d1ef84abd98927b52c24f38796ea60e63858ec5b50196d7e169c93b84;
 0x20a0e3f4e1249c4c6af100dfdf63f8bdc69ec7885bcd0d2c2e98d98f9bb9d104;
 0x6b7e18d01b47ff8e4ef08078e8128a06693be657489492ac4195a854722bdfd;
 0x12cf87253913d45d287e975f2b4f5b909d16a87d89c889057f666f6ba61389b0;
 0x29a7d554e9ffbee639867842fd0e7d41ea9b1bc9621b654fcb398f71c95b668e;
 0x186756775058d09c639cdabbacd01bf3c2744152156fbf7e8f3e999fb610ed38;
 0x2532dd7487fcae0dc3a7ac50b80ec330c6fb6d4cf885f1135988bf6dfc010a6f;
 0x2efe529db1de3c01d6fe7fb8a71f1eaab6af1641fb1f7aad4f2b88cd13c9fe5;
 0xaf825f7ca24b4a285f544762d9defdc99f2b85c1b89fc5ff2079d3d50e6d4ea;
 0x17818dd0254b291d0d8f4f1a458c6a21d8841153661812bbe986b1403cf270df;
 0x10175fb6f81b16436af30682f36fbab396eddb7829a50e946c75f27e260987c7];
 [0xb3e601e36a5d82e0214362c8419474dc1cc2c0ed8126534d69a3f790b27c603;
 0x1083b742d35332a8b79b80e7dc04a72f7e86692e529b6a1ec5687334b607da7c;
 0x12417c001be86197013b2b4871c4e9b0dceb83991919a9cafacfe54666f590af;
 0x2c465d9b5eb852d79338b427b3184d941f34046172a82cce44e2b8e5c4379478;
 0xa0fe66c0d4de00cc7761008732a0097fb14d6465f9d1df835e0423fb207d979;
 0x2f521f24bc02286ae2bf8484fbbc39843886755f52bfec7d3dd5df78d340721d;
 0x2f1d3eed36018f9679711e030bdbae51224b5efb8b1eb1cdca8ab886212f0fb;
 0x23aa7ccc3751b740eec9f35a29986bc958a4dbc7c4b12eab2be8376706deb20e;
 0x2b088cd30a10899babc325bba32aa343d329f9a8782469c4d25f0f237ff607fd;
 0x305a0c2c2c4d35998e9913829f5602504363f21bd720347350b604193e79bc3f;
 0x8bd9ddd192d797a19dd1da049beb39fa6596598a27031ea1c2b28966d96180c;
 0x12cee8e3d1cac1ca84517ab3def487c460aec058348ff220c801b78979af9e61;
 0xcab504b22a3573d09509f85d3fbd94e94417acb25392342bacd684006c37185;
 0x160590968429f480f55611c6448912fdf423d37bf483c36acccc1ac9a29d2a53;
 0x1c95c2917353c53b4cdb7f750a0fe86ce10f8d5bdb018032d3f793797d7c0a35;
 0x23d300373bb8ebf7dbcf314a3c0b1fdecd5cae23f7e7bb915bcdb6a6782b57fb];
 [0x163cb4e3a5ec92e57b25b095a3aaa8cfdc4ce59267718cc6090a07e14af10b0d;
 0x53e95f9455bc6499d447b6cedd0b6aad9cbced97ccf10060f3c9ef51e28e76d;
 0x2171fd11f94485466a819e24d0acef08b0c87d78b46d93bb9462b443fa40cdc5;
 0x23918075c8fa0929befc2b171f99ebe9ddd6683594ef9a83f84d4acfd9592d59;
 0x898ed1ec1a43687ff6aba32de5f819434528a0752b3928331899b0646b2f061;
 0x1dc3f7a659530a13accad181b6e265474108d8b1469266552dfbc38cb679d06d;
 0xe388bb105242406e372080e997a31392cf4ffbd9c694163fc366eae770e435d;
 0x2273c370eb5810c03903605d7cc94d5a92af6aaaa7b844f35189e77406a7e86b;
 0x19972ffdde7898ec8be4fb28e4b19efaa43c7ee20c88e29096ebe872e1c19475;
 0x61d78e1953d1943e2d968335b73e15fecef89075e96c943d39702b214ddc5fa;
 0x194184a825de9e9b63ed7a7bd071253ef5903e1e75a50536db93c26311a72017;
 0x21c0d1874decaf90613183ea827b91c1b2951839f71f329cb9c9b0753ffaefee;
 0x1cb33ad2ba7dd0c2063443432a847bccce775a8daf868e0c474905a4fa36d70e;
 0x2bb32cf60f8d469edb1b6c56493d4c9338b4051ae2514d4b6082ef18b1d5228a;
 0x2495b3c1bfec60741808149333fc43f04d79dec56582c292829ffdfb3c1a3c4;
 0xf0417fa6237167e741525261306c17664dc3efa9247aa0d4bcfff38e89dedee];
 [0x2dca90f3e5a15b29895f48d7a1290d7a33646b89620dd0a8ccde3aa3a51d41cb;
 0x5904dae3470d40ce12749b27d646e620e8519e2b17cfa016caeb89d9e34ee6e;
 0x22e9bf2aa02fe65e3cc74fb3d83d4e3351869bd30528c378958af462efd645ff;
 0x15d7fba62bac57be5d97452a3c06d9fa757f144df166479ee7306967480a287d;
 0x11e0b2343ef371d2d6d22805974f2539b6e510d761e0da170d0da90095a13262;
 0x2ba39845393fcc776fd383e535d567621c7f64005a83a6f7f48222bc902092a8;
 0x25143649c13e08d4b00bf34d2aa1a8e450f89788e27766896217047155c5bf1e;
 0x2a7310e75fafe902e20287a91abe388aae8420b1ea4660dd7c159c26b9632cd1;
 0x1fa6944703fe0012a16ee6042529ff02bc804313ef8c6d8b0f910a75e6f47739;
 0x261f975babd7692822473b8e39f948b9cf98730a9785de393179d4bb99dacdc8;
 0x2e08b28bdcc417d9643b3008085a27f4a9876792d3915c8b9da3567a6dd6ce82;
 0x17e9ed191c5641d768b0e55ec0d4a85f6e5419d32f5668d397d5b6cb805387f;
 0xaaf37d1f53dd0556e347ec705962379077cd543198e1c27593f4454521261f7;
 0x2a4a72e9dfe5bf25f6fde750a1847e5b44298ba58fb504be57a595e7fccdc404;
 0x2adec8549dffde7238b2bda6e7732990a911700c8d35288baa39e67015953231;
 0x1e8fd20a8030fdd94e2c4353d8f82b4b212bf887bc59615814890b0f92a47d90];
 [0x2c78ee5ea16d38f0beb9dc0733c4bb1893cb33ff671b737a1122d64f729cff22;
 0x2e563b9dc5a3d4d5a93f476b466e371019c77fd6eea506126a4f79274f2f6b9b;
 0x72ea2f5cdc8a3789fbcea414a91e7b27bbfb3151df510d080ff4ef7cc73f0d9;
 0x2b6f16f812ba903901355955cc4ddb99f24f1c6e26430947e51811a68311bbf;
 0x1d59d5c10b0c9dd347899377da35b7e677c7d39ef1b49166b974a7f2bc99c946;
 0x4730fe04e0108c9a5145a5c48e60c5457e4708522157bfe0f82af5c664d6ea2;
 0x12ec24239ba1b0fc9f952550a223a52d209d8d22b8b21ac24881a2719276be0e;
 0x20098399725ee15d93ffd3e481e4a7b95c8c5083f9d69bff1714eea7c7d82d49;
 0x18237af733bc44418ac84e623f483a6be28b8f21d033fbf099d645ba20f1fc26;
 0x1e3d6cef37f9bdac23d1b381a6c58d0ecf06a6ebf58dfa7a995a443ed7df68e9;
 0x28e55b0bed59191216d5dbe1dd05b22c009b079de877fd54aaf5401d2c867e02;
 0xc6c9ec31c9e3be0744919fc555c77c0c125927bd16de2807712b35ca26dd045;
 0x2a607facd3936fdd0e84e9bc3e4b4bac86e8102c2b5ad15cae550d28b3654e73;
 0xc509a4bf48ad76e90410bea34a8919741608bbbb6b5503c93e732036f079d12;
 0x178074303b90d8985e376584b8b8dfb7f952f8f4cf84d815f90baaa3b644c4c6;
 0x18572826385dfc6eeca4d3c71d110b04abae013c5450d9e4947a3d019bb41b6f];
 [0x2af324ec4f9e7786dcf00439c75a294bff753e3292bbf62e66471fa730f19c79;
 0x14560083d980d172dd40c9426cff41467acea41d7f48ff11ac5fcc087ba2d5b8;
 0x260f751c7823abae61b8f3748c84791c0bd84acf7eb6854870250178e9a52cf5;
 0xf6673b7fb4be8cdea74aaa7802c9c73ff0d53a98e94a2bc60685d890a24fdeb;
 0x1a15b7e2de27125f2e6a74f4ec7cd2455f1bbfaeb1155f1af819bdb5fe54241d;
 0x75a09e41e74de8a2ac7fef27591e76a77c851e1a51185f31e99b5e08f01cc74;
 0x79c04944d50b4777dd0bebe953600645ceca9d65fba020f97365146bef9c6ce;
 0x2ca2bac7c1aa0c64e684123f0ffe22173923052b6a01f3c29be80137fd8972c;
 0x13d9035a0dc798b04dcef0f08edd241524fdca0e95ba9cac05d207bd317e19cf;
 0x1d6657d791831169c56b6e9a201f8b7b240246a2d0f854430489b983454032d4;
 0x1c89d8f975f0304282ad8f7bd41c12c3b18ac6b80e4065fccda423bbb3ffa786;
 0x20829ef3df9c183f8965e49c8f315c2995a6446a76053543eb750145f1a77400;
 0x14a2bd5a56f87009db981546533202f3af812d2ef4d6b037f2830853b9f9039c;
 0x199733da4aeed8d6cd148461617e8e46de22d3720431fc1605619b12a7fd4e2a;
 0x1f5fc060028ba07d11fc9477f4faffe79a81040ea9a04c568267644895e6737f;
 0x208b7c8c1ff8422d4a1bd13a02a94681ce217d925f40d2875f73def14de7a220]].
(* poseidon_bn128_constants_opt.rs:5880-6165 *)
Definition bn_P16 : list (list Z) := [[0x2b6fd7bc3a3b595c206c43daac752b765a12255c37ab51ae183933737a8b8099;
 0x214e865e2eabdb9fe5d563a141ce18bb254029e0e04e59c2fecb0850b5ff572f;
 0x1e0e35883b0f1794db023f80354a83951383b62282dab4129db1d19e605c316e;
 0x5c51080a74b8d28b50b14228c6a6de8ad5397cb9a4b9c6cf86bb807cad76074;
 0x244e0857b01e7d7aa0eb2ef334fde51f16a2411abfec2c3beb6c62f7a7036217;
 0x2a04852a90b74143f3808a150e9f1371e0177a1b6e72cbcb0fb8f1ddce8a8d02;
 0x305a319725a0b7bf3def3f71517cc2bbae386b651550fe9405cec98dee21b1d6;
 0xd92a7b009466985fef388ca3d70c7e2c0c2670d2260df83659d776002843107;
 0x2a67eefc0930f82c8bc66ffad5ac09c107407814131cd645bc18cda6fff4f52e;
 0x99674734918ce9329409e50f2e9041bd072f9d827737de601f09c7ade19d35;
 0x449112125b3f10a53b2c465f2bf1183f03c13825e76d40af75da04b8137780e;
 0x2c1ee387a8c15e7dbe92032a242801d1f7b411a7e5a36bfc4fa2749a22cacca;
 0x1d687a4e31c6b3c91e67dc9d9dd9c47493c839b5e13ca1a9310e6ba011421cf7;
 0x1dc79a5d9de443db444de0f08ac67be4826d018fd86139ee9eea781f4df48939;
 0x2d5cf8172c587c0513f26105419f56319763c5cb42cf9ecb5e27d9a88c5d16c9;
 0x25bacabe48b3f030c806aa879f25241fbbb17534d686bda8f5d478662b2a5ab5];
 [0x69b1779dec3eaded3f07d0c3e6cecd6cffe78d747faedad9c90665aa2d92cb3;
 0x29fb24fcfdda928bc18f54d5594a0c23bb822c277fe2bb999e04a37830c7595b;
 0xc05c2d8ee022c59521bd441aa15fa2ddf43e6ef9811b10fe9640ee5e888c388;
 0x122ca048d7c6d4b9053b59ab67650d10d22515f1365b2267c086dc7a168de657;
 0x2fbb74d7dd4ab190e6244236580314c820bbfe34045f43ce14d1ec0049afa187;
 0x2cadba86ff66600cf28005f0ac4870914118c62e110e3ae0513dedf3bd846d29;
 0x30d436b101fcfc29d67d7fc4473218360f1a52bb7316c4a080a55c0d01a709e;
 0x1041a8891a37452dae7c58396d225a87ef1985f94485bc3bb94588dd00132b2b;
 0x20e8656cb5d68cf5f5aabd0cbc2384b00cd1b65ea77b1c0495a65f3270e4d881;
 0x17107096614bacedf147ec8ba8ddbff1d99d5ec24df5495279a720144ad00dd2;
 0x2615060f9b8b7972aad3c06f80079700edc591d0e701ac424203a6a7beb5931f;
 0x1406d86f9f6ed52732899488e062f293c681767645a636d8f078dd40672e632f;
 0x47dbe55f778c815cd8c79dac7d59526dc76570fef2224a93640c98770c056cf;
 0x2dcdb0a971c5aa120c3d873cbd072083a649e903145e00829aa8202ef09be93b;
 0x2bf712452a11b06765a0d8c7f0af790527a665863294a32cfa3d762a5aca3b0c;
 0x12a68ac33549f6902b128cb376c2f52cff07f1279106386b26fde8fc49de31eb];
 [0x1fa4effc83498d19aaa598b7771f88a0554dddda89d32dcf8a6f4cf776d13b99;
 0x19b1577a9e5fe67f71e733732ff6ba035dbb18d129f701a566068c4aad32165f;
 0x82f3674a3860d8034eee2f705933c2ebf23a5ebc7a3d77c46c9279df8930298;
 0x1011963b5e7be95fbbfa2848d56da05d6229a3f0292c50760027cfb98577a2fb;
 0x2ab86635f447d66ea5ef5e5339031197ae8e86b7350744069280de59d7256486;
 0x14fc3fe2445bef8547b023a1ced3ba9e137e16fb0e3645dec813cdd7e584ebc8;
 0x136afe9a53acd5e1d68cfc75c5630d39701cae3744ad5aa2aa34f735ea830703;
 0x18bef702cd3178eb4ba589b84783071cef268ed6828f70c960e379508b9ff1e2;
 0x2c5c474a63c172ea6d6a1fa8be92e4bc6891e74e87c5a65c42b61aa42a9aae4e;
 0x27e3943ac99174b2829fd8ffab17b16837fdb88a0c6060e20c3e5c72fb420f8;
 0x288a44d1afb6a92a5c7dc766d4cde4874b0f49cc3e798fc25292cd13cfc4ebda;
 0x2d255d4f28b56db356773293cbca39f6f9c06bc4cb5275839555db772a969ba6;
 0x262650e9b1667b31877c8d79a5816cae80e222df97e48b574ba91e6cb509e931;
 0x22bf34fc02aa2e215c993994c7cff2626dcb7212975f7ffcf11cd90b07808e70;
 0x14078ef63c2a106c8895143763824ffec7a868e80b89ad6aea82263b298132ed;
 0x1d16de8069581b62949f3e5bfc1188e21cbdf5d67a5bd403927da3a66f49c6b5];
 [0x1676f5c07417ab54c37ec8ae1a8314bdeeb09964769881592043dffcb26bf41;
 0x286415acbcc8aba3e5b854a6a357f300ba4037eb8b7c5ef6bbac868d1b4a5635;
 0x1aef1d337ca51ca5d2c5c116a275a81a21f90d89834bd1af61b3aa6bed65c7c0;
 0x17e864b0c0ebadbd2fd4f75177b9e7fd801bf3c066464070c6527f096b0b4e9;
 0x2587c2ffb837fcc5be1b5a0d520f0f2145000b6797a9a5205ae30240af69c7a3;
 0x2ad5b37b82f9ac35848de9a7b0bed4262b3074c8047d8a4736959a21946f7db2;
 0xa32e49eccc90d7135c8c66fbb1953bed9da04400221cc606416f0db0b06930d;
 0x24e2c86170a5b4a8c95066d5f553eaaede655dba90c32e485adb53c3db9f65df;
 0x2e90955a65c11aa740e8592c94a983b542bf95bedd9bc24673647687c57a419b;
 0x11ced1dc351f0b67b8de31d678da740e5a0c4bb1e9adb04b119e8de79e908283;
 0x9de8b7bde7c2aa28539fc3f31b1f28538a766c53ca6e92a1639bf1706369482;
 0x12550c43d8d9b152c039868ca4c52f074e02f31e1834978c8b554daf43632d88;
 0x40dfc65f3133acc65a961dfc4b365d21d41b9e82cd7d65aa2a3238a3ac5b92d;
 0x12f7124beb62cae35c093ed96975ab5dfc8e00f2668c6ddba351f458127e96a6;
 0x530ae305c7c8a9ce61943baa1bfc0b2e16199a994469f41aec17cdbd7d074a5;
 0x243efe17e4617bc0c20ecb5f9bd76f48a8dd796fa1058366f55826b80aa69794];
 [0x1f4e7bbc8d42779e58aa07bf54ff324b814fe687b4c8eb81b9b7e74448ee27ff;
 0x238f0b87f232229a5c7489e1c7edc9d319f816c21e6fe403ff65c60c1ca4b178;
 0x1df906bd755c6a965e2ecd7d32768ae2fd8c522dd0ddcbb002389e90f5c6a707;
 0x2da47d7b5389318990e3d6eb9f9e93eb7404439b362a0d84da24d8c715fa8bf1;
 0x17c623def2d2610588b3c5dd236ac31026a16354f29b2f8a1b0955c391701f5a;
 0x1c6c37b8caf25198a4a9cc93c559e73b7c90ca6df6ac721a2f52cee03f57221b;
 0x27feaf5bb57db47ec317018969e6e767f48d768fb138698ceb4aad474f10fb3;
 0x4e392117390c777ae93ee29db53979f4f0e168595d9dc5fec4eed18ea0e33c8;
 0xa1bf9ddee072347f46524461f66c65582c5533be183c39ebc5325c2e111eb55;
 0x23382c75620eda77c18e3d166fee7b74e30202ae8309890010849e1a79cb90db;
 0x234c33dc7c164b187746919301403d75c58237965627738d9f48d393a44829af;
 0x216ffb6e7e5316ddb852406f11331c24f717439f27d57ca15de065958ea44462;
 0x21269800c6b53df048610f35d1b344e03a0fe15f0a5b21b73c799a48e4d0721f;
 0x86ec72230cd5fc6c7842cd5eb4fd6b75c3051a915deaaeb61e9b22780579a70;
 0x2f54161c4ccd936ae2c3edc204637dc114d4d3d6d98bd9b6d8bdf603bd4b7e72;
 0xec71181ac2bd7226495ff60adb20a3c9a7636dd9faf14db5335d8c4c1ba3a06];
 [0xf6b18c98fc89fbfa99a04c8c96ae5db35c296479f484b680df905d4cbd1dfa9;
 0x12567e67abc9b35af4ffb381ed3acf244a2f9019839f5f8d2f0b442f51be88;
 0x178391cf8f91a1e3b00f545a3a4a5331feafd2a0d10d9027c56954c8a3f8ebc6;
 0x2abf38b2c05989402c75ec5263e3ac75bdbe9af0c1eb92883d5cda564ecbdc37;
 0x2a2c5e5b24751e4a10e893ec2f7ab96f83a970cdf3a543b20a48357cc7ec8570;
 0xdf7d4b832373582fd4fbcdf7f3c49749f6efb59fd99f4e8fbedbc8190a0d8de;
 0x72011cfb8afcbd8b431269dd5d74aa99e795c6628dc1dcf6c2d8db003bfb436;
 0x2e369b2dc96609f8c17a592f2ce063683d148204c2912b0e53a70a3c46bfa9b5;
 0x59b27028b4f0949345ed48b3e799d1081350784e0042c994243297744e2e226;
 0x222dddba5c72cc2d12f0aa37e940a09424f6e3d679cf725bd059b4182393c08d;
 0x1d4f2427689a1dc5f1d7c68311ce5b0a56a961b3d42a746f356dd81fa147680b;
 0x2b29f8fb4f37691d3981e3fc495ee58c25ecd758d6e24c3f41e5c56221a64fd4;
 0x267bb17bba0da1b457e2fc71493f7d7b9da4ef5d13a62e525defa3d080b766bf;
 0x2e6530de833c3b1d1f5bda0c6f6a244ad8288750865136dc22bb752c8e044039;
 0x1f0b90c52358a8a14da112639c7d2ea2ff1df537b41227f4d3c9ebf7014c75e6;
 0xd9acd7178242914b81219b9a60ef7a0d6dd0fb571609e4335f8d419ff982d12];
 [0xe6cd10883e1e11c6c191d36329f30eb0045af06c2d86d0c439f5c1f4fef54b;
 0x2bbfad45e5a92d2fccecc514648ba944d35abca3f6570958eda96ab2e03d8095;
 0x1f8bbb7ab0780d5bf4070ddbd1b99eecde357757f3773ce6a8a33cb6d3d6060a;
 0x2578863a750b236e5975de83fceb91727b4f588c453a94e40327a18394e835ea;
 0x28284f2eb4ef38ef729f8637df230532e3a410186dbbe5ae5497c69a7cafac78;
 0x1c535fdc7111ed734def9074724899bea8525c2571335159af33af57310a8db4;
 0x29037a8126d3d81fcaadaff1995a15f9e5113b205c2f7c2d0bc0361f06a9678d;
 0x1cc53180a2b9cfb4978339d086ed54c748a5f77190e30dc2879a76a107553e6;
 0x2fd6d01024cdac4f279edd9fb5219b414815163b384f502b615537e03cff2b25;
 0x205885190c6d00c1420074e1a4a3163c382f7193754fa5f87ddb98a393d032f0;
 0x23cf89940b6418fdbed6f84bbfe0c5f850a9ba88c41e998554a4a4123d0ae5e9;
 0x968d36ff2a38e6aeca306fe28458719e69ba1b0fc76bb561fed0f82255cba8;
 0x2c9814c96a72fb32442dbda9249a412f98a23304a86ba9848567c5b0754554d;
 0xc11ab9629bc935469b9fdb33f48f22db895f5dd5e182575b2cbbb221105fc69;
 0x2b98eb64b8642bf4f5291ffce416102088b471aac3d2f80da585b5fe1f245886;
 0x2ba9f7efe0d61c8460085cdca6c1bb78aa7bc086533f20f301e010d5099ee790];
 [0x425a9641fb01558bc7170a2ffc24eb6a514198b296a1629cc284d983bca8757;
 0xd964da26287f09bc190e8235411bb9bc9068003fa6d6ee03229dde65db07fcf;
 0x289c0cb7f84d62638c2a2f37f10f30a58d8bd8b4c5bd8f5a3ca448e9c668f615;
 0x6622bf28a5fcb361e0b7bdfd7fa08717b51640d05d1f6f6ba94b50d26ddcab6;
 0x2aca8f7acb59233bc4d4df65b9c6f30479e9a72f5e6821860b39ba9dc4d03f82;
 0x1330fe288bcb4ad27de36ef48f063baa8ab30be65940592fd97623c7faed4e50;
 0x9efcc692545703bcbeb641ece624880f73a10c0d2c2e6132f9624eb5f41b1b6;
 0x2ae8d813634a87b031bb08573bdf237ab3701215b77ee9a4e6a2c01c1c1d4ffc;
 0xc2b9bb36e8ab693866b2885bd4482ed5c89f069b3e6445655d70f4d6687f8c0;
 0x1a606372725698e7d7f3a7280617fd86de9acaf98bbd8971d8ee53932c2eb6a3;
 0xa6632613bfca8afc8939b33e4912ddf18b034be621106ad695ebd5065afe00c;
 0x2479769cd60838cc140a649e8937be28ac92c71980f149caaaf0100d1f102374;
 0x1f925ba0001429fe493f48ea404a8ed283ab2cc2f3275ecfe320afe90426f462;
 0x1231fe074b771ac643d6e188f5732c209c71b768739b22447e6b5dcf499b4887;
 0xeda204f434a347cbc55ef698aefb23df064c57fcd4cd4cdd810e05ece651535;
 0x33bf863141b2b9aea2e59cf6c4faf11466700aa5c383af451d403c9c53160bd];
 [0x397a7d7434b0aa941348de45aec442cd5cad2c398884950e8233c58dd50335;
 0x1495e990865f559df4c7bd6f21272b8106e2c91cbb1a9e2089922c62b2a76ca7;
 0x125496878120d9ff89d702f58154ba82158e818db90e3d12d6a08c5543536368;
 0xf8ba5444de18d199aabbc5442c1d7c01cafafc79fe095da31928d776bf984;
 0x1eeaa31dabd6b6a9efa74e4315917d902b02760a04b04eedb57e261fa2c6632a;
 0x3776a7d69106118a4d22f86060ea7db0c9c8f3ce3ccd6c88ada43ee175cc811;
 0xcef77234c42547957e950e45ad3b723735c011ef47ceee8ba422bd16759be2;
 0x1cebeac557d2337e4687501f9f71fad7ecb14ad09550b52417ac33c2e8bca21;
 0x6521b700ca47f222ea2e280f3193df67e1a5966b8cebffb01890aa3a87bb328;
 0x100a85e6da4a0b92a81f1512710c889a29c8ed3e0695bc285a71ca5617705fbf;
 0x1a6288255e7a54d4397ca40b3be72c0469bc489e66f916c1a90476816a2f791c;
 0x33125b9cf766513a8e82a0d04374ff181bfa818f67ac1c7dd4298cf32b85e76;
 0xf7e82720135b35277fc54ebdd88a026af545b745fc20449b7068c6865eac1fd;
 0xa9f28e621172d911bffad3b5ea4b73a49a959de5c86e8ac52745d558a6f588;
 0x18a93b5dbdde2e99c234253d4a49348312e58f033e87d4446945727da833c54;
 0x2237324de68d18d407db3fce2a401e8af47ea8c5bc09d862d12b8dbfd3af5f3b];
 [0x1d66f208fc04411a1385c22e203dc08f0bac2f7cd9dfaccdec20d3b93252ad04;
 0x1014b540da45955bbe759dfc9ec4bdf32a99d56cd2742d269ff8691d915cf247;
 0x1720174606224668a7067c3e8c53b1ee68349144af6d6972d38c90bfa6bca639;
 0x6693893b45a40bc7366925fe7978bb80fbd5b9a3ea27c9dcb456b2b04670c4f;
 0x249c8751e7443e96c6e3b6b78d7f288e8a00c05f12597c984f8f0eb3f9c0d4f6;
 0x19afe6d81031fe1cbdff2b24eb7d691a50bd6bd8da98ef658d75171480cd664c;
 0x2034957e3fc373e94d77e0a050a8a84ba49095ffc6eb3a7776dd86940d90f01d;
 0x1d65f2f3574c1fe006df2d50fed257bb935f902970c7aae131a41f2de4b48bb7;
 0x1563bb61629e83922438cf0723716cd4daed36ae948e74c5c85dbb7e9893d645;
 0x2f10b78f744104a54a8149200cae59e443e74edab1cc3cbc2d8c170ccf2f7889;
 0x7396d51d19d94cb34b304ac606b54399e89273abb22ff7bb6b433e472ce1e8e;
 0x1cbb8fa4be4e9fdf0ec9ea67df8df2c1b796291e75db4f427c843216fe48834a;
 0x14e3a6920a412da81d917e7b9d98bba849cc165e406fb3c43ac421f9ade0c228;
 0x2a8e486afaa01aa8eeda571541d2199b55c8f5f730ca5c3879f246c227809c9c;
 0x7abc38167a01b6bc5831587de4d790de43e68e6ca9eabcb64b8af6895ad968;
 0x1e825483a9f85081590c0ba40059fea7861719e2b7da11323437313b77b6a8d];
 [0xec1ed3ae3beac4ddd1fdb17b9c7c648e7ec81885a07a5bcbd967e6a3676f356;
 0x1d8385e9787d1456bda399aa4d7f5c643cfaf25d6ed60e1be9ae8b98fbede91d;
 0x2f574b85296045a2b1328f482a3ec674793ea300e0817720e6912d467df067a5;
 0x291fb174e5ee77c060615a7f5a737a57d56e2060844aedd0aa86329b9b361496;
 0x2362c38ea538ee898a12c6458c399d2870bdd8826307d56f03bb28e0e30d09f;
 0x231713410ae9a8da08284c29b8b975410dab6f84f56475da37711345e68d5e2d;
 0x2ef69fc1a737db3abc895f656811e59e7d873355b2e1342aa5134d8bf702ac90;
 0xefb60fb18584fc86d88ee569da71046f765526b11f6c20099a6dcdfeebc4f70;
 0xb044ec6d148637a47f917944f81e9c8b83b0c0c5ca1bd3462a4e0daa7703dac;
 0x202678e431648172713afaabe2c8ea148061205c639f639b5e45d498be1550d7;
 0x2a1e1954e5b010440c1679719e5a0db27c0aa7957b755ecf2c9b3571a8aa0a0d;
 0x154d9e7b0dc8fa67c82016fc687836f61284431fc9d681405edfb38ccf28a6fc;
 0x2a704d1d93253cb1096070fbf26d4df2baf4d92057d87596cadd063176267917;
 0x2a24d4dfd6e9d6435e4ca1994ca11ad7adba2924b6ab7cf7c6a9ef5e7ef9ae21;
 0x1688b9a9cbc3a63df3a2a35c6923aa0949816cb57fefa6e95d7627b7663a6317;
 0x1d1caa8449da721f7c949ccdc38ec8c6134d97d7bbcdf58fa3c471c51a672ac];
 [0xb3e601e36a5d82e0214362c8419474dc1cc2c0ed8126534d69a3f790b27c603;
 0xe6b936ecb8a59274624533d03746cd5d266e6c5490d3c95ada22f4a22e80e32;
 0xd56cdd730e1401d9d7f93da88d6f3bfb8eb1fba440c552b078bb38a7cba55b2;
 0x12c0b93d829ff5b9641d9f6f2ddb4f92c7a7b147b794139bce98ad87d680d717;
 0x2de07475e19762eb5baccae3e88aa1493d35d276c4d05c670697b43824a41640;
 0x2ea094a22ee4755e5df8352b2ac671e231c24785db343b9145f9e44297b361ac;
 0x2ab4682e32feba55370b3a477ad83f30c88db387bb20c6a9b2e567f5d60a4a73;
 0x1a70ee4fd1e45c498e771e9d0210dd14145cc2740c3607e044e3c68b6a6017d4;
 0x20a815e19a6198e3a2f8a8bc2631c552521182f63e125477cf765a27707035a1;
 0x266fe05c631b74ae1cceb24143a96e0e9fff59304f04fedcf4db3da13508578;
 0x190dd58a88fdd887a0ca830681aca5949ea89050fab84b66297d7d14dcb91a74;
 0x1ae686eecd7623655c55154aa8c5c82136eb56020fb8d1199aff5c8bc11eb0c0;
 0x20ad4678ee812d96e544ff8e5e65d4fb7bf15cc6a524e6f19de6af983c997b03;
 0x2caf670c84f98b68d05f4ee672a1388306376e7886e30bd2b163bfa7fc15b443;
 0x1a336a86dd0b3325933238a53bf68f21ff35e9569fef12cbb61d8ab9c1f50ae6;
 0xe5fc7c1d17854a0673479d4589da85e6e61f48cc950b3cc531564ce5fca874f];
 [0x163cb4e3a5ec92e57b25b095a3aaa8cfdc4ce59267718cc6090a07e14af10b0d;
 0x19853b1669534b82fee656f037c33af733bed785ab726b0825dee79b629b9706;
 0x1b164a2238c5e107696834ac58de1b21e49a366ff6307159dd461a3dd40c2f53;
 0x2923c2a5464dc991733e46124db74c405e32b3fd9dfb2acb7d889b19a340ce9c;
 0x2fa1a6b0c6b0e9d686ad60801c72955c1ac256d23c545152efa81dca6fe1480e;
 0x27cf8750197630022efad9203e63aea2f195315a1d065a36894a5bed32bc8941;
 0x23f9c83f88ce7c78d0c6cb8059fb86c2110c7c266778ba8169b665dafd9de184;
 0x1d3ce51d11885aacc9a7a3b9fd2813e7ed602b33d3339fbd91bb869c6881ad73;
 0x293f18aa77d8372bc9ca53668a9870de638a706734631c21edaddb20c4a6b85e;
 0x197b9d069564454b7f26166ee1614896f153ed11f6215f06951b834c4da38045;
 0x131c5cce643d2b8d9d294b32abf2c9010ec622bad6f1181e4dadba9545684bf3;
 0x2556b61b7729a527f2c01544abc585ad6da9c92b3df9121f37bb0fd0c03d2cd1;
 0x5a0d89380a2a2a14acb860c3bf32ab6b3c973d84b0d61a308ca73257c19cdb1;
 0x24785c81f63404b46126436afb27fd2340122e9a98a58c467ff14abb5a90241e;
 0x9fdc6f6ceaf2566ee3a618ac4d77e86327ef278b968013e33f0813190472b31;
 0x2afc8316618c153350f4ba229e3382245c1399b2ee4aca25580229fc237f94e];
 [0x2dca90f3e5a15b29895f48d7a1290d7a33646b89620dd0a8ccde3aa3a51d41cb;
 0x1ac11195f74d7fde657d093a313171f0bc3cfe2fb965e5c352900faac25305e5;
 0x28fae6efd55d9648b0d9dd3b8c6e928c11a5941dd6ec235a9014c6dd35ad315a;
 0x12e496bb2680b7d14ebabfb8797e9c6bbac68a40c8b8fd65b5dfb18e38c99680;
 0x190489ef4eb4182eca51332b895875d6ccb7dd060aa364c1d289e2e1a7741119;
 0x15776583d7d261c6e8b338c3b3fa4323abde66ed0f477d0355119c9ff5482eb8;
 0x1370c01789f712284290ef1cffc5d33288fb504c5763d2801852b960ab98afe0;
 0x786ebb71e920bd16e3ddfdeb748e040b7f1b1a0f04967f55210bae2f76bccf2;
 0x15d4d2c713cf58f480500c6e5916f52b6ea1ac070771b0c83a6fa17cf6c9b904;
 0xfab2ea8e500aed64630a51f8bf9ebf040073e23a3cf189638656d6dd1af86bb;
 0x1338a1a447a9df2fde50aa09745ed3bf09e32e4ff2caea1b3b736a666c715014;
 0x59df1b1e661d317d01a513fc7dfbbd80c9192d33adc60602b0b0b9d45e08535;
 0x2f840b4ac5c9227c0a648693878cf37e955a037877bd5e5ccbd8efcfa38466c5;
 0x844b5753fd61108fd7fb8a707e770af891ec99da9d5df68b013a3a87599ff7e;
 0x2049ee37129926ecd6ff3a08e0632a007ccaadafd0d402a409561a2ce095b52;
 0x1f6570fb39247442fc03a5139944567ea46f6f534a0214b611fd3b2d3b878369];
 [0x2c78ee5ea16d38f0beb9dc0733c4bb1893cb33ff671b737a1122d64f729cff22;
 0x350e8d2eed84802dfd14d7878b0b77cd9077778c41ff7733d2ce688961a4b30;
 0x2aee7c9d86aeb8744b9d3bd7cec5c292e1c65cb633de0afc101e9d6fd2a36d5;
 0x16ba6796332fb56050e3fc4111f320cc05255c292f34db71e816440fcc452baf;
 0x14ae46529aa1f2b79da80878382a86338323f6a293adbd91cd58270513f4b693;
 0xcf33eddfc73e29bbd785035283f6e805133bf1e34bb9e3cc2f915e06b272e27;
 0x28f704162c3bd521df847d4a8a4f75439e668ef7816a91103158619fd52e5ee;
 0x1c207d7a9081da93b7375312e4ea754523d9198c501f65638f5af885708d23ae;
 0x1cc29ba8eed43aa2f71831b62eca71c1a46ab68007777679aaa8d6121faa5b55;
 0xb39596ec65e453830650f8dd87d0fe8abc96cb59636252e27797920e06b6a2;
 0x162ceb46008b073da8c811a25a68b56da01182fb893ae1c6b03d310ac8944fb5;
 0x1f2526ae9adfccd223ab57e9de7e50f5d3ee83284a8d62a5e40148f4dceafab8;
 0x28ff311d4a44251feee051511cac4832e177edc8a03053e133d206e9f6704f9a;
 0x1c362078a104c738bf6c5fda0edf9ce2cac3b21eb2779e734d14d7276a8e5267;
 0x4458b88b13af0f9d45c2b43df72abe53d6e9b56fafb1d0c15cd45a13d33b05e;
 0x23897eb294a5fa4f300110fb96ec236f8c0e049f29da5078d1224337e256e703];
 [0x2af324ec4f9e7786dcf00439c75a294bff753e3292bbf62e66471fa730f19c79;
 0x11930ca8a8841441dd799a0e3e78e1a949f05bf99603b382ff771021770f92d3;
 0x1bd210b6e6c2074d94d9f310d6906e81890175e675cc8dd659c287438a08cc4a;
 0x14bb891ffdff2ba6b222332764a72059404e581f328265eafce4faee0637c6cf;
 0xfa8399ba775a9e98ea3fc29231e1ae7177dd8f63c616ed4f4819f0db982aae3;
 0x17749627adaf3ea1f31f149cb0fdb032b9c2f17c262aefa35ec1d516e577e6d3;
 0x17a14cbbc6c3e70e50145daab58ccda20416fa7a0b0564056e0366be14d9754a;
 0x1ff273747279cce54284fbfbb61bbd04f403afba107507f76812a645fa9fb774;
 0x20edba75b3695a0f934c68c90d4ef19ccf1d8b1e3042d32362b5238b10deb274;
 0x26852fe3fdad04b05eaab62ab7fe15fcfa55e0340534e28e2d8a3d8181b1c859;
 0xbb7167ac0c34acc1d3e0b83212f50e3360eb4e967004da532861a8bb527ab66;
 0x957401bb640d15d04d93e3ce3756b5f06f9869e51076b13d42a53be28a36b5a;
 0x4d4b72c6c7a5922a3c9ab0b0154d7b12c45e50f8a237a930802e4c64cc7163c;
 0x38fd3c972d8ed7705ffbf9d462381628ab654b76aedf4f4bb29a2fc6c922cbc;
 0x98ff2fb46bfa9b48439294ce85ad25768cde5510c85175e073f1414a65e4ea0;
 0xc872f10e24c0b992944862abd52152c0faa0aa508afb99a6e9a3d2d363a5c1e]].
(* poseidon_bn128_constants_opt.rs:20580-22563 *)
Definition bn_S16 : list Z := [0x2b6fd7bc3a3b595c206c43daac752b765a12255c37ab51ae183933737a8b8099;
 0x2fb280a1f23df0c4566f310cf31beafdc3e238a7d873fdc50655fe827868e909;
 0x36f175c993f4e409a6275e71558b9e1a0fcd7e4183891a7471ea6f987d6d0f2;
 0x3be177a0fe1bf76a94d443647e0f69c0a74cc5dc7af217762210b2855e849f1;
 0xed6491c4fd0f129acabcf5a68f01ebd10df6211d4d1fcf54ed75bf6c7cbc146;
 0x2158db47b374d9dd31d47c20844fa870005051c013941b2d710ee62e56c0e4ce;
 0x637d7b15c4259de4866d36005fb17b866227447e5dce4c27794413980eaa09f;
 0xb745dc1580e5e3d6319028050cb792ad8fcb5b1a156dfac6595edff287d4bd0;
 0xdc8bdccc8f3ddabca39be41a609714af65f518ef34738fda76e2755e7378699;
 0x1fdb7856e27d608c397fa9f7f6d2fdc4b31b17f45c8a347124c8c82ace7e1033;
 0xafff33732a140f6759bfd5b2949356a349c26c64b5bb018665e54acb329d3ec;
 0x1b1d97c16995fec9aee31a16facade0e2cca653efebee3d5ea70c0f7b39c1383;
 0x29ea18e6e4c75a1c3694bdbdb3fd274c37f51e2917f9e0b01d81870ef9235387;
 0x15d5f5aaf91baaebd34d07b9634610b85966c008feec7843fab7e50b0616427f;
 0xbd8e0c3a167d9eb943bf19f18d765230fd7d224df0645851e669591df01239f;
 0x129293724e2d76cbaccac841326365a0b92bfc00437147de6390d964cc0e055a;
 0x2d70576548941c2fb6bed6c525db5d0c33ca6c86f81db33838548d672b7b2641;
 0x2becbbc12e49825055888292d91ac7439a3cf337d5f9873c735d92e52a054434;
 0xcefd0b81bfabcb9920230f3a729ae3303943d8e396c5c0e5ca01f4611f3f617;
 0x6e47e966b1b597c61413dc4f996f1456719742257039015c9c1d0aa33c0b0ac;
 0xbf90647c85cbc82b06e3a94198e44335720b8afbdff06112e2aca505a43c47d;
 0x239bc57d7b109caefd8c614767a590a68f658c69cbec21fef283a50324179227;
 0xa36ae4cb35b4f865d7225191366fe691dd65ad5f2966b74f2adc28d26d2d322;
 0x11244585fece886e4685fc703c807ec8e0d591b575fcd089a969d684be4ce2b8;
 0xcaa7779dc16bdbf99a3f45903ace5079185e317efd5733fc7f766ce57e29694;
 0x26996b9d086885f9bd6908adb4aaf6deae8306e463250814dc66e00674193839;
 0x135e66a0ee13b287e51f5f1e8f79d4fe7ca55d9135e8921272920ec732bcdc16;
 0x233e95062085e2dec808029c59a0e8230077331e358613563788518a3972e5b1;
 0x23ab13b15889f8bb381efebe71172f91a0ad65d9f05af6b59e00d0c99f8ae082;
 0x1ede4de25a83103e2dea729f0c68a908589fe0e604c86f8d57e058fe11000742;
 0x2b5b5bee788dcb23bd488533ccae1431e3f3504e3b89e6eeda4ae8b5bbeb4c78;
 0x2b6fd7bc3a3b595c206c43daac752b765a12255c37ab51ae183933737a8b8099;
 0x257363f01fbb108ce6360b115eb038270946eb8c46b6ececd68596765ed894d3;
 0xe06611bd4eee1605582fc2f0a195524e57a552ff9f2c76832189c382d763944;
 0xab70fb6823f52c277b8dd4ff261d965a9427d34af4afbf19f3b24260c15f8e0;
 0x179c941d644d804a3a4068884fd1c6d7a82d411d4698c91e1b242966d3bbdab5;
 0x37f916e90d419042d297bdc952c7cd02746cbc188149a51a0987cfefe0dc13d;
 0x43f3dc3d91b0abb531882dc015e1d9d05dd646d42dfd9f4c1493a085cc00a56;
 0x143ad19c1249acbef488ea0a074f56afd3f5b89666235cbf8bb5e6fe44096642;
 0x1b76610fc8cef2eb0f4fa76df7ce299237fe7b3a9d024b7d405ec095719c4279;
 0x1a5148d68913df74c872a1ea5aa4b542b3ab1b9c0dda2ec220cf2bc36d69ad59;
 0x13f11022ed02284972037000666e2d3edbeb9a5350c37fedc293be998eba32dc;
 0x806f266e4c35c6f066925ff73d6abde5e46f5bc55b01015db95162159092a70;
 0x2e14cdaace09d09b49d437ca48752123a6efe3c75660218f408878871d073f64;
 0x1c4fa8d7c6c8eaf33116df7af0abe56945403e111f0ed36af029a17a88027839;
 0x23436fd3d8d48c7de5ea32899d09e601877896e044051e59d481f26c6f44594;
 0x437191fdcb2c0fccb9dd2b70155e1e3eb91a104b14235a84f9c7f715f666b10;
 0x2f68a6ebb5daa3c1c0b1f8e1cc3ebbbb29dae51f21dcab1b8f24f30e52f6a1bb;
 0x2d82def6705911bbfa278a38d385fe17c9810bcafd7126f48ffbbdd197e1fec5;
 0x15fead0f7cceb9fa5a96b903121d234539c447f776bf13290f0d0fd9cd776a63;
 0x12390ef95e294ede3c435f9f14ae4f121cdaaa6b5de4f3f79969a8f91fb37793;
 0xa9f6f1757a4b1abc8e0a5b0fea83cd2b8e565105fc6d52e692dece89a6c11e6;
 0x996db2a2060b0454ec8a132ee6d810df2df49031ce420e4e790c723f578bd49;
 0x2670a74f37e6a32596938caea3cec3e05b337ced6c23d2bf2ec5987dfbcc6905;
 0x28ae07ea7a529805d3aafe9f5a2ae662f908b17f864ab59b98452ef28e3fd44e;
 0x24002c49771a2fcb63c046d1507b8b2259b4eff63a7be958329f6319fe8c787;
 0x2703e03745ed8810cc93cca78ea613cf39f492180d6ac47300e4babd4f357dce;
 0x22930293c333499085eae55a01cbf8c32b04d211a0709bd9b758f733e2ed7b7b;
 0x2a0ac5d7f2daa3edadbdeaaa440967d97baec637cf48a67a36810430014a902b;
 0x25fa48cb70003175db4b2241e6bbb08a9d30128c86f68bf6e79e9a3dd4f3f4ec;
 0xbae040ff4b1f63b97474a971446b680c23ff4d55212a99d03d1e27278770016;
 0x2fa5db728b6058cc42348c90267158f8e76ab99c646e66664dc2b93963218e16;
 0x2b6fd7bc3a3b595c206c43daac752b765a12255c37ab51ae183933737a8b8099;
 0x114401a4ccc83c86ae0fa520a3ebe4478fa6d7c4c634b4a6503da334da8404de;
 0x1ca6273af6d2e51a8b7c2ba869a1bf10de7a5b9786ad947a02c2b1b6ee821274;
 0x2c7b4af671ec5fa12531b63b511782f1f46ee5428b9184d960caf0deb0e08d03;
 0x1230182c434b2175e9362b023e55456bf97d514e5332e4753ffeda60f5d97b0b;
 0x22e041c288ef26f1d07c86d6c24f48eb041d83a8260b6772892181e2120c91e1;
 0x28acbc69fbf7a25ed38927ba63cde5a18284f26ad6581317782219221cc6bd8e;
 0x2487337fffaa7fea6440fb59e8e888c1724bbd1f1118d32ada6a3651e46ef543;
 0x61f4630cd8a70b5c6a1950def1f7eeda1d2cfd750eac8bcd21d0928d54503db;
 0x3cfcdd58420e81bfedb04dfd4e5b57b03eb8afefb5963b81339d92445458b6;
 0x1211f09c601c31128561f10ffdef73487c927091f10086ffa889eec1378757e2;
 0xad6247ae3bacb716899003f881ae2cb44e40ff4863dc07a400bde10cabc91b;
 0x161bcf48d7d37906ef29d522a6631e22e344ff951be2f5418c1f58ef81106949;
 0x1615caafce9cf99656045f01b9050872d167219533072672a6261bdafc405e27;
 0x1f1fd1b64c8024c19dc4c906e121bc5023c76b1c9610fecc02e009e384fde164;
 0x1a343f06c742b6ea01dcca051e7f812097250e81efa506561817c2accde13fb2;
 0x1aa5ad37af4cf033774e8cedb40c36cc1bf2fd2e73c135a2145897e255644ab8;
 0xa8e74375e1ca92003153a84d2a88b38796905e42f05a2aeaa22b6174545679b;
 0xddcb524f3d1e36d26523b37e7a7a565ca7aafbe8b9d7d21805d79b391345944;
 0xc64669d92336353367ff746030b946691eed63a8710d15b44907913558ea892;
 0x18663caed52af3125ff734ea821f2b1c0ff63e253eb8df61c23998b3852eeb2b;
 0x8aa2a6dc1acace95ae99cfae9f48a5edb8d91e6be62ef97a8e48f7bf9d22cc3;
 0x1d810d45be42ede9157e37dd929a6b74d0ace0e72b96d6f1e048532027613e9d;
 0x2cc11816c46e64c6e7135d72c00a7dce65a7614cbc164dfca2be624668a51767;
 0x6bcac935d9e6233eee8555d901d6cb0b5a18e0baeb0774c42bb2c2216a8d3d7;
 0x81f422bb15ef7e9b57b79cad63226fc53cb080e6d412e790b5051b5adb01208;
 0x17233f2458d93db35c213a72c969a94aaef62fd6a76435c683129a9795177bfe;
 0x223c464793888525ecf5d3c873cdb3a6bd67587499a00b440d924c2fdc45f640;
 0x12ff515ef3e169b038bbacf953537c2b28dbd1b5ba3fc7a26900188aef36e2e7;
 0x55e0568770fbc4c9b3d698e621b1980736ec4259f0b09d9f1e820f7da4174b3;
 0x185b90addcc3b674ecbd0987f9480b74625fd07c91bdcbf048a647d561c756cc;
 0x2b6fd7bc3a3b595c206c43daac752b765a12255c37ab51ae183933737a8b8099;
 0xa4ab29f428a1b4040f5510e8b4f10494ebdbf12885955ce937a17360b4b295e;
 0x2a64788ea96296d7253a3a9e357715234f9318c08376c15de69487fbf9b0996d;
 0x2385278678bf43e06271b87c3f984f1b425b166ba786b2e1e723739a6752f6c9;
 0xf8d204bcf2efaa0866818f1c3986627ff998995317a960b56d8aa3f5c10fbfd;
 0x2d07b5bc553344a4887dc8f3db5858e5defda22caa9a6ccbe23e3332ba18aadd;
 0x1e1a6765877cb93580433e025985f80aa19c9089c17138480426bcae49aa1c7d;
 0x15f1a60617344d29b6da60f57ced335da1dadb402ae9a56ebad3c0aab3b69e73;
 0x6be01da4de9af6b0d2937bcb65697fdc23e8bdbf5343938315ef4dbf045d914;
 0x204479ba44f6c6079df123ba1a54e248db6d4d0480393913790ff1f10b9ead7e;
 0x1967ca2365849a5ba9abe3419797885af9736c42439f1481862a00cb4c83b24b;
 0x37b78ab4c6c1cbe83f197633c4c83e22fd38219786d9c5744ed4224eabba54b;
 0x21202d9fece3b3517c2d5e79e8a5b47824fe47658704341ba7bfda3a3414fc5a;
 0x18bd7e46303c3c2a31e68492472578708a68d1d6036b961650057b7d1ce55eb9;
 0xc5f32f34e129de8d01bf9010b16047bb2c2128ee021fce0ae2c03a2f0b20c55;
 0x1ea1c77b9ce7d24a4f32fff661e414f0793d9c4477fcc5a577b0e5145c80671f;
 0x2abb7ec37e2a52a09fa5ba144d29b8fea69efa205b4690330013d2da27fab6fb;
 0x196d47ff262f5a90329962beb3c403490547808ffe4fe96c699195d9ee5a2326;
 0x2da5dc389b073e52f92970aaef0d061beba25bbe8520b781911858598682f57e;
 0x2cce11343f974369dd5fdeb7a8a796d3a83feedcfa0a78db72dbb789bbe1d847;
 0x131262e283cf0b05fef60886f32f084a47755fcb4cb7ccc4c689e4e7f0437b75;
 0xae1188d015d3604fb38931c02d790fca244b8b284d547b62fb03f98ac887716;
 0x7579345afb1c183eb92a630bb7d061969cdc515414bf9399797d7413f8b904d;
 0x2429aebe4a674a80f0a8ae9b38a3f253e45b897ae71a7b5d0afe4fd77d5d8769;
 0x1382b92a6c573bb195a953dc0c697bbbf30dcf6806f6ab2a5f7b500a80052de9;
 0x1d182578837b58b32dd31a315254bb0a49b04b3d5ea49d582f6426637be87413;
 0x2d9888fc8880aa1e4b265cf60218727c3556ac8d31b7a3dc6a1dd5d51b902207;
 0x28fab72bbb99f1a6eaf2040a74ff55e87c5a48c2d392a7752c76fd2fb33e3390;
 0x2678f1ceacfa8e3b48b5eae7f060021a4f58cef56b12d52b9f06a09e4eda55af;
 0x1f61d359d1619ec4ff2f1eafe57827c9316e10754718b9f51b36c71979cc448f;
 0x1a1d9f64b52be377e509d5a57f004bcb6db0edc85aed26f51581d912da30e95b;
 0x2b6fd7bc3a3b595c206c43daac752b765a12255c37ab51ae183933737a8b8099;
 0x23884cfd0f045915025a44e9bdb14491e626edf74afffee874c3e4d125a4a177;
 0x285d07475f22446af1515c134b10ef890bdd927d0328230d6374ceae21e5f169;
 0x353d664345c344fa26ce90da4f498fe33a62e8c46e7e05b47ce11b669bcccd4;
 0xa5f24df76f39b004c073e1cfcab0880702b9e84837cbcb21bd002e2449ebff0;
 0x12dc4fd8b792019288d665292050cf58bbb2c55be723d6678ddcbcf55cdf5c29;
 0x193f04538e44b693b5f03c328610092e8b253895beca308625b8bba24229e6bb;
 0xd40fe93ed90a0196dc17eb24b05dbfd08a2d9b85103dd44d887b78bbf08251e;
 0x1a1e1f731268025c10698efff9a1898281733296a02ec2e4286c0aa9d766250d;
 0x27e53cee0536c3e96bd4b78d76b1b99d611466b687c60dc5242304cf2c7f04aa;
 0x1e131e762835f631765d6a0548f8b99786b3379a5423669f348e63c1a3cd4057;
 0x18377b53a6b68420631a509767ab747af54ff52fc6a300f6759e89d0fa81f62d;
 0x2b52851f9a2c117d24b7b3ef861d3d98145e18be0ab17461bef9170dd124f2a5;
 0x203131dfe05f4f3859a2962ce2736f5f665679cd543440e5bbdf8c9e468f8f1a;
 0x11ba7216dd386406bd1ee9de577c3015b3b568f612b79d2b901955439b5f47b4;
 0x6cff68dad82139580b6ee40346acb41a1b88e34344b1ee124cd845ba4d8db12;
 0x176b605012f38593df0d0e12fdaba43a024327554f045875a394ab6d66596693;
 0x2bb40088a1add8496b2a0d0774c06d99000d9f7f5e78edefd8267bdc2602823c;
 0x6ab5edcd1a597a55efb6f5f3028b5d46dd1838af7e0a7618fabd206ae02db19;
 0x1ef4d4d25e3f6731401c06e2327e1dcdd251e5d868a49615d7c9e671b74e52ba;
 0x1132917918891833659ae5aa5d4608e9ee52f8bb8c6a15af2bb6c5b2538ee108;
 0x3ea727908383eb9c0c5fd4c8f4477c7d7cb3887c6b7408097c2a099ccdb436;
 0x1c671af55a23385b16b41f93bc5c9df9244a2b2917fa26f989936d9e10f58965;
 0x2877b09253cd0233d358dd5c03a15ebd382a94f65bb32f81a409c3209c83dd16;
 0x120ac765f71527adaadbb9e91c78bfbd17f30b1c5824bbbb6eb82d2745bd3352;
 0x1c2a7fe3bb93bafb54e3a35f4fccd2685dc5a59ff6b9e76538f37b7c79110633;
 0x245676b487e217c63beeb368b204d8fe8e5e051aa91efdbcf6854d9d5ee8aec4;
 0x1a0f4f24f3fa75b07185d59f382ff63f277dd1af0a902f7107b63fc9f450d87e;
 0x174bb5947efa62f904759a2e85cc92c84b797688ee8c2f05699d0305f6a68abc;
 0x93051276353b63507c05bf904de6f8d971f7d386c1748053840b7b775beba02;
 0x20110b96b513965874eec9b57166abe7a71dbac4300ded7aea9eb190ef9b082a;
 0x2b6fd7bc3a3b595c206c43daac752b765a12255c37ab51ae183933737a8b8099;
 0x17a51da68d46000951b06fb3f9e3d5b83494d28feae75a0d77381129d1b5cc11;
 0x19124aeaabecf4135010e1a965341e48ca4fdb7b0cd507710ce685bece85a51f;
 0xd4eff1190530bdc2e0fad57504ad2d927a0d5d19c94424013818bbedac93ccd;
 0xc4e91e3b7cef308d9d42940dbf9a496e5e23f954bbf9cd9f6a141bc043c89f1;
 0x2a91fff770b866c8ca8c530d786a522131c1526c4694d8b7b7ad3ad8678c6140;
 0x211b948fb5c8a9cc45f8dff7f19d5092c441a1749009ee7b0d26d02d15302df7;
 0x1e30b1031a24069cc93961bcbe7ae460663d24ac25b376fa8d2a8cea3969e66a;
 0x18b82e2032f53458de5b5b8f6c69d0f59033e0e843d3523a0e433aac75004ec6;
 0x1dc22b5bfc2732c1f3481351752d7895f5594716a57b22de0953d8675f35784d;
 0xbc687ef3b18a77ed8495a8838fa82e35a2be17ae2bba47a9f5abaa26021afd8;
 0x2371c26d8f7425cee8f66acc9f647d889b78a20c02fef9bc8e65295536d55666;
 0x1477473a9e49c36a60b0415dba5e832e23ba2575682cb706c5cef38c2ee8b9b3;
 0x53e482959dcdb79f52e64a3bbe20793fad3af4f4d052c0cb9d36dfa396bf4f5;
 0x1f1b58b95eaef51e442d66ed24a23e300b3df3032f45040577402279da01620;
 0x141411af50e95784b5365ec3d4879e78d311c06d3b031a47b7b1989ff8e2a05c;
 0x2252323b3ec06cc62710778370917d94635eadd0ab946d83c7211df2fd18b12b;
 0x1f9f09cfcbdcebaea2b1053db41f39406c4bd7c08d69632e5fa88d11d8db2ff;
 0x69d5da11e6652375d70f87ebbe9b7df0addda9634eae09990b68560ac4ed710;
 0x1978e5d647456a8b3a66edba35753faa93e3f3af1c89f418aea0f68bb513a0c8;
 0x25d9a4e603b812f39a20e6e5eb99c0ed2845d383b952b42e23d65fe68209f458;
 0x234b43e3517f8573d5b4b6c905721747501928557ec4165d9513940880050221;
 0x3e66cf2636881c8a51bbb3532f0ee3abf099d16c6e029eebc7ae903a9b74d74;
 0x1e98f8fa7b0e98762453c23bac6735b00b4fadfe63c0448be0ce344456b7f189;
 0x8aa709b54a8df091ca048763f4573cf9917aeac083ca1b7f7eb84c060d0e932;
 0x52c7ca7fdca9ac2cd344a294d322f1d71d1384d5e0a6f44d0ac8b34e6aac4cd;
 0x331b02bc917bfc6691d8d7f52eba08a5fc3f47d16f02e440644390c39ab7361;
 0xd898949994a6f263a9f8225ca5d4a118b7955a4a79606262394ce69d7a7e127;
 0x10b47b130c16007b5379d744a7bc19e45f6d92e271a299766420139f20a7766e;
 0x1132f014fa7599d744c6d40d1be4ddd44e62b3fa4bdc439a48ca4c08caff36ee;
 0x1c5e38ab4551aaa2ab2ab5b69f5d6478d668719523787df968bec6e67c349a0f;
 0x2b6fd7bc3a3b595c206c43daac752b765a12255c37ab51ae183933737a8b8099;
 0x11c9a8d1a7cf032ef4eeb3976cb45ab2639e2328e018f2450eed36a42b51724a;
 0xd68b0ef4859a99d9a3d358f48ec049222b4adc40f5211420ff9792d3380451c;
 0xf7e3fbe842d222839a6a28926d2b7dbb20cc776f5cc35ebe6de1972a8061070;
 0x20ee52f4c572121f278ca8f09daad2f1c0ef8541099378b0bae1913528b01102;
 0x24177470839e90548fe652abf877b6e788dfa4e0f4364a20487089349d2b14fa;
 0x1fa98b63c69a198ee335de75179b230861470a0f60459ed53930f592106154b0;
 0x18fed7ca1d352fdd257bd8999e955d46f48c3fb2f67e9c8b29ca0fd6ed5cc4dc;
 0x1e4afb9b1400def427a1a5c956e761be43bc3d15ef07098cb08bfa994e5c69b4;
 0x2b8b851fafcc041cedfa64521f6fb53a58788b5b166da469192a1d5aaba1ab06;
 0x91cf8ac82b6d84be9f81ac1351faa0de2226260a1019d1dfb24437ca34325de;
 0x6f7d61897e3a765d4e4526de3cc13b4c657cc5ec81e08388c41d94a808a9a5c;
 0x2862142916a2c23432ee3563951c646c4de7552008c928fa13ce3e3501ed8af;
 0x2cc6cc5a7e65d688d27ffcf1c4749764e7294c23d0108a57b29af443bb93f5a1;
 0x140d2a34847cb9f0776176010d8070cec8392f612f3573d63e58d69a4c9565bf;
 0x19800afc9d05a5b0386e87a855acdcc743a1c80b0f71063d56d0f4d6eafed03a;
 0x2691df476c22b56f9d6d0cfeb1b706d66a1e41e69de5f6da9f02b9dfd8954d35;
 0xe3d1a370a2c113f55e8be6a59667f72e0bc9018c6c2b7dc154de2ada843cf99;
 0x422041cdbb99e9110963285e90c233f1843361d8d36878b2b2425ecc9ad1468;
 0x18b3970150586c60e36243d9f787e9cd234ae54249bd47d53d8350431027541d;
 0x2608a620c9370842cc1e7eb75ced965212717b22032cff3a90f1916d5d6e4b47;
 0x102e638d33d73cd137a4bc97b16ed6ea8ff2114ef025e123a47fae1209212fa7;
 0x81127c379d08c86b6283e3ba2f7a163f156ff1efbe2d058b68ff1d8198115ea;
 0x1003330e6c9bb087c4e374163f1d93b51ea2747126942a891b93247dc3b9dfe0;
 0x26286df4b90a6d6a80afeb845b9b574c8e114dab2b23abd4d92c90d05611792f;
 0x2fcbce3693a0f365c77f5da41f04606747334c0e21ceaf4719a9c6c55a6db034;
 0xee49f7bf8d9a6b4657cca9a553b12ee1e0375a2251402b6233f14b3ae43c458;
 0x1a9ca035a5bba9e01a8339c07711d9c5e79cae3441f272af3e6fd0fa56889e06;
 0x1202f2ca7d4f98e448e3cc47113806ec2f94885d536976db84ac4f06b7df6567;
 0x89a14bbb8f0965a914cbbf83049d95598ed83fb7aebbc75a4f681efce3130fd;
 0x13488f3b0456524d4982305fef6e6c81f959a37da7bbafab57f87e8a2e3f264e;
 0x2b6fd7bc3a3b595c206c43daac752b765a12255c37ab51ae183933737a8b8099;
 0x155c91db5f59fd8ea52fff20993ddc3285ecff97ce2ad697f4a078e8440361e2;
 0x5c61ec06f5561c87256ec21c6aa92ab1d3dce01496072af5c5081aed70a073d;
 0x9849dc13d2eca871c4dc1d117cb0d5eb5b1a98e63a1821f6e0895d0109138da;
 0x133c60ae1597bcae3f030cf1a3ef515ef77f8dfc0fecfff084411ff40a6505ce;
 0x120e93850c13de3d06be4ea933f3451cb3d4836d55f8b65b30e3814a1eac7cbd;
 0xd29374214e1a4abeeb8d36880e6f43a2a899b3bcca7ffe0fc1482411439cf27;
 0x1650118703315ae3ebf1b4f5e333373428251036a1245ace4134f4c9bd3f7a91;
 0x1853287541cd687bc66770237fe3e86db9c98208e838ad1c9fbb3c2e9f0d2f5b;
 0x845a0b9344d795ba81ca6dc433abb5b9d1e083d460254569573e8ee3e9da5ad;
 0x1903d07b2722c0dc818dda893d74a9ee7fcb8b01d3b24ac9d7604c970f68e002;
 0x2b153908b83d6a3fc4b9406f891c3d51ee429c8f6906c24326de4baa2c22d6d5;
 0x1074ad520b1b0be2f4590ce97d9927f4ba582fdbda90f73810e0a75475fd0d47;
 0x1d7a66fca345168c4cbb549ace2478d1e8f0a1906cdfc1c95d323f99d6602f2e;
 0x7d8e73fcd6a35b2d8390e56d670b9ecda356fc1da46551b8b4e15380f8cac0f;
 0x24398fe811ccf72bb1583121152844be014995a9c213ff371d0302d402a22ab;
 0x303c8e1b06ec487e715699736dd043dd4a6308ea6264525634841f4fb530be1c;
 0x15186cb1c51f7abd9485ea9ba77cf8fa72584dbc33f909e7e04b01ec550784e1;
 0x1800e20927198f24e362f7719ecbedecbfd8bf90b0aa0f804cebd483ea950dee;
 0x17b074100a4dda67b9e89789201ba089d0dc1553f4b75858f689d7f9f2608258;
 0x12a869d6d8348519d11d32e678bacfd6fe20d7b02422a1e63b958256e786f4dc;
 0xd400992babe16a1b5aab5e95bccb91660f22e401082eeec8a2a562cbb098832;
 0x67fa6a735e49401ad6d0d4043563326f8e063be13b28875f6f4a9751bed2879;
 0x8aa46ab3986198d493b9707ed84a61034da2a8bd1224c5ae8aaa3a839cdb114;
 0x7d061661185186a26c40bc3d65c84064b6819dc305e3ea6df08716f415e6be6;
 0x164b5a80cc2a390326f6062957d7d325ac244c8c497448f4b96fe6734dbe3058;
 0xd267132ff50a0e61e859189065f6bcdafa349aac4881cfeb1b0b68ee179981;
 0x29b34d0febeb62b856aaa548a5a9b7308936bd163a46f67f972d4cb32634b5f8;
 0x1b1dfe465e4578869a7a113457037d7d3180b6f8be40346f061524e76f9c7812;
 0x219d6d65c86a3850cf3648d981b51681ac8e1ac0a5d4d2646b780c9e46895f0d;
 0x1709bed140c96224597918a6d6e056c2a6f80c4d27dbba0269f35966aaad986c;
 0x2b6fd7bc3a3b595c206c43daac752b765a12255c37ab51ae183933737a8b8099;
 0x1db013be405e1edce86acb997ef8ea68ad542ecb25ffbb8adecbb9e323e9dc4b;
 0x4672cb42f866056fff733c2d9b23531608c1b541ada0026f292d08230520f43;
 0x213116708c620427db2bbc1a422b8dbe43c50614ea1ef82ee32a92c71ba78715;
 0x1810bf41c304da8f92060da2bd4632295b784150716ec8b59a3a663925fbb556;
 0xe60fe1f6ac34ccee378a7743a96cdc77f27e36027f3ba4439f599547efff8e1;
 0x150fe3d5f19845673753c10d21683c39d806ba8b4401785d8b993d5d1485370b;
 0x106f91d87819b33c496345bfc0bdbaf0a4a6da037e2ee628a609716b120378cc;
 0x27f058d01a289b1ab1bea5dd839fc0db887d68fdfc623085c8aaef5a6cc2a2da;
 0xe0dc820be1b5a101b96f1536c465ce27a96436616a4fd1580c31e3f0be69d57;
 0x1150f83988fd71cce9335017391d240512eaa73c15f11973c28c36eb4be580b6;
 0x605b14fe858aca1b47a07bcafecb571d61c2a7d3f3559e78be31efa13632624;
 0x18579a82949ea313f07863f545e5f5365a77926f972361cf7104f2fcac832318;
 0x21b2b1c8062f7650217eb2d090922460361e6f0777c227cb685ea04e70393062;
 0xf83178738a3442e7e4ce6bbdc1750b29b3fc752d8d529d8b28be179f2808b8f;
 0x259a80dc2ea8a894232f5592feaa42db627973a90f50443e08bf743273eac236;
 0xaabc1bbb9251a3069e43205b96a072e8f69fb446dd7410e4819d6298e47cc95;
 0x18f44db51f091bf261627ab6e0be73c16b257fc358b36508627779722f45ecae;
 0x2cc4a9fe2f5afe3a0ce906c8339748dd29e2386e5ce4b5aeac22aeee17c3d79f;
 0x2c254dd92d7f002da3661a83147bcb7ede550313124d99c6288cfa538db4d904;
 0x2541852cd7c4fbea1361b129e8901ca32d9c4b20b7d51fa12c87a074a7fefe31;
 0x8c2f801a82520a9a121ffca321896ec7ad60ddd9a50b945cf3f430a05263413;
 0x25dfc7f152ac74084d93c2c517b91857c51a33f8cde248d393fa1c326916e93e;
 0x29760a2e5d63406ff254da4bbc97152ac8a6a38ad087702e594955add5c50d46;
 0x269b6bb00705c31e909147f919817dfc81d8b491b9a76f223e56f81e64a9527d;
 0x1a02cef4a79e0643edd8bfcdf61a009605843c26ebedb1e9060473418f75f0b3;
 0x12c0261d1e3b247b69e4582b3a80fd958762b0b3d3ba914a52c9e0be24918f0f;
 0x263f9acdeb8b3ce3ac83bccb1918a5d5fc712680a72fd8cfaf5e1c6712674375;
 0x207434df901289e8916ecdff56dee469a913970920c64804a7ed8a26f927f177;
 0x3a1c03c9f1fa1b8391f32fcbaa1efc6ff4b1dee7f377c8dfa5135d38a9c3ad9;
 0x1249e6129ef7507c99a866d902312d3876998ad9f62ac34454055d8ff1d352da;
 0x2b6fd7bc3a3b595c206c43daac752b765a12255c37ab51ae183933737a8b8099;
 0x68d6807831b6e785e77a20b94dfbe5fc6c23484310d36a9fb74220671804ad4;
 0x85b97abe28e068ee5ef7bb4ccd81fadecedd4818c5a6c9cf4f53dd4b44ecad;
 0x2d2caa3b84f92053cc406a11ad2985c860c57a75ac356b95a86a83ca504bc4ee;
 0x230561c2208c63a3d10b95a64358c5bc4d68d01ae4447b5c6993c8f6132031e8;
 0x151f5672052113e6f14ddd32c28c71436daaadc71d57d830ca551e770c5035a7;
 0x2733c9d71eb1f1ce45ffba8efb3de22aef7b84fea901bebe793ffcc3ee20cc1d;
 0x122c0d0a07c233c687e8156be1567492ad00e6c48ff395d98541df9044d26051;
 0x2844674637b223f5779e688bb8adf49dcbcd9256d5c314a512707b24b7ffcd53;
 0x13a9188517254bca715d460f9c6f183ad8bdb5fca7770277117e9c477d0d3de6;
 0x1ddd8eec094dfacfe2f915e62129fcba3601daf332dc8e248b4d423586ebcd69;
 0x15f2e0c38ac84bf50c136e68f78f913f74562eae48a2c20820841a471208d051;
 0x1dd71e73cc0baf4aca734d106ac1a48cf85f182373d81a854575e65ced0dc73e;
 0xd3682c39a2dc0c0808498cee222076cfc00f11da2b929fa5e063ebfe307dac;
 0x259708945a214cbceecfc4cffd2905b0628b3dd3fa652f3efe1c2af12e8732f2;
 0x71baec7a429bd060593730c150ff1fdfa050aed0d708343259063796e831195;
 0x26865eff75e2f6fdbc66213ee03b9455a109aae2e97cce07b9319bda64cfc6b6;
 0x2864c12ac61c22d4f35fda4911370070e8b588a8ee4a82a89e15c0f1a0e2d7bf;
 0x2758b8b601674ca5f526d246d221519ec40a0498db997b8aa855545b3659127a;
 0x9002afa8899112493dca6ca6f5c6323db8f352008f7d18a048d265e8cfebef9;
 0x173c758aea38f6a7812683a6fa4589e1b4a956e8974af260ddb057519e20f7bd;
 0xefe6d624981ff5e0b45e575d0b648600bd184973ebf9d9f653d4a5a8ba17322;
 0xd14a691145b25ca49c49605c64a9bad81678ea4a4e8b03fe39321c87f09e1a0;
 0x247342aea19afa49a8dbb396dedaa253930af22b2d44fe96cefd464839482abf;
 0x161febe2355426c2fe883e58dacff6e6cdc5ad5a65b28335275feba43df71f8c;
 0x2dff5bf2cea76d0888dc40cdc73f00e3057e6ebf33793c8551e211aab41155b5;
 0x1e6b6e09f8195c35767dd23c82ef5d8862ca77e999d65c69d8dc6860d494e81a;
 0x3a8fc10bf4a3949e8469732b0148594cb3759123ce90ae3e692966e31040c61;
 0xb185f3d4ca214b2e833301ff4e99b1f9ed7179b41191c9960797b39776df2bb;
 0x1ac6b03901fdc40b1329bf3873ff9277c70fce9610151a0ef7921ed08567360c;
 0x2beb77187ad776989902a94d06a98deefb1312d0558513c3dea6df48bf637ea7;
 0x2b6fd7bc3a3b595c206c43daac752b765a12255c37ab51ae183933737a8b8099;
 0x149e18f1233f506859275485cf5fc93cebb94ca26cde5d980e6fa2c34a2f7fd6;
 0x8a54ca25cc50b034f63d2e4d10b4c735aa759c422ebcac71f6f73c841976105;
 0x1c1210f2ce34c2958d640d0a0aaf146eedfaaaef0d37c0a0caf671a8332d34c7;
 0x17bfdbafe9e56498cb3d7b15d5cd41ab86ecd47895701cd2d6f26526aafc992a;
 0xcd27920c0441d98a8992d408c219f85989ad1056f9692e3db6e9e4196bd6d10;
 0x2dd7fb93c20805f91565bd67877e3a4ce43ec79dc435f8c7a85e82c6e5d16375;
 0x5b1e6892ff615742f728d3c0cf830aaeedb93ad22d870691a96d951dba7ff3c;
 0x831d0a313ccfd57b1cdc9f30e113c29aa35e574b1f55321ae09961b87b6d31e;
 0x600e0c844243eadb86618043d2a618ea1f5ed77f1aca63f5e0ef19f6ae09a80;
 0x5f0c79e16349cab481128d04a0cbc80b90c2bde9884a94c41ad1b0c4f868018;
 0x2aa7de5705ea010daaab30b3b20cef0e74874384af31c04de33a4e1ced8e925f;
 0x585493b750ddfe70e3eb6c9be7e72b18e65de229e357d4782b17c76deb2f566;
 0x2848f8e38361bd5512352609d7806af1fbc6b1fc285b1c761a78baaa68ff5ef6;
 0x2848a529d4f7cd4bf115528eb5e88284150af414523e25d1c012f38842d7a117;
 0x30aed4fbdf98cf0212d56baed9bf952466b5347667153e56bae4b0650d8c708;
 0x2350edbb556ef46cb8c21bd9841af642ff8b3a399569aa698ac63cb317a280de;
 0x2ae5b47ed7dbdef58bfa65f573639845e0677877926e63c9929e47338e4cb926;
 0x26e087a50e753431ab4f1ad7dd65cef00d9da6058601b8525a6c517e5259ce48;
 0x159d260467ef69e897f646782f03c24d7b3e1dfb3aeb48c469603f51cea2ac01;
 0x1e6059ee0ece798edbadc0f3c244b4bdcacb5181e9e470d0591fd8cc3c8798dd;
 0x21d0c6c19bc6bdfe12717c533169baf1a57e61fb65b7cb76be2c1265c2c90eab;
 0x96ff7a0c18ef35be9bbb3e0af410e1e4b3b902f38cb838150f8db8f034f96e0;
 0x27d16991da4e246fd333112d5d5092cd3c888d8ea89eb4ab90f3335f1e11fb80;
 0x8a1e7d8bc46b6d0b60d417e4894bdc5ec1b0da7d468cdf0f5b672544145480d;
 0x1bbb994d74d79b698beffb2c1360ad7a5da1bc9ed065a38072537bdf998d4ac0;
 0x6eaa75b2b8fb3757194332442bbe246a82300fe3d9aeb52548095747567da26;
 0x35066f49fddbb428a2316e56cb7542e5ee63e2b84a38caa27f5c07e37f0d514;
 0x1a8df2d50679834c0d1d9df72b6a33e1ff4d1a2a02659b635f3908b60411c8f;
 0x1a69f234855f2099ce018e287b94696abdd504ffdb8695755a89aac7628ec4d7;
 0x282c66cf66f278b3c8f0ed2e1936887b3f4a41968af38ba8435b4dacfe4fa1a1;
 0x2b6fd7bc3a3b595c206c43daac752b765a12255c37ab51ae183933737a8b8099;
 0x85cd4807b25336e1ffefc9b4e5d618c7aba4c4c42e34b0ab5ec21f1e264e3da;
 0x1df72bf6d33b417979d0abc3a5879c9c18059bc954a21b1753f44c98a86531c5;
 0xed29b17ee6bc79f0d0da95407ff87f10b937c1b72f78ec36499601c536e027f;
 0x2d8f67cb6abae1b1cfe21f91b55fdfe5e62fa2fe3c7c2d61254d840c2e22d0e8;
 0xc4a844d33d7410ebfaa0be3c062b2876c22b8f4e6a4459a2942eca9902f72df;
 0x1597f8a417fa1c847018051e70eedfbb5a6020525e003b207a241f2251c88188;
 0x2dc8e5d6f14e2d43cf0b273522b35e2acc391774793f09014b27484e7b5fd137;
 0x2d24d4794146908185f2354fd271608d3098e04ab4e5c6991653a1e31ef4cec9;
 0x3343e0c40457a059a893250795a6c6ac5085fd7222dee07694f6c562d966312;
 0xaf7db3d2850fc1037428a9b6913cb57ed2b17ce12775d10a2ea59921e9ba3c1;
 0x2af76fe3326af61814f0596d1e9c7c981214efab22a78ac52e4c0d2ea5f3a559;
 0x28c5facdf2832d22fc8c7caebe4d49c28a3eac34e1c06aab03da51f4c675498b;
 0x67b910e6a3555653b7d646888b1620dab05b82afdb48c08b91422e1d089e617;
 0x1a8198a68db555bb70cbf396e3acf926b66dd19e4ae5f42a62e1870e17943d9;
 0xff3bc5a50528f42394cdb10000362e8b645cd1abca45814cae31c0c1736de96;
 0x17832e2f6a6abcf1dcf5084dfe2cc5ae9a5a9d51f3d68e74743efab4826951eb;
 0x707d9a111e2bf4971e1c28f0993d0700cc18742f7a217c4c1e2027c536d1d7d;
 0xd4674bba848291e0bc0b2c36c3e3662f09831f32af732d2163f7873dbd61031;
 0xb81f95f06e846785c898ae8f150761bdd156f063b744279ab030cee5e996788;
 0x1a4724e7a15045d9cec46bc059a6e06c0abae7410697e867f97e073e7c059e8;
 0x195b3b718107bb2d25b6546f49e1a497edc07a78a37c1de15b39b65ded042a6f;
 0x117c5877ba019563589a57a738d554caa7c8c4e3342dba0f33ecbb81cf46f7f7;
 0x29f739db99ca7b670979f4a8f3b852bab3b3a2fe0b98a4693c49484b2872ab71;
 0x8127119728f625a3d35d9dddd7d5393a9086e4192d1b203efbfe9623bd38162;
 0x143607b15463dc48fd12ddebae93c174396b76933c25dbf0b2433c789b211a30;
 0x271c4725f01cd9767c7908c9217f0377f0da33e9bc492d187df0a215cfe3e886;
 0x1053f9e74f700dd3161862102fcbe460e41f0a30adc546b62ffe3ecff5c142f0;
 0x19f6aa64f3f2298722cd31bb3789c6b74f6d12f0dbd38e6ce1ff23d667a9122c;
 0x1475d80686b48bab18eb1c32e800912b26b82ac0c4b9db036c513e0b30fa7e26;
 0x29f8598b62b2e76dfc939ae61c5e7d0a159549f309ebfe2f3f097aee1c41ac2d;
 0x2b6fd7bc3a3b595c206c43daac752b765a12255c37ab51ae183933737a8b8099;
 0x3010b8ed80e49e580f884d5e98414cb0619b5381eb0b72bea15185c32e7f2ea7;
 0x18e9d0cd62c490a574aaba9b03b0a11dc0c11b4e632094c91ef72c14266a26d2;
 0x2495c41de1debd0cb51280193a02d320e978099f54ec96a970341abe80d96a85;
 0x92517d7731c97a877e552eebec76ee7400fd53d9be12d55ff9c6b170d68ec78;
 0x643ce7cae313fccba434207e99649376ee888d3e309bc8e5ee454466274d62c;
 0x2fa4485f1f97ad4c54fa908b0b25424bdc78255af9c77da99b95095619489583;
 0x1b327749a75f8db71a4c33e8b99e2c01808b9090d049e1ab3c7abfdf5aa908c0;
 0xa062169c4723669623251a50a4318e3b1381fb5c68556df9fe137474b624234;
 0x16c33ff536f271145daec8f03d97b56d0f8cfeedb7cc329290fdc1bbfdc2c74d;
 0x1280d067c4c7eced7dd8afac4e4cb3117be7901d7121ab53f3d43c4630f7b07b;
 0x479c7cdfb220e4d8d7aca9b5fe7380b2cd447ebf3d8a204320bf81fca29eb19;
 0x14e024fd7bab2d5031241686c4aae16ee300422df8b41919ccb73fb15ef06073;
 0x1a80d20677cd1bda8c97762d6b9a006cad73d95e78afb3eaf3b7f3f112e39bc0;
 0x1434e496824b8ea1ef9ea7f9e324c937492e33eb1af18459d89b29ba30549f84;
 0x30485e0cc5588a2f49932117b4dde4c933621ab227abe326f429c8688134893;
 0x100acb69114b53c1027ff56df9de3cfd561d7ccc81e881555696e0eddfb91f86;
 0x17a974539888ada5b3ee0bc7eaab414895d2111c3a9d5c51784889ec6d41546;
 0x194dde27e3f6373c944cf9079a28d68c7c73b7b60f5a1f5aeb7cbda3be4b9e85;
 0x2b563b2786180439fbd6f3bc4ab5f3ad52f9f20d7aa31c40b0f7906f2b0418a0;
 0x1abd1c97e97d7b5e6e9183f21305dfbc5855ed33636aa7a5cfc39e6329891c61;
 0x2aebca431ac4c7b1d96c54432751d6d20134cc8429a51bbdbf10d6a5da4dbcf7;
 0x1e93b372a671214f000aa220af2453bb8431f78694d76311abcdefde664b5bb0;
 0x195338e68902e870547679d0f4a548d1bc91eb3e144b403b6d9c05ebf879e274;
 0x2bb7a0b8bcf9f7540697e3bda7793d42e1ff60838f4b59f86a1ada0373bdb1ab;
 0x11be3da5945ef7d140bf9e06b468ec44aac37eb293dddbf871f9292f6969567f;
 0x481ae2c70bb522764ba40c7fe992913e56fc640bacb97794fee400861cd20c6;
 0x919cadc23acaa8b5e19a54a996c64b59a9032c3ee6b6aacde02696ca462116b;
 0x262de0b03fe8c9a6b04ace3660570271804c66ed640998d93362919e13dbe851;
 0x2b3c90ac3a4edfbe09b333ff56cec2918a5ef924359ad5e225e08bcf17249df9;
 0x1bbbe9819a05a6fdbb2827d1bac2c0c9736aa78280f8a81fc5969b576522014c;
 0x2b6fd7bc3a3b595c206c43daac752b765a12255c37ab51ae183933737a8b8099;
 0x142ac1e836fc30278704b47fa49a84cdaec95cec40a60abfe73a30a10f2d72f3;
 0x102f24ed9b7cc4a98957278905f772fe4149fb11befc34b05c7556a0ce1a9444;
 0x59a56c684c34007e174577c81d669d1e0b9741d4d2b9d6077d8f8e8c1803df2;
 0x1f22f8c87034418d3a79a9f5fbb2ee493c6851499ee2a84800b0e711ba76a918;
 0x2614d18359d21d25731090abb6877365f49d58ea4e78a44a9e7adb4409a3aee3;
 0xc414a0ecac4fa0637e9a4c9679085a7bb3b1358b396b2bce7eb9af4f0c337c3;
 0x11930fb18ae2944cfc25c856cddcff702bbcc81a2c2a8a81ab68e2abd0d63d96;
 0x2ae750321489ad6aab14cf7f3089bee01f50f6f1b3a1c046060804d204d6d4;
 0x1532fb2f4f6a0dc23fab57fb2988ae3a61bd61eff35634f11687991465849525;
 0x29b85c7d9d52c98eaccfab07af6c2aaac1dd55a087ca82cf636f2868dddf398b;
 0xd50d222652f613b3cf0a36450c848108600b2c98b5d16e4b75b92a1fca288bd;
 0x16bd29ece6542611c44d90e72ca96e7e81bf04cad858b88f65b3cf059348be75;
 0x114e95888f1e263e9304531e672fa0533c59aad32e19a6c8e79a0be3daba9dc2;
 0x7ed4c3caca93550d939fee72f322f5c45c45c3262481dc6d3fc21a39ba4a9c0;
 0x2cf1d8e95a3b2cf8d4c1a0dd53adee6e975640bc902e05c357d43ce4070f6803;
 0x3730a82d1114f03ea0f98add20cd73889491c2d362fcf76eaae54df206bb984;
 0x2201627d02735d6def85f3d4409b5f675e4f5b670fc8fe334c2da72e9ebb74e9;
 0x1de69df65e50bff05222e7d15bb7c25935a419532031efbea0a88d412658025c;
 0x199e9757b4a447a466924aeee5f4e3c6c0f7c0f1545808377a8c0c436b374da9;
 0x1cc1175e9e818a6ea2646c194f36bec3c37c63294b25baa9c9f48ea3c312d08d;
 0x29d4552088b3053c16c885522c794ca388ba38c6b9eb2c55e011532a5f099fbc;
 0x23d3b2dc1c7ff3d298997d064606aff743e7df6d7834c775aedbff099d458f78;
 0x2388ad46e7bff8d8b43e0ef0fef084fa60cfe32993ea7183504ee738f6445cc0;
 0x304e1e25593dbba07c1aa88ebb4a80684d9147c0b2f9247b49b5416f13fc3898;
 0xd63f23dde7572c15586188a12a7a1c0b2bd109f6343294fc8f8bc1a778414d9;
 0x19cf6ed79057a5fc4398ae7569c1b85519c97218ab842723d6212cfa9a0a2dbe;
 0x986267435a69bf6ebcded378d2aa4a02ee3b7a8becaed9ca1e663600fc90c3f;
 0x2c1575ee85e8cd3cfb63424d84ea5000786e5927433aa8c0b0211e5d87929c84;
 0x300003af788c5a7576b764f88be5b3b1ac8cb0b9466090fb331569d4c6672c3b;
 0x9edd428de05fa06b6410c57a5796fcd1ced4e3d20d42bbdc40b00ea28aab387;
 0x2b6fd7bc3a3b595c206c43daac752b765a12255c37ab51ae183933737a8b8099;
 0x1fcc025724948f53d0456e85fb56f3f81e0c8d4c2bced5efe3fa3af8ff77acc5;
 0xc37f3e2d38cd3138ea93327d59b885873d41ef32b76409638af6455b5bfd932;
 0x1cff93735f5e8bbdab731d6b1a60d946f268b082d912fed0b3ccb525d8cb6485;
 0x115632e11c1704f965ea72407243707ec477c716cc429f1a7eb457f4337a5b01;
 0x10d1bc0b019f8bc6d1d6f5b74ec4e472b855fb594585e4458e4c269750912717;
 0x1bfa4745da3b7737814426f2b9dd6ae7ea034a00263dd091cdd7e118a44d38c7;
 0x42f42c6cf5ed0f29ea6535ba858409145772498174886db7dd44bf9ac54d492;
 0x27da68d3c98d92e4e93777c0bac6c7cf508e16e748fccd3c0b7b9fb54e605aa7;
 0x1c0dd243e40090b31d093d35c80719303b7c49b088bdae82b248fc1dc37fa340;
 0x1c3e2814b6eb0de8347ff2db9de7d3bce67b5a97585fc9933bf45f406edb6ff5;
 0x4487bf6eb305b13eea5a82659858a64226428712237312fec1f6bd536d7c29;
 0x1d4dcc7fc6d31a37c95bdb711a21fa490f4786064834c25d2e15aa82dcb762ca;
 0x1ad252b23919c93380ebfd7fe5bcc221a3dbc4fa59e555b8d00bfad872c0c14;
 0x1b9bb478853c46abecf434115d5730c6dc59d0c70ae580013d216f9ff259656a;
 0xaa2849da666039877d1c63803500ddcb59258d9854bbd817c690b32643a696;
 0x1a80c40302e2c50b3a9a9303f10ffce49d7bb5f7e5e19ddc85838f01df61cb28;
 0xfa31af23f2b7a127dcc29d7a7896ac68e3ce309a70a86f7e680fae88ae11af1;
 0x10b6199654c3e28a05df36e3ece1922c3ef4b7641b2fa8fc80a84e3e47d15fd3;
 0x23002a3e74809dbd3de94260eccf0c50b15ad8f1d0b34296d06ae58e4a28b6f6;
 0x149568dfaf3fac96b2638c3506a8d25609ca18e846ade9d19afe0c1e05c02c68;
 0x27e032df87f6c1641dcbed6816aefdfda13783c301c6e0a90c31a98f4c0b9208;
 0x18d75157ff16e95990d83ca5bc9366251a45c6f7935adcd1eed6c944dc87f5e;
 0x3019b560b7eb66353bccfe2531464754259870d8246d7f35bbf10c6862bc73b7;
 0xf4649bbb3013488fe2f61ad0d590433f5c7876a97cf9c83e821f078834c45b9;
 0x2adab3e8388934d5ba7cf03b98c23defda5c4c153364936b136828d06db12d99;
 0x149faae0107b1cac1e064cc54d1950602711aa7308dbdad89ec173da0595ff69;
 0x18601dd152b8ac338eedb1278d537c16f70e1fccd0dd9f1b1ec673b4b86deb0d;
 0x1d65cc6e7ccb7077ab51de992f4282456b818da240f46de874bdd4f6af329aba;
 0xfdc0f5a32b65a84e134027c7353503c7e9ed38f49907e28a5969419e8438aa6;
 0x65d3e753bec13cdbd2d4cb085fc25c8733f52b5372a4aede46eba19258c2a6d;
 0x2b6fd7bc3a3b595c206c43daac752b765a12255c37ab51ae183933737a8b8099;
 0x180a916e94037f9ef13f05a1ea22bd41ca2d4b0f5eedad386a420ba6188d4882;
 0xe6fc284e88c1403f06ab873ec9d803191655d35c290740cc682caca22fc13a0;
 0x2753bb09a0c4a77b3af2a69333e51bb27703615d09d56f86423f85cfc8827faf;
 0x272db4b6d71f80f52e4aa1061f6a24e98dc041a0bad07dc46aad59e67d96b010;
 0x2378ce2c52074b027940891562743047b7b57ffc1f6654c2dcc23bedf1cb7608;
 0x26e90f7cfd4093a277600d2c564b6cd8f4ba3899b646d7427ce907a96d25b4e3;
 0x1cadb3908ee02353a3c45fbb57dbf6b392d5b1e59a13d58b57b7e0dc71c8d3be;
 0x4d30d597f9dd6720e85eabb0a7808098f72d7beae23e0f5845283cb04334e2b;
 0x193da68a7a699b7cf33c3ac942a960c154f447a016d957e241786253101b1c88;
 0x26484e7897f16c30babb9a4eb821b94e204411ea78e3759bcb55f5f9e1f0ec02;
 0x26a496b2c2b5ca5ba3dd8af6dc73aaa2d8bfd2f6715876fc5703ad68aae6a1ed;
 0x385b7c09dd2a1a0c2595a940914780d61b49f081e20149c37d920a06dc8ae7c;
 0x215ad8b91b54598e0ad7129f26f6eb4e52a27da738fa5ec2aaf3b471c2ef63b8;
 0x25c029bc5468787fc40f8b968f9542a8cf39632ebdb520496cf9ade72f289656;
 0x2a8bf45fd684c408e8832341397ec0589167c0d26cd7bb73227cc83273632bb6;
 0x1621a4527a457936aa11821e0e183c83008e201ac922ef2491a720767d5ac282;
 0x2146604597997341b5b512c2d30536fa961d09b5195f4ffe20efd22f4e4e1088;
 0xf469417d25748e654a60d7a42da219c2c1ab164e0ecf4950a3c15aaec9d7b4b;
 0x854569ac15311adb77dd8f2cee810aca29c09a47b6130b51c16b95178d76f2b;
 0xe1696a6980d7dafa5bf5a2e10ae664e0c29153272874153cdbf2b303c6c8762;
 0x3eec28f72099f4081b58deb0a95abcef4ca06afe5250a29f565b18fc8c0f3f2;
 0xf0359dc677a2208a6b0c627912d16b736e91ab3fa83eb825a7b1ead71d000f1;
 0x1eb49e2d0f17845b3e559dc12cc37d706bf9e048e6cb55a766ddad1100a07b7e;
 0x2837d91b1501a5d4b95913f0d2c24966fef7f5c347aaa897c210ba15913def29;
 0x2bf39f6cf1cef6ccfbbf97a4254acd478c897c8cd9614d3f8f9bbef4de646c94;
 0x67912e7144d6029b3bc72d448dcfdbbfe0f7e9591293ab205b389d61eff77d;
 0x191b47b69e8adfc904ff67ab36d19fbb1021c70898b9d657fb6a020bd6bfe684;
 0x2fbeb5d54229ee582a6275b9977b77ccaa8ddc90265b7c5d59f8d19af69e46cd;
 0x223504acf848236a0f7cd946c84289c4b4aba0e123b1db8e588fde7de06ef2f3;
 0x11d8e8ef78b313743937e16395c1193c3e46d4b84c78189076d7941fbff04622;
 0x2b6fd7bc3a3b595c206c43daac752b765a12255c37ab51ae183933737a8b8099;
 0x20d2e36125e681535785dc294c751d7557e31dc99c01cc45fb67d0e0f7031e5f;
 0x2108085ae6246ae7dd76f7b3f3e0e731b7e4067602f6026c9cc61321806d4b6c;
 0x19046a9fb27aa59fd7cbb075905c65e165d16248d948c1fab9ab472c57d8ad1a;
 0x93a926faf68ed92e943507a893163b433857a1dc564f3f26c2f497164852c86;
 0x2971a879c70793d54854f7ccdeba099226a7034fa5d9911dc81aee80cf49f279;
 0xf5f5ba9b74aed76259a159321e26cbe1cd7e5849ae8562ff497c1af96285d1f;
 0x20e7786221700e467df64d8d73e4c38753a44996aa732da38e621bd270a16e0e;
 0x1f4fc008a41a25739bd41118baabcf2465fcb0e05605bb2193aaca167737e6b5;
 0xc4a3ea3f708efc883a4bce4a0651d8517c70a1324de4935aa508c3c0ae24dca;
 0x2e7610fe10352af47b616891090714c6802f3fc1fb9efb21248694ef6246ac07;
 0x2eb8ad40c535f3b7b05c2fd963b8569e956259227ef21a24b7afe546effe4184;
 0x154989e705cf9e62b9416e28834a4a7bce6b573a1235264ce89d4b046b6ebbe1;
 0x184749a0e1bec0f94c8f3c5be0c76d87976952449c2bfe6304413dea612e2e1d;
 0x24ad4bf83c2f3341dca0c72a3575fb12805568e92cae4472fe19fdff27f11d50;
 0xe788a096b2d4192046ee742981fa38918777b65030ef53957571c3b5fb54a6d;
 0x1e22b9d4c274fad52d4e5640b4acbff2c4810127a087c42f9be9ab58809d0d5c;
 0xc8a3f2ee3246714404abf0521e74a63b83576496aaff85c2be74a7106846f12;
 0x21adde943461bfcbd7eb10345a94033b25d4701157c694519fb2b4093b756709;
 0x1ea99affaa689d6f19f8a6b82d4b81dfd1f17682831e0c00d7f2f8fd4938a37e;
 0x16949199fe4a38750de73fa737a283a6a9ad40a27b0deab631f9295ade2423cc;
 0x1e83bd581acd61c3b54afcb7a0a9a0138d9ac4c8739cdae89759da5150138fa;
 0x42a61a84c944dcf754f5a97b1dc8c2ee7bdfbde233f789210f506eda56973b3;
 0x2b93c28b157ce32bfa3b8d0f585061e75a03b79c366a75856cdb5ca2273e30bd;
 0x1f54218a5daea6045fa60b06ab2520c52560282b1cc3ade14b664bfa49752bf5;
 0xfbfdd369bdaf703669fa5e36a00aaf0b251a50912048adadc83aaf092e7f2de;
 0x3633bd5a72a51fdeca62aefe9434104b52e152655cc42f06e70455cc15f8e2f;
 0x2c0eb54b5f8cee8ba898a242dca64def09dda346d06323892957fa30b3c13af7;
 0x165035983f563b1e3bcbe6c873fbf911d194fbe54243e039b3cf7b6f2afbd822;
 0x2fd9820b3cbb131e3575de4ecece3471352587e10c96e72ad867bbc57f4c778b;
 0x1204b919d86a12cea70e977706ab2be78259c6c608dca628eeeccec50b829342;
 0x2b6fd7bc3a3b595c206c43daac752b765a12255c37ab51ae183933737a8b8099;
 0x2f3cd03d82e80e8521a2366bf79e8d4ff5cfc3b4f46db99a4947e1ce4993b2b;
 0x1cac3fdc9674c64c1614a5f48d65239daa601e26766fcfcf29cc385d6b3735dd;
 0x65415e4dfe08e357c669d145be5fa6cc74b0126f099faf1d7e85fe9befd30d7;
 0x28ef19ab4bb2626906730f539497dde648a1a967da5ea31969feb620d115c8b6;
 0x3e88e9732a1a572e70d7cb6528857143fb51a949fe9e0fa0fa281b85b64b7d;
 0x2486ab5c5311e4bdc65ab49fc60b172f851908d6753f6a9cc40f9b1535af072e;
 0xc50469c6c6bd532c6f805d26a30a7e5d703e0537657518cda0e1c6044301ecb;
 0x28f8be525277b0346bcd664cfb0a24a028f90b89ca402254b4f95833cb7ee870;
 0xa68990da12f327a6d79b356c1d27642392b1b2cd9cc0b5d675d98436066e563;
 0x2216dafb41776a1941b1f17a5dd8cca1cbe0f60f81ceaac465861b3dc2ebbe61;
 0x20e6c97c374891d9328052361d932372efcb6c0c84628b6f3bfcd41c47d1521c;
 0xa2565ccebd103dd144534c109f53c5de275ac56e9170ad9e3ed0b600aa51ea0;
 0x1e79a45802b9e7592e60d7e4964e8920a458862cf40212db96483540a62acf3c;
 0x29f54f1a96514b9b42ec9d74b5d715e61c265b129a7061bac126bfd50f696fce;
 0x26bb61d61ff279242f1e5c7bccae627e1942ef8e103a915b64527fd0eb31a93c;
 0x1ed4d606d825d86ddee16689f24ee5d9832a140f44b437258969f41d4c442c7a;
 0x25131fe12798f1c8712f4eebbc7213e8f80b23e7d1bdebfd255c18793734f251;
 0xd921ed8053ca270d60349d85ba38dfcd05bc96c05a68677185956707385d626;
 0x25c7ab17f3ca72fef63042fcfbe1a3d5f1ef5d6e52da6d6dbb5aad46b1e17421;
 0x1ee03839ca2483009bebf461b58d11cab852212642d38d1d33e48d9956fc48e1;
 0x15a5a2eecd107f307d9565496448cfdbbd14ef42323275c0ab6597aaf1895475;
 0x3fe00f465767add4808ec12aab687e16cfd702c1453267b7a2575c6cb557ba7;
 0x1577821b07e4ba2ba893bf15ce062c0290a2c757ca7140f76c2f03b53d84edaf;
 0xc00f28af5cdd011907df891669d0a43892fbfd24ae7d2abbb951b67334158e0;
 0x11f2f4cde668fcb28b27153f0c0d85c86fdb4d0506d38fd5b76d33734868f4cc;
 0xf15bcf82d1d583869605309b58d382a4750fa8221ebe8126ee522ae696abfa3;
 0x2a87c83c58f55146158830df52d74403e32569179b409d8e97ca8a27c7446bcd;
 0x1b655b2c43eaab5b8d104f472d8d84a836246faf3733debaf470b8b68b3c6078;
 0x2b4c7891572319263680116a7a29e9ee3c39520dd8bbf33016e31b88444369da;
 0xd57a4ba309a380ed8f907c68adee0e2ec336a33d67abfa6d33c0b34191d5c3f;
 0x2b6fd7bc3a3b595c206c43daac752b765a12255c37ab51ae183933737a8b8099;
 0x24d7026b9df6dee3dfc366bf883301d2f5b0d769ffe6f625614731c81638a5f;
 0x2ffa9260d3bc1a98adb5d9a4566a673a4ac815d921f66a78c7b6781f5a45bfed;
 0x1c49dd9439a135892456c194c0b8b727f5f8dfb8b46332cff79b0e88af0897e;
 0x20dc0d730c188f571f944cda64df0385f31ee47784649b38bc8b309fa731002f;
 0x2a57e4f3c1d3410302207d53fc653b091b9215b9914f7e21143c5ec3d6080206;
 0x18924496a011f1d0f7334c75efc82a756b5fa7b739ac213742e747f0bab85110;
 0xb488da92db9fb460de597bdff5917bc07393e560b75df7412a23f86782008ac;
 0x181707ed73abc47ed303001ae6fc388dfd30bcaa57b75d4667fbdedea39addf2;
 0x2f3fc44c1a30bcc3419b88de657072843f3eb73178989484e010a66c74a4bf41;
 0x19fc475149f3945f3fa3c88aa7bb166e056cb353a2bb28e98cb2c647aa72601b;
 0x24e52c7ecdfe59ac393a7e3659fc038f582a29f0907d9130e1615a60e0d8ab0;
 0x7be6f1cf7191d8cf88349cecd3f83df5493edce1708f65a305c3e749f06da66;
 0x1f21a4d143a3496cd6736f6462d52ce24b40630d8dc8ccaee1f4fe83d2d8f8e5;
 0x2d26efa6adf5af54f46c6835f4d6d13874b5f0f329b21a280b19399f855401ba;
 0x189d55e9c0ea390f2e219fe4abde4c0ec6fafa1b68f5a029e4d2d5f2698c0572;
 0xb825420f377252cd094db40d6f37806ac50896f01a6b563627b6fbf45bab59b;
 0x1fba0c700b9f301109b83fad61964385ccde2cde69510b66334feb80d8dc5e13;
 0xd4c0381cbbb23ff4199900fe9e98b0588229e95cdabde87734b7da4a96728b1;
 0x76f5d00e73e4dfcf13f558ced96fd848d34ba5ec48bcc141228c22d18689433;
 0x1dae42a7e24553210ec1d37a83e7e379f118af2833a638cfb2f637c2731b167a;
 0xa7cc5bf24de2b7a6553cdb103f7b93a2ca50e7b8b2947563fb8eaf4c96ac22a;
 0x2b027765c2982281f3f552c9fc239b96b0485bcd6b246567189760387d54a530;
 0x1001976662b6ff1ec3f6510318e518e6dba3e69ad0635a41153e18435653e16e;
 0x1f0a377816189522f724ea65404ef22847bac0fe95e2a6c666aab27cc4dce446;
 0x1e7a94ac5ea43fd868784c2943205aa45994575b494a0c0c469f6be322077c78;
 0x2791206766f62a06b3a0a0d71759944425e50d392218b999a86bbdd590184075;
 0x11ad87aca6c25e04cb85eb1557e42ecf5851a9d24d20f9ed554ab9de9a561814;
 0x7d76ff83e9aa3f5924ed313b0d183a5703f49eb17db9b5192bbc1e5935f41fb;
 0x18eec21072c91937e53d9fd0e38007a1d8ecfef89ee0a848e5c42a73324c0897;
 0xd7ea1d8a141670f5549461c8e6649e7c0dd2692756c6c25cc4525d437728ac9;
 0x2b6fd7bc3a3b595c206c43daac752b765a12255c37ab51ae183933737a8b8099;
 0x1d9e4a0d2a85dbe20e640964806fa1e5122e2821f6f46ebd2f614f52586612c5;
 0x1b0529d2ba99f99c7e4958a1dd940160e451ad60a731f482e0eec4f26806ddb6;
 0x2d78de90b2cb9901ccf75821db641e2619beca024e3356fcd20b0744773bec1f;
 0xacb58a5c68bfa43b46977a9da02f76727974e24f13f1e6e7646fcc17235bd4;
 0x133449d082b88b55b324ec110cdb4dab792843e2915a039b52f1399096abb13d;
 0x1e40b0c57597c9efd9e21aa03b9e60edcfcc6313f2b325a1bb552a227f466cf3;
 0x1dc4ed7c60899b410745ed729ea5a0066568b97dc007b6e7e804769dcd4d7d36;
 0x1146cf1be34558e643e2850cbf90d1e25e3ee122f8292a12b8be4cbbc3b02f15;
 0x24cc8fc4c875a88eca4864b038945f81381b829ae63156e314ab257829531a0f;
 0x29f9668dddd6103594c092b4955bea42a78b762b014f853d12cc8a435deaf507;
 0x423f8acfb6425857f07e45bab4474b2746c987eeb3cccec94f838fe25d524eb;
 0x226d21a206f17d649306ea18a42e50d395d65136d082d91b09f226e63fb6540b;
 0x50d8e0202485f6ed926f1036d1cfcdc3252b49bee257218aa058f8b7a22323;
 0x2c6998a3a1d4988893eaba746cf07ec665089ee1498736a1580f2a7b3f840a5f;
 0x8f07def8f9291f940b044443a720f15109a6602e54670e4ddec4f9bed773f4a;
 0x15ad9c95848c4eee4228b1da242da640ecdbac2ca6f216306045c794e0cd41eb;
 0xb6c94ad59e7195e47046f5e2dbdb395bc45ec654b60c49d8f39d9f8b895d1cc;
 0x16915ac62623b19ce2101c05fe7276c373b329f20e1fe2b86f85e3bb18f2eedb;
 0x241c174139afa0867f108586e337df3173bca36eb41a669da121cc21cc52e157;
 0x2fbc48a493da3632871d2de5a8c22f22112afa88b1e71395eced016a149941d4;
 0x1faedef5274cad9d8a55c7f763fa86841960a0746745c35950bedda80b6f4224;
 0xe5ca90496f6ab2db273e54bdd99ae0d8bc1c6f0904de14932958f6c837c26f3;
 0x1783f5edffc02d572faa7798200083b86b2b1ce2320dc7c8a0b1ebffdbc9d567;
 0x1108f89b2285ad02285b4cea8eed22d0fab841f21df3d4ebfb398606a6ba3869;
 0xaf33de737c3e1f423c51d89384242ea23bc564bf402282002cd30e3b163468b;
 0xc5152ce065fcb30be4405cd338d85ca50d6a06e9344fcc7634d82e0e9759a74;
 0x29b859531add0b7229247872552339e4ac2ae3d4b6ca8c705763cc8193103aa0;
 0x87622acf27810277fe3cae6e270483d0d53158900fca1849650b0b5ecf0150c;
 0x228844894f0ecc516411b0b864dba98a8c26ef510627f2de70e1d13bc30a6e1e;
 0x196d69516c701eb00c670cb577336806429642be8b0e301fe0bb12293dbc2548;
 0x2b6fd7bc3a3b595c206c43daac752b765a12255c37ab51ae183933737a8b8099;
 0x1f70d88a852cd16c82f70637d9d973d59f7e77b8268aacd484e4e53500f72b24;
 0x141cdcd52cc304528f7f93f23944dd16b3cca1a85b2a84670c504b9792beba19;
 0xdb56745ee0dd133af6f37bff1f6dac061ec7e40069f9a811e7d034d7a30abff;
 0x2569e01e00c725b48d55d26fd8c49785fc36248299eda8abd3b92b20b15020ba;
 0x353c1598121daacd532f8b0ffd175318b309bde28b7ffada32bb73b784d95f2;
 0x23dd1ba2b7ada18fb1337535b938fdd5318a1ad228cf00747d07efd159cc23cd;
 0xa449d239c51400de8f275b00787790aa508e1e160bb66e87d0f4e32ac5a5bb5;
 0x2bcc35ac47eaefc5ceae93b97187f199f4ea9776095a98efa5353da21540b9c9;
 0x22e49a4378b6b69566529f55b874d2304e24cbaa5d790f76900ee2f8478e3c07;
 0x66ad5b80133fd0a6391c05b7e20b13416e40c29a06469326768f24276fe1841;
 0x3f2253229c2810aae5c8411d5130ab418bbe077b0f1122623065532a259b857;
 0x2662e6c8a1134a005867e103901a5f6c67ac3737a6620accf8034cb83bdbd4a7;
 0x20a86066eeceb6979baadde6a2359befde49875bab142e57e171b0870b292086;
 0x13afbc5573e84312a43160ff4045190adc2a9db03980e7126381f4089e7c91f3;
 0x7d6db6cddf350cc1d59a474d84fbaad04fa0f2bff915f077708df41d5b2a746;
 0x268e93e46fd7f13e1a359ddf6ebb619a21c1068de6d899590aa1048b8829ddb2;
 0xf889928b305b304fce28f103f2e4194f2b29cdff231b05efe561e1cff4e70b9;
 0xc547ddbbf87c32bfe454d8e8b0ad4402c9b979caaceaebd9d59484d43cd37a9;
 0x20da83182faac059a9d00b35dc345ef0115117fd24a15f6b91b501728497ae52;
 0x1f6b643b60e535d0f2731a326273576ea723671e6c51e7b74281028ffb0462ef;
 0x2d14d43ab2196fc70e26a6b9ef3f2e9d18f60026af5833359f2a4f694ff6f9cf;
 0xe9b85853becdc05429b0a28a7e23baa59377d9037615ba740893eb971aadfa2;
 0xa664658bab11525d7086e1206ae3c6abb9ec31e3461d6b0b2547a5d6c2ed54f;
 0x2e0498e8539d8576df187245d0b1222f43cf4d3f8f0209afdcb2f68767633406;
 0x16c87c7662e6724263b44dec088080333793ba2002fb9669eb63dc3b1189b6eb;
 0x9c5eba75aefc04d0436380c834da36d20a67fd4e11653498b4ec21b30900f54;
 0x1066b5230eec70bbde6c98ed4e48e392feb18967be71a12ac18e732a04ba9841;
 0x2dd2a9adc1fd3ed04eb259dda630b58c0791d7ee79b85fc20ff8b37ca0dc0464;
 0x2e94a96ea1f18a9d99bfffc3fe43f0f751bcd549d1e5992e366943a85ccf4af4;
 0x8d72e9dff20d4f5c4543b725e43e01f1cbd2bd0d9ea8ce6b0c1a9b0b2e8499e;
 0x2b6fd7bc3a3b595c206c43daac752b765a12255c37ab51ae183933737a8b8099;
 0x230050eb9901e2db2f16df59a7f5b8a1c441e5fe9cf3869a4ed073ba25f5d13c;
 0x1c2f7f401da1ad989e6cbb5c81e3559a7930ceb1916691b9b2d702eccfa3f844;
 0x9b391cab0c34b91b155483a41334a9ae97203942d7683850100acfa35c51600;
 0x134816b73312aacf2f573418283f27bca58d4d23624890f7a3b9ca81c12e9718;
 0x124b47f9ea87c94130ddcf77f87f4bc53ee087699d0e5f62663a63891c1675d1;
 0xfe5a21251a65261e6cfc3709404711f727a610f94057c304e1ba67b2f006526;
 0x28ab3b64f6f6f0ce2707fbe854295616d676dfb0d66177af6679b3ffa512e8d;
 0x1870499da8f58f00acf6b1133119d757220bb54ecbd793f9ed42d65c31760fb9;
 0x20db70356dd8d855ab92b28a96429acd5ca77cd9e5211aac448b991c1650893d;
 0x1a1ff1c58192f748174691a98d8c5e733ed80ea5c2fed11b098fcb815b438516;
 0x1ab2399c7e7ce1f5d3ef6c3cf33f39ba83f054bd73d8c5d7425666ef390e4f69;
 0x1e4b5f8ea2fa22e568978cfd90777937efc072338e173f49cdf7761a9caa2b7a;
 0x2305b22483287e9568160f0dfba637f50c63472dd89e56da0611b76cfe869104;
 0x1efc74710147e4e7df6580d0ca588b6f338befeb4c6f8e8a0967cf5c9dc07399;
 0x43c5e4ba3ceaec4190acd05a266e8d339681eaf1247af047fd0dce72fb37c0f;
 0x2ad5f9fe59cb81bb3eb3ae9985a905adbf2fee8426fe0ce3c1b108209aea844f;
 0x1f36ba0d22839b3176e55a9ed07dcbf0255e386bcea0a5be9823dbb3300ffc31;
 0xa565b3ce5c2aa38618127678d8aec23595e365f5e51d97474b85b16a13362f7;
 0x271dfc29144730cfa780f9accc99caaa7d14e05c42df401293d24759c12d8ed3;
 0x1119a78dd0cbf88014b97e6e5758b64c8c133a5989b758af60df2ee0540348a;
 0x157970a49dadaf8b39d46ada19fd06b34784a6f33b4d85547c2493f27f389e0b;
 0x8697357bac4131984b26ea8e352a3c5e5c33ff22f09019646f43b5137d4df31;
 0x29fecb3d70e1bd21087322a9d0f0db92c65f141f02b45936d9a5b8535f0b955e;
 0x14297a9dad6ee3dd0ad87ee9c2dc63685caae7391012e267da21ade2aaa434b1;
 0xc8f3a7ca1b4242199d6a0999b30cf3e61dfda56b98dca4c9bb199a070f9c782;
 0x2105bc020b9bfa1a23b0b2edbdfd4ce7bdedcad57906d2f58053b8ab35f11b43;
 0x2deb04f6f90c24a07d2f36e40d5bdef34639b092d395bb4a4fb483f84aecbcbf;
 0x2964c5940985822a64ac1443efdc41cf37e87dbf858535bc7c87181768091c60;
 0x20b68c1b5ede99ccfc7cd1231b13e90d5c9235c36f2f955dc6ff5352133ea9de;
 0x30096e11896ed1672687beb4f6725b749550667e8da418713bea7db5f838efca;
 0x2b6fd7bc3a3b595c206c43daac752b765a12255c37ab51ae183933737a8b8099;
 0x6e21228ed894978b90a5e0b691d8916aa63720a5c795b9a07381452e22382b9;
 0xc9bcf80dc5fd89ebeb604437262768ae95fa7263924501540552e7a4f2414aa;
 0x9a6be7304c6da043de4c03ad5c76101a8bc21f1aac8dc10a695c7c5fc2f9072;
 0x1d78923d01c8ac2f59ddf5f046cb5bfc8bfd083ec61b1af080c79c2ddb27a832;
 0x272ae649640a5da291be7915b01cba87251bc6272140ff420b36f27774594209;
 0x4b1441ef166c520f9309f2f984011a00dfc71d6139603ee90496e59d715f775;
 0xe8d1281ac76ae45f6f8116bf74982ba76109c42a2ea163357febe0422658c42;
 0x1c5d4250da762fafbf313804257126fea15085a8ee9c103a9992950ab4af92e4;
 0x13d55c7c0b5e9acfac2196201e8e4a1ca091505b12b70064dcef6f9d3b1e18b7;
 0x3e8a03e1e25fed9131b3de7150da5ad0b53da4fdbea9729dbce40ce2535f0f8;
 0x12623c6993f1c30108c7c79868c88e3943a64595eb7bfb5814791aaad5a09ee5;
 0x1d38303334b2b1328d7453019c571fc28f1bc5e4e3c9450b491eb870d2c8fe89;
 0x192231ebe3469dd102a003b41ea79237429cfc4ae4d7d7b5f49154aa70b918e0;
 0x26587d8d2a074923798fa95b78d558a7357f48989f553ba03bbe800e4d4ee582;
 0xdbec60681a76725fcf9b009006e1235f2ba2d3f09ec62b50011d19ed58019c6;
 0xd79206c8a30d26abcfb375fb8c5a117f3cab1c9fda8ddee17c0991b11c63e13;
 0xbc57e048679764b958ec54b82fa3bc4690e99591f42216447ec6ab89e5752ee;
 0x19b73a25670160ec2631863fe8b93691a30a5e6cecff4e91e4b56dea4e9d75a8;
 0xb02dfd4eb79d59d665794ed829d301ce08e2e5285bcf6f75a83f23815f8c5c4;
 0x2e8eda48e5dfeb71e3302274f516a74131fd336a617126a1435cbed8ef6c9d90;
 0x282c1f1d562f2927e694715b631a176baaf7621c44a55b90ad2f1af512f2b499;
 0xe24552e72a2717b254956fce21df810fe3f1fb66ee0224be74aacac4f9bafee;
 0x619d6bb9fad7fe7a063998dec9888beec2a1c2206bc97f6853c10e62ede2ecd;
 0x10855580bfa613c21a4efdbb0f302d4d30a87a79a77cad82b37ac76abe5071ac;
 0x12e7d2df332cc5d618a22900e665529f2c22bd2b2aa387d9cb30da9483f71155;
 0x108fa054801185a6aff619e7ddd9dc8095884ddcf3c85b8c922aaade7fde8f66;
 0x2f8cddd8f2c5d14ab14b93182197b8073b4e9c41c138b6764ae3569771e617e9;
 0x1f4622a6c051e3696414b2024a39391743479968b4af8dcf07186d5c2ff07972;
 0xc379c514adbbdcce4502cce0b85fd03fae98db9d8f36d3f3c56cb9942ab7877;
 0x2b139708399f0c23fb51a4d24e7189fb1e619f5c7e03bcb8c8c32945d8e1930e;
 0x2b6fd7bc3a3b595c206c43daac752b765a12255c37ab51ae183933737a8b8099;
 0x1a67fa389778c9489c495deb248e754c3aaaaa63c5ba3c6e5cfd96be4f516c01;
 0xa82b7efeec16e6c5aea5e99597b098504973c824edbd47a27cb33d65d7d09dd;
 0x58b5d72d0fb9836dab90890a9a9db183959618b7de3d6b7b1fc07621644bc7a;
 0x24411fc9331c4465de389c157199ca24f304424c0481d117e7b0ea23657af1bd;
 0x210351a45fa4ef26b2837ad06b46629051a464602e52b36ef24fae76d1d6d34e;
 0x1e05e49db66c3340e7db14921c0262a7346c687a8c26137437b510e30840eb59;
 0x2e6833d4c2d492a05a1c2be458d06a65f6be428714d1d44c2dcea661571da703;
 0x2747e0fb93ceedf91d0b703ccd88f179e8f10331090321660985bc63897241cd;
 0x21373fe7342c29074309be92546ca3308e28215172d43899d8b34e336e0c2feb;
 0x7aca07d0069a023d78e0a91f67dc748ab58990af12f54b14efbf83f6ea3f959;
 0xd31908df90c1e9debc10476b0f17dabb3ae150d731c20a321f5ad6d28213be4;
 0x28b90adb926df7693277ffd23ca737852a441517a8eca29eccd732b90dc0db56;
 0x104147d1f610150c79c7bcf61ef1eb1d1d620af87c49516a193790dc5cb1cd77;
 0x22704b0eea545e93d8567947f5736159b8c7559da9346851ef034943a9f64ea8;
 0x12cf13867e1f4c665d952955497197af8211929750dd706a6a65dc654b99e8c;
 0x2640c797ab409cc3b3ee21869418ced6c6aa32c8d96b9a3da85c99d8a2bc9501;
 0x123e01798d0948749ff8ed24a732705e44162826c2c7d28025da133ec358b822;
 0x22f5988c47c36f454fc5c2f982b854b4f4f64ac69db58a7820b10ed05a1c1b7b;
 0xd71a0b148c465727aec89bdc6601b3bf341159e0eb92672fd2cd29670509550;
 0x9c4450c0fab5b77b7feddc8f4c50031a113df973d3dbff0101564f4dda5eb64;
 0x216909b9a7ec927ff4be81f45f34004b80de648dccb64e956e689755c1d08c9c;
 0x1a676535420e170fdcc7784668b421502d69e5955992d13133f9f53829fbfc74;
 0x2f45e803db63d86ba61b8ed3af38c48a00d0ce69c1507e85647022d6f39ee208;
 0x3cf89993c4654efb4b1e804dc5abb423ff507f7abc65cc8d1a660671264a2a4;
 0x2eb840961ae22d47e776bf9f78d8f09786652eb99782097010e10fcdfdeb9ee3;
 0x13b3fcc3c156042dd30d9c935a465c52827dba78cde25cc87a436845a38cc1da;
 0x2ac2949357bcdc53d8a234e1954aa94813a0825a9308ee3659d5d386b2f10e59;
 0xe15460bf314de3c67d868973288483bc62926bcbd2e7042ea807888f7d9c19b;
 0x11c767a3163182d5eeb2ae857a5b3010395f9640b440f75a9b859c30ab1800cc;
 0xde4b8312d23ffa47cccedc65de54ccdf9596a2c26a8177b78890f9a0000f1ab;
 0x2b6fd7bc3a3b595c206c43daac752b765a12255c37ab51ae183933737a8b8099;
 0x22a306748bbb7276a025b998d053c75dae5fa78e31d6457189abc977665065d7;
 0x11e89b2f5a9f708391bf115992b295c5df50eb4793379139749cd3718dee76c3;
 0x170d1801e156ba73911ab491c46bfed177c6cbec44bda6573298cfd6e925324e;
 0x99425a344bd24801fd74847ee7524054b2c0be72a58c42928008d7163340593;
 0xcb13076d62a1cceafc495baefa2cb03ddbf7bac1a8b24afbf0a84236a1fc1ed;
 0x105cd167cbc2994138f2492a42e39c90c71fa1112160c2c3cb86f4a3dc6f36f5;
 0x2fe235ad0ae252a09231abadf1884793e1479f8953587d08f0fd843c73cee60d;
 0x27b02875c28bfc1217490eaea552ce39441e6348a660a8dff460564b37002abf;
 0x1a48ee09ed16a03c4fe2c433bf85bdf4ae6ceaec8706c97bff764912bda1dcde;
 0x175b14cc4245b469dbffa6970992a1bfd6c61deab13c5dab26b1481b9e616fbb;
 0xd46b0974195aad4698bfd176ee33fcd84a725be4c13009c15d2d00fdc176a16;
 0x1aadcefcb3f21adf4b25dc908e1faabcbad408c2b2cc24ca5a35e5649c787361;
 0xee80d214b808612daf959f09c2314312cfd09a7050243e69cd993c351f865db;
 0x2b92ed72f750583d1091332acc37a8c11ff616ac98ced2e2ab47e2650b783ec3;
 0x7bb6c047a0ab37343ed2a2d1809345f72ee0921b06685f6356dca855053699d;
 0xb27c5c1f4f08810c4c71b00309204a5ea1602065f18c7c9568a073630551272;
 0x10eb21636ad3cc5b882f8eef50b164f5c0f05e3a45245b1f4517b3ba19693feb;
 0x139afa8d7c7016d8b50351f05260a2f1661a7be1166add0f281fee3a5fa57c22;
 0x10a8316597468b2f19a7ede834ff7ba4745e614ddcf43a373a5afebc45849d74;
 0xe7bc88dca5e934a90b30c06fc33c46eb88311db5ffd138d2cdb2376bcaf4ce1;
 0x1ed3520f1f7eb308510f20f8ad87099d28c26165a9deb3338c76fbc7b140b4e7;
 0xa5b057fe093ed51de90edec1f4fc54c24614c3540f8d36af16022affde42d34;
 0xfe1a3def2a011ba748f9b9f263e88aa32335ffb2e9857bb3a2e0a1d14edbc3f;
 0x1f6abc03a0caba9732b313a2bc3ee30d379088b772c6ed9e3d9d3cca471c249c;
 0x32cc35f494c7b826ddc1bb185d14421decdc35c89c4353e13838ec0de0e777a;
 0x3526b4fb75965e49be0d73d43e706e756d84f80db93afde6863cc49b017f199;
 0x19033bc3c4271ab5bafbeef999077c33386c044f05405600b0cf174fad12b8e2;
 0x17775184817378f639fcc8dbd97df0e13baccbd90c83f0b4807ae9a486bc0d4d;
 0xa9e1c95520650bb3f61a8fb1733069fb5eb759593c989c7c8c91cfa6108c3dc;
 0x5261006343d0f17ec876854ec7d41315565a07796e7c1735825e9dd2bf16e39;
 0x2b6fd7bc3a3b595c206c43daac752b765a12255c37ab51ae183933737a8b8099;
 0x2fd7377f9006f870d0c079c8b10b62647b7c76cb481b2a330113cc7507effd1;
 0x1aa6d67de3f86bd58f04498f5e71270a58c7ecc20d81891ec7bcc29d92c84447;
 0x267b52a174ac8e9d118dd2d021043961fe9686c7156c324bfef84286a70a20c8;
 0x7131b4b73af0697a2a744e3483a653379f9a6f66e05821b9d12aa2b8fc7f52f;
 0x678652eac3805c1636bb62390323860ddaf6f1ebe10b167a39b975cdd89bb54;
 0x15209b10675cab6f50d0496771117e050ce5120126d241672e991c2dcc0cd1a2;
 0x1a1977bf61184ad35c53ebfdb3af41776eab03b2db826652e35ad3a12f745bd6;
 0x229644c842f9907a93becb162b12af3144a7c7f25d064d457db70e9c9cd9c099;
 0x17ed9abfbc0e4103e9e4ce7d1fcc95f2a8a0f8adde891b55e424f76a93f7a915;
 0x2104040d07bc2a79abc7fe60e6d2bd8ce79b937d7772ecae4e21cd38cef7f792;
 0x29b17696048b7c8b2805e7f2adb86cc14a6c54577d4d4b741c844203812cc98c;
 0x155b7c97543d530c1784eb12a8c8e9594d423dc45a5a93a6e2ab2aa25210f1b1;
 0x2d95cba17ff1a2f3ccb165e7009314c54d1f5d2ea514c54382ec918f0d18822;
 0xa9d8db94925ee88c53578d0312159ba4568c4c35b2160748f7dafcc99c966fd;
 0xb6f19b020cbf0eb74ccdceb22d7ae4730f72db5fff4462bd39941cb0bb2298b;
 0x2f709aa70fb82604e6614b07127fead0d6c889f96277da8085f886a592d8233f;
 0xc05d5e71c8ff96a669190965b0d7aed88d1c5df73b70de1783986bf8851507c;
 0x8facf13f8dc731b2f216581d4b35f10f3d54b6c41457fd83347417cc9a4dbd0;
 0x1bb219a4559f69a5e3ca3241a56ba26e36c86955feac34676c2d13a671f470ee;
 0x32054ccbfd7840e0fefec1ccafe4b21091c2b9262c0337b269d7bdeffbd615;
 0xad0e2165ff04113883d2e76bc8d519702644c1e938b80c614ef85b966c7ea95;
 0x5d0cd6f76ce14c2cc307b211409329b29fe0e80742c329b6468d4cb6c4f8938;
 0x2ac21c0635d3d249610b57d8312443a9c30fe4f353e75d7503d4cc646c7cc2f9;
 0x2c98f53ad12c6d2f2c1f4ae0922f10c9319cee3b55e1720799c16fa36c65af2c;
 0x1fafe9cdd001c028a8c9895b9075a18f93f8ad25632312000154e1b07d6cbafc;
 0x1c66e585cd1c5651a3b651ceba4e33bd7954af808b69f4e8171a58339b6754ae;
 0x2b8004d7066672e9c51b5efb0810da89bdc481658149d974641e43a8e6150512;
 0xf19a8fe86ec9c9146083520d9bd83bad613879a0e422c27e09cbae6558315cc;
 0x12199adee14b8fef20070207a6ebfa77f4f9202df37972a31e11cab9c622a3c6;
 0xf34bbf250e5eea168f1772d93ab7f53e1dc570c706dc9818639f0181174d8f5;
 0x2b6fd7bc3a3b595c206c43daac752b765a12255c37ab51ae183933737a8b8099;
 0xb2878f79547242381f83f53d71b4a5bb50ae79bac3b09690c2ec04c27952831;
 0x1636796259d819596441f2418e0c425ccfbfe67fb7b497c4361122748225fff;
 0x230101fb2086c3e4dbb4e19b17dcc891db81d3eef3b5c031b2b1429e46fb956d;
 0x2033e660632e0b2e8411b43b8b0fc9d23ba811a64aa846b0882516d954738316;
 0x244564f0c62510a5e6f69a1a8fe77d6bc22ec9989b0f97dc4113a2fddcf2fd3e;
 0xea22aab739936a78b3b85cf512de08c6ea303f53fb69e073d2da9b94d60ebca;
 0x701868cfc18808ef3f8196bdb7bf2a8aee96cd85d269db60a4cd5a1ff9b2e88;
 0x904cf11c0b58e3fe3aa7d70d8e365f6f20424f7cda13492c3a1089c3e209378;
 0x1d5930f08045de1418cfeab3a30c08015f77a7a19aba209b992fdae1837e01fe;
 0x13d07ccbe92ac9848da4c5651b692c3b298bdd002c76c1673e39b0c56c92cc4c;
 0x29fabafec859d0eaea7b49a815141e2d5e826c1bcf4fe2e2c4d80d0d9026a9e;
 0x1af5ab322e026a1b28a1dc06cba8585550db1bbfd3ee2355d8dd1c7d413126;
 0xc60f6e36113ce5d3b8824f68a33bce77f8a963eb0ac4208a35c0fec601a813f;
 0x17ac4c1dc0678e3afeeef3a11fabd3d699456839342277c4b6a57256a94cd1bf;
 0x18d140a27d4a76d1daace46e5201c2057b4e1353e6e6a90d250798e59b055209;
 0xf1336ac56c60c4bc9e27765f43bbc4a25830e514126dedcf518f1f501cab662;
 0x240e3c3a7dece37a8e4674ca411513bc5b2ef205d6afef56978ecdaa310a5fc6;
 0xc1f16c8ee024584c6e5243038d7324bd631263e4036e9df5422f78c8b01c9ca;
 0x236b70f7b76e6f16b6f4d08f6c6755776bbbf2beef38ed9f187294607fba3e4d;
 0x2fae92d9a4260c0eb67b8b5c535ef6f43913e506e546b3a1f217ecac1eb0ee5e;
 0x1e69a926148d04785f08760176dba2be1ee5b4ea19bd09135d5b68e7572cd1c;
 0x2a96f11408f216c5ade40371fac2bd452a578ec23bd220897aa3372513bc4530;
 0x1522e73fa41cc4c23e9ac6a6df46dc33e6921b802be72ccaeb06de4736cfe988;
 0x6d2c787e7b336c0556293aa8a6bcf7d31be6d8b6d4a644ce77b313bee3cdd01;
 0x1f80057bec504946a3e8d5e8d31412d2fb6461b5f174974017f2798fff57c306;
 0x139e43308691da278944e95e910ff3c4903e2faac75a6533e7f1fcf0dc8985ab;
 0x2958715623868ba98fd982a092a9eb18fd0f2cc9d3ad44d03970b8c2361ed38d;
 0x3d037c068aefcaf62bf84b4fe75a8a46a5d85d63b659278b049508fd31d673c;
 0x25f8654c412e7d630f046c138dfc4c18332573d9f2cdde26683fb472fc8b2edf;
 0x1874b9d07a26cf2fb8c65b8d47c6647008b42804af1e7ceb2c7ee466a2b5807;
 0x2b6fd7bc3a3b595c206c43daac752b765a12255c37ab51ae183933737a8b8099;
 0x22b74f8ab6acc3f3ef0d9352aad479f2db3f5171684734ec6d18c69cfe0b14cd;
 0x28ddd3e0a84efcc63090346d5c5c0b9f7a6b8a20abd001e8ad01328ac5ff90b2;
 0x21ba1ee2990e2ba981f6e7e97f1aa879eda6e3e4a7f192be055d07d2332aac26;
 0x8923f775145f7243003eb5089160d2e0b4be6b68e77211d796e567b026e92db;
 0x2168e1158db076bd2c7503d8d78759b741f3d09e8c2863f1bbf77eb8a52f2bd5;
 0x2d91a6046ee638587087f34f8f3a45543e5a12e80db1462121d37f3d2f574ca4;
 0x19a362b36092714b50b86238ca35b3e9106efe2f1cf4a8f091a687cb71344a16;
 0x93ab3a1ec4ad5be6235fb805314d7e9f07ad5aafb214ceae7ebdcf81db72fd0;
 0x1e6f239f1cd9a373e4b8a283c86c7dd710a5aeb00a35338dabcd80e14079828e;
 0xf8b272d893f2288be54151a7c6e3e3e274b96a395616976d267ba31d59c0bac;
 0x22073c45cb975312538a8a8bed28c0a2858793e1e2a234d5fd8a6ebbf8098fad;
 0x5a2cdf46b89919b93bff18da44a4cf470a0de6b9bda0ed97d9ef3085678c9a2;
 0xb91b6af7828f5e23b06d2ec84a5acc0f6f670e64146bf82dba2cd09d8b9b160;
 0x26919b3ee33e46e95680cc8c216d561996b65915418a84d7b3d7bc0d29e3e56d;
 0x1615d651e47167b1ee9c70737c1376972ce475a1c66fd778ff5591b2e4e92017;
 0x1db6ba6e18012adf2f43482f224541dc5b5ffd5522f9336449fcfed6fdede339;
 0x157aee78ba392137b06bd8104872ec13558753788e044d38644249dde49b63f4;
 0x1bec3f9426534d61ef5ce8b40e3d9199d929a295c4b2e5768033fa7ba51f628f;
 0x1cc2614a3be0eef53905687b6d666d957c6f47b4f340d59106fc5add588b1272;
 0x17cc5ecfa4bcb4d4138bad0db4d25b8bdd921969465ce40c3783190855c0f9b6;
 0x2b71f219cdc5fca5c1ba861f3bcb51aa08fdfec6c8600ea26ea3f433090d9ec7;
 0x209098b02905832cc62767fa60e37a962c4cb7e51b23b6510389b56c510d3a61;
 0x22202b42235a0de23ef43301055066d26d87d0ac4ebfb8d4391b05fdcab190bc;
 0x27067a1a9cfa43df1faa7904359cebd06abc41ef694c89954ad076e296bc77f3;
 0x1dda2ec6fd0f92a515b4b9f0b80aa68260fd6570fe28c35acd8da5233c655c9e;
 0x20fcbe551e628d29e3625c948d92057dfb16a486be9fd88ffe308b886a7f3f5a;
 0x102b63b63b6594dba0d9502841aaa0bdf0d2aad08d25135f1090f0ed94cadf5c;
 0x2665d2b3b1f4711b362b28c1581c139aacf681f189d29cccde608c7f44dac4f7;
 0x2534e0a770bb00179e6f7621d96dab342ff960d361c91adb0f8faea486693df0;
 0x132de3965797959cbfaf61a239c5f09e1672d3b6387a1e34a53214e9d15c8201;
 0x2b6fd7bc3a3b595c206c43daac752b765a12255c37ab51ae183933737a8b8099;
 0x1b6466ab641f7f30eb2dca03dedb89080833b2bce7b84b6a7b1eefd30677d2d8;
 0x690dec480f914c6f77ace87a47b0857ac7fdde73463e4b2445d4656c53653ee;
 0x65e0d65c2a3e1786c2bbfbf47102e427e9e31d2218112a86d821496a316d68b;
 0x2b5b1af812cfb77b30b821bdb2614c5f09aa73eefa9f6a48bf3eb146148b010c;
 0x260f7a81271cbfdc27a85f146221b30fa12e9ffba21d654a371bca4455a37bb4;
 0x2a2b6602a481c04475dacea41b360af3926cfcd4627112a8ed4192f213a823cd;
 0x11439386af5e26221df0905abda34142ce69f66151192d0143dbfddf3aeaaed8;
 0x230508e632c716e903e22a44c6002c2d39b1a0ee072bff9cd0901b3c4801e69e;
 0x23ce4e18ef472ed4e4aeb0dca528f14fb7301c6691d43e9632a65f1ec4e7bc7f;
 0x237dd8e70aa173bed421d4d488c4326af456322620483fe1a393066187a7cc08;
 0x24b0ab054d180e17971795754e027a756bc1f68ecf9cdc8b92b30b4af2c078d3;
 0xbaa7bef4cb2a2cbd1b33f9501ad22e365526a100273b8ef1a39152d779bdecf;
 0x1fb9b3569c3be925e480fd102a3432ceecdb59d346486b99d22284165df08262;
 0xed3418179e711b0a2d9bb44fdd0ff0c82741b531058111031cd123f508fc7a0;
 0x2e92aa6007576a4f815c645abb2e9ee10fe75baa5e13ab2a0b0aa700e084f071;
 0x2557fee713e3ed365d7fc7c6c07f113506d48dccb98510d84457b6d61c9a448f;
 0xeaee37321492b0595cc477585c9fe9573da00ad1619c7409ee76c625c11d447;
 0x1b9c9d4230433a193f315fab4f8cb8a7f4b0946f6241dbb2e858f3cec6c33f85;
 0x35b1d3045381d5053d0c329ef11458315d69335cd2371fecfefc8a2149a8583;
 0x2a0bf648759293e205b62ef858612f4e54cfa78dcf1fda84715cdde20acf4978;
 0x2d1f77f7bb34c7adcaac3e88bf34cc32e7aebb82e1dfec3491ed439c6b71c4a;
 0x63218d076827fb18e8fd4c14755443dcc3cbfa5bedb57a8aa1ed4b1a69b5261;
 0x2808b917c9417f47e1893c4a5b0053c64a054319988e721b42713d4abc351024;
 0x4c1b265648f11a5ed40c135675170ff486f6db120056d2b43e476bcda4e0876;
 0x1c9625a781c3530ecf4d532c0f1876e8281a454abdc914f34dec624dad8276c6;
 0xd9c2ef763966292a4585c0d7b4a1256c7b4687b8c19aefe0f2c5afdb8cb1093;
 0x11bacbb8c80b3caddc7be415c49d19c8207467eca352d2d65b3c950df899cf78;
 0x2f38ca64de487d59b0332f142c0cc9ee408f947e17bdf1ba7fe217cd50e3b088;
 0xa5b42f7d3ef308c007e91ad0b859f46582ca96b8a3fc12c6964b4e3ae230bc1;
 0xca6578515e51c2c7da9e898fa1541a6e93bea88ed529e5c1f411141884743cd;
 0x2b6fd7bc3a3b595c206c43daac752b765a12255c37ab51ae183933737a8b8099;
 0x986957cb19cc10c36db88648feeeffc017bc7f344eca7e278313887c521b66e;
 0x2df451c36b1789c3b2a6719818a62d1d40597c6c2881225d9bcc95fd6d090f50;
 0x2bae223a93b08d3115a949252d906887fbbb2988c127c1e2668c55a00ef22483;
 0x5bebef52bb08431bbb9e92d219b4a0b2fe15e2f4346d0e837664369aefc1803;
 0x18842bff3ff8988d29a3737afc113f6bfb80c08d5a2cd06473baced406d3e2ad;
 0x2f78a8fabd2e97700ab4a2f2b5773ee348cbb2ee491bf33a5671c10e6326be6;
 0x8b3f1bcdba14103876b7f57f60d08ee3aaf9ea25f5495680a0c11876117feb5;
 0xe536221242a02f1c78e6c59133ed1768bb7c5805ad1a3e59066ad23dc8ad422;
 0x2d906eeeb9d7ed09f7fc504db42dfa79bdf74d094eab5d29fd91e70be78b472e;
 0x25ffc50d32b7badc1066a06268cdfe0a329957c10b2c448cfca1ff6ab6e0451;
 0xe77d99818d5d95b153667917050e800f778a07b2520e0cb2a8d9f3946a59bf3;
 0x2434b0943c80797cc13905ed7ee35a700a61bf601c7c3dfe20bd7fa3a62d0dd1;
 0x15f77d11fb4fc7c16e4a6670614d85b6eb833f0c96c9ef96dcc861bfbe2e1c8d;
 0x2e1db5f958cefae9e831f4d55d6c883847a2eb9f1b8ea404c6131e9cffcae8a4;
 0x205947544c2d5c9d1157bc26697d8e3c1949786e6210ab9deca2092dc55d4498;
 0xb9ba62195d29f54053e5fadce4e75e7323915fb2d047f61593c0cfe351c406;
 0x233eee9f5e744bce4d408b2c0fcd051285199f5e876fa3c6f6c99a289db64542;
 0x1818a3f0d1552f34caa7dc40defbb1ed62072bad77ff5a8221fe1bbc655e7dda;
 0xa8c36ed2f64ff121cceccda4d723afc80e17c1ed150d4d4afd9618a9be52fbd;
 0x2bbaffb37541a9f521ee370836ae3b6f0555f49b0569032f848e15e5d054054f;
 0x2dce53865aec616cfd8143aaff05c7bfbb728a48f2b81bc68eed629ffd6537f6;
 0x26a4a63df26dbff991a0fea4b9d00094354de33aea2f04f04312250deaf202dd;
 0x47dae867b6ada4550e18f2443c44281584a9b07e9104ab3790d65d0bfc2e15b;
 0x18672943f827e2833a8d9db988296aa281cac88816b11ea2ce6fc5ebff8566ee;
 0x1979353fb46d8cdf3b518ffe145af6a533b9ebfb990582fb36f31085546556a4;
 0x1b394c0b4ff11b67a1591f7d190c74f15bd83812ab056d7ba186998adfb5fbd2;
 0x2213fbfedeb46fb9bab30d5bbf854cd2945a30d1115a3e2cad6b771bf53a9c45;
 0x3045a6b98fe71341427e894e351402342da59067fc44b8a1e321de8b75b5384b;
 0x1e560b922f410efbc72ab3137afc2b4bb9d6d11e3d78ebc0c1ef970b8510b0db;
 0x793ace2e045d6dce7eb0c50bc654785c69eea92a5ff129ffe2b8224a4e66987;
 0x2b6fd7bc3a3b595c206c43daac752b765a12255c37ab51ae183933737a8b8099;
 0x515c94018effb2fc24a7bb89b1a1055a274cce74cd1bb4fa3751331c55a830;
 0x228884947d2d1caacad64b4538521498e6a377f1f531c032a41e8c5999ce7fd5;
 0x2d7bb807c37a5dba31490c8996097552a930e55198a0c8f787cab498e4adf8c;
 0x15f5cb124b0a18bde04db081df667eb90d722fe38420c7a6a2340dd57823d4ef;
 0x2fdb6f2f83a138c09aaf67a5b7f4f2d21f9fb72def9246f8350b3d50fdcff090;
 0xdcf875be3c34cf38d62be56fe936e1f76d10f01c9acb657e4dfec02f98c84c;
 0x2f2bf29d6b7637980d02644b98030297e4ee87d51476bfe02e430700993b4e3;
 0x121dd63b185a3fbbf1e26721e1dc9207ba6ce83246856c780f1ff3f457925f1b;
 0x20e79bcfbc14855f607ffe7efdc0408b2366241ee80d388f58fc83f1140b4fc3;
 0x153dc31be4cd79fbc0f1757612c6316f994560d88ba2a0936aadabe71d3ab4fd;
 0x13804b12bdb77d63ef5f9807e60e1896a5212e1ce314a52f1e65cd6051545ae4;
 0xb6cecf0b015284998ff23c23a7c003629f8ee8f8e52d85ef6af13147fb8bb22;
 0x267f992fb1c5fd7a2adea64c4789617a205686c01f9743e29c3a36910902f83d;
 0x7c739e819b23013c6b2bba0db1f914573d0be98da778fcde3c44a82e8db6a76;
 0x15da652416fc44056205298e4837860a96e1accf42af4ddb4b6eec42fbd303a;
 0x1c33739471d1bd4fc613afe1e38b71ff3562acde29dc58bf6cabf73a192b372a;
 0xedf8c7db59823fb1f76cc67e0e3ebf8de8dd7cbe69ec468515a5f5511c8c1f5;
 0x8334b72ea2d0d35ab3dfac4f2696b0d980b65d6e0ec61fe2724c896bd3f517a;
 0xf4329ad37ea22a16517b9b1e6d38afdc75a8398df9b9a32aa2f8f2c3346e289;
 0x1f8d3e31cde1c2b3564ec9b8acb6d3dc56b946fd1ea3cc6067f04515fe80c352;
 0x94a21c0489acb58fc118cde1013f08105058d9e97d6a780ed30705c0e54a838;
 0x133b634d187f62fd2ef6d63daee9d3427ac1c9e215749786a2e17cbabda7dab4;
 0x18e1b03bf875c00f97c2d24bf7daca95935d8b176bc767f5659379937658f599;
 0x18242ad22da674a26206f354d85be06760137fa512cc7f30a5e38737854159a0;
 0x294268b5fe2beaa0c99688e9a9e4f7ceab6a87dd42bb950a25022247c790bb6b;
 0x1f13839b65eda77875e30eae082527d8b68a45094e0c63295a7130b78ee8ddf0;
 0x2baa1faf25902d89902124eda3986279278cc6007b1f7b0f193732e5527fc69e;
 0x265cf033142c6d433d701a040d8f9f35c15475a6c7ea5875d74927d37e3a6968;
 0x1c4eddd1412f02358286bf07dff4ab2e90e5adf051ff5adc369e93c3fb78cfe6;
 0x2fb924230c90e26ac6d37357a6df214f13c24c73725995873df37da56f7a3e77;
 0x2b6fd7bc3a3b595c206c43daac752b765a12255c37ab51ae183933737a8b8099;
 0x19e494853af32baea08fcd358d25c37baa7b42e14a74e62773713083679489b1;
 0x24663e25937795d723aba2f413377e470b84418061ccbf2e7ab06545d4f69b15;
 0x28194cd3daa20ca6ae03a8dc12cc30cab003f2a1b784c9b64436a984862ad41a;
 0x3004d9469414f0a772c99f896e7f27c8d08abf0dc7e30feb91b51820e4591fc;
 0x4a90138ae63af6d831112c04dce879f943302f37a462f0c84b4f4b543737a2;
 0x16328fe8bc9d3c883accdd09cf2861ff33f072bc58cfe580113864913a5820b4;
 0x255342bb3760148dc048617882768a4d198230da53b4ddf87e5178ff4832f301;
 0xa494240f29dc89a98ec7fd0f8a70c3e82fc12d2894d92b36c5e472b51cec0c1;
 0x26d9764b65cb6775899164e5bb179aeafcaa7c262861bf582c5d6419f86946da;
 0xdc64acc51842f225a439b650e5eb3266d2ab80e7ac705ccad646770a338ea77;
 0x42d122c394166798b946f03da9b3e06fd5ba1fdbba49d3cfc9ece8244426044;
 0x20715b9135e15fd039a728fe347d6825e7cbadca0c792e2755921003b7cf9cee;
 0xb8465af4ffc725e0d9d50079c16f1a5a7d8df1fc7067728535b10e19cc70e32;
 0x1b3fe32fdaf4a4c9b5186604fb4746695561720c1a7886751635b2a416b4e37f;
 0x1ae2fdac7b7d0b3c4739dd9eb27377b3bad124823940e12d0bcb1177c96e0788;
 0x1e6b8f955ed56d144d1650f250bb0f8a8da2b631d38d75e6bca34a687eb96a5e;
 0x262dc534f682c8f874d877df14acf8ed7dc65a6e42198570d15f49520745c708;
 0xf9a4f0271d5c6aa02c42053a8d2b1fd8179a35cadd4f16299cc0037b0b16d6c;
 0x6f078c71788acce7f48fcd7271d85077c50ffa7a82ff67d81a10ddaf70d9301;
 0x2416d74e36b42dd5519bd3a03935b57120b33c05265a40cc15fa0b36e695185d;
 0x19efbe964add94b60109cf8e6795b8afb31ece021bd1e99e06a39b868ba5da18;
 0x217825dcb0fb4a2debd0856679d5f138bc28083b0583bcdd2fedd8226d71ea20;
 0x29ed9e1b8a1e7d0c5dc4e51ea5f277614970693b65758673625a6b81e0ea6305;
 0x8e7139bcf5e35d8c2826234a00c56696400cff2b012a94a6eddd3d1ea94e4bf;
 0x23b45cb4566041748ed409f32aaf3b7d59ec85f8ad75bdf008a733d500a24f7;
 0x59e1a9cc4208e8f4adc17e95a8dd0a0e0824aa4671a24075116ef1cd29ab280;
 0x1084b6a7bdcc2947835bb7f017c5fa4a018dae7a14db23c1f44e821a65434e3;
 0xae92ed115475902606d7f3e699d95659acb152108c586a30a912750ed18b0d2;
 0x11540ba858d368852b75bd5e3d31e289a182f3068ed6c2654ed4c92e9d4a9a12;
 0x219ad9e087618d15eae3780c3b2fbbbcb68667bbedb9d51490a04e4a2986b734;
 0x2b6fd7bc3a3b595c206c43daac752b765a12255c37ab51ae183933737a8b8099;
 0x1af405bd496121de8bf68db182c52f8dcd863e5e9d0d07c332702c652f103155;
 0xfb5adb4f2ddee2c786bbd630e10b6af21566e13887264d2627e965b8a7657c0;
 0x5735d0a20981c3443c26321ce6aaeb22867087fb482f3fc52564231fe1fbfa1;
 0xd5f25ea7cd06c95915cabc11f61a2a640b5109771238b53526673bf353d8efa;
 0x276d9d19b50cc160870806a1622acf7cf1df7a5c0afeec2dd77a0962acf14cb1;
 0x2d52da76429ebef4234a94a2cf6a41afd471193888b6fdf668885a0c578d3c03;
 0x24f84ab4d1acc7cc1b4f842e502865a26591447b8bf24439782e17e032b6f535;
 0x21069f3feb18a6d2025501270c070b1bae6035caaa50bc68b6b402a909dca262;
 0x1430dd6ac598deab9432e5227ff5fa9da4994f08ea28a781f9fdae630aef746;
 0x6fc0f56ea9867dcc10385217771bae7c1901deb59d89d694a14fdad07ef7456;
 0x2ae95e39f51c7935a52f31d1e92c2fa1e2a2a43ecfff3849368a226bdf1067cc;
 0x2b53d9abe894c47db9a2e81ddc1ea0cfeea5ca257e8c0ae61d4c9db5d8a918f2;
 0x18dd0925e43f821fb7c3c9a72e5d409c13e5c42f35b1268e9b36685ab6c60a84;
 0xff74b6d96a8d00bb97508280e98c10a1eff834b46b15f474b9f4fe50174233a;
 0x18bfa382970f3598061f30c5c18b3e71105a5145ca3e6dd21f779395872e3616;
 0x1dee9f00f2b7548ffa9cc5a39edace63c461c528a7bba8a17f59b7df6e247b99;
 0x12c5810e9946497e1b6f928182d8511851683ecf234de99c649bcb3dbb8f1e76;
 0xe5953881e72ff398e4c34b50c3d66fd073fe79073f7ebd593fefdcc7bc4fe32;
 0xd25061d2528dd5351e4e8367c96fe57446429956594b2f752783f06251e1ddb;
 0xcd02124b62741431f4baa64fd8a759db1fe86465b36f26e7e91ada1a370e031;
 0x2d524e2c0a167d163be6863fb345539da3a8fceb3db496b765ea2fd7c4fedfaf;
 0x9f6ef3fd9b8eb4dd5cf6393f681db544e7339f6a129f9bf8e380041e0a43cd2;
 0x28bf2b88d392ba9823e2db09d12cda5a103b6e2f581a9a3abb8ce25c5d93476c;
 0x209e08cbdf5562b051300a64f3cba7d75c25e5032a2cd5331e6cc386db38c373;
 0xe18e80edd86792ddd92cee432ee33b15fc5102cde0ace9f8f7c9fa0663d51c5;
 0x27bd8795292bc68b6a8e0ff451cef39f92f7af2d407c1cfcf60297100a9c4841;
 0x87d2427a36da27e525bb1956015bb2e0811c037a0cc272f230cc4f18a756a13;
 0x5e017f8cba3d41aff70fd421eddd63f464254d65c086e7f5f07981790ffffd9;
 0x2eacb959ae5429d219c66b722feea009060a093d33df0cdf225553a0dfc8e7c8;
 0x27a8c07ea74055992c66e0003c03b07c090d30d45b940d303e51212a974f05b1;
 0x2b6fd7bc3a3b595c206c43daac752b765a12255c37ab51ae183933737a8b8099;
 0x25b72e38946d8c146ee356367981e74d001803430d4ae023d08a9c68ce8fd58f;
 0x29d3d7fe8af458f8f444fc49c4cbb3fde970d6edf8ebd7bd3d067d45994075ed;
 0xdc25ac6f52dfc613dae0197322a98c7700cf04dd9d1627c90076bf2384b32d1;
 0xaf71c0bd1542973007bff10dfac94ee18f5da9221d3d6fbe04078971e3b80c0;
 0x1406d8cf97827b7d25ce71e62d17eff80c493bb0e1f2a6b951723431dde17c18;
 0xa177d75332f2aad209c9eef8004879afd6acd5ce56db116f834053ab51296cd;
 0x1e42feea60f7d4987938dd58bc9b53d4b5ae4f8ee14b2ad58d723c7c86c130d2;
 0x2c5921fa4ccd767fd2533f308d1c18c63cfdc3f7d8e10b217fccbeee2aca0ec7;
 0xac4e3d803a6c602ba6fc373c31988c294649478134d462772dbb91e40c56595;
 0x68fb1f094571ace723b59d1a0595cdbd2631d93806a5f5c758ce986289ecd0;
 0xf5a472661affd8730cefc698d6688fbca3ba07b12637beb8f0722f2f5e8c8d;
 0x2ed5af998e49f3d9c92a5badae4eb43a516b1ad840cc01d11c8a441786316c60;
 0x9929a608a5256575d7c287db82aacdf5381830b9e18b23ebdfa2adcfb46dbd9;
 0x26639e520710e998ed40fb1369c7cb039bdbe0e2e5778055072c8a5466ff9baf;
 0x2b3225c35a88f757d4c773363b825191df51b0e1cd4082541d382aff5f7b3f3b;
 0x1c1a368cc023f9aee70e3e53341a06e8095022c5413ff1de4286363b4e1b99b;
 0x1b39049a6f7088294202da65d65bb190d44745fb93f4073a00d473d38fc37392;
 0x2b966bc8a897d76c04f943c5a7aef551f3c6040d0586eebe1f4989a0248ad79f;
 0x67a2085143ae9a245bc66bd3374eea946135f565cc0efdb6358a3ccde5b6c6a;
 0x27c3ead3d76039b10f3bfe13f32df2823fb8ca146d9aa6b14d8cea182aa76bbc;
 0x13ae8e66bda5f40ad3ce0e83305176d5e73b03f2950d5dd78b1087651446f60;
 0x267e55ad34a8788497998b79193846c2822a266e8f60799978e66ffbe27018b2;
 0x1a964c5c4550c29516171a8a8766faa7159a1376a836d29809d5e901a584a686;
 0x216cce9e5b6062cd063ae93e53efdae64cf5479ae01d7549f8cc7e67a600d184;
 0x175109dd08b4de441ba589607706769fc506fdeddcf56ad57d0ec008fc3816c4;
 0x202ed46ac0e68827ffbab076167ceecbc7a9614234fd6621c6eeeb7283e439d0;
 0x2d265e49f35dc88b63abad32d14302d3555c221ae8eff1d3399a66959ee87e6;
 0x593f84a55c9e3af185e6e8e689981a9fbe1ab6282f393bf4ac2b77be21d91d6;
 0x2fc4427295d575a8fa93101a1b916e123f2652e7e9e94c364c4abae0a424334f;
 0xfd26a5a97c3cbdbec343e616c0d93f25d7c5eb827748114e4da61c017e25478;
 0x2b6fd7bc3a3b595c206c43daac752b765a12255c37ab51ae183933737a8b8099;
 0x163e039587ae8bed242103f972c58d7b3570846f3a9ed3b6f65ca9935e0599e6;
 0x17b8c9347540a0cf46955fe40c29fe36680969a074eb4e1b7c40ce0c543df4ff;
 0x28939f23d63d09adbd1dd196dfd73eb65ffe2fba07a79e2049a8453c7caded55;
 0x22f4246a101673a3d58ce953a3740bf807f25fed08cebf1c124565310b10caa1;
 0x1335c6f50549b22023d2a973807c510d8c1b7e228e8629c35b7ea3a701ed0277;
 0x5cc88a2ab03f9f720d841583cc8387313503e804be95d3311a64d0cc3cce9c6;
 0x2000d4715746fa36d8abf22861719b23aaecfcdadcbe71d567b1bece77601904;
 0x3c2c00765201729fef4cb1ae8cef326a7de4f3fd5803521e715257f8b392e80;
 0xc5affc61d51001d7b0d8aaa6f99d44cc683af806ea1ea1d241ce56f386b5462;
 0x153a431981ad712ae13b7530797e5b2ab77c125bcf530880ac8566ad3a5ac417;
 0xd2047081d9a8fff7773d8011bbc0b61a6057fa6f9a1627a3cf321fdd666e8da;
 0x2eadef1fd011162138dfb0e0200683a3bc27e1ad12dbfb2b94b32203186e591a;
 0x21a05d0434000fb05886112242958d74bae54ed2b6f37ece00b0293322e53253;
 0x19732c8f836170ba403a0d379561bc5aa6eaecf21c4fb9fc26cd44bdeba475ea;
 0xff30532e9f7305c94c298848cf0d54dba01341a79da4db0f2a975c2e4380372;
 0x2afe8d3ea06405c8fcdab50d6d6e55b6faa676cd36e6acb87b3836581b06b46;
 0x2fd228d6e4c1a1acaeafc4597d69fa30e56282d8f11d4cbd09c360dccf546f80;
 0xc203a0ea25b7f9b4066daccb2928dcfb4d1cc0cd2d14671fab5a7928603c8;
 0x17ecb26056f6708cfa3aeb6274c3352d6bae402e4d2414526e4c2a2bc9b8e0b0;
 0x2b5745b27a5ba71c7afe5d1bf955c578d1ce3c915f4d30974f225f6f7bad7c8d;
 0x1a6eb6c48b529c6a0a166e53fa399fb68e8b414869b13ea713c1a0cab8480c23;
 0xac89d6b741aee6c180408d6006f130ed945185ee9a213dfe3c8baa49330ee36;
 0x86eca38e64cdf2e252134d79160d437d92537324cab25cd8698c5e92e94632f;
 0x2bbe2bc0467c7a4d9d1bf2157cd5cc3ee50f10166a0d442c706d9691ee60b8b0;
 0x22c4c3d27515f300d879e8bb85b0447341cb7a816d6fda516cdcf31386998d75;
 0x23e31259e8fdc69a23a603b4e5b47a90390966aafbb1f4eaf02f783219acd1b;
 0x20c0c0f899d24401bf7084d6d0be314dbb3ec267f87a2e8d3769a1f64b469a81;
 0x2daba47175558a5930490cadff1f3deaf100589f676649a3a2fb1dbd9bcfd3c0;
 0x1e759b766aa310dc7aba2245608ecaaf4fb90f509cdab694155b47e768af3417;
 0x135aafeb5b230e030273e42ba704da43085d0ef96408ea8323e7be8b546643c;
 0x2b6fd7bc3a3b595c206c43daac752b765a12255c37ab51ae183933737a8b8099;
 0x2ca2e70a3d8145f60160984452b26220f303eaf6bf539c8055fe2ab037a64883;
 0xb25881ede6015137cdf99b53a8591aa6e0c042a5a8c6a9e6fbcd11a37023cf3;
 0x258b19d1bac9e53c3c5cc4c59c87543b0e9b33a5e631fdda56298997a5781a7a;
 0xd6e7177ca87aa3326c9420369803583d1a1d8d96adc6acc33a3e58cdd3587d9;
 0x23cbecf6d9fd7bdc4c426035908bdeef9c9c7a801667ff2b62e8ead282bbcab1;
 0x2841e2ca97eb7de3733f8a6d3299c6038e8b17f9d133ed12efb4dc6d923d804f;
 0x2bf228ab9b7490f4b0ce01cbf31bed2ee4a6ddc6d5a00a608ef1c7ebcb5a203a;
 0x22eb1fde7a1c175f0c152d5f7f85045961d2b01397db24d9de95ff0507627f0e;
 0x100932572c12a0bd1f2ee8c6b0af317dc5191c3bc2a177eee791d6e539e5b237;
 0x27e881557b4ec0f1128ef0069c22a6e5ce4fe48f7bc9d9789c48d6948bc24c85;
 0x25862853fd1b44c6aa26a414ab4f295aaae0fe4457e0fa0c4bc5dc9fc2972246;
 0x3947c7ab7d714f1f8d4503829e2edcd06baa8ba87d5b86354bd7254b841ed64;
 0x2676b506a75643609e6b0dd8986b8865a93000fc38eeb1f6cf3b026d6191ed47;
 0x1f45ca8395b4868c3b68b11911f52425202fcd2108aaba02230dddca7b36546e;
 0x1b5fe89e54f508b5188c8487302834d08095b14c1e0938aa82f9365ca3b2b44e;
 0x25826f9ae3904e80f7ded17b954c8989a04a060326ca40371dfa204e02b05eb4;
 0x2b5324e42bec45328632622c82644bde941e015946d2d9219dd0b805dbab5c26;
 0x25e011cab809208c9447ce75dbf6c90f76c6d50640829b861c2392271a51ee91;
 0x58ffecff608099006fd59ff7d75f03a528613b3633d1dde3fcb5d6f239a648c;
 0x26f052daeaab76f2ca8e18584b8586ae9a8f591a8b97a673d82d50be943aa00f;
 0x15d305bc6e3138c409925caf3968367850c6eed0384e46009d38bae5df81fcc9;
 0x16f0c3de9b8a76ff18370cc489da46a9bd962742fcbb0a0ab0aee9d12c3c5fb2;
 0x137a4fc5e63da4a366b6edd41e255fc4baa73ba9662ab7d2b69e0b7d4986b562;
 0x25a59d3b46f5c8b7a763518797faf55cc4773967c1772b01c7c23f186a75178;
 0x13df1d61814fda2e0d26ca861adbfe9b6a92c05bc3afc953cfe008d176be2c30;
 0x15b63fe5843c661cb40dd42feb664dbadbb27866e119a28f9ed8d35b537870b0;
 0x23352a3a3bae8c2e34359d75bcc9a5d870b69555ddf57948caaf074538044a80;
 0x2d223c52d6fbcb0e82e9fef6b9bd7384a2b789c4d9c273ebb35b4efe8e51e75f;
 0x1f208f14c51b48c7776faea01878bce6507182ea071505581658173217492863;
 0x194984a1a5106ddcb1bce1299b1b043edaf26b85c4afd80cb6785cc5c83b346f;
 0x2b6fd7bc3a3b595c206c43daac752b765a12255c37ab51ae183933737a8b8099;
 0x28bdf0652d4964a6e9ea2faa6ce2d823253364d311762578721f87736aaad803;
 0x1183224ea82a68db5fdf6a21052477c8c8ff500e97b8cedc09427cbc02d57e6f;
 0xc61d22c912bef8507c6b08cbd36f7cb7979f3b56b36549613794515eb4e02d9;
 0x2ee8c7f8684dedbb1c177fa9f2574a20cc4ff3c10562877bcfb0d53c90649b77;
 0xf56193999816a0f4b15e38974273b5c5863422b93da9e94f47c5f10351d4705;
 0x90b70ecafba579d37d6d211358523ed992e26d5a7752598bbb68b637a59295;
 0x2de97266af0468dc5a587231f1b1e3aa2cdd4d1d7208205be90826491f263752;
 0x198553fff8aa46adc9af3b38d6c01cc00f1a6594ed0e1a8b8f370965f8a89669;
 0x192b3300ef2574b4a7053c24d7dbdea81c04da6f3c803269ee85c22c110782b0;
 0x1f4c7a76da30fd0e604d14833d0ceae25eaadfcf937d4ba5a6bd7507b70fcef3;
 0x11194b46ea91741f761662d56b64c9d127f2bf36142f681bca579af2e8856cc6;
 0x13233cba082bb1579428bd4a19847aef4c5031956805f6e2522e00dc9a92a087;
 0x6fc54c9a27cabca0bd75d53cefe2992bf4b744ee1f1e0cf7c254492e584886e;
 0x14870645f35e85921f579a47d013cf8812201a133bd14b6f5604f77c10ba8ba;
 0x246344f1ccee4dab0e0409bc96fbb618937e6bc629d9b1bb83a669055ee9e210;
 0x1e1c72c73d9444d6bc46a7834c66426ce4bb91446e804909153e6bf86511e628;
 0x662c514923e41038cfd078fee4bdbe72c8f6e90e5a3cfa51082a1a4f7523754;
 0x25c7e06ac250334f38bd664db0bba786d54e9d40e7c104b95989232ba0776db0;
 0x1c63774bb6aa72c366712c86792d85668f833b7af35eb91f36176de375fb2522;
 0xeef372e915f3263f31e2c3c4d214b4c9aea86fda813ddbe1cb15441881ade05;
 0x29db12448c6eb73422accef5a2a3794c7f372c283f37b2b194cbcf09b23b480e;
 0x161b72d834fdd269571186b3847084d251f4765a5b9ffaf77fe720319e0dc7c1;
 0x2434332138c93a69feb06521af0ef32c08b680bb50eb61398e377447ded461c2;
 0x140867fa61caa3dcea10be9b46b76871d983e8a7952e3d1f71aab2f531a85714;
 0x1e3877e58d7f25a988f737f229650cdd345c308a37c66366683771f9e249acd0;
 0x2e00f80aa5ba054560070a3f21c0bd37e311ce8060a7cc1c64650560c9715088;
 0x9673ea23dba537a4a0f6dd66a13df85d8887dc3431666a86730becd72f04fc4;
 0x2a05b10d1faf68ab7e607388f7c9b3de54bc151f0b2da02702e471eb5b786a50;
 0x2e8fb8bd00af6741fe18ee679ee378e8602ce8bbc429ca9986d016e17b2fb22e;
 0x23cf3f042a56c7d2da94772521a21ae6bcb3fd0433f8778cbf68fe1c365c8c08;
 0x2b6fd7bc3a3b595c206c43daac752b765a12255c37ab51ae183933737a8b8099;
 0xd4d295bd6bcb6716dd82907d89b8809a8af69859728773689e073bda41c709b;
 0x14f8df38aa9592d59519054d8f0ac2c79b6a1303905a9770731a3a7081b2bcda;
 0x27ca9533e2a56a644d35c53fa9cb66187a7c0ef7322168932c330724edbfbd0f;
 0x1acea5282de35d35337503c8c8a221fe22bc24d39164850efa9a7acdf1377f07;
 0xdde135f69d5ee7253d1cfffdf878b3ea75ca2c56b15907329147969fb120d46;
 0x8565cb565140d42d33d5b907a0e23f7af7daf91ea5aff759fd8ca916579ce25;
 0x19343a528505b6b303ed193e33810a005abe738057cb00f34c9a3329ca808b;
 0x9cd47fc8ac46b3e49d737eb4714d522ce235c1b0feffada0852d8173d4b080a;
 0x2b87d075e7fab29849291a7700eae8317cb01676a36c0d2c138257b852732a2f;
 0x106694e160db35b2d35998e4ebbd1769c69c448afd1ce6aaa8e1bc1ce53dbf4c;
 0x163d91a57022a4734ea17ab01fb85d94622acff6582dcf7e4b46dd0a5d72d823;
 0x2b8cbbe66ed1e1d9c5a1361ef0a80599de75573c62d6e3aa718ba233e2594408;
 0x305e4c4a93d931f927f0a213cebe1a5a3b258ec726fc912ca59590febd9b6020;
 0x26d0c3492063959cd8c3dc0e5c791356b19b9bc6e39b4da13a4d2a612e56356e;
 0x2076ca2026d04b98f821b9bd52d64fab129526fc2e626fafcc92d0d2e23a33bd;
 0xd89c4483e40c415d266d3c7f2ff6d1d66412132770be71bcf1178849502d231;
 0x13671ddf2f49e97410f41ead0e1a80564d862771c7543664bd20762324fafdbc;
 0x19694e401d2bd6b6ca4d8929129a85c9e8834e40fd1f6089da9bd69f66f840a1;
 0x1a801c574279164c937f3798748bf115f09f56044461771cdfd67c9606f1a170;
 0x7359e7661550f4af1bfd7620cedab2b030fb9645b06945a8c166a617423e588;
 0xdc31ce178e60f8dd171002e2e5849759d9caefc7dc7a1fc551b677b410c4274;
 0x3b7d51b2b8b3390923b28d0f1e181c8378bfd0910f03835a1edce3ded58ffa3;
 0x20feaca74003f750c7d517aca7f2c181745a7d26a47051da7209fd1b3ba67aed;
 0x7c71a9d84dc8d9b2d223b3302e1804f6d6cde6702ebe991c5c976a4aab0971a;
 0x1ff2e7a7045e92d955d0b3a679eb1168aaf735a7cffec5e90fd0e47fc946ee3b;
 0x1ccad4ad13abfe58d0a69ea967e9477f20630d928dc93970033796ca8049edd2;
 0x1d2277a4c8ac3e7ae945f05461d7a72caeedb456f30c1e12911c8e3dcc3a66b2;
 0x2ec2d28dcd7e75e100c13ef572e9e270d251a774f44b7c59df767ca50fe10434;
 0x2ea447c02e059970eb92d1fd14b1ecb189dd900b281e67d68b3e742523c6a801;
 0x2b4adec5ee014b305fdb460cdb1ae30796202ec0fe11d13c23dfd65703f0434f;
 0x2b6fd7bc3a3b595c206c43daac752b765a12255c37ab51ae183933737a8b8099;
 0x1784bd17cb0965878549fc4b0e1b40bea37668f94d8da890caa7bd27d22cb2fd;
 0x149f1d9787366b84b3fc40ed430e96b646eb16901093590e7b68ba3601c364ef;
 0xe1161f13b91ea8432e12df3ab58706410da5e6a10ad20b1f62d1c34c09cdfa9;
 0x7e6d996431e217b60bc4d3e74aa3c337263f1183c92cc73807d19e59c4e6804;
 0x2086834b2a03db22c71e71dcbc89688aa02cc362496e4992be9845f57e8bee9f;
 0x1a593864d072783fe6e1ef8ac83665aaadd593b63b3dd3d4919237bf5b2c7106;
 0x1570ec833fe8f21ec48539c6ae273c34cae3bfee0acc5578c96cde92b493680;
 0x13b62a93db33b6f0e9114d3f2f19c083b397a193f6ef0f5b087f2079c2581a9b;
 0x2ab8bd24dd963ee466e2e0c3380cc88a4f82397cf9f7dada2d80ad5ea21db875;
 0xcedea082a17bcba725bc9633d2e5e67fcd43650e22b22df9aac3037daeef8e4;
 0x5df20d895beb2374b5ed6d81ed5494a6ae0e9c3bc184d7861bffbe7243b616a;
 0x1ab529db00143d7038a6e01e23d0e9d56ce89bd34002727061c8e56944e4003f;
 0x2548c562cab2de540520c050393f949e10bb8d9ed4c3fc387e21e454f1ac83cc;
 0x29042d35cc97955a80eb09f15a15b66f0c4193a58193a080662b6a5e79e68051;
 0x685b96bc1e8d70b1a7b70216b5c74a4e5db315dc36faa59eaa39f2e0494ac08;
 0x2ddbbc66fe69dd188a2e9c306cf6f7de9faa106756186b82f3fb440dd0b912a6;
 0x18c70260e52a67ab417aeea60b5d3f88eaeea2508829ae7ea3c063443cc0945b;
 0xfd423845f9f9970561e33fb0f913821e1e3180dbd45815a9238ad515543a634;
 0x6715e87f1daa773cab6957c11605b0c6ff2ee937057373dafdc2f284d95b1a9;
 0x20af32b63bd2e6aa4adb6d0f474ccd105b78a2dbb269dfbfcd615d4ccda0666a;
 0xa4333899e37c411cb633251ea98d8858dd944f73c4378b66fdfa5904ef8d9c2;
 0x92b057185e62fb11b22b5f3583d1943d561f827c54936cf20d7106b9416f3dd;
 0x1eda5120d5fdf5f2cfc9e303a45a4ac8710bdc7a9c28b5e801eb248f60ae08f6;
 0x1282a8b79cc5039edc8852ec1bbd5835f3b8004ccbc9a669f88a331e966db3d1;
 0x2335e0bc60883b59b1390d2b3652ed0bef230324e7fdab725a5d4743d5fff8c2;
 0x2e23e4d93a4b72ad0551b740879ffb0da4ee65bdc1ab71f8207d2d9da0f26d01;
 0x1b06fee7ffca419618d3bb646a203316838a684e7c878024bc058645fad01e55;
 0x66ddb3bad4a4b1374fed6b3a88b1bdc812ddf9a6bea1b028735dcf90a77bdbc;
 0x280b71aedbbd3761124fe6fad719c6930ce0ef6695938cce777ab77ea3536637;
 0x21d130fa258f6e1fe201071b3d0f643832f4aad07a3a983ea00c26890b546e5b;
 0x2b6fd7bc3a3b595c206c43daac752b765a12255c37ab51ae183933737a8b8099;
 0x305f7337dfc2c6591e5b3d53a4783555e1ea91efc44648529448fa3e463333eb;
 0x1d69e17e5678ac53a1c046ed0326666c84b909b85e5aa9e34e516d26ab655573;
 0x1f5d0bf5a9c458a3c9c9bbe3fe48211a1127a176d4f54547aaf34589bf9128c2;
 0x2385bad332ae963b60ae73862cf86c5f723dfd37e56b05918373912d8f9754ad;
 0xd68dbe874d206f45efd8724adfd9b10999a7da1226c394c4e7959269a17a79c;
 0x27f8bff9822ba76b43b54939686caef37cac685d60efd3bb87b468808b480c1e;
 0xf2cbf2fed229b81bf91c08a642730c9633136dcf1e68907c192e34464560b24;
 0x27e6783451cd61e229f062e38e360d9d022cc244222ff2128d4901de0c5b3c1b;
 0xb0bf852c95f2476ab5280b94660b1d9d2cf5439c34d7b6a928d596b13555f32;
 0x2b543c7e1d2f84fac470489446df876c7f64956d82c8897e268cc4e2af130a2c;
 0x4367a2851e9b84ece7172ed126f7cfb63d5fb445ea19ef5a31a67517afd2fce;
 0x1dc8a2abfce437021fed52e83b1e6708a20e07d84206e4c6038bb9ff36b325a0;
 0xb217141d35c2aadebbad8d9a426b52df23d7db7c3c72f0914963046e120d5b;
 0x10682c3505cec77ba65f4af68963f3310562527b2bf1c812c04a2eff94d33376;
 0x2f3fa61cf4696622abc02bd664be628da8ff5f9b49d93db65af12a0ec0d25593;
 0x3798c88da7c1c70322f72888f6fd783585ad279f4cc06029f3bb23f3c32fd3a;
 0x154b3f2f885e3d61fa5c27875fc9b03509b9f36a18981b13e1aff4d29b7d23af;
 0x45e3caacff06ee391f46ae43cf78a2ba1e2134de0405120228cbad0694d2fdd;
 0x21a443268cf1db0a1edc3f7c366de6cbc690e1939658278de9679814a5ad4a30;
 0xfa574382520b0170ac21d000d9ab5d2523b5f86758226d49bab96fc1ad9c59b;
 0x1b8f07226473c28fc3cf78ffe2f5fb3967b6beeed42866814c648f5d4adf5fb6;
 0xdc48483de7d0df83232e5a41cc287618b7957ad2fa3db03556429286ed6a2d8;
 0x2327d3dacc8f80fa05d075b7f9b8544356c04f4e600f53d8d4d2d0f147590eef;
 0x16a6266bd6ed429272c69aac579c9032d9be7e86973b578f27d5cb8d2f6045da;
 0x9eb4e66285aa7cbb62217465768138d73953baf7eb68bcad15b749419255e25;
 0x15f3a6b27c8a2ce27e931cb599a0bbaf6042cc6f8d411d2daf1969c02c67f5e1;
 0x2727c9236d43b41a34c74c52420674daadfafc76eb313b17fcae0e77ccae7bfa;
 0x149bd00eb1da39e22ab0d8dc78d7abff54bd9c13ba38a6a531f696cc993a3f96;
 0x13ebcf06a5c9485e1767a124c3e035223eac6be5816041fa077d5cc6fcd10228;
 0x22aec7f8873c75702e0c55c1b1529b1290831cb4df73c3ae6441da67c21e8169;
 0x2b6fd7bc3a3b595c206c43daac752b765a12255c37ab51ae183933737a8b8099;
 0x1d45f9fa11307f6de88e220e633519a3ff18d9dd8071a39b38ee29d5910fac47;
 0x215ff3e875d70ad4b7aa08800aebf47f83fdd05a246186a8ec09f674ef5aa160;
 0x1552de26acf195af643fa2625cbd3e1723284c2cfd05bfbc23495a0cf88aa369;
 0x1f9836a1eabee49b2d2e6cb1f1f666753813f5201323d302faae128f08e45168;
 0x1f8cf510bcd58b2fe258f3f812dabf08a301a71ed710d4647cd60fdf5beb779b;
 0x2c446f645eb661152de44865a3ac149bc20a76447616094884c9b6515ed45674;
 0x50a3718e48640cb644bb787fc184aa61f4e44044dc0f3f3006ceba81b8dcaae;
 0xb370b71f98dc10706712c7f348474fefe5dd772f6786fe96cce94999cb09fb7;
 0x287473939b5c47568612b150cdb25b30808c058b4b5a3633c03af83f7a7e26f2;
 0x1f5ec7598f6da577826ac5afcd6ec3721b963562999125d9d356eac51d0d513c;
 0xa9850058f74f3196f58585e6fc80ce0405dc510ea89e33eb1a9c87ff91e58b;
 0x22227d59d1ffc328aee2ff956f45c3b6adbeb782538809edbb6a1e70f262a23;
 0xac7b869caf4e71585f9f567e94b1ee6e0d802ed6af49d30b24d41b1c784e448;
 0x6d671ea1fc8bcd0d824e101c3732425de5a4435fae1bcfd1c85f501ca205d43;
 0x6cff4c2918d4ce74f4ebde86e5951ad143b09a951d136618cacc9cb40dd5799;
 0x2d9f0ee4ed51e979a0f1a582077e8e5f6669f89d79225a7da2687446184347aa;
 0x12dc6ad0e0daf28768e85b026179300312feb26584b2a4b50f830499e14f5e06;
 0x2f94df6b211d8a8a514facf931d71a3f23e3d9a8a51a11d29c0221fc9873d756;
 0x29ee741287f545a19cd02af760d56286c27ab5d4122c001fc297d43db2bd030;
 0x7d43ba525c44a894d64b500aca3b68f2e3c2577927390f60181ed36c0df68f;
 0x252866633477b3aaa0f9fda731b4dfa0d78905ab39c177ae1f4f76da5d9e5547;
 0x2308ec0db73437f83200db8f914733431ebe5149e61cf3afe3e67304c8fa8d44;
 0x517e4ee288992d99e59515e91c5be6957e839b8ba8c9c7430fd31eac44c56a2;
 0x2ab15d8887615c04e22f1e988b9d8450cddc2cfaf2b582bdb006204a50e596cf;
 0x116e33a713748ad93004391adb07d5ca64962c8af2a8835e50eb7e1b6662a557;
 0x68150e1248e7ae44ef5619127e8cc28616d7277091afb4c209ddd504923f50f;
 0x1e9e3d2964594dd5bc87a93e4bb67e6ad71b037049f90493165954fcd86a1e4e;
 0x1751f2e99cf8cf643a5ec6b3cbc81def5aa8679977cbd2779f34f476f9496911;
 0x248ef2921bdf968c74dbadcae0db56cb022ca98b983628d7110c724cdae048d6;
 0x2fb6d1bd57da1cc3610b201535bd42a2cd405ecb52b28c215237581257354352;
 0x2b6fd7bc3a3b595c206c43daac752b765a12255c37ab51ae183933737a8b8099;
 0xce40ef4d37ae58008a4d1b02e78aa4fec563e8840cc28fd1af61144986866fd;
 0x1f94afec8fa62f53e4bb20f756a08236e40e98a346afea85c78280f0ea33e337;
 0xf2164352021aaa641a7176ca76674a465b3b728d8af12c7b2a5f9339d6f5e47;
 0x1b86c9a7cb8287520b3943987397e8c7a742f3059fe12bea664989ae08d00e5b;
 0x11e4db5228177f30bb2a2f96098eaa7ea941229180bed1869a0d0be04cc60b0e;
 0x6378bcef2ce91bf24365b51a0970028dda29ebd7da3054a8440207c15eda844;
 0x192ef0949ebb3224247a83c74eba36e47252f4dd8c3f20eedaa39484ea78ca65;
 0x21c1cae79f5fa8283d7a8c2acb29a4f46a76b8b3f7d51fd93941bdf32d38fed8;
 0xfc260daea1f470febcdeb84cc58f03b1100ffe23ab52e88a7832c18b1b13213;
 0x1f6f7bc07589916ebe3fee5025672ad9af9a3ab798fd01c6c2228ecca20c395e;
 0x197e205923ec11dafeeb697b87ad973ba4a85d9d9d3817c364c3609ff78c18dc;
 0x2935c393a884a244b08aa314b2d261c999959d415d00857cd883277d439fc00a;
 0x2c639ac544a75088ec7aee01a854471f7b6538d83fc1c7541d9018c0a87b1916;
 0x25b2c9c2f413762e843c10e546ced0572e1a30d1a9b2c5c781d24de864ef4973;
 0x1d28735cd6da088ff72fe8cd4eadb8bc28268e15a9d754a5eede53d3513e0317;
 0x205c309b41e6c8bf2fea4671a502abcebbf0aa33c807369adb9869c0d0b1661b;
 0x2e8e8dbf8f9ab3be24fb4e8b95c2188103a384cdbcc2b65fc5b931a730416e0e;
 0x20e1291175551be80f70fa6ce6e111ad5403d1765c4bf47f611103fda64b098e;
 0xba9120de0cb289db8a951b5d348853a839af34529c972296703db5c217054dd;
 0x2898c38f27c64311d90346dfaaf3554ff6b104e56124b35af7cb322402264620;
 0x286e3762e815adfe1ce18e59928e04beb43dbdc6d4d1eb52b5741326da3c688e;
 0x2d316495c1c92a8ab5fc456dd8e7b1ea97f5cb70e90624d1af3e4bbc18cb75ef;
 0xdeb856e2bb0ca11bf197de3dbe8e8cc5dbaac998dcc275cab91acf7af3ff347;
 0x247b87e0ea690afabb1beeccffc7c12fb20f31484d684b97302ee67f588d1eed;
 0x2003afe0fe29cee7641b7f41a31c8a2fc27bdd619f85a8fe53a4536884d684f9;
 0x25d9c2e2d66052c7d5cf3d56c8865d939cba18e0bfac725dc04f468837112253;
 0x1a711ba1a3eece6595c4ee4dee4ab3e865dd77e6b58797c3677e1f494d13144;
 0x7c74f66ff199856f077f29b06acc03305bb03d7a1beae045e199b9596ac9a31;
 0x1a4d513506c6ae66d0e1a077b9e9604ad4359a6cba7738d9721db0ba826fe704;
 0x172f82b5caa7f65eb8044ae3faefe81d837e53b8e615c2d46ed02e4036142ecf;
 0x2b6fd7bc3a3b595c206c43daac752b765a12255c37ab51ae183933737a8b8099;
 0x1c81a64c5d581191f40a709788a4fd607c71e461de2ad166b9bcca742e0a9db8;
 0x65284960bf09eab2773324ead048c3bec54af7ceba50805e3532a5a11b96b94;
 0x234f635b921f9d7a056c0fe63af46afb8b9b5430d81905bfb16ef051369fee7b;
 0x1488199577c500214d8d9c4bf6d64db0811d5e69b44f3b86a585d9410f875be5;
 0x2237a1388bd8962921cc637d8a4c5d0faa6b5fb138d589db98a508bdf9c225f6;
 0x1b89bdbe9e9ab40f2ac20793f4182a7f33ad93e907304fb0440d1e7d40063ed4;
 0x20bfe61092f2e5cb0508a73ca1dd8983127a395f6800ccbec4ed56aa95ad8c7f;
 0x5acd0c7611cfa9170896d7606a8f5c672883ceb42c2b829c29c8dae08df2ec4;
 0x2e3a22fd34491f153094c93bcf17a8e45940e4a1191fcd2d1741ef841681e0a8;
 0x26504b2d5b079c4aee6f588f825b8b28c337137e9ac1f945f715b85b5cdae979;
 0x201fbd4f4c9cac24b23d8bbf86efe15d86abe8f18838bb542975fa10e9f2a895;
 0xb13dc6afd9a8566a90cb50c82f1876fad84ffd092241c028b9ee470cd64cbbd;
 0x9c0853fae2070c4ea816a54daecef43a5940c647229be0fd869ef36f23159e;
 0x1a926cac03b4e6f41bf021460cb129cb4b20253b3c172a6f2b531d57d7a7d645;
 0x2334c0b56015f6c5a9083193b17d225ea2d977932521f5d7e328c3f0baaf7a5a;
 0x2cbf73905b5489ed3b0c5763eee04fed6594411a1381d0bd617a208a9e38d208;
 0x1e06c4d1e2edd5530f226649871f8fc83b9e7b5708d75bdf6b9a31b963be7bfb;
 0x260c2e5e5364bd914ccbfb785d01ab898a2a961daf708f5f3e34bff953b24b00;
 0x26689f7259e1061156947b136c0dbd5e8c2c1972b4823f4dcf04df33e95532cd;
 0x291df0e62b563da670d44db58d0060e20935852eb699daee6e342b3c59b6d73c;
 0x14e05591b9b889b8899134c8079886d87829cfc39538b78b7a6378b30be1c683;
 0x2be6bdf824d2cccd56cec6d1953e0f6b3117f6cba035592433b7daca12ed43db;
 0x1dbbd7c3c3ca0eaa01cd309dcc57d0c6331814ae9640071cc6bb9483ab6f9a8a;
 0x2227b2d0979591731b87cef94237e7068a5c5e03d609e61df240b7f7944e9264;
 0x1d351ed4b59e46571e5727529ed92e6ce55aaedb36e3d54cbc6c2a73fc4a2786;
 0x2312bb7364e690f64210acaf695e5d8d03a9059b261b9f5bc2fd2dd78ebfe499;
 0x1532d3c7fefda9a7e81fc949f72956bd5f6d55bc4be421d27d64847d81cdcbd4;
 0x8916c1ca3dc2d21a671ff4989f5f7ae581c2102c172054472cb63e25fd58101;
 0x199a3556e4c7a370f0832fd385952688d469177c78a0e77107ee586aeed025ca;
 0x4297e87f69747dad1391582ac26a54249d004fbd16bfc50ec12d7e6b95faa92;
 0x2b6fd7bc3a3b595c206c43daac752b765a12255c37ab51ae183933737a8b8099;
 0x63db3a46c3e1e822357db637c8910722b22e531454a1da26f2768f59a8457bf;
 0x82793e5ecd44bfe57289068ca1bd6dcb1a9dac086bfec2ce99aba4d04c46b2f;
 0xb5214e4d1f2227947a3aa13e7b57a4d85dd94df40e39dbace02df0e7c0eec0f;
 0x15fde89fae0bd5593e8f2bea040a6f837a7bfd5c5e13b04514c39eb1ae15624d;
 0x27e7e6eea879199109f7a165585ffcb5da626a4d0c39b2681fc7b55402510f1d;
 0x82b46075b3da1e178cd6367971caf87a3676229dbc745e031b45136618255db;
 0x176668330b14e97d4f77547f3b9f430b7fdcfb1bfccd46fa70839bae63df4872;
 0x10104450f5b03a0638bddb9c1d9db41998094de2cd8a8cf7d3f04143122e5a9e;
 0x18c84287abb1d81afb7c16b5380aad2edf054867661c07e44b252ed26cc7b68e;
 0x4d7f1edeed756ae0598fe4b0ff7edc488b75f0376b1923fdc417fe7df3bae7b;
 0x16b3bcf2e5fe28543072f71ef9d83e31887dc632c0c86b4389ee730449207658;
 0x2f29c8f376d462946533c1f349391834f2ec826c08eab0eee6a263f759a43797;
 0x20d394abb3b23967e223f5b9f0a556ce582128c8ac5193f66f8c959a1efc3344;
 0xb207d38d762517ba978fd184ccf152ba1c46333dbd979194b9ff06b27a792a6;
 0xfadffe100a5861695b7059f6ad8e0d5426ffe92c2bff0d81825b72f6da517b0;
 0x279aebdde647b4118234d886bd169f051ed193b0edcf46f54a8aca2f4d3cdb4c;
 0x119f36daffe8b2be75f4e64c32fc2ecd118f319409499fa007819ce95ca2df6e;
 0x1242a6c181fe90f95fd6bdb02918b14c7bcef634ee3d02e30bad0caa161b1bb0;
 0x13b4546c3da77fdc8779f6ab0d770bcd3cd72d927c72c69fc1dd01de9ead8dc3;
 0x888fd59a93f104c423ecc2271c5926305abadf9f458f70ebbbe28a6fc401f71;
 0x25a8ff35f85072e4f8ac148e53991882409a73be3156a865cd00ce4f9fd05e39;
 0x11ebf2fa3b30212183347f0fe5632e3ac31f93a68a3b8ffb47960b505601a7dd;
 0x24e547cf052f879aed9d43e772fbe7809c500603eaf4ee69e41df75d2cdd213a;
 0xfc85a22c05e5ea21235ff75ce1128c7bdadfd9fcdf18f1bcb66e5eeb76125e6;
 0x2a9f2576a85c827399655ee856b94ee757335582e476846106dbccc7028bf19f;
 0x13a5b0372ba5ed8b2718e46b25d797b56a6cb0a2f03c621e8969b371a5d1f2dd;
 0x2cf328cd5a7f16316989013b1db59f8e8c148cea1a09bbcbefc464ec3577f253;
 0x2c6f8ae3d08a528068b4ff4da059a1a0dc88e311f87a1a9c5ba99738369762f2;
 0x2108fe376f8ae97694e36f575eaa0aa0dae306505c70d5a0575f5697daddf530;
 0x23a2991e713b01022cbb8d2d3b81cc5b71117d663e3be0f7153757231ad22cb9;
 0x2b6fd7bc3a3b595c206c43daac752b765a12255c37ab51ae183933737a8b8099;
 0x1e9d125fb7c35dfc0064d4351a05731b95b37e5ebee77e1ca055ea754902c75c;
 0x119d649d362c0f09efab4076c479c9833ccbc80a2f0da6c362d653ecab381599;
 0xb682593d09250dc35e376127d33a34d30ea21f79f3f112066618f947872c35a;
 0x16670c641709033c5f1bb409f530b7799d280e7c9025defdbba706d9e1371733;
 0x16013d4393fb316871311a22728aa5de989bcd030f2a54ff08fbc7317375e8da;
 0x2a7d4518b4393070d22a8d824b75d8a474fef8ee3eae40cacc38d40cb525937a;
 0xa2af4ab955f7dc6d09a9c72bbff55d30ca01013651b387523782487fd6bfdb4;
 0x4fcc21d258b270458eb662ec8b16deae2c8039d68ccab74e19b4573ae413940;
 0xb5547d0028fa903aa9a2cf2eb9ba2d303bfff9ceb1d4070f87cb2821cf684c0;
 0x4eb04b4aa22c6ab9e0cd8c331a04aeb1546b58540f460621f2696f453c0e0e3;
 0x27757b5fad20eb99a306317b872275532a31ae4ac34dcbf20e80843f2511af23;
 0x23c5cd44bdc3e761827ccfffcf09d470a55aba69e7ad0fc83fd2eb7bfff41e67;
 0x21bb1a37cc6a1ca1d65febe7d1868754bf85d082215397b8985df2fa8c47c25c;
 0x2050602a2f6da4117d3257061d22608527508e58e8a578d00f2c3685f601846c;
 0x2a896c598d40d992207040a5f1629dc61549fbb0dba65e33a8cae98ad46afc16;
 0xb2f10b968c76b4a1c338057e1c67985cc3f571380db66b1c38ff9f6d630e34a;
 0x7a1e6e9dd512b10eb0817b56839e3bb85b736442b50f32e18f07a5ebdf3c191;
 0xc0a72a48434504036597a74ce362796f9021d0dc8d318ef086225a55ca1a9f1;
 0x28e3e34de5c1de1c85186e7d604e5e4a24ad603b676abbe3674a0ed2d802be72;
 0xa6d55bc7826b1e2b03850d677928f501bf4c6398104c009eccbc2b2fc5cbf17;
 0x2c042a68d06b5f7110513182d5c54efd6ab0dbbdce57f1eeb5ab12cac26322a4;
 0x18cbfbb6607f28f928f1fa2ef21ce8be9d4719a8d7c33a7fd1279b6722f151a3;
 0x2d7e6e039f81c66f329b2dc40ad3b116bb9bf4db88bd3e44be39acb676ab36ec;
 0x2ba3cf36a0580465928db18f630e47aaef388d04aea7f10ac3c600df5d2108cd;
 0x2403116000d75fb1a8bf3d0a18ab068fccc0c149c46a935d91678c45fc948b2b;
 0x62b5c358a18921954449fd14b3a2dcf3f2974710e9616b9805f715d7a9f9e50;
 0x14307431f749d428d15fa3fc56a517c677c22e0a80bfd0fa2bfa3f35f323e156;
 0x2c04854c96aaceae379bc0f7474cd235436186a5f9f01f4d059e0fc83037a57;
 0x1ba6107ff34a8cb1ec3b4536325f2845a05b0c4b8da6dc5c0e0327419880b484;
 0x1e7b9fcdcabb49b7aadb17219fb4a0bf4da78d4dcdbb6d1437e7fa56e13ff4fe;
 0x2b6fd7bc3a3b595c206c43daac752b765a12255c37ab51ae183933737a8b8099;
 0x26968495cbd99f547d94c82d24b714e3cfea387ae1112be450ef48a93752ac5f;
 0x1ddd4f2ebf1e1ee5b8b6715e69df13d58c524c6b0bd5120777b78e26a054b978;
 0x1771396e072f342e14fa40e37a4f9e45a385b5badab8a10b8bae6bc325392c75;
 0x1334b3e12b51d4e658735203dfe259c022ddc5deac72bfc942bd8970c7d3f31e;
 0x2e7aef8fc027f0f4ed42c4ac674ff86a2314b9a88094a214325ae5f7611d3f5d;
 0x2f66d8f2e4c63ceff37adcb96812010dec93be84a18b260a659909f18ad00789;
 0x1cc80a4e8114c2086b90d7c7f0f33007d33b613444a63823b465939af409705e;
 0x4eee4396019744ef67fd43fa3739511a2370f23f80e2b5ebc5c5a1c9655135c;
 0x28ba26ef284bc535f288779980dfc0da8530588823a2f83a3d5edb7a5a25afb9;
 0x2fd84d8520146a01398ac84f33cfb557ac2850195fee0c5b28d2ee1d629b4d9b;
 0xd831e57b1adcb20c227a1adf2a6ab52a0a1cf4104e493c327cbea8897cbffdf;
 0x186b1b6b8ac98a038ece2b61971b0c83f28f32e097e28cdcdfb07aa8e685030c;
 0x7630c5932b486e74bfccc6d06d6ca99e499c8913a3a1a2ace3f6546696d9975;
 0x2ea3fc0c165f38d9aa02eec6a46e19a5854a0bb2584c2d35354e1c814babb896;
 0x1c62f3196e53f51fcda6620317b4d088d2132531a7367c8e5793bfdd5dc07395;
 0x1f352e27dd80d315a273a3ee1a159f18875744c5169bfdfa5ed6a29113caab02;
 0x193d8985e3f9126daaa4ecb2b4fec04425eafd71dafc86ff521d81fcf62cdcce;
 0x2271c906b9605c4dd48e925fa831f1267939342ec2a6f2d68dddb62a5241bb94;
 0x32817d35a0d57fe0fd10584116d3b5c48ddfd6ebe990e91ff469b1e679b7df6;
 0x164540210c18239fd0e4301e0e729018a7f419f438fcf829294179bb2c076221;
 0x2de749d2d5c5c9db3652813190e49ecd8ad1d3b3ae308c3c9efb6e98822e8dea;
 0x2a562decd5b704192adf41195234f4e1bd8d9d58b4cc48cf57a2ec9dee7ee410;
 0xdd5762ff7a8f652831aa96e9c74370e71b2e0fa1ddd1db85427bd2e79f84724;
 0x260f24c836dc07efdae65db907fd8390b38f5341faed0fc553cc7c0ad7fa549a;
 0x1a9d4050de78961851fd12689cc0f93fdf5278e1430d7295cf620713b01f2901;
 0x27d255a40de38041587f907cc4d84a8ab1a5ca07f6abf6d5342248c0df6dc441;
 0x2187634627013d30fff1a44ecd3d5a018c06352be5d480bd3146898cc004385a;
 0x2e0eed49a09486c41002557ade478e57b8ec175f9ca36fd481536189766291d;
 0x1abacf3780a60d304e373bd2f40ff6112b068c0c5d5966a3327c386e480c9181;
 0x2839a53cd148fc18db287c3ac9cbefa3a479e414095fe667b74151d2b78c6342;
 0x2b6fd7bc3a3b595c206c43daac752b765a12255c37ab51ae183933737a8b8099;
 0x121ab2b6ab8e2c5ecf89dfc2bda8337d7f52d76cf7a2e444859fa1b714be8f01;
 0x23a405c7644f6a9b7106d4ebc99b0f2c6c5543352d391d31a2965478230f2c13;
 0x3de1ccb8e26e8dbfaf06a08bf5189bb38e8e5cf181d154fbb0c4afed03d551;
 0xd594c3a1903abb67bede24f66447fa6cc8f8696ddbdd54830a32ef205495e43;
 0x2d13cfd974b0624734fe4a5127b23dae16f69033c9b1b0d7a8ffcbb55158737;
 0x4ad4148506cf6e6d9795ef784c6c1875e322ab0cc3b6380311b19f9441d8f82;
 0x5bba1c4d35ea9bdb593e19848c3510f2450abcd24bc392456d97a6e4f18e49e;
 0x9236c366e97d741479d565c45311478a3c918e62d52d12c5f54b7366c5bf57d;
 0x2a5630fe33c0d5616c41d0953c305e67503306f2ab6942e472ee89cf34e4403f;
 0x2458e51f0164821f0ed092a42b94fedaf0d801a9e7baef3ada586ce5e8cd3c64;
 0xa3218660ff4767aca5b77aaa3060a4e1fc8f5fcc0fcd6813c9892deefd7e96e;
 0x10c628fb41830cad0df1d4045657412e0833451d9f6fb341987afcbb98cac300;
 0x365b8f2fc30b7f0e91046966b67e804b88f2e1eb7ec6c132456467e05d179a3;
 0xbde78ed9fb95b8dabde79d55c92e119f0ca502be0ed08a0dc381f89ad85cde1;
 0x1e98a3f1c8e8f9a35eeac2782615c96e12950e627ba89a9ac0b873797d30107f;
 0xc0308caff3a47cc92f51163e05a00bea0517f621a4d69cb9e680c79577542a7;
 0xbb209639cdeae029ede39f912e33007334877c0004842f75035a7ee26a5e4d5;
 0x13ffc065d98f8ba997a11cab00fea19d1efe62e20f1bd7103de4858e210b011d;
 0x24ce589a99dd7149b8a0a25f95e766a44b081e5d475d17b7cec54daa028418e0;
 0x2ab971f8aa28d7fb11b7cedc6d85bfb947bd64690e6d6cc0fd9cede6ccfc1e10;
 0x1b2e15dd9e25ad8b2506ff8f0286f34d26254d2b4732cab5dbb713d2203ac283;
 0x1f1c3559f788fed19f86c71628547cd1d5092b0d30b4be4ea634b744923cea21;
 0x1c83b3ff9fa324bc9a5316f0a85a8657123a493a9b0220006ba1100a393919a0;
 0x28958a5831727ed80010116885dc7c66a1c245f6fcab56362c986ac87caee035;
 0x282c38627758b1648078b241bbe3557375aed2e83f18278ca6c962963297a142;
 0xddeead8fcccedced8e4d4376a2bc530466bef45054731d5243454ff4acd04c1;
 0xbdb032ee13a67d9c75df4c44570244e4f78e19a039b30f9f12c532e9b0ad601;
 0x651ba2f04803d5f77235caf50305de5e55431a6abfac178f524a5a01fb4f1b3;
 0x6541fd461b311dfcdc647b2c33e272d9a3733b5ff38c7e0a2cf51a65e22c19;
 0x32293b2b6e94545d3606b723f7a3149ff5d997ff1e8097359e0e0eb2444fab4;
 0x2b6fd7bc3a3b595c206c43daac752b765a12255c37ab51ae183933737a8b8099;
 0x1e47d96559f3d9eb6bd2fafe210c31f4a8140b853eab986dc12ee2527613016d;
 0x1aaa3fbb3f33fb63d4504fb8ea859f4156ee20b59e198b531546e6891a2497d4;
 0x65c97f1a22d2c6561ed6b3e8bb68fbc299fa56e40bbb54d49e02ec33ad6d913;
 0x2ccf556ae01de7dbe15ba504437271b8a33651d5249fc5282b8cd38fd23ef378;
 0xab4b8237c68daded18da81c5a6bfb657b4d879d4164db2b2e6ee4b854f34933;
 0x2c3329b267d11041b788317f56c3fb8a685b69c0f782ab2213d393befc80f0b;
 0x22f60f1fbc046baeefcae40d2b7843cd95c8dff7d49e0e18851f7fdacf3a4eb4;
 0x1d22dc88706281f80405f66fb60fbe665639969df32efc6e47d33635da644922;
 0x1aaf58dbdd1a14018d33f48de1b98e6f7a937d81ae46aa5313e9a6ad886e7f60;
 0x6f13d3dd83b99f56b8d840e73d3c695efa8ca7a38a891c9df57fb945b8507de;
 0x2d7c3ec573e9cc8350964a20d0a2ec03d2e948a3f8eaab6d520406808d80576b;
 0x293a2e55abaf167cedd278dc3d355975bc1f29dc3354310f21f9ce01574b0d23;
 0x2682132e373c18a17f78601edeea4f8772240bfb889b3db93b2e8ea10b2270e1;
 0x301508db6c1f9710285b1e6e44d46a133310c29c28426d90417d7c21e4f0b20d;
 0x1834c2d44e5774a7e63ba311a3896fa595c04c96df216e3f04ed409c2de9b112;
 0x76c49e633f12eb93ba03d627acf0c95d1d623b6cb42f773f3a20e02f23120af;
 0xfea2b1df3510f6e74dc89be1a061ec7f8255cff0eecea778e1cca99becab586;
 0x19c3a8e23b946d64526696670270f49298ee4eee4402888bf2ad3ced11f7ad53;
 0x86cbbeae69e83af8d6af50cd4f161f345017a925318acc46be5cca969697042;
 0x1a8a851cf400ea4e9b7a51f0bcd5b636e7894d05f3e0faedeba662bf80e901cf;
 0x1fb9f1ed4cfe567b8183fb0f9f5edd26e8af56bbae47cfb6fb6a2c5323303797;
 0xfd5bdd425e00b499e57e34f19cfae9bf0396e405fcd9b4df234a73d15f96f03;
 0x2dd4591301dce89c25a6b690ce98e4cb6c5603505055f6c84e9fb8980cdd3025;
 0x11cbe00cf364a4bfa71c70b6a4b180724765a2a4cc0f31035e44cea45c1719b;
 0x1919aba9eae5d5cbd57d3851ee4011af47be08e151339d0fe9b32602d1fbb827;
 0x6dc27862b0c4f31489bd8c0c6e2a9d8e1c8d52284f4f381b88f6ca94495f798;
 0x1911c33355ced9c551e5aadd528bde012e913b283a67667f4f269675ada590a0;
 0x2facca82fdc63330a3628ec9435d193a47caea8fd2de6617d601bbad8adb0faa;
 0x168bb7d0c7b38df856af9831f4b1da200df248edab92ab41e638e6800c57252e;
 0x33864c3cc0a4cc3fc23c51ba07bd1f797a55394f4e0c39ca4dec1dfd6473aec;
 0x2b6fd7bc3a3b595c206c43daac752b765a12255c37ab51ae183933737a8b8099;
 0xc732637dd53a9e2035cb048fb5ac32b68613e0cd12f68a8b8d07fabc738cbc2;
 0x2b44e82a5cbaec37e208762b75b37d4ad4bbc4d83192241a4acb22383f26dd06;
 0xcf7e6a8815f6122fceeb778851d85155384796be9a1df53639f5d81631a2555;
 0x976401c8c12d415f389d4bb64621b71f225619dd93897525be9e8134ab912a4;
 0x1a23f2aa5a0ca939496eeceea3d7a9e386f641a248fb689682a8616ea98202d3;
 0x1295f50377875eea2b8757bd93e3543b59a727da7874e646cc3ef523ffcb79fd;
 0x1f4a65f81b3fe858fee5fe292da8d2594efc08a385f89dc60be97c9c7cbd0032;
 0x12e6d92557037dc2fc85c17c4148e9018fca489e90ea096ea7f400c74297a2f7;
 0x2f1e3906e4a5b87c714556abde45934dad466c1044609b2c865e5a835667b38;
 0x102c4d0a2eb569486e7c6c7893f6491c03626259388fc7d55b519a55e377a921;
 0x2c427c75876fd20b334a45663dc28359937368097c46f7b685eb6e3fbda1a6bb;
 0x12f1968b1e77f14f0f2e90f5fa44799cf2d5cbb3b77558d1493667db2ae55267;
 0xb8730598feb9ee21584d55d5447d8bb6540b84e40c7d4f14b6062ec02ae00c6;
 0x2e13857a53b9dd57a62a790b221ecd3d8ac27dd7ddf4f10ec48e680f1a17041b;
 0x86f9752b777f6b6260f53770c94056c12f444af68c40c75bf7396dc1ca7ebd5;
 0x144d5e3d11651e180a16152b3106f937942d48ee746f217a89db2e410f06e08f;
 0x27956794096d302fe3cec23f3cd713e1e4c7ebf7a9599ac1b3734cc032811a03;
 0x2464182f248bc3f32e7d5650870a79c371dd8fc8d67034dcfca621a1f1bc596b;
 0xa75f1c2e431c46447da58c4b53b5a707030003dd525a6746963b144c9a51803;
 0x441eb396ba8329b88880db7d7b29b57e7165262b02108544170278e444e11e4;
 0x1c271f16943c48bb48f4e2d178b77e4c31f22355466d641974957a5804e78765;
 0x209c46dbafa81cd4c62071ab840fa1f138a8289e87150177ce20c6f9942dff38;
 0x3002dc8c48624cf7f6e207ed3dc4656f6c6fd56f260c96c9362714d4cd667726;
 0xfcb2bd431b6f99702c0f6b220885e57f93fadf7a8d3a365aeafa0ceb1fb7447;
 0x2a74154c3f7dc063f12decedcee953b7e7d3d71dc48f867f72c8a75b5dc7ef62;
 0x129ef0b882070816acf093a88c660245a4e58261b307457eb99fd6c697f0ed7f;
 0x24f76ebf17e1a43056e1e4767cf4aff954b2f9fde49f05fda6c18ee7d2909471;
 0x1d099f0d638efa534bd9c758f9856a7943eff18350feb2d90dd7bffc48e80c16;
 0x2c9f441f31d9aea42026c0e7cd8765aed321ad391f4c869d87118b7a1107e94b;
 0x7af13e241cfaaec4578b52b9315b5017dad324fd69bf1a6a6aa79ce75b044ad;
 0x2b6fd7bc3a3b595c206c43daac752b765a12255c37ab51ae183933737a8b8099;
 0x255345cb88354e31d381742d0d5b42072662445df9b98a247d617c92f27cd9f1;
 0x17e5c7c425cad2fb89e6acb07a2cea4bd5b1cb02fc04fe38dbdb341be1cf7d89;
 0x146fa4eb974c8faa9f821f63aca3727479d548d9f663f6934c1f458af3999ad;
 0x727942876c6eda2c90f98458ef4f4d6ed010e0562236f1febfaa72bd11a5fff;
 0x1bc84a56570ec875efdf985272b5df66c86cfe58a5be052d91787a8e3f8d49a;
 0x1053ebe1413b33bc188e06fe047235dd3028615fed58dbd6c1d014980ed7777f;
 0x20b12ab6f4bfecc04ee5c75f4108f2d842f004e84437e9093b15542dc26803cd;
 0x1ec0cef9e5ffc3472ebeaec671ad6ccd1fc85e2fa7c5e02e619053976eae5d56;
 0x2a42e9eca9fcaefc84ca320b72a0415eece1512b0afed7bcf4938985727b633f;
 0x1a172b2e81e2559ff3ab9b31a103e77c71b2e617bf7064f7a910803ef7cc9f9a;
 0x2f2cb2dcec93e9d768a5e77302b98fe0c291467a8bf3922e270123e45f06bc56;
 0x73e947e3b071d91accefd64d9242ecf3516181b583e27222d05ac64e57e61ca;
 0x201e11dd656c3292b05c202ea3916c78752b9a796fb97bfdb2fe67a935b761ec;
 0x12ba1b074f8b55da42206d4637431163a1aa6c0891681fd604ee17a7b4a4d054;
 0x1caf77967696809dd4e470183d00c935860fe2758b85ee6c6b8212eab0bad880;
 0x2e2c8e680ddec801ea189dd679d2e16c364bf28a69d7b79cb81842ee2469b8a1;
 0x29fa1929e7f6864a6c4856e9cb2dbf44d4c77cca135cee9eae611cb42d1e950;
 0xfa23e57bcdb977f185df4258bc1ac55957909e6613086a44a6581cd275a7160;
 0x2bd1a5ba49a19dd33ecc36aad236b0e0b4a03942f42a62fe825750889d4a1524;
 0x160ac4ad5eec95bc5910faceeb460088ab7d25fa15cb698e9ed17e1612fe2bfc;
 0x4c78cf3e48577cedb8cb5245a9607cdc9254ca8a8704f78d18db58f2552b2e3;
 0x1e9ef315dfdc99112d0e410fd65fccc9c7ac728617537da3e977d7afde414c61;
 0x2b4421616df11dfe94cd2b5500891f07eaf2900bdd8ee8eb42b0175be52be74f;
 0x8a13f8dbc82ec943c8ecaae0690bd0a4bd51a9762d670c8d059038d4259744d;
 0x14167eea5c641fb122863698bbf6897cbcd778d289c28685417d02e86db36ca0;
 0x1b2d84e924984926c742b426b7ccc5841c4bd193d3e05bbd5c5ed5868991741b;
 0xa14c4040634221a68633cf4f4622251ca34e42c9ae254eb7d02a7eaf1abc3d;
 0x1aae6b2f56d3acc7ed2fa5f310a29d4e54bdb4e5f531f68c59ca5b430e1f3f81;
 0x1c6bef1a7a903d4fd215a1754ad8f30011e676e498a3812d4f15d0a8422b35d4;
 0x260d34eb550364a018d509e831a281cb5b187033ecb4814ef42f240a5c1ea119;
 0x2b6fd7bc3a3b595c206c43daac752b765a12255c37ab51ae183933737a8b8099;
 0x29455194183fea94109c945206f2c16429d01c0a34919ffcf42ac314a969ba28;
 0x11f4f3b6a1a747fc1aa22c66926e6511a4cbf6269f30c62f36f54b580f891a86;
 0x2df1cbfe1e9ff79c44eac7909de01dbee45e899e3500bcce8269bfca310c5d39;
 0x1e3ed2a6dd4ec05059b8dd11063a93d0b6c48226115d09b7e58d6d0f620be4b;
 0x235eade019a1ac892102280841960624b179b82bb21f7a571cfbb8f4cae5434b;
 0x1063dc692e42acecc27654967d85f8c3b48760c3b269565f3581c30cecaeb6fc;
 0x144c087d0bba6b2651508013332ba01ca36cfa926efb37633cc9423e9b257275;
 0x8dc44909d34e4fbeded6e5b8802fcb8ac3c31e0c2a966956ecf0cf4c027eabc;
 0xdbb16e5b88711eb895a12babfb81dbedf8de29ce530aff091a3a16f9d363468;
 0x2bcf5c9c863de574f3fc6dd7e35b84d333faabe43e1d6cd827ad58061476fbce;
 0x13cc6568623778319060d01c7e7780d9ddf3e6fdc11dbd6e0d1daf61c0ca5904;
 0x17a2edcf8bf40ac243662fdb41e4156e987fc66e00d5077523caf74b970cecc1;
 0x193dcdfd2950a934cc3b92c1b9e826a11e6829cdd6bbf699d702c902c9c8bdf0;
 0x1f049cb7d14ebd687ac611414b6186ea76938c1d239f8bbf5f83972b778dde5b;
 0x4d9595ab4d18bed55ef3c3fd0cd99e829d8e55b8c101df09c2acda3acca9af5;
 0x11a10e1656c16d3c53f889073d9f910945506af2e029aacfd7223cd45b457f23;
 0x1c84c1b888ff8d6396ee63866219b3e1d7473ade3c14ceed3c1fdfa44b51edff;
 0xf5531ef3a85171c99a9927bd9d1cbe04e84dc94c7ac68c06004d99a391ed06a;
 0x6ee08fc691f0b4229dc871b3676f380042f6b7ac1e5344149cd7d64cc9ab46;
 0x237628e422a57b51577905847eec949cc0938adcda2e97fc960492898d0c8d4f;
 0x4b4e368d0d486b2d4772a9fb808db251fdfaadaabb59a5bcc20c97bfa38ce7b;
 0x2a0484d90b9de4de15deca9a4f8795a61a8cea3d5eed0e938bd5c2203fbe45c2;
 0x2cfa30139fcfe50e07673bfc8029dfd08f511118dd4a4bf0a77a7bb3e1e894ae;
 0x278fd68bb5971f9d8b52b9e924814f3e07af8931796fc2b5d09605eeeba95c3;
 0x24ea4315f2dfe3e361e0ec7213e50dd9b25ff8bd654d83f6d26ca562e2a7ddc9;
 0x8612599ae2e4a878ecd88d9194ec5ceedd16b40c51e6edae2cc43f5e94a2534;
 0x2003edf69a810b8a3eb8208b455fb3a6e04bfdfa7f6198f2a0475312da1da37c;
 0x1ed96d9e0748ab37d6984b7be85b6c4342d341113d255cbaca749da545d34981;
 0x24947686594e925c8ce4f919309d5ddd789f62d268e7c6340022fe0d45a8b816;
 0xa42b268cf646e69a84152d6323e1eb318392a14827ae3241981f6ef34173e;
 0x2b6fd7bc3a3b595c206c43daac752b765a12255c37ab51ae183933737a8b8099;
 0x2c16f80293a1d647de56a4a26abf5cb6840e67570999e804d434ba92326b0758;
 0x10003b7c47202671bda6e5bd46c2564c634d600e0fb23f898d73a217eb1f7cbd;
 0x8f99c641f5a436daeb9e269146b505771e8d18f847cadd3028c959e39e47f77;
 0x174ecd880d0e89617db1a52d076801bbddcc8f63c753467e7e4b7284f9c065c6;
 0x124823019c96feb400979fbc9e8b3ea028ba45199a99118e5be4885ea25c594e;
 0x1476f2bb8bb265ecee769b8092d9687ce6b822ea2d4fc8d9aa75927be24bd03c;
 0x19dac45643cf0ec46184ef121ab7e9a1c03707c7aec4620bccc80ae83d4ceab8;
 0x14674e4b8eab3fc1f80cf57e344d0fca2081743241898bcad999dd7939cb9b7d;
 0x1ed72b8e2da7a2fd16d8accd8eafb4cbb51c59a9d05d221cc608f74b7230358b;
 0x1da5ab440f2cdb9bc079ecdeceb673ecd86b906ffc33509225c6364ebdf4f9d6;
 0xc751d0ea79515c1ac0584876431dc1ce6226dd8420077d52dcc644638eb389;
 0x6a9dda83669129d53d499be9d18471ccc3decdaa7ddb14c4c19981f7937033d;
 0x280a6226e729cc5a5fef6b66266003fb72a99a97e1985f9c1b2f3d6e1c5f4696;
 0x277ccb7f226a1920bf5ab883e320f05c6edb580037be022f9a699079c9ea1501;
 0x207e4c2a1f9d4bfda41396d244cbc313a5a5755ce9cb8780f6a6cf8ff67b090f;
 0xab72e9f2261bc7dacdf730b02c9772d67b34b71c154f06480e2576995ab7fbe;
 0x26dc9a65057fde68cbf2b518e47e52c3089085c30015d873da81924ee8117970;
 0xee4ec60b28b8ae1bde8ab75521531748078f397b9914ed1d600f94f65edb2cb;
 0x26f7aaca92a139c5e2a653e9ebb132aaa385aa192ed9e1702b04f2c89d9bb766;
 0x2d2f1c2e5326bf8b3439310ed43a8721d8705e6d1c031af9facfb15f4ff8de85;
 0x1fd6ab80e45a94d9ee539f3247f22d8fab16026c5d0126cc5570514599c94b22;
 0xf94a3d03ba6eb3cbb84ecbf443474976b4b610b2c7e0be7bd18ec026f26833d;
 0x9fda6221cf5e2593d796d7185867ab6576bf2f79813f55b6a1ae9a1fcb3437c;
 0x26846396de6a8b113b784a7dfb9c63b0b950a69a20e63634954936f520470063;
 0x19e400a2ed9606a0a39041bba22cbbeaa8547c89ca0eb006c614b5d6d1b9e0aa;
 0xe2a3a5f42587d60aec0abbbf38902fd54d392c4cf26f8359deeca160061a02e;
 0x165836d2e5f94bd9868ae471de1b194fb407c3c27a3b322c956f13789d95fa23;
 0x2bba296744ead7cb7fa4e64b0d9854814e303a8a685433053ada126285b12dd2;
 0x1c42b83e0bf8cd6e2072b5602d85f5161ba6cc9aa752366791cec9eee1228510;
 0x2a8345e521ad75f61773023d905bc873ae8754b28c0273063d4970030cf6afd1;
 0x2b6fd7bc3a3b595c206c43daac752b765a12255c37ab51ae183933737a8b8099;
 0xdc769889e4e60328ced67e231f45e241283d9435602a724dd8d1f8a709ba50b;
 0x1002f962d594a9b3a1cf2dfdc940b80a6b67d3fc3148be7c0d11be50e277f1fa;
 0x11604b56f285ee9acad757b62e0a8679ec868a468c6715500cb84e72be72c7a6;
 0x2cbee753288f68a90a3c4a83783d30862b6e89e21ec3ae112af1b016ee9445ce;
 0x2df869ed85aad1cf7a17b58d217df7738c29e7ee5b0d254c1d4976ab71916b6a;
 0x52b2ba2fc76a7c40e4eebc062b1c353e2c7af8430a11222e64b8f1c09e57b69;
 0x23446fb653ba07d93115d3413ff7c9676f57d1e17a08329c153eb0e89d3e303d;
 0x11f1fad8b82ef8c047feb379042297cebe6f2a6d5660e7a993f67fc10e58adff;
 0x17af0f2c5f514d29665cde2023d8662f453954101bb66e15ff582604b86147a;
 0x11d7ceb7a58360c894abafcafbbb0b08e302ea940d29f5c403971e7a7a014fab;
 0x74ad08dcce384bd2df324e56ae0ec65f035aa90479bf25d940ae94f25bcde95;
 0xa9e0e2b8db72860fd3308d7982d4c51766d89ccc8939e0087c3fc1e15d53558;
 0x10053dd72d3e24c8040482217ea6d61c3e419cbdefe8709bc58951fd2a0711a6;
 0xb8feb7949a8116ad1ec2cfe47910318bd5dc9e54ee0caffb08a23e4fa0ea22b;
 0x1b3f78f18b178ee8df4bad8cf2fade21d1698ef13f78d3598c44a063fefdda25;
 0x15af1e8fd71f0799f8c7dec891c12d89bb687b8f14d0f12b4a52084bd68af74d;
 0x147d419b1999d7896f7f2c9ab68937f4e1ddf75ce3615b51e275a33e5fa8fe96;
 0x28b7cdada2f2cb2b1ae17064a61f03b36fe64faf9db752b7470da8398a1578e7;
 0x2163e931b6d3e6641d34369bb808b3745c1003771dba9dec9bf9d5fe24c43577;
 0x1fe3bf03ba1752e0d93486397e28ff2a9350c56abb949f7f6a02575b1436636e;
 0x2ec24f69b227550297bee72b056181c91364f54f9cb31e0b14d38fc2ac37f147;
 0x98d9ca655e17d9af5fc7933beb8f6b100d78644eeb19c1e7346bbd6077fef4f;
 0x2e296e61aafd6d219daefc2b994d52310770830b5767a3c8220c2f5251e4d786;
 0x2f6884b2602c50e4cbdfb45ed64863dcb689af3b917fb10dfaf9cfa8307d112c;
 0x5e81ed97199a7c32f5844b9e3c48c60dfcae2e703bb19855260479d6556b63;
 0x7b3281ec445d3a58654d72a48b86be8a10380910a57602460c91e4efcc812ff;
 0x14e55ee2871da3b1e051cb0857adeaefa5e9101d9b5d7623580fa70cdd041385;
 0x53f6a1c6bba5a4ce92962a6a23cdf21096b5c1c0652444a52174efaaa6287ac;
 0xf55c1add25dc95f9602356a6ad006ec557378a038b09d9f46daf00b359d88e1;
 0x302ef214c4c4e78688cfe22c58544d3cb8888bac5512044709e1c56fb3a6a513;
 0x2b6fd7bc3a3b595c206c43daac752b765a12255c37ab51ae183933737a8b8099;
 0x1e97abc82dd29d2284a66edf1d38115a8cf9d2316c79b2262afc5a43487217a;
 0x18c844b544ec0da670ba7fcad86b7e4cc3b790c3269507ce0cf608308e63d5f2;
 0x27e894e463d2d999c5bb6c29e9f5573603b4e3f55fa4b1eb315b0664794a8897;
 0x1ec3f26b1af76185f0de2d894157ddf696e80aaa3661e94163e9106a9fbddd3e;
 0x22978d983a255eae6840d50dcf586263d5a0afd5b8eb552f720cc0affc8cf533;
 0x1618d7d7b6d7ba2dafd24690ada4cfa7ec3e961f395b9c7fbf7d76d0dd837125;
 0x1df2e4ba9ba44ca6f24877919be6d84c97a6f6cc318c7297d608f1aa4f050848;
 0x1fa6c7cfaefb71fe88191e62ec1e69611c76c503ca8c6c2b45e0ae286588cacf;
 0x2f00266e50bc17514d27873eb92eee8038696ada6decb01a1138f09aaefb625;
 0x24b0ef6c8ddd8d74acd34fd2977a27c6e584febb5cc1ed119e43333934a5efa1;
 0x2eba590f514eb52770d140bbb2bfd1909fbb0056559a5bb18fbeb72f9bf1c7e5;
 0x1c01664f520b12562f93bb93f40874300703ca11b39eb1e8bae9f21944f0c4a6;
 0x158c6e1a418426179c9216cf35095705395180c264802302c2b5bdda75b4a4f6;
 0x2609db7fe10c939e0289595aad97807442c4ac5b28205bb6fd6ef7bfcb55adaa;
 0x68bca148cf00ddb73bcb32b580db9423292a3d0ca547207c281222c5ac64f05;
 0x17bcbd81a901026df975e1a27ca02b7db2b6c7daa5dc0fc9a7d71e4210c16715;
 0x2dfab84b8b358320cfd6fe1fdaadd8ee01d4658d701376506800ce70020c680c;
 0x120819aae37b3d91fc8c0babac388c536f3f091923ca13587c8fc91d2c27a9c7;
 0x12313b69bd606ca46c7008f6f4fccf3ddef09743f311adba1200581089985509;
 0x11e9b992c04a4ee4586a62142f37868d6535f948e89ebfc54151c61e1fc4378a;
 0x5f557dea69dabf8f49032a07a021b292a4cd73e51dc82f9b8e4d96d82569a53;
 0xce2bc653061b09a271f64d5ac546f7b2f3a270910f2505ed186e11b0d4eea44;
 0x195b61bc0d16c176128158e7463b3e3ee0df476d31cf641e297c8cb9f5d6368f;
 0x1d0df7d7da33f468a43a413dfd4e4e188385c6c87bd767486c4a4a6babcda2cc;
 0x13904564817a3bf9e98b1a21f1f360e5830764da4a300f059268111b51b0b761;
 0xee010fca95f45250a5ce94a89a91fbd64f2c118e2755127a562ebb00fd27ef5;
 0x279d86c488716103a7ec21aaf9d2139f72c7f72a18eabfd581ef619e0c3b20b6;
 0x11b803d7d692745f2ba754f16d795a2c51bc5576576c244edb6f80cd790dd8d3;
 0x3d093d2500c614852a3802e498bdd965dbb993e8d07397b6ccd9c3832a0907b;
 0x16652d5f69932fa04272068446046190f9c83f85e9ccbcd36210c5877778f1b8;
 0x2b6fd7bc3a3b595c206c43daac752b765a12255c37ab51ae183933737a8b8099;
 0x2959b7c18c774ae5de1749af01c678a88eb32215afbd962a0561d6d198525e79;
 0xc26abdc5e7b095a4e2237c872e90bcbee8a10618572ec9aabe2d7b1a377d6a8;
 0x17303e79bb1728eecb88e18d8b7db784ea1a70e4eed67e7f9e6deba761b863ec;
 0x8f1351b765587773fc254d4e9c6215178b81698a6e1332bdbb16c5626879b92;
 0x24587c5be08773ab2fc2250421c4988b332bfc432cd4e283fc86de3882b7898c;
 0x972bc46f752662ec72acc9851fb74ef8fa89a03f2ceea01849ea839f9a80d2a;
 0x185382531567193bffc137ce0a17f1f087da191bab36af539545a6929b44697c;
 0x2f835f068a500a33e6b44b3a492d8f09228c2d660f84558123e6292e93f906b2;
 0x159abee658fae6ddaf7329b5f76a81e713dfff71c438f7e678a5b64365285949;
 0x2ceaccfe0874e534eb39a86b066ca9b40e25793df513a2e1a8edeee8398489ec;
 0x3e5251b721d2cd67a46b4e7bc90015c36a1134a8ec5d25194d5c7c309c0b029;
 0x1018c8b0a3de1c528680503ffa391ed74fb1b89e3dc09b140f7625249f061249;
 0x2c0015ecad1833f9b004d902644feebfde2a27e50aee9da314e4e7480a1eb9c0;
 0x24feb7104d161a328cdf2dc7c125422879578cce893fccf80e5bb265bfbe2e6c;
 0x2944d98697f7ddec78e5165cbaee2bbf0cea6359981a13c27bbd17a60709b7c3;
 0x1eb6e93cbfd035bc4f79bd6d32e25c05be28216616655908dd394f8e4beb0c17;
 0x15274c4215b3498cece507e5a9c78c728a2927ae24b72d580caca25885158c01;
 0x244439d87914ea7af64471c047d1afb3ef3e4d3eb41afc5ff4551e34e0b2e03b;
 0x7c60d6d98c85efea799c2d359aebd1cf865015712f99f6f5078776b44455899;
 0xb4448d85c58321886de5cad02508cb079e475ad06a5691610848e530cfcabdc;
 0x2d385f71e742fc3698c688df7df2ac0cd06bf1eda4db74246d5b3ef234d66603;
 0xc3c7aa72581cf03932ea40da64bf0454b26ca6c02b25798eaaa3ee0893f1479;
 0x2f4091dafd791bb3cf7089c8e714a34bbc2f5fab044416870a1110bd68da326e;
 0x9a9203152f7c7a322535f3c2445dca0be8621df8f0c9bc63a8e3654145b2388;
 0xc9944612dd0f8e184d07ec5a44ca257d67514ac9ae15e4f5be49b6c0356915a;
 0x465c847c7d119bdefe896bf452c77f78e124ee0bb245270d21ed2bd79e11721;
 0x1725856f51139de9097ed3842a414f8e8f63ea6b9e6414e5eb220842583af5bb;
 0x276c1b109f88cc834ed8c2e68672a592250c6cbfea5f9bddd0834c5563f9a886;
 0x2baf5485e19edbc5772e04a26dea28931742966fdf39011b1c16f2832ffbe3d7;
 0x2042b1e0d4a962b95c5dbcc044fa0ec53a00e8ad677a6dc39e36b41a016eb036;
 0x2b6fd7bc3a3b595c206c43daac752b765a12255c37ab51ae183933737a8b8099;
 0x1eb87ed83839103c87434e39c910399447d9c63134d442335fb3e226f84b47b2;
 0x80a226b8c5b7ae68105818ce707b2441a0da70860d771bb4d58585ea1a62866;
 0x1b038c8d59fa36e1dfd4cca8bff7d38b6161bff01ffaad9e95e3c8591174525b;
 0x2ae9c92470f8f4d5ef9b96d9c1c235c46b5ca275d4e08dd1d193abee581d763b;
 0x21fb57daf9b4cdf828d74de7723985b3a1b0226d90f563ef1cbc0d9232fe3429;
 0x22bfeba5a5a36cd515fa31b9da51ef26a15ad6050bb42853f59ffda0277a99c4;
 0x20f3df888830ae894646d1166204af05d9817613c719cda745c09aa141590c02;
 0x63b2355acdad1a0032a2f2c7a2ea5f307e3c0321d261c9d7f5fa10934119f28;
 0x16de60437f4609882b9eafa6ac6ded955b8225b0985fc4e3983ea640add5028c;
 0x2ab849a10d24540498ba4c7ee7afac4ecdb81e0083fb82ef56b91d025e33756;
 0x25d60a27489116c12d3fb8af52c877f5691d57ad645946fc4dda53db186e2c50;
 0x1b1442dc351aedc7917b1008bbdc4a05d92e4639e7f3af1b7f8c1efc9bbc79c8;
 0x2502537d03523d64eacdc4da240a03f6981a89c3f3352ed51b95231d129f6efa;
 0x1b786044b15312f04f057fcb32f799f0176237a9e5c70bf309a9860ab90fc724;
 0x13aa1eb0dde09e3816e83ef9027b5b12fcb298f469d8523b588d728f6fbcc841;
 0x15d72e8723e077bfbcd6fc983a47dc7b580681f0c4c4225c58011bae84f8e1a;
 0x1369471512c4227330fa0c25299570db00e2db62554fdaae3159988504703cf4;
 0x1b7142089a165fc6d053090f4e2797f7ebd8faf20861604b3ca39ffa78d8fb6;
 0x65028c49121ab4bb6dd4b70ceda8065e546521a801b3690d836602df5c07a4e;
 0xb0c93a4ca60bd6782440a3ed7ed610e4ae11dbb6d73cbd43bab80e55c0ef062;
 0x538fe578ac88710d6dd29a5916aa739c9a9ffcf0f692b1f03d0e890a26a7ae7;
 0x2aaf085390a5682425de02d9feca6b1713d016d1682042a9283f70b773eb8388;
 0x12d3a3b814c1bbef754dd237698ca763867b464e9a81d9bb031ccc91574878b2;
 0x24fb699b2d537bd375a53a4cfca82569a0f7bf3417e1d05c2f0a996c5e85eded;
 0x11dff9e9c33f3786c5cceec919601c95a9569a01502843f7d4ea0a7078111ab3;
 0x261e407b0cd0b43f5b9e5c229e1372500707db45aca65d3c28421a3583367e4b;
 0x2351bf0327b143b2094e336337c156efd6dea461b8c2d23baacb18abdab7454b;
 0x1ccff891ab723798b4de646bb5ad6d3e3da5970a79a4f25dee25aee7ddc543d9;
 0x476e4b00efa019c97bd3cf545fe7a670aac04ebc418c4937827ca368ed3cbc2;
 0xc1e697b8e69d9e6cd15a5b7e2d446038e11a06250f693e21a7ef4d9ee11e53c;
 0x2b6fd7bc3a3b595c206c43daac752b765a12255c37ab51ae183933737a8b8099;
 0x1a09d2b7e646521dd535d06cb8c4de0a1b42910ea066edc264f59380e26cffe9;
 0x17cd99a103a4adc1725b545ef98b3cb45b2bc761caf0eca510891356c0f6b6b;
 0x6b9bdeed92c495a84a828dd539be8327529a051131bea1a198bd849018a5a8b;
 0x8680012993a07914e68e1df59d14f13f130cb8c1099833fc0d2d2d11fb311d3;
 0x247b79afdd0a99fa80e82045bf81474ef05d19174b15ddfb6a5eaee7d98a66a7;
 0xeace989a2a643839e86a96e5f8a1e99e868ba1becec4171ed39c7bd2aacffc;
 0x1537fa1eb45e0b8dca81475c350eb64701fd14bacb0a2948609c9fa1b9d57fac;
 0x9ebc426effe66fcd5bbff51e0aa1f60385dbc0c7feb0d9c6f4fe06384456ea0;
 0x18467be5d0a4e54aab055cc7dbc4f876d56097c5eec5b27f9a15264059b0eea7;
 0x2dcdc0099307f6a54c05fe4f82494e0611c4909ebe6643697f44ac932f533934;
 0x3fb3d6990d8e8da405a112fc11f9caa56723a2f6093e1870a866c21d2f3433b;
 0x7903dff1ca5b78cd6e95e1284f7a87002f00a81d612f82842bb2af82fb850ab;
 0x1ccb172a7b0f1139bc8118dbba6bda8ef321cbdf153a4db826b08ad2450cb8a4;
 0x231cbab35a8a0e9dc999dba368451cb41d7456f2cc0481a14a2a7d72f201663f;
 0x1185df89f8a40ac6098d898334d0747a5b3d0285d41e2038e38712cd26081dba;
 0x2fa064d281be156cf97dda9141c6ac20d0e19d85474475ee359e109bc25a5670;
 0xa2114ecb4bb88293eba241bc0fc4a3b375da6aba30cca76e84810154a093044;
 0x2bd5621d46d2dcb41cd8f8a22620ef625d6fcee5d6d507250d157b39e469240b;
 0x1584517e545411ec6c849b82e0fe8cfe70cd715c5a657d78fe4dfa92cf690d64;
 0x612bd1a5329c91f6c6f6c31809951e143c4b5ecf97e2ff8c6b02463fe29ae6e;
 0x26d3d348ee74cbe27e5a4745e738151b3f61fbaac3ca334b1c6f0ee18a763294;
 0xd69c097ff13bad16f04826fcbc91eb99221410fdabfb06a04c69daf5d0d46ae;
 0x19df85abb6034b86a237f3c2a1849853eea70da522f725111bd78831a70f29b2;
 0xb67940a72701ac24d81e056c7ad73e3dfad45f6c1147693e8e56ae8759c75f1;
 0x2d067334ff4cab892a24cb40846b591176ac47451dbbcde9cac1de766bfd225e;
 0x250e8bf6d939e2294f6723c8b2e001809923b7157ba297cfe107b8220cbfc006;
 0x106265f59a713f1de605f071461cc7765c6eb2ce12b7494c021e07b5e0b0a121;
 0x268591932728ffa445ab526d9cb60f6a1de6c10e244cff633ba59b9bdb957e04;
 0x28a264cf3eeeb2d81d4c1532e63e34496b3500da9e62fc9e8070bd5967c5b9f5;
 0x2e289ec9d9fb747c577898f2104373a49adc00a51974b8fb1c63793f22414f2d;
 0x2b6fd7bc3a3b595c206c43daac752b765a12255c37ab51ae183933737a8b8099;
 0x292cdc4fac941966f3f2fdcd0b64ced5ebf1766246e1cac45abc40423575d9c0;
 0x8f9166b886a64e24bd5cb9f5327942cd66aefe8904bab3ea68f1c93da72ff30;
 0x1d9346b55cfdbce62471674a48c93173f222039ca540946df8cad8f1adc4abbc;
 0x284445af50c975330a1d48657b764cf7b19c8b5d8cfd72bd8cd1aed812458804;
 0xe5caefd895dbae4ac6d9a50ba9da1fccf2e99182801e50def13f656cc52e823;
 0x2c549e8a4cd3cb9c925dcf4af0af39cc5d419957e85a1734fbe0cd495b4e6239;
 0x2f691c2890ed7ae20244dd12ee9fac94cbcacea42bbd323484146b83beef3964;
 0x189c18874e9397abc281643bfa747739e2ab4f51c2ce1c64d8e0f6e0f65f065;
 0x2eb6705a02c7da98061b74e10ca594d9fa85f2e8a76991313d2720268f65223d;
 0xb8c7b073c91922a0a25ac24de7c5781f5b95c1d29676b097409380c6e4f0d2a;
 0x2b254c1c989381315f1b091c685873377c05d1d40e3d20d41f56506756ce5ce3;
 0x1f9e68c2a44b9a206a5d1c428c27604031de91570926a23190329781dda14dec;
 0x107e82331d1a1db3aa814c0e3854ceef0db0270c842945e09b352cc69e959fdb;
 0x17fcb1867c52d50eff04a137a183d3f0dae94b5656c8818b4fe024b7a343dfda;
 0x263f802111aadcc99cc129d051f90acde70278801f4dcb1781b744c208b6aa52;
 0x27ecf8ec238d8089ba1393e8bacc856c9b4bb554dfa37c89a6d6bcb0a5954c9;
 0x2aac3bfa20e64a0c0012512611b5460908616ec7282197ab7345172daf70f421;
 0xf822bf90a6d6c7e046af505fa63c58152f880dba55cefc639313d104a99435;
 0x1d482f74f7352cc3b1e07f0c4e0ca4685417ff468574b7694f6ff7e9b438323b;
 0x9efb3fd5f2af95e1269ca6e40bfdecad8ed10297b2261e7a27cfa076bda8348;
 0xd70b85544585d7520bc48048e716d4bacc8a357c3efd735e10376c3a68e58f7;
 0x2a96c2d2c57ff7ff8a1fee90d4f30a427c4ee5faad1bc0c7640dd2628d7be337;
 0x467014fd75c87da4bc08542150237dc948da566956c03a7734f8aa3d4ce2a0b;
 0xb26d2f933b0b528867e896f30e7045af1f496d73a13e58fa1456f4aae1a911c;
 0x25d68e5bef9420f64c42a4d44aee71b216ad9054d968dab70bc5eff77556c9f;
 0x177f027b0cab57291463ca56e3be569fd5579d89ebf5fd528742f123718a79f;
 0x2c5132a44be83d88879ea114016e67092bd966a9ba0364ba501fc05b63887493;
 0x14bf8d2e43f7d1338bd93c4350007077fa9ec02ec8e64e03950d17efa18711a8;
 0x309414aa73703addc97561bbcecee45d25f19b4591dc6d772fcfe0801a85f30;
 0x40ea41587d4a40b935571880dcadf45e722e4273f0f2b32dda53e53e70a7a87;
 0x2b6fd7bc3a3b595c206c43daac752b765a12255c37ab51ae183933737a8b8099;
 0x10b0d37ca26e90c6c139a01ff17861c46ebfb646f348fa543a44fa933dc6c7ef;
 0x175da5183f974e9606eb7d7e22cd12ae8e27dbecb9bd3c4c12b3f6ee0f7518f0;
 0xed8273a2cea837930a2c09a3f7b24188cf44b7d3b2fe41b13e03bcf26b925c9;
 0x1217c887532e425c1502f9fa496dc792acbce0cc79c661b16e4c35009e7d84a6;
 0x1903752f1c798c095c24ee714d1b8124a4b4b14d2ee2ff49ff7169ddbcd5b4b1;
 0x2803547df88fabd669511738ffb17cff8919c233c053e2b10d01bb398629deaf;
 0x4ee5ecf2b925246a34bfeaafc9239f9a5f7277fb1e39131900b432baada6dfd;
 0x4c37b33555c362050a25021d96f000d1a1dbc15c9965b2536bc4ef59b52fe8f;
 0x1a68530699df479a39fd71d5699898f91c440b61d7138d4c95a353ec2a60f0a4;
 0x62492de9362ceef05e663b2e14cfc1065415c4dabdca0d4b49b602228ab9aea;
 0xfb5d4b500ecd21e402496acd0c39a0ce6aa93741dd846628387324004b15dc7;
 0x1747b55b705c98dbe7c38903fca5260a313fb1ae77984671f6c2fd594bfddafd;
 0x2d5a953c65e21d277459d6ac17330055536bc85c49205e6e75cda3a58faf9b2c;
 0x12246b22f19de420b776858c17df7b57d3dcb9dc48a34167b9b92a429fd7a403;
 0x1133d3224669f992858632b54a9a2f3cae9a86979684bca621d21fb8a7a84dee;
 0x42c7ff4112c72f96e2a90a37d0b9755a935d43ada317de49047e45bace9214f;
 0x20948256d2882d787bd97ceb71a8f9413ca287382dead6b80ec8511a0f820a94;
 0x1a3624b0bd43a88ac7c7de460e246ca48ff71a5a23098ce0a713ed4cd3b42b7b;
 0x1df0dccc539de543bb1cc2f5a0747c1a1d39398b7e5d2542ad7df388cb9a2c1b;
 0x21dfd5ed89c255e1c584093f98d854f81cfc58f92674fe0fe8dfca8d7c1c70a;
 0x2161ac36dd50d34ad7ff8e2af49bbe1088d3318678e3a8d8e0e0b3f430d55d2a;
 0x1ed3cc39023610359593bf3e49a58dfbe99ee1afb33acb553bf08012aeac1747;
 0x24c8d8944de112708df57b28fd012d576868d998ed87276f7192f8fe82044fbc;
 0x183fb7baba3d12e905bb7184ef691982c1dd489844c06e9f7a048793c46a3b9e;
 0x67c083da1428ce521951ba41ccef834d99cb41e8b92a4c4cc7ce8dde2de4adc;
 0x1a18a9c1c45e95a541ac8dfb96cf2bcb5f93ceedd0135bde9344813b3b5762aa;
 0xddf7ac0878db5f4f384ed02d5fc90adf7215e4c3bc57d37f4c27ce4379db9a4;
 0x2adab562b4f7991948d9cebbe53a821fa08c96b9100b17a92d2ade4032f490c5;
 0x1f36cd6e66832646861d1a44378f81777cee66ee7b66ffa4466e9f9827d3efad;
 0x16c514bc623520a3c63d724ff9f8e2128de3a4e93ec26cd60596d2b74cf90df3;
 0x2b6fd7bc3a3b595c206c43daac752b765a12255c37ab51ae183933737a8b8099;
 0x276235e6cd6b4ad073433414a39f872c42ae47d5caff6a0fd2b11db226627d13;
 0x288fc36fe0e39bf7f8deb74d5edcc5d6ac0b0e13f715a911a696212c8244cf30;
 0x1f6e77bcaf2e10160d53e81aa4bd1fb9620841cd7cdcf5626cd1347714f1790f;
 0x2c50c513ccdbe60dd9d14262db601d085beb529f9f9809e734b12cee63ad60b2;
 0x1048a932b87cf43cf61b9fe7d5e7824a9c0be2d3d8a6927819a1dbce4de7594b;
 0x258802f01620793e2b886ba9978721882e6ede295ab05ad492dfcb56055677d4;
 0x1fdefe23f71f9c4e4b5a27bb8c5ef9e97f8a272361f8e6ba93334d5292ab1c4f;
 0x1f46592f6d4c77467466a48358c5c195e12db247070f684bb30caf332e050b15;
 0x1a0628c0617ed94340450e8b212d19bb6d80e0c336a0c73ebd489718d0245512;
 0x362fec7e50a9ebf5cbc1bbd06320a44839f3e1a24c6dcec2cea98dc2ed8958a;
 0x1434da4216548b811c240f289b634c70bd0217c2c78d3515981a08f0b4228a56;
 0x2a5a298ee338866a51ab733cd5d912aefca609abb924c3b91334ff31968db1a8;
 0x2fe35de4f8239cb701957994cb678fa76b45ac2ca62d155abc6bd0063d8477f8;
 0xe81871313b59264be15b4d24465ccdfa520f1aae5e34762e48814c151eae20f;
 0x1dccfa84663bd168fead0d648a7024cc7f45de299a1552c65c9aee69800a21d;
 0xddcb95ed4ccd6154052d0399bbb3eed354d1348a26e7e3e3b767f888b7fc1c1;
 0xbdb5ed04d13305bc7abdc9a1f72a3cd3c325a8d5d0b37b3f6bc32f5bf2bc30e;
 0x1a3791a5d480f586e225f6a3419d92bc7c93d3c2c941e201aba2db0db9f15d73;
 0xab254daa5ccaa47e3ea7ddf885a32e8192d280ff8b96254036f22562e3280af;
 0x10d084b180585ee9000d1537f77b4d6d3befba3b2585edb286f9e382257acbd2;
 0xe99d44a8d7b3633a48109e8437a866139b546ddc3a43911413edf9c0abed951;
 0x1abb36484f304e28d2b406edd5d4232f52246a2642bb87e5e8049639a5a7e48e;
 0x1f24c896eadcd0d5f6b1067845c87cae3897a454e6093fc062b6e9fa9dc327db;
 0x1f8c613272cb2e0085c3de18d2c0063422bd3a3f7b34ebd39462a54f96690dd9;
 0x3f8600811917a21e6893b3147b75a987a7ad447437ad24fa472b3016129f86a;
 0x21268f597b84752db51be08a3a6a2a8b1b2284d8b0442b549ee5aaee395c020b;
 0x28d3ef83eb355a7d306caba33c70e6e86900ba153ad61f6b8b41ce49daaf52b;
 0x25d200e83b7288530086b690322a530ec8b502505f3080a7a46e6e822ac90d2;
 0x2a7f6b2aebe3142b2662d473a358fc1bb9d816498b3c2edfff86866e2ac00082;
 0x299afa0d0121fc23c6d42fb127eab14f2dd8ecb1ee0c04376b9c732e97a5bb71;
 0x2b6fd7bc3a3b595c206c43daac752b765a12255c37ab51ae183933737a8b8099;
 0x292e5deb4d74974e5601e05fdd2a01a57ccfce1962e3f12ffc47ecf62cccddd5;
 0xb7fe07627b2b86b9e560c5c6058f62a23b9cb416af6d749319a5f0a731e9b99;
 0x1be04625c4aae2000e9e13a7959133e86b7888be0de9c4bed8431578d87ddbf6;
 0xd6b21b10daf3f589d71fb89c727278c0cce92db0d4b058ddb3b23e379fa5c7b;
 0x208f14de82a7cdf5b8f2d2c2d77fe963748847574dc8f168c53b1dc68674daed;
 0x261b3202a10a92f8f818f5c9b768d891b3fed3ae03b189e5a743b6a2f631210a;
 0x21da24b99fc179077a9f8ecd8f3ec7a3a6d4e8c62c3721f5a3f4a12fed074d91;
 0xf821357065851a94b6fc9d8d679679a05ca9ca81839c786603a98d92cd3be72;
 0x146cf2ddedf7045102306285a0322a26b9b312d8ae0d5638e122fa42221bd203;
 0x1f5595159d4bf74c70466f5a5df27f878727f037c6821bd0b4a16b9a1f9e22e1;
 0x2e555ab81d4af50711a229745a65dc974ecbbf16d855767d3ee973f261c6958b;
 0x9d88eb8fedc6dfcad4ab68ce84e1bf329725e89adb094aac5a25e36f8fa1248;
 0x5becaddb686664747af21bf5a5e4ddcb030a20314b123c58dca055cc8f47200;
 0x2b5133b32b578393ff342e4ba0169b60ad72d1082fda97c4b696610dcf06bc50;
 0x209f4bb986abb2671c9ac555ce282948dd3ec049e67812e9add90f3d83d62346;
 0x2986e1901bec371bcf3f2bfadcc34003a901cf3c6c8fce5a86715bfa70dd05d1;
 0x36f213f560cda1028bca7da534b8bcebf84ce7b4b275d873de14b03fbb8ecc;
 0x220d1b8cdb11be75d11b27932ab7026a54326b5b340ab065e1e4e35d26398677;
 0x1fcd7370575ccadc60429c962fcfd8f4b3ec9614c085d1383a943d7e487c4e37;
 0x1c49ea5e5ab4635be0cc07f0d40a8f6bf68622bed5daf5c3aae2a2001d19cce4;
 0x2c33a36c54999aaa2e54efe70048654f4d8fa8bf7001a8c92d86cce2077c8f26;
 0xe70e72a3a3d2e267a2b6af5dfdd55a25435c6f581a46ff5fd461f08d0e9f7dd;
 0x6cc0728f4993107d1ad1cc3c083d7f23847df303de20d92b5ec90ff8785e8d1;
 0x14adb5029eecd4e65bc58af84408697c8591fc5f6f74b6cb8335e7766a93ed1b;
 0x55d9943e138d24cf72d400134a020e38d4ffab9f52f85610b0e5e678b6ef47f;
 0x24659e5fd5b9d42642221039b404c0940c7a560dac0e780c59ef19df7fbb1134;
 0xe5d9ffb29775cf1d63fc54110f1e384ff63a353331c2935bc061eb0bcef7bf4;
 0x231f3394c59385b1e8bfd5709fd95d00e580cdf3e37f8a940c4213d03e6fc636;
 0x1d74d876aa5187f518188bece8d3f4510ad7c73380c362ad8252e6c61c4cbe88;
 0x22873eaa2fc0f1d24d83ad4e8c090f276cee48919965304fffe237a5c555a0ce;
 0x2b6fd7bc3a3b595c206c43daac752b765a12255c37ab51ae183933737a8b8099;
 0x1cfde7b00570ae56d610b0ecf469c6d5417dae9656a9b36a35c5a72dd38f14a4;
 0x1a5111cb0a961ae216f5a1d83ac8da38d6910c2f74475efc1d49a8e494d161e5;
 0xcb1846e6664d919ddcd95c78357bf2029b750dd3cf02f4731b4975b4cac64f8;
 0x2cf7d663f92d7fb9c20dbd49208ff17b66a023c460eef5837a124bd89e3e607c;
 0x203ff2de4108ca7567b52a45ca3100b18c3015afbaa01b951010a46fe7b3a2d6;
 0x2abcc429149a29c4015959567a3aeb77ec781847dd62ce295a4cc9487f58d2e;
 0x172032b322c260b66b56d12d9f27327bb14859be5cc0238dfcb9d1f3a8a7c424;
 0xa0e87895274d1193436e943de47d8ee0909c998fa08a714a375656872fc5702;
 0x21eee81004b563924c0089d162a2a0b5047ad60910a5931ba25103364967bd41;
 0x19271e4f9e7b8a7f54041ca93fa5005d76e5960bc6d3dc132e1de6b2ea072329;
 0x42dc1a29bd582fd08c781efc0e67506afacecfb6997ac871b203cbf71df7120;
 0x6b8d08b07a1b58558a9dd55596a67cd72960514db555a0c21c6ba29fbe1d563;
 0x116c800fc674c2d6909c1e55568650ca2439ce3fc1ac3a81ef5ad8fe2e9ef30;
 0x21b9ef80d19679af571fb185e6c0eaa780bbff382e8bb7ed8bbd342c40aeaf04;
 0x1aed5bf3d3bf68f2ec32aaf43e0b43e380244f25666254b23a0321a33a6a5840;
 0x276ae4e84f3446a707103550805c52c0510cb0c2e253ec32f2fcba255e90ee3b;
 0x677e26ecdb28f20a7d565510f73b24c036bb6ee0636010e6bd2654a15ce49aa;
 0x144b679dfe4fdf64adcc33da78a377591421c486df1ac1247f8962762eec6353;
 0x2b3e47433e01893ba1416ba93aaa4e39de8ee93f6782e1b1f9d709701d26caeb;
 0x21007ada7a8cf858670017f02b6f452abbeea2cff05ba63511a32408bf8c55de;
 0x99eb11c109ca74fd589d0647392ff6056a100ae0659e60d0c34b9da3f27365d;
 0x256f44ae0dcaebe716aa9569b9373053ba6fa022693bd865017a093e029231e8;
 0xb43042d175b108a0e9c553cd99a4d288ba1bd0ab4b2cffc049bd63ee949bc2c;
 0x2820651d09922281a40505d755c0951dbc15977d8f3ac9c9bae3929044039a19;
 0x7c75e7a56b94c4942d893c12b0e8ba3d7ca49e2435fcafe0ec9fdf4520bb9f8;
 0x2407140cad6a6c1d58b3e8bb6f083b3d1ec411228763dc4cecef95c56ef9f801;
 0x19f6713df3399cc47648b497f80707e11c962f694d9486a1884214d63b1e2423;
 0x126880836b31b2ad4d3941a65eeb12015282959888382bbafb662ffcb146cdc9;
 0x10f48b8b5d3586007a9da374301e5246ab668094850451f601316f889073b66;
 0x2b35da385f9daebfec630113748adcdbec531e80323e00627efaaa55b9b9e977;
 0x2b6fd7bc3a3b595c206c43daac752b765a12255c37ab51ae183933737a8b8099;
 0x413c2aabbde38d94bf1bba05b680f5fbeb526118e75df7740e03c6497fc2a93;
 0x1f5a1a9d111269b8fc9c4bf295f95df0068a17c12544161132d3d06cc6c28e17;
 0x212d07b689f77ab9b11d9c58b8eedfbc84a0f3a5c3d011c43558d04096b3c595;
 0x7c689aeb8426becf2d38e8e501aaee897c6a9aee5e479b40bf1b84a50fee324;
 0x20ad507d2e6bd8caa8b7b879d8a0f22b037fc7784994576a2053e173b8799f6;
 0x29a7b5d1df34024626bcd4d01586e1ac5addfc06e8ae7e20e4856705d6921e7d;
 0x1cbb5f6c2ab4fe1fb5e81b5bf2c583b7f0f6a3e23f51899071e6feda30610084;
 0x1ddfe3794bfaccff166ddf4fed76cb5ce75606b016aea81a4decd295fcb73d6;
 0x2b49298bd3a4415198bd2f444de89a1ad359aa90b14caf77d1afb21ce7a50b30;
 0x2c10b2b301be57504c8689054ac301f071e6aa6d9f60b9c428fce09a60acae5a;
 0x2672e1c103d7a3f8b4f25389d69b884d9bf997dc4caba63c15f4ae73f7db96a3;
 0x414ada0c4576f5279952e118e442480aabc46107cfeeda9ef834410483d7716;
 0x1c20492095f5c09599f0ca32e7df69be7724356280f799fbe074b29870e67700;
 0x3ac96e8e3ea740c8e808309ea5dcc35d62ebe5d72b66c239d5bd07be9523ce9;
 0x198f45a7fcf410eb81a12e1b309f0f95abc6608e847c5a68e3c352abf72bc469;
 0x1f46d6ace37983cc1f2e530296fef1142b1b074c0eb50521de863159edc3bd7d;
 0x95d0ed6735b0fe101e3b7ee0586f060355513c443ddf49071ad90dc1d05e4d9;
 0xb912abd1261b825f9e4b3fba00f8250befabfceeb00ceb5d0062b71e99efe2b;
 0x2fb34c0ec0486f139c4d6c674da593e2a92dd88b4556ac05151754050bf7870e;
 0xd3eba1daa20eb618ce265bb1da966997f4c131b3ff2ddafc0c71fc035a12f51;
 0x2364018273755eaac29eaae7e021dc0ee1e87dc603656b32fd3c671b7076c84c;
 0x1f05f9d5508343ae4597d0f01502a1660a8e5975a4ccf5b8915712c4e4a782c4;
 0x129498a8fb3540f610123f3187faec3fbd0f49e978dab3781e5fb0b117dff678;
 0x219e082f6b2eebcf1de778082e847881b9327f906f9b8e27d33e9ff0c10d8482;
 0x15b6568d2a70fdae1cc8b0ad01d746ff2fecba144f504261995b8c2f116780eb;
 0x16da3ade68d775f641465dfa1468999906f61926e73d3e08da7509b4a78888d;
 0x1e0899f2fb6d2385316656b5e8f64867b83dd2800633538a195f6860a750022;
 0xd5c49a0cfc9aeafaad6415787b8cfa7bfe62c569b7d69552f4c138b12db2710;
 0x58e978c6c092939294d1e723aa97c2e6000a5ca187653b0dc4858ceac8d1d56;
 0x188a71a52f914ec4bff04b742907b84cf6e1c57e855aa0097595f86caa7cb23b;
 0x2b6fd7bc3a3b595c206c43daac752b765a12255c37ab51ae183933737a8b8099;
 0x2f3a7566a10cf8d3ea9a794c4adff2f557808fc43b07e76fa4c61431a2063453;
 0x9a8e3349ecfd2e871b454f2b2e931d41dff9a96fccaa7ed0cb60361edd4ac48;
 0x6a81b30ef222ba0b2fbf14165d46c175989d325caedaf588014d126e7585a96;
 0x27c859acb50045e87ed4b70aa9a561acf5fbbc8d0a5215fbf0c5d49063f122be;
 0xe784382f4defe97fb1b1053651feaa5002b9d1c2cb522a0ccf949d59ee596e1;
 0x179e84bd06bd608d1d8cec72c4d182c13bc7d650ff510cf2b1f4e584eb24872e;
 0xf23d189f57b74ae31ab04b76d0cc3f67063ae1ff17a9648de59cc281f54fd1c;
 0x1f0d550989ea2cea26108bde473296824340fd2531a2b2c20ac14327b009d62;
 0x14a346d622c46513a5da377f73edb803a705ee18f9e447dfed88d5ada5ede42a;
 0xa71d5e77eb081c8570d2601466bfbea27f143f1b2c726a343034f015c81ece7;
 0x11fbd1c03b7aa3a9f5c607da1c4164f928055cf6e2a1272506df242230e9945e;
 0xb5dcbff27d668509bba8add0632d65ee5ddca9bac146648c6caf2bd09d9e46e;
 0xca07ef6ebaa5ffd1e6f748cac7192d6470b170355a8517eb697724cc1c3289c;
 0xe0dc71090198288bfffa79d2237c162ed9dfb5354c532f2d6369ed73df6374b;
 0x191093f164dd4120c06ab66dbaecad8a5284a96ab607afe1b0ad10048ac86920;
 0x111d04c083f51a6fdf87412a537f6601076d61f435094ea16946efbfa4893e97;
 0x133c5913f25ff5eaa860d0318f6a4b4349fd22f2d53530e5c785b70988a3a88;
 0x8875f47d6f518c8c2df51a786bf2207aade284067228f440e7d0307520a56cf;
 0xba9f44a107a81cb23fba66f2bc34152728f5f5ca68406649a7efe47c9473f21;
 0x542832ab23b6c7a4b547a1066037152a2442e998c5381ba97698413153ba6f1;
 0xba1f764367360952942ccb6edf051c8f937906a816641e0d1e9e2ed26906fa8;
 0x2e0611fa4ca3985d7bfaf512f21a4081141f4ed0dc4b022834d3cb6cfd8b7ffc;
 0xe6f23c0ef6f159dec68341a87830fb864b6c08cb954a14a2500876697897fb7;
 0x1a7a2a4a08d87e75f720302bead7ca21c8f7c2ed2debaced9b8b1b2da461cbc;
 0x1d8005df48c8565987dbb442b482cae5bfc10ee486ecc5b670ce861345979d1d;
 0x28122254823f8926acb7e98f557e796282e5e1271618858e76d49d0886da16f3;
 0x2414d4aefc7b4857df681328e68a582d23b2dcffd579a8e6aeed6c61050e05cd;
 0x2f710c72d6da19c7d87cbffd55665b472b0265d13e2326a9a33b96e95d3746b6;
 0x2e285441d0bed90bb41d6480836850e4d76da8211b04a236dbc7c3c30320c00e;
 0x2964901a2b42e9aea1a6593662aeb9e12077a287434bda4ec2012e36a19dc95c].
(* poseidon_bn128_constants.rs:9596-10887 *)
Definition bn_c17 : list Z := [0x2fb583762b37592c6c5a95eb1d06694b6c6f9dc4f1ad4862dd8f5e67cb7a3f5c;
 0x12e9f46cd8231bb03d4028bf7a11d7c0e331dc05c088e6dc3d1d001da58b85a5;
 0x1275cd70326f52f816a7c53fe62e323efe61a5b8d3747f6dec5837a825873afc;
 0x6e7d165b57b0299d23e750a75ea2e12c9c7a16954c40a4d10904a61e8773541;
 0x2f67f23a93ef1e215a4add2ecb41bef4b9d85ef9135065d992800e34fa98108b;
 0x169eb9952e2a8623ef38de57e15e242df388019489e01b7c84fa839d864dcd1a;
 0xf4cd404b4024ca13a513ba3156d4de9cb3aa240c683b3e0eb7253bc98c8b5f6;
 0x1c486bfae3ab032ff519e8dca6dc41ea060b0ef9083127bd7c2c4e089fd45aca;
 0x102e745864251ce940c67b1e2f4bc4d27fd3851571ce6813baac665e8cc0c79d;
 0x1e6a6d620433d22293044ffe36a5f2a729c129cce3eeb0bdafdcd0d52bc3bab5;
 0x8f3abf97ad8d01cfd8651ff2d576e3d68ecc47aad82b4188d92138bae603b6d;
 0x283da3f1cf8477d9821ee60378b1c39c72428511a1b9d6683c0302938c248ce6;
 0x2d99cd8d88e49e0babc84cbd58adbc143a75a26ba16f96466a2e41629734437d;
 0x171edd6a7456a4c25fef8aa6d8b748ead869369f72a4e502861fd037dda8f779;
 0x2fab64694369e3a2bd573c0cc383695c02a381e785792a3fabd6e1ca8df2d3a1;
 0xc6155944f64f7694fc8ecd2a2b9a2370568c3c898db9531dc18c72474f9afe7;
 0x1ee0e5cfae030622249210cdcda71437f28f0b1730653c0915efbfc08607c3c7;
 0x2741e1a7bc6ba2cb162858c4e8454dba0d0e12dcd956d127bed071739ba5ef86;
 0x301194a663309ab8d80a434822a6f6552585e888d498581845f54be634ebc93a;
 0x188ad25347ec25e6a8a1b5991b3e96df81f55cbe2c52ba48741c04efd471f296;
 0x2d1a0a032554c50b22699496dec487b01401f25282f587e1b575fc98c9fbd648;
 0x2c47fe6533bd34a760084e8d4c488c4ca2b3bd11c22493179ac81a99f8a44a9d;
 0x2fdb414eb8069b5573db5c11ede045a6009f267a8d908dbd7d90d6a0f028f28e;
 0x9cebf9eb6d06fb278fe736d6ba09f93e0df2a040dfdda5fe7d9ad0fb94bf62;
 0x1d55a3800a64ee82703ab1591d18adb00259d168276e1b0fad4718cbfe05966;
 0xa2f6b059255eded6daee4743c08fa84dc3c51bae3179040056b3a8df38982ad;
 0x17cf49c0568384e937f81b41c62c476dbbab87bbd6f4d9228b04429299cc81b5;
 0x2b28f60b3ee128401dadd3d94dc96f001b9432f70ea1b3b3219d80d369921aa2;
 0x25f0cfd33257de2cc32415e65ebfec4246d90a181e8145f9387def3c4c5e0d8c;
 0x117c3c2b702ecc0d12cdf264fc26fb8b4ec60ab3752d20f1d2d7c440cd461273;
 0xac8603ee819274a7bac613b6d26420bca69a1d147072de90aa39d4af80376ce;
 0x12c3b1dc37d665123fa74a2e68ee329a42f75db42d2b1c055a71c16f04d4455b;
 0x107b0f5506fdc2e774668e4192b959410a4a8e0c9e82d05c5cbba8be93d73f37;
 0x1bdb9f5e2cf7aef69b26f0bec8bbd500ba3a56addcb25505c877c662a810899b;
 0x8224a746a8f72cba619582bd7204b8e21d3ced7370bb7fc77ee51241c1cf72;
 0xd2fb5c8797a28a15bd27665dc510ff7afbae95abd32d7886d223d1ae86ec2f5;
 0x21397b45c024f6cceebbb9d1b0e43644f6ca76d2de9eb0505c862f05d7330586;
 0xe207305e6d3028b5c459df6090396fe3eedbae0cf8884e15fa5b4fd9c5eeb4d;
 0x1cda646c94c324f84dccc02f77a716daa86e7677c57047caa0026724c12789de;
 0x3392d1c129eecf880dfbdd7d30b4a8d35c5736d71e6e1879fae2362211a7aef;
 0x2a46775585cc9e5bcea482164e668818ec54fd76d9d2c7d933be090f7a6878b7;
 0x756d791c7b670dfbd18ebbafec56fc148365f1df99518b634a491a2203c9e3a;
 0x1682d281fdddf6f34b42a4bad0b260d597e8238878c1d7a02180a699db4faa7f;
 0xba069dec00122629c2eebbe6f9842040a40d8a12327bc084ef34fd142cba2cb;
 0x25d190a3c1e234d174ec14da8db903a8df0a76e91217f9193dc891f1965d1ab3;
 0x2206270cd7f6cb0f4692560ae2de0eff1fad9f86100053a3ea52db32f6de92de;
 0x13135b4171ad752f3906f7a0227406d8c50dcae587b5a671c63eaec0b42efd89;
 0xff9a3343287ff5db495f642d32a71f193ce25650ee9a3f0b3cd70ccdf11f4cf;
 0x2c5fbf86b2df75c9f14ee20b314fe4b3d7fd3519593ad8c73ace69cff6406a94;
 0x1ad6dfaab2cbdb350af0f2bba83c21438a078f09d6f50a765096469075307c81;
 0x26def3ab54ffe04d216d72bdf3e34345c21f29c715dbc964a70d1565224a62fd;
 0x1ad802b37c96c6ad360a316cb0883a15c3d6e951f3f81b29f2da517a93297c30;
 0x16963177b53b5162bf2f9829514ca1ac60196b428a7770a80be012a42eb984e3;
 0x3206529b723d804ab582c4463e1d39ec579f6415e0c3c100c4ddfcb87a1b6eb;
 0x1b7080e5b36b8a6782307882edd6ba9c43714a319544360725f10cbe4036d56a;
 0x1f501df667ce40f2023272b32ec123854fdeca8cfa8d21fa5f8f91f4b3c6e151;
 0x29dcfd2048ac0b5eb2db20316a6cb805490cfaaa7f7c52cfe325d0ee3f3c8132;
 0x2b5c0a4f3ac49471deff47662cf40c2053e1ab9bd8c90259fd39958819f1cc26;
 0x2bd152e7a7045ab64a942d6af902cc2995ceca3d5fa5298f10bde467d20eb383;
 0x1924180fc608c30d71ca6bc196f6b6b65915d82abb6aaa66df4154088dbef2b6;
 0x8e7a84a3ec9fea2c569690436e1b89f8e9787427cc2eaf895f86bef37a6a6bc;
 0x1bb936cd8a92e3acb1d40861ae7ab5d7b0b0e4d1548e136e2751e261632cd5d6;
 0x2f6fdb04a6ddba0da03ef70a36c8912ce407b81e963f4c4ec4a05e1c1afdbbaa;
 0x33dd37517c4e06557a334bc4c272abc198853e381599a5f0b0f248d5e94d79a;
 0x257bd936aa56d71b0d64ba98006d38ba85fd07e2c556443c1101deb930d62754;
 0x1c1899724669efe1b1d9b17d5626fa7ea52d62b8bc93a52fa69eb4a5a0d669ab;
 0x136e4007bd769d059096dce1b8d16e8d5ebd9262d646383b80ccecc3f6708e2d;
 0x1cdefb056618b5286265f7d1cd85cdad945dc9c6d203b97756700a68a7e305e8;
 0x13bef640af3bd68eddb99e6532e05fa787171ab21061f2d51282505558b0f778;
 0x222c43b44c581faf924430fe5b1674e15e5f62b174e936299e8fa41aee000c17;
 0xcb7489149d78784b55deef16853e3faf1298e78da5c3d199e4f6256eec3bc94;
 0x1988cf8b0982b7ebb3c5df1be4aa097ca59311816ac1c52df87f604779e5d81a;
 0x2a86243d5537e0e1bb946ba87afc04141a4f4683b73a8a642f430113b5834d79;
 0x810e4767c0f83b08eee45c743a28f6aa0f6c478179dc923a730c00a777c080e;
 0x111051b6f6e645b111ee16f8d7277c5736544257b993df519a1ec2c56bcdcfd0;
 0x138e637186a1aea10cd1929f478be75eae3ba9088375a5f1032eb90389fbd16e;
 0x1c48e87c3a5f6585c7feb9009f959127513965869f67312b5dc4ae1091d97b13;
 0x1bc91e3923739d8557a49df73d6b18eacd3f1d843d2f9a19d5a544d2cf61bb1d;
 0x1f55cb86d44e8975bc1483e56fdb8da7c4ae53e1ec31b84bb2da027005d4527d;
 0x27df4280dc0fe9e40b3c69f81ee35b9d10c3a77ee1aa568cb99de3c25a33c445;
 0x2f5c9f8726064d9ef2ae70b9c8b9bd8c67bd0b4e01e33da14eeb08c9e84900b1;
 0x18039fc9add69e1c38faa320bb6a1bf0fdef44feb0935882df019920c87af82d;
 0x327903788c3245da6ab00b1dd054ef0a8909c746381d36be32c63540f6aedd8;
 0x1f9e9d1ae90c18f18b33386e190283cd795b00a5e700d9b450bf30597bfde322;
 0x1335f2a251d97c1f4fe98c9df2f5e0b49a9915b63ae6ac860715a450ce045c69;
 0x216fde3c47d44db12ca9b3890b746551e14de61d61eadaa82872b8b02d08c0fd;
 0x20aea5ea277d5c1799bf056503d16e9c18067cce523655520500a4509558d6dd;
 0x2c9873fee4f36a764e4633cae58d5975790e8878d02f6687fd5aecf0fea45c72;
 0xc59d06a98278118aa314c0a2e1ff138782a1016592643141fc11eac458efa06;
 0x20ed28a0e5dd6d3528f6ddb4729fad421ad078802f2835228b38c04acdb5cb3d;
 0x242a84ca0128647dbb3ef3da25cb387d422f571171db50845d58ea6beab90dde;
 0x29ac14a0b12b581d8b76b71e2197adff56879090d84e5c39952f91f2bf8c397b;
 0x37dcddb2530ed5cda99b3890c9e7ea0b091a00f50687bda0b6233da0bb9b422;
 0x25a8987fb6f4c18aa01d2e5429697d61eec4830a301a60c3562b61ae3290ca92;
 0x1c9bf71f113b61c7bf719d99bb5aebf0cabe8712b304f1e1ef2d17a098c79acf;
 0x4a0c9f59af433f472f1de92cc39d604d4ce8369e91c4df9feb6d76706d10e21;
 0xd300e35270adc9e45f4315f3c3d9d939ae9e6ddd105ed4f7ed3805d29fb0d7c;
 0x3b3d5fe98cd3d41d656038d84f3f63d5036ce839ab10cac86d931bc6f49c71f;
 0xd4ff1e8e5f471c0cb60c4b64e25d46058a64ba30d9fd526b6df528f36a5c585;
 0xe69833375985f6c99f32cf9047ed72319a78d1cc452574b160ae501f9106b70;
 0x218a2da1a71bf2d9495435c13826e81bc4fbc52f7e9e76801d76efa6d1506d5e;
 0x220b7c5c7df259d28ef5c87818d37b1aedd331c5ed64e2be36963baa6f0e2ede;
 0x5e6ff3bb2c3c3d36fee30974381c7e9e4257cfcb175226975f80c7826601d7d;
 0x6ea2130475038482d43b40d701f2e5719f8b5291e32e70e7ecb67c84952c15d;
 0xe8ea3e32a39cd2f0524160913424ef01a99b490ecfb7eac844e9bf858b9b014;
 0x294e5cb86e4debaee0d50db9d21828d54d2996a6d2c9c184172c6e58fab66f16;
 0x1b76a6dc618f7023b2e9201816b56e04600a1f6007704757a20de7a453137ee6;
 0x158b87e1fb4ee03a0cf364d7737fea5b505c8f265d85e53cd8b6ed21b8f7e0cc;
 0xd6845f8ffa83ae905c90b939bc0217b96a114eae191142b7b39cccf6a05f918;
 0x1e70b87aa5eec31fcfca56f01de6f0e16abd68e94016a6862f1fd84ac753eb9;
 0x15afd08d9cd8f119f6b84c1bcf1bd8321bfc269f7ca4ba312f78c18cee06332a;
 0xe8a18af50888c0e678a18db035e95f3e514d12add25b3129fcb0a1175bf20d6;
 0x5a423b76a066ffd86bface24a69eea019d742ac25673cfbce2d6c8d8fa959f9;
 0x1cd6633fc781769de49bb060222f70e764c0a599cfa63dca546cc770a8c96e01;
 0xbdec688fb651a41a8454bab72bceb7b4b9a4e64e15a7759af96c3910f1af1ed;
 0x16fe2f67cb81df40a13aee06cbca391aa9f363c8b6113970da577f00ecb68632;
 0xd9e30316cdadf4ee7861bbf058f9864ba41949a97d80f572f4f321c5c81c266;
 0x2b7250de2b670143d2795767be62b401b33ca87317d51774332efdc0d561e2ec;
 0x21191107cd97ce6d82d8f24580d3f312384ff8f7c372a6a6f84bea4619432126;
 0x2d3d14d019903bbebb3844951f492ae64034eff311f6fad2e7ee224df122abf8;
 0xb1761537abfe52313d2984794e0f0cb5a67fab6c7de6064a9b23a9c1682e48f;
 0x2648c021ea22340d9c15bf3b4de1019ca5bb2b154f528acbec879ba3060c5e71;
 0x210383b9295acfb0afe0a2779904ff68510979cb8308cd4be1ba74d50f8ebd2e;
 0x2366beb9fb0aefb2b27919a936a90e5178b6c920a7cdaeb2c24dafdf8eec4f62;
 0xac0babbfeb05aca0bafc86a137345008a4785828aecae6e75726e52b19473f5;
 0x14f4e3f929fa309ff76b77022f98355881d3a4619826f8f46f3f3307b7ed7cbf;
 0x26c17a705c1fb16fc93b49912a3b026239aa37147116548af22c50b17c63d2f3;
 0x1c041b56052757aa8b251c9cf93ac84f163b5029446b6b9d5f73738c71569c1b;
 0x1db847af55f4dee4b04b07d8c756ded04b10c38423abda88cf955686e19b4d98;
 0x14a9f6b5276ca64c71eb85421324ea22da9e59418c3f3d168a2e25614aabb250;
 0x19e965d8014faa21520a879fa7062f8cd83e83d23d34eb96f6155cb698fcc5ae;
 0x272983b47b987c94aa704a01c88698c287f66cd6a35b0c53b0ae248257328491;
 0x179082445f7e90050f2751613a18be7c615443a5aabd9ee30dd5ae1aed141d0f;
 0x2a45d991765d6810e7c6de95b751077ff3acd1a9e2ed841d4e351641b531af77;
 0xce80600ae777b7577dcb0c38e3017ddbbcbce86bedaa78f3ee80fe8f8ed9c46;
 0x1836efd329ede999eda029ac76933e51d379c2ec9f81106091d4dd81184b4a90;
 0x23c2f9f5c32b9fc9d8a0f06a1fb94342f8e0f72871532ae622e69cd26983cbd6;
 0x229a60de9ea7b9a31af0537a15fc0cc8f4e1874b05b029a17aa6069badc70709;
 0x27c1cacd84763504bb9da995fb9c11dfe1de4f9b4de0070c62458dc06e6f718c;
 0x226925e3b28e9d3583306111412c7fb3125a6229d56499d4ad4ce275fb945a6d;
 0x2d4c3ef6b8649fd521c317d440f0de2170c7dc0ce2acfe5547c96265237229a0;
 0x2e163352d3c6c204a4f39c6347ed2a1546da1c162c17b37fe5122dbe0ca38d81;
 0x1d50944ab52614ecf794a99ec9d9364ac97acb173f01a5793d55f9adbea4c3a0;
 0x2b4bd70b5f1f434f70f1f952d02b031723f769ae18207781b37efa7d860b6a33;
 0x1da84194beae599eabcdd0d9ca29cee05c8d70118af22d79496664ba63d953d;
 0xb1469c1486ad837a64a4889c24acd60c7975f59a70181bebde9950fc04b94da;
 0x191e2dcf4dba410ac50f7e9aa497a5c783bffbdcc2db8471cbcf70b56e501040;
 0x1668607fdf864d54f4bc62a7a64bcc84e7c9928a5bf8215fdfbf22877673317;
 0x2f9967228d705426d5012c764e1754e1f43e1cb9dbde29a8da4ba862ae464916;
 0x174c15148cd64c6a9c7e25bf7e92c0eed93ba9d9d20dc9d99127b9837f842ae;
 0xfeae0bccd9061f01578a7a003394df020d098b1b5d4d994e9c7b01d5c2a6e3e;
 0xecd1468fba5b3142d6b6a3698bd27eb2961f2232da5614891eae6fb2f501f83;
 0x23b8bb2b66cce71b0805586c9d01f82c1f7acd6608ba14377052ab5228b9d2a8;
 0x296c2942c041735a80687e79b03159ea0bcc9c8288bf61e932b16d9a77418703;
 0xdfe7f9c9417c892a1aa425e36eabd1a8307bf14178cc1bff30de270804ac6b4;
 0xf9c80c1ed9dbfa5264ec0ca7f2907b45582aa1aadc8f2244eb826f36302075e;
 0x13c76a9e0ef6a2afe12453d52c5ade079c945de6700ade999d2654f00e0e1db0;
 0x8d14936c51c9d5bfa8934ea69752560e7f72d33c6db682c6eeaa8d37afe72b3;
 0x2bbfd29e71032bd6df3626cae78d5d7d950b8251aa9ad387baff0cecc55ae78a;
 0x20add9dae28c0b6c56acf8dd8fbf8b82aee8b9e464704243077185468c6c7a25;
 0x1fec96baa86d874146fecb495308b927cbc63ef0acf2481252cfee977d77a051;
 0x107f942cd1f7db02a84ff410913b07ca14067c08e3cee6883c829f8383db56af;
 0x20446a5488024632c1ca5a03f3e0d9927db7911b48d0ada345cf442d574f708d;
 0x16c45c6ee2e09bd860204a12550cfedf1c15cf5ae79210ff56c3a067be982232;
 0x95afac9e9c0e7bf3a3757afe1a59b1cd2c8a9dd0a4016a768de4e394c5aff4a;
 0x1789b8d50c4f470a2040a8c97540530eb4a4ba188e058c5cf98eeff2986363cb;
 0x1ae4a093f1ff056d43eb1f176efac59e64dbb0b30a17bf9cebe739ced02d7eea;
 0x2078664852923af8ee05ac393bb1b71771aee237ac4bc13feef5eddb824b5212;
 0x45c263bfd2c80cf563fd1dd093919e61702c4180667ced47109f22293d6f635;
 0x5bd68adfe9229ea5f91b9b9b7c648930278ff9cd4235a74ddaa2989b8ed1b68;
 0x2ba6147bf61fac6fe9f89f5d03424bbd3dd25abd1ba8099498cdde87a83508a6;
 0x6c29c1a964316e5ff468201ecda5c5eab28e5cb0cbec1f83fbf55f911dbf6e6;
 0xb3a42e10c5b32a4db4ae5742917bd2a2b6484d58d069988d40f4b2c5d923511;
 0x1ef05c441e5c449dcde2b0104cc0cf09338c87fc1ef249e47219be01f8900d4c;
 0x1346b974d355923f8812b1b81cd69ceac02ba2ed4207e078b1bcdd65b99c1c4b;
 0x641be843dc5babada2893a000856038b0c480c73bb1222242f5c182b0366566;
 0xe0ab9754fa55418576339c74a518da23da4512ef44d918f3ce7adc03877c0e8;
 0x524eda9a8cf74c8aed40f27e804a118f479da36331029d8e35fa3067a8a2e60;
 0x2d9cc26968b956d282d882ad26062692ad57541ae207ce90a36eb408ffcc1c2e;
 0x208be81442f0eea20014d7c50cfe3f8497c3eef59d23ac75676d86e6df672177;
 0xa103c791829e5f91e9143aaaf373c130be8bfc3579f3608b2eef23dda272775;
 0x24c250eb5eb7b2d00c290f548f258b4206da050fcfec439320698146a687b4d1;
 0x4af611dc756228bc87c791eabc9412b4dc539e482b11360dde2e8b15c5ceb26;
 0x2edda4c0c8cdb6ac1f766af30f296c30bad29a7fa345c492c5fd461c83a74ad4;
 0x24a57cc97ac713d122d20a0f45af32a192d57ee2df010a2abf932d3fedc531a0;
 0x2b7869256ef8449ef1632686c2e4eebf6c7dc01925e171b6a3053c00c7fd938c;
 0x1fc2cadc1d42598fa8af9a087df97d11564f96124486f9d36274a5290771637f;
 0x1721830740eab5d3e824ca501d9dbb279c33cca46d957cf4dffd86c4643852f7;
 0x65bacc3845e9e1db1666679ba9198965a9604f9d0e17a509d3435461bddaacb;
 0x14b469025cbe3ae69548004a75ab8cca73e668f3fdbe5b0412149da212b86295;
 0x1691556195caee6db9f3e92a740b8e3df97ba65b9401d64071720fc3f5b93d11;
 0x2043760c0846ef1a8307b889640c3495bcd17b855fad23866cdc940a9e9bf202;
 0x254c39a9337dae077e34effcb2bf6149dab1ff4c47077f565a1164cc16065df2;
 0x16fff81b84dcb6ee8195fc9a2b43183ef2c93eba69ed01fd66215afd4118bc7b;
 0x1dd3fdf493e57791e270cf1e45932a03871ae749d8b071b210c113c746ced3e8;
 0x19f34c30d29e2b2e71d0e7b58975b52e5895100a642e52509f73499470664e6e;
 0xe53378ab524fde35bafbf5b073f60337d37cc7bb024e4d770b478cab71efded;
 0x2657a42fb7fe70f69fbdd34cf77e2cc1d9be5dab5c3df54468402e9823b730c;
 0x270797e181131ae454fbe035b74c818574db4b0b14617145614bfcd17d866f5d;
 0x1fe850c6eeabe8cc324105f8780d7802b35263639cc09d7c27e2c3d339fec530;
 0x113b0fd84f896b1726ed7e324f037d49bcfc61107341ba50e6ce467bd4fb0393;
 0x455301c9c3a9576864e5349b9dbaa24bb5a73194929e2022f9f9462dc60fc58;
 0x1e78afe9e73f4fac3c0603f1a9944fac953e8649a63ab9ca386e14f76cc9803d;
 0x2a2df8062cd4e4019ebfad326af75f075ad9910112c9e56dcf5c1402af2eb5a7;
 0x23199d2e3d213c593ea050c5b5ad9f69f1b0cb0a3bc785927509481d9365a79b;
 0x1112f3f5206cad6ea06f81e7e93f6da2605d12111f7d82dadab721a862820454;
 0x2a7850975343dd2d9736a41fad96173abdf8ec955a5dbf0fef598a3427b06cd7;
 0xe8f0ccb5547386fb377f8eb03ce31a2fd99637c8288acc824bb3c7e11976247;
 0x2dffa0cb7982a215faa3ae587f3d0a8fdb38bd67fe497d6ec6a9af385a7de5fd;
 0x38104d875861c16f8696630fff0f564ab6367eebb54aec00444abf7ca01097d;
 0x2e1c146050524fcd059e554496c7365dca249831f8f3ce19154a3a4f25c0a15e;
 0x1f1b007113b257163a2338f7dcd31019898bc9de8cd433c6f4d2a0d61b4a895b;
 0x245d414c0213d2b34191838ece52483b9b823ad5fc60b0d1b5faa19dc499428;
 0x27b89b2aeb20498cfc4ea10b7057b853cd060d9f43abda0b62ec0acb50efb0b4;
 0x1c77ccc651789deb5aac8d3c633ae0d61021f924fd15ea3f64b2190692f0b84a;
 0x1344ab9603108364a71cd08f29138f17b813a2e507c5a371265094c3ff091733;
 0x96f47da409be2b87d72a5b4dffe768e464b9f343148561cc8f7f65996473338;
 0x2a963a2d7dbf1b6648324ca5ca201005707c68f190338602106ff7a1c8180074;
 0xa24a1fbf8e9ea5e0ed9b2f6f45190baf98eb130f23e3a59b98800474cce6d7d;
 0x1efc39326593db3571d1f81f6e239efbbb625848e204043a3eae361b784da8cb;
 0x2878f199437f80ceb6115a4cc69ad4306cb90caf7d33a57ee2c772fcb0e7c43;
 0x14e714116af02eac68ca2f2d7fdc5602d14b0e3156bf689dd8af02225f67d6a5;
 0x1cc4f895a494442a4c6bd0b9be44ea8d5c164ea0aebdce116bf6e22ea9c9dff7;
 0x1f72d9f57cce69a7a953a9d1ead68e0fee628478d59b37fccf1e710729f9f2b5;
 0x1504122452ed1fd0021c274b2f90e860d621c530397d4999625732841c24175c;
 0xf84c2185df257426cc7160be00166fabf2793f17b4dcf955537842cc39ebec6;
 0x26211875cfeb1f08402906b6e10083eabf34188c0f1c9e6ee6666fc7499161b3;
 0x1fdaf9a5b7dcb487eb434eae3a3a1b632045c4f36727a1600da5c67d7162bec6;
 0x1a82c7c40e0b33bc3be8f836c4b58c1167b9dd3b89a64a40f250fba5e7992603;
 0x26a830d5593275fd09838a337dceba9d73b6b0bcde5794f3795a2c7d9a005beb;
 0x1ca1b51031b54d6c209c60095eba463cf27afc1d87db60b8527336586bf5ac37;
 0x2ed0b2c0fc04e99dd373f11a3fce52800291722a4f60f69de44b0be369b4301;
 0x138bf926c9f7d99f3b356786eca06d03696c34a2b3e7045ccf4d35036ba8f5e3;
 0x14c9004d3aa47932ecc43b64f48012296eec6175998b27d4ae9e67ac37e252dd;
 0x2e8fce1dabe0cdf3fc5eebfad8fa7adc6f8afda97e429172d9b753dde4b98fd5;
 0x86d86c3c731fe45726bafc5176b5843fd04dd64f58080677db1ac99fd279c34;
 0x7c522aa9582313c107a3629403f5469f777e86b83ea72d506087187a8e72bd3;
 0xf8ae11d8f6f426faf8516e350013be77f4892512580ed34e760da1c298b68e9;
 0xba5aa0e6b3dc7c67804fdb84bc1bbcc1f844e9046a6624a910173cda4154bcd;
 0x125a057c109e46c86d4a079d3aa4396af8b3e01365556a1b54f39d8ede66fd21;
 0x28ca6c1010270adc4961aa8335ce83696b24bedb4bb473dfc15e82d305b95d75;
 0x1d636937861daa12215f031dd31ef5ddb5d298fe8a687f1541c113dc6a6f982e;
 0x2e755335e4022d7bac084dcce1498520f80ae93da97d2f65715027dc8f06f0dd;
 0x71f2713b1a7933a0a20f507b9120564af7e399becb3c364dc4d4ff00e82c84b;
 0x2ffd5da8280e32999e19a1717e10c89afce0c6f81f5d3289e3d5fce62ce0f328;
 0x1dd14fe6365e941517ddb8fb308e3a93f54003ab4bf5f2acc7a7bc28b5133d77;
 0x27101129fc7fce62280ca2c588ec157d96e5aee5c2b0dbf2049ed24b2c1305d7;
 0x21919fe253784f0db396d4f9e4c77352386b9b72489043754ba8a2b1f4ac126a;
 0x7027958a8f531877d1cebacf828dd8b017a125c9d287595373a5a39e58cf8d4;
 0xf4c12b76814adc1cddb3af4d1ce6900934ed214203cff4daa3c327f9ece5456;
 0x8d988683eaf49158a7c9ae87146068f6e1cf75455a9d82231645f7290d10b36;
 0x272e74426d074d9658fd9526b8616907d5673aef4ee33678507f82bceef5868;
 0x1a4709dfae34cf5ddf7006d7c290bb58c74297c8c4818fdf5f3950b54c924525;
 0x22002b8b417575047a0ed5d359143aeda19e8810c53499ea4b57de86d441adac;
 0x24574868ec8a4a702ea0cfa55bde2ea3bfb22821f6d88a66183527b1c7f8f0e9;
 0x10d966de7e680887412eefd87d811dc46b0240886d6854934338d21121819798;
 0x2ee7c7e3e8a979087deded02e7255ec067b1c4647cc714b96e1a28258d706966;
 0x7029f067945ed1f6946894d66e2a8f17513b7caebd40c9adcaf39eceefeba86;
 0x238f96dce22c10c9aca9a1982ee6eea87b7cebfae5a387782b49a62fea5aabfc;
 0xb46866c52482fd492baa3395e0a2c90470b402e538b3d8d0c50722e5621dd1d;
 0xd766df2a110efe25a3d9c00709cf5309a71c3eda799419fc3cbb0f69cce2ae6;
 0x70143b740c54c7108f5f6183ce84371f770750dda04ba765ef83bda3fb2d5ee;
 0x1700b579f15e50c2ad18cf77dddd549da000a6c8390de97e7ed0d8e68dd77d5c;
 0x966a4c76701d09676a086e95d90becfa07bb8034642244cf6aef00a540d2348;
 0xdbefe8bef0af25598f5412f84e00a3dd4e87de653075ba0c5da7ed783970bf4;
 0x166d86374c39d7660096c87278e27024ca839197e65cd2f341e7a588c5387fa0;
 0x251583bded154eb2396251754588712d0e1b78c29cfd44b45f29a9fd52ceaec4;
 0x104fa2f361cf696082c5fced47e78a75f39363142e877b3d82c55c686e52627a;
 0x2e937bf849309765a350ed8791a96d859a2037229bb6a652bc6aded264c7c5b9;
 0x2b1d9ff7fb70883508c56021f57e3f9ea1dbac6ca74116b17ee926c1ec3190ab;
 0x5f6384c19be9a2806e892c810917c10224188bf43f041a4e9633f370fabcd9e;
 0x2ecd3211e05ef27a50e8cebc42ff0b183cfe21dfab238ea9ef76229b3f109303;
 0x134cc424a26df27d06dfecdce2641a01bd102e7ff1a079a2f7e02cb5c04d0fbe;
 0x6491bf6df0385099926b322197f0366b2757d7dd62ee3c2a04f9b4c9534051c;
 0x195fc25a0f0e518936af73aebdfd96d9b38a4353504b0ff8c1418986552920cc;
 0x21d9052cce28cf6e4e94073f863ce8edf12f02ec3286237f9d223b6239666286;
 0xbaa8f730ca31f03feecfac34a96c3ac7af148079107bd1d17241917917321bf;
 0x25581389210f6dfc774d3716e19784984d93837f46e519dc753d36eb2ac7ed3b;
 0x24e00e2fcb19f6424d723a02dee50396b779a246da53a1a240f1bd889a8970a6;
 0x83d4854b30ee0679d2db410b207e0e3a675788631c5a356cc87732960134c7a;
 0xaf54416d73433ca2ed2f161359272770b6e3009381d71298f8223deacfaf11;
 0xd86112e0b5ca938fa7edbeca9ec16e9e9eb4589c77706ff386b4f121fff102f;
 0x222eeb0b16a9b7ed31088917ebe1cd3de2a51f15e1e39229a08bf734fb2cf54f;
 0x26ab188797afc73322cb02f8e79578e0e296f991bb2bcfebb635d1212116f43a;
 0x189a33095624a9fe843ee367eb23224db90c8d79614941f43009202bf3f7692;
 0xcb116f05c5b188d660a15100e4e53213f9c91a2c7cc48497468ee009204155d;
 0x677167ba65ce31ced812c57211602111fc3a26bbe9226918a7819c94281196b;
 0x2038709e7cfcc3a1fd50ec84476c90870748ebb30f6431bd136fde99cfde252f;
 0x11304b471f078464bc2004c224dc05a4c4ec5db0a0d15f324130e12793a7aee9;
 0x25d8e2ab7f87aad379da3e3eb7f5d35f297eb80c430c765adec7f637c4f592ec;
 0x252705f54d55bf29b30237f8d12aad2b21b4a5d3a7aaae982f7cde3da630867;
 0x1db9ede78af0ebf26dc188f6fa75663eec8f65b6c9a5ed38fbb3421dec7d7e44;
 0x28915bdfab7235384a0052ed73839f3b6600a7ad6328222a5b5cf6e833a23778;
 0xa48fd9b0e00279f51f240b4729c1360740f003e804a09579e28c033c47d5b25;
 0x4aa895e8c124ea62643e1d47b28162c404aa390fd45c32f9ca00c080fec007;
 0x2f6ff2c3db97147ad04594d1858994b416f98aa1243bfb9deea65c109df2771c;
 0x24f4f4faf7ce4f405a99b997acbe94f4f75646fe7d669779737e6aea7a59318b;
 0x2c6de883618f61bf7f3f7d8d27a607d6a7c4477491b4a505955312a1ead3bc10;
 0x84e6d4e3821e133fb91ddf17c52a3c3e056dc5211d99c507a5f8eb010f2051e;
 0x182695778ac2503bd5ab232f7a06bf670a950fab0f52691e66d85d678f7ec4b0;
 0x160333461efaa2ab9af0c831084d54e7669d8a39c5cdb67b2dcf41d3c4fc5e05;
 0x2cd141426aef83b60baf24a91964fa03a4a15a956db96b9ff8b1802cf7886907;
 0x1efcf46de40d031f8433503f35b57e7e05e7333292fc4e87e8cf690167176023;
 0x13566534c621d806ed162efe86de13e99f5ba0b87b7662bbc7b558abd47fb72d;
 0x13dd0f3e7ad7091840f0fa46df2804297a60a00afb5cb4cade62ef93010b907d;
 0x63074d64729807274b9582f5459fa5f13a570aa0c8c1cdf970e0a676cfc6bed;
 0x2cf0b9463240189f91b0d0081f1fdf117013e3bbf66b2ec20768b6196ca78a40;
 0x2414bc086989d9c5a4b4389231672e10670faa0fa46393ed3acb8f7592d53cfd;
 0x35c375210c40378de763a3a1ca80b6f59ee72e60bccdcab9987567607a7a661;
 0x24649b22485d4164a5849e6fe09e491800bb975c4c18dbe076ec4c8430944105;
 0x28ff30154191e734bbf8835086d026958770f58c05adf2ab87451b0f5b6a5b90;
 0x1333e068eec2449ec9f3ec2509033a95eee7d93b3e21bacbf131f353021eaecf;
 0x1aaf01fef0368da6ec25d420df62bf7fc238eeb68f9c01efe080abd921969992;
 0x1a8158e9d6efffb3f770430136749c13ac3b57b0ac67b7e790b87e4c9533164d;
 0x267a4bce46448d250fbc476240bdf28082bb7b3fd4fdf6b4959d202ca5c22cc0;
 0x19092ce179c682ce654858f33d7db753b9a6864268eeac3e01b9c7499d669382;
 0x2cbc84334505141c85446a368bdce6f43c4c73002b9c7fa2755bafd3c913cde5;
 0xf2290d7acdc26ef20e0ebf6c790b226ec27618780d69b34235db806c2cf7fad;
 0x8997d8fe98a3b07b245abb1a2ff924e69c94ec512dd8717d26d913976f7009a;
 0x281257a6930442a04b62b72ed85e06c26510ef3572b9d76a5a47d39cc8ecfd19;
 0x1bed3ef59d524fd38eb28351acd8928fe6837cee442cd4128e17e4ceabf5c5e1;
 0x2450c4222f921391c2d880d0549a66879b1f036e6196b0ed04b6f65d7501ae88;
 0x13cbc816452f1a7859c5a15a87dea7c7074b06f50623b8d535ad31f380862014;
 0x2a447dab60e9a356de04e09237b0a5e823997072c557c28398dc34349ce6b103;
 0x403afb29d58bd7a9985c47f8fc5e230619c306bc3b9e5001e5641781e2a2767;
 0x1f1b34d74c7ba4b249e9ed1a403edebaedb7cdd68997d769702c61675cf9fed;
 0xe5e3c54edadf35d98492c46975dbc8e2ff08c13858abe8fcde5ff740182b642;
 0xd63ba660037b09ad891f2a73ee687cd93fe26acd102f90ad5ac7fce6e3cc24e;
 0xafb72ecf8fd02e169980cd8f4d692ceeeced7f54406a649da0b542138177506;
 0xa18d18293b53b043057c48caee752f777ebcbbed6cac878ae6dd7f823daf887;
 0x341875860149b8023899da549912f6ca633d0cd64308178b5af305831025c9b;
 0x1e74f47f430e1d9fe4edafcf6484293d475dbbd32e4db7afb109344d6b217ca1;
 0x1393ce303c52c2d727cb4004446b8e2ad22c18f3c6baaf7f0b9807b4dcab60ed;
 0x2996a98688b3896b12bf84463004b1e6cfd41febfa82a76c39829c00a5909563;
 0x1101278844bb1ed1532a88c945eea3f1771c0b7177d9e90a89fc14e15735c0f2;
 0xff944e58495c3facf9e8bce3ea7e63b45e0094453d6de3a476f34f0bcb7f076;
 0x9685892b1647936a2d06ec2904235a2a473236fbae0007813832b3b28747a11;
 0x2df959566a7f74f07a6d8db0ee48cce33d83d76d83cdfb72f8e601cbda8a619f;
 0x1371c30df84f6fa17717dcabf21240b1f62b6a0f7ad88ea974b74424576bdb2d;
 0x63df78a5d2ae65937d865fb6653358f110a1620b462221fc53722e3e5914bf6;
 0x6943c3b3b93a51f75b9ef027e7e489c4031ff92dfc9e6cc8c144765ed455963;
 0x258a6301e1d4ed86f430c121b8a7a02ac41a45310d6eccfb1e25c50e144d552a;
 0x16946c160509bda0e6a28b310d1e3d465496f50f331eba12a3d335e80d02ceff;
 0x228a377dc063ee95ea9383203e09cdc44ee8ad4ce4a3bd6accfaeeebcdb3afe4;
 0x29d562c833355a13246eafed9cb816b700e432688f9d0161eb345f93c86d1c30;
 0x6bc32e8519fba6364af48c63d468794e43eaf044a122f5df7506db732811574;
 0x5b5f5ee4e1de0165485ed2e889de65244597ce9795bd1302995d6448b7099cc;
 0x228e0f6ae75902b8c6f351e3afe911852fb72594dac6d84bb2501f6c1fb62b7b;
 0x1adee1a357f9bd07b9aa5d5de6c1cf13ab85e3c637572c4405180255a6b262cb;
 0xfe8e230f7a653e70d7e66b68cdde3b091c90bbe3392ed70c657cc18529c48d0;
 0x17f2e3b7e2a5e959cac4b2e2abd5b204ed1d1da788ecb601e209e9135b42776e;
 0xe5ebb8d9ab7b2ecfd74f5c7d852fb72eea1d29438e5849d60c3be110dccd77f;
 0x1176ff60b09a930fc378bfa5bfae137d7e914b2c2e5d41718bbe5987ea4204a6;
 0x1c289e2a8f4efc5bf0272bf45012e7c53b2ea259353ca5fac13452570f0ec30a;
 0x897085ca8062df434a4f9526f65def6b90df42244485a72e23b62dbc3ad4b2f;
 0x8702d77c6eb4854ab9a0dc200a9496022381e1fc33606f8a276cae0a0086edf;
 0x2d557de044b0ba9934b4e84c14c2790b77dfd73c60964fac43c12834ae160236;
 0x1b7c71b547295485251a601e795a5be291ec9310d09af4cbf6c6f1d9d97f0759;
 0xc2ffa9d08d01f7863acf32741e6f40f5a614d5b5bc9680d4450bcc3ddcfe7e0;
 0x16b4df7609480dc496c9c80c205cb130dc75a36bc86ed397537fb8621bb55aab;
 0x278870285022a8e62c007ea1a80dfb983108933916474d70597eb223db38d120;
 0x12d086f24270995532f5e9a5fe0f454211df6e0d70a4f5648dec1532bced0822;
 0x14051b5b246c70615818e460072a6335353ed0baafee7ca27dd1ed323a1a460b;
 0x12b64f3fb3491740234c4b2a9c22b0d3615e6409374dbd51c68480ffed83c578;
 0x1dba77c37155cfc3a40e60a3cab22a65ed3d0b3b9e14a088da0f78235f378c46;
 0x2d3cdee7c20e981df78414afbc11ac0ba5538b05d8b3ee64e93ddf79d16af761;
 0x1e72ec6459044a8545cf04fc975cea4396932411985f63f69cf5abfd079ea339;
 0x33de42aadf342bf63b8dfa88f1834316ec0a1a2031fe6b990b8939ead902367;
 0x1033afa420fc311df873cfa662b1aa74c3293b32fafb6dd8b50957b40e4538c;
 0x3246089fc735a2a10eff81988dddf6bf6cb36ca4c94e5f811d34a138af7695f;
 0x184378877dc29eac96d70f2c3c23d03b15bb5cc33ef46aa4d7d8bc7436e2e133;
 0x24a45709cbcffb8665e006e6da138718b961a11e5f833afc14de37273a14fab2;
 0x15edf9c56babcccfb597723c4e2ecc4e9f27a6622c161e90f6aa189ccc28c479;
 0x24a5b373a41b6284b58dffc853e57c1e94dd8018bf6155dcf79f539ad38f0588;
 0x212667816adfb3eaae237f4bc5003837247ff166cf8cba1fdd43244f34aa540f;
 0x1ef893f637158368e9a96b7893b13693d1a08dac4f4523108b0a99cd60d627e7;
 0x25d14d1d9d039aac2acd4d2dda3f73a808846aed7159817289db8ff01a512c2;
 0x9d18709d5cd1e66a30a5af2a40202a06e2c4b6456fbe28c5509fcf8f5010097;
 0x10e49e4515ab23f11ba99b0a8eb2b9c0c00ffd31e297cc0ebff4b70a19084a03;
 0x120d8f3de534d39e74a6866a095aa3038cd5a8a6da2c8c3af11c6a57878fbd27;
 0x1086a1c670c0b38a4615e2b5c9da452435b28cb618a755cb8e4d6cc4a185e0d8;
 0x143da4f1e56c2995390de6d5c203a81a0f8534ae6fe1b548bc06ed66eeb71b82;
 0x3f67f0c682e74186fa8a43185ad1058986d7829037c9bc4efd13303df2565b9;
 0x2ccc820115f173d6df190637f860f7559838d62da484768aa9147e38718fe4f5;
 0x16c78c003db17ade4964026d9c805f98f6bcc18f5ab084bf6db478324b4cbbf1;
 0x2ced73fefc2ccaf65b289e9dbc565eb7118f94a1e55b431c176659a4e20300bb;
 0x80355d267446e657f4fa48445d6bbeb92bd0722224b62354102faf995c8cf0e;
 0x1d7b035e2e3447110b569a0a285fcc75848e9edb05f260790b1842827caa69c8;
 0xdef7d6932196574dfaa3bb93e455eb3073af3c6f5b23510af304e44af9d45eb;
 0x1d7bee97b83a508aafabcfc215e94be6c319c91a06a446efeea5d2eb6433d01f;
 0x297df20f1168df352ac2f6f2eba37c01f2e1dce8c6c9ab6fdf4bd4f73a8aa61b;
 0x2704da6a1722356355503d2c68fe1b4cc81c7ec8ec79e60293c6ebe2cd0fbbe6;
 0x2ee1c93621569042fcb5787986b162c7713c3f46ba980f84c35605f39c6bd09c;
 0x143dadb2702943f0c1ab5f4dbc544741271b5feacc410778391bbd31df27d57a;
 0x92b4880d629751c880c52a583e7c897b96f8e4017d03615240b58b099710347;
 0x2dfbb9e30dfdd6a6109ff6096fa7880bbdca630af585a98dddc26c3c0ba06b1f;
 0x183f5efabcd0bb3b5bcdc307a3000408ffa227d7ea09d1e46728b8a41dc10b1b;
 0x188ec11b8e4279fe5d6885cae68b47b0e2f3b1b1491823d56d45b7ee0b819bef;
 0x3b932f42f057452cf7e63be1d791df135b1203a05a1ee87181b79569dd9caf9;
 0xf004e411866bf3827ee877ff26b9030e8234af91cec1abf4b1e63ec376cb4fb;
 0x7b29a2bf26c3253559ac91866e18bd24231873c628c6c54085020e9d94e4e06;
 0xdd493324477dab3fb82ebf9bb5ecb261b16053ffde0780c7a103f5224ed0d9b;
 0x15a2481d9a02f0f660f26f731800672d4f01386a88b39a481300524ff7d6d77f;
 0x20fca8de9b1ec1b1306069459134385ec736ce3d47fcfe31c9036de466599d5;
 0x13f13006cc21c4413d126b903430c7d0f91843fcc8ca9d6f29e088d53e6d56d0;
 0x1562270321f351d19ff030cdb1061906ecaf1d545a842611dfd2f62b517fadcc;
 0x2a1bac0d137627714a64d25cff803b56397eb7c49f916f212c325e36e099a21b;
 0xa626b8413c43716fb39475aade5a5fa6032be65870a14c7536db969accd9f4f;
 0x1d8614a7501b8508b972bb3a9865d7ebe10da1f7ef9a4b7caae2e8dbeafde38;
 0x2c4cd54213bc9c118584922573edd0979687ffe60194ee617a89971095ff1712;
 0x273b67e44bbe0f36e03fe1bb7d026d3ae18d74280ea660f7eb6adebf13624370;
 0x2345edc3a494fd086270df8ec3337021bbfedb313e666ed13358d808d7fb96be;
 0x14e3240d400b2f37c462731eab1abfa3121fff4452adf8b8f1ea2d7dfefe5b96;
 0x26fed100c2fe18afd4558db5690f1f5c1ae4848e45f7984b975a127b2c3e43fc;
 0x94f0c0432e3dd61dd59f78f3cae7b2ceacc7ea52e1e429618132d2993561b3f;
 0x1b69528d1cb065ea1bb8cb4ffcd6f727a43c184998a8c52289713e52f1a4f1a;
 0x27f41e553f9d587a847aceda9bc374ada23fd5a31068640ce8851f2ac9416b9d;
 0x1e78dc5799e31ae0047ec4338ccf8b53635cebfeec7de05098ac9a49f51b4e11;
 0x1408db23a0195163f57ff57339bc69577b96aa7c9f5b2347cffee7c6cacd3895;
 0xa45ed2874baa1e55853ca869d88ece0b18f92752a6a622992f2c40a80fa1bda;
 0x8c69e11628ef5f25cf5aa9a86c58192293eda7b8038b0fcdbe9ec43a387b38;
 0x4418bddd1b637b566e983af7174840f3116feee63ecf811ba3c183208b73457;
 0x215cda6478735eb143ffb90674fcf75ba4d60f81f2e13ba3a148ae32f72d4b44;
 0x35577a54e516696334944d355f8f5f19cdc0006a3d8f19cbf52a315fca92657;
 0x14007e08f2050a67267adc8999afabf2df408c524b62d66242e07bca846b734f;
 0x1d34dc16f79b6e30ed5a661cd37c19178e1b9b5ef6814104b0f01b3042fbc1f1;
 0x210287383f8ea9d022330583037c97c78bc6559b06da998d3486c784518e28f4;
 0x24f14e85290d69d501a2347570720ffb805edfa3c42574f10c173631dc15a933;
 0x301162024bb27bbcbe7606f50fe7ff61f9ef6fec6c70faf2485d11859f59249a;
 0x112ec7cf1ab77ba88df0bf2b9c9adcd5bbd3904798557b1fb17c9f09aebc0ad;
 0x405e5888854684398caa0a447f1077f2294d23c4fe188bd1d9024b5c786c9e;
 0x2648137d6f48e92e1bccacacbe308447399f63583708346e2ebf987f397c8f19;
 0x2828ed7039303cd2ab1ac07e24e2ca8df13562f1974b2c9f2b3fae742eadc23a;
 0x15e6dc583e4e1f4626d8699910170faa3235d54d4fdac2480010cbc4383736f;
 0xe0d901f126136db8ae40803538a6e638a67be495a8b0da6523dd152be24514e;
 0x15f1d6b88717f376031f4c9db9389922c83275af3e65bd06f1639457d8aea6d2;
 0x2d4a2d4bef42094512da25f1fc445197da4116cbf1a5f19deda71329b3fd3cc2;
 0x2b75516b90c831875a52efec663b3ac244300a4aea3390cbb79cab04a41c9c37;
 0x22dfe7ba1a8b83b4ff9e598e4f853568e49212eec0beb566cbd83a580c913510;
 0x17356d230f9da4d245e95d31939c5468fd6b4fe1d43a5e6a23c325beb7818e85;
 0x771aa5a01cb551d674ecc77a4566d30413f3c6f3f98883f2297bb2af901700;
 0x2038c2bdc57d92fd22826fc76e6d08c2b9f0dfc5284fff92067ca7711869f1f7;
 0x1bbb2d783129d5647dcd868d4068b4cb291755342f4d189667cab73f58913c54;
 0xcfa3cd62a22569bd9f83dac75982f5d9ae73f6d11e945db4f1691e47d690cdd;
 0x20b8bcafb219c0e8cc74c564c365e7f1aadcebe9d1de307a7d8bfebd9a59448a;
 0x133f8f49324ce55abe13c52065b9fd5525d19ae1fd95c968400efc2d32a3e559;
 0x1e393e2816d184bb6fd0624f0fa7d0be2c767ce0cda87aa2235863564b6f0ec5;
 0xea9f996da777929697fd9c0b7078128e70ace44e0f9c5bd2b408096ba6acab2;
 0x1f998239bb13599db25c562143e127d87f7f7a94d32177ac46cceb87cb9902bb;
 0x2731954ff3fa93fe61134965d3f2dba0bfaccfc91ea76ca59638d2fa9c4a7a0a;
 0x18d07a9939fafa512e2db3f523d1cad5de5ee6138dc2d68c8ca06d5abb4ae655;
 0x21c5122f00f0db5fd84ce1d7c2370e019fa8269fe7631560f30a4c791f228e0f;
 0xf94cbde49d7bb747f1b7a83bdbc3fbbacc95c68355767beed02d68f444504cb;
 0x7786585577d81638c8df6c6fbe94fd632f7ad7e35ceffbe367e9ca3ca33c165;
 0x13899fa1b41f12f9ba9d85b72ba310e028736f5200293bc15df542c1f3fdf3a2;
 0x1a3e2b4a3410b810d0d8d8e91bc0abbc5843c90e1f196902924901e4a423dcc1;
 0x24693cd5298886503438be685277e580caa0c61090ce7de0e7d40e49d12b9190;
 0x1cb88707d385048828ee4a4ff4651d26b0c6ce4403801b70e65d0364285bd25f;
 0x2d5d8e36c872f5ba089905e748b00c1738ad5103e56334250db8c34f89f4cb58;
 0x1df48fd041b0e7762fff784087064fdbbbaf29242a35bdc6a24c764f1201e39d;
 0x21aea18d65264f486c986b3dcde7abcbc0ce1f82418b6fe9dc420ef728f9a5ae;
 0x295a978d6b1143de34ded6f81e2af50bbaf9e93a3c4f98f07b69a912978218da;
 0x4f0f0b54e2f9add517c53f11de865a6ce34df352d0c8b7b0ea8fca0521a3b5f;
 0xc4daa6bd8a280695ceb773c23ea936eae30b9aecb7d29732f3d005e8f6be875;
 0x275b5f950e56bed013209e34c98959fad51b2bdebacfb151e2993c8691e1f19;
 0x142e622b8eb094d15647fd69116f59a527d8984710ab8437379206bc95bab064;
 0x9acc90fba52574235b7ebe94b3afb107a68bb7ed6d60b21714219fc170d55b0;
 0x26512b4e53591f187109b2b4f36f4131fc0bcd1cc606b6853aa20526b9591dde;
 0x304cb4d258b30a6798cf5e3fc86e491809ca72e944066160a27ec60c6687faed;
 0x9f24d8469717a2bbdb34740942cb66804ed67d932b768c87bb6b4ecf354eccf;
 0x302a604d14a5cea49d0411d6d669797578de3ededd4bee595109a509f2005f78;
 0x17057a92fd82f27763b98c0137a3daa6aebc82d1ee84dc286521c4b33ad16acd;
 0x17c98c3e6b14e5c38bfd3d1918e7b32d85d4324f16e43448992ff12bd0063a79;
 0x2d85baa692bbe01ee8ecfab8e20b80b8c012c96d69f694baeefc253bb98e49e7;
 0x22a713aed1607d36caaeb46fff411e64c1bb3160db3f3431facc07969dab4d4e;
 0x2f7ae4d4acfc8497fda4ac0d082cad38196f265c86089235093e1aac53c67e8a;
 0x1afd52944628c9eef6a4d5cf21a9dcf6fa49b1da1fbd9c97697aa50dcd6cf712;
 0x198e874eb31875b5796c3081424da73a92708ecd74e80eded5c8ac492a8011fd;
 0x14ea1b78ec6247114d4615ce0d11e280c33b0a1fbac636f55f043a5ebf04ca7;
 0x23b4797b3bffb21db4277e4eb13979e6774acf0452deab3d057ed6c0eb5f1712;
 0x27c85c1c147076cd777f41b99d2e55530d4d43b341121187d010637cbb66ae86;
 0x1f846837097639fad43c0f406a4029a3ab6d809c1a27c61e48b15c1b71365f1d;
 0x26b338bfdf150311357f806449ee81b2fd29e3f2f43badfc7848948dd7781af1;
 0x2ccc6e79733745f9b759c1eb5fa3671dc3d99065e8413d653eb24837a9bdc544;
 0x1b7fba6bd285b5ee75e195de2bbb189e822ded19a2867c5323c7f6c575c198da;
 0x184a5c858586996f08ac5cf5b5f67367d91cfcd71b35eba37787e44e7cfc61b1;
 0x2391576ba9118db12874e5169e93c729f8aaef71d2dedc81d283dd953d59e0ac;
 0x6fd613bef646afa4f1d57f7128518f83350e5efc0e41f8148d2ebbbd9194058;
 0x1ecf14479487ad8f8e5e4677f73dbe81f3ce377ec7bed9fbf0c0a0f16b912718;
 0x6fe9870f03a8f83498e73ecf2e214532b8b114a14cf3b342d7623e9d5192b67;
 0x4b8da7397a519153f0756f72c9b62670ed5e983c02a4109131e7275d7f2d1b3;
 0x2b1c40fcbdf7d9db85f818aad7fb333b7249db791d1f65f43f529a77e3118998;
 0x278fb21e4cad110091702e5c8cdc84425bca088286772f1817308f3109787057;
 0x177ef03c343328defd5228df7d4e44d4cd23956dfb134448a485b196572925b4;
 0xd201654bfcdd40cba52e51bd419c0f95c12101fc1063ebb8d81554c71c16153;
 0x3b21c4a37026ac5d962119572d8bbabb453343f75c0d55c740aad13968d6e09;
 0x72a52164e3175f63504fbe7a0e02509d050e5552490e23d7c9c8242fa870ce5;
 0x30d0c184b743e3401114b1f395b12fb6a962191c77c5bdfef165977cdfacbe8;
 0x24ba3bf7b9134803ab3dc87fd9e9c27f129764f91c34eb53b557ef3fea87a39a;
 0x13e05d5c4e1dbad46885dff27afbf021f7e1bbd432d0a9f1a3dffcf3300a7a48;
 0x113a2fe6e9019e83e0e898410c35326c10cdd01429acbb1fab5faa9cf474de2d;
 0x78aebc8ff29a02e89514e9a5beb5690b75e598d2af2f9016bbfbdac02f47d17;
 0x2ddd3bdf04d7d1449c12e60030b971b44c6577ab560f9efe8e867282ef1163e9;
 0x220faf36a017fefd9df4282a946513585a4f6cfa5bc5f9766861fbfa43ca18ac;
 0xeb6a2ea9f6827065fe666ff3d1318280923a634f91efa9e43a223060257881e;
 0xbe9458e9cfd6cc6489d7f20d1738f3e519b5c22ad15352cb444105ef4b89a8a;
 0x1925d24635bfac09431b17383636f69f224baed3577628de33d1a282cd18efda;
 0xa4098894729d44bb96a4b265cf98090039eff6cf8b170ce3dd6f8e42566dd97;
 0x19c9d480ef38aa13105b574a419520aa7d092a68ed6e76171065803da50482bd;
 0x1c0a6c07cbc0d6ab894864dfce9df406b04bb0c3f7d7d4f00b3403551411c07b;
 0x1d40bd40cdae647cff38b49289ad2cccffc669bd94a6aa724fa2fe232d4e6b02;
 0x28ef2d4bb34fb4ff673169aa1cdfcbfd7a869974957ff7ec7bef4c731dbdb666;
 0x1b2d5d6b171b0148947d55f61b069828285670f4b843d29aa7f4493bcc5a8923;
 0xea0a67e504a55e07fc868ed85f3cb24431835409db5e6653cc31fc307d29ebf;
 0x14a99bbcb8fff06772149dfbed0103dee78b5622afc0d99ccb2bcde06732c042;
 0x28f711676e8ae8c2443c3f82a8b765edc17cfc6ed254b7d2338f922b6843a8e6;
 0x145eefa014a02d9cef3bdb305206dfb1dcd4e4b8bb91513eadd1374c38e94195;
 0x2379d29d5e9c69d6fba8ca261656c9d0370235a378f77cca2850cfb3d5fc2170;
 0x2d12ce4fb01ed5ee6c444c59583cd1a26d8e745443a6721ab48739d7b2685e1d;
 0x2dada5fcace74d74dbebe88dafd754b859989b09240b43a46e03dc6fba6c8f45;
 0x2e23386575e2f0f1f97e4fb08438a13728dfd5030d398192ffaaa1fc6da5d159;
 0x270d58901f888a0d3331391d74b72d35fe749849add6419cd747d6cd67db2d52;
 0x29e48b157cb407f9ce069d0f80a4537cd9e87179d9eecab350c78d6990a4e0e6;
 0x1d15d50631be723e2ce8bf8b559d975af370557abee33b6514ced1bc7dbfbf70;
 0x19a954aa55569697082d97017cb66cc676d03bed6542a58a2237e7483ae8e3d2;
 0x1146d8cd42e6e1e47b51d5d80660d7e17ab43467a2a5b5c8c0d271bf92837151;
 0x281a3bc2877b82e9a9796befbe8db3536aaff12bbcebd91de6887432f37bb44;
 0x271904d6f98de7de1c70275d3e362c3985b2e7ebc073ae59058ac2b4e71394eb;
 0x1b07f0f881d60b7ceddfe4dff878fc7162c92d8c237b5241017fc0a2aef43881;
 0x2bcd2701a63735e73b0257b73d63ac7cd7792cf96ed0a0fa3ce3bf6220835aeb;
 0x131f25e8aa9663cff8fcdc4f325434fe144056fadabb01d4effc020148f07566;
 0x1e03c62451cbbfb82a6a4c851368b9a9cf79366be4c7937ef16e890bca6cd6c6;
 0x2a8d3017f2b21a818d3c8c932566bd1baaaa7c45600baa0990aa67a49309cb32;
 0x174c20e110d106eb038cd9318d46691a685d777b71d8852d45602462ec5e3a4;
 0x2639df073fa32789d0e9afab0f34422488eae06fd75ef55995e369e1b15dbddf;
 0xc170d68f133125763ba7714624b007475fb6787a1b17043926963dad16afd1d;
 0x2fb299340483a1739b0108e631ac6e8917367253a76b9e7993b1aad9f694ec29;
 0x2588cfe421a60702216fa0bd567cb266af1042923bc6cb57ed68bb90488f35f3;
 0x22c8fd4638564b9de90ca35e661965ea6f01f37ff615ef308046fe136ee5f01a;
 0x17cef09c980a80c4e53d7284b5b2a10dd1cd0ab41260d33cc19dfada88e5447;
 0x1d9f0a3022c4764f9e5e6404397bbf44be049e5185cac48bc729ac948ab01331;
 0x1bbf6b14ad3e7666bd58c7e9750f7bb9f6d6f70c4c2abe91e20fc51cc5ec28c5;
 0x14c8d23e7b15787024794dc33c58dab8c117b51b4588f5ec5cd8c59f9cc30dcb;
 0x1b91fc8e62a79e98f545cda2608f29a4169641a3f715ead78bf494822555f565;
 0xae904147620bcf04a4b4a9679b2713fdd8cd50296d42ca318548e32b81e3b38;
 0x166f3e332577ce10c873891b5cc742e7c34bb4d62b5773316688e510f4d82b8b;
 0x141e088bfc6e007a2d82cf717954720cb29b97b30c8c8125d5f9b46c2e26621;
 0x118e0ee4202d127a0577a6eea29bb614d99c1034fe0e2e7465e91e97c837aa29;
 0x2970b8f31d9b9afb3d3b912d90594a847ba0483dda4b0934df1278ba14bc2ec8;
 0x2f4a5eaa4b7aff3fcd06c9d68fa2e32e4b4e629aeb93eccb552c9f96fbda3ddd;
 0x291d6cc7e8e5152902f5b05c13002bba95cb54657ef393e92bcc23b9bbf7ffc;
 0x2e221aaf4070c2c0d735b5b0a52099c6594d38936914c9393d8ecd2327088c42;
 0x103d669fc46b07aaf6cc4489e85724181503000817f8c1fb5d471b2b36179f22;
 0x10dbe373ed70674013a939b46a07ee4f8c191e3fb639f8d0a781d1ffba82fe90;
 0x116229ba1cf580ff86ed006b9207036e69cc0f1b55d4088ab34e01a3f25fa531;
 0x179bb393b9bee8ef918a2ba2239ff1e6bd63d6d48cad4ab6f2d319f2999be4f0;
 0x257a8dd0150b1254b585122987e3bfcdde7f914d374d2bec0595c46afbc0997a;
 0x1015f7f8871dbab0d121570b0ba6417980a2d11b292fb2a37ac74c8a6e198dfc;
 0x160acf3dc98d9d1ffb15eaec2287d5cc743ef3d16fb8bd40946a24633d23825f;
 0x63c73552b19fe6f68e9df9438a581827ece6c31520117c2353c67cf0714d5b1;
 0x3e8c80daf887938cd355ec710a9e32f44c47520aaba5dcff9c62c4bc0412a82;
 0x1ac3f781cd9676c41ea21fd2b7cd3f38cc795eb6ba45a525b291c66b8ce7ba68;
 0x189d712149326d71b0327f9b7102ca0f93043fdbcf400c18e3bf70106493354a;
 0x25a912761f8d8bddfcfbc099bc994a355176c54a1831f8eea5572c476592c1ca;
 0x1158c9758fdbbd6551fd2ccd615dbbe0bede969a6cd0f28040e93b5239eda2e6;
 0x28e7b56cd29b16133e66383a20edaa6a779b6afb82772344cd2c25979a9a5eee;
 0x2c3597feaf103aef0cf0da96c7817bfe5713828c613e326c975ca1309927700;
 0x1c4cb6031554a2f40fcd1b71223a97975dde9f4f5c26ca08678870a139ed93c9;
 0x2ec728fe7b69cc421f18d96bf7a826ca1b04261f24a98fe9c1e8a0a41b64b58a;
 0x79e331f65c8a82b875922c8449bbdea3a111a68179e5d2dffff605e1ca47dca;
 0x26cd813f24807033d7c0244c9f0790fb80da30e5e3c1e45d7c7032f2aaa1831;
 0x5bd11c2b64de1a736f93ac8ff7e0c166f8c570a6f068dedaf72227e85c11451;
 0x25e16ec5be688e137b2cccee835428dab939351b3227e8bebfae85f3a1f9c270;
 0xb38073981b0af418fe69ea55eda1be5d289b2f0de3bdde47ee6483f033b16cf;
 0x1b40be531edfae81a33e40638fe85f88067919a14dd1de793e8eb1520db3a2bf;
 0x1b3437d0f405ab27c185656999c538a67654438f28562b3a00eac395e7133835;
 0x25abe96ddc21b2c17b6bfb3a8a90a2ac051b3871c87fb9e35383cf6d7223888a;
 0x25e3fc93bcdffeb428bdf8c12491963e4aca18475844b67fc5676c73fd0eb358;
 0x3af96b4b972c3371b076821359cfaaeaf9638a072c4f93e08ab119e6c7429a7;
 0x232a48732df2599b09f1f1631d68129303ff6d40098f8b2600983e5534435c11;
 0xcdd518a91b38feda4681d3bc992182ee111e0440e9860cdc71cdb36ae80c1e8;
 0x1b821898c43b4f3ae2007e994ea83a84d3fa63e7595db2f41312cdfad1cf2499;
 0x1386203ae413c1942a336b2fa08038f4e92e5952e523bbdf7cf3378113ef0cfe;
 0x425657e57a9410eba03665cf1ce8eff3e0de9469b032d468ba15d9208fc20b5;
 0x27884ade4cb4eec0c91c8177e0971bd5a9b844af188d28ac1980ccb425fe6986;
 0xec81730de0878942af4b3827b8bd9ac4cbb1f3ab7ae97cd1bb135b0b7c78f4c;
 0xa93f1c9629ec9071e268148c6503ce1800f4cc3c5389c36e9ede3eebabb7025;
 0x7e9c58dd7c4767fca5ccbcd7bdd8a4f4bea7858542b298743660654001ec52f;
 0x975e07614ccfe3cf39fd0208e97cad49c65a30af3590b24df1016e6a7ad9b39;
 0x283f302c98975a418a232d3263d80dd74300113d851de6d7b5ef3c7f9299450;
 0x2b99993f81272c00553c71827e9e24b3270549e703515a6704393b3894a7d378;
 0x3cce63cef0bcee4b9d5c753a190c249127a628b4eff5d557f2ec05b5d033c9d;
 0x2bf4ce1340a1e717fd8df525d46439375eb3642228ada9dbaca5804e6998507a;
 0x1ae9453dcb8890ce578b221d846612a3396ab24ac8057ed48209efdbf31165cd;
 0x2764d3e37c82c76382c2c47f4a93dd8e73fdc7cadbec68bd3b03b4dd75c09871;
 0x150f9419a3b6d46dafe052942e15ed496e5b162648b7ddd3cf55bf1e52f7636f;
 0x876dc242c8d2aa183d184cbbc4340d5a9a3a474ea84a99046999d95c7884bcf;
 0x21ae86ad0b69ae69e4b9be0ceae01667895a9d9381a1c0de6d3864d228e8ec55;
 0xba0ae75f3c762e9efa11794c8121d2b7bc6ebee38f105fec003595992419580;
 0x10a16abfd6b38360d4f3257f3c51c9fb94ec5f845dd83e0c4ac4f7798f2d9077;
 0x9dcd9b007d04507c0bc772c0ebf964d496e697461753bd1bb81bbc39583de3c;
 0xb1bb2a1096618ee3bae22563f63fcf7e85a817f6345501426c271a2cf1975e4;
 0x44c7652068fbb0991aed6944540321bd6b09a1f0d6e91a54b8af4dba18471cb;
 0x214ea955c4b2a5107d885a37734de5c9afcef744c4815593f970bbdac51db55f;
 0x1684d36dcd86408b68230ca9f98e784957bfb7552a9253eaee876820bee310aa;
 0x1666ceb9d9cfa4cbed159ae6ac945516b093ce589c59dfd5abeff6c6c2ee06b;
 0x2151a99ef7bc07707ef7e223864c9e8c50836302f299aad05de35ad74c409daf;
 0x2f56e15326295bd701a40314e42ccfd5ca4e0814fa54d312e7717e488da05955;
 0x116ae009a6c4bb4c28c016716364fb7e7be3b21723755e1607b1a262b91a16ae;
 0x2fdbe71f53d54e5b3bcb850ce61743d675be601d74430d9eb8073f6814205189;
 0x11a91f3be424b955b2241d753e3d6d5b0c48ff9c68ba868f8a611232ba442f5;
 0x1c7c9cf7751255070ebdd0e3db7f97e5d95564d33d2b3293caffa0434e6d788f;
 0x1eb979221c31f6978d43e7568a7cee7709d68b86e56d77ec89587dfaa78261b5;
 0x263b48e46edff89f2de5dcd258850d200543ee5dde31459b6fb5241a6bcefd76;
 0x785b9559c5da0bd57a80150c229bb2d75f51094c8e1a11bfea538e217d2ecf5;
 0x23cf1ad5ac576585eccf97091be57cf0ea3bbb2d3af9174f8042582424321d9a;
 0x27d4db4bdb30ea4e07550d9e077ba8a9d5caa1d418c1a76a12dc71ec55881180;
 0x115f6242fd5412b1208cd4023d8cf87fb62d33a8292b231caf8d825701ab681a;
 0x89bbc83094f64e293c91ae79a8b7e009d0f679c67dc19c62597b04e1415c424;
 0x1d4a1b3e7a6d26a8c81d7e9f4bf08af0bf1370dcd0d2101469ed87d469d246ae;
 0x2868583e9bdeb10538362d7fed8997e9ceb4b43ab8db5b0a4b2f140943ae52a8;
 0xb79459ea80e71539e8079cfb3eaae03ce6d0e3c856557c3f71fc983095b434f;
 0x119119d4ed16eb8d4766c638d0c34acc159a2b8e24e38928c3ba875890ea1985;
 0xbfdbe4b4377205377f69c3cd5e93ecd2a9cb3b4ae2c1541d8e74b64e965a7cd;
 0xd41174cd6b5c4c0d34b2f4d841f3f9da4f100e20cf6140864efe6eee54c08a1;
 0x21c5915b86d2211067d19fe9a318234043b80b53312749898b537783cbe4e1c7;
 0x1038a4a9cfa20caba2d23ef064e7419792e83a31f0cabde4eeab2e49972fd78e;
 0x17cc0079f9863177147858c89d3d7f31adaebfbe4c9e074ecabd20b7d2243a4;
 0x294ff7e5e36f7690d60fad36b804e35659e82117ecd44deeeb79e58bb8c874d8;
 0x1f03f5d810dfa62edd32521abd1d283c2416a28fcaa244d36788eeeb195a9041;
 0x2113e2715ea893d00d101bb30e6e1702157d10faffe85095427dc9d9caeec5;
 0x2e92c29b7a243a299d92e78195f30a996a3f534d5791a32a0be28bb7e8960c7e;
 0xbb300ac74564449f872674dfd9e17a185432f1f463317cdf9d499c87cf8595;
 0x250e835ccda0e466dbd59a541e1d03c4fbed637ac6b715c82c32af588e1bb020;
 0x6b776c5024ab6374c84f5528ca7930439da012d412f9369ee36db33fc435826;
 0x21df8b318a44cc5f9d54bbefc97a91b787912bdd5cdca95f47eb9cc89abcd1e2;
 0x1e4e1eaf5d1729d55230bafb1743de4732a18d66a9692849701f9a25e74ca9b9;
 0x268ceb3749719379b14ea062c63b359449e70ad5816df014cbd102ac647f2228;
 0xe252b231c1f0ef18c8d6afbd879eaa7f9e61dea73247ca3af62b3c1e8794fbf;
 0x799c14eec20438a0e53b69882c90c6d9239b7367be50f64ce92d9974c2bdaff;
 0xfc050000c821a4cf4ee6bf4d91ba46d2cac2305118ebc194684a2dcb7d7383e;
 0x261a8cec31c1289f2358c73530ed7e01c2eef88cbad4010ec09d036e57d2a9c4;
 0xfe536c9c7dda5070a37fd31135f77a67f9f3a986b1c23deb83e85793cf3cf89;
 0x19ffddaefdb50032b58e08b4f377b1c0eb37f06375ff78e7ab7b605781dde8d7;
 0x2e204413c53445351004316110f539849ae7971f877fb0841b19ee753ee2083d;
 0x2aad98682dfe08ad2c9b15f4455a201d4a963ac7dbb189a42d2b3e1c3e03111a;
 0x2c89f855544594b08ca43a7c32c31c0d90aeaf300132c8b4a4cc66843a181ae9;
 0x17aa1f236e0e89d6c821337ec90bd7a78b32eb9bafdd9e83ff8c7b1b9784828b;
 0x290feaaeff298d887d5a5baa47fe2e84070eb78d2079d791acb9067a979ac1a0;
 0x26103b8738968671897412fb4246da86eac69235c4a1a71aa7a928034915f67d;
 0x28a70fcea0f277978120db4bd478a6b09d54eaa8a97d369dac79716989b43c7;
 0x2499d1e4544c6db94e9ded9ba93fd92162686e412099de5baf123211b4138ca0;
 0xa1aaa6aaa97e0c7228ffae517b59392211af38efa670aa06207ad7f05bf0af7;
 0x25b6189ccf6ab3a759641ae79385f3e7de0e375a61c260d84d91b330f83616da;
 0x1746b0b982fefd9d90e7ce72cdb5f92ce0c6990eb43a27cd53efa1bce881eb60;
 0x289e95d858d2babe2526517d850587c3609a9f4ad32a646de51e866bba0b42be;
 0x3048411ae21ced1b31d43d3496c92e66a26d53a24f250e17f328c358d97c220c;
 0x37ec711790b5b9819ed2f20da092a6befa9bc44cbe6c1c21f33d3efb17688fb;
 0x2d4029de72bf01e5937bfa34ff4d5ebbeacb010ea816d9fcd6e7af91d9a6714a;
 0x466fd8b23836d8e45a1751a1d0d28db003cd20545a88e41318c571c38fd3b12;
 0x32edf5df6d833b5490840e0140247218d6254c3697d0070fdcfbf6f1168e841;
 0x24098e733e307a6ee49e38ffd010589a51c1df21282d82788f5bd0cf8928d1e1;
 0x2d5e2fa5e630042a0731ec84f4a548420dd5674b614b3de83e5ca707ecb32706;
 0xe77210dc9f28f0aa0b9330bda698258e429ada3e10f084f5066aadc86d7de01;
 0x2ebdaa0993f6a702e710f8fc47392d7a0e5186294ba78ccbde291351087b4fb;
 0x5667655c2f54b241385b86fcfe274d1f245699cd6aa60b6fe515102e6ed9c0e;
 0xcf97aeba824e4585cc9e73c62f0334b8ed4cce1276b939501fc2fbf6b2cf2dd;
 0x1b0d81d58b85a80d5fd10b4c399e0ba9603e0d60c7a63c89c8339dfacb3dd88c;
 0x165261806d574e0612d935eff3064754aef0f9fc86984b1e31da996961b565ee;
 0x2543c122ea7e08406b7c5a89f385579c585ce647d98ec4400b6db8ecbe6dafc8;
 0x18aac1e93332c0695691852880b308f069d8749f94c92372c1367bced171ee01;
 0x1bf63cffb45ae6f08358df0152ace17058bb3a63b0b1f2567e69d42b44048bab;
 0x20283d0443c843dfa2cccb285119fb4a12094c90ce6ada0f6def11ec6caa6b96;
 0x1d954fdd63b3ee13a6ca13dffe9832aa9d9e5f2e1ecd3e407272d87c281250b2;
 0x31b80ef30eb0f639c33fd4e7d5b778d607ce624ab7c0bbcd9b2921b6dd0b164;
 0x1bae6f23461f682a6389c607670ca2c975b768ba4922543dfe0c78dcde3ed854;
 0xc15d34b4ef0d6dd324f1fa8ef058bf24b57419c1e49396aecc6b2945562780f;
 0xc95d91f46eb587506c57bbc2ccf87a0fc5348ac0dad375eb409aa64cf92da96;
 0x2d1da15ca522aa1868740b9e801a008ddb7884657ae89507fb99457326786ddb;
 0x572ccd7fc6fe06be9bf2bfa8b4891a37e728805c609f1e282a0214480e62894;
 0x2016ba766dc14ebeb269c939f988c0b0e5d7a16f2649e38877f2ff8a525a88a6;
 0x1d570b5ff85730e9ad8c3261b6ae8574999221574fda8a97f19bad50dc2ec724;
 0x143223d027cb22f42b20a25860333657c243a05e16f8a0fb07784a3f8b3f83b2;
 0xf67ed530f31504bfe3b87325682a5e9b916d75caa7b5b3d5e222c7f86417dcf;
 0x10138516469478294fef0508151ea8164f146c8e377e90637c4630d0b45de53c;
 0x286dcbdb9c85e5d6c68066b69720b550f46158374b88e76ba48091661b591e19;
 0x189017ad0ec6599655fa5f5c041b189d4a5055a83914e5eb1565209d44366f1d;
 0x123bce9fd40c7f1962d00668560cc3192428bc2296c92fd13a42d75b41b441a4;
 0x1f9aa5e25387985073ca220da7df2a6cef8b60a089e4afd93e14eeb3d5dcb5e6;
 0x103f38ddb6e1a669aa42ea1c7b9ab05761f1804a15fe22f26bd34367654326a0;
 0x12389e0109377aad426be4716375841c2fd4ab598b60b6b2b4e7a2ef8a48ae7a;
 0x204ef0a4fe68dbf212371431265460d3ad63691245c56ccd4f6990b989537d9a;
 0x1425c7e1f5f5a42708633437672f8ccff1c17bf74dbefa1e99cd040cd193fb91;
 0x1d1b25d3cabff58428e2696ecea9975a9484302d17fa12cf33d8416b4fe1d299;
 0x23908186767f07f13d0adad116284f2f179144750b0f1ffdce62eb4797ec20e6;
 0xd754473d7c8757e822a89718cb7d7c5acd1125ca5e0d12718486552a3741974;
 0x2d59de71c65b8678dd79d9ecd3915197d161b253913299238ef8d3d28cc12d67;
 0x2b2f638dce6c5dc04bfcbfb40d6d547e52730cdfbca74f0c0bbe5fe25e0a6e44;
 0x20831f33188daadf77c482c1f3aebbfccb9bc2755940684441276f800693c758;
 0x1bdea03a87112ac5f71d27b0690eb578be20a7eab02ccf7be94a9b504306bfef;
 0x7f190626c5ce403670abb23f739112ffb91dc234819180d83de234de743a31d;
 0x21d03a8acc5002c7565dfd84fe3001d9d7025929c71749de25382bf9383c70ce;
 0x37f8e1f9f310b909085ced938b600d4dd06a147d5183992d9792ac4458f7936;
 0x2680cb420ea4ae49c2286e497ad3cbb55360875a2b69e17e1fd096ebac531c5;
 0x13a3a06d1fb827ff1406192162eb23b3e27e94cfda6aa05a86ab5e325e5df358;
 0x7060927b3c64111746648d6a8433ff8f373a4534841e5cbffe5bc41b9e688f0;
 0x1d4143526045c6c418ca7edfbf9850fd260d231b52b2097fd22411041cbeef8e;
 0x4f6db2530b719a376c6e7d489cd7fbc652e7d2d09064e3e9444978c9be197a3;
 0x542efc3df5bcef699f0fa7be5c71cd32d253f20488bf70d734241e434dbf09d;
 0x2769424bb96a6c21c64a506107d4885fe53603c09ffbb01860658330ab1b57fc;
 0x123bcdb0cf6e7afb47b866827db72332e93c571506e073c498ad1a92befaeaf0;
 0x15a1d25ab64db0353b33ad1009a867276097d5a60b4b18dd02bfe855a4952b21;
 0xb9cb6fd7e6ffaec8246acd41e43e0712fd76d5cae56a94076cd816354db31be;
 0x1f38c1ffe5470c8367677c8c65b3f83194cd9c7d2e8080a1c31513a2c23912c7;
 0xf32237d2d6ed00b1ca954df37c30c988f89415eed829133f5a73634d05f0c60;
 0x1905f76e825e1671f867fb5858f25e53a45f8f306a9a1b6dee7033647fc8ad15;
 0x91c7d54e02067adc0794494efd0ad906e8c338a524c37f825f9003ac312d02c;
 0x2dba5a21943598041f90860c8e92223d7511c74beb4648caaae4b8de3870f3f8;
 0x293a350bc3c789dbf7c2e5a015480678a755ebcd68e1cb29e41d1d2942c579d4;
 0x49d0199b6c0f2b3122d7d74b31aea8fcb701a24f40ba5fe698de631d22f6248;
 0x2b9325291ca148c86eabc2eb32cae477dde830f028f548b5b5c6e143fb8ab68e;
 0x96a6ee98c5686bf3d586a0e54961b0a3afd6d52da377122e85a355009f4a560;
 0x13fcc77ccb4a091ea452a3f4a10fcaddbaa7ab18eb3f88508bd128ad2ea5a818;
 0x9199f06156eda7c8103343b344bab11f43551bb9507bccd47a292af3d4fba68;
 0x2fc417c576e3fa9b6b38a82e0328422c2d2dab90879e42fea73033a7562166b0;
 0x27a81a0c9e5d0c98fcfe679afde0caedce2c5fd66742492e80dce95fcac79ff1;
 0x467bf8d537dbe823d6a7d64ca2c7a2417a2d7758fc1a89ff93304fdeb4d079a;
 0x71d82bca92aefe7636f10c9ce16f7e5b41314128ae5907e1884baa183442469;
 0x1473e4434eee30b2e7db34daeefb0df47d1f5e939aca25394aa11a686ebcecb0;
 0x2303403014edd8333b87d5cc4cb08ffa29ee752f6a367c5c9918f8e3b80acd49;
 0x213f2f341749dcc702fbeb8eb916ae6575445cd9d4e5fd5bf047aba7ec25dc82;
 0x64369bea4c676d37efe3a65dbd4316e0e1b6b51ac48bf9c01b52c15b24e8a19;
 0x26189341509951e63ae3b022397098e5fa9353625280131b31dac3a1c1837967;
 0x28c51ab463012d8ba9f0b7f8eec91ccd7691ef0570217892d57494c6faa6abd3;
 0x2a3e5a660753c0f733827620cf3d2351e4f171133f749eae0cab25ac5aa4f0cb;
 0xbf314d9d75e35486cf9f62f6539584d0f96fcfdfea1617b76a4640999f3d109;
 0x2d96368456c5fe26d119a5742d014db9e86feb0e2315c2a37bfbf7e02ca01494;
 0x1ed8f2f743e4af9edd62d9add634474d54113712e5e948f05b82d06e7b59913d;
 0x8d5a047a23396ab6b1c02d108974b25ae135e4f0de6805627ca074f3c58a89;
 0x47d8ab6c52350d654f86b8942f10d2c0021bfe9dffa1db254dcc5028aef7100;
 0x1991c857b30f3ed8a58fe229da5c13fe07d75199998df10921068afed09a6a36;
 0x22e4866b8af16ceb7fd45737ac352805b1c575456e1535a9e9d9f7a79e0a5b5;
 0xa0840cc3720e659f311daccfe6348f287ce1dd473912c34979a48e69b06aa54;
 0xe4ff910ee3920c587d0610db1fbe08bfdc2db5381926263b177698810dda57d;
 0x155d27b044856920bbdb5667d361a536c3f8c5a5d8599e2a7955dffee77c266f;
 0xcdc005d55f575c61a43d8a28fdbbef3eec35e56a438ab99680c4d1efae64e7b;
 0x231e87ba98a67f86d501651f5b74bd53cfe26b9ee09c07a9d8371b6bf7c42be6;
 0x6b4d87805bfb75f9c37a61e10e5579122d369327c344d516e2ce6c89398b379;
 0x16e66d16d3f570ad5da3dc1ecb3e18b38eb8d8e05b2e8e7884491a2e1b2e562c;
 0xc66a6340c9c20cf66de3d6eeb9d49e8a737c233343df8d847e5a718ed5118ab;
 0x154a4b19575147b6672bb0a721ce40957fae3e336c82c7fca199ab30e7512274;
 0x15e4b6a70cdabf2c4de98419da811d062ca8e9dfcbe39bc7542f66f7b60bf63f;
 0x1161ad8fba20760a13bfd7b7ea1d38257edffa8c52be8f410087c916f504afbe;
 0x27b83bc79d2ad4da4b5ef4982e91b81074985cf23311a658dbd0ed301e90fc5a;
 0x1a4115730d7515e8ae8d0000e48f6cefcc893190566d94d39db15517f401d9dd;
 0x1a9c2b3b97a4108828bd76bc41968d31402b4041aadc416d65c20996ee6ac6ae;
 0x156aeb50e11c39af946c5312fb0e14db6e919490571e0ed6b555556c31f97d90;
 0x14d25507db869e282d0759cdf16e81006faf9f10e663883030997ab894149e2a;
 0x336977ba5510fb3b812bf39fa1946594a78a99c00101ef101727c2e8e7cd687;
 0x7f8bb771e58e5761017a9562c6b285b93d6b709aeda186d96616197579f1b68;
 0x154c478a2566294d2f96d834323009af0dbef15da62def8171c309a05ed1dd6a;
 0x1b938bf306de7f48325de59877abcbfe2eea089eab0903802c7bf3fb9532627d;
 0x1aa446890cf65be6ce7f7d603bd42e03b7fec0d201668f760dd609d31b587e20;
 0x17eb7ee41c38747374a7b1f145787ac75b8d542d33494d65f0ed00ca4ed17edd;
 0x1d1b95e9e4dcf3df901aafe1bda2cc8237032fd36ed508c61c8b4109f820bb61;
 0x99d7df97cab5226cc7e3a35ceaa635c22ab0110e93a62516f0370a2967429f0;
 0x161e53b2f10ee9aaf22596c621480e1de2090503fcc55a8295c23d45baf68f94;
 0xb9bb53d660364ce1a5222bdcf2a80a161934e3e92de5057d668dcf49dea99f5;
 0x1c8457a265c1756de7571b30290dcb48fa0beb2b7d1e44114262515854808326;
 0x27f9c6fd0b90983010d60a37d80a58abb0f3500d6d16c9bb4d6a52ac91c4a491;
 0x26880cfa04ecadedfda3a24a956734d4abc8ae2f92644369c8460df5f21647ab;
 0x2f3b58e9bcbe37e95cdd9990aeb26482c55eb2a9409e28e56cae24dfceb8dde8;
 0x1117104decc679a66af2e7588d971805b518ac219fac8078cd522ac8980c6980;
 0x1c745418e4cdd80ea18a339ef590e58362b3823b1fed2d6a8ed942190771cfc;
 0xcad8a954ec6676b42e43c86902432a1e17e2cf4af5a3274bc1be6726e1dbe3d;
 0x1b30bb989db0337d04320fccdc7d66f0bb15b4377fce1a75b4278bfaa61d5f57;
 0x19a557a172005f84242d40c56be7c37955cf74da223557b0eaddeb5b55c6181f;
 0x2a1f883c5eadb6964d4847479f52c8250b4ccca0fdb292238b9375dcc218f4c7;
 0x162a0e44db8faa02dbe1aa52b1680710a8dca6091387695cb22c1ff844928341;
 0xed9944bfe48542efa10c9f20b7dd4c6b15584e126bf2c01c8e04568bc8ae21e;
 0x1d53c076c105da67f5cfd822fcc9c291dfa2923c4c6d275ddb45d926c9711c2f;
 0x72ba0a2cdae57b583ba1d72f09c745e50f4e16adedd6488cad8b793e3d2adce;
 0x26e72dc609c2901873d40a7e739f70af722aa439a0fe417d7568c38e38f47ce1;
 0x1f3cab65aab5d0cc6458519a14d2b0dfddf4c005a63303d1738f56d4c41602bd;
 0x1dfb345ab565970e95c89ba297b6355deb2f2302b66179e1dc548983aae02d76;
 0xb60e697535215bf10f1cb1208e0e699bd88598199c6d8d652e69b90ad80e6c0;
 0x81593786e302650396b0a45ff8f62366310a1f53869d0557284481ac4bee258;
 0x260276a46e6c624781f3a777a9b45b4835a751c6b016e584da35a3c309844351;
 0x20120b4045167313784d0c2cb4ede07afe7fb0605518f6f50cec1b8a4b68ac73;
 0x1fc1e2292678af8dc5dc1f2f1f573c3ac4e195c5a9857e40fae92309bc768a9;
 0x14c0047ad00b7d736a8d817e561e582e901b4481e38316568b1be267e775b93b;
 0x250b4e6ad1c7ef8ca6c251c27aff101d7be1fc25fbc484477cbbe4e90d456d2f;
 0x11aefbc0c4a1db81e5b74581f81f7a83ce7bfeefceab74ab4b6ada0d8aca2acc;
 0x100917e088672481c83ce9e3fcb3db32fb72a83332e5b27af55a48c73a6f9a89;
 0x37b5eedbf4da97617f53b898370933367620388d38e16a0bda6a7759714bbcf;
 0xaf98b1a856c51387767bc26146888b2806e66643b446fcc3f91859fb39cddb3;
 0xfdd008bcac697e8113e71c1c0e4904f5259f60aa43ed448796c0ed948fbad4;
 0x1781e1fcf5046e26f19bdaf3416ea604454e254feb0a493905f566b51510b596;
 0xe80eef14d5ce06847a51b0e9e4541b3ab94cae7ca2a536da9a264c83918594c;
 0x37dca03a6b5e150b50564128082e6980a67703fcb783e0e3e12033004fd76bb;
 0x109c28dcb873b3272d40beb0a3fe8f4fdb1e7a2ec5a79b3c437c19dc4e561f67;
 0x19493c0f5c372c7ad0c4f096bf4c206602ead23d19773f6766f135a71e017bea;
 0x1b10be965cb7e46f154e3c08a36656c2e8954b5d507c949f7597b971c03de325;
 0x2de26e700320ed4cc986550d9e4d6a1656115670f3411f5f503404445b4adb7f;
 0x11d86ac71de74607859deaff3cf093f8076d28620a88621c09a7aab1209a91a6;
 0x2c3c3cd13f231389681701241a54f58c9f6af1ebfd6cef4fa30e9fa2fa4e02a2;
 0x78864be7a5f36c07fa9248e98181040fc5a911815984b8750f944bfa5365032;
 0xfd7187cb6096ae0e12e4e276419a03edc0d3246203362d583cd064a6c79fff0;
 0x15e626596829d802f0adbf2476e9566e1c36348b0225eeae7e38bd0e3eb2dda6;
 0xd46ded5521d165c4fb07256a2f7f5e4819f6d88ade910b9ad3fa6c5d7dfab10;
 0x795397bde46b5a97a23f72a8b926a329f3cd2bb6200506e7e832abb6453b8a7;
 0x13008e1519be302934f4200329db951b700e322db1a87dd5798c2b9e1259e9a1;
 0x1a3f403f644737a46615e047a42acadedfb3d84fccb73999cab627fb6050123e;
 0xc921bc32a9fc9eac6065f5dc6346159ef9f6dced9649896b14edbf3aa8264f8;
 0x78f97a37d55f50fbd63b87d595dc665fd206ed6c887509ada7f1af0d1e6493;
 0x1bc6393214162a52026d07fe770e530763c725b7539d9b219cc574943977c6d6;
 0x121898c012ec88514f155880c36c1755c158939089f8a895b565401de07bc60d;
 0xf1bca466bb24ddcc60ce92b9aefe7bff427d1e57e56f654fbdcc362eb1e0d6b;
 0xaf379ec4d8d65332218f5138dc128d41b1b35a33a5d0efc5dbb6c881444890d;
 0x4f21086392ddbe22291af900709be87fe4e9d52b1dd659ec563bd848d42dd77;
 0x35894f580c826c669d912a6966478ecfa19ab1bbe80e5a70c6a1867c02c8d95;
 0x2ceb915d2e4787cdc8e948a4ea35ae04bb6a02c0720c51ecf9989a94b8979482;
 0x633d77da5ed88f9c127c459a30d5f8cc0bd85377a63c4e7541ff735271e66f7;
 0x22f713759545175f343d00265c3ad9156ae99a35f3045a03446fcd88ff33168f;
 0x13e3034537e2b8207a22d1753474f2c4bbfb103f2473ec508348ddc50d60297a;
 0x12236867a7bde21abd297a77018eeafe4b840df67f784d1b6981d7e91d70424b;
 0x15ad10d6809344fd76a38b99f45fc3d10e98f0b4d1af4eedf461c43e92a6c0e6;
 0x5e7352d95dc1c7a20313a53e66e69525902a17e1ed43859453142fc49529b84;
 0x29f6e26d8d6141e1955d9fb3226a74ac71f393b16aafab41e3c787e71fbfe196;
 0x1ca3c0b4056dbab797c54688838a074cff8de6bd6a75c7b6081f113b1fe37380;
 0x141d31bd71dc6bc8c4ad59582f59b963c05623de46199438ba7edbe4be2a4660;
 0x1063538fa44657399e12597ad0c9220fd608178de399e5a98fe8abf3ac410c83;
 0xa1aef7064cc9aa31935dda57cdc4ee0f1104d4345bcf2e42ac48aca3fb9158d;
 0x85280793128e1556cbbfb35c9aa97aa074c4a60d8169427dfda366e42686aac;
 0x6a3c8dabb9a0040af5671cb1ddbf725b484c68360ef5116e9b7ec05fe0a6966;
 0x9a5f6596e0891dcc5e27a3b98ccf537acc9a8bb74f8502209b436dc071bb4c9;
 0x11620412943c57b902af3626ecff608f71e3f958c87cd0014a21f94c9ff355e9;
 0x52144d7b94eae33de0d6cceb2e26c829b7f722ed2f9b6010606fc6f38b7cc63;
 0x7ad1ca346d6f4cc17bfe58274c1b355659092c58295e4c0e78111a387aeab1e;
 0x2963052dd36d3383f358c8024308dae2127213640c785f202a8d83251244d4be;
 0x489690a5d56372b457632d77ccc8b80aa24874737e9a05de269e11618ed69fe;
 0x1c01fff06b37a517d39ec7afda66ee768fd39ec5689b1ecdebf31299c376cc66;
 0x6b30c158318d9b5c81edee80522afaf72e880fa327ccb07f8d87ddb66f15edf;
 0x16d571fc71e5e4a9630373d12b85a412268322cd94707eee0d678d2b6266e9ec;
 0x67dd981da6052087bbe44ed357898be8c108fb7ed6a13481a650901300cd584;
 0x1144f33bf1bdba903eb0b43449b24687bd995f0dbbcb654e38aeb94a6d93a1b;
 0x1614036785ba16cc3e158bf70c214fc0584e433fd14009d576a6787970ec0bfd;
 0x257755228300963581662fa0e767f42d5bc6fd642f040372c53d3a1fee9692df;
 0xde8628a2b51d70e30fffd251db4dc618df73081d01df1612182b2f3bc07ba1c;
 0x2fb3c8b96fe17cc14327e848a61007ac7f0432d3b40f0802f764ce7c16866428;
 0x1b68037617ea65f863d828f2bbe441228b9d76d9463d83d779e5eea0ddc92297;
 0x2882c16547cb68f8806b77ad813ee36372353e9bd1c006fd1961020508774411;
 0xbbf09ef8393989d28a68d1e0bf9b49b9335d0c3611136494e128e5f7b64d8b5;
 0x2c70af6d36c07f4e4b654b3f8ad98b2c91af09b7bfb74079977aa87f99b1394;
 0x3e7edebd18cc3ff82b835ad08bc4c3371b7d55286f7c48c747d930127f62b5a;
 0x2d024df041954ba23441dd927b30a1ed1028e92d4c351643296742a974139b6f;
 0x298c0d1fc2f36e8fff334256bc5cd7e9e43b892ca176292b3a64d76227cc49a9;
 0x18e6416958898ec89885353630496c2c5f572ec50dc2d04ef17869798f9aefea;
 0x2d53a27c2c07fb96058b88c9789fc3f8e1d361a412bf164b2aa0e66e700b3678;
 0x55277041cb7a122b1618b05ffb93f723416ea8eeb6813085dd54a99db3eb13d;
 0x2643e6d5ded06a3b540a3a17e76cbced06eace4c7f8e95e99db09a1cf674fb25;
 0x4c7d00cd7767e1c0a83375a7b11d43bc2fc2d9ad3ff6366890a261c53c310b2;
 0xf89d1e5310d06767b2f0b1266d56be653d83648878ea25d79c4ba05d7192e26;
 0x2e6a9044a5f48fa9bb75ee3a7599da717dcc8996cec003d26de87e494ed4e97a;
 0x2c99c1ff6a5a75729540c409b39faed9387759b5731f0401e86c9df9aad08cac;
 0x13ead7267dc6cd6162931836b07745bf142ebf38fbb16c030a410055aaf41e6c;
 0x17a87105c96c2026c777aa33a53292ee200cbb9f855d990949a36d55d576f7cd;
 0x2ead3b6ddaf49661bd4bf3f6cd1f12127b8e26d7baf9366005861d08ababd4ce;
 0x1947f8c0db2c58260479222a71b692e4eebf33cca2cff82f2ed62f90f51f17aa;
 0x2bb8110d2109c6a1f2ec56bf72e05a161e94919bbb0d855d5bb351625a409e86;
 0x17dd76cb0dba4956f8bfb5311a83222e60bf5df2e20316b336693d2871a745e;
 0x1b6a1fda58c084a90932e269b8e56fb51cb7741de326280e035d9d89925a453c;
 0x17d9551144697337ab2dc2942cb774bc424408dfc3fe1819b3bb30fcaf404b6a;
 0x12ab68bb7ba2a36fa645f90fc7220d4f82e8384e231b09ce993938a349e0d5b5;
 0xda8dffc7bf3ca3d2adcbd362035aec9296bc74ea67d1e94a2f6f7df6a0d9219;
 0x1496cb3ec7cda51d85f776d8613b0430e974d7c3a7a6a843e66fa2531da27578;
 0x2e81957d2f73aab44a59030affc945b26172fce09b4d4351ae53ecdac82dd99e;
 0x2fbe8d6ba5027296b98f0277b27e287e4c59e9b1f84624e0097db390fa65c090;
 0x2804d45c96d2d8422c8c1ddad8c1115d92aec2b16930cd70079bd44cf41fd98d;
 0x2b7ba8b64a1cb2fe67745be523ff46a4c8c0408092faa2333c45d18348211415;
 0xf506b1dbb1b5edf2b2d93bfbc297c117df212d6127cb29c6ee60a2f57b9e215;
 0x2e9b52c7f050b2e79bd377d47bdc1d8246fadf3db799826364c4b7ee2133207e;
 0x8151faf272100b459ea31b72c3abc2aa0ccd71adda2ec0196895c9b2f9a6c35;
 0x77dd8a546141be08daca164600e35d10d4d4e9f536163d41c270c7afedb58e7;
 0x3061e55590411e9f811476d6ee78bdafd88f4fc3d4be60b561eb79e0e17831e0;
 0xf5000c26e73824a45300d0420e81d8cff3e8580387e9310d4f46908cde9a92f;
 0x91d831cf15ead47511b93af75c8305b55610b3116d07a164feeb6aeeb21f7a3;
 0x1d3a3e735d4999103059079b59588db5fa076b94ea8c70ac7ea6cdba7f7a9553;
 0x1e89d2b3e30ec664ee929c38842721c074450a0cbb42a4a929654b3756d0bbba;
 0x1c4bbd5f72f3ba7d1484e517da5c0af72236341b6a8e991fe9e02a19cb24bf71;
 0x2a7c81f7813b82e3b263fc5739cab23c5eb35d84c7d82123f08625db7b4fb963;
 0xd48e4062cf25ed607d179bc3d84e1f49d30e21f7838386ac3b203701ae9884;
 0x17f43305942f3566265972ba5543d4a8845dac0c80e2cbcb56aab179d2854157;
 0x8d87717d5eacf3e5bb3fb473776a5cc47d2ef805bda1e77059026c7c6629741;
 0x19e6e275500bd0e80203aa20c0ff65f7985455cb0096088a5b9b8de314900a47;
 0x96d0f3b6dfc5e9233dbaaacf69bc70a0aaaa1bf6c0e04e02dec3b5cf8889f86;
 0xb9a564349bae4ffcdb0453cb7230aec5a15f18eccdf1910c10dd7ad3aefb08;
 0x237d449c1548db8987917574ce540b1ccd24eefd90e28107866a175c7c16af00;
 0x12ed08f7b9d12bc30456bf424f2c05c6bc912990de7318e2257d98a413e47deb;
 0x29611601abe18d26f5c198268af5f329b25f42b8f07a65849fdbdf90038408e0;
 0xe17287eeb77d085fe7a0b10fe16540368e4b1b457425bfca8638ed10f62b201;
 0x29d15813db66650d5fb633cfe0fc56e242ac3d039d1de205b0a26178c46434e3;
 0x7fe7f7be1fcb36aae15a33171e9d0d7f2e0e193e789e57bcb8f016e08116182;
 0x1fa87be196f938da229ceac44ee343da8f2c3f956c8e50095d36b73123b7eb0d;
 0x24ffdb52f4f443edfc06b8f31a9357253c6a157aa0ed35119437196c2308fd2d;
 0x2d4bca77457123208fe4508ea4eb49c617032b6bc735fc5399b0c2fd6e0b6f77;
 0x2311d7f0ce5763f04be120e804d7e894f789db9ebe2f85a62659a94a27d3bf7;
 0x1b6bef8d51e9451f00d5faf09a78393ba83e58ed224a2e21c0039658bff79995;
 0x908d6045d96d1113c4fc30336df3011bcc56ba66eca87ec8d2075a176a76bde;
 0xd94f3ee8083301f8e3881008c66651c32f74324d41423ae0859ebc096f76b50;
 0x1ea89e11b87e6fd00623489d6ddda9bf67efd74a703d3bdf58bc09f68a0112f;
 0xd07457dc3eecfc6ee77c7adaaca1f5a369e096def369e66519a88701baab786;
 0x260461a3f76bb066094d76406587ab6377217fed528222da29be2cc7b90f1d2d;
 0x1a229e393e2d30c7978250bfef3165f267643eb3c22dd9f1cb1ade57ec1bdc1d;
 0x14ae23496945484e158822450bee1d59df28a552afc9dbdce748e36553d21786;
 0xa287200ab7d925a94553e693ad30d517961d7b5ba293d9d6ba67953438ba72;
 0x178b818748633614e922de31583f27c417c365818953d40cd44f18042ee1d1d7;
 0x84ae8aeef5fb792c36cd573a0b12f0dd0c91d6d4476779e1d99b2925a05432;
 0x28a6aa60d570f0999b772d7c83cf5583c9b23dff39f63388dda40f6ea4adcef2;
 0x1afe2a4839132b0cae494f76f6fbb09fc97a2dcffc3cf455f644dfa1e89e019d;
 0x1f5d00c0c3a24bc115798720b1f9ba6b52feaa44522ad1fec2c1ac9cc2cfa9ad;
 0x280c20325d10c5c9f9526576d6019dc0248f1058a0afd5da5a0cc65a6debce93;
 0xaa34e03af3b028cb67d1f4dec7d789478a3cb73a27f01c75f84bd466ed9b32c;
 0x2de51efeb36dd7f5bee9b67afe192ad7ef4abf63b4621247be883af708828074;
 0x143cba615b06223f5562bd0a28a61a33cf8dda134c2b41954e1a566dd30bbf01;
 0x14351a9d27d670b7aea2b999bb187d7ecb0529f9203aa036142e5277e6815f6e;
 0x46922904294927e6b58028050139001843032f6967ad8a05a204425711e18ec;
 0x2e056e1ce369ea903c473abf7988a24d82fe9fe0c87b7c9a605c656dacd3c5aa;
 0x7245393912f85302ed7b5d3601fcbbfbaa6f35920145ef0c59ce88c1a6a9219;
 0x2309fe6c306ef736f61dcaf65bf6d9b39d10d2e9fcf68ede37d511fa4bbdee11;
 0x170e4332da217cb3562e25f5e200a19cf36f84c986296e71de1fb26125b6e78a;
 0x1e3eacbc11e9c8190274d70bbd5dd0ac64a374595cb77dc08e33ee5e0d82c609;
 0x998326b8f93e6da7a460baf6cbfd1d29db3773070becab001c5b4af76cc24e9;
 0x257d940ed0cd76647e2d3f62a38919b3c62326a494ac9e039f82a22ef1e68891;
 0xf4335d10bfc05a979f038de90daf70272bbdc2426e4988646650e164c5627b1;
 0x1de2a72ae9d2a5632c3e6239e61de783b7b84c8bfbe97df965c739dca7609284;
 0x12f44b0e8c694e7bbd5699e4fd0ca734a8c9cc3f59ba2eab4a329cf5cb229289;
 0xfe2692674fac2fe017fee7d922928dcbd3158ea209d7948a3d769a709d90d45;
 0x1075abb0e5a208cee18841131ab4c87305f1441aafcb808cfff68477cc4fb2c4;
 0x1a64cf8c020e712b334dc8164f247def9098553dcad7a440c349fe902439e93c;
 0x296a51a4ab990c5934922b9f553e053293caf46316e058bc79ad13a37f7c82d3;
 0x138ef5ca84980e11dc9b54ce02bd516621b65ea78ae0974c1db9a6720c00223c;
 0x28a75cdad539dc300a2e9518bbfb47cfecce5da01cf1e90210782605181300b8;
 0x26d2b92339d8d44b3687709aba95c380438360fdf88bfc7a011382bd2a7859e1;
 0x1df11fbcb77f0ede506504bfb4088e3279a79fe6b84c3a51af512a5fa9e2ae36;
 0x1c2478fa762abc607fb0a162a2473b9e4c983859e0ccf51dabde5fa7c8d67789;
 0x2ddfe02cdeb5759332eae4e2b5edd5381205515653b7a766967b829cab80e18f;
 0x67f9d082c4ae52e53eb02ac1080d31a93537ea24d74a510c89b7da79bc3158e;
 0x10f56349169a98c01f7e8da62e515e55aebd4d44c4503783012f588a37c7280;
 0x2b035879b1c570495436d250a2a45bd85510b8a6b951629a4a5bfefaa7117fc;
 0x1059e4e3320b8c2d66a6b6b1511fa09e619c4b274201ee8741be77fc5b39a6b3;
 0x7994b9136814469cb0a286067f632b349b5ae24dae78b056ce45d722752eb90;
 0x269e470e88cbd936f4c35ec5f0042b9d6fc138f3dca5de3a83a99321c8c1e4a7;
 0x129f3f097b2aa5746ffc84ae17aff9a892a6bc4bc965ab4bd1c65addefc160e0;
 0x19f39b427cf94a65aa7bf76a405b43c0d0b4a824c8e60ddd645d66f0a91ebbc9;
 0x1cb82f7ce4871b4ab04f77469d0100857e98d6d950dbe8ef64e35681cf888c32;
 0x2fcea06bb3c4f9c9158418921b8c4ab1380d155a139894648aecee891241413b;
 0xc88d2ed1d6ffc58445502752247df534c2577b18fc83f8419fea33727e56f6e;
 0xa1da581a39db4e8dbe4f5f686327e7cafbce078ca7cdfe29ca5d3ae74ab1d26;
 0xd56f11d19300b214a6309769c23816d9109b415fe6b1fbb17de6fad7d7e12cb;
 0x2e5745bd8e65df2e8c490465d8e9357e9afaf55aa182b8a46a4d8b47ca3e6be2;
 0x1da803c3d0860644231a958b17d2c22ea4ada1347c5748f8ab68a402e77fe8ea;
 0x146a6d1fc8428ca679fbe8c69616ff6798f59a827d47dafc15af34fe5182f08d;
 0x12ea0731eff3e53c881aacc0ea77c163e30001ce74a0f5773779059f96360fb0;
 0x21c455910996187ec677c08373e20c41a30a2d4c06ceaf21b91f0b14a13c9046;
 0x189890c68e60d975ac6e44d343b29cda1dcba09e0a67e61e2cec8b2fb9f6d8c8;
 0x2112df96cbf5b91e4f19269e8fc74f24ff3663ed5632a26c9c3b7252b502cfdb;
 0x5c4b82abfb0c152923d56f0fff0411a3b5d11bf00539445ff183d6b3170fbcd;
 0x27d88fe28f12c51e94af9b2b3f14099afce73a3736a9fe1cc89b11fd4b84447a;
 0x17450b33b035a97eb613d289ecf775f4003044d861eb41963a5d78304ebbd905;
 0xee988a9ebc8e608d631fe4324fd78fa77e00e402f5b4b0474723ee47ddc26fe;
 0x14a89566dc2f0ff0b64dfaf5d8703dc9f74a0f9ee395961832c194e3257e0edf;
 0xce667d93177e3dac9901ec3238fb0f403b7deb370bc069513428be70013464c;
 0x16aac40ca45f818abfef9c158704a979b32a208b1557647c606de868582184c;
 0x745f2cebe4c7eb3a170b3aab5825d5c2bcba8c04d66de1007f587b2a1e535b5;
 0x3061f188eb54dc71a19c698f1931ee261ec69297f79c420805ae0751496703d9;
 0x1b71a417d12ce73a3b7a7025a14f8fb51a90fdec9af9b1dcd8067f5830fc17fe;
 0x2abaad97be28bbf4339b5a4be2e24b57e8d9cc14775f5b717ae8cb227c8c581f;
 0x15797c5a072cb00cdaa3a97cea969bcd53fb2984c23b7adb237b6065c650dc73;
 0x29df7edacb34a24b1c52d8142c5338b98dc340c0cf27bcda968891e63b8a7a6b;
 0x24023ac420b27f83814bd182a843f6ebe5739bb1b9c686f59ce8a1a9478d7044;
 0xbab405ed11caa543f9cd6d8863a65dd800dd08e8c9499e5d6a58474800339f5;
 0x1270d139a0dd8a66bd9d360a9e0111cc440b39ad7b3ab4694b3ce507ba64a922;
 0x4d722503a7341a690f338977b80ad66d0710aa65c6f27bd49823d7c12c7f8f0;
 0x7a08300cf55c60191eb9e9eb63b40497980883796856aceb6147e390df57143;
 0x1436ea3a03399a958710d4a76fa9140b32d5180d16dd837da335df7fbe18dc42;
 0x3e5972a9ee5473d2bee70683a4054098d41faf8a44c03ea9d09cca460b186af;
 0x212989d49540fc0bc6b1a2d150e3bd76a621ba2cdb4475ab1b72b0b6391d88a3;
 0xeb7f400b0e9a2a4635510a5379b4a03df8d56c54334fc8c713db96bfb3a5d99;
 0x2338c348fd956af6e191909a22a99009acc53bfd8180926f591ca7f78f8f986a;
 0x26afcc776011c8bec5e32f56f149a511d064df09cdb28f0965b701558e63838;
 0x21da486ba0aa4577041578b2716221f15b5bb054ef276cd9a4383e646a3a23fc;
 0x4accdbb6ca5032fa7396c256fdd8f52bf7412d11f318c2f8293aa1c9832b849;
 0x2de8a8d4960c10ee9dfe8ab018fea3c87553992f59bcbae36cd42af4b455bc5b;
 0x215ae1f57e2421bb33c2b4c2e854084cea0b12bcf61a53963057a9eaafa19a7f;
 0x1a81df3c791bb08768948ae63fdbba1bd42efcb009ffb07aad880b31bb8aa68a;
 0x141983471c97c0debdcd4f0f085145364900fba8429e1e5583a4e561ddad5bc9;
 0x176cb7a66c586ec1f480ceeedf332cd6cd5508d4b55a1a3286289a178864c1d;
 0x3a27a1378e601187b81dfdd76e3ff8190d170d1ccd7f7cf333cb61f5e6a6afb;
 0x17e1d8919b6ada78c9d1823afe824714fd0948406311b21a2b94d3a0d1c08a9d;
 0x161d6423df64e1ab1e9db604809d3ac5fec7676d57d42ef3138d3f0d22116fa2;
 0x2a5a183c02ec47c022b2f65642a493730eb86d977e599c0d57b1d57e21cbabb6;
 0x2734cc336702645a5769e176b62627b0ad899e8d3ef24e84357214dea0675e1a;
 0x19a0bc5a4ed65b51890c60994626f86d7cad3719879e00fd17b4db6f2ef09aab;
 0x1db6087ea9f42685265847de13ddf18dc446b158f84bfa20a527d62ec9841398;
 0x1d544bdf3c2f10b4aeeeb8543af54309705f7a275f093edc7690197ba3a5cba1;
 0x2b1a876127921b75dbf4d7da75a6bedb7414bc5d55c998dbee49f47ce200f3b8;
 0x276ab335062e36197fe442444f9d9450cb76e171c00c3ebfb7617bf0afbaeea8;
 0x2fed58d5920b05bc742cb65a1d7e50dd8e6a1baedc27b6de3ad6a4fbbc259b5;
 0x1f600a529dfad6ff62ef171974ad70e76f3733f0c98e0eb1b10c95f13676095a;
 0x2ba35eaec2c38f4faaace52bbcc068d30b21149a6088d0467952542e9dd831db;
 0x16630e42aaabc020163e87c1bf7463c1007dfdce3e1ce9c5c28fe64c1b7df093;
 0x1585e3c692b27e7e342bfbb4bd4218e7ed01efe13c95daaaca62d2f5455f6506;
 0x18d7cf9c098f734da2a04f93a309f774820e141f9aa92e8cfca42d8e22c61d9f;
 0x646a732a7d52e8abc0441ec9b04d2af6ff7eaa085a22c0cfd82ad0243b6e64d;
 0x4ffa957845e1e01f2916f2243815f8e5e3c76361f3680e259218c0d28f39f14;
 0x23d3c890fd6525b7814fd3c325dee2ffa11f67e14cb8bf3de22b29058276d1d0;
 0x2000315723a56cbd67692146cf429cee40952ebc607b3100f21354be0605c2df;
 0xf092bdb3995305ebfe727512ebeec1ea48d29acc977cfd1169588326f50f999;
 0x1b8059e616227b9a836099e9ee37329fb5a2417e3b5bafed731daaee12b9b1a6;
 0x1d8e60b25f1fb1d0b97da0f17e094258aeaa40b142c97a863b245f787c75dae3;
 0x1cd738d6519d3e822a6767a7dbfd23428e361e3725a95bf62d30723a414ed1dc;
 0x232c85d492596d3243cd72089c50f3a691fd79fbd60b6cbbace1661a26c7a5e9;
 0xde60bdb58a4e7c7efbd95b55017d3201b746e78a9a6f4bebeb51c1d6ee4e64a;
 0x2fc101a02306054035ef59b60e1e3efab2c3f65027f93da20756e8abef12057;
 0x3f53ebacdef572b73bea99550064782d2919436a0f2b5d9223b2da974e3ca09;
 0xe27834cc8fbea3881ce43d9896e6079b8e8c9db4d77192daab89add326aeec8;
 0x24d40616c713b9099f7c8f3aabbc731ef52e0e96693a746a387d8ce676d6f70e;
 0x149d27d0cb014e5ce9c41a78a76a8ff7a37501def603b56bf0397edd176e0c68;
 0xbcc978ef69a805173a7bf1d1d56518813032502e4a1d772ad91a9a6a7e700c;
 0x6964a0afbabc86a2f491e86270ead44f49f98622b88f4c44ff86830fcce1640;
 0x19342122713b66231b0a7cba1993c5d904d4279e978735fa07ce6832da4d6e61;
 0x26f535c20424267a91005fd224230a4aeebd3ac079a58a78a63520d58716f71e;
 0x2bc43e9309052167648814454cbd77956f73aa69b201c94fb517845a8c7198b6;
 0xd9922a3643b4c9e175b57df597f10b70a46e9eda419564c33675b6afb7febf1;
 0x11b438fb1df0a4557fe6b1405b6720ad4a1537fe1b42f884b841007f55c61aff;
 0x1495deafa1bd1f27b7541138eae20773ba01d0d9ec10b771707955e78fdaea33;
 0x26a73d4a105a86611a01bd22d90e0eb52dd0340ba7476f771190cfe587ab7d93;
 0x16ddabce6e6ddd32a9f8a3a674851ed8976e0f53c1f7f6c6f5a28ccb00d97317;
 0x581eba655a038de496c785d31d65a919404bc25f0922a774bc399a67fe122f7;
 0x65762a6974eb7ced80ff42b534bc545ed6cde0843d2583ee7022b9ce40fe6f9;
 0x17bff1a70e36b684a2ed9dbd95530cbe9b38b87d76eaeb63359ffd250b78c5e2;
 0x18e68289ed3521949172f06e8a59dd9b074dc3c9dbc8203d8fcf3818c70a1a9d;
 0x2a8d8ee03d5f03a69c0b0d2b1f35792747b3429f00b6e011f4a141345e5724b;
 0x300243abed4b18e061fb1110abac6328ff55dc53162388f9dbc753749946b8f;
 0xf2ace21877125cf2e78abe96afb79fdb5d572a369f1da4f2dd7b5776f6652af;
 0x26b7e92b9f4f8776b2b9af31ed850fc81dff18f70b165c8447275f6ea5c1ba87;
 0x1878b3a4fae1d39825386fae5f199a1b3b5f8f50455ab5002517cbd2eb7b5fa7;
 0x62d0d89e967bb6fa4c987c0a83f65bcc795c0ea977b6dd63d625e06ffb0a55;
 0xa03b278b25ae2e7d31b31082a0d0cc57c8e7a432f24ce9fdbccd93475f3d135;
 0x100da120ec2ae772921c7c04b83ed8ee7682d2077cf47740086c980e04e38f6b;
 0x2342223b205a2b0279d9e5f0ce7f0f9bcd772839a34c52c57d0750be1e51385f;
 0x2df7f4397bfc42dcac58480f57316877f9aa21ba908f70153dfa19b7e52f36ee;
 0x23622584c86a8ab59fbaf2569481d964d1e15f8073bafa8c6e92fc2c0b187fb6;
 0x6bf808cce651f581a1ab25261d66b74f604b70480af6054cc45f81da3290ac4;
 0xf53c972702cdee0f9fca0a70505cbaaf6c9605909dde03cfe4c337331fdfd72;
 0x2988b1a79f8d22697c0d51b537a9b308f979792b1ca47cc408b8bd8ba6f6790e;
 0xc41be010c41896092f74093791d90c85c0404f92861f74ba1776de6da0f3e83;
 0x2f88c192a822a2a0b2f12cb349e15ea2b3f3b1c83ea2bf5461abb010f80bf3ef;
 0x3a443a4b0709ebd40891c593ed528cb9e9f65eecc40af1f231574b7c9738189;
 0x28f8211ec19a4dc191f757371edfb788696efc2b0b592d65d8097f38e723f131;
 0xabbaa7ef23a5d98710e42a669bfa42305adfc1f8e49e05bb3abdc96c8ca73ec;
 0x1f04fb54a09ee2df286b6c5e089560b8fa61e062bc90fb7298d5213491211ab0;
 0x679c1bbbfd7f4d0f2c2c18d82948d060f3563f28a1a632c99f2c64a461e8267;
 0x2b44d70ebe9679bf7681b2e1a3249e29b5d800109367a7a48ffff53e969a13d4;
 0x23f3f9e009138f0998b53f841093307a41ac380348ef662e348de2827ca499e3;
 0x24811a70ceba527ea6c7faf5762f5813591c865170d2879a08bcad496b23201c;
 0x1aa535811fbb13fe315f411cee03e20a4a3c48ec6dafa75fed0e12352c34bbb;
 0xae3df3e4e59c999b16606ff38902c761634e2b49d63ea716929a61e8b57306b;
 0xec1accaab8a76e43c4984f380d2fd4a1f8bbbf49a16b889467f7424cb06945e;
 0x1b16efc5729c815659bcb1becfd1e1948656ffadff07978d138b54349f97b76f;
 0x11fb1514ae1b038db9750815dab5d7ee929cfb80674acc541bd0679b11ff075d;
 0x3e8a08bcf09eec1dc2ead9784a919810cec64993eb40cd49399c2ea31ef27fd;
 0x232dc0617b6035c98f66ffc4a8945d1f878df5e3258e9b542178d6ba1b684e42;
 0x12b2c5d51a142d7f8a0540228e2ff3cec778e91e4ff701deea235ec7142047f2;
 0x9d6f2228acdb9d4a06577ac9f8f76f2c858ff531b957f89b822a8d28df70f0b;
 0x26e61018fe4b3ef6d966954c74c63e1e1587784e276ec198232b65e3d1f3b6d1;
 0xbee9635b9ac510099b9c82dd622205c67f1361972265939c0c197f7c48a0e80;
 0x2efc7456782b90263f57853eb2807e67a88cf15f2cc756b7f4a9570bcc38e379;
 0x283fb2e8d6b18ec3f4115d0431753eb6facfe99f099ec679abd856917dc22f8e;
 0x2889b870ee98688faee8863a5484afcb67874b33a9f0c1794b46a9263e181ab4;
 0x5d7bdbf3df0f01fbaf9c1fbd87f0d8dc354875e451678476aea4b0ee0c016bc;
 0x1b23124a367801d93b8fbfd222eb27d149ae2ee98c6b9dc30bb29ce3b501f7a7;
 0x13f573baaed32aa63ef2ee51c9d25a996cc9cdb333bfbdd2b95e2a3a323b9f4d;
 0xfd86c6312ae538c580c6fbe67e07539643967f075c81cfc504d4a0b51d4d52;
 0x11d07e190748d15d00447b4c653b055887677d1d0cb899a4a7090ea07aa0b393;
 0x1b8fbeb3c715077b0a094d76e35702ffebc4740fecca3faee9608d460c1cdeaf;
 0x297423e21180784527bd90be63d021fbe8c4bdb8b204398ee1de6f3d41fcc39;
 0x69fad4b2eaf9a9fd4891be5f4f128ef4cc11e4597cac7c55e3b2beded8c05a4;
 0x1b351f30e204c212a5ea86b7de299b1df744d07c8ff7f7f4944514985160c49d;
 0x3c814bb706f73f933bb03d3bff83fb5b793d838c2de00089d5d582183c954a0;
 0x263c1482af92672f28e64ca3d4dc5374862e2e60b02c9e2fa95deca9d95b9fc8;
 0x20d53632d8bd5242d9dc9ad8fabc48c6c60c6f71a235807b1b3bd0d42e187c02;
 0x1312833846d4d021e6b854478da8d9d63f1e1fe36a08c6a95952ee4d1b82457e;
 0x23abe598cbc971ff0b6625e441018e1ff84ea07ec5a37db3ad7ff2e18d1efdf4;
 0x189b134a1aa72c806ba90d70580ee758d968c1a0acbc1d5fd3aa9881e742b784;
 0x21739396f8193d4ec0154cbb302d7226e7563b803d9b6639a7ca065729d87a6d;
 0xd17bda5b0f2b08f2ca4760fbc8fec19c961c0eb8219565a2017c19b8feaddcf;
 0x2294fd20b62a1854819540e5560302b45403148db6e9890bde0b0a883fe1909b;
 0x2bcaa1216d5737475c013dbc3d8c54e36be0196dc71ea0981b01609369d204bc;
 0xffc62d59cb8ef71f03d5b7cffbdf3f1e8a8b3906c8fd25b9ba85b756f774e52;
 0x282b2996448809068c25fb3430dbb5bdb038e9c3810d554d7ab3ca1fb25b08e5;
 0x231b7767a4cbb0088fcf156fff8c71cbdf02b27e31dfbcf7597af49fcc99d610;
 0xd52e9703d4fd0b424639d4b8173bc8ee730bc3db3c959dc1f1e36737babe865;
 0xe8d1205f76890e94beb4460955ae97b5bf295671cb1d09c581b80d0c9729755;
 0x9b5e2bc828abefa93a501bf75c0a67686fd8a0cf106fdcfad65a8f20ba8b363;
 0x8ee620bb73422c6b3c9506a973ed0f754f9d8106148fd626cd5a04d4386800e;
 0x14deb68983af2bdb376b873303e07f4672d77798f8fa8a481a22c223eb357d19;
 0xdedb230d955cb9b02ba8a586010044e4c6eca8373192b5fffd1252927ce09b1;
 0x16a6e90080ea1aa4e0d192aa13f701a781142373c0d9a985a4ca5a70e6ca20fa;
 0x17cfe46ed6441eee1e9acfbfcf669efb386f270d142429b3d1c6a8f3d984cf93;
 0x9d43cbd543486b31694bb1f856d876cf3f135b86aa0e2f45889966912280f31;
 0x181457642e691657d5b2414b7a81beb58432ab1c9abb588c7e1b2da1f1e8aa96;
 0x140504614839fd16f90f1a5a2a49f19c8b2e0a3a0ac67d1fa2a31ced43f3a27b;
 0x120487061ca7d1fa340f11b2d6c7115eafb971569529424171bb1d3f10fb2afd;
 0x1678ea1c9a9f63f1ff0d1eb65ff7c7d5c704b2a0dac3b15505fb45224ccce387;
 0x298964c2828d52a1764b41b5fb460752ae1b8ab108fbc070bd1be15bb6faed73;
 0xce97b6f2777c3a5eb86fec6a0ea65a823cb9bee65253157a0b9733ac6a44c01;
 0x28e819231b5541e7b5243cff6f044b62e6ec5fb8adedd2b6abf879add5f8fd2;
 0x1d04a29170773073c3680a0d73ba0759e80630bbb2798f4a6e77c003a145b6d7;
 0x2ac32e5d907bc921779525bcb9ad4ae1a8c782ff0abeeded32787eb25275adda;
 0x1f7600e736df837404f0c327205cfb931cea48bb1472ca0b45a974b6b5998b95;
 0x2921dca5c0dc3bd317e0ca1557e2e72c6dfc4856fff4d705f78a7e1f55f5a3e9;
 0x14f80bfc521f50b8d79457a4c2e9d7553f3f33c37649ee18a43a480ab2cd5bbf;
 0x2dae059ac17079b15f6b6d0de647a6ce9af9cc9b5df5659f169be826e0ae745a;
 0x27ad1fc6da5465b8b9013f0cce96db4af1dd0d18e2799b73cc5416365084a6d9;
 0x13eab23fd02de014e3055b4ab42881509c6b625e04488e8ee938557c6688261f;
 0x18cfb5ec775eb1683db7a7327945df44502e441a0082bbf760825fdc05054dc3;
 0x26cbbfbc719cf0657d98a6fca78d2572adb2301938a1ec19bf734178c2208656;
 0xccfe2f976ce2ba408e431ca319e95bfbeed592741e0bb33da63a03fc8402d3f;
 0x17387cd668214f736af582dcbf86c00a80dcb77250be031c2e02071391d537d5;
 0x2d9acf8eaa6d15e6da7ffab14e16353cf737f7e5585ef9e2e43acac6cc879742;
 0x393a4c1ee837afaeb10114ced12f96bb9084dd4a4c2750d700e876b6caefbf9;
 0xf0407a7118b6910dd909e894966b42440d616da403e0a07b3f86f4ba8011df8;
 0x2f7735765e2789fd4d05c78350c35c6b84a69a74c7f69e0afa99342f1c6cdc39;
 0xdba9178d2ef6af1e01cdc2de7e85578418c26adbf376d063cb6b5b1181f41b4;
 0x2144ffd569395c83073f882ecfca0d8c9428b32c9469db7760d3778649fe275d;
 0x2984137c5e2012d8bd79b1d59087915b997a8aaf568df355bcf531f4014377a5;
 0x934f3b2191291cf3e631822087c19f835a28cc49b98742783224ce6cee8588f;
 0xe0ba5918aa4cbc38c47648a5b28d83c7ac2ff68a4127ece98836b5429ac3078;
 0x49a3734a8e2a2ff2fa0a01e5a6c3ccfe37d09fed6c8f5dba7ef4c46b5d33b9c;
 0x29fff8192128faebc6fa8432c1562bc01b7289b3fb5285e29d12a3556cc0ac49;
 0x2201820de3cfa4aa21637bc742afaa39c3611951330598e61ad3dcd8190818e1;
 0x94821527657e717dc177127a1b10531a2a9d18f9141a12e8c9f02d1f7ec1a1e;
 0x10b58daa36c56ef2f2a4dde18698e272112fcc01e68769868e9ef1b5edbb4fc6;
 0x29dad68ce58824ba5d89b7b3e7ec1fdd95c253a6b6ab2b6c418d53a57e3ee8f5;
 0x1ef75d0df2fe249e6fcec6cf55699bbd616bbb1dbdb384d6aa21f5c6b5793a6f;
 0x1754914267b0b09a948685fd7d60692da6c6bc990d3bd86c05d1409132920a37;
 0xf593c997ae0a9426b4fe3054b60635374a049bc55af8d13735a0a903919a66e;
 0xaa91854cab67a7a1e2982a8e515845a71913530ff5aee98c91eebf79e361825;
 0x12f2e653a73a9077367b6abde35ea68cba141062ade7d3583b05da2c8f0baad8;
 0x1692c37f96667fa62c619fe1a0e79abdf86d9bdd7241728228db6009ffdbf437;
 0x4e833620b139d50e033dfed3b39394574f631371e31c2bb0e9c44ab8a168490;
 0x14f13dfd3e5881a820ece1fe4844628b14daab9c0fbefe88acd1895c43576619;
 0x458b78330d7902b4e84f70c250bfa081c92ba1de2962e19cab628b18608d3d9;
 0x2c52077e5bada6cef5397019391717264140b8a99b7d2fde520ec89d31192312;
 0x1de2f57c28133226450019531ae86d160a0e72809f01593c1771e4ecca7a23c;
 0xa761fcd234c2bbd661bcd788f5b14a5ee4255190b81fd3153c003d68a3199a7;
 0xebc974e17f713f3ea0d8b12e463fd5af0450149066d6e72322d8d0e1e1b6831;
 0x1b96e0241b7221a93125215256ab608135b2214e2f04c127a3e451d7f8f7787e;
 0x1df3623a81acd17b0eb45cee6638d1dd1e84966e38cdead88ca5f9f9096fbccf;
 0x208f1193b74f48f50021d1c0cd977dbc6a55e2f68ef0ef0000cd21a38ce5bf08;
 0x246352bb36eb512ff4f36fd8df72042f69cf67f1744521898a117b6efaec7895;
 0x30e94ff4018a5a9725300f274a619de490177d1404dad9a8299ef29e0b04f1a;
 0x1f52354035e44ac050ee86ca631c0e45eb5f75b44d6e7f01b0805e28066accca;
 0x2659250e4f2ecc3d3cc5a1c74355aa01f2b4c3aeac607f7df372c15b85ecbe3e;
 0x1be2311b78b5c1246fad8a8c346e83e6c0822df59557588b5511b4e821e2bf2c;
 0x509b5de4dff732da434372972b466d1154d194e10915b4347dfd0665a72bf9f;
 0x3247680850a5862c08fbcb0fef6c739df1e88043c3a5e73531f682f93f8e975;
 0x2d110540eff687a945010e040dc40497a3d1360b99073babd6911541d30be5f3;
 0x7ba21b3ad4f133f69627b211c12f3244d1ab553ae6d6a1daa888d0040b07779;
 0x20077db65156a8dfb7c3160a81d62e119b2a861118be3dd509cdcceffda88d10;
 0x1cfea2b8984b62b28fbd6b8dbe134240e2bc10d6bbbd3c2f73a3088710b09973;
 0x1549ba97fc538867506f349929a7d1b86213886e8d2abfb60fce0368798fd294;
 0x246252ab7cf345e982717225f954e74e7303ce0c9b1b24b1dc06fe10fdcee4a2;
 0x2b750d77da95774f2bee129b314d1c3dd5e302b666c2bea46cf886585d5ab6db;
 0x236fd4947774395d7f9423527c5ba34cabd6f7a9501ccd33353234922e896e16;
 0x18a4917affbb7751667f7629ec085af1a902e9b5471a02c89e05678d620bb0d0;
 0x2ccfb77f9dd97d7e6a8ba9ede42364214c52a02c8a0a420ccd0768dfca171a1;
 0x18db49b4f99f685906f772938980682572837a1370f023d0fa379fcf1c1ec854;
 0x2040dc09e877cba004d4061b3701c6a92b03fca41c1dc6ebff525c76a1f9f7eb;
 0xbec5c4494c0b5ddbbdbcbc6fa88f438305525b4c08af59860055c1f8b73ecd9;
 0x2879eec47e729739d1f79e83f7a71e631eccec2c83b43dadd6ee56841f83a1f3;
 0x1a50c3a018059042e5ce95a789914e5c2800b4f4efe17336c5b2a216410018d;
 0x1950b98c22b8f3cc855c167c7d9bbdfd4ea37aac98b12b1fb017257c3e7f293f;
 0x13b7710d9218c0b169ee4a1276715274ce9a6468730d2de7731349ad1ae9df7c;
 0x1ef80d90805ed282fa4f5e12843ed4abc8f22f5b59f04ee13349209a8bb581ee;
 0x13abc482d41ef22b6e3d0db9276b75599044438af8940b5c8d58e7dfe80c44c5;
 0x267d61670e53dd034e795bb20c20912163a58248709d5aba8a95c0dfaf50b02c;
 0x24441cd1cd8145e42b471f82e4f7f9c28d45ac2c55e4e60d3e66d74e8b56391a;
 0x355fe883f75c1a4353c1c0daceef2d3a71a9a74c62053199e431b8fa81cb8d2;
 0x551b53fc92ae63c2b2ecbdf40ce937a2095fce0647482e64a0fdf515cf42ea8;
 0x28b6aaa4aee256071d9988bff1bcc284ed68a7614622392e53465a6ea91258bc;
 0x2df31d847dbffcb0444258e69876ed3b7463a49454be6ab6250a8446c6a01703;
 0x1bd22453d36950ff1ba1b49bcc43f9c9d4ba388b780c43f4ad3216b9da8da126;
 0x213abe279cb897fa749b6e98180a1c8225558acd88667bdfa14070baa65dc812;
 0x4853a8eae790c34e5751893e34ba932024d9c549c7a7751d536be9cc9af6b94;
 0x15242fbe31477d9de0c431d25d0c8e35d489dcd4c99fddf72c4f0ad4c492dd4f;
 0x12f6323f31e14576328957a9f393451ddc868aa57692ca327bc5a169e93aba39;
 0x1dda2035b7580e63bab28535dc392f24085d59d0bbfbb54991ba3ee9563a1899;
 0x13251bb73a28dae6bd498501db9e6c58c4f9d458e8695596669b2ce90007629f;
 0x231ecedd2828136a0f76ddcddc58f9cb3a77ca05c4c0fb95ddb696040391328;
 0x2002a71a926fce26a1e77ee49f68846c371b74ca7addd66da7ec5286bb7c54ab;
 0x2cab6f0f98bf107f345e22dbef16b15ead94407098a933ad0591b3c4500238a5;
 0x401a74a17b514f0532e1b9b4aa4421addfec7269f934875b34d4f73cf9e876c;
 0x27c78bfa3d246da84fcc765ca8b00ecdf6baca2c967796a8e8c8e1c501bf5b43;
 0x18ed98acd2c8f140ad3d56627d9f0e8b41e84e30dd1c165e4043c1c43e32f663;
 0x188d51f7de70e218853c44a40e505b38f45caca8c92d5090d474f2d01530db18;
 0x1930b89b3303134f1f900880fd7c39c7ba00a96a972fc4f43b17e19e3f1f3d4a;
 0x1fcc8426a4936736199ee6829c5f3bd947cf62dd0a92e7ad4af4cbafb490b0a8;
 0x2d3847971e336844d626b6c39ed253d6994002bd07ec946b521e06e9993a2d48;
 0x24217d683b98c9d630a704c3bc4550cbf70ea14dd4dd770aba45b41ff3ac0301;
 0x28aef269e0a3dee65a1df434d1b2ad4dcaf8e840b1a1d067b353a2986d94d35a;
 0x238b3d227a012ae13dfcb6f0b06511b9a1d7dddf0093299f0400a887a90e070e;
 0x197d7a63493f21eb3e99111944cc130269461f7bd88d302f8b357bb7d686817d;
 0x1bdcac988edb00a3505567ded6f9440a542df09e20aeb013c43972bbfb3ca7b6;
 0x1169171163bdcc2c0c8bd9e56b1fca66e44bf61f9243343cdb1e131cc034b0b5;
 0xab66abcb7869437b24facecee1c89b18ff8d2d024046bf978b844a1a5dd123b;
 0x20b9a555a8b39f0cfbc6031a7ccde6c1185abcd06e3f6fa2c6685038b874dab2;
 0x32e07028d1fef76b7ccb9dc54ff4f41da1031ffa8952c64a5437983e838cce8;
 0x1573694373095bc3106e92b6b627ae4c7d0ff8e499cb2ea426d044eed818cf08;
 0x1a602dfd352e43ecb2f69fcbd568b60a140ab52fa9f65b53af13123d511cb04;
 0x1e2bf4fa574ea907efeb285f6766b4a17db35bcb6186c84a04602d438a6e3216;
 0x2505c8d417739f21d2162110db6677017bdd46e9e105bd4a3d56147c37327a0c;
 0xe654549cd7da15a2808d06d8611796c000286fa77d02f6a0230debefc88c215;
 0x6fba732c616c7828cec557ffecd6e3ae22aeb52c72a210e007fcdc5c3740079;
 0x1658321ad9c3d0a3639efbb9e23aff309512599f0df251998bb3b03b7ca5692a;
 0x2b33052c618387b8b667799bcb8566a6b6fc5e2ce3f9440d025fda9150d4a82b;
 0x1410b1ae9db218e0ca654de70f05cecc7953ce710aefa4885f0863b8e03470c3;
 0x1848e80ed144936e3122de3c706cfb707ea3fce31047e632c79638ab01dee1e9;
 0x27a27ffd5e7cfa1dc5541dbc940085bd3dc590b21473d05384f8c463fb2ba936;
 0x29b94126f5536a88c763d0301ae366abf2486bd300db3123762df3cb93d1d986;
 0x2d5b96cdd02c61014a228fabada597a65e1c5757772248009802bba450b6049c;
 0x202c5350a6a37c6f159112efa516be970c2f88e16c01aa8462d62ee4e52043e;
 0x2cac718d86bb68b80cfc3e17cb740609d425aa547aee14f9105b4da9490da8dd;
 0x283e1a39e8ac0b1913943e8618a19c89c5c74b58d59299b11fd127f02cfc9891;
 0x11a6bcf0ee6b0b9f6f62dc0c48168cadd576e8d86390f85c4744bd70e3c1e967;
 0x126821771411186adb55ed7e59e584832bb8c3544ded7227e8d707a5b34d6137;
 0x1301d280a12befc02f9a13f3a92501da7208279bc03d99e772da490e7ae069c9;
 0x28e729cd9ca2716cf5e82b0c1547ff3c48958ccc49f806f9dfcd6f8d90b2e422;
 0x10ff9267c3b191f2fb37450d4e015aa137b25f12294430e936e8d124a1f98d5d;
 0x2c19b499d3dc4f8545d31cca6a58a6240cb2cd5ce0204239dfceddb2b77d1423;
 0x2f92727812c862f5ab2543ae88bb5539fca6a97cd331fa4e5e02ef7231017ee2;
 0x2b9bccea18d03f5de4dcb9a4f10ac80fb44be746fa5bf30724fe04c0d576814b;
 0x1c85bb1761d97e4a576faf5c53b9bdb479a0fbc37818dda8b2abcb365e0a73f9;
 0x7dae9e87df37a4014d11878b49e0571628a20ff3e6a102291d211b8fbb1ea8f;
 0x2b9b3bdfe342987935c9d780df13f061f6ce9a4e6b470cc1bc7c7aaa53075332;
 0x12adabe287498be9ddfab24ef799bc49be7d58f069cb49bf01c9c4b1505d0586;
 0x2b206a11a92edb5474ae7ab65b8fe85d4503de3b6f4330767f938e7c67060fc6;
 0x1f540c4837c4a4a75d8f830935c6d2e4d731f230dda7ba5052a50d572439c019;
 0x54db8726050afda0e8a0c6b5eaf5f967d80fe0e4b85179c163f36970700d2a7;
 0x2cea9ad4bafe136cce349fc6eaae2db05071118b4b82f2598a09cdc8db005af6;
 0x252f699ea739d55642ef8a22b45b58eea8d55900f8ed7f391fb1f077d13f94f7;
 0x1f061b04b5f927b2108c7b6be795c3c9314965107000b13bb63283f41925ad89;
 0x8459eea73a94af361d3c656e75f97d27f6f1e42503fce8ecbbaf19a29186835;
 0x1b3d700fe7f51953e2275604d391f136c1fda986a3d30201ed0fa140208ac812;
 0x28e56028798196ed5eb0d88ed905d5b0c47e9d6110c75632a5a2ee8a86a4861d;
 0x9bd90f2333c4c2cbd4bf7eddadd1fe7a91e5b98908afa559781d98a257944c8;
 0x15bc1a6e6baad5f6b0c2ae3378a252b14299e0af66eccb6b266814278ed1278d;
 0x19c52f0dccaa44199a7f4fc33bb47d41d6a081cf36317e7fe159e8fe6b1f0a89;
 0x2547bb5ff20db5e0c592983e54fc962f0f65f478598b2cc5fecd72f169489a9a;
 0x1ef0bca70036f3bf1d7d3f294c8b0a1057691172793c5be658b8d55f8e5337a5;
 0x4198d58ecdcfaf0b9c2d6acedef52537d1043136b624a5a1f588a40cdeca52b;
 0x2c5edf565ed2065d7d04fef7d4f7e1b1722a2d064c00549725e0715947c26f4b;
 0x2bba33fbd4a8b19d6cc52859259379a3b46a9fa17cc5c4570956503ef34eb8b7;
 0x2e98fad823aba9aa740aae084860f04081a58de39bbb101eefa119cd6a471fb0;
 0x2d20c2cd090abd0533aa05e4b25ed9479e9ec4b21eb59c765637083b87a95921;
 0x10967beee9da2505cdc53be5c9837672e8f3729c6a784b013979d8ab8a3c0a89;
 0x121fb7ac685ef13f74ff829cd18af140bbed250db5896f0ffceba42d5d803a3f;
 0x142e085876884e6572c868998a0ea31776f38ab30e6c6ff74cbbef141dc906e;
 0x23ca041ffe1231fcca12d630c8db597bd844191895714dd1623eafc2056c1bcb;
 0x1a30767b5f4f01d00c2b01a44f01b5f136a5258f7a513d6f7d0627f778970d51;
 0x1ba0ff653ae6bd81573fad7901533cc794806aa616f1a263c06fcdf07039d741;
 0x94a5945a881842d8067ba77e9e699ccfc74ee8517620e6b090f5627bfd7293f;
 0x21c84f232883c041a078e1cf608ec1f30a07b8859f6eb8eef7229fc6bca86f03;
 0x10f83fe52b38a091bfad07decbf295e8610c63112873bb05b7ef08f7043f7bce;
 0x37233401e03f5907192e47e733f792c15520c7f4975a82877db6dea638fd4db;
 0x131743f65beda2de7e4bcfaa7a4bdca39d066f9c9d571529e62e7f5ce47512a2;
 0x2c3e6fb700702366dd46d37f965a454869d6a3f1b8efd90cea90be0dc15deec1;
 0xbca2e8dd5719f2490699eac6bfc2b3e7c6591317c76ffb1516d126ce3ec162c;
 0x9ead2ebea129a56023afa72ff1b77c6e867a72df81839fb76c2523f9452205a;
 0x19a210d7be3606ebf9aecd9b0c8f3ab0bb04099584bce5a7ae2a35a0f808ce6a;
 0x1b44df05ea46ec1231818008eccf838e627afb2ce4b7798aaa86f609c2423634;
 0xe4d978fa2ed0507dfa47dd154b51006d25578e18d6c9d83f8735e6a0cb7f1c4;
 0x154e4d1a506fc0c10019f2f89d186f4af8a2d1b6ac3ada831ecb00f3a925ca6a;
 0x23f27f2464c116f55a5b7482a1cf5e6c7bc99f12e28fbadc6fd4826072eb76e4;
 0x2df196c92d5355817805c6cc3ca1029440e27db83b17fae40c35fe3518954753;
 0x2b7a89ad1419e85f4d414f1a372feca6aabdd69f721f684f34fe829b2048c8d0;
 0x22c29d74824817a0423ab1d70d5c9d5249b16a181034550669e7fa357d9dc33d;
 0x2d44559bf653c112918fb033c8153bdce449b0f1e769e46bb91e5fac97ef7cf1;
 0x21d70f181b322f74ab50c432ddf9736a1e3738c4e883625889434da50d884c8f;
 0x2a437b970ff32645bd5303f9474b5743427333c6663d17f44d918e9f2ca005d4].
(* poseidon_bn128_constants.rs:12689-13009 *)
Definition bn_m17 : list (list Z) := [[0x196b76cefdcc7f6a54c71d40114a0bb82694c936f1573ac7ac1ea3fcce1fe938;
 0x1440dc2578f44694d18c25f892d98c23cfdb87a772200020e897823d4bc84d3b;
 0x23aeeb0c6499b84bfc32ae3c42df9728798fd2ef774f1518b870bc57d1385900;
 0x1ed9d3e9276acb7b4dae53eba148806fd9bb07b2dd06187212fab7dcbe63d72c;
 0x2ff57f3f7e95b03411db790a86647467581197124d217520ef2e6332a5b35185;
 0x15faefbf8584a38969b4a719ffe5f02c2191a8cceda0b775162203d30b80208b;
 0x1e6eaab1191593de0d89cbb2399ab8aa955d829ad959428cd539be30b72fde9c;
 0x2a3bb020c8a50d310ef5b5c77cc408b077fe2481454754c4568ff668fe5f0974;
 0x51f815c454b6015c7ebf90c297b90e9604cd36acc6af07f99b5e51fdeb32234;
 0x28b75c2ac167fdf184725317c7bbb8083e5ac5bba937bcfa6cefcb69e4048bf0;
 0x23af324599683d9b71b61d093d63dcbbd97e44957333d2697fdd060c1e4b585;
 0x5a07868a7c95f50a015879fe7cdf1eb6c317e4d489d4515208ddf40a32329ea;
 0x2c5b4a65bc55ac5fbeebde53ce5fa68882faed2a92a7b3f5732832c72f7f2c30;
 0x173f895e472c4eb16a2aff3b8e0417fb32b83eb1e3233471c76a0550505d0607;
 0x206cb038cc328526d0c3dc5af19437d83219751c5ee8f61b0e9e2f5881366be3;
 0x240c57897161666f28d000b88d3353921d967420f401ce86bbee42be287a4f8;
 0x1aaefc2e9925fcd453996fda804063fdab276b37c5f51dfdfef9255b4ec10cc0];
 [0x130fc54477fd953377fc23abbd7a41be6764892a8787c759c1440fe0133c852d;
 0x65e134cb8d84447d6ea1e17932bd4a341ebef2568313c24594faf9d7eca2110;
 0xe76c40392bd5f458bc187be54099312a0fefff44b441637020eb92670a6fcf3;
 0xb981765ecae69dd7af3b10ffa424b8aeb206cc4f49257265c6753b1cc54ebcf;
 0xe4fb044a9fcb4087e351341f25d98b1399b576e2d6654534f348219a0acdf86;
 0x303e39ca88e8da6e5c963564712df8a7f8501a7af4a990e4ccec19e5f8fc805d;
 0x1b77995dbf30cc55f9d4cd4849ced949349da81239a015440fdb38b876abee5;
 0x23643add30be204734d029cf034c958144551060c1901c420a28c9688ec36a80;
 0x1946a26ab8953f9be558105fa5179f175e76a24429dad5d532c2ceb3cfea05c9;
 0x248b533f875e5ee8e751cefa4b1d0732fcd30151c3a5cc4abbbb1e93b4655d45;
 0x2e7a1c51da61dd214a1789d6f1ee2957f69d21b1f16d1f9458eb25a406500bd3;
 0x2065e374edb1f3cbbd2919dc04d14adb07062dd01ec1501b85522e7e0faf925e;
 0x2f36535a83a09cf09fc38a20a725477aec56668f034a364a9f4a5605fffd33cc;
 0x1123d3c97ff8e6b589d118bc40ca0b9ac12ae909558f2582551f7a42345b4621;
 0x160b30c874d9c06704c92c266c7a5b7fd966a62a5db008f1bffdf443b1099a82;
 0x1361d27c42a7b4bd6eaeb98a339592616c0d4d8fceadfdb16468162bdfa88d46;
 0xf1e8f86860c3b5c78bc14dfb67d22c6beb8992123658842f23f75ae3a92e99];
 [0x2c9c91f48661771baeef6774578a78f69c355c8e907156fdf26db39d2446413f;
 0x2c6b133e80abef84904fa4a75f968fbaabef890286d5fd11b87a1e52b7eb6d0d;
 0x2ce8546cb59f420ede61692e764e0e9f6715b16a2c8047cd8131c97646f50d24;
 0xadaeaf28776b813d518f645c793e57bf16067fd80eb921dd5a67e895646c9c4;
 0x2086a01b816438a2a41c59e43d73fa9aacf0c24e4f6bac229d65fba59922554a;
 0x2348580de49aac01ce8fcb5aa2b467f6787dd8a96ccecd6fb47df7d5a4307398;
 0x1fb6bd6df650d27e8cac05ac0b45eef0700e308b29b4bd41eecff58027edc45c;
 0x3e9718237c1700d7dd213e026f307e8000b3851467fed9e6f51fa5020c2369c;
 0x925af35a3366801ac80a31d63f745fa807bda10560345ad572bef4cf2ce0d6;
 0xf8692d64a5b69a956c4e2006bfec344477fdf5f0c9aab866609842b9d75269d;
 0x2bdfe7eb4fa803bc1dc0052a46d850ee3e091eba8a7f12579682f6f6fd5044d4;
 0x13bdacc137bbcf51d8bc9d281931d6e71122dc6e93e7ffe8b835e3393775c3d4;
 0x7d78ce0c1c87391a06a06c83d300d52524b29f183884e300e0eaddacd05f068;
 0x984c132b29a05f2b506ca07c06fe9a6584f36bb87506d2d316a4f353cac5f1f;
 0x1b00faa85136b1bfc496e0ea9a6284cae525aa96612ffeeb514808955693879e;
 0x19e1e46536704ceceac3eab991bd806e347be40a0b7956dcd7037352fdbc4347;
 0x19c2540bbb1cd4e08f105437063c945cfef28ae9dd50b97e0b795f8dc5ae34e2];
 [0x1dec0bafa3e8190621e5e095ef751ea03c836dbb8045b2a73f8d397cfb815192;
 0x27c72332f59a00135baa94bde294911d135d1d95f53c52eb8b3b95594374906d;
 0x16e64661144d816885b32f3f7809703477788268d57c14b1d939a26b29cb7ef3;
 0x2018db386a3e4e57eada8d91408b155061df050140fb22f9a4f34fb4e2d02428;
 0x12263b7e3f3de60899a2c22fee919972cd79dc289a87f31f1b44baf2439dc87c;
 0x10e420edcb6da76170b24d777ce9d31612edb1593ea6d30e8cfdacfb6974f991;
 0xebcb358f95f84b719c631d4045cef03ac6fc238f6834522cebd02e47411bb6f;
 0xc48e2f304f730d48e83dae5c78a46188500bc8040a49542eea5ef1a21b9d222;
 0xe766f03afbb7af630eaa8aff4fe60f3810f30f3f4438498efe0186333dadc0;
 0x1b8a7909d7e7bd4f0bcc8003968e384ac2e8b405ad05cf610364d3ecb982db7e;
 0x1d92e4213d840a330ecbdb08693dbf9a971bbd6229047eb88a03f334cadef227;
 0xd3b3fb86a44b7422429a249884c85644af1975641206e610070c02ef5a9f4cd;
 0x25c7e8faf6c48a156cb91d81a997c6673d32694a3fdd64f5e9594e9f504bad83;
 0x2d7af834c9cdf1b38c8cfed218f1ef0ce0b9908de9e7aa7a5510c4fb917a0281;
 0x175af5e50e5685ec2dbb1cf7a2cd25d45680f6cddf68d7c0795dec98b87f6a71;
 0x121f4a18d7b7d9650aab625ebe8695a8079439f2ab00c090279de74726234e6e;
 0x21f08f9b3c23f3a02518114a96929b6d1056eb4d1db147ce0c8882e1b0f7bd1b];
 [0xa5f52ad6ec4a8aa377d8dd2ae3aaf6eea0c68c63a1d034fbda67133ca0b85cb;
 0x87488f735b1fe2fa3c6c7148c4968e7f3479b1418a1a566743c1ca215dcfcfc;
 0x6cf0db92f86b2732ee5fb881ef0176012dc4adfd849b9be4de17846a6ce5d99;
 0x67c4411745db6c6aa659ec737a586a8f4a1cde0352e30aa0063794865fc1c04;
 0x19909241cac50288c0d12343e0c12cf9b9790b405ef0a9001aa6be0289063aa9;
 0x1d25b94bb7c49c0170ee1fb2a5824b70e4554bcc54b6c8f8cc0cc9d74f19a5e;
 0x3274e735db2faf186787528254272ee01967e6ae9d825141378b8354d843965;
 0xcac320362e235b458d6d364cd0fff914f3c056adbb038dc2a861a49f7f70e24;
 0x1111ed7a66ba2ccd4bea0d43eec86ea35ab40253a1209e3637f103dcb84fc429;
 0x13e736cc70b7c828a38dd6394ece76b9ccdae2ca4f43963432502fe8c2ad19ff;
 0x1f2805084976b142f7c74a416ff439ff1bcd8b8e7b0570130040754a61b71912;
 0x27aa50a0e5d5588c1486e8e7fc8dda65489fffb866756c218f87e7280cddfa64;
 0x1f3cc6f65d9d34370825a38fd1f48f509f7c56171b9e7a624d9b0ecdf6ac4eab;
 0x1b11713791ea4cb2e17c8c5867502043d0a8cf955384c1c793c506b75fc0db29;
 0x104560e95c49febb7a030862edb3a33c2b2a3d414b0536b2e54e25ab36e8f281;
 0x8c45f3c4c486f6b5378c779c607b517200bb70b5533bdacef18519f625b925b;
 0x2d2193c677bbcd56a74fc2ae50ab4f2cc69aa77ccfc33c7707452d5adac77edb];
 [0x20ab7394bfdab344cbb6f2123800a0e23508e2125bfe795ab4a767cecb4d9306;
 0x19f0e2e141896eae6d56d182b687b8a6c64cbb59e031b749f35822fc7ee353fe;
 0x18f754a95b0af0e4706ff9024bb135164abd6fc16ee40cc2d6852d88a2ffc9f7;
 0x193fe0e9b48010fa319c33b86b6b18f428f323fa237ca918a38faaa91ba49567;
 0x11ff091dd551b6d586203ee0cafae2f7652e923aba82574a53b632a066f4884;
 0x1da3e00601ca3fc0d90b197bd2a474b46efe3aff3b2cfaf1ebe15fa1afadf2db;
 0x4ef41945559c1fb0b2116cb2be1f043bfce8dbc96feecccda47cbf68be59b5;
 0x2f053fdf1a72d6ad8c9df97a04d637916f25e3425b6dc33e99ca7cac5cc7e4c7;
 0x1daf74842c7e79104349ad399592c5c4cce16f79e1a86f50d941598772cca953;
 0x2ae8da8d0b129a22f834d0d234c8917c2f877ff00dc16215498d4b748fb40df1;
 0x99b0a6330926a4a1564dfe94f9a1104bb8374bb518a89de08c591c17dfaa059;
 0xb9aebf041146c119199757ea8ceee5abcea9ec42cdb28b921caf21e84847851;
 0x55ef271e388278b1aca34d3cb00116bd6f7cb584b3c69f0de2a7afc8d98deb8;
 0x26fbf1a351963fbbdab590dbd760ce6284273525a1b46c41f29226c65339f4b3;
 0x12fd67863b2e03b6fb45224fb041ff280e936742b54c8e54d3823e090e144169;
 0x600cf26635b2d546431507589739010d1b757ceaae617bf95b8e1efa98643d;
 0xf528f5912be49455d4323b259e30ce2984d8170601eeb4bd7096b47353ab7fc];
 [0x110ea322b0c26476c67bfa2c1b9d1713f93b3b9cf8320ce0dcd4b64288bda07a;
 0x299c47f1e3ecc557ab1c9abe36f0d2ba0ece01051e07f0858e97a9ce16f5664e;
 0x1cc053a6a4d6f96da77e5e73adb9d49bc4d0ef2cc2f69fade48040b7f8d71386;
 0x9558ecc58bee4f3c578f62489dd900840a9889096c0a62114aa2db045a1d033;
 0x93d7d5563e3ccd0b5f15a9b093fe6b863aacccf9af11ffea9b295b7dd42b1f6;
 0x45dc0579ca66e7e096d4dd86b882e68af2d35d70cf5e3b1783caaa0ec424253;
 0xda02f6410e24058a1e90412cd5302c57197f7b1af2a99496f9cff3ffd58808f;
 0x2dfb6dd598ada57ea71a8d68e6924608f0ec7838808688ee4b3fcd521f7be6d2;
 0x1057062b40bdcf1fe2aaef45898c871146799a92c87d0fce64302d6bc83172df;
 0x26e6d18aea75a94861a02333b5364ceceaa78adfbb742817218ca3af607b910e;
 0x565b96659025935d9c025c7ab20b1611db00b67ecc51426b342f8c7a17fed83;
 0x2776bde52a1259472c1cc020e719f82191dec3ab7699b7d0fd769dd3fe392997;
 0xc1a324c49d15f87931821989b8c8437ea9eb46ed3aacf8895fd1cc311053e60;
 0x27e68568e9cffd07f9253ef9dbc356251dc6b2d6a903d6c7046b5e90e1bcdc9a;
 0x1db0e7e01722aad210e5296c36e9103e82d15765c318134d177146a1d9fd5358;
 0xaef8a4e47d5ec760e0565ae7acdabe7e8e98972de86dd2f447aaf216ab4cc17;
 0x8c00c4e5b3467f01901f64f9f89c15bb0b90918d488b730cacc3296691e9200];
 [0x54eabe6131681fa01fbc6dbf3e7d53595d0f8809987182142b890ac8af89cbe;
 0x1a4befe11c0230c62de44ffafea0de903ba328c6d67af73680312b68f9acffda;
 0x1e40665f5bb8c5c0dc9c11f39d47e9d33e717afa31ba74f92f8737a55efe134;
 0x23c4abfeb83192362aae21b2e9ee5cfc765bf1000f798c3ae70133556abc78bd;
 0x1669e44bf0223a77f48fffbc9f4f20b5814f6185ae11a210f8fdfcb5f71d603d;
 0x2d5b3f523a9668cbe4887881bf7b40184f978713e358de270d87a600e5c5c92f;
 0x10c1856f282f556d7cf6d4a293621506724ba6d3c582e4c261842f2a4bdb0ec6;
 0x22cc4349f6baa3a8e0b61fc40ab97210e4bd3b3dec7f05bb8ef839c84692afbc;
 0x12d019e37cd1bd76fee065bb7380a9bd8331a4dbcd1c9c776792bc19045c23b6;
 0x27aa38fa051c434189df57bafd80723ee29bdccd59fbc1aa9af11891d3722e61;
 0xf0b9336db5c16d472fda3fb9ac13b13394c09ab9f484ecf6ad2060217b5896a;
 0x275a6f59623354d71d38b4e200ce2e9676aab74ea8b8366fce33bdbc47d0586d;
 0x2ebb6730d7bafeac23fc0b457ea824eeea3c55eca634bf24b2ac2a9a21483e1;
 0xff215eb1e38dc67432e262df27eda7c3aa9419d5b6e299bd948e970fc35a62f;
 0x247f9c7fa610322535feb0676cff549f1c177d0d39d3f1eee642e9253aafb82d;
 0x2ad0bd9f71e2785084aa0b84616b7dada053207c418e65f4035be66a0cdc8c12;
 0xfc3ccef00d6a64080abbed4fed90b69c5e5803134c22b42cdca0a60f03ec33c];
 [0x224d811fbdef8ec0a006d376a019e57c93bd596213a07823b7d4abce1fd8e621;
 0x140762d30c5c3a0b0750b1400a86a9e2f5cfc2531b729370f3ad9fe1dcd43f96;
 0x976d7c3844bc8deea0f0337f89b2a131302ffd2d0a870181ca5fd5fb6d4fb63;
 0x152604201ca7df05994e9d5f058f3b6749cea63aa0cb5b4e1c3a00b6667958e;
 0x1ab6d8fe39f87bb0ee5b883eea2725caa52c575740d5ac30b058f77113d05239;
 0x1b62ba8037a83f1261544c307f019dbea1cc6a84d481ea8960b0fc670745e8ae;
 0x239abc7c9f866aec28685c26f4e046a92d4360d36cb50890f422e18ed6f8a7b2;
 0x2fed5a03200417664537df8fa30276b85d91bd2ed21de33d901fb4d82439857;
 0x996cae74d9627ca3c56c646095f39730274d25e82c42ce21cf789253d48a3f0;
 0x304dbc0936862356e0024b2a32dfa3085abedbd337f22b89062be614d83cb083;
 0x2a7de8f5ff476d81d393f1d274636ca956f05bd422bc9f3cc0fac0054b58cb02;
 0x12c6f6c83a3530faced60c88f19a82fd12b7d938a79864ed20a545a52fdce11d;
 0x201e03f1ff672629473a24f32d2d502acdc8fdd2883014de74c98f40a195b3e4;
 0x118c3efe920c9c3f907c867743d35d2ccbff7c89e9c31bb6a17c552ef92b6c01;
 0xf705feba5f01cb27b27c104bc93f0c974f561fa26d5614f6a9d9e47d03bc655;
 0x28d327a1c2d6012d9e69e9a3b4c11ad336d3c0dcdff4c5c84ddddf911eb645f5;
 0x1bce67f4dc99547f2caff1b5c6d63e3ee2565a404190664533c1c65dd9d8d532];
 [0xe691fca423128a7d4afcaa582b1a94799ba1f5d2a5d53bc2bba56bbecb227a1;
 0x180aa4babfa7539753d9c222e5e3359aca59e06bbefc7cf3a3ffa4f961fa1d5b;
 0x2c54287eee368d5d52dfb068282d68e6b09b76bd1b5c9333b36848ac277744f5;
 0x2f65361a4aed320fcd03a45c44dda740213571f3975ce20b96bffd960cbc6e25;
 0x235bf178b5b56262d988bfc62708b0f85d57385cde2b4dacf9e6d592deb2afe4;
 0x1794ec2b0eeb22fbd753b21fcd949e7bedb305f15a59eaf74a961c3046635f85;
 0x83e1cd5943461ab505b200311bde4003fb4f7ed16aa58c8bc28f2e08e9f6922;
 0x22a67a88776982d6a15f577dcf780ac485ebaae6fdf6fbe50b95ea266a7b6059;
 0x2d1188d9e7e6ac24c4b2c9dc3dfcfb0fe4782d689f31b94b1fb15ef29d11f19e;
 0x265c43c886f07d025200d56cd246b01670b3e82ab482f5879b10608cc05a37fc;
 0xf26d05e938f8317bd608eff0895d352dca712b653b1492f8c2ea96b26f9381e;
 0x257689a4e22f6a8768aafe54218d31de4e409fdbf42319582536bb583313a395;
 0x1edc57f174e1322b627c6f9dbe27ae2703c3f11c364b38188bf41d8ca0c1709a;
 0x17b39f38636d5eff5e06eff089eb56051a602bc8f4bf1bb0ad2b2cd10cf07138;
 0x306094ecfe63300b2f95bc98a0406c7898d86852330a7b69f9b04b5404b3eef3;
 0x11afecc85590543bd2df8ab952be164670a3f32593e962d4bd493bcd3c84f84d;
 0x1a8ba4f37d2315389c8560d74dac572a4447a02145516287053e6b9edefbca2d];
 [0x189e279c92de0bab66707e6e6e310524e615cd4c6aacc665372a3b8e372d8ce6;
 0x17208ea9cd4dc1a6deebe6a8d27a3181ab5f86c6a706e6fd007fc1eb678e9de6;
 0x228a3488cabbf9f29efc0bce211a09031972b37f25ea35aca840dc2331a0cf35;
 0x22122c6313fc9a4c6d0f944d3ce238272bf35147b1b788aab2b8dbceb6024c76;
 0x6649a13e65023a713aaee5387d388e3609ae9b14ba4da10642ee0b7b4a16634;
 0x1ed4c95c6283b45ec0cd88f511976f063ea2beb0695b8af7cc10589593a7978c;
 0x15fe62a69b0438294395da1bfc93272d88797ceeef666ba2443f0c146f8ab7ee;
 0x2b079a1d09b9d4a76d4e50c45c01fb7508b1c443a8fb21ebd28533e05def8864;
 0xc34496a7db5abb330b2f6ce9adaef5ae6e308c8fc2c5634097ae352aa7457d4;
 0x4ffe27a92cb4300e774388edc3147ab9dcc4ab354c380f51ca7a2e7fe0463c4;
 0x28b73b335c72f0774871a2030d444e5fb954979c1c568e112fb911a46c666768;
 0x195821b99af2c217404ee582e29889072ba3cd994b74955c261b5ad364e5a9c7;
 0x20a56fce37122b7400ab61a65eac815dd180f52fad2835f7fd9649063523881e;
 0x235132912db2da07a4750c5ed5df2590e718404aefc48be6953432f64424042e;
 0x1059db5e97f25826b0bbefd6bfaa6e9496c55ef5a88fefe9712691f6fbdf4298;
 0xb050c882073a581e767223705cd9510c04c30168c50ffe0c9875a28b6938299;
 0x115e60c4e2937eb53c6e4a5488f801266e84d07547a0b1cd91b18f49efef9920];
 [0x1d9bcbbd17b93b1913d2f79cdf12844441237206f0294746d93f8e5bdceb4725;
 0x20007a0f5d37798789e0a8ef683536d9cf4831a6566eb727b41191d9f2974710;
 0x16bae49f5ebb1ffe886b634d215de61ebf4f44d1cdc4f84670df8ed69310bfe2;
 0x229aa5b547a63780d8d129e209fdb92f85662616d59da908075e668fd817822d;
 0x29a5b1e4e2f25445496adec230ed53a35993b37630aecb5d76e56608d1b78cc6;
 0xbfce7b120068b9a30029dbdb36be01d071e8163fa1724f13c6ca89be29b729e;
 0x20055568b33367bc12bf4aed7a0909c173588a5763c6a1a7598ba7c6c7e3c2a5;
 0x2df1ff86644fcc42a1932cf15d314eed407608246f14a8098725ff7be809c87e;
 0x1d4fb0f18f31c8270b4636e6b5d7a33e455b1050de1164182cfcb739cce965da;
 0x19d6f1d110d9f873db002ff2ed828905bd6cc5d7921c238d7569daa9b2401d32;
 0x282a01e8f2ce09cbdd862f98fdaba3f9af02443edc962cb34802d04477de1e20;
 0x304b679008e8a1f09448423a05889e0df663a2b65055ca9ee5a99dfe13fb9a16;
 0x1998147edaf3a92ab179c61ac2c36af5caf3e78bcbfb684cfea15db17b835907;
 0x28a4572cb654261cf9358435923e65aff8f40393752748b76acfd2e3f5755c9;
 0x15bd998c2729dbeaccc29b5d6e4f0fd96ad0a6037c84a1a1a785169fb336fb6e;
 0x7cdf3309e130f9ceddd688af3885369fbacf6d8a44de4d450667c0d7641213f;
 0x152d47acb9b06c9d12c2138a31416bbbbb991a65dc4d4f8ef91a3dd728e63b6a];
 [0x1179184635a9780ee1312dcc3d15c7ef042b18ae9409670e28c4c7f0fb9b608e;
 0x229da441a302929b0bae93741b7c75e11337c797e5721f9d7ee59235cda9a40c;
 0x2e269dc78f70f9103b2bced3edbd41e156e64910887b4dddf8a3eee960f601b7;
 0x21a91fed8bed14914c4fd491b6fa4dcbae7b3b8b3d456303af886c328abf4699;
 0x29f07c1effc65b5589e1ca52cbe00bd65ef5e962d01200302670b6dce79eeb00;
 0x506a7a5de6b56ebec5e708a70a3cecb3a2cfd25e7a20ed495e295a93023c5a8;
 0xc02b148f4a1559b597cd320f00c02b96a7fc7c83811bd86a1e79cc3106b2201;
 0x24a466f74e99a602894f421010f43a81c708b1b4ad076425190b85347f685b1a;
 0x1fee18888425724970bd2897b54c7fa8e9c367dddbc8484da37864faff9f9056;
 0x19711c41d76f64a371aba62f3f46710dee0c3aad217b7cb00bd12613b24ef52b;
 0x2770d14a220152fa7083040be9b3cd38c8ace9e207073486bcfafcad706748b1;
 0x8dffe684aa33f911d35e9a644b4bdbfcd15a4da49b6531816b60e8ce4f6b5e0;
 0x1cbfab7cb05e2f28254b230bfce017f005fb4f2dd8935ad11765b347d2003667;
 0x21d7269a53d3712b20543b0039aecc9466520133d299e8442000b33184a39e84;
 0x21fde580a19886b13358f18a32d5aff685b4bd77d94f067f44f6e7a93350fd2a;
 0x5232bf95807e48ad82a1eb4bc481e9b0720e95196dfe361f55c4d1cfc7926d7;
 0x13602646b88ba31c0d544c757bd9181727835dbe690c30583a23f37f52fe5e3d];
 [0xe48466182ae8333af1891a6aa19736741ed0680d57c931ede13fc07ae82e88b;
 0x1137b5c61b9684bec41e4dfaa76438256622a4378ea4e646a2844bbc85bf81cc;
 0x1f4b85552b960d1c18b7b8f66af7305a6773d9b05faf51e0ed1a5f2ef2f95e7d;
 0xba8a54914886fae16700c02efdf7767413a0bec5a19ed0cf0a7d8ac60c1f1c3;
 0x30289c9678c0330f85cf8e362683a6144f22b841aa08f586f219dd9edaef78bc;
 0x4890048fcdbde6366761cd58fcc6ac0a3360d9a64233d3ea4d8d6be8a23ec45;
 0x1a4162e8a7704447be0c1d4d5cf2f777670f4841ea27ac2709cd6bffeed2cebd;
 0x2e944b449c1369ce9766fa6f4f99a87630b5c1f2d63677a437a537d61b6c7470;
 0x22d6e787f44daa6b6593dfde5576d2fdf5dc0447e65a1d5e7712e4e62c3bdcee;
 0xe08ddb69d5efd949c3d671e4e78e4fc7628c65ec1cfbc18ba6a101aa19dbf66;
 0x27a573036509a8a29a90eaa34d2adaed5ed1ec6b207274f3c5ca23dad3880e57;
 0x72372083f62195bcc2b5afab1038198a3f0546b62d171ea21c37c8f31551176;
 0x151e0bc2110e4300dd82a4c92442c4751c65b294426c8c320c69e61831958ceb;
 0x13f1acc389c4f8e752cc7e4b81c37ae2130c60df9c8b7e87dc5fb7459caf4916;
 0x6823a9baa55623732b02fa270b2f887fd3804a85c1a7f2a355df3fbefc69dc1;
 0x1e41936e6bc0c3ed665c2e2466ab9216b9973fe136d9f9aad95878c1b5607c6e;
 0x65766d2980331a55c0a39d83be78bd127baee77d53a24268e064c71daaf2b6a];
 [0x1c9d56f71c2f22c44d3a8c17bf5b40452e05471f0b6dfe9ffe4725eb29f73464;
 0x113003c1dc7baf35e4536f95f4eab2f3badda2c7a1c6b5afc956234ade3e7129;
 0xd5fb9b0e1503f2b92697c473b69cf76d38fc12912e2c3cb33996dbb0cdfaa38;
 0x2e164a524ee22eb5a8903fae1f35a3a78f882f3e3a9892b6ff4753baac934949;
 0x1f9dcbde7d058134a510a711d036d1f1800e473a63b33a7e0fb04dc2e09e3af;
 0x285b20799970b58c63ac9f4af564ce0f28209b61802214da5bfafd0cf24c6712;
 0xce3dd727fdd11a8bc731500effa23763089ce3332cb730f9fe57146ee204810;
 0x1079746ca51d9518a0c309296ca48206292798910494277be2bb65a6b134b3a;
 0x23a85d4f91eda69f310c451d7d480c2f40c0d53382ddd3fcaaae627b9617170e;
 0x240657d67f92b5e4261ace434fd286206c315565378ce8b81661523f0e6ddc54;
 0x2384a384bcc2c4a17ff7c9e3e7d131d39173c431333a9c7c1d6fd7110e25902b;
 0x25547b51b2c6874e4538ca9b34093b714ad36a8f356e4c78e0d66b1f190038fb;
 0xe59e1a990ec00f72edc37248349d7a5a6f7bcaef158110450f1e5985f0a5d99;
 0x66c6090936f6b054f17dea91682954332b3e32d8f20a0ae171d417316d3622f;
 0x1b25662843b0986ab1a4e9a766193efca47c70d49364f03d50c5edb5b5517ebe;
 0x2647635477ee5fa9e7ac5983f92db34d7336646c63c63e2dd53d60b8714bd759;
 0x26db2e85a9006ef5c11cd675a267d42efef9f5af90466b2aaf75eea8024b00bb];
 [0x2234546f5e8541e8f72ad794891950b32b1cd891cc66775c5b635961642e9c15;
 0x1b61468fab59c925f1986186bcb97965a858523a2582d434319a9525ae71158f;
 0x11291ef514a10d6f0651e4ad0da5d4a489e3018927879da942defdbdf701ddd;
 0x2df2fb2c2e321e3cce13d16091705a40c5c795f8b41b61dfd6ae7d97d63578b4;
 0x1baaf8ff96bb2224bc34cf80c38bf13086f1e429bceec12090d8a7c376a9a82;
 0x7b0d70ccff1b70dad9bb4b0142e3f6dc5bc95d3766affad378cc5042484dec9;
 0x11f28ee5da80d19e31581b566a439537466d9ca7fdf14b7086830bd8ac13c4cb;
 0x13d7b03e8fc9fa647fca6cdca97146901df7c675a164913c2bd2a3b6ee3cb4;
 0x2440e786179a7fbcfe8d29ab18d0fc6cfa383cfb747f7a2d15b77d82d9b0d9d3;
 0x56149221712b88ec291fc218324142d02873cdd53199679fce4dfcb5dda9116;
 0x162c5bbc81b44427be4e82c5e5253bd66c3054f5c5b73b28b29238487849a794;
 0x178f2aa8df9a11ef33558dcc934971f7697e626cfef00ffcdeb6f3c9c1a7d10a;
 0x24afd92f80e57788f40fbb2b79f29454dc485fbafb5a7263f462b7c84b4e500b;
 0x492ae5f5ac2a5102ea96e60ac8375553687151ae44042dbf5899232c8f2100a;
 0x10dcb11f815c7e29c66be1dd3c5f7602c98e9fb1687c2d825b48789c521fbd0b;
 0xa11d587cb75d48544eec662ad27ca6acfec98f7a8b7963a294e4bb329b170df;
 0x1dd6b095cb68459dcf6bdadd434aa81f80a55a08e6782c653a93afd8a65f3267];
 [0x14c09d155c5d428198c234b553da338f227cbc12b0e42f2b9ce71563ee1495c0;
 0x117fd528770fb17f718e29a2d91a63ec7c39ef1dd3039f0943f717d1804253d5;
 0x120e7416d74308e24047f6828c68ae28bc288b216e8a25e8b0ebcf738480e390;
 0x6995e510fd7669374c39d27903f342ac5bf8a1464807f308bef610b76cb693e;
 0x1d814b3c17656c2327f94cc02472780b886b88394f1a5cbe34dc4f44ff134fce;
 0x3b90da34b198cbca17e34aac98b169875ecf73aeb5c6ff1f00c9fe535aa9902;
 0x27fa77a0658791e6755781c367683f9c9333a41364f7870edff1935a347485d8;
 0x6d6ee531ba3fdced05e24cf9103d0962dd227f1de692c0199483e92ab24ba59;
 0x1e507921be7c76124879ffce5b62dd0e96259e98cc64c27208d62b40bfe3e482;
 0x681adaea79cf457db5701931f0ee2f15ecbb159ed50cf746a15b85c6f8a5370;
 0x1e6196147508bf2edc872c4e897a967778b119f69fb431a7f646d2018eab4010;
 0x68efa35bc620124ab7d88990171bae4102ad21dfddfb387df0de0c8a3a189e9;
 0x1b012224a4f050df841122d17c5ea4eded7c8ec2034743a432a2cee893976f29;
 0x208d814151bcdcddfcf835a958c259a6477bfe4b3392710edf9d80787a25c5d0;
 0x28f901fcaa860b0dc4192adef8ea4ae55af6ce432c85e0ce4d073e514ab24252;
 0x1bd639879731823c871f9cd4714e3cc56a6eb19884b73664eed24b11929119a0;
 0x1d3ee85f078fbeecda2473efc2bedd1ba7ec6f4795faaeae3b0de48d3080c625]].
(* poseidon_bn128_constants_opt.rs:2044-2247 *)
Definition bn_C17 : list Z := [0x2fb583762b37592c6c5a95eb1d06694b6c6f9dc4f1ad4862dd8f5e67cb7a3f5c;
 0x12e9f46cd8231bb03d4028bf7a11d7c0e331dc05c088e6dc3d1d001da58b85a5;
 0x1275cd70326f52f816a7c53fe62e323efe61a5b8d3747f6dec5837a825873afc;
 0x6e7d165b57b0299d23e750a75ea2e12c9c7a16954c40a4d10904a61e8773541;
 0x2f67f23a93ef1e215a4add2ecb41bef4b9d85ef9135065d992800e34fa98108b;
 0x169eb9952e2a8623ef38de57e15e242df388019489e01b7c84fa839d864dcd1a;
 0xf4cd404b4024ca13a513ba3156d4de9cb3aa240c683b3e0eb7253bc98c8b5f6;
 0x1c486bfae3ab032ff519e8dca6dc41ea060b0ef9083127bd7c2c4e089fd45aca;
 0x102e745864251ce940c67b1e2f4bc4d27fd3851571ce6813baac665e8cc0c79d;
 0x1e6a6d620433d22293044ffe36a5f2a729c129cce3eeb0bdafdcd0d52bc3bab5;
 0x8f3abf97ad8d01cfd8651ff2d576e3d68ecc47aad82b4188d92138bae603b6d;
 0x283da3f1cf8477d9821ee60378b1c39c72428511a1b9d6683c0302938c248ce6;
 0x2d99cd8d88e49e0babc84cbd58adbc143a75a26ba16f96466a2e41629734437d;
 0x171edd6a7456a4c25fef8aa6d8b748ead869369f72a4e502861fd037dda8f779;
 0x2fab64694369e3a2bd573c0cc383695c02a381e785792a3fabd6e1ca8df2d3a1;
 0xc6155944f64f7694fc8ecd2a2b9a2370568c3c898db9531dc18c72474f9afe7;
 0x1ee0e5cfae030622249210cdcda71437f28f0b1730653c0915efbfc08607c3c7;
 0x1c15154895ebfcbade12f0e02f0cf65f87351b1972358beb0eae6b6976cadabc;
 0x467fedd16f9e87b3069ae697d185c9c884ed5d9e64bb814bd11f71885754083;
 0x2b5565852f65969bb087fcb51626b4754b69136d92546fff44b7048b2f9ef8a2;
 0x2250acc27d5ef8d0f4ae8ede77510a7ffb897d45d9c93fb2ece4fe4c9a520f97;
 0x2c0abe26ff8bd475ef727815bab8a81d154d2c1e36eecd07574222782b02a8c0;
 0x19b0bd9e0c5fa1f56885be00fe97cd4ce8e107e95a10838b70dff34051188a69;
 0x2342fa805eeb2b237633942aef80bafd3af387ec8d472f5d12e8f9834d32eaaa;
 0xed57663a2a64c73b2870af0065ceb8cdea397599ccd9823747f884cdcd8faf9;
 0x2c8da824719f86bbe3e601b19d3ee2a9fb766e7537aac2ea9f44ce4896e64bfc;
 0x242fba876b16361e11c677d62c6aac73930683c0c40bc11938247d2c244a4474;
 0x180cfd0b1cd3af7d5903e1e638bddc6711876fff6d5b12607290debd5e409b3;
 0xfe8ce1b265d657e790bb82e6881b2da774713b724b9a88ec36373fa66f915b;
 0xe8701cb0f031d03a5d81fcf949230dd38dec12218ed937cb31d58cc4640809;
 0x7ed575f9154b12b0fbc12bff4350c6a4d38859d10f557d38c513b37469f47be;
 0x22e9f46e17dda4066a4af81a4be19c94de4b12e0921f819030f8352aad050b91;
 0x2b21049f7b8e6e767d633dcbf2acb264dadc7a85a39b937458c134f652a6ea5d;
 0x216c5a5bff445ac3a3da1eeb706898437840905b9ff27dafbf38efa470bd0bd3;
 0x2e14bd4f01462ffd0c83929aa97706ac772f66a3a0a0326c00eac11f9d5a485b;
 0xf28e51e2f777239205f13ea21e8f33172ae538b21fb69bcfcd82ac51500eeae;
 0x2c2295ecbad9cf1b3f6a773c69714eb4663a01827044169e7f1edd5838106eea;
 0x1afe7b1d8ac438739d488ef003f9c3c679e7fe2f0918bbcf93ad1f127f2281e;
 0x2e0833dafe87279685cd5b5a0105f8b98774b3083833bef43608bca8451b210d;
 0xbbf4266fca0861341c7196fc15592fa22dce6141935e01fc6077c774cbb967c;
 0x530c66b07d2db8dee36ab00f91c5aa0a26b48d8940f0b72735a65481e5e781e;
 0x2ecabeec31877a68058a22f773e92d483867c01df7d050c3fa953ccce90acb51;
 0x1e379c0d2f9d0b659bc732b57689e48c0262a976379959e12b95cb5d45820f28;
 0x27767756606bf727b8e5361002c613d6c3a20df9c1788c9c122d3a7736a6b340;
 0x1be3d832de2196443062c3b42321ae05779368ff46eb68fe57d835d8d656ae25;
 0xe9b839700b18ef3eba297cb68ad992b3bece0cd5bec65e6e40712425447dc59;
 0x2760900970a34d2051ae587ec18f502d246070d70c2c3d7fedeeb51bdcb785d;
 0x370ec3f70286f496692cd5f50f6b06e21c5cd89fa28f9c8b71d42b4ba277906;
 0xba8f86362e1f301baeebb2333893f7fba2ea082d75969a97ee3095baabb10a8;
 0x2d683c3cd7b4f544bbe4a6baa9aaf78614434a5915299ffb37f92abcb4a4dd6a;
 0x25544ccf600d8604bf3e11aeebbed37b77cfb1b22f3b110a930c91e9e7951f82;
 0x1c583675e423f947344328315280966833f05f91a2a24aeec1ab6ed37376f959;
 0xcb752efd07c8400d50a06f3e1baba3cb35b0ba28b262f8526f5eb0ab5bc79d8;
 0x14cf442b6f22ca3f4c16974e2eb56ca084d05eb93ae1049275b8bcbe4dc238f0;
 0x1af1b935bdb5607897f4ff0745ab08140d6e80878652855b1947576fcfee4fa7;
 0x2499ad4b7965230d4dd5d1c41e00699c40433e22c2745807eff395a13e6f1f0e;
 0x2b582ea1669028196e62e62271a36f532b14c0a8109d34ce53df9b75b81d63aa;
 0x1c335a347abda047c4b5ad93dbb2e9412d526049fe1fabe1b5fee25ee99e0bef;
 0x1e3451c495c60dcd443730401ef329d70571e3644dd7b5664cea26daf8a70aa4;
 0x2d96286e6d9eadd63e393335f1217710746ccb928834e73105823acbd2da005c;
 0xc1033de21891ecce9bd0afe313334f7e65977994e545204d616ae0ec4c1bd8a;
 0xf0f51cf6db73e970a6b8efc8823bc82cac8403ec369c02a14affe5fb40eee36;
 0x8ed2dcec016b8eedc067a6da7b562484c010234d84821780662acf9d281b348;
 0x19a5ec3b7882ec910bf7590e9774b63ff37909995a6d695611d5532d6b81a5;
 0x23feec5d6235a405f0d53fc16c955fa0214cbb54fe973948a1dd39263607c33d;
 0x85438dd42c1d74fb0407e48ab1b44e0e42aa3f54b8d7d4f6efb87102c6a00e9;
 0x1916f1d621aaaf4f9072bfc4e41b4b78e82b595d7510d507591414c005fd0327;
 0xfc2435156d4ee76e9a85ac6aec2fbb50b0b77795c370c2183fca9bcbbd07693;
 0x26cf4d12199003f6978f80761784de0919d3a14887a57d4a28b4ff3ad39bd969;
 0x2c480375d8dbd4ac4f039f452fe1a9f074c811d48dc2b214d3f5de827a1a2025;
 0x219b5f8126784340f278b77b765dc4c697937b3d81ba2691f8979839f02cc0eb;
 0x14adc2f2733f55d49fb628c3ba41110e16946214996d1f93262b9347cfe69a21;
 0x230a5fe366e0aa4dfae1dc35e0206959781a64f22d5c684e53ffaa6614b1df31;
 0x1279f8d2e2d43a9eb3b7e4149d16451b78c65118b5a80f86678f5ee6fdcacbde;
 0x2be4cb4144aa4b8e705c37da42b8819f0165ef3476fbc327a3a3deb0a0e8d751;
 0x283b18f7a149cf2f2c8cc446513b5a03a06022cd859f16da1149e7dc7c60a45a;
 0x2d5baf88887aebe22d5d9096dd6c45e941f6a67369af01c75479e707803378ac;
 0x1cd9a6ffdd0daf7ca9890868d9ab398e0546335bf29623aded76e4f7afa5ad55;
 0x160767c1cb457de2acb400781d8cdd25b99f75af301e749cc46049c8db5563f7;
 0x1bbbb19bf384f9812aa63685729e0dfe06f3454c12139454707c1789c39fca6f;
 0xad3beb75c91ceb0b2bb8aba2a1c73c95e7de57b8d5a7984e9f4d010f15a1755;
 0x1841eb6cc35a1dd64feba1d8ad6cfecd65063e1e6c2cad4fd5bff1b4614e0b06;
 0x2356eedec4882d9032ce821d611b98779bd344e2abe0a57de4de06b72be6b447;
 0x10fede6245a9c78b391e69db91108306bee130faf298432d60a4944ee6ed6479;
 0x2b4f28161c7a843692b07410223d8b5db762ff16ac0cded416c3594de6a53443;
 0x1f0846b1b26aa3db14ac0d69972c9118051183ed1d1633876b44c92f022e011b;
 0x28ff7a7752e51734e1f568c6aa3dde3009c22ed210503d5dcd7dc25f7f6767da;
 0x1a3acbdd739794d252150399c6a8b3d114d97d643d4ce83fe8f64f41d8c34e93;
 0x290ba46b38179a447cc81d0031d18e9baa34da9a60ba7df3cb2c7654bef3f412;
 0xb9876589637ee3628c3a08500d67363a1a01da7a1ac81f528c450e9b050c6ea;
 0x35b7b33a1e17c6d1674cc229068e03d3d1767bc950d68a2e376f0c793a896df;
 0x7e6b30a0d3c2526be65920e6b873de72db1d761f7935202fce088538741b347;
 0xe5ed87393495c2a7f3b877578c6bc09653755179159351d8e67470abe9cc690;
 0x2824873ab7526115957736a5cdae583bfcee10b9d418ef8e17795de3386f21f;
 0x1db49ff47ea6ae80c26654ff5714e69cf3a1ff7b31b1fa7a3b9e64618305d582;
 0x1be421809f80b11a626a0eeb927a39c2413e7205d25c89276bf5633565038941;
 0x3b7c7629b535df5b487211f4e789b9a287abe7c453632ef7d42623c2d2c377e;
 0x12a9f7f6e0c65acdf8c9fd354f7ec84d6e41638465e347f3063adc04e00e809e;
 0x1df5905e387f8ec81128c20ffd995fad5402096e3cc6d2e229a23709b6859ac6;
 0x2d39da8ade615636070e6734fd848368d58428aa3b2aed784d8429f2075d122f;
 0x327c1d1f0dd35b08df840db2579623243c13d9c073b9d70984bcfc97c9beb7f;
 0x18a10f3e452a08076aeb6b825004322a48a6fb0f51956f50250a41a49454b6c1;
 0x1e94dfa0b21f7b3e6047d599b3ad491a693fe458add2a56c5ed16155fac59ea6;
 0xfe2016941461beb0f0bed25bf31e8c9a36f21fd61cf70095d2da2bb93bf3b2f;
 0xceb82937c84923d76bf855a1bbe412dd3e35d0378007404477883d885b425b4;
 0x16985b2ee64b42bf9ba0673beb0e47580763c527f4792fe994c23e3046621a9a;
 0x10e6ff96c5dad8a34d7af2e3c6ab2e1eb6ef57849233d2945fc0aabd404e5b6d;
 0x192fdbc53b382b45aa3020d21665ddd656bc1cc332581cc71ec97c3ad71dc542;
 0xd8431c14f1ff4640fbf6990506d930843bcdeb4deeef3380b5cf2161a3bd030;
 0x604632b70d1c0dbc74ed29d69d11d37b90669882c2e3d6784b47a5aad03495f;
 0xf2553c7fa5beb9cf2f6957b01ff7bb7d3ed61f9c2e6fa8a53264704f986c193;
 0x1fdc2bb41ac0418d8351414dc360ab2dd324d1622807cf59db5ca6aacae5d58e;
 0x18c42a157f39bfcada57e085c7cd33781cafc7b33d6505dda828972966a9c2ac;
 0x2645748d1b13c825bb457aa7761b9ce5425c56137e213c8634c87ab29543ba1d;
 0x2788af72cdb594ac08f41269497e1ae18d44232ed0f80a06bd9e72fd216e3972;
 0x21ae229ea6529c4f9de897bb849ab6bb15bb92ee41f73d348c10ba8d64acbcff;
 0x1abcfdf990784706f54792660668ad106d1a6936245785c3fd023a5344cc25ea;
 0x29ccf1d934f2a647595d1be0900002b9b7a343c3e7d3ab9ac3d2ab8de01abf8c;
 0x39c2ffda04fb850f5e70d97ca2d93fde05b651b310b1d27dc298b9fc888d9c0;
 0x1f2ba53bf1c99665fd6f4e862ac08899a41da938198153e4c638bade14719a16;
 0x2451b8e4232ce9c809e439b6eb5fd2bbad8f51e9bf0429a33bb0ee95b7890719;
 0x171a629d2c40364327666e0c05ce3097b2be05ea5c75123fa78851ba178980e0;
 0x8c9b34df311a18764044e24961a95d1b2dcac3c6df9bbe0480659611db8f137;
 0xb22a3e321a38a3801404091d2b160fc133530e8b7a52d2422c9f1a8b252bc20;
 0x797c435ebe5c845a743f87a7f0d267f33bfbafc9f1689c2796b392772e7d301;
 0x1e7306b31a137fcdfb389fac64b5f1ddc6147bd1cc7f30f11d67870454165dee;
 0x112f01c5aa8b6ae92e2c8ca7667f5d21a0b1e4a8ce00a2ccccdc459ade9b019;
 0x219de6b42df30699c66921c11e899b888e9ed317b586abed36fb7692b1216b1b;
 0x86a228ba57047dc5bbbb04bedef0d87c1a78cece6aaf9b698117b292705de04;
 0x14e98432357efd4cc323da2a344142e74f2aa117cc1aa4b559ad83e541ebea49;
 0x1e6b895858694eecad78b8b88d54217c879d8b86ad928190789a09147168fc96;
 0x15e37faf1d08493df2b643576e177c9fc704fecf164b7327481d32313d55d161;
 0x85d0f567ddacd3f8e5e00c4209cd9b296693dba11d00879629b522270e798ed;
 0x1067df821f616fc9635104d5b2150f831ff04a1f2b1399db49673e80c5c86db1;
 0x90332160427de3eb055f9b8748f7e2b88c11f415576e72e4e087416544557ba;
 0x2dc94749388ebd876e0d44ba0105f8da36fce0d45831e4255092d5c7f8b84225;
 0x118c857f29e5a253d50b4d24d2d0c29b82c68ac4ec31e88bc43c74a9487e795d;
 0xaf67f0d07a2fe41c72a457c92e95458a77db9ad0a28768b62b6681adeb11579;
 0x30104204ad0fae366f11620b2f12ee6bb7c141e2fec7e29d963e6fc94f8c828b;
 0x1976ac8ab874f49ccd63235f4d81cf0032ce66d53b0d9a910da3b8d0524a5a60;
 0x2c316de3167edeb721ab1270a0748ee7f77ed7a8a7c727559436f6fb9313bfa3;
 0x9d2011c83a4c911f4535e741f79432b5f2a5b8e53561d179496ddb63cb759f0;
 0x135bb87773cca2191cb5d22ed48e633d71149119bdee6569623af883ed734294;
 0x2d47ce655296753999d0d8cabcf056f0047eaa166f5f8bc3cc5eb601ed2c5600;
 0x12b3ae2f8d3633702674a4ea2e98ab5bb186da55cb7f5bad038be08a46f8f8fb;
 0x1941673c79be83924a43b0159e5f0919c3b4bd334df567e23a109d5ad7093a96;
 0xb524c1bf3c392285d49a42d8bdab4ca454514792e2abb5bb4f62c902c9b9190;
 0x1515ed77226a3311eadf3fc8f035c016fd3705a08b8a9dfc2175fd7bf58eb8da;
 0x64862973bd0b7b75f7b4624a84d680fab7da9b6741aa5d6edb76a9d0c40cbaf;
 0x1a23361fedfc5e494b0b2d4eeb80c93f8835a73100bacb989be5226fcf0df55;
 0x14752381dfb966594721cd9486750a4f1f8e337b06810938317563386d4e544;
 0x4a09034e0f69e26581ce66e097f9b5be008d08be687b8122540f2e3262914ac;
 0x10bb764a96bf402a53785cf2eb4af7b05e20d89ad0658aded12c1b581511538f;
 0x1499cfd036b8ae372458561c19a59aa635054692818f9b3234707168298fa14;
 0xa8b3b48ec68bc2fa9e34521099684e72258264b7796eaa9bc2130ca5f962fcd;
 0x1a46e59c6c21c9d54b9b231fc1403379d01e16680bfe9622dcc01555be87487e;
 0x9569a38ffb6c33d8ebcadc6029a3ba8ea8c8ade1a7874c3f017516c358cc698;
 0x16a9c201d574004d0276db42e7ef31592cd49a56b9b768ca73c7c6d1ddd6a2ca;
 0x19c05f9660f2cb6b113179e32656fe2b39c9307c0d1e9b3e680983e27bc941c7;
 0x29f4b811dddc6725ee59fa5a28af545cb21f15cb7fa6f9885cb7d6a405a063a9;
 0x1f99271ffe92b27fdf561572e5f6092fc06fb7faa9cbb2e07608067cdd529b10;
 0xb9fdcfdc7dfb8724957f00327ddd9372f8fceadbbd41583b66726b252b6c089;
 0x1936f5a41ce7135c9027047ec1d759bfd91ca70a62324400f15a31debf179ba0;
 0xe5eafa60334d7cd71251663f5b91dfe10ec503a1b2fe5b3886ad9b10662abb0;
 0x18065d065c304f7953231240f544ac51d897f58777c69bb9d1f8a486a10c177a;
 0x2678766be9d2c5251479999760ea8d6fe4a1525095e312fae3ccbaf689e7e809;
 0x23750f77af3988a0600ff868b61b9e5e3d00de0f8759612d4af260cf4b113ce2;
 0x7318b129e4789d21bec7920ba354193fdd6fc628eec1513638528431272925b;
 0x2a7bad1eb2e6418a954869513a7a531c58f0985c64aa07db26f8f7949fb0861d;
 0x1bab89c7aeb8f0f1c55bf1aebffd937a520cf6330add93cc33846077c83a987a;
 0x1552d5985864ef2844ae3d20a40a368a4e032a4ca49d8ff6546c450cb1e079a7;
 0x4b91151b3b35f11f5996365de43d43fe5476e5bafa6f711dc30face2623d320;
 0x7568334c7a0595b5ac2105b2b5f738a5df0931aba8576b970722d4e45c912dc;
 0xb162e458aeee52ea49ad59cd7b5fd2dfda24fbd9de8cfa1cdf06016e9d171c0;
 0x2cef3248eb4dae55793e1bcfa553c9315f6b78c356251508e79af7cfd8ad95d3;
 0x15e7245ad978573a5e2b912527de7964cd4add05fac3654847cc0b6edecfb9af;
 0x27c471daf0598daf80d02e06c8171f94dd4b689aa0bee6a68e57b388ddc52155;
 0x13cfdde932c2d8f94bdceae7ad7a0ba5d545f2ac20a04f7e9397d67b942b09a0;
 0x19f9a64fb9d109936e840d1cbe108c9c36eb46d237cdc8462ea8267faee7e8b7;
 0x14169ccdf08725826332bbd522d72ef94b5dc96d07a18359b0cf770331224d67;
 0x2e8744177cd2849b77040421907fc4a9c356c4cd02ccf32dd8f05386ff3122e2;
 0x1507d5deb9bf6bfa10e2b432b56daac4ca62d302fd8e37a021ecf111eb42018a;
 0x26d7097b3269c5d618a95bafb9b128a872c5c85d770515b2815b581e94c8b9fe;
 0x1c7ab275f1c221bc248d8498dbb05c47f41b97fbdb637bfe155cf1e75849d476;
 0x2673077405cc8bc1e0d88920eae1a797d7a40f9999385be0da776c0326b9206;
 0x23fe81be9b9219be0e6312f29022c7d0cec98da3c51c959852d951d6f1cb638b;
 0x10ba3c183fb3890c360fa562760adb456b01949ef7151ed8ab8103f31c7890a2;
 0x2d5259daac231ce0e74872c4065e14db8b32679927872701bae243f6842c34;
 0x1a637c2706a996ff57c037f4f5ee37501fb3e7de4d067c4c0f5ccf30f9d82a05;
 0x2e6067c558d96831add6dce3f7668546f96cd84c4e227cbce700964431ecefa0;
 0x1a0c5d35fc732851917ce3bd13a7f28f75898537f6ff8eef1a1ff41b4b7ae935;
 0x2edc867095cf941cb1ff7887926a4c8c44ceb1927172e39b362d2f7461bb1b84;
 0x2f2062a65c3fe731e2aea024198e417627f38d6cd91e0a4874a856122a9d965b;
 0x261a9965be69de3ffd74235c3a239e3e374cfe12090f6929e7c4442bfb8b61a0;
 0xe51a7f2109df256ff814fc310a3b08efd5bc160698af9ae219c26603e84b586;
 0x201537485c818bea2b1bc635035c7f92ac4be93b1a732a259e5081c6b10822ff;
 0xb1dc66c364df6ca43e96ce916012cfc49115a6635e8a76a13c56f966991ef4e;
 0x1b70f07090ddb1c480c10557d2f818c2355a0d0112f0448f457196db0ef585e4;
 0x1941694438a139d8dde10865876403207f657a2883117cd3a8cc2e7c5d24f32;
 0xcf031701838c4ceaa490cd36e710d3619ce54048ea826cf23a2c456f245e6ff;
 0x132d7fac73535b2c795ddaaa3a69281704e85097d78ac6e8b1e9e8a7721863f7;
 0x4aeffca0f9922fd0379b69a7fb710b49dcd05026a3f2576a48a6e04f91b630f;
 0x25f5b5001f87bf2581938f3ede0c2a7a35141c7abc3e5bb7bb8601a22a3cf43c;
 0xe7119275a25b2b8a4a6aca534650e84ec72b490a41384d44975ed8c80a2a28a].
(* poseidon_bn128_constants_opt.rs:4048-4368 *)
Definition bn_M17 : list (list Z) := [[0x196b76cefdcc7f6a54c71d40114a0bb82694c936f1573ac7ac1ea3fcce1fe938;
 0x130fc54477fd953377fc23abbd7a41be6764892a8787c759c1440fe0133c852d;
 0x2c9c91f48661771baeef6774578a78f69c355c8e907156fdf26db39d2446413f;
 0x1dec0bafa3e8190621e5e095ef751ea03c836dbb8045b2a73f8d397cfb815192;
 0xa5f52ad6ec4a8aa377d8dd2ae3aaf6eea0c68c63a1d034fbda67133ca0b85cb;
 0x20ab7394bfdab344cbb6f2123800a0e23508e2125bfe795ab4a767cecb4d9306;
 0x110ea322b0c26476c67bfa2c1b9d1713f93b3b9cf8320ce0dcd4b64288bda07a;
 0x54eabe6131681fa01fbc6dbf3e7d53595d0f8809987182142b890ac8af89cbe;
 0x224d811fbdef8ec0a006d376a019e57c93bd596213a07823b7d4abce1fd8e621;
 0xe691fca423128a7d4afcaa582b1a94799ba1f5d2a5d53bc2bba56bbecb227a1;
 0x189e279c92de0bab66707e6e6e310524e615cd4c6aacc665372a3b8e372d8ce6;
 0x1d9bcbbd17b93b1913d2f79cdf12844441237206f0294746d93f8e5bdceb4725;
 0x1179184635a9780ee1312dcc3d15c7ef042b18ae9409670e28c4c7f0fb9b608e;
 0xe48466182ae8333af1891a6aa19736741ed0680d57c931ede13fc07ae82e88b;
 0x1c9d56f71c2f22c44d3a8c17bf5b40452e05471f0b6dfe9ffe4725eb29f73464;
 0x2234546f5e8541e8f72ad794891950b32b1cd891cc66775c5b635961642e9c15;
 0x14c09d155c5d428198c234b553da338f227cbc12b0e42f2b9ce71563ee1495c0];
 [0x1440dc2578f44694d18c25f892d98c23cfdb87a772200020e897823d4bc84d3b;
 0x65e134cb8d84447d6ea1e17932bd4a341ebef2568313c24594faf9d7eca2110;
 0x2c6b133e80abef84904fa4a75f968fbaabef890286d5fd11b87a1e52b7eb6d0d;
 0x27c72332f59a00135baa94bde294911d135d1d95f53c52eb8b3b95594374906d;
 0x87488f735b1fe2fa3c6c7148c4968e7f3479b1418a1a566743c1ca215dcfcfc;
 0x19f0e2e141896eae6d56d182b687b8a6c64cbb59e031b749f35822fc7ee353fe;
 0x299c47f1e3ecc557ab1c9abe36f0d2ba0ece01051e07f0858e97a9ce16f5664e;
 0x1a4befe11c0230c62de44ffafea0de903ba328c6d67af73680312b68f9acffda;
 0x140762d30c5c3a0b0750b1400a86a9e2f5cfc2531b729370f3ad9fe1dcd43f96;
 0x180aa4babfa7539753d9c222e5e3359aca59e06bbefc7cf3a3ffa4f961fa1d5b;
 0x17208ea9cd4dc1a6deebe6a8d27a3181ab5f86c6a706e6fd007fc1eb678e9de6;
 0x20007a0f5d37798789e0a8ef683536d9cf4831a6566eb727b41191d9f2974710;
 0x229da441a302929b0bae93741b7c75e11337c797e5721f9d7ee59235cda9a40c;
 0x1137b5c61b9684bec41e4dfaa76438256622a4378ea4e646a2844bbc85bf81cc;
 0x113003c1dc7baf35e4536f95f4eab2f3badda2c7a1c6b5afc956234ade3e7129;
 0x1b61468fab59c925f1986186bcb97965a858523a2582d434319a9525ae71158f;
 0x117fd528770fb17f718e29a2d91a63ec7c39ef1dd3039f0943f717d1804253d5];
 [0x23aeeb0c6499b84bfc32ae3c42df9728798fd2ef774f1518b870bc57d1385900;
 0xe76c40392bd5f458bc187be54099312a0fefff44b441637020eb92670a6fcf3;
 0x2ce8546cb59f420ede61692e764e0e9f6715b16a2c8047cd8131c97646f50d24;
 0x16e64661144d816885b32f3f7809703477788268d57c14b1d939a26b29cb7ef3;
 0x6cf0db92f86b2732ee5fb881ef0176012dc4adfd849b9be4de17846a6ce5d99;
 0x18f754a95b0af0e4706ff9024bb135164abd6fc16ee40cc2d6852d88a2ffc9f7;
 0x1cc053a6a4d6f96da77e5e73adb9d49bc4d0ef2cc2f69fade48040b7f8d71386;
 0x1e40665f5bb8c5c0dc9c11f39d47e9d33e717afa31ba74f92f8737a55efe134;
 0x976d7c3844bc8deea0f0337f89b2a131302ffd2d0a870181ca5fd5fb6d4fb63;
 0x2c54287eee368d5d52dfb068282d68e6b09b76bd1b5c9333b36848ac277744f5;
 0x228a3488cabbf9f29efc0bce211a09031972b37f25ea35aca840dc2331a0cf35;
 0x16bae49f5ebb1ffe886b634d215de61ebf4f44d1cdc4f84670df8ed69310bfe2;
 0x2e269dc78f70f9103b2bced3edbd41e156e64910887b4dddf8a3eee960f601b7;
 0x1f4b85552b960d1c18b7b8f66af7305a6773d9b05faf51e0ed1a5f2ef2f95e7d;
 0xd5fb9b0e1503f2b92697c473b69cf76d38fc12912e2c3cb33996dbb0cdfaa38;
 0x11291ef514a10d6f0651e4ad0da5d4a489e3018927879da942defdbdf701ddd;
 0x120e7416d74308e24047f6828c68ae28bc288b216e8a25e8b0ebcf738480e390];
 [0x1ed9d3e9276acb7b4dae53eba148806fd9bb07b2dd06187212fab7dcbe63d72c;
 0xb981765ecae69dd7af3b10ffa424b8aeb206cc4f49257265c6753b1cc54ebcf;
 0xadaeaf28776b813d518f645c793e57bf16067fd80eb921dd5a67e895646c9c4;
 0x2018db386a3e4e57eada8d91408b155061df050140fb22f9a4f34fb4e2d02428;
 0x67c4411745db6c6aa659ec737a586a8f4a1cde0352e30aa0063794865fc1c04;
 0x193fe0e9b48010fa319c33b86b6b18f428f323fa237ca918a38faaa91ba49567;
 0x9558ecc58bee4f3c578f62489dd900840a9889096c0a62114aa2db045a1d033;
 0x23c4abfeb83192362aae21b2e9ee5cfc765bf1000f798c3ae70133556abc78bd;
 0x152604201ca7df05994e9d5f058f3b6749cea63aa0cb5b4e1c3a00b6667958e;
 0x2f65361a4aed320fcd03a45c44dda740213571f3975ce20b96bffd960cbc6e25;
 0x22122c6313fc9a4c6d0f944d3ce238272bf35147b1b788aab2b8dbceb6024c76;
 0x229aa5b547a63780d8d129e209fdb92f85662616d59da908075e668fd817822d;
 0x21a91fed8bed14914c4fd491b6fa4dcbae7b3b8b3d456303af886c328abf4699;
 0xba8a54914886fae16700c02efdf7767413a0bec5a19ed0cf0a7d8ac60c1f1c3;
 0x2e164a524ee22eb5a8903fae1f35a3a78f882f3e3a9892b6ff4753baac934949;
 0x2df2fb2c2e321e3cce13d16091705a40c5c795f8b41b61dfd6ae7d97d63578b4;
 0x6995e510fd7669374c39d27903f342ac5bf8a1464807f308bef610b76cb693e];
 [0x2ff57f3f7e95b03411db790a86647467581197124d217520ef2e6332a5b35185;
 0xe4fb044a9fcb4087e351341f25d98b1399b576e2d6654534f348219a0acdf86;
 0x2086a01b816438a2a41c59e43d73fa9aacf0c24e4f6bac229d65fba59922554a;
 0x12263b7e3f3de60899a2c22fee919972cd79dc289a87f31f1b44baf2439dc87c;
 0x19909241cac50288c0d12343e0c12cf9b9790b405ef0a9001aa6be0289063aa9;
 0x11ff091dd551b6d586203ee0cafae2f7652e923aba82574a53b632a066f4884;
 0x93d7d5563e3ccd0b5f15a9b093fe6b863aacccf9af11ffea9b295b7dd42b1f6;
 0x1669e44bf0223a77f48fffbc9f4f20b5814f6185ae11a210f8fdfcb5f71d603d;
 0x1ab6d8fe39f87bb0ee5b883eea2725caa52c575740d5ac30b058f77113d05239;
 0x235bf178b5b56262d988bfc62708b0f85d57385cde2b4dacf9e6d592deb2afe4;
 0x6649a13e65023a713aaee5387d388e3609ae9b14ba4da10642ee0b7b4a16634;
 0x29a5b1e4e2f25445496adec230ed53a35993b37630aecb5d76e56608d1b78cc6;
 0x29f07c1effc65b5589e1ca52cbe00bd65ef5e962d01200302670b6dce79eeb00;
 0x30289c9678c0330f85cf8e362683a6144f22b841aa08f586f219dd9edaef78bc;
 0x1f9dcbde7d058134a510a711d036d1f1800e473a63b33a7e0fb04dc2e09e3af;
 0x1baaf8ff96bb2224bc34cf80c38bf13086f1e429bceec12090d8a7c376a9a82;
 0x1d814b3c17656c2327f94cc02472780b886b88394f1a5cbe34dc4f44ff134fce];
 [0x15faefbf8584a38969b4a719ffe5f02c2191a8cceda0b775162203d30b80208b;
 0x303e39ca88e8da6e5c963564712df8a7f8501a7af4a990e4ccec19e5f8fc805d;
 0x2348580de49aac01ce8fcb5aa2b467f6787dd8a96ccecd6fb47df7d5a4307398;
 0x10e420edcb6da76170b24d777ce9d31612edb1593ea6d30e8cfdacfb6974f991;
 0x1d25b94bb7c49c0170ee1fb2a5824b70e4554bcc54b6c8f8cc0cc9d74f19a5e;
 0x1da3e00601ca3fc0d90b197bd2a474b46efe3aff3b2cfaf1ebe15fa1afadf2db;
 0x45dc0579ca66e7e096d4dd86b882e68af2d35d70cf5e3b1783caaa0ec424253;
 0x2d5b3f523a9668cbe4887881bf7b40184f978713e358de270d87a600e5c5c92f;
 0x1b62ba8037a83f1261544c307f019dbea1cc6a84d481ea8960b0fc670745e8ae;
 0x1794ec2b0eeb22fbd753b21fcd949e7bedb305f15a59eaf74a961c3046635f85;
 0x1ed4c95c6283b45ec0cd88f511976f063ea2beb0695b8af7cc10589593a7978c;
 0xbfce7b120068b9a30029dbdb36be01d071e8163fa1724f13c6ca89be29b729e;
 0x506a7a5de6b56ebec5e708a70a3cecb3a2cfd25e7a20ed495e295a93023c5a8;
 0x4890048fcdbde6366761cd58fcc6ac0a3360d9a64233d3ea4d8d6be8a23ec45;
 0x285b20799970b58c63ac9f4af564ce0f28209b61802214da5bfafd0cf24c6712;
 0x7b0d70ccff1b70dad9bb4b0142e3f6dc5bc95d3766affad378cc5042484dec9;
 0x3b90da34b198cbca17e34aac98b169875ecf73aeb5c6ff1f00c9fe535aa9902];
 [0x1e6eaab1191593de0d89cbb2399ab8aa955d829ad959428cd539be30b72fde9c;
 0x1b77995dbf30cc55f9d4cd4849ced949349da81239a015440fdb38b876abee5;
 0x1fb6bd6df650d27e8cac05ac0b45eef0700e308b29b4bd41eecff58027edc45c;
 0xebcb358f95f84b719c631d4045cef03ac6fc238f6834522cebd02e47411bb6f;
 0x3274e735db2faf186787528254272ee01967e6ae9d825141378b8354d843965;
 0x4ef41945559c1fb0b2116cb2be1f043bfce8dbc96feecccda47cbf68be59b5;
 0xda02f6410e24058a1e90412cd5302c57197f7b1af2a99496f9cff3ffd58808f;
 0x10c1856f282f556d7cf6d4a293621506724ba6d3c582e4c261842f2a4bdb0ec6;
 0x239abc7c9f866aec28685c26f4e046a92d4360d36cb50890f422e18ed6f8a7b2;
 0x83e1cd5943461ab505b200311bde4003fb4f7ed16aa58c8bc28f2e08e9f6922;
 0x15fe62a69b0438294395da1bfc93272d88797ceeef666ba2443f0c146f8ab7ee;
 0x20055568b33367bc12bf4aed7a0909c173588a5763c6a1a7598ba7c6c7e3c2a5;
 0xc02b148f4a1559b597cd320f00c02b96a7fc7c83811bd86a1e79cc3106b2201;
 0x1a4162e8a7704447be0c1d4d5cf2f777670f4841ea27ac2709cd6bffeed2cebd;
 0xce3dd727fdd11a8bc731500effa23763089ce3332cb730f9fe57146ee204810;
 0x11f28ee5da80d19e31581b566a439537466d9ca7fdf14b7086830bd8ac13c4cb;
 0x27fa77a0658791e6755781c367683f9c9333a41364f7870edff1935a347485d8];
 [0x2a3bb020c8a50d310ef5b5c77cc408b077fe2481454754c4568ff668fe5f0974;
 0x23643add30be204734d029cf034c958144551060c1901c420a28c9688ec36a80;
 0x3e9718237c1700d7dd213e026f307e8000b3851467fed9e6f51fa5020c2369c;
 0xc48e2f304f730d48e83dae5c78a46188500bc8040a49542eea5ef1a21b9d222;
 0xcac320362e235b458d6d364cd0fff914f3c056adbb038dc2a861a49f7f70e24;
 0x2f053fdf1a72d6ad8c9df97a04d637916f25e3425b6dc33e99ca7cac5cc7e4c7;
 0x2dfb6dd598ada57ea71a8d68e6924608f0ec7838808688ee4b3fcd521f7be6d2;
 0x22cc4349f6baa3a8e0b61fc40ab97210e4bd3b3dec7f05bb8ef839c84692afbc;
 0x2fed5a03200417664537df8fa30276b85d91bd2ed21de33d901fb4d82439857;
 0x22a67a88776982d6a15f577dcf780ac485ebaae6fdf6fbe50b95ea266a7b6059;
 0x2b079a1d09b9d4a76d4e50c45c01fb7508b1c443a8fb21ebd28533e05def8864;
 0x2df1ff86644fcc42a1932cf15d314eed407608246f14a8098725ff7be809c87e;
 0x24a466f74e99a602894f421010f43a81c708b1b4ad076425190b85347f685b1a;
 0x2e944b449c1369ce9766fa6f4f99a87630b5c1f2d63677a437a537d61b6c7470;
 0x1079746ca51d9518a0c309296ca48206292798910494277be2bb65a6b134b3a;
 0x13d7b03e8fc9fa647fca6cdca97146901df7c675a164913c2bd2a3b6ee3cb4;
 0x6d6ee531ba3fdced05e24cf9103d0962dd227f1de692c0199483e92ab24ba59];
 [0x51f815c454b6015c7ebf90c297b90e9604cd36acc6af07f99b5e51fdeb32234;
 0x1946a26ab8953f9be558105fa5179f175e76a24429dad5d532c2ceb3cfea05c9;
 0x925af35a3366801ac80a31d63f745fa807bda10560345ad572bef4cf2ce0d6;
 0xe766f03afbb7af630eaa8aff4fe60f3810f30f3f4438498efe0186333dadc0;
 0x1111ed7a66ba2ccd4bea0d43eec86ea35ab40253a1209e3637f103dcb84fc429;
 0x1daf74842c7e79104349ad399592c5c4cce16f79e1a86f50d941598772cca953;
 0x1057062b40bdcf1fe2aaef45898c871146799a92c87d0fce64302d6bc83172df;
 0x12d019e37cd1bd76fee065bb7380a9bd8331a4dbcd1c9c776792bc19045c23b6;
 0x996cae74d9627ca3c56c646095f39730274d25e82c42ce21cf789253d48a3f0;
 0x2d1188d9e7e6ac24c4b2c9dc3dfcfb0fe4782d689f31b94b1fb15ef29d11f19e;
 0xc34496a7db5abb330b2f6ce9adaef5ae6e308c8fc2c5634097ae352aa7457d4;
 0x1d4fb0f18f31c8270b4636e6b5d7a33e455b1050de1164182cfcb739cce965da;
 0x1fee18888425724970bd2897b54c7fa8e9c367dddbc8484da37864faff9f9056;
 0x22d6e787f44daa6b6593dfde5576d2fdf5dc0447e65a1d5e7712e4e62c3bdcee;
 0x23a85d4f91eda69f310c451d7d480c2f40c0d53382ddd3fcaaae627b9617170e;
 0x2440e786179a7fbcfe8d29ab18d0fc6cfa383cfb747f7a2d15b77d82d9b0d9d3;
 0x1e507921be7c76124879ffce5b62dd0e96259e98cc64c27208d62b40bfe3e482];
 [0x28b75c2ac167fdf184725317c7bbb8083e5ac5bba937bcfa6cefcb69e4048bf0;
 0x248b533f875e5ee8e751cefa4b1d0732fcd30151c3a5cc4abbbb1e93b4655d45;
 0xf8692d64a5b69a956c4e2006bfec344477fdf5f0c9aab866609842b9d75269d;
 0x1b8a7909d7e7bd4f0bcc8003968e384ac2e8b405ad05cf610364d3ecb982db7e;
 0x13e736cc70b7c828a38dd6394ece76b9ccdae2ca4f43963432502fe8c2ad19ff;
 0x2ae8da8d0b129a22f834d0d234c8917c2f877ff00dc16215498d4b748fb40df1;
 0x26e6d18aea75a94861a02333b5364ceceaa78adfbb742817218ca3af607b910e;
 0x27aa38fa051c434189df57bafd80723ee29bdccd59fbc1aa9af11891d3722e61;
 0x304dbc0936862356e0024b2a32dfa3085abedbd337f22b89062be614d83cb083;
 0x265c43c886f07d025200d56cd246b01670b3e82ab482f5879b10608cc05a37fc;
 0x4ffe27a92cb4300e774388edc3147ab9dcc4ab354c380f51ca7a2e7fe0463c4;
 0x19d6f1d110d9f873db002ff2ed828905bd6cc5d7921c238d7569daa9b2401d32;
 0x19711c41d76f64a371aba62f3f46710dee0c3aad217b7cb00bd12613b24ef52b;
 0xe08ddb69d5efd949c3d671e4e78e4fc7628c65ec1cfbc18ba6a101aa19dbf66;
 0x240657d67f92b5e4261ace434fd286206c315565378ce8b81661523f0e6ddc54;
 0x56149221712b88ec291fc218324142d02873cdd53199679fce4dfcb5dda9116;
 0x681adaea79cf457db5701931f0ee2f15ecbb159ed50cf746a15b85c6f8a5370];
 [0x23af324599683d9b71b61d093d63dcbbd97e44957333d2697fdd060c1e4b585;
 0x2e7a1c51da61dd214a1789d6f1ee2957f69d21b1f16d1f9458eb25a406500bd3;
 0x2bdfe7eb4fa803bc1dc0052a46d850ee3e091eba8a7f12579682f6f6fd5044d4;
 0x1d92e4213d840a330ecbdb08693dbf9a971bbd6229047eb88a03f334cadef227;
 0x1f2805084976b142f7c74a416ff439ff1bcd8b8e7b0570130040754a61b71912;
 0x99b0a6330926a4a1564dfe94f9a1104bb8374bb518a89de08c591c17dfaa059;
 0x565b96659025935d9c025c7ab20b1611db00b67ecc51426b342f8c7a17fed83;
 0xf0b9336db5c16d472fda3fb9ac13b13394c09ab9f484ecf6ad2060217b5896a;
 0x2a7de8f5ff476d81d393f1d274636ca956f05bd422bc9f3cc0fac0054b58cb02;
 0xf26d05e938f8317bd608eff0895d352dca712b653b1492f8c2ea96b26f9381e;
 0x28b73b335c72f0774871a2030d444e5fb954979c1c568e112fb911a46c666768;
 0x282a01e8f2ce09cbdd862f98fdaba3f9af02443edc962cb34802d04477de1e20;
 0x2770d14a220152fa7083040be9b3cd38c8ace9e207073486bcfafcad706748b1;
 0x27a573036509a8a29a90eaa34d2adaed5ed1ec6b207274f3c5ca23dad3880e57;
 0x2384a384bcc2c4a17ff7c9e3e7d131d39173c431333a9c7c1d6fd7110e25902b;
 0x162c5bbc81b44427be4e82c5e5253bd66c3054f5c5b73b28b29238487849a794;
 0x1e6196147508bf2edc872c4e897a967778b119f69fb431a7f646d2018eab4010];
 [0x5a07868a7c95f50a015879fe7cdf1eb6c317e4d489d4515208ddf40a32329ea;
 0x2065e374edb1f3cbbd2919dc04d14adb07062dd01ec1501b85522e7e0faf925e;
 0x13bdacc137bbcf51d8bc9d281931d6e71122dc6e93e7ffe8b835e3393775c3d4;
 0xd3b3fb86a44b7422429a249884c85644af1975641206e610070c02ef5a9f4cd;
 0x27aa50a0e5d5588c1486e8e7fc8dda65489fffb866756c218f87e7280cddfa64;
 0xb9aebf041146c119199757ea8ceee5abcea9ec42cdb28b921caf21e84847851;
 0x2776bde52a1259472c1cc020e719f82191dec3ab7699b7d0fd769dd3fe392997;
 0x275a6f59623354d71d38b4e200ce2e9676aab74ea8b8366fce33bdbc47d0586d;
 0x12c6f6c83a3530faced60c88f19a82fd12b7d938a79864ed20a545a52fdce11d;
 0x257689a4e22f6a8768aafe54218d31de4e409fdbf42319582536bb583313a395;
 0x195821b99af2c217404ee582e29889072ba3cd994b74955c261b5ad364e5a9c7;
 0x304b679008e8a1f09448423a05889e0df663a2b65055ca9ee5a99dfe13fb9a16;
 0x8dffe684aa33f911d35e9a644b4bdbfcd15a4da49b6531816b60e8ce4f6b5e0;
 0x72372083f62195bcc2b5afab1038198a3f0546b62d171ea21c37c8f31551176;
 0x25547b51b2c6874e4538ca9b34093b714ad36a8f356e4c78e0d66b1f190038fb;
 0x178f2aa8df9a11ef33558dcc934971f7697e626cfef00ffcdeb6f3c9c1a7d10a;
 0x68efa35bc620124ab7d88990171bae4102ad21dfddfb387df0de0c8a3a189e9];
 [0x2c5b4a65bc55ac5fbeebde53ce5fa68882faed2a92a7b3f5732832c72f7f2c30;
 0x2f36535a83a09cf09fc38a20a725477aec56668f034a364a9f4a5605fffd33cc;
 0x7d78ce0c1c87391a06a06c83d300d52524b29f183884e300e0eaddacd05f068;
 0x25c7e8faf6c48a156cb91d81a997c6673d32694a3fdd64f5e9594e9f504bad83;
 0x1f3cc6f65d9d34370825a38fd1f48f509f7c56171b9e7a624d9b0ecdf6ac4eab;
 0x55ef271e388278b1aca34d3cb00116bd6f7cb584b3c69f0de2a7afc8d98deb8;
 0xc1a324c49d15f87931821989b8c8437ea9eb46ed3aacf8895fd1cc311053e60;
 0x2ebb6730d7bafeac23fc0b457ea824eeea3c55eca634bf24b2ac2a9a21483e1;
 0x201e03f1ff672629473a24f32d2d502acdc8fdd2883014de74c98f40a195b3e4;
 0x1edc57f174e1322b627c6f9dbe27ae2703c3f11c364b38188bf41d8ca0c1709a;
 0x20a56fce37122b7400ab61a65eac815dd180f52fad2835f7fd9649063523881e;
 0x1998147edaf3a92ab179c61ac2c36af5caf3e78bcbfb684cfea15db17b835907;
 0x1cbfab7cb05e2f28254b230bfce017f005fb4f2dd8935ad11765b347d2003667;
 0x151e0bc2110e4300dd82a4c92442c4751c65b294426c8c320c69e61831958ceb;
 0xe59e1a990ec00f72edc37248349d7a5a6f7bcaef158110450f1e5985f0a5d99;
 0x24afd92f80e57788f40fbb2b79f29454dc485fbafb5a7263f462b7c84b4e500b;
 0x1b012224a4f050df841122d17c5ea4eded7c8ec2034743a432a2cee893976f29];
 [0x173f895e472c4eb16a2aff3b8e0417fb32b83eb1e3233471c76a0550505d0607;
 0x1123d3c97ff8e6b589d118bc40ca0b9ac12ae909558f2582551f7a42345b4621;
 0x984c132b29a05f2b506ca07c06fe9a6584f36bb87506d2d316a4f353cac5f1f;
 0x2d7af834c9cdf1b38c8cfed218f1ef0ce0b9908de9e7aa7a5510c4fb917a0281;
 0x1b11713791ea4cb2e17c8c5867502043d0a8cf955384c1c793c506b75fc0db29;
 0x26fbf1a351963fbbdab590dbd760ce6284273525a1b46c41f29226c65339f4b3;
 0x27e68568e9cffd07f9253ef9dbc356251dc6b2d6a903d6c7046b5e90e1bcdc9a;
 0xff215eb1e38dc67432e262df27eda7c3aa9419d5b6e299bd948e970fc35a62f;
 0x118c3efe920c9c3f907c867743d35d2ccbff7c89e9c31bb6a17c552ef92b6c01;
 0x17b39f38636d5eff5e06eff089eb56051a602bc8f4bf1bb0ad2b2cd10cf07138;
 0x235132912db2da07a4750c5ed5df2590e718404aefc48be6953432f64424042e;
 0x28a4572cb654261cf9358435923e65aff8f40393752748b76acfd2e3f5755c9;
 0x21d7269a53d3712b20543b0039aecc9466520133d299e8442000b33184a39e84;
 0x13f1acc389c4f8e752cc7e4b81c37ae2130c60df9c8b7e87dc5fb7459caf4916;
 0x66c6090936f6b054f17dea91682954332b3e32d8f20a0ae171d417316d3622f;
 0x492ae5f5ac2a5102ea96e60ac8375553687151ae44042dbf5899232c8f2100a;
 0x208d814151bcdcddfcf835a958c259a6477bfe4b3392710edf9d80787a25c5d0];
 [0x206cb038cc328526d0c3dc5af19437d83219751c5ee8f61b0e9e2f5881366be3;
 0x160b30c874d9c06704c92c266c7a5b7fd966a62a5db008f1bffdf443b1099a82;
 0x1b00faa85136b1bfc496e0ea9a6284cae525aa96612ffeeb514808955693879e;
 0x175af5e50e5685ec2dbb1cf7a2cd25d45680f6cddf68d7c0795dec98b87f6a71;
 0x104560e95c49febb7a030862edb3a33c2b2a3d414b0536b2e54e25ab36e8f281;
 0x12fd67863b2e03b6fb45224fb041ff280e936742b54c8e54d3823e090e144169;
 0x1db0e7e01722aad210e5296c36e9103e82d15765c318134d177146a1d9fd5358;
 0x247f9c7fa610322535feb0676cff549f1c177d0d39d3f1eee642e9253aafb82d;
 0xf705feba5f01cb27b27c104bc93f0c974f561fa26d5614f6a9d9e47d03bc655;
 0x306094ecfe63300b2f95bc98a0406c7898d86852330a7b69f9b04b5404b3eef3;
 0x1059db5e97f25826b0bbefd6bfaa6e9496c55ef5a88fefe9712691f6fbdf4298;
 0x15bd998c2729dbeaccc29b5d6e4f0fd96ad0a6037c84a1a1a785169fb336fb6e;
 0x21fde580a19886b13358f18a32d5aff685b4bd77d94f067f44f6e7a93350fd2a;
 0x6823a9baa55623732b02fa270b2f887fd3804a85c1a7f2a355df3fbefc69dc1;
 0x1b25662843b0986ab1a4e9a766193efca47c70d49364f03d50c5edb5b5517ebe;
 0x10dcb11f815c7e29c66be1dd3c5f7602c98e9fb1687c2d825b48789c521fbd0b;
 0x28f901fcaa860b0dc4192adef8ea4ae55af6ce432c85e0ce4d073e514ab24252];
 [0x240c57897161666f28d000b88d3353921d967420f401ce86bbee42be287a4f8;
 0x1361d27c42a7b4bd6eaeb98a339592616c0d4d8fceadfdb16468162bdfa88d46;
 0x19e1e46536704ceceac3eab991bd806e347be40a0b7956dcd7037352fdbc4347;
 0x121f4a18d7b7d9650aab625ebe8695a8079439f2ab00c090279de74726234e6e;
 0x8c45f3c4c486f6b5378c779c607b517200bb70b5533bdacef18519f625b925b;
 0x600cf26635b2d546431507589739010d1b757ceaae617bf95b8e1efa98643d;
 0xaef8a4e47d5ec760e0565ae7acdabe7e8e98972de86dd2f447aaf216ab4cc17;
 0x2ad0bd9f71e2785084aa0b84616b7dada053207c418e65f4035be66a0cdc8c12;
 0x28d327a1c2d6012d9e69e9a3b4c11ad336d3c0dcdff4c5c84ddddf911eb645f5;
 0x11afecc85590543bd2df8ab952be164670a3f32593e962d4bd493bcd3c84f84d;
 0xb050c882073a581e767223705cd9510c04c30168c50ffe0c9875a28b6938299;
 0x7cdf3309e130f9ceddd688af3885369fbacf6d8a44de4d450667c0d7641213f;
 0x5232bf95807e48ad82a1eb4bc481e9b0720e95196dfe361f55c4d1cfc7926d7;
 0x1e41936e6bc0c3ed665c2e2466ab9216b9973fe136d9f9aad95878c1b5607c6e;
 0x2647635477ee5fa9e7ac5983f92db34d7336646c63c63e2dd53d60b8714bd759;
 0xa11d587cb75d48544eec662ad27ca6acfec98f7a8b7963a294e4bb329b170df;
 0x1bd639879731823c871f9cd4714e3cc56a6eb19884b73664eed24b11929119a0];
 [0x1aaefc2e9925fcd453996fda804063fdab276b37c5f51dfdfef9255b4ec10cc0;
 0xf1e8f86860c3b5c78bc14dfb67d22c6beb8992123658842f23f75ae3a92e99;
 0x19c2540bbb1cd4e08f105437063c945cfef28ae9dd50b97e0b795f8dc5ae34e2;
 0x21f08f9b3c23f3a02518114a96929b6d1056eb4d1db147ce0c8882e1b0f7bd1b;
 0x2d2193c677bbcd56a74fc2ae50ab4f2cc69aa77ccfc33c7707452d5adac77edb;
 0xf528f5912be49455d4323b259e30ce2984d8170601eeb4bd7096b47353ab7fc;
 0x8c00c4e5b3467f01901f64f9f89c15bb0b90918d488b730cacc3296691e9200;
 0xfc3ccef00d6a64080abbed4fed90b69c5e5803134c22b42cdca0a60f03ec33c;
 0x1bce67f4dc99547f2caff1b5c6d63e3ee2565a404190664533c1c65dd9d8d532;
 0x1a8ba4f37d2315389c8560d74dac572a4447a02145516287053e6b9edefbca2d;
 0x115e60c4e2937eb53c6e4a5488f801266e84d07547a0b1cd91b18f49efef9920;
 0x152d47acb9b06c9d12c2138a31416bbbbb991a65dc4d4f8ef91a3dd728e63b6a;
 0x13602646b88ba31c0d544c757bd9181727835dbe690c30583a23f37f52fe5e3d;
 0x65766d2980331a55c0a39d83be78bd127baee77d53a24268e064c71daaf2b6a;
 0x26db2e85a9006ef5c11cd675a267d42efef9f5af90466b2aaf75eea8024b00bb;
 0x1dd6b095cb68459dcf6bdadd434aa81f80a55a08e6782c653a93afd8a65f3267;
 0x1d3ee85f078fbeecda2473efc2bedd1ba7ec6f4795faaeae3b0de48d3080c625]].
(* poseidon_bn128_constants_opt.rs:6170-6490 *)
Definition bn_P17 : list (list Z) := [[0x196b76cefdcc7f6a54c71d40114a0bb82694c936f1573ac7ac1ea3fcce1fe938;
 0x197fc9fb21309218eb702b935044146cd33407ed33291cc599340b271c399668;
 0xe8ab972df74eec491e4b8c416b4a97c3fe65a38d4e76093ebed05ff3e7d750f;
 0x17af7102238531c988dc665323d3e3348ca13eff7d006be181cfca573bd77e79;
 0x1b0b5e35d65981e836663ab49379580a659e1dda0d8c49c189b8078bcfdd3f0d;
 0x1aa303c6d0552d6fa013df27f7f4aa907d10da9cb9e0881ef2db7ec1a74abbf5;
 0xf4eea81fe11aa323228b430a2f9021e2639d66596b3821e131cd8fd5fafa0a7;
 0x1b47097a86346051d2d42d6810ee8f3fa3b992b90c009040095fe8357b6be24f;
 0x77cdf97e2049e1764e7169aa4ec11ed314badde9e84218bcff380ffebe45382;
 0xb4d6879a54ebc4b74422f70789c1b7a47694f6bc0f88624ad0141721a89f73b;
 0x14ba91f29fb5987a1d3dcab55e35edd10de3acf4199d877b5c6623b5a6ef8d9b;
 0x1fabc01bf1091b88001e832b7ecaee26e5eb867f85b8f1c083832b1db57537a0;
 0xb4d4c2920ec03187d1ff531b4cc1b879c7321315d7aeac09b53bad9439ec93;
 0x2191792ed6ddd6c3ea8ae009cfd1174fb9efc01482488c101502e34db953815f;
 0x162b05a1204ae66ca80d0a89e10426ee4d757f9b34ccf08c1aac697c55245980;
 0x251575500ce3526f4b190061361eb2576591f9ef2f0a7ff9a7005efc3c71263c;
 0x4384592e42ace8c8014f728704ad93695e50a16c5199d5815e00ce818ed8081];
 [0x1440dc2578f44694d18c25f892d98c23cfdb87a772200020e897823d4bc84d3b;
 0x2ff15351b14d1b852edfd01a8ef108ab001a10c8d66e887daf1817a315289259;
 0x2fdcdec10d3354953fa9ca8769a3799d001626bb715f19a97e772f2ba1abc421;
 0x146deec0773f075175a208469afb87199d1b063c994b98125db22e85844fb455;
 0x20f00881fb533be89b9246780df72a26ecb103c554b9b6fb17844fddccb235f7;
 0xb419e6fc9348d7c69dc15b49fa148232740635cf2e39904cb5bf7e4e1c85292;
 0xc6321d9f04dfd91a4fc850ab7d1f7fa66de38d67faac26599ac62c80784319;
 0x12784ae3aa761f38e035e7ee5f21242e28df65235da8599d80a93646dfdcbe9;
 0x1e09ddd18fdc3c46c7b2aaf6cfd942c62720cd1630b63dca72b42b4a6409c5a2;
 0x2a71a3a65e49942b825245aa127bac8dde2a6fca570c8365d3251b146dcd078c;
 0x197d178b0f91d12bfaef18f402635554efba7da59bf45f6daaf3eeba444c3bc1;
 0xcf6927b15b1b9df1656581cabd0909b7ee2f1dca0258e183b07b030b5db3320;
 0x284151191b230312298ca0d1cc6fbf122b435f7e8de25d9d1927322b0b5a84f7;
 0xcb8f5333099700c6d37c787c67bf7fa6ad5e35c32fc1a539a8df57b910257ca;
 0x15d5a61db8e06697df1da0f06916eb32d90e86ddc53d177abbc7ccc86f14188;
 0x2a9b60e4ae169f3d5fcb4bdd705d89e0a9361e239bc3417c30a42ce645e76d6b;
 0x883b0b606695b0c96a67ccf221ab0169eba895363e66ca88425ce3700c0e7d4];
 [0x23aeeb0c6499b84bfc32ae3c42df9728798fd2ef774f1518b870bc57d1385900;
 0x101e7e35808991e8cdb0627796f331b89f2646cf0263924aa6003460b351a940;
 0x2bb568a99f55bea84bbf76dbf0f54d5f1331ffa1f62d686f3709a56662e51931;
 0xceed1b75b2f6ef1438b751e8ad4dea24f1a20f1d9a23589772db49baf9932f5;
 0x2af501312e1b653155ec7f8e0e59649b2d078f5ce5121be83fa716e1b5dab2be;
 0x152fdbabfe1a0ded6e2ba5497e140ecd1dbc9fa8df6705237fc8c764317ac751;
 0xdf66c437cbccd268bdc448cbb706f4b179ba223b6bb87a921094257baf2b69d;
 0x15e5521c580b9faa337d9ba06514ac965c373a2e604305b8efb0aad802e72a21;
 0x9a09a903ce4f69ab99dd47c16087feca6fc2126ebc4cfd8def7a0253303f866;
 0x2bb52dc2028e9887b2a82271ac46f7800dd147e706370ee5edb35b9550cf71b2;
 0x9bf3d01f97e22646505f76fdd396b026bc8bcba0e0522ed2ba3079d301fdd88;
 0x26b72c368b0bd0103cb7dcca08e68b4446ee788ef6114f6ba899202f1f19b5b1;
 0x2bcbae8d5471d562e885b4b185b56ae0fe11ca5bf5461a1e0a41205568525f43;
 0x805d6862cafcf5030ab30262a01f2c65b2b7312ac9279baed50c177516bd0dd;
 0x2b8b1aa994b54ee5617766dc812d15d3cabf187d8db4ab8da85130f73f01e746;
 0x1fed5b75b01e9f4af01ebd30a6f355e8b2cd88f19e49892a19403a895fcf284d;
 0x17ee0034bef77cbb115fdd75be9880008af568ed633eb7b2abdf8361c4357500];
 [0x1ed9d3e9276acb7b4dae53eba148806fd9bb07b2dd06187212fab7dcbe63d72c;
 0x2c05638ae2f83e73ac9b1bac220509e30ff5757342ccad17261a4c30e3bc634b;
 0xf1fa08e424e4691c66bf0a524b81e886da234ba5bbf78cc168c8a13353c9654;
 0x1ee32a96f8d3e8fde8ffba0fcd72859847861b8143052e212bb56b103f6f742d;
 0x20192d8adf841e5dc110994238180267954de29c8953738ae196447acb182a7a;
 0x2419a609a380157d9f6c6e64ae2cfb6e4b39e0d6ec0661b546c1552a620f19c8;
 0x3ce58f147c681728f2a2af586144d470e2231e80161f97200b7aa6d624b8bf9;
 0x12aba963e415f9bbc95c5f1ca8affd59b6c6b03fcccdccb417a9d89a4eebfb32;
 0x167f26eedae299f0e56157c8c7fdda1ecb48f90e553ecdbd4ef35b92ef9f39f9;
 0x486a139560dd70e9054321196ddb973e7db09350cdacde3c1c7817fd2b8a46d;
 0x1e4a632c34dad41873c541c5caeda02bf58f2127994bca0b0780bceae409256d;
 0xa471e606e256e387d5e44d8de55dcdd833b364baf00a694b52e3c10f21f814c;
 0xc52f1224066c212a3667bb2beeda181ea00294c5aab9348e5a71d696c8fcd20;
 0x1b2e51bf0afc16188b7ec633248eacbdc550f592c742edc91b204d49dfac42a1;
 0x25da91e9be50e3762edb77a90706df802461c374a7b90fb2ac018930f3b23518;
 0x29db9bd9f3940384f177d7634721451ddd0c6a868fd047161c2358e9c305ad24;
 0x7062de34f5c74ad5822948fb7c476255fd03a13d9d8781262712946db22156];
 [0x2ff57f3f7e95b03411db790a86647467581197124d217520ef2e6332a5b35185;
 0x27ca7b8c33207e75a42cba1237e0c568d3b31f475424d23a9fd0ba6ef188df9c;
 0x1b6aeec49e5936a23d2182de5ca78ca56d4ffe8589d3e77d07a34692a7c5b44c;
 0x5e94c1b81bbe16e77c7fd2db254949046cb85834c34e0d8986bff72ed22f6f0;
 0x24a01b8801b2865c3a3d20b6f31df95350f5caa9ea158b3ac240ceb81c8f6cda;
 0x18c647eabc6fb45dec61bdf9007f83863fb6b7827b23437e10e49baf8e835ca5;
 0x523cbdc5787c220da27bcd517d57bf3b31cff9e4e2e97299d44d9f838d96465;
 0x1799989ebc4fbcb84e487b4e42f0e4500c309c2d90e740d03f8f9bceda208616;
 0x254d90f21c923e30fcb471688f64a6115f0f4340b744c5d732a077f5fd6b46aa;
 0x10d8f1c90a94db10a7b730d8c21c69e793cc985e1ef2c62b8815e65c5fa91962;
 0x1032ccd20d4ed4502df7faae0b2d9bf2c5368304a24611597d7651733053ce46;
 0x39bed2152c1cc38fd8a0addd226c2b5d53097f83d826f7e9b9a3556a32c8001;
 0x261d68c368aeeefc167d6b3e2d22be484231b5b800b51394133c7baeef2f879a;
 0x28893305254197bef603078e333db361dec1a7775813bd95d39e386729cc665;
 0x2f570c80d99ea49bbd76c199e961db6bf59ba6e0a47683923716f9e10e913221;
 0x2318f3a1f9ef5c6326960014e622db56d8adfc885e3d0bc2d06e86ec07b156c4;
 0x7946f795fb6251bbe041138607f0ee6e1243dca71d592cad53f634dffd91ccf];
 [0x15faefbf8584a38969b4a719ffe5f02c2191a8cceda0b775162203d30b80208b;
 0x1dd8c52fbcd6e06ceddbc122ffcc656e4c28ae2e88b94da79f3a276bf5fe2acf;
 0x2915408b3b7c2cf127999ef3a84a0a5c2de70e75bcb06ebac67c73ad36cd7153;
 0x2e655f7e6277f2147665a414632eb3a418acd90f6a29748e4249f6713d54007e;
 0xe0dedcb898406ec36e1ad2e3992b99c8b457ccaba2105b4436ba840e89bf0d0;
 0x270a85dcfc9c8f202cdca355246fd989551495ec57f8b6533342e3af8a1e6d85;
 0x494b4c62731baf8f3338f2cc0dd934f82606e768f563a755cc501504a50a9c6;
 0x17061fdaa032097e06c003d9d719d29df4c30109d6fb86def324435e8176bbe;
 0xf9e56a5af5386c4884ca7d0e7792a22d3b96a801f3e8e79a6ac6578c1ee0a75;
 0x24a746819bb8574eed44e23319cefdd09c0e8c2dd1ce6924a63ffae59eb1a905;
 0x703bfec7b532b9135f72a794d9e3a3c6ff665c08d590677026a06cda66055e9;
 0x21bf1e826a3e2141ad2cd0c6b286146b530927f0ddca59fa78d06a36564b7a3f;
 0x2f678070c83d71945038501c74ba5968b131939a6af6edb297de5f345e6692e5;
 0x1c30abb88b3fb7fff8e97da6107209d608fbd9f2db97e61d74dff19d3e36f3bd;
 0x2a14fabf9e37f4497914de5868daa628ef3347a611f675d94ef67fc317e28328;
 0x9ea8d820c4e6ee47a4fcbfba19cd94e915de9dda25afd1399c921b1b7666854;
 0x106d7b2ded46945b3901ef651245d519ae93b8d2eea8160970ed07fcb6f58015];
 [0x1e6eaab1191593de0d89cbb2399ab8aa955d829ad959428cd539be30b72fde9c;
 0x12f17c280efa40df0fafdb7148d7ae86b6401f823e47854b7f11c0a87ff00bf5;
 0x2fd97c7d4e331e328d3eda047a68a64f7cac867b6bd3795e2932f350644374a4;
 0x2c1c8f60b63e8cbba016d475ba0483d001c70653c1ebc256c51e18975371cf08;
 0xfb2d646b505c61dc54f56fe9de66641c6797e59e860528aeb52867aabafc2fe;
 0x1a44835e3e9620a13fdc072c1212e942ee95e683d6c07ef097527bc10616c622;
 0x192e49c626530d5965c53dc6e4209856d71226aa5021b9eaaa1784044c8baaab;
 0x80fa9dddf985137bcfe965068449cb6eb36b1ddb1706d8632864e954f5ac59;
 0xff1355d96389f7c74b274950b3f70a3d74bbfe992860c7ba6d9066e59260c30;
 0x237f4f3d794bd3a23cc52c74e0ee10dca1d4edd90a3a519af54944ac91deacc5;
 0x1c94985507159d367f2aa5a1a04857bd44d205ef8439b844386b025976646bd2;
 0x286fb15e9ab4224c0319add3a16b8c82dc71931fe3be2f4b3ff0289a5319c4ac;
 0x236262438ed3acbbf4bd56c39d12be65fdc0126562bcd5468a49da6ba33fc9aa;
 0xf695879295d610d1edb0da7c3fa43c3633e2d02d2e6af6799a2da41e41c3687;
 0x22949d27c373e4447e9814d6f189d064b3b092b4480f8d21c8c12342a956cda6;
 0xbe0a5f05b6f2deb2fb6bf836805d52d9ad224e8bb8af6e0ffb194a49ce026f3;
 0x3070888a62ededfae0d72f144b8ab370f8a54c52597db33d98c24edf1daba0d];
 [0x2a3bb020c8a50d310ef5b5c77cc408b077fe2481454754c4568ff668fe5f0974;
 0x1399820ddf4829a24bfacbe47f56b793117f599efdfcf9e042bd5780fabc29c4;
 0x2303c2e89a14828a19a9f75d97f17fe08b6282fbc090e6dd69a4d780032624b6;
 0x1f7a5f8fd30b1f9d7f5855c084e8995367889a1a076da17859cdbbfc8301afc9;
 0x14f79e9e9c5998e8cbf5a2f1de18ca7707f5627b5637dcd962725f8ea1804d3c;
 0x10199cfd4b1cca1f0cadacfcb429b44bcf83e13ccc098d908163aeaa1cf5a9a;
 0x34459376fe4246c7ca6f298180c2150367ec05ede0dafdc4806d34e44c180fc;
 0x2933eb342796a75af7e1dc15c04904b5f68bb56ac0478a85233a588509edae0e;
 0xed494f6fb5598ab0a0a7c655890ddf4a7c0684f24522d2af98dbeb0204791e3;
 0x228e31df905565ece7246c261aa5b700f60f6ddd5d7c249264748ab3e521a20d;
 0xd36f7669a52260da523b388c608dc283f107e9578e0bcbe1e3d4201b6d5bfc;
 0x2ee63ea38cc2cee0e08789581cb31eee9b112dd61e4032a8beebedceb6aaafe3;
 0x2be13746d4b19b770fe382bc7e7a56e805c1ade0c9236e3e28f90a5fa874296e;
 0x916249fbbb750e41ce6f9475e6cf6337ca4ace63f7a4a377c14fda9c7b205ad;
 0x17855df635fe8e7fc7919412106e9852ecc57aa0b759b490cfc4773078016f53;
 0xebb48f5378773ec048ac3eb5c84d44cb2585583ce45ff30a93721d70f289d0c;
 0x33106bbde7d027db2f728b2563a62d3d6f8a02ae114bfb8a2593c6a2fc15524];
 [0x51f815c454b6015c7ebf90c297b90e9604cd36acc6af07f99b5e51fdeb32234;
 0xa44004794fbddceeac78010d88b2146984c75553cec26164754d72598358b37;
 0x22423aac5a0b511923d747148e091d1945c252a77e51bcc62ee173c5483f80ab;
 0x1e14c0a17f23e94ac435bb7f629c6c0ab66fca8c4db085fc56be0ad9da545827;
 0x1958d6547accfb884d50229a4fd5b234a377f5c671fb865170d0a393680ba3de;
 0x14bcc6d4b8326e66b453691e5c948a80a618b4f7ecdc3a380478d43dd4075ab8;
 0x193025256b9871e2afebc966ed68f38d2f906a4870652805e4246353f567c5bb;
 0x1e4200bffb9ca4e47bb270a09e8fd994093dbd4805c4cc15185ced28ff872e10;
 0x1d1fa5a83742eb9bb853197f56a4732625b2474e7aadb9311dfbdc0f41ac61be;
 0x2d650daa87c7e1c09b53b10595bab1e14c32a67142092876c57b4ba68efafd51;
 0x33319bd5b5247a3cb7f63dae46dbd8136f3f3a9b4aa0a232309070d718f7d47;
 0x26e56b19e55c9bb5df436c13eb6deffab5059804552442370be53a951b0a9e22;
 0x1a0f0930bbea65ad095174ed8aaeaa84628d35471bdad37bdd624d2eedb6bf14;
 0x297921088a94bfeeea233c91483a21bc59982034e0c8738c6526cd44f9a11306;
 0x1082b0f264c61f37b71fad404cbc0207f809cf8002a7e39c0290d88a48120356;
 0x25cc52901aebcb35f9ce47457bbc4507bba219c88a5bd1229f6dc46c503c769e;
 0x2ae1b5b3e89117e08bb7385e0b711de334e8fdcbb50ea4bb3718d5e1a0bc8075];
 [0x28b75c2ac167fdf184725317c7bbb8083e5ac5bba937bcfa6cefcb69e4048bf0;
 0x4eb2ffac1de16288f52a4b74101cb73d53addd56bbed326bec180ed2363c224;
 0x2bd52a360f3328d5c98a6b2de15df151e997cc92c2c72e542819e317c0ee1d2c;
 0xff14782906fd866584bb5e93cd18678c22e320ddc66d6fe0e917e18de1094f7;
 0xa4a053ffb41f84af21407c6151dc5496a9651a519e317664ecdedb017e3c50a;
 0x19dfcf535e723327add95d36e7276afb472408699d7212f34abe32f808b4d292;
 0x155dd9ca7898b0559b3e407149e6dd64bed6f9811d59b1ceca7486a110ec99aa;
 0x2d9c5bcd84c97759e28dbfdbe9fce6b3c1cc7cbc9a2e35f2ce8a8bdc80a3154b;
 0x1ff3d01d32a70fa0911119ebbcb4bcfc1b4fc30b2ec2298832f5da4dce3d7a4e;
 0x44ce295745ded1737be0bf68729d669efc18e7e9b55e6ef65f895e2f9e95056;
 0x117377429e138736228d8762c8c6567a936980b7c043882adad3951b9986859a;
 0x39c17d50605261dabc76676120b2b889ae504138ba722976d8dc822bd1af974;
 0x2a6f067cfc9dc40850f552ab42d6c096da045f8039453d7a9e028c39f2f1377c;
 0x1d7e961151f8a1d1f6092f102a7c911194618a3bae9ef78de349a99ee05ef476;
 0x20431e5d3bcff4bd90372a1eb637c04536317a81b02b48b5a3ae45a4e8380527;
 0x116b0dcbc35fae766914fc09cfc359051f626100151eeb2a762d7a0738132a30;
 0xab340604e81eb37a5dcbf1e7d5ffde8f2221d60b382d43cf75a0f1360ea5c72];
 [0x23af324599683d9b71b61d093d63dcbbd97e44957333d2697fdd060c1e4b585;
 0xb11660056e02d7f845b79d49bfbb685555febb54eaa503d987ca5299521d16d;
 0x1f209382e3fcb44eb1b1c03dc2be195b3f92faa9c1ae1a0b57c4df69e7a53d51;
 0x22e25afcf23ec18a36471d593ebc8d93372315cd666db66bf398f7730285f9ae;
 0x18eaff4c9d5d00d3483d7b0c74551a4487c452cf672e6a74ca397be38f5d793f;
 0x1ebb9f7b5f7f0c553b03552d104693515ccc17529c6c1a462c0c24473630f678;
 0x1212ba1ac3bfe0c08096c503be351bbaea92aa3d3f6c264b73c7ceda7f8bd721;
 0x2f0256f9b47269790f3f2b46a7ef2536d8661dae60d50a61bab58346e83885c0;
 0x1b6a8442e48b709797a514e36c1f86b13a413eb1f7fef458887833ef4b482124;
 0xc96e617f36391cc516eb3631eb8a18d4dd10d17135bd93f450ef6ae2a945117;
 0xed9dc15c9f4a60f8150e367ba71a4a37a9cb50c9031194f55850a1e5e325911;
 0x2b8b201e13900e638685cdb4d07c110a8f8e8d500cee83566aa733621cc20235;
 0x23bf4e044f678ba1fef62ce070897d6373914ee936f92a2f4d5e09890e238e34;
 0x22c93d459ac5db54f2b6a4f267b5f049b976a93d006b88a98a5fc0ea39f53a72;
 0x1a54b0b47d98fe83acc4dfaf83b8bf7d972684923d5c7dcea9894b6a07d934ab;
 0x22ccb3842b2d75a33b65465a5dcece6870afabb3e3401faeb6504de406348a23;
 0x1e9abeacdd2ff75cca093b6d8826a46d8d2c05e30d1d3995da76a4a8ca9d2824];
 [0x5a07868a7c95f50a015879fe7cdf1eb6c317e4d489d4515208ddf40a32329ea;
 0x28c53ca5db5ceccab548d154ea6071e47ca73b6cd4fda7e423403cb684d3070e;
 0x651a487e9ef91d9c4fd75178dc57aa1f76edf56c4c5c2ba6ea7c6d919e91440;
 0x16d216f97bdea9f8b01025cb47acd5d03e8469dc6b558a235a23d2ba8773c71e;
 0x2c8a5c7f394b071d0f329d51e451c8738f896a2b8f87c6eb3eaaec71ce1cf71c;
 0x132175ccda95488f348ba37b6c3641dfbca9e4247ec43977e279f844330cb694;
 0x28eba78439ba284229de2b1c6124fdde36323fc82805988501337a3b48aea040;
 0x140f550b1cfe4079f7c44efcca6515f70a9ea190d2cb4a2cf116719737b15621;
 0x1fa08142c4cf49ceb13532ff6f1c453f9ac4035d8ec5514f4f3b52c3dea9bb0e;
 0x592cf45e5a2dd382f1c6ecb059c99232e2b52bac5475c10b6669698cae88827;
 0x2897ccf4f75df225ab5b1c79de477945b24f2ea127c5cbb37954370505957a31;
 0x288ec4309c81a0d2ecf16c037706ea4d526d717285ae02da008d14cb8ea23ec2;
 0x12bd882b0d8af801ae2579a884b11f80f1ba15f48741f61609466bf04f68cefb;
 0x2bbaca431e1d464281a1e6f483cb4e9b2002d0a0ba1fa70b60c1bececddb1e79;
 0x173087cac123e07a0324ea3c2231cca859d7e4d112c8e2f4dc9249551c941007;
 0xbabc1aa6aa0d7b234fe81651f7b6d616607fa766534d5baee6f63bf02995fed;
 0x233f5274aab1d107af4bf7f2b7f4d57d8ee0936005a3525549cbfc75697ca640];
 [0x2c5b4a65bc55ac5fbeebde53ce5fa68882faed2a92a7b3f5732832c72f7f2c30;
 0x17d5e7e1862b3708cba3d41c556b070da60b73fc3ef198227f2dad5b202d5c9a;
 0x1d7ef8564a9ac7dce945477d529ace63481ace463a86cbdc1140645ed57d0b3b;
 0x1edca4960596d41548199aee6040d39d814e4562492a070730982f9755615117;
 0x258655ae996ae6e4deba6fecf1190c2afbfc1dbe82454558a18bdc9819442f05;
 0x279a42b218cc556132ecaf5666c04e89984f5ffba4225281d3261a48bec6eab9;
 0x24605ce4aaa33a0bbc08d586cafd70bcf4c635bedcf98afc3fb0dd32909e8ff;
 0x292481a792f2dd4979b04822d73eec02e90c1e4ea42ca5414989ba04c31529c0;
 0x19f8effcd417b79016b57398a7bab72f946e75d8628f569f327df5c6832907a1;
 0x279c71db7cc16b9c726b934545c2fdb75d956d16f89210aedfd7dbb4f1d9ecfe;
 0x16f4afc47a61df3374a702f2800a3a39fb4450a9f92e11e240cc6d76c252de41;
 0x1ba7d8b083eb0e83cf9178efe8514e612a5d3905cb9e4279b1c09ae53e8cf23a;
 0xa1e2e12a51722b6e0acb9705c443d148b1334dd897185eedd4c4e87170e42c3;
 0x1d6b7bb51eb9ba719799096e5e0c1aaa594456cbf08b2bf9a479279f7524d3f;
 0x1129fb969355253e7cb31fa942978db34b7ccd3bc0d0cd02ba6a49e159d1cc7;
 0x23e3f31479550cb197235af10741c376d326f85881d1f1076882c928212f8b9a;
 0x1ac5a27a1a2ea0d7035f74d3a9b54b671e58711d79c87b56d32e40983b62c8d5];
 [0x173f895e472c4eb16a2aff3b8e0417fb32b83eb1e3233471c76a0550505d0607;
 0x500a676c5cd159e6351ef8d2b567646fb4d4c61d3c0b828ec201d4f425991ce;
 0x1aba42213aa1f15e7550ca941d9bc485e195ac204c5036afee992a967fadc501;
 0x20ebc05e620d2c7c362f8d7916ed7e3e12802cdf41c87b06790c40f5efdf724c;
 0x191531c0fa2c547a1eb51cb026e79cd663abf458a2e8630e83c1f11876aeccea;
 0x1ff17bff476047fd9a466842c8fbd711c1b3c1841e109c687ba4620ebc49969;
 0x17d7ef1f4f75295cfe214dce7fc21dfff13ff8a3c7bb86224c8a79566037179b;
 0xbc4494e3d58cd6841d0aab064400e6ae8594c35f7e9672c55f283869e0f3f93;
 0x174a4219c4aadec5921ae738b7cb40a3219ef5dec8db3bdfef39b373b224d38c;
 0xe989d36297ae2397d85b8025bb304fe42bfb8bf93108996d2ba13968bba9874;
 0x1ad84e6a15633eba89050cc15d94e459a6c2d42825986f9c5803c66f08976329;
 0x6f0eee01ada409058a818ba8369498fba956e713a7e9372b4220ef15f954a99;
 0x74a08a71a7e34b1031b63978e329bd0e12ae631100f24fcecb5a60bef5c3ddc;
 0x2185e4a0d25570c435162266b565c1db0f23ce4e61b85b8b8a1872517754b632;
 0x2bcd8e3cf988891e58bf8b8d3a259ce52f86de01bb8e6c4d49dc903f4b3ecc07;
 0x2027fe75d87804599fb66c0d65b287c4e0582a4e8d84bbbc85c6422cfb5eeb9;
 0x1e2dbde2355a4d9c61ac0c0db87447c67e08550ac91bf04d96790142d88cdd00];
 [0x206cb038cc328526d0c3dc5af19437d83219751c5ee8f61b0e9e2f5881366be3;
 0x255fbd250e6628c5eb540c311936b282c52204f56fe81ef75c398d9f0adebe12;
 0xe14d98de84653e22efab29261c9a36c207fc9f5650ec1a5bdce6ae992239e84;
 0x1342f46c9e240aa8eb2f1dd6c61d0bc79fa6cdc3dd8fa67d79729b02343b6df7;
 0xe41cdc0db95ad5d67946f0ff028aad8c3a3c88acf10519e736f9265ce19a2da;
 0x1cc6d37794a5bf901341db685e790cd7f7427b669069e4d320efae1d55bd7157;
 0x117c39e46a1ae3c90b26b0df85078ebdcb66362515c74d51cdb192f789c9cfc0;
 0x2b4c77d18677eb99a966913f7ba7b478ccda159d0f61a58702e80f4952b37077;
 0x250d35fabe31fb7fd1719ae0c13cafb64e706932fecfe47e475034289443f240;
 0x2c712075e8848b2d26f7c8c6f7accba81a49800ed3515221f03d845407b1e1da;
 0x1d04d22563bde8bff1b425e9bf113cfe2fd15dca666b9130e56511462e971465;
 0x135cce03597dd23591aa6fb38b2e70ca41ef91ca05997adbc11354cd831d57f1;
 0x24716ad2942c2268df507e25be255e45c00d5dba96093df6c63c8a4df733f0e;
 0x11cdeee1ba873dc61888aff7be54fe50e03e3a4a5ea0f32c6acae7d15d9f7979;
 0x1ae588627ea2e0c046ed4f6c208f29803a25c9b2c0c385be294b9c25a3287e47;
 0x8e0df227ca5a17a9081c60caedb5435a8aff99371a70219715b05800ef811d4;
 0xa1cb35782612c7998afa40dc467fd39c882e6b3dabab079e63c330bbc8e5f1c];
 [0x240c57897161666f28d000b88d3353921d967420f401ce86bbee42be287a4f8;
 0x7c9f836c94eef4e831b3126c06a9b4ba19c11c7e886f65c0d6267e07882dc57;
 0x156f5afd193a11d87249f3422912980daacb8fed225c60a5bdde7c4d93d5a019;
 0x203a73837d577d910d3bce1b15fef96c1bb522d4f02cc4032becb907810bc85f;
 0x217ac1a2f28cb7bd2509d90ee4c03aab4094e3fef4741cf4015e1e823f71c0e;
 0xc2e41be00d98a8dff8b30f5dfbce2708412e200682bd596b2162700a67274de;
 0x1fd5670b294ced78188cfd816a41358ca32bbe8e024a2a200fe11d060f8c5e1a;
 0x2884fd57b70a2305bf5b94c325b01d03f3cc2e8901014e0be3dabb984514863e;
 0x23e772e0725ef73aa18f59f934dc11bdbf5fae9cc67fa18a2319ea13a69b9c4e;
 0x122366ae0642411af291571a8904f0b6c6fb11d1ce750b3316ac35f310e5dcef;
 0x1d0b0c33d83a40412cdaf42cb7ee8e5042d9a73eb17a0d5867a3191aeaea61d7;
 0x8eefbab2c1c522367f543c33400cf254fe07711f94e9036a7558565e7305c0d;
 0x209ed5faeeef4d1d01bf753704574d34febc7afd299a04430bc0f8f0baafedc4;
 0x1cb753a0f4efe61b05e95e099e4b556770b364873d99e1f77e38a53e9c262673;
 0x2a32d7716eba1cf93c98e9bbf805b0e4d27cd7e3f26c560beb2aea41c1782d8a;
 0x2936d36a869b8b2318109412bef3c1a0407a8e0b98b4959ee0b624c116040494;
 0x281ad4ade7262394bc55b71a8aeb4135af3b0c2433070cb0ebd9ec8e20dc7280];
 [0x1aaefc2e9925fcd453996fda804063fdab276b37c5f51dfdfef9255b4ec10cc0;
 0x2eae17dc561c37084e990fd1bc5057d96e7367c4b801d27f6a6ad8e0d0c0875c;
 0x247ee52031ac073a81f56a957908c200477513fcb9853942a62b06fb6eea3bc4;
 0x275602e8ac1136b245f551cb053d7eaad7dff488df3f645907a5cb151c553523;
 0x6143a7c97a91838b0ad68065370bc9503d3e0c8d11f2a840b2c32c3fe2e79b4;
 0x1f3aed03d37f7b14629aa2e5f086bdfbac862325988c4da943f88f4313647df1;
 0x18fc0aca1d4a45978f6e3fbc4a35a2579a4c12eb6ea700f79ba56727bab87117;
 0x97c4f0ca6dfc073c84e97fd4b2c341ec3c45b6f716700cfd7647e423f5e634e;
 0xde5765593280a32bbb1630216e58d1d669ba575b7d276a2432d9c6ee302a5d;
 0x7475c2b72238b87b0d8cdc92890f037dad0bd67a3c741e5672bc8677a35c206;
 0x244e984c6f2f2133efa9d5dbbc1c60463d26f7748650658395201b367a39f554;
 0x27a55f5103ad08547128724e6c20a4ae7af36be03567e4efdeca9880214d42a9;
 0x14b2c9ae1ec7a0c1593ef29e782b063ed48e580ddc3255c0a1f081e69b634448;
 0xeaf70eb10be27fbcdcfa7ce5e1b289b66fe68a3114038522d61b435f17ef209;
 0xbf40bc87a391c052a56e43aadd307df751dbc47ef7c6c5af3e7bc4ce0dc942e;
 0x3afb962f8ea2cd1affb52a50cf59cd5b1f08f087537859e8a73524c3c7758e2;
 0x240011c27da581b7e91efefbe8f37abfa3c6e456ac5a6da05d4af4884287bea3]].
(* poseidon_bn128_constants_opt.rs:22566-24809 *)
Definition bn_S17 : list Z := [0x196b76cefdcc7f6a54c71d40114a0bb82694c936f1573ac7ac1ea3fcce1fe938;
 0x2cbd265ce3e5beccb09bb3189ca08832cd4fe102f39f9ee2bfe851a8038ce383;
 0x1e0217f13e7f212053e2de966a7ad7fbde6a7d47335bb58b2b148ac4ad7b8cc0;
 0xf885c4008d2a4c2992b3337f1c0eb3b21bc5569e7eb6aede116420d33f981e5;
 0x2e9c594b2023ee628c88f7a8cd002e06fddca13a014922ea4fd489d7f00d0cc8;
 0x217afd05c2e55b85675cb39f0aa486a11691557ca9ee1b7ee42f06952bdae058;
 0x1f8f067c1602f54ba576795e16bc269cc4f34416fa619920126eb16da9878c5;
 0x25f3633c988971494c6c37a0de4b737a88cd5be9c14dfc66ffcc4c5200c3d6fc;
 0x18cdc8b1d7543efccdebadd46b6e9096117758a3e2c638bdab7767e74f88747c;
 0x1cd8be04f1ac72a0b7daaef83a36e688046a41b7d4ba83aa5ef3a3a4de8e58a5;
 0x1a31f69bd76c670a3183335cf97746f6676698514467df13194007eaf8ed8b8c;
 0x2ab2c3d35698ec035746c4131c8d4cdae3be77eac56e708b6fb6a9832afb3869;
 0x2217b8cac3e14934002e24683cb6fb96da2b282d12447fb97789670e716b3bb9;
 0x26d8ecc33cf52610b26d55145f298e5a387c1b4587d44bc89afd2ca81a21cb70;
 0x19b5fef4d9456e93fe0799c1b568e2f6deaf43067e119ee89cce7b1b0074e8a7;
 0x2f0ee317d5a1d6c6d6c8b01f100eaf5389bffe269131af9eff36f71b3cb7f4ba;
 0x1009a43a6a00db52b2d0e325312220738c996b79414b70b2d04f61bf8475759b;
 0x2881d241ad316ea5b04bb05c86484922c0b6c6f01173a1e84af83d8b69bd23d2;
 0xa3aa81c611a57f509b1f971352d680f75a03361e74a5c12594987287972c39b;
 0xbf1eb01ab9b46638fe9d0a135105ed65848bdd9929b93d37369240a6e5ac276;
 0x1666fad124b64cb1b1fbcc06ee6180e2d3d98bdff534ea0d4fffad2413b15925;
 0x13006947e1defbcba51ece18add637d08c38b973232ecc68b6b2f7fcc0e40f7e;
 0x20cef2fdcdcbf581527d5fdd9442d7d80e8c122c60aba74a349e318119a9b077;
 0x29308abcbb8c3d71812419611e6e3f30b64b8b3670579e5f7e6084c57f8180dc;
 0x20a651bd8eff8989f70625f7e1db0da19b408d63385e63f8b1f066d0c3912e0e;
 0x2fe8775003759af3f41c2f923f0b683c27cf89bfa609ec6fc26714b8fd7c5ea7;
 0x226d37fdd9023563a4d6e2a3bbcd23137d949f36b2d9b1b8dbafbc644ff2371d;
 0x2f11eaf353125b5b7110a75fde384c14365c2e2cbb1140f8b520204118ce6897;
 0x7cba6d14f09fa2eeec2242ee401fe0fa089c28bc77f02f0aa90a564c10b4e29;
 0x757d39b861897f4ca863713452abb9e6c14f8736417fce8359c5b4dac5be0b2;
 0x58992f42ff62ae08b3daca79a5ac83d258272802dc6556aa757b390ab22d6cc;
 0x1fa470cc67647213df51fc636fce6b6e69de3a665044696f6bda9316fadb5a1f;
 0x11049230da628e01b2a11af1b214327c58092bde0d949e8c08a0c929b39a13c8;
 0x196b76cefdcc7f6a54c71d40114a0bb82694c936f1573ac7ac1ea3fcce1fe938;
 0x29e2fa62bb11282bff23cddfbd44a2d9fca9bb0ca099f34c63153d32257e8f76;
 0x2ec58445b13f4e1b14d47aaa8d3c01489e81838dcf6a8fb2e79ae1c420dbac0a;
 0x2a26d88da92db338a1de3d64aa9f78389c45cad24daeea74fca5c5721cf0b079;
 0x25240495a831b1128568257ef0c438a227576328351ef52cc3f6a361ad097666;
 0x10356b86c6b5b46fd0913fe632fef7bcb9507005df6fe46be9089f96008fceb1;
 0x23967538833c9bf2f3a2387251089e68c81a47051f8c3154b5863fe78a6ff6f6;
 0x3dcf91d2608f94783343c6c1c9cd24847ab2cd6778f568418527be40ac23e89;
 0x1185195857959b965104d24285d2f83365412ce31a6abcfc936d74af9fb8fa13;
 0x14ef1e17d68e5cbcc3a90ead42b8c438fb56b5fbb950d8883c2d1660fb2d1ded;
 0x1175100c6ed2ddf68ba552b4f40c27047fe02cdd2b533a3b9975454399294205;
 0x230160f538e3585cff4bd3cf7b4fe333d2b2a35738fb135ae6dadc075f92ada5;
 0x88c4e4fc1b21270a933a937f739bbc7b6e7eb3e316ca1b3ebe5727e381742eb;
 0xe3e345debdf5cfbd7bb9a4cb5d36d89c20713e43323d4341795448aabbd76a3;
 0x1a4ed87c8037af1d025638bde6b974caa276671abbaf0210cc7e9db2fdc9a345;
 0x11ed48467664df00548f3cfc70eed4039f6a59e826e73dc4b95990c03a313829;
 0x18ed0bcc41aa34c5556a7ebdf27ccf1a50f32561793053215a03d931c4f72eb0;
 0x2e73e5ff39e58205a16e013ccd0dd935bebf06505cdcd650935840062e8b1f8a;
 0xf66bc73e8a87b0b028720dc420534528d2fe5609bcb3d600507a6c19d20cd59;
 0xbc095405abc012247bc4a7277cf59e25e39834bd5839542cab959ad534a23f1;
 0x1fc384fdb89e274dad330eef9dc51855c11fdadb0b9b052fa220eb3e38d61254;
 0x2805a26d24644536da5f7e9f5071443189a5f102b92613098a8c23dbe887cee0;
 0x2a2eab082079c60e24bb5dbe3549bf6390708e8ccd034a2a94a71aa9c414cfa1;
 0x5aa87bc4fe90cd48a59fcfa82226cf759ce8f60f8c208cf9632a28ff7b680ed;
 0x2038aefd81a73ef09b7d0fd466d2b3c8aed99ad9ce559eb2aa80d7e06996909f;
 0xfaf97c7bbde99e8853c67af9e2187b8ee3708e48da3446b3eac3b3252a057d4;
 0x5dd570bb1e0feb5e6f13b9dbeae629f6f3ad06a365d9ebcbd2c120c6f76deea;
 0x124548796b8905caf386a61bc868d1467251cb29948ff1f3ae4847c724ab97dd;
 0xdf9dc278a65d06f8c477dcb8b562c262dcb7f9ca4d875070b36e9c2e7fcf277;
 0x725e0e87db61e62269f56d25955fcfea65fd3882320ba3187611e7bca42c2e5;
 0x2f204d469d9ae7b364fc44f2959956654f613f60cf669afe7b69a944b6903390;
 0xf4165ffb8c3cd0c8df2a1cdcc6d99d487b204cea36ba8023e6a17c90c50d3cb;
 0x1ab6363cc8e8594caf364c93385aab21b86de4aea09591b34df2152f6b663079;
 0x196b76cefdcc7f6a54c71d40114a0bb82694c936f1573ac7ac1ea3fcce1fe938;
 0x273626b708fec9b5d1d1330bcbb2d80d97ac1c84b89895de0628a0f15fa73ac1;
 0x232c260995bc29571e821068a7fef290fc1fca974214b45cb6eb63c02f56101c;
 0x22a91317e4cd0f048e756b7b41c10a9a10f85683df9051b1aac41cfb73dfa959;
 0x1789ef31e5469c8fa9e265becaf3f6f0b66989dfdddfc52491933f990624062b;
 0x27502f81423df0f6f223bfcb038b0347be96880b4d9b26d685bc87df88a12f80;
 0x15944d6894aed7bdec1cebe81ea14066dc63e49db38b79b63b5711cdea0047de;
 0x2d5d79c75632ff589cea134763ba602c43390e05fcb6ff8e91fe8376c327cfe;
 0x1f83f223b3a559ac092b5ce1bfe95f81be64ed69bd2aba06181f9962c09ce680;
 0x1d9105ddf213b013cfd5589de071e9a19becac29cbd9f5699314f7163f14f642;
 0x2d8879a2f005d4829b5439aa1630fe03cb581dd32be37ec112cbc8fb76715870;
 0x898f42d31a6838f40ddf7874dd4afce3481b6e1eda04c4f22f82e3a7c339078;
 0x1e5273fcce91ec174a392d2b384eaeeb2856c1bdb4342e1a38976f97497e51ba;
 0x24a863988061d2464b7bcc8d4ed630e79a471fe07c829d9d6b5eccdee1740779;
 0xd3f2af2fde3dc00461fe65fc25d8ef32db567495a78776f0f4eac20d4c23222;
 0x11130f82fe058dbf04d8ea6be3175f22ecfef9c4983545870967c73267e0dd64;
 0xf327ffc10a298ab4376b35f28b7eb90e794b6c9617b9a9cb1fd60d1e6208fc1;
 0x2fc6a08cdc07224db9ed85c48555e9b6747d401fc30b477a376470a19189428d;
 0x1c33ad6d01026a48305011699dcd1ca89d10a95b096e2b7d60363374c038c62e;
 0x1e5457fba2d9da56d4ebe957e2a4960a45ce9bb8c941e2b1bcb861f1c1d88bfa;
 0x29d2839ebf586fac7dd395ce00036e0530bcfaf01c6619489494f78a6f7d5ec4;
 0x4d8bcbbde662005d7bd4ff16ef911dd1fd74e44d850f665faffe0d4724063e1;
 0x1f110564e1708c2705cbd95f592a618406fa8ccbcebfe3b4fa9420636764c7b8;
 0x1588d891ff3d8526d281bfb900ea2b4de960a5d2b3740c2562f6a8ed53f374b3;
 0x639f2677710d59d2708e3ed851a80e7133f603ae0276ec542b23181fff30907;
 0x2a2e29702f1ec78a47401585569f7b48e63e397bd64ddbef59fface62fb5591e;
 0x172b91ef6574d5d044f3e03e69e270257e80c9cd0f1000cb91d7a718971dddc6;
 0x93f4d3b969bbc023ba1de485797a6ecfc42e2e9f034ead04b17830f297c15f3;
 0x1eb585e563cd03b430e0947955e5b906db9b169af33cef14671865a04bbdc7c;
 0x15167514d32350029469eb274806d81d6ba80981c4694fd030f0bd93c8ffcf31;
 0x1240581c6c08675773597b9d50b9187f160fa7d7a739630f943e4df9b1801237;
 0x1598daab9828ae0f9490eeba9d3dbd6282a2490db8ec4789605289a3109a3079;
 0x15f48fc5ee41eb8cb97fee7e78b55d3fda674fedaea91534bb506a4b440ea560;
 0x196b76cefdcc7f6a54c71d40114a0bb82694c936f1573ac7ac1ea3fcce1fe938;
 0x6b19393be5286a5cad14b6fd12c51219467aa1dc7c4923753e7b1adeeb464f;
 0x12ab8709e0b7289c712a002a6f0bfe6e72844177720a0427631540c7695e0905;
 0x145662a0788a01d81bbc0df72d6eaf0e887d22a1e4aeac090900c432c4132fa5;
 0x1d403655755dcc00c298137bc7e029f140b9d9e71d30e9145f6dd2a040febb9b;
 0x2370434b953dd1d26c4eeed6cae501a3758014dbad14bfef1c3d26cd0f615837;
 0x1f13968a23ad91e74be05489afc4b2dcb41621f6fb8b52f73c27bc2f64d198ef;
 0x3012f6382c1bffa9df0240a0f66b310a7463e49e7cf74facc054c7fd124e20c8;
 0x1da5c938033392ffec34887bfb06e6317655c3094671a68247eafa70d630c144;
 0x1a94414d237c4ad29cdef25e46f49e5e939d9699e9a36824f51aa65ff2adcb04;
 0xa234e79999d9f55a21dc03c43eaf5e018035d2b588d5ec8cd2d1df72f83cd87;
 0x9f0c86d7cf4004d071e067316a8da875d4405044b0e799616e22c96a1140c26;
 0x11bdf8824a0955d04b5fc96abac08049c0fa9cd678bf055fec2d43634170f052;
 0x20e74a475a9faf92f4998eb559ba0d8f05659dde0ecb757950e8a6abf015d4b5;
 0x1366321b06c12b977c2c396974a2a6b0c4e58f09a53531213c6206d072f4d074;
 0x1b2b47e3ea9a39df6a054879cee1ffd2cfd789acd7823e765c675241c3acf498;
 0x1e94a144e18eafc014b1aac9157ec2faa99affa50a05f8a8ae8ecb152bdb85ca;
 0x2fc95ebe62bfd5cff9fa2464bfc67b854ab2aae650da63c494d87294735305a8;
 0x1ccaf110504e1fd4eec6cab1d20f863feff3910d832fb789ec7e31713d262bdb;
 0x151066f81bfe7b4f1ecd0f7a8fe09a48ed40b0c9450476042bc4303602891d0d;
 0x22f0502a277cf27f336d9f3ee1fb7d67fa355a2421d4a01d121f1020e44ae43b;
 0x234465d17d5ca11607fb6b7f3ed5d52d0c06dab7b1761356cbbf0227b5777de;
 0xee0c8ce14909dc5d73607dba19e39706783488f00b8cac649546d934dbeaa54;
 0xc1a12f8f600bcd0dd2963fcfb7172d5842b12aff081a8163fccf1eaec3284e;
 0x27813f720b7a7fee3b44b2fbf89888c664d960bfcd775816ceb70050e6d26308;
 0xef129ae227544508104a79cdd0fbb9e8247c352c97190b90b5e5892feb828ae;
 0x1c59bcacb92f3012c6299cc6b43ba9269481cd107c161406349db4f728bfe66;
 0x8944ab7daebb6884078a8d618105b8843503a90ba51855c079b13b6aaf5b4f6;
 0x215bf9136c8b81f9bd5b221d37fd0fa327f923dac9d52ba825cbd3d2d62459fd;
 0xea608a14f0b4b405017fa637237863552a98cbb9bc1e151b7edbe8e6d78b598;
 0xc1aad9a675df88deccc3864f8c6e16cbee74db5441a6fff425a2bf2a6f84d67;
 0x243e3a95bad03705f35109af4c8c377983f06fef4cadd95c03833dc06ea51296;
 0x29afdf61d86b2558a0cf6083069157e5039ad172997c8ae76857f73e05ca3eae;
 0x196b76cefdcc7f6a54c71d40114a0bb82694c936f1573ac7ac1ea3fcce1fe938;
 0x1a85e806efde07a54e9cc83eac927ee5f534b01fd41388f806298b28501a5f04;
 0x109d8bbad7c3c77bab1a8506d4d588e7f5b703361a6ce70d47478e7464a73574;
 0x12f04b1f932511c8596a8c3b5f3dbf1f7f1d91554020fc43db068d95b8e6168b;
 0x1f28636d87164d2217fb393b23d0bfbfec1d912dca3fc000ba1f3e2ef46b8b21;
 0x16179a1cfaa92c905e039047db38e288d336b355029b1ce1048168e55bc1d701;
 0x16c3deac1173e14fc8b54c4da1b1ff61b7bc4ee2b9c62c2871d70a14583432e0;
 0x176d6148624c45e210837dd7fd87d4dc9e89f8efa4dea7c3cff0702fc2bf042f;
 0x20dbb69374e977536f1cdc4a084edeef4ebbf0c9c3cc4191fc4a707961fa39cf;
 0x2bab10e7b585d418399454c7d80fd38bb23190eecc5f85f410d85300487b9ee9;
 0x1bdb9ff621833468a0476986be6d6d719779ec581cc283a11aaa42c5111d232a;
 0x6660bc2be087e505eed7f1d4e5d8418d55e799008cdd4f91bfd536900e9f7b3;
 0xd4beae63787b3447f813f245fd8b7d6f49c83d63fe74a400dcd66cb3d363af5;
 0x1d76613f447ed37b64000a928b3b48e2e8dd521aae874d97dad7fe9b4c57886c;
 0x1f84a0ec9dadcd3937a045561b6205385c12c2ea4c562bd420f3d27ce32677e6;
 0x1f6424f12e6950564745b305080c881ea931d9083649631687a5a302f1d86fd4;
 0x2bf626dec6b3c130ebf137a656988397de0601250e39822152d316537a891fde;
 0x134731482b66f87776639ae513fa3245540fa1d34e6d74d32f7e9587b851de32;
 0xcc894c9be43663bde1317a4e3591aff66c18abdf0d8b90d872d86012e2fc8bd;
 0x22e690f84991940125c64d8513be14cd3fa81c1efc12bb80a6beada80c7091e1;
 0x14287659216a6cb96496ea198bfae1408696c5561f01e9504d5904044d9cc1ee;
 0x237b66703bb797da48e0c64dd6633de18ec506dec2d4d72b28fe93aba30b1621;
 0x1eb201c3e2663322f85acc8d641a362ac1eb1dab575d105af0feac86d68ebb14;
 0xf2588703431e1b9b0d059f900572f8222df5e7749dc0f93c09a24285fd53e4d;
 0x18a8905e765a49b51060ddc06eacbfbfbfcc0736f621216de0f9a1a11cc66484;
 0x10e1e120dbf75198c342b585b49bd0999633fd5310840e725642ae873af4a53f;
 0xe65310148d5dc0fb00fc135ad071d9b07e28b32dff7dd8fb1a2e0670238de99;
 0x1b924a6cd822b0eb0c6227c810a51c540fe9d9d07f906e24a57ec6fece7639e3;
 0x14f708f7a7c1430e9f6adf3a23f1dc38c92ae2f175b39671aa297d590f7806bb;
 0x2c870cd5699f7a402a473b3610adc0b1b1dfba1798b30681de9359334891b5d1;
 0x2c2793cd489f2a0ba8efdda84b35034f81bc47c131a3c6b6f8107f7cbc5ab058;
 0xf12b486f743b8613685af0b508c3b3c41608d34b82c7dc3d8f15277e31842b6;
 0xea23cccde8252adc358410548ba3c53e224a3169e6ca958458940f318bbefa3;
 0x196b76cefdcc7f6a54c71d40114a0bb82694c936f1573ac7ac1ea3fcce1fe938;
 0x1e5a6dba6fde6063136d0d97f46d5f292f065b8a9db8f2ab07bc17d31566ca3b;
 0x2f5bb6281fb3085c9cf508288a809476a23c142a459949254f99e0461496897c;
 0x230133fa9c214b6cd63701c3a082ee211c2d4ffa7037d0d0a4cb63a77ef5b696;
 0x7b9beb8ce1dd13c153d36b636a7af56db3800d97c16400284b5563b192c7803;
 0x18a62bd663f364bfd0c79d7f3edbbaab5f58eaa44c0fc207291c8f71222059d3;
 0x909d7276a02aac190974de34558921d3dc8e6ce22964f0e97b69858bbf39108;
 0x191ce266e49cadd50eb403e7fad07cc9ced8d81d8d23df3dc653cc69a8e62310;
 0x29cd029dbaf281a5b72c6d730674b53cbc773dfb542428d45a11d443aee0c906;
 0x1235f2e3aa2a5663b1dc32d86d32a8e2ddcbde4e97a3edd894c7cf2f799e545c;
 0x11310308464e805034d840a94d25a3b8bd0c206d663f41d145fa66415c2dbc12;
 0x2007f67c3b1d638da29631206a6befa6e21365aa1edb39a6f3a0abfe94fd2392;
 0x121d527f117db7b0a614ad1be6fea1f84369a4c6e451c0d5d2537983fb6b913;
 0x1ca4a6c7ee32ae8f3d55e7b5f8753ffddcbc125e170dc7b7c8ba2d62701aeb80;
 0x2f4ff9505df9f5dc0ee5584631e6f331213d654435b5d2593d249b3ff4e64802;
 0x186af707cd1927045cb8ad1b1510d4150928d839d07c8c9a3d93411262351327;
 0x291caa38b2e4083119c579ad08328807d4ace7deb24f78a5d4d208cce95055a3;
 0x27e62d562d2936ef5dfd0aaee64cb42d6aa90006a6fa74a7ccee794d78c0faab;
 0x2706ec2021ef6f28fccac547cfb1aab2da02f453dac5b2daf393ac9bbfa63444;
 0x2c6c0b69710326e4bf73840601626d94cae75c92ca37aa5b5c6e61706cde5a5b;
 0x3bc51987425528eee7a4a3177a8ee4571ccbd028c70ada4bbb3f8e6da3f58eb;
 0x1273940d422f16d7b918e5b6bc3dfdba2b22abb42cd67aa154ed75496186025;
 0x253094fbc334240ab67c86378c9d8d7435f3d87d5d68f3ae901fad214e0dac85;
 0x1cda718ea0bd4ae40920c54c9d203f88deef3e00b3a6c3a5bc9243957c20133a;
 0x125308584766a4ec9815951c72a099b9ef423fab29783c9c8f8ba14ef8221ecc;
 0x130af16ef6729327847344cdc8439079d47871751ed3f0b871dc248c6b856b44;
 0x2f730d5dbd23018d8c91be93b9e666cfa9e9c077d3b2724c43a16092170d7040;
 0x278ad27534ef1afa5d3742e03bfbec8156aa660b0d663b054a5feff049aea2c8;
 0x6d35c831095f5def4afec1841c74aaf1b18880eaab4256ddba34e49653c6169;
 0x2a9eb03bb2a3ad110273c506031de6f432b6673655255c4189fd2db2d9956d24;
 0x237bad6e8955fe0485f4f72b4024855f35903b6d795cffd27468a7bd0e47056b;
 0xee091319736fcc0a648bc6cb1b31ee36b95b20c4d40f91392c315e5fcf26150;
 0x40a730f39a665fd9cb0c93989b291d281958057e9b898d0b50c752f9371a96c;
 0x196b76cefdcc7f6a54c71d40114a0bb82694c936f1573ac7ac1ea3fcce1fe938;
 0x30478f2543e91a3b1c9b3fac23fc86c06032ca0fca4bee9387722862c449cfc;
 0x41b7accd8054a88f4ed64394473fba2b13d9b9ea06fccd0f75439c8a09f968f;
 0x11bcaaccaa00dc4c80c43172a833a6fa50fa47827b3d4df0c221eedcb7e935ba;
 0x1276b1ec4d51cf23c53b104a7d1e127058b91f5a4cd2bfea420c15355b43553;
 0x144dc8dfbc21918abb47ec061c7e6a2f7fa9b32babf270047a2f465b7f8f6de5;
 0x1dd046beaf1e8476308af0089af19da322852346b18ffa584af9d98619dc8f53;
 0xfa7e283d56ded23e03a16d79c94298143d259d8c53c8e0de261d197a4a1c071;
 0x2e1a819abacfadb55e98efdbc5bcb57e216fa7ed9d60a4ed920b2a1de8fd1316;
 0x256938ee3b182642f778f742bc3bc00a60aaa25bb3ce9f7fc96559cf21b28570;
 0xe6a334e357792b5182d8b44d893ce322996913cab640a006c1a8b73c023284f;
 0x24073e4154b684459e0cbea690ef583feef556f092b2b17c82c31776725da906;
 0x2dfbe4b1760808ac37902dfb1e18691901b413b87c6d8c8ae54d79894ded6c80;
 0x20f447f6a67d3b8929e1efdde6688fa53d47964873d86ea01126f1e0d447d951;
 0x2c502b5ab202577f015431cc2b64b61f85f486161ac4ecd64c9603fe6d353d01;
 0x5caa2b6ed2b850a5ebcc686b7198604941d48d30932a09e2de9006ffa61afb7;
 0xa3d02ec260b02ef2a4d51c2979cc1b22cda27b543a1bad75d9e547b3a5c751d;
 0x724bf5486c9bd20c2427fbc1d6936ea65d052f442a417215cd089b9e4537843;
 0x1ea84269caab7c273d92e86ca287a8850995c9adf2624daa858932665fed66ea;
 0x1d7e6d3695ae5003b9dc6950af38af6b5319cf529a7a1d5076512dfd92b099ef;
 0x99642d891092eaa8df1bfbc45d79b13934c42f37f8e1dc969fd51caea4fc246;
 0xb94bf0fd8f907040c14c1fc8aa290aea61fc881aa82da20ae568c34990fc705;
 0x28fb0d75533a8263ef2ec6b85c97b5af21e526471056355253fc5f6fd3361375;
 0x10480841e4451bf366c111c8d3fdbf0a7ac9c04b9aa2d8d547285dd891e77eb1;
 0x112274c48dece347a089aec971f0cfb9d7bb1a15b32ad3678e77d15cf7107ff6;
 0x1a8c6d411ddc6e2dedd2fac64c324d88ab8a946fef1174c973dc0f658275f5e;
 0xd0a4a998536c490396be874d02c03de56bcafa3cf45590184f7b53ef5c3cd87;
 0x22016b957df82fa5c825f4fb8fcf8634e654988b63d9f9933bc7b7f256e7c67;
 0x26d2a9b0db83259f6c7d081a2d50317039076baf6151f1734883fa6c322b243;
 0x1593b4f33dd3053258dbea8117f435f21d6876e7fd2907e98bd81d13e1f8aefe;
 0x1ec80ad7ee2b685fd79b38b842b0d420b685e3c090acf3e7507a57739ff76185;
 0x10573113bb0d41c18513cef083fbba91266dfa7178674888ace5d566e1308eee;
 0x2c5bca238c2c3be6d5cf5971ee92ef3174d4a040ddd6b0431354ce434de989b4;
 0x196b76cefdcc7f6a54c71d40114a0bb82694c936f1573ac7ac1ea3fcce1fe938;
 0x2f77238c057e187797950c50dacd539a7b7a1be7baa3a3f3a617f88ec05513c1;
 0x1e4b327ddf07cc065b37a9af7f6d97b89c40479908be61b2e6312c351a4d5ef7;
 0x1fa0048409da60cdb12a2a3013fb60257940ee5f4f8c2b1bb56362e121b0c8a5;
 0x1c92ce2c35358268ac56a756f5ca943b43db8c7ec965770da62b649c45baf1b8;
 0x25a62912bc39aacc66055eb6cb404b6a4f09b703a344b752c526dcb93e768c73;
 0x2f3e3c91be6f5b034b00dafa6fdb33ed00735f48fb2300a783ab3307a6aac793;
 0x12618073f72606525b743e3ab8c2749bc83ebc31cd47ecff2f851adeb397b5f8;
 0x7e1a14a5fe9a127930b1ee9a4bbbaf3b33ecc0c23d7b3b906f59925c0670f85;
 0x185866c20721e1018a4eaf241031b69ed1f2aa25e05310a44a015aed45003576;
 0x1845f9656990a68b36e47e83b67e6d53f42df6a83cba95b016c349ff191ddbc1;
 0x285db5bd04516aa0416c2c52cc651c2690bc846621ddec2ff3037165c30444b1;
 0x230697cd1a79c303489232f2d060182c4101e0fb4b6d3ac38b82a370d59ca295;
 0x2d5d42436b19bd4916f035f323d6acddae9a252ebc7445adb1d7bf560b464bff;
 0x1ef94358c904246669907524ba5bffbdbd7c9a5afcf160e44d00f19cd804fd87;
 0xdc902c1c2f63aaebc2a69edb37331ca6c053513f29991bfcaf6dbf9cda9f8af;
 0x38cfec7101b2ee954fa5bd1156da5c5662bc77e2b4e16d39139bbf165f5e331;
 0x23940e1b0657dba41ee3c7edbe86d7ef9f3a45016a61c2dcdc39f0321af50fa2;
 0x300efb612aa09a721c8feb5775c639204c092bf5adbf9d4268dd3f24a406e969;
 0x1cdaab41d8141524f40389418576088f7c8aba62feb69e895d39843068dd5679;
 0x1f035b6f957e84c1eaeec71e31b19518f3dec9964753a2caa1a33ba14879d0e4;
 0x9ff1b666e47a433088329f94545bc44a179ff61e7988ec8c86715cdd25237fb;
 0x97ad004ad339a6ab46f92a80e303e5d431fcd77b46a5b4435f383af68f7d08;
 0x2189b934e1602af6e30d786a0e283f0877720cb8fe77369c37f7ac895886dc1e;
 0x1903bcde38ddde14e22209d72837f9b813e437099f71263f84e18bc6414ee74;
 0x81887e6be9c14e1b9ded51e9cdbfeba2001c9e6098d6ece905a0fcea98f6452;
 0x26c7af1f1cee86563e9292336fb6573a0970af2c6d49d469b682188ad55561ad;
 0x243e21405367c02b78c9da82c9102df9c32a26dea21da00beb62ca9e4e71fec5;
 0x16e3e6bb95f28d2f321e7b63f6acddf3dd6c2e9a05aef8ba4b9151b1de10a78a;
 0xb011142c18c2fd3740c07513612794c14506ad3094f440420d5265f225a84f4;
 0x836b51afd8ef110a57d3d82bcb1c294a3d0c942ac20f6f407cb20ae9f0addc3;
 0x1ef12a547707d7dd27529e8675e5e58c3f35bd50de464d5e9b1735ab22d95565;
 0x12f1b456a3fcabb116586107e089ccb38b8ea0ac2fde6f6d464302c5f62c5776;
 0x196b76cefdcc7f6a54c71d40114a0bb82694c936f1573ac7ac1ea3fcce1fe938;
 0x16e23bc3ba612e8d4104a5a608cce0d28bf3a06c6f9024f8f829edd7c84ff5e1;
 0xd4acfcea237e44009b358d998961b4719fe512aa2cdd6438aa30dd5baa6dab0;
 0x93cad17aaed41e759cfeb15461f0222addf78c3a0aedea7186431c535ed46fc;
 0x25e68166acd241fc301db582f896b8e314e398dad56de9f2926f9f131a81d5c0;
 0x8d9b1a38c7c71b2fd5dac87ef974ddb4f7119523d81f88b0d7e16d577db060c;
 0x150c5bf06a071be6de288b6deb00b6ee51ee41f96f71cdcc980a366e4049580d;
 0x1820e0533ea75404ef263e570250e25f9c0bea1228df9fa90a5da8176154f089;
 0x229fc7b637cf8316edc29145ed5f060a9188f10f71e078dbcb887d195e8da899;
 0x1cc5470c6bd5d73eee63996481a28466499751a0a9c784abdb1c3fefe643dd81;
 0xc4da78b5310d04853242a11df821ba84860fac1a2fee9fc04e25c6039bee8f4;
 0x94cc155e114ff824b23e67ebb28b2bda53aa526fd3f11927db7060ededd2bc1;
 0xdd872678b808e11045a657250172181e1fc7d9e2eabf893f09fc3c6be3a93c8;
 0x2177c7830ac6b2cb6d01ead266a371320f7069a0de0454e5dd3a2566ff9eb716;
 0x232dd9ffd97dd5068b1041fe3ed6e08e162265e9e814b85116a6561430aaf72e;
 0x87726ff3cabb6294d2106931b3160809d4d1e669ed7de25374390af8ca39b4f;
 0x364f607b21cfb12929ecdd65f7618ef65c8e9caacc4f42c440994d8b5dcd35b;
 0x304b195fa0bffadcbb23ae2267693c7da7607eaaf40c880843ba71521edeeb40;
 0x196610368a8764fcf4f0278601232bc0a5aa7ba6d20e2c5420a7862272b06749;
 0x218f52826b8e2b82e86d87d7bc87fe5cc69171430488282062d7008069c89dde;
 0x2a70f39b2d8cf212fe706545d1cc154d07405c1417712b388c919b35263c1343;
 0x65be4ea4d6caa4125badaf16b830538527414ecd718a923c3417c474fcf5032;
 0x527abf8fa6b64559c86b69eebb3f0acd94c9f23a01438ff78f034c80291d964;
 0x263078abe4570cb96d27cea17fe9b493fadb3a020605cc474be08ad173dd424e;
 0x2616b2e0a8970da8019208335d4cccaa489c6cb8da6a862f1867e246e1f36736;
 0x255f2df1f986f154768f0fc8a5a2ced1f18d395ff01165e77d6cbda3e8b7bbd9;
 0x1806ff1795d9d6c9292f980c957038acfa02ac32556c9ab826bc14a968dacc80;
 0x871baf013f2fb16c067858844cd395a520d8a8bb17abe207d3138bd591dcfbe;
 0x28f0493d5c747880a71a82644c20dc23cd3bdf84e05cbe0c0a1a48fa27312484;
 0x2a45ef02fe1dd41641c787b8611113bec4881a56784fcfa21bd896a8205798fb;
 0x7ed262400e2c66934b968e3f8713d66e85fae72ab73c6cd33eaf5b2b480f6ce;
 0x17984162d397a2b3b3bf3bb04af70532c4beae81a076d0b8e1b4c54e5feb2f7c;
 0x296ee291fc63605db9594241dfeb6576603a30c42d6d631d4123982adbf54cea;
 0x196b76cefdcc7f6a54c71d40114a0bb82694c936f1573ac7ac1ea3fcce1fe938;
 0x19933fc7d1aea36ed4516ea4768628c08d206e8cae12e53a61147f2301df7c31;
 0x2efd792c56ad19032f4e2307f7ee338895556de653bcf50239f56a6f595a59e3;
 0xd6c9475058e6029ca3162b0db37e71ca570a626e7812f8938db5bb9f54f352c;
 0x2d6e38ed12eda3856592e0348ccb4fad2477619bc8a37237d4e48a8b12d0d7e5;
 0x1b22798bb6b6e5711236933e2596905ec1a4eaf3c224cb8e18385857df475aea;
 0xee2bfadc6c771b8279d82f54770acab798e5d7e6b6c93123cd6d871ac0f9cb2;
 0x21dc8e7e1951b62eaca40550618cef0d32ff82f425264dff2743e287594d7d54;
 0x1e75bf782b602b28cb11f489a17ab323dfe881a7654af175cfabadf765d2b48e;
 0x2c49b7045f45347ea8498df2f5d5eb560154f3579016772dc017f6d43cfa563e;
 0x1a0ac37735eabe257b9c0c25c0e8ced477833e2368678c6449c1aa4baf0f2312;
 0x1f35e213914c01a5ebeb34838610578a4fba2c4a06d248e0d6b76212ef339560;
 0x236ab082f2cbd2668f53ed5a9ac5f29822440e4b06543b6ff3944739edb00a52;
 0x12261534f09c4b4f143717ec4e8b0afe58fc399671ff29f5fc8c3dd302eb70ee;
 0x1421d8d32235caeb8e90379b3abacea1d7ce42bb1ae928840a8739d85acb3127;
 0xd330afe8be63d8ace3a3a83b7da18804912e3b3c1a8ab3e556b3256f0c551c9;
 0x1563b55edf443890c4729a6c84d523e1133d54bec37000b9afda8ec393c0d2fd;
 0x2f6aaca00913c8a056867f42f64016d72982e3eddd62f7508c4b86651d2fc253;
 0x2f31927a218ce8d5931907542909a9a8a424857218573585e1a11aac34a4ac59;
 0x2245d56c69c9bcbe47ee570fa2cae8008a8bc3042410d29f84cf65adfb1d65f6;
 0xa6d1a50326bf87096bcfb5acfc3a84bdf112eff86b9fd10e935b3ea5cfe52f2;
 0xdca2fcb2fca35419f3ad6737417350e4fe4b3428e65d4f418143b97204355bb;
 0xeff0d35806c692f93f365c7ce6d5489b513aca79eca0a6663e9bbd8820f568c;
 0x761a1a536cf23aa1f57a5a10140d4b1cb968e9e3054833cd33b769db1cdd0ab;
 0x4fe0a5f272499e111984cb95f691ad3533008ae70634baef9e60bb0808feec3;
 0xe5e1a69a0f2521a67cbaa96783214399818adcf5104c8da98d45f3951df3d79;
 0x3042f99a1751ea962828ad563e8a6d6dc438459f9b912b3b5f2567ae31b74cf5;
 0x2191f2dd5699e7f46dfc7a0fb01c5abb9a34740c534690ed789a3bedbe15fa65;
 0x17886ed47f13d1d49c9c24836655683cf481f3e89d2b65b9de78b591a97b87e6;
 0x1913d17541b234d83fd9f7851782516da4bf4ffe9355c19400adbc995c417fc3;
 0x271e99ead6dfaff8400e390541cecf5146ae0f3b86d0d94898a77b67d0f59b89;
 0xb57c116f3a607094ae8b3e7a2b7ef123635bf131089ca8fc8d0264715bb72e1;
 0x1e097d47d4a82b797a5ab64eecfbc5026ad25c9aab94cbcfbeed04e47aec7e78;
 0x196b76cefdcc7f6a54c71d40114a0bb82694c936f1573ac7ac1ea3fcce1fe938;
 0xeff65c0120d6929212be55e8e6ec2e468d7fddeb7951b01ad014948c174b971;
 0x2a5c1de1bf17f1fbb34987d445e22e3bda9510062ee81821d20944df27d1d6f1;
 0x106178470931e69d02288fd73abee97994704d2cf4c2142498fdb2487afffc91;
 0x1f2d17deb1a25ec04570838e8f5caa47250c1bc16c0406017f5b2afb2b2c8b4f;
 0x1ded3f9efde2ddbca11e2280038ded37eaf9a4542c959d9ea7edb29557118c00;
 0x132611d30c21b4909aa39e4331d2fe2a1f532198f34588e67dc92a375b1d95bd;
 0x2f5741043ed87b7272c7a0db20ad4626af621071cd0aa6759fab3518f420e751;
 0x20749c10519279b7ccb82ddcf1cab67a14b26b3080022997c05ceb47da0211e0;
 0x2f4b12cbeffe89cc8e0eb8fcce01ad903d14750534b107d1a5095b53f2eb994c;
 0x19f437a4cf9d69d918e2bd2c1ace4309e128fb911926c4396039790db1677211;
 0x2189142b8e8e62d3eabad7d3a9c92a2ffc07677dbb3927a55035436a4fe99084;
 0x26deb902804c50f44397613473add31799f85b20d1232ccdc220357e87e0444b;
 0x60feb6d13dc7538cdea6274969507ba784301ea76cef8af0eb914ab2339be82;
 0x76ef42dd0bb069840f761558e2005af793ea5beac349c3dfb9e610933b1728d;
 0x21718df0edbd2d21670fa990fc293f89f53cb169739bf7cd2b732967fd4e936b;
 0x21e9e1015d05a67cb7a314fdecdd1dac563dbee2b9edab3388ec4ef9e58eeb22;
 0x5fc174109c8e7779d39321d9b843cdfc1e0d89d8806e199e15edf3cbd724f8e;
 0x96aa7b7315c181d4bb6527c1abe5d758908a11d1443ee30c0706b31bb43da3f;
 0x100171ff805f808f17a40a9e80b4f6516ba5d39cae9cf62919e085edcb46e0d2;
 0x28a6f6698a4d25726a7e7bcb50264b66a9f377f6dd42e9affc077b5bee5680ac;
 0x2be4c72e7f354219484f1f1873eb38a8aca5924509c892c1fd072241d02cc624;
 0x120e09a9b5ba1d13db63a4d011a2ff38845564e057c641657ec24bf5ce8e532f;
 0x26c044b1e72e2ed87e620c3010acf302d6f19cb8d4d5c8554931d2e29a923da9;
 0x1621a950244b5d32dae27f189970ae10d14f0803d92f67d8912eb7588469471e;
 0x5065df755c536ba54bcc816f308c2e341f05d16254116d0e29bac9cd827250c;
 0x18165ae1001648c8d9987e38bff84bafed3414ba2dc09eb937b73a1e636f43c7;
 0x2e84dd68cccd069cad6fee65deb27c501b2a0a8c75fa6b012b6451977a1cfd14;
 0x29868ed0bed932d2ae0f4ef731251a4ae59470cce43250be9f7fd55c543ce635;
 0x296b41ce4bc8cdd06eef0021c564646332bbed4a8cd4216effa4a09a015b1e22;
 0x2c1558f35552fb1f9fd96fbfa1cf187ab296c941f0dcf1af18063db872028d57;
 0x8b1bc5debafe2cc01e92b310a9bd1b62278d9aefaf78a42ce169dbd7ccbc769;
 0x2c64eb96b29fa0e07efbd86bcdaa1fcfd342ff26fcc11adb163a3e778092fb44;
 0x196b76cefdcc7f6a54c71d40114a0bb82694c936f1573ac7ac1ea3fcce1fe938;
 0x1942e0e4dc6666d050565e3041b09d79fc20e99b393b2a3c53f67467c3dc9cd1;
 0x2a61fdc217a0fd51b44cda5669eb8c81b4e4cda33c07d96a3b3abf75bbb593a1;
 0x27676c9245df29af49d1614b032c86d99dbdfe04e1ae951e91ca88267de9fe59;
 0x796165a50209865f0c12eb768681ed7107f6e7976c76a36fe196ac36fdbc5b7;
 0xc3ee0c7cbf8623447c90b90e13d290d313b6d0c466e0c4e1629e54eea175092;
 0xca789430e09c72971ba49ab8cfbe88c7ee91571c1bdcebdb512adb061597f20;
 0x55c78ff2ca4e60c8d1fbe3c55b15ecc28f86f30e893fbc001836cc0632c955d;
 0x1b1ed198ea5aff5e8750e4fdd1b51c9e4db45a651b2d9e1b211acc3b124e31e;
 0x680a0131921ff15b6f737ed1ef99bbf554e5c41ef4fd6e200bf771134512a94;
 0x1c04574d4f435df24a38a6afd056c49edd61ce1dcbb160c69c6ab490716f4bd5;
 0x1f79fb349db705a247e689a2db091244c30680dcbda765fbacf3f36fb7feba36;
 0x1b6f45bdf0ed13a82c330a5d26eb992dbc9802f11bfc2669e3feef1c310baead;
 0x1ce38cb2bbdd94c03869f6bd81e5b7a0c359a932b676c0ba6369fc4ee9271584;
 0x2d918f60f8c7be29a0b6eb2d6c44c56f0cdd865fd8a19ed747f4c83a41a2d29f;
 0x2b1e6bef26c3c2a5f7ec39c3be4de1c0a5bb8c1dc434570d1cf9811c71c1e2dc;
 0x18231a4625a11e057412d2789b10144985ad15966fdb26809ab8091b06e3ce3c;
 0x2ba1777ec04222a9f98dcaba3a5c2023e77a8071a279c726b35482d6347fece1;
 0x183e2d6301b1e472e01e2360e02bc855b6f1a262a4d03517beca13ac2539fa50;
 0x4e6c329b88633c6a45be6f77f5a9d0d54eda85a4e015ef7c368bb145c6978eb;
 0x1f7d2b53a2456c0d398417386d87f4f760fb541cc225d0d84d9d000828b94fee;
 0x1e7e8f07fc7bd7b462f36924ade2a783ed2ad47f6a7d4a5051b9774d61dc480b;
 0x8ee6dc4b9baa362c6da82f6c3787aec48eee1f6ed33157d1a9bdff0cab20781;
 0x1fedf46ce5f0967f0d259a7ae19e5b781a801467ab97ec9b8d50265832471e92;
 0x610a62079b0c8c00ad3401ad0473fed44dcad28affdde92c74ca927a018403e;
 0x2f8dcdd501988f6da1f3d80308531ea26ad2eb7017eae7d97e867ccf9e5010d7;
 0x2bca9ade6aa068f60c0fd6a44e549bfd37df8499a589dbffb64b00d3c48fb730;
 0x1a145fd2fdce8ce3fd02830d4c4c8a68e315fe92a38fdd0f5ff7a38d698c1c1d;
 0x3874b554c5bc6c3988b1601616c70756a3f5f9de40edfbfbe0120631da540f0;
 0x2eb0cb6d015c48ad9d3065a505fd42ad811fb70d9fdb5c2d537843f63b378e8e;
 0x11454221dfba7bd389e8f03187a0723828428a6bb434c6d7bf20bfe5fd114b83;
 0x2a10c14110838c69329a80b0b2613bd9943a3ffd25f6a1e951d0a90fed4ea8ff;
 0x1e52a42d152b85d8a7807288f6f70e69634da7844d995b254f518724e4c3609c;
 0x196b76cefdcc7f6a54c71d40114a0bb82694c936f1573ac7ac1ea3fcce1fe938;
 0x2d54de07d84381601063b6e9bc507c93cded3cdab6cac3878cdc3c29720278b0;
 0x2d8d4a2f762f3df73356ba6bede1b007449304d062b2267b388e058c30d321f;
 0x109f39baaf3fc94e73d04fcc393a6b60af6c6e20d5953ee4a1b572857b4c0e76;
 0x12d501a7112aeffcc039e330790ffb66ba390d1dde79ab5ffc723f9fbae2875a;
 0x104a8ca53760ad5d9a630d85bf1d2880fc8e22a97c26864f6597b78ccda8e39a;
 0x156bf185e618c82fd5622d81779e5538941258d1ea3d26923f59b002ae7f48c5;
 0x177774923ca426cbb54827e2b0eea99d32c576101bac07394a15d89354e6eddf;
 0x113a5bceb59274549fc1801d16c19742fc8fc2139fe584c52a7bbba2a329924e;
 0xc6505ca747cb38e435eed24786617d5bf69034132a74f6464c6e802fa1fabd6;
 0x118069d4c4bb4779a3c231b4f9bb10c9e51bd7bc57cfcd602ee7a6fc0e1abf95;
 0x385980d35d14e90d64e9768701ebccc125891654fbb8d6b79a4ea17842a4975;
 0x1916313365e0bfe0bb7bed5b5f7bd03db314de71ce80422065c503181bb61c2b;
 0xbf8748279723ba405fc30c18b22b4d1c8bd2ee8a133b73c3e36170fbe2a04ba;
 0x18e633e3f93f527805cc7bdfa61eab0efc189b556f7c549f1596eab99d2e0e6b;
 0x152bc76d070352b5e3b4f350f4b07c8cefd23e9fa5c425a8b974d68aa3c07730;
 0xd27de87e407d89aed983b9db0f81620c9dfe423d47d3de44cfe3b273bc2bf85;
 0x2b50440572a0892b1c83bdb6fd2037c9ad720f13141798f8857283e01b1290e0;
 0xb5b0d8f6278e41ff57cbe18be038e3467f1bcc255156a660cfd16aa2ea9ac6a;
 0x1c4bbc69ba7ce83c1b223dddb0304428eb67dff461b719504d2a55c7bf380a4e;
 0x224b7d772c7a5d6fde26f2ba95e000eaf6fbcfa50398579c0833093d6ab8d7e6;
 0x130d060491a6bd90c3e5ee6bcff4181d9126f520c56d7d8233120e8449f0370f;
 0x26e1f7aaa668655ac3e092b9c8899994ca9e596ba992fa8863b52b3137cda92a;
 0xd910dfcde2f0b93948f265e861563afd9dd6326cde2a9c9489d22d62dbd3071;
 0x1a92a6fba93268b439845332988535624c93b616d2e972656ffb15175455e542;
 0xdb35e6ee7b9752c564e9132696f3052e39a46df1c4823fd05e246e928963d64;
 0x190484fb8797efff338127ac69877789cb80eaa47f674cae2035e2d903b6dd4b;
 0x281b15d146c4d56debf9f66bc0c8138b7c5be54cb206a9180987f1104347646c;
 0x2fa46d89ce68066bf1ab4d304d8d9163c8203f14758eeecbaeec0725cd663813;
 0x2f2ced28553cd93fd972e231deda1c8b53ec3300e9617dcaad0d2d25f2d61fa;
 0x2aee5484616632c7511346d4ac900eb5de7a04994eb95b4343d3af1e388fa74b;
 0x2bc085981337c2500fb80f2259d55e956963ef377ec1e2071c84639a19a581fb;
 0x232d9177d238a7e2d92ff1260e60e1d1199365f4cd6f911dd08315297bb6c648;
 0x196b76cefdcc7f6a54c71d40114a0bb82694c936f1573ac7ac1ea3fcce1fe938;
 0x152e232aa2f0b5ce86a9bb8ec7c916a66ea7d3eced20c3119fa4b32227a44224;
 0x2d541381556b2db0e934c244bd4f8ebbe198d35bcdfa56c77ad702ce2b4c0c5c;
 0x2e3dc0bef8262414d80245ceb411511467439879f538701e9ee094f7c14e408;
 0x16a011d07f05d6aa059d5c39ec295e27d697b94e0eb8ee80d090253627d54ce1;
 0xf2e71fb8b1efa67f9de9fa1f2a089cf8f1a995bf2efa733b40cc406b6e25cce;
 0x1231d7777e2dc2538a6a0c854cda59d734f0ce0a877b5271a1d38c67e682068e;
 0x24d78b8526e7b1c0637f2797968911f101462535e1df4d7a4c151bc6ff2ce040;
 0x22a988364a2deabc2ce747418dc02fef38ce6c811ee6074febd426aa59e135a4;
 0x15de00a932e2679f01402db621f4226348b05436f9cf4b4d6d6419e7770d1565;
 0x299e0373cd69ca5bad2e2ca004ff6dca193a9aa2e0e51de1c89770d2c260e229;
 0x1f48db87438ef28954de5702992fc180e1204b139cd825af6631d8eb0a4c9bfe;
 0x1bdff4383ad65036a6193cfd9f77601f48095adb5ffa44bb31a4acb8bf68b74c;
 0x17644aa682a852335aa5b1532c6fda9a980fff5e94c2b6358ca83ab58a9a77ed;
 0x1bfdd4600de694368af6447e16dc544f8565534d30f9581b5d81cc24a6503e26;
 0x18c8230d4cad7c815b3b71d905826a94022a81cd18a26427fdba3236667b24ff;
 0xe19493f16f0b05a6cbc8c6ee13f334f045868cb36c7e6013b5600e2eae2aefa;
 0xd2f393e71214f36cfd6a8f7f4f02b164c0bf4116e97f7198440fb9122583e4f;
 0xfee312ee60e18d3e7a6ba6bfa95e826f27a8ea0a865e3c7a7fb4e130d1c4c09;
 0x22a056cd7db5815347a2d035ecefda073dcf753bffe9415afd254621fc370eab;
 0xf5eabc9bc5fbb19864ef2113fc4c756e6b5f3d1dafb8abdedd3b04d0b80ae66;
 0x7c235ac19bd9379c4cc01b454b43218af5b573522aed311148404f3a5c743d;
 0x2d942aafd44c4635f7cc2f58e4b9314baa46e187ae91b69a70ce5ad08aae42b1;
 0x18b7536ddf2baf318f7d95ceae7c059898a997099b0e006b14a9619734d101ad;
 0x783549372d830804cccf9bfcadf1bb805df0cd74fdfd8a58ed78b2cd5493037;
 0xd0ff56581899da5c5e06929f9211224abc1701cc590571e4243ac5380251d75;
 0x10eb2ca01dbc69cf143a07d1ae33d465c21b004d93fd8ab3eccc330e8897a06d;
 0x1caff794c32f783cee39dee2bf130ea89316a74d9bf6568e1d0be5a2362f4273;
 0x26e43873787a976ee680508db2668f4e6c8ede06795ce54762ea9b7ca7654dba;
 0x8d378aa3982d2aee08f51d4ccf75af2b06f52ab03864d95d56aba9bbfcce7e8;
 0x2ff5d0d03b4b4f9d0b01d3e0db319dc28906e4dca3dfbbb4b37f99a85d1b38e2;
 0x18520d1a0bea45e0d3d8bf43f25ba325c6f2fc2a854477dd7bebdd9ac94038c5;
 0x48981c51b77cae321a249b580cb97b327075fbcc0e789b617e8d3694477e52;
 0x196b76cefdcc7f6a54c71d40114a0bb82694c936f1573ac7ac1ea3fcce1fe938;
 0x1487015218138ffaa0a59fa85396ac51e075d8925a724fd325424d928c654ac4;
 0x158e7709256be5b46df08d1e1b0be1938aa6f4e5c70197431f5f2801cb81ce9a;
 0x23ead31e3adb55af0de40f8ec4e5e40494192a137f36d6468cac8b9f8eba7888;
 0xda52b842c39529943fbff3afa9c3a75d580025df3c708ca7e312396e7c7ba62;
 0x20641a12ce32094370652c635921aee03831de2dbbe854b52d983dc669a0cfa4;
 0xe854c479dbc2e4674a8fb297f33513eaca7d1705e71cd403b3bfda7d594d063;
 0x22e3bb4d657720df9174b5bc721ec49ea213157e0a59d0fa2f2eefe9a8bd2376;
 0x3f35d5ab9a8715db37918b791480b3190493266747e93b2b922f17c4a8d303b;
 0x71d91869ac439a23c518effe61ce68bdd578204dc70878ea949b980e8ca5765;
 0xa5afe6671b39a880f2953d521327679dfc02d2cfa739e10ec0ce898a7e606fc;
 0x1a13161ee9c83cc5dad2019e320b65c9c0fb13afe6a473b03242fdf77e80607a;
 0x3026cf4032ab73cad3fb5363647b3617179ff403dcb0738688848252d5b6f2e;
 0x243e0c7d13dedc00a5a66e8ac3041de9cc0f107c69e38e0a5ac807fc57523424;
 0x2a9fcc31d5ba75ce13add9a2fbdd4bf8478f3d286638267e8d9889236ab48999;
 0x12355d3aaa77205407a218c67bf292f7389e48078ead3ad8b44a7f26b193a571;
 0x2fa06fd721aac5819fb8d72118cfc36835a96a57466c5d9c7ded627ff5f0925c;
 0x2009a1047f9adcaf5d077ebaa1d827ba73fff81d486a9bde79f66ddcf7b95670;
 0x23afd3d3c0e2e875b2a847cd2a686c1fc3c5837f41935caffa4bc413af451491;
 0x2726dd1f3fdfd05c33efe547ed972ad36a60674889b98d1786a505f73bcfe296;
 0xa1f79f8deb6a176a4a20a89c2f3134f7f2288e5e698d8daf9662f79a7df7253;
 0x233dbacfc9ba8c6e47588085cefa90f7ccf223ab050c4900ab2b262de8235c13;
 0x24e7c1d18385735c7be8ed97b21065ad3446b3a44540e129605efcac8b1d27ed;
 0x2218b114e6a493d7b5b767736aadd097ecad86b0f58972ac0efa546a5f1a4726;
 0xfe60e24f84080950e79f2dd5dc8ef6dcc5eca3bc6cd608f91b9e05a4575db3b;
 0x1d3ebedf3c91e56b3331c235edfab0c1de1b37c4fcc7506755a7e90b86a988ef;
 0x5b18530d7ead1dfd0d305e24244c90f8e66be3ff5195efa2c7f9317db72f17e;
 0xddd0529998868e7616a880793d4bfb9d9a25f7cbcf4f894d7c91443dd3a3e0f;
 0x58611fb32de45f6b800200ab76e38d4d88152beb86ece1462c2129509732672;
 0x2f4954ce179d833366a6cace0bb216235b5fc8331a0ef36ab40cf00881a1592f;
 0x10dae4642d4de29143dd5ae8b72f56fb7800d664ee0c121c9990e88976ceb878;
 0x9d1b3f83888c3b9a018f779ca69c7480aa60868a1dd1ae22d328df4667ac672;
 0x1f8cb04b5c6155dd321920c129465f8033161f66a6629acbf67d0ce8609cf2f;
 0x196b76cefdcc7f6a54c71d40114a0bb82694c936f1573ac7ac1ea3fcce1fe938;
 0x697468fa48ffbef2def6f8859c1276f40ed8603b54f336a9f5bf6c986dc4472;
 0x14845ae5256ccf9f52ef754d6e9f93df1320a86b1d085b642e9ac35fc8c659d4;
 0x20a0e20ca969d47c57a6fbf1d7c7be6fa22100b7c59f0701d589dc3a150ee595;
 0x1a54b1065df96a7fe52babdd1c8fc70975c19190d7e3f0cb6ff113eed0ac9601;
 0x60a95bf72d45427efcf1df7d0374ce564d824bd9371afbf03b58a7c2b8257bd;
 0xc6bae2f35f833cd1099626a254a8dfda1efb2aa199b74f9fa99777314688d8c;
 0x2e075d54e2f7837c58a23049c4c5bc210731775ef5ca93689d8e411d3e25c05b;
 0x7315b60ae704cd80a3649afc32608e8475c1b87ff88966d8e4bddd6bd5ca97;
 0x1c5f8d20fda642dcd8db43e9361d4188a8f48dae9021b84073ca261ae50f32df;
 0x13671823102cac626ae6c133fae6cc40e2a2e2d7f8a1191889988154b605a740;
 0x10f3889ecee1bec4a5e6c7f0336f7d193acb1cd6cc1b5de815daea4b3b760f8d;
 0x6290c4b1f8ce6ddc74050ca5d58142389edfcaaca0b3b23514e864e8aeade79;
 0xc359d3a8e6913715c369908a57f93775b7efcc28d300317a9c80812d9915a1f;
 0x1b7906c8c29ea1eaa52ea3073c80c666a686912cd52e0f8804d61087d3968f86;
 0x140e7636bb9af6ca0bc1a25757a7ddf14325f99ac07e34c22fac95cc25b47d2a;
 0x1a2ffb754f4df24371e274a2080def1f1eae921b272813446142b708219a4277;
 0x8925574c3dd6d39347dcf0d188e603ba86c85d8ad8c7bb96b503be1a4b01fc0;
 0xc4d557652fd1a40449b5245494f461ae0688771c6f4c6e287632ef3d9e19d86;
 0x2e9c11f9d848f461f467311174d68af36dd75eaee8fdeb0938fef3412cd09e48;
 0x198350eea49489bab667bac0f4c78b18f31c0d2fb615f3475ad0050bc0e99525;
 0x1feaa21fb6aa40e6d3b99d464f0c9f21c0e6d29fc4733bbf6513a40ff15e4db;
 0xbfe6c87d65833b8b7963d8c909b789d379c0a822c03e33591a77bde69936561;
 0x9d31ad63366f19f5de31ca26fddf1223533cb9809ac773c664e86ef943a5c97;
 0x2092b2bc145c4332074825b2deed1cf735a606687b4bd62d6b70147734da47f2;
 0x2c650be19dcb6005092570c6981b6c6701c999aef85850dd7524c99b0eb50772;
 0x1987da1e063088e505fe1c22279a2eee2ba492e2daedbf9bb7ff7fa0ea0c2244;
 0x2d964e6c97f1ce9fe98ec13e03e39a1418f7b586ef6b624c9b14fa7a56d43e57;
 0xe44e2dd16cd81347aa62325235cdbeac7496fb36bc98a405fb658891be8335d;
 0x2b3f3be77f4eaf5ee65b1dc9420fb479926f707b6494e45c0c3456c9b1149ac1;
 0x4510148cecaaa311e8815f62e0c11155a204b9e8419430708f270cc90369541;
 0x121f5e52b5ed6d974d5d8b5e9d535eb69c207cdfa494e75a99a26aff13c9c3ae;
 0x250897c08d5b8b109dfb0a60a31e2509ebfb5a453a57044cb4d1cee1cb36254a;
 0x196b76cefdcc7f6a54c71d40114a0bb82694c936f1573ac7ac1ea3fcce1fe938;
 0x170ded62e47a24d031e0d09a9739c181a05ffa6c072a0ae4476c8459026ac92f;
 0x7a7d93f07720b729d0fc11ea7c60a819a915cf083fc5590c8034b3e299ba0c7;
 0x2b38674819134ea743614550a13ff1e8c4ae2dca4c098dbae7179c8eca382411;
 0x271289dc176782bc802a40e2b98935e1f0cd9cce1cf75187e8bdbfc5fdaddfa5;
 0x50e0d49763f9965169c815ad6d976f2c1502d504427294ec650162b32d16249;
 0x1e16a7619369f7223562609f8571294ff3134b6d2900818958abb801ed25a2a4;
 0x55be327e8e9177db48e781385c7cb9fa1eaf7f944ad5806b8040d021328ff4c;
 0x1e218f8a23818b358a930aaac6880250eaa814f4e5f4ab3720bcb53cdb1f06d7;
 0x344ffbdf73e00c5ac9603bb8205edd7a75d44a8663da028fd643d4d6f4c2ba1;
 0x127fe6bca0178af93f621d5cb8c0f000c81096f0b6d97dbdf51785ae1d35581a;
 0x286df223607d95bb861a49f083b6dd9eac58b63dee9aea94b87f4a70e6e06e52;
 0x8e3e56ff4056ea0cce72cac7f1ab3a3f039d5948bfe24c59667056ede70e1ff;
 0x5530286c0e7eae0c6b693a0503fd0271785b1a9a8d159ead68b2777b07fb552;
 0xe5a8dc54f4762a808e384f96b9af4ac56fe9a046a3ce354ce3f7b02fe5f8840;
 0x12ae091a2d3ceb050262f732366d0461725681ef6a2c98e6cb2246e0821462f3;
 0x1bb12b01d476fb2d879e3d80e38294091670654bba4f2cc2556bf47a7fa3e533;
 0x183408f575aeeac085a605ea9934dd45294c7665bf3417c2ee55fed79fa3ff4e;
 0x13ed068f2325d6098bf97f4201013c9cc366c2212817303a540fa21a530b2186;
 0x86a1854cc12612ddc29d8130a224448fbb3f07faceef1c457b212865cbaf7f3;
 0x28e0905fb2b0cda24805076055e7a974487c163f6e275de6f0a79c2953f42686;
 0x13482a7e8bf17cbf0d729a877b9374b9bdc382818d0829df7785161c845df5a4;
 0x411f1eba980a1c2246e9dbbfc95ed50786591e99706eea93b50fd4eb7732792;
 0x2e4d2ef29fa7855a8479c385ee585e191afe05e4948d3afb261713ae3846944a;
 0x14d0b018b332223d8d3a458536fd4bb2c8ab2765b35cfbd1b4f5af2bc7eebb85;
 0x7ada6b05a15e228c703ea1deed0d89a090c888e04aeab93b903260d31fb63ab;
 0x2bf8f1482d4178227da9ba8141f98d764d7d25723d12a474a0aaf2b6f500fdf;
 0x1771ec5e8d202af9fbb5a6ccd92808069ff98a103ca38e60216f4c29bd138027;
 0x1cc45818383e71faabb1f0947a7f2e2c6fdf84ce43bdaeb3108eb95c853b951c;
 0x21ca4fbb38c5efb489a858ed9b5550cbe80765807ddeb5403956a91d3bea3921;
 0xb264544c114744badd140a81312486c6ece15085107fe41743ffbc42457190b;
 0x63f973d8f7955b230c3f623e86769a8f1fff6a2f16f542aa5d25450d77dfa26;
 0xca567c8c6074baf8976cfb1c5d6f2d339dd69b91c3b86360bb72b6cddf2a05a;
 0x196b76cefdcc7f6a54c71d40114a0bb82694c936f1573ac7ac1ea3fcce1fe938;
 0xe84546d43156eca6ea9945a1f0bfe0d070c7b5f596a165d6f5b2db25d70c898;
 0x255224468137fa5731f4a79531b0e41467fc167a73eff9a2f8606ea4b8854157;
 0x5e444e0bfb3002592edf3b1a17b61aca96cc4f55369ea0b858d00a2429413b;
 0x2c9547cc8c30279572f43f6c98e57d007a8d8e00afe3232f22c86d92cfb3302e;
 0x128d1e7dd33b8a7eff38771210c3e2e32542927ab8a5bf70b304eac65a5e89a5;
 0x117ea550387989a27267059d04eab27171d97ad177b4722b9076ac7850469259;
 0x9c2d962801e81427424c3b82a3c2590f3d3a015f5d05dfae03f1646e85b83a8;
 0x26d1151c34d444d61380f618137cd12d3856a5112c1a229087d5237fce352402;
 0x71de2aa9593a6be60d825df98f433ccaff569e8f454b57a1a92a3a179419b40;
 0x78af695ca1926d0211a0c74b15ca6a21b21530751b6c89f16a7653d7b749273;
 0x10fac024afa92974f4f4b43777c31f0eaec838068e24173416e3e55f18f74229;
 0x252a24164cb696970f2696824ed7ab40a422cd2f561c1add5a7b94d9c8788416;
 0x2dc1cca380599b8d9c74524f5f370ecc41d22c4c792717a7ff91893c9e878bd2;
 0xf1970c566c802ca51f328d7a61668732660b84701dbcdc7388dddb0d503d32b;
 0x14410ae146ba19441bdfc99f88fd2425a30458ef81a97cb0757278de7c71b6e3;
 0xea9dd39706c27da7b07438387714c8e986a37c6bcb9cfe0aa413edb1d426620;
 0x12a0ec57214d783396e73e66cd8d163ae207afdea093f62ca08c1d03849eb81e;
 0x15f6e3cd0868b4e3bdeed8670ccbd35b084b2ec7d9f70e1b0e1bf9179f4e7aa2;
 0x273ffa3f96b6f990e5bac3da9121fead4c55e9a53a4cccded8ef7768777e04b7;
 0x265c7d50300accd451f9d10a056a0a9c4b61960abc7ac07f405544d2be981cd3;
 0x25704ec82bcf245817c0b0c38428f80e097d181fe4be674c56a431704b81220b;
 0x2bc004a70f93825fc7dda4611642819d5667d0c84de02d108fa24e7553a8ed9e;
 0x2c67b0e93decf3dd43ecf2affb6c8ec2681b530e89f028592649fb853ab6913d;
 0x25d1957093005c4eddf0f50960ec66bb0a71e99dfe635f3882224ba50ea2a19c;
 0xc05aad7df610539bee690ff338426700ee57012dfe44b456047c168d9f230f2;
 0xa09feb45b441685f960784f20a9daa679ffed8343997e028fd527f1c9615f1c;
 0xc3317b6e0f17024f3e8d48d7be78de51e60037b098935f715c5f7afeeee5559;
 0x186002e006875015c7995b512ab297b9b6a2ace2f8b1f23384f545a47a09eb4d;
 0x607f219a0a42d65871803946f468fe1a990978f7a7dc0a6565282240befe85d;
 0x83054c73153f2594282f425afb21bc06076820a2a936ca2e88aa93d198ad89f;
 0x1d279f18a4b248bbc61bf2647394bdced0fb95c8acee6dd036c0ede0c250049e;
 0x2e9fde89ba2dcecf4a0d11815b6dd2a93ad007660b67c14e84e4845521b47755;
 0x196b76cefdcc7f6a54c71d40114a0bb82694c936f1573ac7ac1ea3fcce1fe938;
 0x66bfcf07a648bceaa19dec1031fabc57395c4dca3503000a98eba19c54fe970;
 0x276ac7d1569f671ee8f23ea68b34b200488ba7f18d905e67ab0148bca152d25a;
 0x2f20f2f426186af0ee321282b00a2a641ee2b251399734d15e19af27ecd42de3;
 0x1c96a460e778f4af5015f52cd38cf2c41a6a9e85f6a30bb5f3435dbccb7b9e4e;
 0x227da7c9930fdc00476ca6928729411b9e65bdcd361ad27b66ec4c4e5b529a57;
 0x27b1127b1ce6f0686e0722d5c5a0cf8847ac68dd8eb498a1a2f6124a4e7d3eca;
 0xa510ccb52f446c48a9d886d6b7a6705680356500e63b4adfc43608a30c0d5ad;
 0x187297811a78c845dcc821d8193d2ae2ccc8be6fc0552f3e810ed9a2d044d7fa;
 0x229793d98c198e355838ad9410d16930e88ff01e0a86b8074ff75336afff596f;
 0x1214cf6c699c46ef88ff3713be9f3beec4ea27cafeed293326c7db4166b31ce9;
 0x2099cfaccaaacb25e8c1730ff9d91c6f82fcf436589b18d1a092f61c766af9c2;
 0x2322866854d0c03dbd891bca034f176e411dda04203b47ca04ca2c2a82aa5f23;
 0xafe4184fb8af7ae9177ded93afb51dff550c90fd4ab624c95b9e0bdb275ffc5;
 0x18981ec4e7b2dd5b75057171332150d62e2ebed5bc63ee632a6ccb4146745f94;
 0x1fb6ac0886f9dafcda077d270effeb93aa074c26a62ea6cfd141b82324dff556;
 0x2aeadacfa8410a4c07abda74bf85806b7034785279a95b17c6ec7a0ecbc4f72d;
 0xe640d01e5ed243961bd4361e2d3b669bcc5bf35bbd30181e231503e0ea04329;
 0x2e878ba571f0ae43c5d79cc04becc7c8e65316c9b6b83c0cd56124dd51966ffc;
 0xe4671548304dc6301e30360016f37d8289e8570c4fdd1189cc7fadbc02f6719;
 0x49f32a110437e1552ae6163e0890d534b044bbe2ff3839eb980ac72b15ca83d;
 0x29be7fd214d5ac3a21e930773ea4404cad8e7b751b02e186711e07797362be6b;
 0x6d4247fe770b6bf51c7b739fbecc3aa418f5920eef7624676835ac1ae061d66;
 0x21c02a9eec894a1ac2eb56d27410ad620122e3a5adfb8a8f83ee617f9525cbd2;
 0x232b4705581121f62cff2b79d0c8ea43db47514fadc741b3306a6900a0bb9021;
 0x2a3137d0e0a9987d06f2fd2dc9f61c22e3df55d4929a2322242d6a6b36e6141;
 0x12814250a734500401e41c65da8949663d7afe8c6868643a1dfd086389c29d15;
 0x1d221587e6acdcd041bc0e164a9ca84970807de46a767383c44262cbfa1bf972;
 0x115ec085da8a3839212ae49e93243a25f3b2f34c53b5786d5576e8a5e626319e;
 0xcdd08d5c710e497a583166923360d16215ad9a3a1629daaab0587b45de950b9;
 0x921c454f7b3d19a8c766875963305f4b4d6f7f8be1a2c4119315dff25c111a8;
 0x1b87d132d08fe5a6478b2ce4f40d73b8d4522fe23a4b26e96b31c9bb6a3bed69;
 0x22ae2be55bb3c7640477286be689776e1514c8872e1e0361ee36b13138d0f6fc;
 0x196b76cefdcc7f6a54c71d40114a0bb82694c936f1573ac7ac1ea3fcce1fe938;
 0x237ac6aaad2e2ade78bbbe46b6d53646c7404a2fba31795c331db8da4145e5ac;
 0x2877189f4c0d9fe01baa33a2b820b84a4a3a8b92964ea9c7b2149e4a2547d527;
 0x136a6e0031d277288d586824994cdd3da32221fc94bd9c961cbb4a371c6d16e4;
 0x18a97e7a120e79f25dc87650a56a580604ad0fe99a7b5c93b295b7231fc13e35;
 0x298a890330408d2eb3e6aa31347e4d68c1bb979a23d9c7266e63b47580fac913;
 0x191d5d7b95a739bb75bf19d63f8e787dd14fe945408aa987c749ac01a4e5d476;
 0x2449e2d526e2920627d993eed7cf4de57155a00e5f071f059b94eaed73645b35;
 0x1a0364ee68cb9c8a7a0e801daae0ccc07d92b82686bf5bde72c074247f6767a;
 0x1e88daef2272c0f1f9792a6d85f29b403deeb1f4f234522d28112c466790ce71;
 0x2c4b0d1c66062af96f71c6b23ea770f5e53c39967f0d3b1a950df67c9766432e;
 0x7ad869f9d13d9b270b37cf255b577346ca286f8979e546182c4b9139368d186;
 0x2015d96937e823b49d8eb2f7bcf3be82a8b6ea9bf53b5fdb52a4bf72c4375a9e;
 0x1ae82e2228f0080b37ac0d77083c3613fad8242b420de1a24fd6376cdc8d79f6;
 0x27f0ebfa6e2ec9fed23a25c07cdf68a7dd8bec39ce045c15fa0e921b75df31dd;
 0x1b129211eadf48d228e7a13a9bada042edd5164ea595d523503727419a5b6a5c;
 0x1541b4e3bd42e9287b5e0bde5ad7c3ce76dd326a0e53418892067a6cfbbc1bf1;
 0x3cb9cff50f4d9d174ffe46e382184d9a99306f350971156b859d76d13a4200e;
 0x2191176d2fe6b3607227f17aecd711d31ace1a71987962dab59e2d4dbdfdca3f;
 0x333a98f84a220a59b23b41a6eec5f1293aae65a9c1412fdbd05b6c730e7fe86;
 0x1d3133dc479ed041791efd9f449ac6b7a2ab67089c2aeadc033b12389534c8ca;
 0x11a957c8acc043e1dd0228a3bc3e2ca5054dad13c1c685d3fd1c7015dc541b88;
 0x9ab1d5764d1ab372770e72a734f3234e944f231d55b4802feeea21ff00cffed;
 0x2ab07fca009ae3784d9172cd0de7a03ab1b413207754249d54e0115671c61648;
 0x2f26dcb5b014b72bf8a7df0100847754ec09bf69ab23050aa6ab45b8bd49a8b4;
 0x12831914375fab4bf02d5923d4fb07f59ea7ec76fc424eada862287fac0121aa;
 0xf01b766464df2a94717e0b5670db63546816d0ec951e74fabd2070364513e10;
 0x1eec1596e07215f120c71f3b7fe2c872c0d1f0ecc2447cd0382ffc1b3d74ccb9;
 0x13a9df3f6c9c0363c8e81bb2ec06ac0124cacc3aafbfcb99ce0d12b15c1d960f;
 0x9941a17ae1ed8d69ce140125c49306cae9ea0a037563cd93dadcc09c1b8994a;
 0x790fc3d447ed1058bd5eca57d37adba8d645d5c42e7441e5c508e6cb2a7d581;
 0xe11f8951edc551adc073326138ef3493ec812ed643400c53da02d49033963c0;
 0x1ef50d438e0fb3260e615f2044df40bcf70bfadc6b819481222ddc36e39cf1c2;
 0x196b76cefdcc7f6a54c71d40114a0bb82694c936f1573ac7ac1ea3fcce1fe938;
 0x19a6c9e51754a1ba0ac6f28381aa453e929951403794d3f57566adca54593cee;
 0x2fe2b32027a048ab3c9fe57e0e0e63168c1beabe9cc3f5328bfc6e2620d1c0a8;
 0x252a353865d1bf6df4e243baea612d8d67a58c9b91b68be6f6ab9fd6cfa6f052;
 0x2445b945a65afd2c8c6d1e12224f0e1b5a7a4ea158a67dd4617f8d408239bd68;
 0x2aedc3a83dc324a21fc06b06f1394d6a5636c2f191f252e9d927ccab3b8a47d2;
 0x11ef3c2372ad8e0fedad2ada9740cf104fddfe5f26a74759e174eefa6f5aae49;
 0x16540a4f6d867388866e79a4f327c50bc06c7abf88df4fab1af55b9693c0833d;
 0x226a8cf3b4fd93fb027602a84e5c84e19fabdb3c6b0641903107238e7473f4d0;
 0x15829949331aecf0006a9e8f46f028a13efb7754976721622d65b6f9cac5756f;
 0x219a0633cbffa129b8be664c32a15d8c6f307fb00fa27267628de8a7cbd4da12;
 0xdef3ce304e0b1f868a4036fb628bce381a92931de8dd658f9a4db69808c2c5c;
 0x2bccbcda22270d6c62effb8e392bb7fb97637993bc102538c5cd58e88a228a4e;
 0x188172fe781d7b1804c9875e732ae5ba92da30e3fe79193172a9b2ad266b912f;
 0x1f30e5d70cc514c78a878299f52f298eaefbc73811fd69a8af04d6e1b235f8fc;
 0x36dd7eb2d37c58f0064ef539c409ff1b2866f3e37995a0e6b63d2e12794a65d;
 0x2943d171cc678d4b3e7bde9fba8cc6bec123fd9e18001704074c6b53b2d7fa55;
 0x16d3bd98a136cc6ed17d71e7ed150e659bc21e304859d7e91db4a75311b12c17;
 0x2cc46361954b156f22dea4b4e5836d017ad5e866df6f9179696836eb0b9ecde5;
 0x2093732993458c1dc5075a90772eeb28239503ebd2aee0b0831f253b5795f431;
 0x26fb0a33d8ba99f9d666fe22149b4b9c288f7a356f7d4d62ca019c426eae56f6;
 0x2ca9e5344928b4c5f6f6d72ec4bbf9f331563b93f78c5b6c693f9ca05a03b9d7;
 0xf86ace9eeacefd133e6f9e5b27e768d4dc41fa8a4b6d0b643d59a99b972b97e;
 0x16aa6528c3e5ca07060d40caf2050fc7c1199f3ea08c4bd2841f8816f8ddbbb6;
 0x1aaf0a3512751441abaf663b51bccc82b4aa9e031f95fc5ad831b6f5104b32e8;
 0x1693d12dc33373065921094c6ffb59f1f0361b0c5ce1b20e8f3f4f1bae805df;
 0x1a5b1eec5d855cc716abacd6b5ef79ad4813bc74fa3265e0f4966768088e24a5;
 0x1a98219aa97845f039309ae314e1658caf33c72235d5a045a11231048dc85871;
 0x27d38feb2f3ca73be6e78b2f51db9e904bd78d3f7ed495634b22c29b28847943;
 0x27b21eb7516a84220bc79c6ba5a35fde0c5804d4dc2b469f034f93245cd58e64;
 0x10882cc54c76c057e84e296d8568fd68a41a86bb595cfe644def5dee16e2b60c;
 0x2a5a015eeff7cd48c5f9d66baee6647ebf41fe73f15999b85aa738249667f809;
 0xbb55ca8ec263593081a7f140c88ff0eca81548ce6c2fc66d3c9041e7e61a52d;
 0x196b76cefdcc7f6a54c71d40114a0bb82694c936f1573ac7ac1ea3fcce1fe938;
 0x11a95faf7782644e66dd690770be8d58aff9b21c252a17353159e8e6a9cd2d04;
 0x1809bc4f74f8da0e56320179b35cfccf08531a383f8f38f055567f54de408856;
 0x29576ebe8b472aab3c418866b657b4bead5aebeb46731ac1686234f997c8064d;
 0x15fdd752a74e076a3bacc425ac17ef974ab4ce00d98e3b766e4e9da506338bf;
 0xa39afeb11772f20bd44212cc5274dbaaeb912c073ab120a0e3a5cff2f95321b;
 0x1bd3c83976780db74f4bf261b609505ba17d4269a823fac360138142fb482bc2;
 0x2455035975952299afab678e90178017ae59c02e88b66acbfd33a9a97e4053ec;
 0xf54c6e582707940d37a81057e0331967328f0402b139f40a152a537050d4eea;
 0xf3edf4b1021df9ee75bf77288e35c135bef2e641317adbff2cacd1cd63dfa68;
 0x15a4b29ef2de3e66e4ecbd99b63fe784c3d163534087d6e752935e3a66a81061;
 0x22de01c525edac04ce6418e44df62cfce81abc3238c0832a5721e81410124db;
 0x2f75cfbb2d72a93661691b3c313d73cbf48e570aff4a8981565691dbe6e7244e;
 0x176215e6dde458ba94fe6cd32886ab490c44d3f35708fb83ac032957477470e5;
 0x125224651632beae2362689f3f298c3d1cdde20786b700cf154dadf04aea02b2;
 0x25adc0480ab90662ace18ed71d4ec243b5d118bedf866880e5112278621657ea;
 0xf1656323cf512ca13dd9d53b6fea48d0bc03b7a0a510a1d1c376d7c879c0a6d;
 0x1f7fca35f19d9bc9a9c510bd904477a82a779df52b3d938a34ad370bcbe107a9;
 0x1650f10d70200c4cf9188ae72b638a48efa885d0d57e4eef3bad1908117cae47;
 0x2efa5eaf0d9848a2ba0426becb0edb4127f4afa0b9532f3cc8f63fdc6f9f14a3;
 0xad402c14a8aefcb0dc67b5d3c1df188d1cece3de0f53cb313bd630594e20123;
 0x9874e7aac804e0a72c21eff6800d99327636c1bd05752cd398c2e19210a92c2;
 0x127d6e66dc4de7272bc0e6174ca40f48618e1c90ce71f173e0363278e6e26edb;
 0x178b0d219dc9fb0d491fdca28d89d4f41d0e650c29d8097a6ef982a3d45686ee;
 0x856563611627d9d176f629668c19a7195b0bef83a02011485596c0fb37595bc;
 0x4f01e13e7e01f0fb607f39a334e5ac5a14649c65007df2e0125d2c07f165f4c;
 0x2fdd1f6a4746ffc3721fe601b31335874a23c0353b217cc6a65f98b52c48c32c;
 0x17732cc9a7ab756b3ed24f4b5cd348b27c476b0804a47e8e8024fca28b858022;
 0x8f9e4a25ef65884dd6b159c396447f11f374cf781a8932b436e428d8407efb0;
 0x185536364010888ec827263bd36282a0609556021920ad8349159c80d6895398;
 0x1fd0879f9628b76eaf032db092bb6caf8a03c437a8e7cc0c81c9531213d61b8b;
 0x122fc02a0d06dcaa8bc1ba52dc7905ca13f2766023a8e7811876071cb0bcbaf8;
 0x8130052ffef7fbdc6d1bd38334212f34f3715f0bd1dfc1b36eb58331f5e9106;
 0x196b76cefdcc7f6a54c71d40114a0bb82694c936f1573ac7ac1ea3fcce1fe938;
 0x21c85453b5c8f53b3e43499159ccef5152fc9bc3b14cf1d67e4a80e49bd83b;
 0x273d34ed60e945fe972b67c2c155653e1c5c38c4cdff7c5753de7c68d3bc3261;
 0xed8f8c0b64423895664ee04c994ffbf1aed16eb8f6d2c05b46edf07a56d2777;
 0x9dbc162c39375cf6247de315a85e1730c451e59671499b7bab9f73ec47c70c2;
 0x2bcc328db7c571f892d3d934ae7c031792571d716f51494e8b10fad60b9f52af;
 0xf2333e3ab2c7a3c13420d4380f2a8fc867538db7882a5fa6a8d899e4981889a;
 0x1bebbd7c3e88b63ed37c373e359a741a38d1b8de608adcc050b051dff7b51580;
 0x101b1cfce09e9afbcc995aee85711574de371ff76a293ecb26b4796a16bc57e9;
 0x9866b876de53973d54aa01a3095719031e0a5ea78e26194422dfaa80c7e39b8;
 0xd34bbeadd10a0556a40cb0e5f84ffd96baa82621d7d850260115312fef1a5ce;
 0x1dcdcddcc0aa7ee28522e5b331b2805fb95a75d2e90f876940091c4c57345433;
 0x222013e1cb04b56d232f806664f4b950bee1c8965d49dfe59c7d9a7f37be70a4;
 0x140eb0a40f600989bc70937e2fb3db0e1cbf4ee953bb5dfb11c3ac257105acbf;
 0x1c2a10c01046a2bd06eca1a7850d8815dba9dcb5002710d469763ee12ce733e;
 0x4be5c9c1a16eaf24f0fd62603edfab2a731488c6f0066a29bdd96f8595f903f;
 0x2aa1bd7546c15d05452c1ecec07be1a96d1a916f6306f11eaf52145be3efc41d;
 0x1ea9d7108069582c4db4000fe9c999d50a6732feff50099ed5863996a0f4dfc2;
 0x244b02346c1e7aa223e1cd73cc84de1c6a729e722410bcd9c6c21c10f81aca3;
 0x818f382294f0d2ad1e50c908d6d58b0567eace452491c7e7e2ec8f02dcdf30f;
 0x1a889d417861f076033045816bd9d152dc38a64344876435c43145551e938c57;
 0x2a741e0f1842497fbf481fdb838af76f016c7c7f902d0f1cf91946d9b19b8f0;
 0x6da5a57ba1e1f0e02b65254d7ba4170ad9f42f8c2e209dd3482d9d100dcb69c;
 0x2b015d97e986c22f639d439958e5582192ae2a3c5e63a93876ee2cef01cc64aa;
 0xe6fd84ece440532b1d2a84794a2c0905d14dedf21f1cb88ef011d6d40a44966;
 0x180cc40f9b1a551d6f21a2616a31fb14ae3de6cd3f90905090112f08cd2a517f;
 0x113bdae7dcdb55a5a29449e0196a7ca19785e8f406aaf81d74f7c658604d7b5a;
 0xaea1a111b956238e2034bd82eb6566729d6b744738d0f907c24e91cf0e270d9;
 0x2d877c0d3637dccbce6fced14de0db189ea37e2192595d31ef7be35042b49789;
 0x64a1369e5439801597f5f4e2a95058e001cc3b7d449aa87f991c81219590592;
 0x133405bb6e5e245a0ec3785cd300ed55706f465191cc6af05debfc09ff323eed;
 0x228bca7f9390e0cfe1125af0b7ceb2b228fe7d373e3bfe077385682669dd6231;
 0x90116384ea569082bdf437341c03094a1f388ee217c0e6aba3987a55cf62d3f;
 0x196b76cefdcc7f6a54c71d40114a0bb82694c936f1573ac7ac1ea3fcce1fe938;
 0x2dcedcc12959aba1b815150ec24051fb4dd8440208b0f4eef706f364709fd64e;
 0x4aa0509e7a94554490885f0bc0055b4f23a003e14a2cdc51a8f1500b738512c;
 0x1ad3b6634a63d1bd97d8d745888387e7030be2bd5219c84de5a4b21f6e6d5c9f;
 0x2722ff91fab311d5cd493305ca2e581d23ab35103b7a31d7436fb4351e5167c2;
 0x1756e34f7af0be32dc4312c914ac48b60ed892e0a941866b5990c475326a0a08;
 0x1f9681a26d581ac87fc486d845382aa8afb31782fcdc16ae3e996bf79e8910da;
 0x2c407593aa6fea946d0ec1289e59dc993dbc1d689a02efefd916c42b56d4e056;
 0x12d5a1f35a3bee7be87beb690bef3b422d4db19f18f457345c5b13732213de41;
 0x1e444d4510e2cb542a4bd1af5232ab8376e5998f69193243509b05648b59e317;
 0x1c51186bd573f6d8e39dc9e5f85ad954ee64951ba2455dcd9f415b2ef44813ae;
 0x24c84617d0f0266fcf18464eb08422f51633915380696b571dfcd52fdcab3825;
 0x4894d26fbb969454287e1560c81f0bd33e93a0ff0e360f882f03621ffbb724;
 0xd669e170c4428089bb490e8af37bf2b4885f61f49154eaf4bca6867321330cf;
 0x54ead1e70a68a2a5bf0f9831c8b37e0c4692840a5eecce2f10842aa9ff4c77d;
 0xaffcbcca6d353dc0060f6c0e87a7ed6926d6518e2e20181e76b0ebc3e55738b;
 0x21fca621016a771a181efcaff53647cf8ac55c30813c7e1b7e0c54b1b14d4fe1;
 0x12f2e46957b88910c30c9554fd01780e074870fb9df0252cb735dec70dfdd6df;
 0x16baad45361a5052c6008a02803656108d8bcf1ab65f3d1ee9c866e2a04f1713;
 0x202cfdc4cb85ce703b7ac41cbf904593481c951f9faa52e44594c3d0aff5f070;
 0x2782837366366c2f9b943714e6a11097321394713577fe59dbe72a78f4d93741;
 0xdd863bc6e9a0abd947b2684abe555a269da1eb7a491ea6c5d3c44e0cbdbc0d6;
 0x2b1ab0a5b5516d7a4f31b68c93f21638a3bbb9ed321b9915412b422929e8d42d;
 0x247c684cc872df52c2396d52f5c691e459e181546cd644fba41843beda35f07f;
 0x17b09bebdffdacc6d3abdfd4fddeb0a1d04150563119def60d9ae9de6b13d0b9;
 0x20377c6ac1d667eeaf88e001648da149ea26ecbaacaf079f0a089fd6ec42694d;
 0x27baae8b9a93a09459ff4c88150b93e9fa3fdeb4d719d37e4fb03b29afde1b0f;
 0xe105b04d1d6efb0def9dd3f43655181cbe4a1ea329e779cec335e27190d0840;
 0x1684a9463b01286e5ddac76b990c6ae285c81fc4f7e7715b1ddc827e5caa82f4;
 0x1a1171d2f0e3c131bab4ed613fa111bb85f3605028028f5c1337b4ab542af356;
 0x228742f926c112c443bc2e362be8a44c49ed66e17038f7be297d51482c548ad4;
 0x10bd84eea945febb47f7296e5bb833378ec26f61c36d954b87a5423754b0d1d1;
 0x2d17cac96f225898038e5ec16560f6563f768a7e127bf10ff8ce1bba63d032f;
 0x196b76cefdcc7f6a54c71d40114a0bb82694c936f1573ac7ac1ea3fcce1fe938;
 0x23091d6274d72f0516c11e52c62a89e2c218acfcec269d8588246bc63dafd307;
 0x9400b7e97812bf8321b96b3c4bb695dab509934e197ef9393d9921a320fdc5e;
 0x1c9c8e269b7b5d2527e20b5d340f2978fe4f0b969e2b1f33b5ad8ace05931036;
 0x29bcaf9978fe301ee64f032f3b6c5aee47fa89a118490ece975e4765a688e277;
 0x2c43ee462e5eaa57409884a4bf82116fc74f060cd3ed87b249066bd753e57833;
 0x1045ea9efdd2d37654f2f419bc1c1e07dffc13a78e78329d66a80e816b75e0f;
 0xbdd990f09c0fbfcafb0ad5d2e7609fc639f4643262b9fe6064b1cd9f59fea9f;
 0x1cc3aecb65d88c117e077773b2ac321f1e35552bb82ecfafc19a6d7f58cca0b5;
 0x234ca75eda2b98da7aa4bcbdaf01b94a0ba116a7cd4def0864e27ba56623ac56;
 0x1e5844a479ef874349416efe4ad14c691bbd4d60b6a069ff6fccf0b4268368a8;
 0x15cf4b909eddcc0af84d45aa2a5ce40f004cea2337de82214b5b1b8bc25fafc7;
 0x21fcbaa23db9816f459fe5dea6035f4416bfea9e46b1ab150335fc986a5d3454;
 0x23096d193c542015f5ea72945e427601d8c5213652cc7bed15a26118408f3528;
 0x11ef3930fae556e5688b2e5c5b646a9bcf2cc8c9ed84699798e380534da1ba1a;
 0xb2804a0c39e0406220d23e5180ea34743b823259dc5c037e27fa14d97aa1236;
 0x293618a713ae76e001654396f1e7ce9885f07515d1a52ae6188bb68411cde19;
 0x2083bc523f48f2310fd04db4378e73b3e4a774c04c82721c347d841cd429c1ee;
 0xaf7b362c84812df2052d0e04ad07d830100079327567a741f0e33b05f20a3af;
 0x2f0a9bfa024571a9eaebb8b6c838ee153298f8d66282665b8d413e67fb9cfe75;
 0x8e5f97cf239846c4bb22151c4fc6b54f6c078339d48834cb674108ebcd533d8;
 0x2ad7be60b34c132d62758a699ee2b9b9902b5a66f4d0a1732957fa312693130b;
 0x2bd813ea81fd2be04cf74361aa9ec03890ae9dc9f2c62e392aa0077bcef5c39f;
 0x2e720551011b0b99d8a0265f870ec80f9b866a0a5f158a2baf5647f07ebe9982;
 0x2bf18b6a692d4c64185b59523fd75a045a4844d8df2d931c739fa453740b3cc1;
 0x1c166f7ccb69a59db6b374b355fb08d50eaf4df7760b2c3084b229e822d858d4;
 0x79b610d77c02e9a71628bdb9524d75ae9822b98d32f5bc8624e3512fadac097;
 0x1916de884fe9cac13806c4f7061488f0a57abd1ae403ab0257d21b48a0e411ee;
 0xf107fa1c9d4a774cfc10bcbc3b38fd7078e0f374b5e9bdb38e1e04d26d3c383;
 0x1b3ef1482c15923666e1cd5dadca82661bfec0a3a58f89e54fbe8fe2428669e9;
 0xa27ba24a2a7ad35ec53a125a0447abffccc68a9158523ff88cfd738b0212802;
 0x1a525ed62eff06bd139f3fa58d088c836c381a9ef859bf16d0c4ed2400463a4f;
 0x822eb9645c965d4f6b677191294e0b5c757d448ce5266f76ae8ff8898b6d0df;
 0x196b76cefdcc7f6a54c71d40114a0bb82694c936f1573ac7ac1ea3fcce1fe938;
 0x1af46f08f6cf19a75e2deca250a062244a541413cca7183cdfb8ff3496283677;
 0x1839ce61b8c72bdac116fb26e68db1136b21e762a80dc263434ceae93e71e226;
 0x7bcd29e7a46c57bad325631b9dc70f779746e4e3e83b6149cf7d65224299cc1;
 0xa58deb34a1aa7a97fbd6de55294ad6ed911731da0f1973bb30cc4e50f974633;
 0xc189862d767c9d55128b55fbad2c53c3c7f09f3cc3805404bab81d881c1f79;
 0x3f08f5db02c8c4197fbb743163fa98e215093b833ca0c1d709a30517f1bff67;
 0x1bd997c5ae62f46a4fa08c71dd8281fa20da177c45a5b5e0ea4cbe42a9d768bc;
 0x1dcdc615a1d29786c2a6b9d356e15f14b0516022da0c8237329d9ce31e6c9064;
 0x2125c1065d8c42af0dbc0d44be29723de30316bb190e487fac79c6c65180c6da;
 0x2a9dd846b9a9250303ea18da7dd2f67d8525074d4259656b9d0def7f2ee018d1;
 0x2a1da460ab707f31653862ab6df0bfaf474d39cb909d7b84314482ad8015bcb8;
 0x2f4620be83dd42a9810cef816801cd8a77d59146753fd9589a4437f43c44e295;
 0x2390bc3ee228ab2dcae07fd77d2f2b82b39be4a3fa9d15a82678d487a4ced7e3;
 0xa0245ae7c93aaba110979562f1bb38e2d6e47f8f58146c2e0af29a42a8f2225;
 0x27e3d9f7c0d6c32a9db8c79a3fff7227825679bac449cc5567f21edc213d94a9;
 0x2172e74151fc03eb201e3e300b2a085798e6d27426da9b9e2eceac40374c95b6;
 0x246a685246a9403eb01cdb380b39b49b35d649136870954260afc23e51129460;
 0x4f050f7043b183cf35f65e5590bd1ef9b1a88b9a1154e5a6b48b90367679ccf;
 0x1ad58c70ac13714b721c7e1e43474983524bf5ed75ea0a375964c17eef897acd;
 0x9d3719d52186421cbe870a8dc16ca12d479447bbc1b7209991d2ada9cdd0552;
 0xb2d605b80d2d16b8bcc936be91a9b58bf372160c58214d5d05340268db293e7;
 0x15efc1be172f0c1cf80c28816163d6281796fe3f767449dce700031a9809382e;
 0x18a72ca7580618a6772dc37da2d0ec3721130a93ed2baf7ee8a458215351c5bd;
 0x18495f1fa2b09573b0122a6f3bbc62dc8eda0c773c24cfec946631bd226a5222;
 0x22835e515350739783c361cb745419032be6d7a16c27cde776cd9a43509d5027;
 0xfbf1fa536a4d74e1eb517dcb715dbd57e9c879fdd1184956e1aea742c4b0c11;
 0x1bfa4ad591bc024f156f69c1c6ce033e65507f6f2a1b50f9a370ea96dffb4fe1;
 0xb48ee00c1a3b873da040822c8d84a7d413b07806c5ef6ee1670502a2797788d;
 0x1b0c2c9ff1649fda06155af9c401957dad06ba11c9d6c284ac3d7f6b2e02196f;
 0x11b9857c7ac1e55d6696b9323eacd2b75e8e64d863221f4c49b50c0af4ddc907;
 0x4d2913e434864bcadcd0a0f187751dbcfee68f8d42eda00afdf9fcc254a9297;
 0xd47a86ba4e4c33ab37f00aaefefacf692c1baf9b37db068097f619f44061fb1;
 0x196b76cefdcc7f6a54c71d40114a0bb82694c936f1573ac7ac1ea3fcce1fe938;
 0x2ee08c0e4d7f163fcd113539b4be76d5b8c6dcc306994016e2f50b4065ac0c65;
 0x2e4ee3771e570cac361666fbb6230033f0d2e5df5a43207f4c8c4642fc9ca473;
 0x22e78c9bd18311d225b9f88c117cb18e658747d500bbbf61c291fe7ebe2bed;
 0x1b015cfa490fa705be3b9f5645d4daa23c2098cb0939f019d1697019b00a4435;
 0x153d716532b1856b425b07c5cf73f7ec4bad3458ff9e031d6c191da0c5150f5a;
 0x25ddff7645c1cdaabb52a3ae26931620a4186ed35cb914b0cb76bec51f7b561a;
 0x21bdea71747a451c7e825e508ee4c40df40404c011cd5f7dd62ced05f3841437;
 0x2feda62db255b655f3be96a4847d2f1691ce658456697ecc602589c3ff0674db;
 0xd3187541007936963cd4bb6c93596b7cfa56d828df39d9f8ff05d934def0ffe;
 0x26e633f970dbba038ffa30d735ff34541108e2f7bc0e58fb25b8d038eb574c1d;
 0x23c8473f9504bc04266fa76bf7064d8980fac8454fbf44f68c5e93fc37bbfd9b;
 0x187a7a328ebe30f3fef7620ec582ae3b457ed1d8dff8a30d60c518c1d3f8502a;
 0x1072a4199dd532ae3d36f2c3f07359148be4d81ca1f1ec06bcec2c94b50030d5;
 0x1d9c9c64cced19734c56f62f6adedccf54aadb170d499a91617c7bc34f0207a;
 0x1b09945179822511bc0b3b20afb76f146b119051e2c6c8f5b9dde03cc761b170;
 0x29d1379f40c09d9a8105f1814f9cf4cfa8419d5442c22575a0f9836ff6728216;
 0x200809b6e7114084a23b259cc6dd8d4aa9beca3ee806557a250f98523363d583;
 0x13169f87f4d5bcdc80277fd4bf931744a09d4b0332e4e54dc351ec16f256db24;
 0x22486dcd2b50c5a6e8b08cdbe012907083817073b975a842751aaa497389a092;
 0x986aed7b10fc9cff4a80d5e338f69eae4aa25b45d931499fbe7080fe13a841;
 0x2a3346c974a7faa8f021c72b4b516dc527033dd96dd87a29013a54ff235069d0;
 0x1ac08487b535338f18f39bbb2410e0c04feed1b023c2b31a69c42843b46c7b4e;
 0x2db4eb2420d57123dc86f82c289788f4f5882143e70237ed7aed2b318f2f3f6a;
 0x179e156f0f6229e6259dcb656daddb273efbdc57b78b1800b3fd492ad4e2ee85;
 0x18f1ed42c2dca995ba6b2b418378159005da5fd6d46f31d424e404fdf85ecd0e;
 0x12d1ddb3125c15c61e1a07709ecd1782cad928312bf4d32dabc0f3244b98c067;
 0x19a555ee9a57b0f249f762e63f02fc9dc41421569e40146d27b805d6926dbd17;
 0x22905039eb92f068da4da7f2bafe65b1743fc2ac15dbd1dfb50b6a8b890fc933;
 0x2aad30b3fda588c43367320323c66ea6cf3137cdcf1306e93d173f1a5f5bab0a;
 0x661d95dafea3da65844c73147d86b8a152a0c737c6550d2a590597b6be28986;
 0x149f69bee6b12529d2a1332a22ff6cae413b864da5232181dce528343488fb9c;
 0x2f40107da2eba4e1d816cf7cd488861863a460e5e00780c3c07f56c946096b24;
 0x196b76cefdcc7f6a54c71d40114a0bb82694c936f1573ac7ac1ea3fcce1fe938;
 0x89517399fdafcc090ffacbfa0f82b1a356c182a9b8bee5a125afa14416693a0;
 0x1eb0320ce68e5c0a8b9b6c8ceedddf2eec4a8dffc775f43aa9545f4432f1597;
 0x9b3b380291ed46dae5ec6779af517d4c8253ef609e78a3611e09a6a9ebcfb76;
 0x2712ea45ea88a54e4899de133f9d02454004209aea0434ed07cd33c9305c0107;
 0x13e4cec6c5fcb7a55d2c5c9e0dcab0ff3a3f7c26edb5c0c5f5bc00c036817e9d;
 0x132f73f3a5a70fe12bd077c340752e6837ebebea4e7e8c06672c3e0c09aa2436;
 0x24f5ae848c7765ed4cb20417114c602e8186fb02d209b22262ef6b2f9f4c2d4f;
 0x1f3203e2946c3e784da190ea76628d98ce46cec50d7720c6289b9a10b029102b;
 0x405b17b0927364ef8a190472cf69cc8fb91338ad0a037a6ccd6b71d3d8a5721;
 0xd7be909c6d203f7ebbb26f688c104599e34edad7bd4fa7fc11c6be8d2005234;
 0x23b843266076f360c24e39af50a5f74adf3ba002859b6bb7d503abf45cc9d338;
 0x12ecdca40e7a5ab513a78862d77f90435ce4ca0835a966112e42457c93520039;
 0x248096c473071c7c2d5c8dd84006c245c6152e0f86221d82f9d0b2ef68a0c1ea;
 0x1200227f631558e2d83c5b6c386dbccd8c019b327190ae6c21f5e6ab44bfc644;
 0x1d757abb199a6c84d960aab443cefeb6d6e433b5cebfeb198f803eee3effc0ae;
 0x273c19ee6be35b4b8999349c7b7b83cb57aa165f0b302a2d852be61e83409d9d;
 0x2d1ca26ca5d5dce1ea42db19426bd074157d35e28ac98e9d0e25cc710354ed88;
 0x2ecbd2ea29341b707d79a20744740982390655279542f9837e77f89b127d4a6;
 0x266a6643f4b1c323fd22d8bd34c4f9c431032f05b0c856e107d92c70d4bd5134;
 0x1062e99d5dbee4ab0c047ac41ccb0121b492e604fe10e2db4ad43ddf677f4266;
 0x15f2b18d006fb5f2bf5801f8973bb94ec3d4b03e8d656a59bc09954783ee2b6c;
 0x72368c0d5eff7b59f5b07b27540e85ea042a1c80ef063554f53982bc581dddb;
 0x17aa521645020d9a4914e5679bdc70c0772edabae0f82c0ec5ec29289e0cf286;
 0x2f968cd2126db9260be98ac5a64250d6b1dc60db752ce86342dea9d7d6eee209;
 0x1824ed09caa77169c3188a0a3287faa284ed7a51977826f1f64a1c2be32c909f;
 0x2b8fbabf299d9da38fbd033dc61444ae2500c1205b785a5fab8996dd9fd2ce68;
 0x1be598eea60828e10e0c4cbea95736584eb83c6ac8427320802d9083f5e6dd31;
 0x463af34caf20c7b2cfc3ba540ac128fae440690c1fbf4bd815ea2b854183ea5;
 0x2dbc1aa280bb43c06573fd90ab5f0530ad450b992bcec2797ce0adf60937ebef;
 0x2aa7cd41625eeed2f8e460ce63d2bafd64329959d40cc2e6fe1d5c48be5c501;
 0xe3c80439636f2b40b1ed8d33f792f2a5d2e602da651491913ba45df63e777de;
 0x3ae4d78e90fa89f943dc0b4c56d32f5c846734071ea1bf6bafeed9e83f40f4;
 0x196b76cefdcc7f6a54c71d40114a0bb82694c936f1573ac7ac1ea3fcce1fe938;
 0x1f3ba6f2a0ace67807ff54fb3752a740b90d4098ff54718df07cf6b99b4a3611;
 0x2b2d8688621a0b62968c64cab0db27f41a51b32a84980ef31760d2365d2c3c31;
 0x27ecb287f3d9aaf1137d4058abd749febc280bdf70dfb7e5b61a7efbdb32371a;
 0xda7a17691f64048331fdfa135dc56a636b1bb8e1c08ba7cb06e9bb1a8f5dc22;
 0x228e87cff48ac1eecddd22fa3f50214fe0505cceb58e8aa515a9b21a22cde940;
 0xbb1e094527421fde9a1229ff4878eef766152df2998fcfa44ac7b71906bdefb;
 0x2162e5b127d7ea5fb675aa6be31013c2b9d9429324fab62ba9ce1ca21b3c5f2;
 0x5e7c2a9c59abe90189615a15ad93e146c27642aadc29e4e40b8dd9cb735f4e7;
 0x3b7e7cd0a61c8a953ce16bb6adf8f61f49b560e1991497ec3af678413535e12;
 0x2b48a6d7de08553fae906852fc7fb1661e6f5036185a3f1a75c9a9abd0c784cf;
 0x1451c962e6d5dd24e45dc7e078dc64fcf59634073c13cbdc5b8792a51ffb8e37;
 0x22aba4d49ebc306f4b7b4e2bc7b7a1ff4411d89890f9fa5ba2408cfdfbfd18ae;
 0x8edd76a666b9264c34b0069c62d2cb61bbeee55882ea1625d3e178544cae4a3;
 0x1cfa9bda9fe33f9db0b1d190eea07fb0dc6855b74ef166743abf80aaa1504fbb;
 0x21825a8220bc43bf14b06dbd2b92424547a3fcd0e8b0d7ac7543f56382f98732;
 0x22a03c9f4361294621f902a43008812d5bfacad871172c3004b7b58126690dc0;
 0x2c4d459fcf7b58e7d7308af04d943530955cede00e37d3ed491b86f05c49beae;
 0xe099659a946824830b1fc5e17d4d60343f2879ef488fa45a9e3b3af3e80a143;
 0x3b256a5437fa8edaf6d7bf9a7b2e695f06dcbe80aebdca4f30e28c8c4a49882;
 0x473c1deeb016648a6d5f3d0fa4bf31d1d4b9b6ceb0c7f4a76051515104a617d;
 0xa21735e2b1040d8dfc4685c5c5a42ed07a02c216465ccdd3134c157361995d3;
 0x1a0b96ee186897808d9130525778e13d2259a406282456b2edf84434e081716;
 0x110d5d3866aa52ac620b233dc0d892c39f9e376307a7310c994c8aeac1233f4d;
 0x1fa9ce9d08bc9ef43200929b5512236852d4fdfb607f5ef24ccb666dbdf053c4;
 0x8b8fb57cdb79ddadf41dd3da20efbdcd502e89c8e21323ec99f0aa99b27dfea;
 0x20e451f487bf7f30afe6895258df980c732440567ef2be720f683b4d9bce93e4;
 0x18934ccd6b94d3d27af8fcd8f02b3b2aebe21465b9259c7def51799f1d971901;
 0x2502b2fcb6acfdf7bfdda3e968afc622b949e55d567100c4007fa0b9405936e1;
 0x1e22a9af8fdfe9185346e22a28e4fa435f64c8e0f382ef20f27c0f19df51e520;
 0x1bacd78770219cde479b8dee99d460c73a22f674ed0066ecc55d2344c72a0fed;
 0x1c5dcc7784cb1a230304a6905b05621618b89498a827ea77293b96d8fad9fe3;
 0x1514f7a6184d2f5de98511d358572d7d89d33bb2c6d27a5fdd768178af4d7789;
 0x196b76cefdcc7f6a54c71d40114a0bb82694c936f1573ac7ac1ea3fcce1fe938;
 0x2871dab4aed8cf27bf0e9a2f02f0e7f9c46057ea80fa64d358c4acd2bfbf35ca;
 0x16b48bc071b2d9d75c6715e959788a5c2c634a7ee951f61c6c252f9f4c96e139;
 0x2423991e2cecb8c7d0cbf1f6c75a96fdd9cc3e1d3404891054070888cf58c027;
 0xaf6489dcffa0471166ddb75d46bcbae57d239e90051d360100acad86309bb34;
 0xa8fb4c80f28764fb489926f032e0f6bd6bb878ab5632b94e6f960e841780072;
 0x2ab3c31cf9ddab37f0742aaee26190292952ba391eb6764ed69434d0553085e1;
 0x128a537033583b876442e4b5274483d0e766a01ee4ab310839f6d8a66c052ba4;
 0xec7bfaa62f8146ef2bb13af733cea64631b21106cd47d456823b3da92e41530;
 0x1d26f27900c3cf2629a540caa3f2fe0896977782cebec4a7c5fc610aaf9f288e;
 0xcd7296fc0086a3895770b3d0a7e27302c80383a017e432b69fe2503001d14d5;
 0x5efb5ee8e22ccf78945ddddeb3f6ab0ccdd2980aeed476369011dd2017d2cdc;
 0x2fd3058e8276c3e1044102e37c8bac9f9ceca3d4898dec5227152bdac4876063;
 0x3041d0de272cc4007331a1217ba0462b41f9396a251407964e90f77d20d2be54;
 0x22b44b6dc784db7a40c2e670800e462758b5249d78921516293fe1a51866ebeb;
 0x1472f9c6b744713482cf7c9f2c82edb0cdcb81f238ddb5305a14e164909a963;
 0x11cc50e647086a21c18d924e5cb407e0895d44337b760d95fc1254b690b857a8;
 0x1f6870318a97b3458482c2b2e8f4896d1bbfab317d95478653847bfe27f73a56;
 0x527b77967bb4404a5a78d8e449466ea5dd85d36d29792fcae4ae26f30c39253;
 0x114776906608a453804a6ab3ca1fb1357ef1e68772ce78d4fa53c219b47c4ecb;
 0x227cabf1187a8e8c8b983e4452b407d3ad0820e9cc000ea38d2298cebaf5ed10;
 0x2cdb16e7154d3366e88217ff94382b8a7dc86b47ecd50620b65ecd5f98aafd89;
 0xbba92a567cd15cd0923cb79ec491f17595d6af80463e9b7e2b2c9c6e662fe41;
 0x1621a037774eb85fbb2ae136893924aae5ec0394764f2bd204e6e3c2cd053e66;
 0x1b2f4b4974fe9c4d2f6ba8f3b51084b886a115dada554e313910e6a0a2a736be;
 0x17f058954543b8005d9e5cf0393b669790076e523dbb5bce473d67d98b4660a1;
 0x2a131d0e2c1938f53bfad52e5fb33120eb12d9412dfa7c2c79b20a4a9e618a96;
 0x1e1f17b82c8ec06747b63629d99e72f5f3cbebe8bded20c0bd7fcd7ff8422321;
 0xf92dae5b5070535247aa7062d15dff0dcd533f7ef798556b1f704acc72a1a91;
 0x1e26cb1e67c4ca4884975a5dbd44df8c05f6a7a813d9c3267fa7f735cc144db3;
 0x278e469316bcd00829620e438af377734719124f83c509d48472294be9910f9b;
 0x2d931e21c6bd70dd337a21eb006cccc570c8e248358e256655d4eb409db88256;
 0x1f3aae749c86c139151590615fceb9b55d78b0436d6846e4ab2c30abeed628a6;
 0x196b76cefdcc7f6a54c71d40114a0bb82694c936f1573ac7ac1ea3fcce1fe938;
 0x164cecda3aec3963de5deaa919a419e7c3e7ed67b00ed3fe37c941bd3aceec41;
 0x1ae5c087043dc196e76f2c1fcd004f07bf7622f91480c2f43dff37466824e28a;
 0x206d121a5d5c0e50c6696a4f6a3ce23d86e842db48b98006111cdf9eb6501362;
 0x273853516d030f966503bed07d9bb25e9a78daaaa8a16dd46ce4ead8b0ceb92b;
 0x2a473b17daa8052023496f81ff3471c76bae27ed780b23b659056288f9c80e8d;
 0x126700ad12b26c87c8f7c90e8a6edcc613530f09d04258d1d0ecf0732d143cf0;
 0x70f6900e211a2d3ed359a44c1949447264d51580679fa84dace529a0de19d42;
 0x1d196536166aafe99006756cbbb15e621903ccfb19346cd45ab951b01348abd1;
 0x16a6413bfd363eee8d28cedff00c8c86e15745dee50b2ae15d45f4d796213d15;
 0x14fe39f6bc1fb0e0a41f9cdb142b86ff95f1003519cb3a77a05e96a30153132c;
 0x2f3719862194ed2deca377a1f1b58eca9aa0b726d3d82859ac5acb5513159f08;
 0x2ca365f66b59cc38857d65e1ab5a841574d5bfbcd0f9c2607b704232d7d85a02;
 0x1823d36e1b33841eb34a4601668596fe20e08c28f8772ca3958fce53be2c6c20;
 0x15d27279b7f1b7514d007345f4702852507d07b64a2f1665718efe5b74578898;
 0x11b3efafbd53f96ed7d09373534f299562335045a51e43cb1aedf4002b7d6bb2;
 0x12a0a91a6025546911068e6f50fdd1c6e368a52afc769952c4fbd9734f5004b8;
 0xa9d7fc64fc90b912b49748faa4a4dcaeac8f3e15df09fc92f7066b55904538;
 0x15371b75e8adea4894822544c8d7cb6b670741aeb1f1c465e35786fc9c645df8;
 0x25fb2eaddcde34519e511e656d51a90db8518b6375646ff92caa4a914007d517;
 0x2dfbb6f1e212006c39bd89dd4a6543eb0fcf94882febc1c958eb81012f17cc53;
 0x29593bb7f971b987c1efaaf91cd3d70478b3b8f519e210d109413adc4de72807;
 0x134ce1956a848bec4ecf9b6033710c655b425fe7a2e42a9143d989c876e07b6e;
 0x232e589b327424a374dcc64152ec03029cbc6b1e6935e1878c89f7daca2fb8c3;
 0x2ac4f4d9d1ed520e21fbfde98b4e9169aad8f701b95f7aa6e1a2799d72b599b;
 0x13843ac1a48019a500ac2aa8313a9143b045dd338120bfc4b4e91c1750b27bb5;
 0x123366fe683fee8c58bfedfa072912dc1bf50c906115880d4954763e648a7c92;
 0x147bc77d1f7ef7f0604a669c3bbfa3aa535711a43a8ebc25f786db8c951dd7a9;
 0x2bb5eb86f2837f69911dc3afe716c5fc897ed54a1ca84c7e473a92012394166f;
 0x25e9535591df883d7704dbcd8ee87be36f7a40fa9d360b8dfb5a38892936d47d;
 0xcf22a6787e93e4af1d585205f039fe30280460e02c64b4aa6a0fd361fa09210;
 0x15daa89536023119f4f32836140088bce9082cd32db18edc2a4b963ed61665b8;
 0x26a41abc8b0969da23c9f511b4a47a978406ed147fb0687d146ff73f0a3f2908;
 0x196b76cefdcc7f6a54c71d40114a0bb82694c936f1573ac7ac1ea3fcce1fe938;
 0x24603e3d523263ba69d2161f7bd3c01b990b96aa479b47d8e7bfda5779b31a70;
 0x6f06827f0a52b2434751f1bd23bef70edc803704890114a33bc1b173cd3fa16;
 0x18821acd1d1a183b3974714b4c15b9aa338da2999ab219a65ef04d6538c9e681;
 0x25d1c75c19bd34c31e5dead0dbbabecb70a1952af3b9acc945e6bbb7af79ab85;
 0x2d16cd48d5eb9d3884782960fc5f27529562190c5c9203f1b0b220b07ebe2251;
 0x1bb2eb154cea451a7591bc895cf9cb65658133c6f63533a7b45362197d883e67;
 0x2c1c099ec563345fddf03a6c54e2915f1a7c890b6554cc496856553d2b2173c8;
 0x14de7c8a6f75d5c098439608aefd9d3f2224fd7ff2d301c62ae728c13cedcb56;
 0x2a12b1666687a8f3a14e61590ab004587a058e42c5f45840bcf0c7a03487f34c;
 0x124f681268028f4ebb6678e070951caa96bcaf09350bff4f72c093c2973d16ae;
 0xc61ee197e59676973cb1b0dccda3d618981b93d24285440f223146a7aed3f8c;
 0x1d6a13345c16963d0fc372a33a3ccb9d7113e42b8336ce4a0cf68c6c1c3bc24f;
 0xe90fe044265e093e82a00cb140c9ec848c3807ca216ae5ca0608b360547e72e;
 0x28a0106ab648b3fb1963e8b51f6a26cce8ab62d75ab26214c389e0c719737002;
 0x1903a3f14cccc405351a0a3ba23106102830c134d14c378226d3a6599e75527e;
 0xe69b6a45f98dc94d36e7f80045e56fa8927416f96bf9b2b603c32c6d0026730;
 0x24028083240f0415ae27d250b5e9d2611c5baf6b83ca01c5fa08b2c3984ba37b;
 0x10b97d7b32b7541cddf569d3fa3ba4fc792f67fb4bc8abf142bb9765ab3fbbc6;
 0x18514e6b6663e92d0b702f6830542f841872a9865e8116b68bf03d55352ed948;
 0x7e84a91c22df5f22e465c35f665c6a56c7d41e6f20f3d63589aba4a168981a0;
 0x24c67c3debacff4c75f5ab6011d39a6ba905a78980603f9b520dc5f07826d2cf;
 0x2302d72a48f7284aa9dd46013f218acf1551249c22d8331dfe48c181a06ca28e;
 0x1332fb9ed5a5a86c5f70cfdb899cd053af1cfb9557af1a5137be1e727e3169;
 0xecd3e7955fa603af46e69fcd1699d5d57db5eac3b9095c0c7e0b6d24dc7f542;
 0xb7012f95446a6e56b35ba5feabc8183ef882ab5e99b48dda6a00aa4b5282ef4;
 0x2d9a9de40201e8aedb6c83aa64d6801af749b464ca23db2a743bb6df13c72986;
 0x29bd4a19c267732d1f213a478c9c677a47804a525df520ae995bab6c79f0c375;
 0x1462f5ae05431a649833f4d33d7199c6af0a27a33c6aa74514d706bc5facb110;
 0x291f96083043911e45b87995cee2d52a0c4c1f1a2537b6e890d293b1fbfc05da;
 0x411cba90e608a51a8d3635d7e842ff58c4137db7eeef0ef16422402b588766f;
 0xf7b5ea5565816bbb8c16bfa946c6145d607e773ec10b74844511161469baf60;
 0x338cdfab4ce8fdc9f081c77f3b7a58f5331d3220cf548229c8bdc9f5e49baae;
 0x196b76cefdcc7f6a54c71d40114a0bb82694c936f1573ac7ac1ea3fcce1fe938;
 0x124f60ff00a0e62ddc0a356926a83b8892a7fb8602d5d3b955f41f9134953107;
 0x7ec673039830a0f06701ad707de762e97de268ad8218f4e771ccfef70fcaad6;
 0x740e5d063abce69067b719fb33e30e4b3da7b6c66f26bd2d7b5320a04dce396;
 0x7808acd3ea0c249f88efc1360f1c6e539561f31208e860921311b1c29b598a;
 0x112bf7f10ea174a939adcf38e91511c7c00990bf176d3478ba5c5bcf9c46d89f;
 0x197b19b25c2afe93631a78cfcbefee4d7ec4f7a5e9c87f5aa30861aa5f441049;
 0x1ee3070e40c0e0e740a67449c3789b6b1f5b64047b9adc4a1a7f9194a7ed7c62;
 0x2ea7f970eaef265df0ba7d65c20bf474925bbd7eff4c9af087c38b5bda5c8a40;
 0x87e362b638c1e17cd837e14f954fc02cc1a020c62e416bcf5106c0e84a42e4e;
 0x66c70edf98939e555fdc29bc6c8db703afd5f7317a97ec805c1aa28758081bf;
 0xb7cd01813db20a6c56bee471eb16719fad273719aacdba7c475b9cd9fd6ed2e;
 0x1baef4e284700ad99e75947e51988f8b21b306e85552c9586159cd2fa62d6208;
 0x2d70435bb7b0d2242b1bf4cfa9bd48cefa4f4949305956f07c6ce9f40a4f63cb;
 0x2c9f4b07125840d0a8db29b2c8f723da914abd2357de2d0bdfc761ed1d2cb190;
 0x1a68c6eecf6121045900f2d146f6e0dc1ffa95afca0130f4023ecc854ac90979;
 0x2bde9b2172e01e033c899e7dcb6910441e0b26ba61885817c19257c67a704459;
 0x196364688be6c007d5caf7f0aa60dde7a9d4df5a72201a010866f51d5b8e44d1;
 0x5e25bdeb203c4c1c10272422c44f883df61bd873a1181005937ac6897b820c1;
 0xf9392975fb3baceecec89ce8dde33d612f7b51809c70c79560e5aec4ea0f97e;
 0xb3a94a0d7fa6808d540ea7c94ac84329500fc61c1c921f6e1a02be72e0552e5;
 0x57f2f77f6f39fcc309ce2227ac987f88020c1156a521d8b4a6298ea3bec1f95;
 0x287141748ee5782d46d91412095b8ae8a817341797734ceed2fdf000f7bd2ca6;
 0x1d457716f5e27115f1b3bd602743ddb625242575ce407e78cec5c033380fea0b;
 0x1393304221b7afe064f39562a25a21c896a65c27cd93ed89f500e9eb5b39b2d7;
 0x1000b0acd83b8b51113119fd1783d3043017da2eb32954456b6c61faaa2ae29e;
 0x19c9c7938f860731025bd2bb1cd4add4ad7389433683ec7fd1c2c0a40840400b;
 0x218bd78be9fe83b8814a959ef810968be0cd8f20ca7778496f52251b1a5703ba;
 0x2724bc9c179c6b663419051e901b45a3c36d9f59d63f41dddccc120dfc3abbc7;
 0x1e9130d0ad5daa81b807d86cb977eefe449b9081cdfba59bf8e1b43bba4c1077;
 0x2d75c84b8825bad22720289707f2709c595d7a5ff8df9b2190359400d2e925e1;
 0x27628d274cbc76c2bbf5005702ad14bd8b44ab8cdecc65c2f323f232db788557;
 0x2a39cb3d3633cdbddcd0b7cc3744e46aff3450524dd573b8f67a3c7e3b9c7a09;
 0x196b76cefdcc7f6a54c71d40114a0bb82694c936f1573ac7ac1ea3fcce1fe938;
 0xa09afb1c54f1db4544f6c0073aa43c0fe17ddede4eb2e965a0020b3734b3e40;
 0x18c1bc97aac4cd9735588413be17348e71d1a7d14a7bf175c8a48b5b85e9b54;
 0x1a3730dc03e7f844e8876edce2a2d00135702da038a3263faed39d048af8e466;
 0x25176e26f891655e4ecb9a383846a2aa15bb49936c1fb568519615a0d10327c;
 0x1190921ca2c2054af278beb8ae7e902f2f9fc032f1ee2e661fc045dd643569a;
 0x27301f456233aa2eaa5e58ca623471400a5885e066556edac068e8187bd53fc;
 0x14df7b40c8531784271338eb6101a7c565297bb9fd160f5633d1fe8a24f22b0f;
 0x201b7bcedc3f893285dd6a8d70641086091db277c47d721fda35ade3354d3756;
 0xd7ec7dce868dee03f3cc914c35bd061c8c075ab2b3a24d63514e43e61137f25;
 0x1f4366fbd21731723a6377369cafc1ead066d0e96336a6c0cdf44437ac6999f8;
 0xd4f720bd1b1d8dd2da533015643abbe2569c2142b3827f769bd4c8fad9eb7e3;
 0x2555325b985eb37f57ade931b07684d313c5fd72badc53f218cdf3637e28ac20;
 0x19577c98ebc619f92a0ff099cf5c3c78b18f4e5230eae7db5e2f88a18148bb4b;
 0xaab15d18bc399969878f0303b29e85aa3ed5b5f0d302efa97073d0580bcee54;
 0x15a5b74d5f80efff02db1df507fb260724238371f9da217db249b80650fc2ab;
 0x7863677bac12d9c8acb8e235fed719eca74497e0c85f1191132e72f877b4594;
 0x4622dd48eab686a6312f00bac77e56ac609832c1a3710062e2d19fa13b25059;
 0x1bfd373a0dfca60070a9cd0c5f70106366eafac34d74cad65149841c31e57659;
 0x12c3c104d455c723c30a2582a9fed0478089ecdd6256a6a14d5dd3a73e57e58b;
 0x1db62d5a9783dd6e3721980161c8e9f40b29066471ec2bb395b4de71521c9337;
 0xa1338e33d0d79c8c1143c1e94407be350de016aa190237e0fdf6aad194ec3db;
 0x230cd81310a9978fac2828de4ac38c19fe35aab2179f1e83a3127745dc709846;
 0x1d46545374f8b8117fe6aafbf40c162cfa3b13f7439191c43572ff8ca713d874;
 0x2f0bb6daff69ccbe41e11635d1a451816c1a39e3baa7359493754111c0d453d1;
 0x29329695f168370e3b3156e3ae2824a662edb778c2a23eb016d135caf72cd9d;
 0x1b9f8f4a4d8cf0878c3b5b57e82096972b7d773a197b6cd412956d9994f42393;
 0x1150ca485896d1fa88445f18deff9e46639579453dc8bd952deb10c53fc69025;
 0xeffc5e98f228858e49ca15bb98312385cd06a57a898b82a561f6fd9b5af1170;
 0x76a9c5ece422164d7689f5863a3752ad3681a28385e022c66dba35b8c87df7;
 0x1ea44dc1364ca5d1a9c217488e96b1138da5eaccfa62a3418d687da1308199a0;
 0x22390e0fb5c982881d62f7af9255b2c677559b525e70e1e993120e39cb386fd7;
 0x283880c9af3c5ee2ad175b97a9110e904ea6f1172b0abedd8726a1942bd21baf;
 0x196b76cefdcc7f6a54c71d40114a0bb82694c936f1573ac7ac1ea3fcce1fe938;
 0xeb1b0ece2af5cde42043430b9c70ed679c2bae1000903072551ecada6dc0a6f;
 0x2da6e90774ac9bf5a07971085698cdff633c28eb52f2f57935b712c406e37066;
 0xa8125b935e8da1db2d1ad9a841efb10fab0966b438e0a6dac204ccc832ba951;
 0xd4e3b2440602bc4d019da80f29ee2ce86a44f098e32e6a47c512fa73173eb0c;
 0xca753aa57fa52ba572587eaa47c18ad91aa498048483d9a019457d014ca08e2;
 0xf9ea814187bc6dba58c6f7c1ecb3dbf62ab2ea29d075afb40fa75fafda6ccdd;
 0x1625e36facb0ba7558f4163e2f69b482cff1002b6e63a0297dd035b51126e214;
 0x1a8f5986c3af479a950f2f78c1cfb9e6eefc693568db3215ba3da8b95cf59997;
 0x2092ce2830d91cebd97e69ad4aacbf5947c8edd9e809d33aadff0a9c44c60dd2;
 0x2c34396dea567e1a3b6bbf21518b8b78bd08527d955ec8c3f71c153351975a48;
 0x27ef5d907c12b2473a024ef1ce2bf3770bb767118ab957911608ab99f5011e3d;
 0x1f290b20bef457eebf0ccce00bbc39ea19ea4c2625e54e0dccfe3db112e067d1;
 0x1db57788c30f2f18fff3908ce919ea10ac851b862b505246e81d61bdb51e0f70;
 0x2b041dbcf7846c4e72de5a0e5d201fa5306c8e797bc0c43702dee216497eba23;
 0x22a31ea557261176a10f8036c7f9aa32d7392a33e64ed90dae1fa3d9800f0077;
 0x2eced0082a7ac90051bfd190d97319e34021bd571d994f4fb633c299759876bf;
 0x171f3f295c67c80f97bb0678ad05c216e6df17c46995c7c8f801811b47f75db9;
 0x26de076f9b9cd4cd8e7f4373b3569c9c2ed867b182be695528c71e1dfc34553;
 0x18684d0ad8f841fc32151dc50ef602e4560b286339d9a299e6451d535596f41d;
 0x17baf0b6d89621ea69420282c32f94ad3a52db7394baaacc2a1ca3032656b834;
 0x19bad38eaa92c43ee1bf9289e9e66e32a2856a141ef2e36868975617765c0a13;
 0x52eda69d77234815d76a5a9b04e8f7245b9457541c4145d00fd263bcf9ac56f;
 0x2de5e640d8c2fc3acf28e99df17fd56dfb91fc1091d304773638a453037b17b2;
 0x7b075e004bfea80e69fbe1c460586a50b260289becc26cc92ea6ee18ad5c897;
 0x24ebb38197057bbdc006a2ed6d1c280e500539f98dc53f83c2b58503bafa8ca6;
 0x1ce51573e24a435d75b654a1bb80df8ec38f12bf9660d2abad366ec89770c3f8;
 0xff21e9bcae93244b09bdee7feb1841219d14b6d9e8ce6c5aa07915b5d81903d;
 0x9f7f1cb180b8111b6a3b22458cf94dcb289ef8addc4adcba913d99567bc43f;
 0x228a30bb9161835a3ca58ead6b9752d0332fd78608b1412a402fc045ef430f;
 0x15e9b1e05851c96b3bd7f09459669d852e65623f1b68f9f597ab7a0dda5e208b;
 0x196b3d652ca59d59663696ef17988ba14ada02ec506cb7e4caf2706001953bec;
 0x1c8749855c159f2b4cf83932f39f2676dc56258d3cbfde31d526b4b5ae3eeba0;
 0x196b76cefdcc7f6a54c71d40114a0bb82694c936f1573ac7ac1ea3fcce1fe938;
 0x221dd8a7d495ade1dfe6a6e119845add28d4fca1736fea74f367acb2f0c2c6b6;
 0x4b42317716dca3c5d82adef996100935cf38279042de9b6bf50b29f6a202f34;
 0x475894cb64dbaa6fa6a2ddb74816670bde6ed2bb1f535a9d5f86348369494c6;
 0x1c3946b391ed069e274939cee866a5f3d4d7dcd44bd28c59bceaa7953ba45dd;
 0x1825b793fd2ed840af6848d88c10fad3c14234a7dd3834121965a11926c5ce5e;
 0x282ec6f6215907e0cbece72ec50a5a90a2f17c3f514d85986b9983bb68f73cb7;
 0xd8f7801683a6488f5d54d9289e6cf33631007771a3580746446e05d48ebb741;
 0x1855412ba202a2a97b4bc4d141fbd547a4019f23cda4da726fd1aac4d409f48;
 0x1798f1c6901076abd77d7c40b401c93bd711d58af1b975106de72a6f6e2b250b;
 0x2edd97865d7faa4649469ad96a5e0542c35628e903e2be373a0ab7f1ca5a207d;
 0x13676cd7961ec25b87f7ab8b623d2cfad86cb66236386cce469386fd7998d956;
 0x16c0a91e9e9c2769401f26728c935e467693afac35f6476d7f45c3593496a4bc;
 0x29553d069f113822ab939a807c89614214d5866a2fc17e32d21c786ee26cd91e;
 0xcb66808581fe375cd41bb5410977379265c20dfe402d5400bc93ac24b4b03f3;
 0x243dff648c9f0c7654669b0628882c9309e5bc28587cc2b239bae21dbfaf03ee;
 0x2e171191951cef52833064fd4d4067816f2e9c892d7ec9595fcf15286fc58306;
 0x2bdb95923550209fa7cba2a746f0c2681195b0eccc5e6c253227b62c657e662;
 0x85aa13a52f4b623dd516a6a478fcd88e30c39642c22f7dfc0e4723e31fd0d5e;
 0x15f5dfb2f22e20cf08c1bf8ca7fe18ee12607615c5c3c1a7c2c9fe740bb9990b;
 0xfc58949bd8a136c38c706991c5288511da276d6fab95ef315c7ad3043f5f619;
 0x284e9569fc8ba77b4045b856dbff1c29eec71e850bed17e1533028e2d07cdd8d;
 0x5fb97885d94f32e89b37ed816cfe79118ab5f70784b3a546a50c32c52c5d7ca;
 0x1588f5edd5db73e9e42e1038f3e6817fecff001a704d18fbe96ed57022d6853b;
 0x16814981024fdcea5abca513e5674e7ef7573813b650daaebf34430a930d06ec;
 0x1b0b7c044e5a9cc60631dfadd62bf75f7976460d0a1ddd54c91f5ac00461ba9b;
 0x17d68098ed44b6a6c42a6e7e6f9fe2da0ac7059d1ecf0b26eae01afa117931be;
 0x6a32a1b358cb5288830b273671306d6e1af65718c3b4ef1a3c2c6ddf0ebf48;
 0x124899206ef866ee3d3253024894741166f53f48ef7f86c2955184d993cb6d98;
 0x282d1b8005e7c5e21adf146bbc3a80a41207d1ff7ee7b3bd2c3e6bdd5bf3121c;
 0x2ba860b0e392214dbee6ff237989665c30944617abb4b31d64b2ad85f397e33c;
 0x8dee425c9230a537b33445ffd0f032a8cd335bb0a6c95591e1bc641cfb5dac3;
 0x13e1f729e82032ae05a37e3eccdf95591b61a016f5cdfde65b9d61c84e0f0a09;
 0x196b76cefdcc7f6a54c71d40114a0bb82694c936f1573ac7ac1ea3fcce1fe938;
 0x234c770889eec5a24bc88f5a31d56e761f7487199276c8a6eee5b1a68997812a;
 0x245bfff7477831205a76d0aa1e9c55d24bc04143b3bf5dec9010569f945991a0;
 0x8f4069c0b10875a6c5a474a6632faa9ca5a971d207ed0895fb92f8ab363771f;
 0x837729d4fc85301d6b047a6dc71d2ed7ba33ee5e25cef22aeeca59f015ea9dc;
 0x294ef20f328ae6852d7f878918cfdce9ed950be58925d997ac533c91d5b6afd5;
 0x1f62b4ba6e7650e883f9c53c12adb7ac418d3d48a7514f183218c8d8c9f2e881;
 0x88e62ee0805a12f7512c58ebbbe7925c8d94d13ccae933af8ce5ad1d9c11fc9;
 0x2a15acb799a36536698c1471b93d206320f2721c13a32df2d30f40fb9b1fcf4d;
 0x2255ef233b2e051eb8fe5fbb4f03d5d0450ab225f926cc2ddf4e0f0d9de599f5;
 0xb3324f75f50fba89249228c37f2c9a3263a1ba03c624ff6b41d1c0eea4f6f7a;
 0x267abb876cf130e5ec0e545b41cb614e6b0dfb5eb2b668ca6ade5220de6d269e;
 0x19040678722dac94cc568ff3c0b9edd72deeb3cfce3f3d9fc81af7d49554afdf;
 0x9015509267d3d74355f8b8cb583ec4d4c41b01774fbb745ca58b2ee3cfed608;
 0x25792587eee7e693a2dfb7ed5fd429f501a3eeb917e6c17614fd3cd80b7356fe;
 0x2588230455c1640eef883b2650dea4b74fa7c0b2675869b3680a867f3f9983fe;
 0xa5d8e426e8a8633cb0dafabd4f32d946ee6b1c9d80e0172d2a9952e0f85ec56;
 0x2f47894426cb6983d71c100a0326090c8ec978454b359a02d618adb71fad8282;
 0x23bda45e45e20fb6c274f9a99c7083fa4ec596ec283a78d1b3682bc44c532383;
 0x6428e25941cf84268604cac47b8986bf3068257d3be89c3d6dac8f57093a650;
 0x199d93b935756b0e6f1ea60c72667b0e5686eb1b12d6cd88dad5f5d44d9bf6fa;
 0x171ce4623f0a49ff1f0b33205fbda2909f9c189b275cd7a717f4a38a5abda910;
 0xe6db378ce7e1de03348d3f7b7b17264be5adf0995de8e0273c39aad38229a;
 0x17b2b86cd66a73a60e46511acd7dec0fb3a32d6cb8bfaefcf4479b7d358fce81;
 0xd2ce771ec4979abb30c8a281fbfbe701aae7112066a813393de44e56161207d;
 0x86998aa35a19fb86ad35a9116c272887a26c95743d8214f1f2a1fc75050f867;
 0x5be1134da0692b8f92545cb326deb862136255794fa8383e1d3f266f3162243;
 0x1bcb6b8de9f866a39768466d15f521cf1e75e1e9ddbc30c05a45b53acb5f58e9;
 0x1b9e926867ec402e4fb4bfd240a82f240eda7df61c9b5ea3af1984f74089a93b;
 0xf408ecd2413f30c5794e777b8a0bde7dd69ee0e24a918253e9cefbc7d98913;
 0x2d7f052ebbb9bf5270016f796759f98056b8928efc35c09fe9e1aa26f18010e7;
 0x2da951984f4f03171413e1739831201e7346a45bbe9af89d3b23ffa2d615a952;
 0xb557ec46a7bfb8a0bc21bcaa56edb6e1c0be152d88b57fb5750cda2851c6231;
 0x196b76cefdcc7f6a54c71d40114a0bb82694c936f1573ac7ac1ea3fcce1fe938;
 0x13d3fef3eaff9b9563a1827637ad00789268d2b55a1fb6681f8b052d049a3fb3;
 0x2bc1cc959099f62eda527d7385cead603b637a28c9a223e817c9848fd78f4754;
 0xdaac8774332e509986178344e8caf8a91c6d01a275b9a1df469e5b735bd5082;
 0x27773f22500cdf92fec80f154847189a3f75f85e8cde35ce9171225d3cd8b676;
 0x79c499e130ed874a1383b978dd3c00fd5b6d0c18bf3b491cfd63787230cb9f;
 0x1ebfdb369fc74d1469c6e461f64206e4907b6f5b51b02496368aef1c54198cb7;
 0xca9e23d1f4071112543d4e8c1b303865a4064ed4e4110eea113130292d1e299;
 0x2357dfbdcbc869ea8068bb2ce056854f7a0a765a217af4a0a317888b08ae0af9;
 0x2c9e7d1ad79c49b37dfd93ff2d4aa43c8532fcc606927e975b21564a9c1070f2;
 0x837ff288c0aa9cfb3fa7cd38312ca6b83b9b2a3ff4dec506aca1af1176a4248;
 0x23d8de04d32b88a1b5102863416318011b412b11f1e609386c5d8d87da878e54;
 0xe2564431ced9aaddde433e7cacee42a04d09d3026f3ca1dd0ee3fb3085adbd9;
 0x61caeaaba163fef7965cb665f0cf305deeef1642cb63e122d845c5f6b095be1;
 0x23356942ef4d25d2b3542f5dcb54a77cf17d8fa64ba060462a3b71cb3b73d50e;
 0x1866373902a9a953c0768646f37941c805658c31f761dd39e6b4d292c8cbcd;
 0x86bb5bb78cb1149afeb670e1ef3470c5634f10b18eaa25450e87c5a9bf35146;
 0x2451e0f1a7bade779aaf54dd8a628b92d9cc8a7b7c0074076f860f87be2f8fba;
 0x84bf3740a546012b610a5bc78ae897973b85c2be04afb32fae0e39d0c085255;
 0xdef7e0528ea820d70cc9fab7935d6cb5b3f47fc8b5aba924bb237b7077f0275;
 0x1b7af60a579f6d6f9625a8b0f7c4fdb2a6af598daf08501f155665ab376f7ec6;
 0x4f92ee3832d8c4253278f77e9ed900be186f8c182a39662f59e4700213c98dc;
 0x147b948eeb385d71922becc54ba12130ff5643e49f71b7327c323ff0e2571c95;
 0x367fa68c919ef8c6a24c79f6bba07e7e839c9512b92a690d1a646bce08388ba;
 0xaadb8ffaf6b02a6a4f42e97afacf2b4d49b5d4201becf3a013dfabfa068b5a0;
 0x1f29fbe41d336788cf666a4378b1c82d5819c08e27115762277637235b9084ad;
 0x94397da30fa8ee480cc4cbc0cb3383218cef9602ccd1eb4655071c7bdcf3001;
 0x16a091b9a5cd952667b2f11309cc4e39f2c6c3ac2eb43465d99b409ab07711fb;
 0x1625cf4e2fbb6f7a25536a24bfe679c793e3bc01574d8af123d61d6b98ddb0cf;
 0x17f1ddf6108819ad72aa91411e08264c5a0756eef3101351abd131e8332e8276;
 0x272ac6af8670ef04eac5d621949f3c4ec7edbb65a38c4bd7d5ff440cab1f7a15;
 0x2ac81ebdf838c893a74deb1a575c929da0a6e12d2e6e1b0729bf0457cd7e134d;
 0x28198a6a7de09abe545ed428f83f9ca95a7bc9f91186305adc80d9a561045ddf;
 0x196b76cefdcc7f6a54c71d40114a0bb82694c936f1573ac7ac1ea3fcce1fe938;
 0x21c8f5212e43a884a0729986fc11af75bb7d2cecdf007a7175d000aad1c89e21;
 0x12e4a961e1801660228bb592204fc98865260be10e1e0288460f42b527c486d8;
 0x9ac00881ffcb7ff45a4f4530d1bf63af3de4c3eb7e8982f354d119d099b20c2;
 0x22b92591debead5bf556dfd040688701939a2dc72264c1b74c0e7b89b4557670;
 0x2388a2dfce036d5c898a465ab3c88fbde3fcdf8810c87e639f7abebec9decf80;
 0x9e2df6b54d923dd12bc44406c247281240924567a7a993e41a6eb027e959601;
 0xb05fccc0674af8deeab7d73646e2a28df0f4d76803a8b6fe7a2a5f9f444037e;
 0x148c72c32e02a21dbd3c4859046062f7a0a3a0a9c5425a5291beac5f3f54361d;
 0xcc72447af3608c9090af67a3a683e8d989688f2239bce43734d5808de3c048b;
 0xd923c01448dd3098d10140067ab3f5eaedb0a5b73fd6f29f28cb1f33a1615f7;
 0x9145690a8426952481e9c5f53c587aad25faba2f2af7a38d464c6c86e889c80;
 0xca36fff3a1b4bed7f8769fd50195c1ccff723fb1bec0db30767e922ed5c5bba;
 0x151f1a9546c4380ac89496bdc078ab54ec09e1ce303bcf99f5f7237cc7b150e9;
 0x16c046d8404c441eb03e5c0846fb9582414123eaf996781ee0b7268eb4b20682;
 0x251c3f386e8e92cd6ecbaf2cc2ad9d910f94135d41466698610f072e718ca410;
 0x1475e6349fbe26512b79202c02555f0fc6b0df8c74f12a1cf459fabdf4ec982c;
 0x2b4c00677708322d7af2ed6b2aec44c4926456b2d3829b3517f4064933e85bca;
 0x8c06b592eaeb2fad227fddcd082cbc40359d7ac8e01bf16f8c907e64c170ca5;
 0x211e364e0eeca2dcde7b7e5e45e21931fec7898963f20579ee0acc0711d66052;
 0xcd7ab2a448e03f55844c4bfb6b169790a0c8d70638d7ddc4b5e72375970a738;
 0x1930ac2e4e2ab703874dae8d6d84cb6de266b11470aceb681dc619889e61e454;
 0x1efe3fc036da6b22a66529ea8f04651ba88c4a88512711a32f4dcba84952bdff;
 0x1fc575f7be1400b0d7f57217a0993649494f6fd4dc81af8ff4f469ee25f4d3ca;
 0xf599eeafe4afe752ab67bc943a63bbd559b10d6d7340b19c5a48feacebedb2e;
 0x13161ff12c338e5fea3eab7086ea1b5c9e074e8c4343f5978dcaa9fe77d23bfb;
 0x19e8ce8bccf4d36548905830ccc2f9f13c6e0d997fb57c89415dccef20298d94;
 0xbad7770ce2057b3cc20f21c93a69b44be7b95403e6d4ccd373d8d855f42d48e;
 0xd68c25929eb71425958c7bb308245d86a52c4dd57af1f03ec17d73bd14a7b15;
 0x1a20f6c97cd59c0339e095236fb2955b50356fa59244f6173f1caf18deac4c08;
 0x13fbd61eec52c83d2dfc6b62cb1d1cb40e71c63fce17265ae9d631de6d683f17;
 0xc5c24fe6a6fce7831b9c8b2dbc30bd9dc8352c78d4431f5afec5d94a18f2522;
 0xe6f63bed21f2cb9b2886da97bb0d8f0e155f008c1e5039c2ed7080d6be70431;
 0x196b76cefdcc7f6a54c71d40114a0bb82694c936f1573ac7ac1ea3fcce1fe938;
 0x13b9e4a669c3fabe0c43f333992a5f698e08a9abbaad77cd400b2912f5ef7e8;
 0x2b0cbb582146576933f01c91c0dd2b095a2da43cf528f2273131788f1a6987cb;
 0x2e30fb85d199dca95475521b50700b699c50f1d7aae5b2de4e9b990780ce29d6;
 0x4ff7ca87e268b4a23af154c1102c8b705ec4682f08ace1273fabb3a865cafc6;
 0x23b371ac3c5e45d6d930df789f60ad510b784afe9ee4e82876081ec0ca7ef7e5;
 0x28c5fc831601998b96cccab01c028d613c200eff1d0e2caa7098eea165c119a0;
 0x1a649a762e15c9e33b6dd3a4c5daaed08ac2e5a7845df289d2c7ddfdc3771f97;
 0x1b76809608b2ca5793d346c52426aaf7228b7e4a09083c2b551bce8fc3022a0d;
 0x249de6f6cd65afa7bf206ac6a1fc864898a5135d0b0efaad0f4c86774a153d9d;
 0x162c8b3b5f7256af0a7bd83ba37d258ad7d4ab4f29d248bdd00ad36e612f6055;
 0x3a8b1979dfb950c0451ebba4e9137d78943d9eaf889becd291a669031680d1f;
 0x1fb9ae665dc60fd17dd0b4284b2eeab0845e6d4a5d6fb81b77e9f7c6b43d170a;
 0xe61edb12a4174e48a7b47b660e8175f42aa7926ff438c90692e43bc396bc6fd;
 0x2a21ad8241436a75ee8a90867aade180589a8c9c63b05253be876f192641b1fa;
 0x166620895a93525094f8bece65ae6fb9e14951d4bf7cf10a2169ce5cbd8b4cb8;
 0x22f7441fb0e816935c8813854ed5fd6ccce5e7b6a85d91d2b5a3a7a5c8a4ccf0;
 0x2523733ae5275aa5fb89c74de7ec80091727f495e729ea9bc557516b25e2cdfb;
 0x150f2ac4f573f5f9eda0d8e65fe866581f1bc11e46acd399cea41dc1ee3b4082;
 0x2e2c6a081127c11a80d60de162c1d5bd70c9e1b1312fd31f974d419d74e72a45;
 0x288f5e4a35d6a88e411113e8324d2af60b07aabb48650d27261f9e0172c063f9;
 0x1e94c48d6ccec07a6aec467ce9db1c7cf2f48f20406483bb873f696cb6139c7c;
 0x2317555099ef118ac1a6703493335db895aeab6cb1d7cb1e46caaa0e9d74ecf1;
 0x112b653324919b4300a6e9caa08f3a36c372d86bfdd4bcf10526ef3c2e8c8665;
 0x10d64d9dbfee84b7d8e426404f4f6302cd2f507c9536559f0050b2b77a15b85e;
 0xce3409a692acee5372266c97c47c2564d3268f5124fd3094ffb35d252efcd1d;
 0x1976232c6b5bc6ff77e7c6d266ea390c5fbd4fb3cad9ece623ced56ac860996a;
 0x85fe99053d3f947a665495f68291ade2c706600e56dae991b62833e75d21c5f;
 0x253875f4394f5962fe07f784c7fcae1df6d36d1840eaeb0e7c236e3d6786effa;
 0x811ef3bdcd3c837aa541d0df32d447ec54391911911e3e0739b7ffd4aeffcdc;
 0xbee1c554f9fc98cfc6b2f986fdf207859d78e2757d199e9a92b1501ef92ca06;
 0x2e46dc3b30b54925c313731501c5f003aa8d1490b16cfe28bbda33fcd0b9b0a8;
 0x29a557272646a8b096b2d1e8aec172491852af8f055779779043e048ed8edc6b;
 0x196b76cefdcc7f6a54c71d40114a0bb82694c936f1573ac7ac1ea3fcce1fe938;
 0x2cf567daf1e32b7e212860583eaa1783d871a1aacc61b1e17274d29d43c3d42b;
 0xde4e81211f6698cf1b5513963530b7b9d0b8ecc11435e75e1f8d3743dbedb1c;
 0x2441c69e3451809da5aea5422d4e21637469b4384372f06c5d6d9c14c6680981;
 0x2aeab770ed2acb63ce4026c9fb0bdea02bcd6d0e45b1c89854c2c827f09f8743;
 0x18086bea417322d173d3b67f0bbea727011d58a1307664d208687d50018c0849;
 0x1a5554a104ff43a6e64b7db4766e1ce6df735dd7d5d15bc04b224a81453b5a60;
 0x2372bbb558acc8f0a26eddb623338755aea1b2793d7e1130190fe2c6ec6393a2;
 0x10c33d11fbe22b97736174eaae79eba40bccf31bc846d8d0a8b44470c2af8cb1;
 0x3426163d8365dc4847d5bbf779c5577352e34ff6badab833597ddee1bae3f54;
 0x1c63281e368936ba2046f4c7f0b4279dbfc02ae7af0224d4bb03d847e157773e;
 0x2192bccee71b6b955f146efcc1a1781c1e1c5ce24dd9a55d2658f054614751ee;
 0x465383b8ca4136095399e23c44aa9fb454a47ce6590eaaae8517b97e476c396;
 0x57e4c25881806bd449481ec352088627fba202db4cd4b93dbd1409efcc8036c;
 0x9075ad76e6eb195188a775ab16ab65a001ac6eed2fb1455282cbfed80a0594;
 0xbe868e7bfdfa88434281a12e1753cd13b44df13b9e4f31ade7108de24a409e9;
 0x2e510e83757137479bf6a77478344c10bb07faba1f97da9c0537da9be515c5e3;
 0xda0ea6a6106068ef55cda415d30f30ac0e30877e2e03abf618ea2d79d980820;
 0x2452c916a252ad3c7c27a5257f4c8328d9027d66534d98ccc9a43421d70d83b2;
 0xf9c77bb51cac4d5ae3a97243b5b967a65f647598197721b487afdf40a7f68f7;
 0x1f9e045050fa171e0ee29df6cd436b6bf42a576b4ff50c2c913aeebc084f9115;
 0x2e7d45b66ed46a7205c8af1b5343d1d3fe32f2270741c450069783a4c5be0dd3;
 0x2516935ea1d2480e4350f961e778d72f56e02b57a98e892b0bad80ff8eebd7a6;
 0x105de12e7429ec594b85708128893f8ff201f6fa6b6e58a2f85403e04b3e3852;
 0x1fc9f7ca915a6cb6b67ef53d985021ec23469970c5eaf180b0deb0dece3bebad;
 0x2811b669db5b1a371c847093244ca2f8d653537d382f16c072df917cd59cddd2;
 0x117cbfbcfdcd7181ea2b182bdc6a43f72a78bc9a6b1c27d5a4d4f073b525f86b;
 0x1e8a05c84e5252cb9f3f4c81da5c5419ced59382540f32cf949b442f67512f78;
 0x24337a6b1cba32ffe53d724439c4554a2430c42da902997c096c26e7a3e88c8;
 0x2f90aa6e654fcb74227af9060991e0a68d47d8021f7968d384404b9d4476724f;
 0xb181fc79032f8437c5bf21425b264aa28adc4e92ab14a1e57964c79f150215b;
 0x99da6058ed7f95fe4cc85f3bd708620f371c9b32c18e235c44b415f4c12bf30;
 0x9212f04d8281e62b36d022532df405b8e5dbd81c15f00dd094130d43009b4cf;
 0x196b76cefdcc7f6a54c71d40114a0bb82694c936f1573ac7ac1ea3fcce1fe938;
 0x1107d939e735721d6dbf79d5f3060247a39316ea524ab8c0ec617b2ec201a26b;
 0x2f1c347523299d959fc1590f33534fc2a0e5adfc5de0fce0fa0eddaf5564cb21;
 0x149ef73788c5149f643a0d35623cfa246b6b83f3883475060ee613f74aec616d;
 0x2a8fd18e8e3ded0ad1e39b5e159e9b1298bda05646ac66dddb50e64280889670;
 0x47dbcd211f6c7ca6e60ad171965e1dd49d07b055b8468d33eb7c162b3627565;
 0x23ca2270b14221c76b77a1f919764a9399db0dec3db5bd28feb2d363e45de608;
 0xae18b193b1142e262a16d0d122154e48849d5cd821b8852a2cc2a2e7401e996;
 0x1857d1b6def0af45ef7d3d24dc7529d2826ffb00bc7c7c7aae74c740caba3caf;
 0xf3cc84626c45ab94e0b872c3779dfe3f41597c39094884678de39d8c1961891;
 0xe820957878be6285a630109dd71d5ab98ecf1c1e341c7f05be144a6808961e9;
 0x1dddf5d71605db9aab02d71866bcaa3f304707010eb12963e30f54270684f686;
 0x22cb55eb86c682ccce666ec7fdd5167af98a04c5731477cee41401f70bf05c89;
 0x2285685b32e30facba36b7813a94ae1486502f7c550c49b865cec83f46c2918b;
 0x89eb80349c3dcb0f5b5624debfba7da90f041de9bbcb5f0dd5e915c92377197;
 0x1ae6a640e952299c2aed2ffdfeeab32732e9c5e2dc95314d217f0642816be3a7;
 0x2ee58c48db87e8787a65b7adda68a844aa2dce2ebb95b85a0372219d5469934d;
 0x18e425f1816a3fd2371717b0210df14a186a184c14811245b0d2fb38e34da7f8;
 0x2d0b4c00ef039859dca8f5ec2242dee07eb08b40c134813ddd20f1e49cb46003;
 0x1bbf1b9e8426a43da69f0b718a93348b33ab7bfb49f32792d0b40a1df5791f2a;
 0x2bca73de43111cc97e7c860ff86c75c29b66c5cafd04f36a0673d0be35fbb343;
 0x1a77d34364e2186eda96a4c0576a632ca53a8579ea24ba17291eb71dc932e5e5;
 0x12757dbdd1ec1b481648041f49b600350ed839580fe4c022810e1f9ecae80b12;
 0x2491a75bb6c3231b90483b0f37596f07926a746aa6884f087f1b7694d191b51d;
 0x998ab89c76bd9f620abd41cff82b3d34203f4e6af0ee0f32e7f72f88e4209ce;
 0x2271c33914091a7b0760c2752a12ff2fccd4f512175ffdd949bdefe9b5444486;
 0x2b76d998c8fb9fd7a192e5bf3ad5948439cc061182456f9ecb60fcec97d69ef1;
 0xba089d24faa83dd9d34426596f4305119c2baac05c4f727363cc07dc37ce00e;
 0x168be56f3c38107ab39578355ad8f49ac0a80661977c3a758c29a08a3a7733ae;
 0x2cdd0f5feb4447b5120e670adba86c12d71e5f9860ec4b3eae28524825ca6e3a;
 0x36af5faba2b1777abb199b35334d12a4a01a92485d53fd6e9211949c43309b7;
 0x2c1dcb685cc47c1dbe9db43d809ed56ed6f5f9ac92d76bfb271c10b66b62fc77;
 0x24633d05c06303617624fc379b46a788b0d69bde4057dfc36eb3359055118bff;
 0x196b76cefdcc7f6a54c71d40114a0bb82694c936f1573ac7ac1ea3fcce1fe938;
 0x2224f3583f007840f77ac63371ade2a22805ffb999a54fd0feabba444ccebe18;
 0x26714311d757b433c90cbbef69da79f27493dd48c26aa00892a69f49412d71e1;
 0x2fcc716f7f57adc4e9cf765fa7d0d6f85b2e71b7d495d12d41657da92d50b402;
 0x294a3f5ca5239bb5a7b165470474ab58b5a07e2b3da2b4543d2cff4e1f0a1624;
 0x14b4beb63d909345cfc2891d52be18275fd436dfe64def3ee9a056da6df31674;
 0x84460af87c46a4276cfd2a1ceafadc83ae5e917669e8393ece9d52102d44ca0;
 0x141bc6edfd3d6ab0d76ccd6452f746e1e2a04d7dbea197c2ca2a6d498585de6c;
 0x1e757acda92690643a370b9c69cfeac5f2cbddc70fe984afafa7d8eb1519846f;
 0x9e92da83e2a6b8bae2a65c80e94f8ad0dd5aadd9374f9b666e5292b1c43edc7;
 0x28b539f7cf1b63612fe0e3f019dd8055760540cd2a998b70bdf5c755554a61ed;
 0x4f1315a1e31ab3f8eed8312a43dbd1b4b72362ccd637ed4dfebad3d350f2467;
 0x106aa158cdedbb22ce5caa3df644bde2d9763b32012a5fb391dfa3a761e2e33;
 0x205bcd60e27251d356cee0c9fbfe5cec10606aadcddf7dee7b6d50429248cf29;
 0x1fa4539519ef1cc1bc573c8af5bab6df0ef869778770109f8de349b606bbca41;
 0x17cab2199c1a13dd4608a9e1e4b3bc4965622d8b574ca6533a252aec9395ab05;
 0x2c34d65810a7e5a4b851f02a66ac4d1ad54ead2ab633ffdd88c95dd364b16420;
 0x128745a9a55f406ff9327e97690ef8137648a8ac585b1d483e87be00fb1e8866;
 0xd797eb05630c87b72ac57dabfd5e897f0679bcf0798652a327bb6a02bfcebce;
 0x2d49ac3f9e3ac8b8c0b37442e804c4487249047cd6a6ba32282c55ee72b9f4bd;
 0x2447bb4feec91d4b048bffde8de39dfdf87c8a9a3623cb563ff9d6203c6da1d1;
 0x790cd64d983c721f883cbb6f4aa15ea76aaa19dc39b1f44c4dba993bc9010cf;
 0x163a3b62e1a26e8604fab78ff1be0a3699a6b08d329feea137062fdac214b0b1;
 0x64d9003fc12c06923f798fbc0f49b33a6250e352180eedd7fd846b7f9593dd7;
 0x1f0d94af29f162d084ad70c2b138a6532db8d967573418a3ee82cb31cc8daa26;
 0xc30c7df8956774687f81e3881acce5c551fa89eaa5ff7369d2c9b68cf97a283;
 0x1814723bc7c2396b80b93f41ae3773543a232b0fcc80d78f92d48c908cecc77a;
 0x1efd30a08cf062ea109229b3bc2dfce564232dc6b181030d2c03ee486bca6d35;
 0x14e923cc919ce767c8d0c308031f1546740d512c6805a48b81ce2bd7e95cd9d5;
 0x21d74be8e343e93f759588cd7d29cd64a3afa4ebb48e1204a3d573ad1d56f4da;
 0x1b8e0086de4de522d5c81eb0a996955ea7004aa6e90d3dc9f37b3bf834b08430;
 0x17e5a80ec135e0c932f063972d785d9f89eb45ffe44dda9a8ffc11468081645;
 0x1a5caf74532f2c590fee8503a13bb0ee8e931b6cb92e8f1e52c337f3c7e188f5;
 0x196b76cefdcc7f6a54c71d40114a0bb82694c936f1573ac7ac1ea3fcce1fe938;
 0x1ac42d7b0a6e8b8f0a097d11d8651798aa5f2676574418f23b7fe6168f28257b;
 0x1ec67557d1bf0e6f851c89835c29d2334967383b9677c71e10f12ceda3593e41;
 0x2f47ab58a58e52340df845a782d6ce983366fa669f4d9373f849c0e3cfbca272;
 0x8f212a5650c4b2f68a8b7a14789198ad2c224facc562e07360904f0adb8efd3;
 0x2592c7276c9fb4e962b8f7f5bbb95018d17303a6e8a5b513b2f3ef87b66d5135;
 0x28eee34c1029e6eea0cc12e202dc1f4b50e73865acd6a7b69302a1b45f2c1907;
 0x11bd9407f0c9e1b9ebe379342b2a426ea14d87335522e8aaa880236f5129fd0;
 0x169f293f396fd012d20b323f9b3eb45362e5d272d2342696ddf1e3efed03c069;
 0x1e1f46890d389a50ac16e5422f79d449a6011c5be9e53c266285afcc7f5b2608;
 0x128da78e60b0758189982ebda43acd77c51eb6455d720455955ff631a922633a;
 0x1069251fcb9d2fdff50a041154e6ccc7579a360ceab1c360d20404630de5565;
 0x1ed383a4d6c433c6801b6853b5c40f67cc4fef27c2610aac9540d5355c6cdb88;
 0x6e9b3357bd837d1a5b8c7598412c78216daa02bbb25970182e089872cea4e1d;
 0x2fb62dd173e44023b3e784ae457bfc93adde1e08e98f3631c6e01bc6343c5bc;
 0x204797d9b16d45b093bb34c6ef5e27304af9ac7ca7c4a252134d3b61b6954b4d;
 0x2fa8b35e4e9405e7ef4f2d80820396ca8f026f3e330775368850d423394b2301;
 0x10c38e859ea854e2c6bbfe3acd613ed59d70053772c6fd7497ed2d4d99b2907e;
 0x1f44270853132e2b71724021bfd741e39c3414e8c63f7b148371a921355b5085;
 0x2eb4d6a5f16de3e5b2c2c33801421c2dee87a222374f4cb2c2fca1fee4fb1ce8;
 0x71e2443b4b9018d2a7ca057b35e2050e59409c688fdca9289c96444378486ac;
 0x1423a5126a2789082bcfc21a6901111b6b5299c4f76d341c8b0c2e9dc4712726;
 0x26e1e7b62d89a75f94630821b5385e6c48a97b8c5c5ae1b3b1f114444e8a10b8;
 0x14fd3ede10aa7bb382991a1128340eb1e6ce0a8d573f643bd8add5a2d8e8a45b;
 0x2aaa9048ecdf21e06da241868551cf548f683880615368a6a2cf87554d893b11;
 0x2e083ac42fa88939d480a976e73c6773d26c4583074073d6c2a9f90071bc830d;
 0x12cc2a0dc5c021316bc97e26a35a9f5b062087b78224526541f528acbde2d1c4;
 0x22adb7b0e9d4c335e55c7aff8bca2048a59c0101099e8ab99b79e64be46ecc7e;
 0x158cbe94e139620090b700f9fdef637d70081aafdf1aff2eddbb5e2f6bc02dd8;
 0xcb42f4bca1dca294e7e897d0a0b9e6cc72531cbc872789265fa904aac00252b;
 0x63156236d87d3673e07b739e18d79a22a6f1c99c2a4c3de4b982b5765c4de49;
 0xb7f0818b640763c1268912be50230493391a86d9de957810fb2d1548397a088;
 0x2aaeda58e831430d69a57059f933fa5deb7fd04fbedbb016a919bf5f4d8857c5;
 0x196b76cefdcc7f6a54c71d40114a0bb82694c936f1573ac7ac1ea3fcce1fe938;
 0x1d3a013444e777bc4e816c6f9194646b6009d5ed09931bd8011f5d3bbb01378e;
 0x18e4924f258930420b1fc45cfaa31fae7ebed37f375a17f1b8ec6e97675403f1;
 0x27c63021eb05577b17d50676669a6d590535b6114f74d6c14abb3efd3589781b;
 0x159d12a40b8694d9dcda1149dc98bc3228eedeb19040682a2c5254723a60bc61;
 0x1c04115e802bd71622e1b1425496f939414737bca8dcba1f070d8a44f6da2d21;
 0x4d0a06d0ce3dc2ac28ee5f7774898d7910714459b385b5874ac46dde92d79d6;
 0x30128d834fa6bd28116aa6cc19453b6f731a0970df12416c8c4e7830ef3f6f37;
 0x1ab7eaaaf3e533054595ab5a16d37af4b028bb6612017235432179802e34ae67;
 0x2a30c413b8cd102148977b0fd1f51d4cdd2684995eb899156438afb7bb4fdf9b;
 0x1eb6795f1e63f8933ed48dce55d257dbf972298f9186c56d0880ae76fe562730;
 0x21d1ef33916e6a7ebe055233c5e38e388ef6e2bfbac5530ec587719182cc0b40;
 0x9e2af7ab3d9206c3f54ded28a08f8b78396cba9de3d7696964d2529a0517c59;
 0x24564fb0247a0a53e81946f9f0365c5d45257ecef288d6d67d0bdc91055a80d6;
 0x1b9ded9f11fe5b6dd79066bd0e16b9253935e8d0bc2bfc130db23a8215d0de13;
 0x192711d3f80d452839ecbfff6dae32c92bde74d051a75bc14170bc690e69f9c2;
 0x1b3af1fa25c32da1a5467fef1dffb9cca1b7b92c4d50e3f7ad0548ff2c4da1c5;
 0x22bcbbbe6b9a39e310a03a9bf0e491451698d4d874aa192b828c1a4fcb86f3bb;
 0x3a947c69e09d64be68d7bf2316f4cdc647c912a6bc4a936232cb2b6d320af52;
 0x2d21f4596d98ac3b62dd919550859a7592e504009d268bb7f5bea0f38d4aaa46;
 0x2b2708b2cafc826207f80189733e6c53d6ec1ebb3c54656689c10a8526967bb2;
 0x13e69bc7a5decd620276116f40f9743e487cc219df1dc1d769b1aab8eb74316a;
 0x118aaa8f364cff4865df9535488935c34afa1943b1e28aa08d440a7a7d72d80a;
 0x11ad3bfa094695c23a74b1f23d9cf7808e7916b9f0eba90ec571e06e4f310106;
 0x2f4b6c06d0b996fac689e922707ad815b411539f857871cd1a6b9aa34386f108;
 0xa6288360ee10c1b02a2a6a6d34052b13ce79fa1ca91f8ddbed485dba92eeb9;
 0x25ddb8ea60be41e7e99c97b6b5a7822f071027932936673c02900ebddddaa88f;
 0x24c8c87f88b21ea24ac03cf1a498d64157a8bfe27ee0df70187f6d11eb856d2c;
 0x2f958a89827eb535aab871af8f3e1fda9e0b6dd0541d7c9830321202d467410a;
 0x2d2b3221d9d7539c627315e2422ae26dab5ae103cd8a8bd19d895ce97e19f866;
 0x13bddf23791d0989c17fd99bd435437bd8bcf676c689ca0595a0d04afd9c2603;
 0x2c15a1ae35281bd2fe7a611523dd767be99c5a32a8501ca19b1a8940e1062826;
 0xcec5e18e50beb5ab2c7f5c9eada9fe3f3e8689b0901afac80992dda3bbf8803;
 0x196b76cefdcc7f6a54c71d40114a0bb82694c936f1573ac7ac1ea3fcce1fe938;
 0x1d23ff4f22dbb142a5d4465aee8fcd2fbdd8e450d1cf6f29182445d4496a2e5e;
 0x172ee58685e83a795c76191742ce9df18765ec6f1e9d1233bf73ee4fbc53276d;
 0x352cf61f75587d4a82226e28ed9a38863d7e3fe6647117cd28c736cb2893b5a;
 0x1e571b53f1260a7fd4ed79e03d32e23b2627804ea5c038618a239b2873961fdd;
 0x150d7efd3ec4cb7eaa6703bb78913527c77b07e38c93a800841a123ebf3edebc;
 0x13cdaeb00438b5c6a40c0d8a039a8117269e15f580b8044214e5638f2e87a37b;
 0x9d76e8da13f87545b74c5f505af00e204eb2414a186b54e6dc3b7b8c24e27f0;
 0xb6ec96b7f761247ebbc27f64fb4275f1128472e7ed11e8a712a206cb9e16477;
 0x1e066da048cf035bcc17fbc4fae18348f4bb1140d9519f1bce81144da499a536;
 0x426afeba63d285758165a95db5df2aa86932ba9f50314c5f7ca4408bc3eaa86;
 0x2ce68ba3f40fa50262f137219ffa5e343650976b2d5d2d1e80b687e40e426d1a;
 0x1e1dbc3eccd20a0a96846877182b08ebdba8bcb16492fcdb60acaa42317ef8eb;
 0x282ae2fa425f91419dcdedfbe6800a0122a5211345524b9c320cf776a201b467;
 0x14bde086cfb19372690c53b0e04ad0ecaa78a8babbe21de8a47a796ae9730e5;
 0x114e76d2755ba6fbf01851955b051cb5e7d677db3fda594d6658ad4fc099236;
 0x2796ec5da2337effa6fc65cb8536ea82b5e60b14f10b005b07308b52d3011d2e;
 0x252c6e37471afd938b2c840b2818ed18eb7900adbe9209e038939f883a236f21;
 0x2b6e07212cf2e4304a307acfd16edc984c170d96e7953460d1cacd3e84dc9e75;
 0x2adaa99cc0a5150cfdd4e17ff6390c973f2491d4e2723918d35ac55b5deefb49;
 0x17759cb89386f9365fa875620b6f6e7cb6b5cee2d77f0b7355d9c33ba0e6a460;
 0x111bb071c2ca17121de11f36ba7cf79f699960dd76e09295610a136afd200e61;
 0xf394cb8fbdaabd31e43d4baeb5523945e29df4f720d026fe115bd1693a88818;
 0x241d58e1cf3ed5d94bdaf9f0c463fb645b65fa19c52c193ad67f1d38fcb343fc;
 0x16713a7b5d8cf3ed4c25d780a7968a80f70c566e6ba208859e6cd69801995242;
 0x19909ba7fd3b8fcb03b6f810f246f384563ebc5896fd61496737f65b5362dd02;
 0x2a9dfd2dd3048b0347dd42aef6561a277adf3d86fe83203df1778536e6c24aca;
 0x18532ee14e86e608555da020892086f155c685561272111e7f4b6c91781864d0;
 0x2509cd9ebd96c0d7cd88a3bab280b42068691da92e03f6de5930ae67ffe04f51;
 0x11c0877290f334877a26326ce2e6ca7a96dd732288d273efcabbc0294e2daf09;
 0x26009dbe4fefea6739e28a0a6fb1dffb35d8516e06914862db8738bbbafbfd1b;
 0xe9f75fd533fa509a499945055cfdd603dd9930a50634e41a935098d571012a8;
 0x1f3592557428f40b9e6582536aed2b7264c9166093b76df3ed68ff033c7ff93a;
 0x196b76cefdcc7f6a54c71d40114a0bb82694c936f1573ac7ac1ea3fcce1fe938;
 0x1befd6dac2acbea83cbc882c661e80b50b85af2021c7ce770cbd4e4cd48f69c;
 0x2ddb55369f02ada084136f4092258eff0be8e170cca9eeb6e2b65311edacdf9f;
 0x12dd67091b9f1d7101cb2cef74fd216fbf49d4cf33548e6d8310446e562cb7a9;
 0x1e824766a37cb1d1c7e75e3f9c261f4aefaaf65080f870e972b14132e7aa6cd7;
 0x4af8f03823d37cedd40c1791ac745b768c735234f5756d638b200e1c134bb1d;
 0x1b65a271d787e78382a9ee5a1715c9aa23e3570e92dacd75004aed46b5e4f778;
 0x1b239d4ebb80ce098356e864632edbe6affc3e5a34d92fb9518ab89f16ca4f22;
 0xa9f23337f4d86a82c5dd9a9216cc182a5a6b6eb6fc5e42797df022e276846ca;
 0x86e0f2ecc21e30809e1f2697cd036bbd6241d68668b26efcba5a63bfaf84037;
 0x29bdb60350b498b5e1ff14f7360deee6aa03cca4dee1a94c4181a28f0fd2a9f7;
 0x2ed66c1da1c54cb685c48a32d650d24c17162a3c758eb19aeb9779fd35ce5499;
 0x23731d564560385b611877a371f26ef53a64244728a8e8c5fb7af1d793e0c7c6;
 0x5d2071dddbfe020a1d54d3be85485fda55e94634c3c7f92b6a0e7df8c54cb47;
 0xf43e2482200419e7d6bd3242598add21ca3c7a6f1297401a48aeeeddf8c42c9;
 0x147a84a37131c4e46e9f9ca597b984d7b4a4239425a12ce32f8fd114874a8cb4;
 0x6acec506161a2536df8657ccae9de73d400b734124368cc4da6fd86ef670a19;
 0x23ca187dab655ca80e1af85d71cb254f05d27b6f8000e366443afbe83c4cc725;
 0x2f8a17922cd86c60691695f93bf0f432f1ef9f05e2e63e9532ab277fa47c0297;
 0x1846b9769a8f327eddc2fa52e235b3c54833f35db8c7989f4342d667ddf2caf2;
 0x243270c2e4a32bbc19d2bd52271b9a8da3f760251ae2f2d783d2854d749d0ab2;
 0x29e4f01c0da1655d98887dc01ea2faa33baf934660f2c934187ea6902f5e0dba;
 0x3e46dd55965a70ac8d048f6ef72742efe897a8a5cac24a0a323452a738a4271;
 0x3032ada92a06e725cfd5cf71879293c3b862c706221b604bf004900182588e87;
 0x9aa6962258ba57549d5496104be1d44d36adad0118ce7780f470655e7a79b9e;
 0x24f4c3f9b2fb7dde23f455ab4a5e76ac60617e46bb7900dd97769420911b59cb;
 0x10e408cfdce8d6f9b7b710d2cc93937cdb43d86d59580ff5417160745c80b7fd;
 0xc7e1f9439ed6f97010e5539ecf56bf151a2955f8ee20b2ec89879d81cd24a16;
 0x20bf7ddb42d4c9d7c8bc1e1b110f065665dbe466145402ba3a3febce0fbfb3d9;
 0x485724e08555b73d84eaafda9702a639baf4de0046875d1f0cf609a1270d720;
 0x2e67be03421ab1f822047861a72a6d08494e65bbfd13c3f7fe6ff48cb863749b;
 0xf79509c03da0c16557c73fb11286f9fddd8f86d235071eaa7aa71a85f547133;
 0x1df1ee0ab120c8673cd3cc8c6ef2e15d74810a03809c61e16e8bab3f20a296cf;
 0x196b76cefdcc7f6a54c71d40114a0bb82694c936f1573ac7ac1ea3fcce1fe938;
 0x214e36f5e05f24b3cff586c96031ae938f81cb8624b76697a7e1e79986f1cb94;
 0x26e5f56af93c25c1c66a64447449b0256433d47d6413c0b2fcf6210ee5f138c;
 0xb31a4ad9ec066989d7421b0f1cb06d7683bf5a64e0c3067e0b1a3bca5a64a2a;
 0x8561474777e7f179341123ab782afad4ff632de09860eff6ebe29e4fb1a0c36;
 0xffb57365252bbf56569562327f8db32f337001a18e56fceb006741a0de303ed;
 0x186989821e7ba7588a8634d87210552eec88f846e3701bb336a5b7f0507d01bb;
 0x2b68655758f842d0aa6dacaccd461eafddb981b75166e55dc1ee2c208308e5f3;
 0x2d399f586c89c60556a7651f9409b01aab8f7d9d9322ecaedc93c590d9cd0fc0;
 0x2da5bf9c9e9da4c394519580405b41e6545886063a830437dec32d7f1bdade47;
 0x2b65554e892585688e54d5bb49e321f507bc305fe56fb780e41d816dd9158369;
 0x2ba41319cdf6a416c9e11bca8441cc610c6e7e45c2108dae471840f71deac714;
 0x240f23cf9066f8f5308a2cb0f33e1b40cf634980a9f76bb6ff07e28730868f54;
 0x231ff9a1222347ab20a05faa8d43bf8cb62f0ff9df561f7af015c73d191ffe98;
 0x482fa25dc024367c8dd5429b56e7a0736c866fe84ea1afffc3f5d0f421fe651;
 0x2923732da6b8bf6ee5c73ce34d3ac60f9660eda207235d1d5af9784103f0fb3b;
 0x1753f96bcf7911bc332bcffd151e9e82248a44517474204b3e9888738e58c5f8;
 0x15e1d217ad8bcccb9a7b3009f26c09576e9a83a00f3751fd4ae4b396667be084;
 0x18e3a1c74fd50b4cf58f3096ed129eff1e129302507e6efdcc44c577ff23403;
 0x2ba6780071d6646fbda80d23fabebbaf0272a953fba3249e3af0b56f22ce8120;
 0x1f7f5e238b103729627d5c22c78d92ede19a56995972ca46a317efdc27fc70e0;
 0x2ea1bdf6dc4bb3ba6c3d068e085a361ec8676c6fe2ce66e842885b830315378c;
 0xa6fca77ea6f6437fc2bfa7f2beb768dd908dbbbe87aa75ad303c62790b34d17;
 0x6ce49d6e3d7f46d2175ae9a176153bfd3a3b8f93237a5e45ca9c4ee04ebc5da;
 0xa01cdcd06c3f24187bef0d4a83b8e21a54746f27f0f0d919e08b7cf0d241776;
 0x13c68e6f75234dd86b9568ea56dd98bce6c1b8d64fa4bde97dcd7562d0a9844b;
 0xa162dbfe59de052c7f1bfd5a6a0ed87c5d6120d538c40a537ecd0f3ac12d88b;
 0x2af4c78dae7b20fd7e337e83afb1feae26c555a544d8ca8fc5c9555423fe1c1d;
 0x2f6c75f43301c4a5bdc3d32fc1d66fdaaa4f3b04236427ede87ebcdcb6c7fe59;
 0x2a4aa9b8b9464b6ab6c584645c872959c9f68ba65c057c235b7e2fde8160e42d;
 0x2d8dcc78c6658c1188d60d080fb3cd8b34ee5fd1adccc8a47d499e62ca725b05;
 0x14d6380547e6c54a017d04ca2b2cbe305a4638b32b4163195b459db073fa9872;
 0x478b43d35f78cb355796e0ea0e8e9f5a8b8d6c59cd2cf58df4dbac1a55defef;
 0x196b76cefdcc7f6a54c71d40114a0bb82694c936f1573ac7ac1ea3fcce1fe938;
 0x1ef96c51c2b7b30f1e2c59a13e9e76f079c907a4718b3b1827228823b9d8172e;
 0x29321a97121f289220eb66f5382ef63c56ab3d289391c4db61c9dacd44a823a;
 0x1481bf24e7b45de9670afe57fdea41b8beeecfb23422e83c83de9f6845ea9576;
 0x1ef847d3c1b94f7d5dff4319c81691a1354f76fc73dbc600638472570c8c465;
 0xc266666de2f8bbbaa20aca7b4af2de342cf1930552784c300342f3896703b9e;
 0x149bb0f5b9d904cdef7c045ee236bc38a33dab8fab24381bbd14aac30b12ebc1;
 0x2ee176ae76a9196262b1d9b78ce2247cf2133e707cccd952e37d92fd71d88d9a;
 0x1376c5573ebb7265f70acb843f749ffab6f69d346c01e8fa59a1c61091e53f03;
 0x1098a7920a98fb50caa3540c5efc8f6db3dffe9b2c806aeb20501cd0e09a5b45;
 0xb01cc70e8b9fd48f7093dcc2ba65898771cb4302388e39d95095b446fbf6bc6;
 0x1b0e1d5d686b5c6879413df5c510fb672a6d6622bee86008f32c0c32d237b94;
 0x1f74ab5e561a3606ff3b9b334dce7c65d772ca2c1d8ab0e2591d7b8dbbd7870d;
 0x20de7f8e6a491ab79a1d638f7ab760fc5c27285e90c87ad512e86a1bff3b247f;
 0x2e48491edee5daef9ee63ac52cb1734aa69e15b68d8c9e0da68ad718858397d2;
 0xebddc875be02613b22701dadc5f3ad1020a797469a02c064545adfdfb73daff;
 0x171d043f251b701475bf87b388ee12b5a469cf0b5f4c120b34b7b8df3a50b898;
 0x11c7c2bb7facd8c4d0e37f220026818496ad96f0009975cade5a85dd0b319d3a;
 0x2b86058c080559f84c11d33ce0dd77e8f4aceff8644a1ccf78907b6f02f2a2e;
 0x1bd631d67d9ac357a1dfdde1c92a62b0c7fcfddc06376746b45231878b83da75;
 0x2cbdd86f5eaaeda63428d4a39c788df7e08cbe62027d423d3060f7a04fe40d13;
 0x120e0960c012805f36743a540c3b89f519e39fa631ba17d2542d13ef27469cb8;
 0x8e188acf6db761e26d65404bbfd7a0b5537d4e05d85f819de8bb08b1f9e6dd;
 0x2da3a719e3b97734dec894cdff62842dbcaf8ffc37040bdd3f2249d32df42e65;
 0x176acedbe2dc8cdbad093b2a591292b231289939391991be3b9ebf27276879d1;
 0x15964189dfb203bd5cb0a49c9d0fe330bc82a66e62b4bf29cf9a878b74133c92;
 0x7e6833725a1a694e290a34cf6d725401b7ba6c1b0b740226bfd38b66acd1b02;
 0xe4fa44c437c0b7871d7db91fee425aef4dec5461c08cb8f7e8990ab8aa30724;
 0x2e3f0bedffebdd3509be6b792530f2041b04171e729ddc9718a2caf15af84b38;
 0x1504dc8d0dcecc34da56ea5522a2bc7960d0dd2e0ea24466b84f59aa5db015a7;
 0x178c9a3999106b047952fb93395c214125f988fb1cebfffecdef4278a076e3b2;
 0x1af7832596eef3c4cc8630615883a143b7b6993e90b4332e66f36cdf167bc838;
 0x2822dceeeceb7a2e1cf3f25a018f8ebdfcfc720a39e370c67d4333e515ddc724;
 0x196b76cefdcc7f6a54c71d40114a0bb82694c936f1573ac7ac1ea3fcce1fe938;
 0x25ce0d19840e800b798a9033269b14f1726a4fd660cbd3b6dc3cb39c07f27f53;
 0x175f82195ac38e9f11db0773887a93338ee07d2852587fb4226f11d9422b8328;
 0x2017bd7838d0bfa3ea272ff2e883a80e63c7288a4433997b18b4c5f0da5f7e3;
 0x1818b2d93a4d80ce0068fd9ce46ddbd200b6040399f4355194edc9f2c55b5ac4;
 0x17c59d81c21e6f83f8972fe07e0ca9b352d04ef730fb76dd72931925c9a78427;
 0x13694ae68e1c55dd02a5b8c1915f878edfbddaf12b45fbe9fa27a2954b213a9;
 0x120221d8a84571726473bfc84ad47f1b04ff70e7a8d8e9c1e91e1165e9b4f18f;
 0x14d65cb6f3b2e4bae5ae5ed1cafb3e68ea86144d27fa8f33aeaba929cfef4d80;
 0x1a6104dae9627992b627b87d84e656009bb69a3a7a9bfee98aa80dbf21bb6ca6;
 0x1e3af87bd45255572d1d14ccba0d7b2f8dfd79b79068c6f3883ca9fee52830a7;
 0xf3d0df45aa7bd62a9768cd20f8466c37b7ec5661968b2cd18abd57367319079;
 0x13b8af0004234bf35f20a7cc7b9fccc999d0d8e4f5ff6f26c237835a1fe042fc;
 0x16e0bf0c9a24d467e38c3778c76b2e2250fb1c06fd4659fffa3093f493a9eca2;
 0x26d28c3453b3d7eca08e87a6c46bf8a698385ff358e23edbb1e174efe5c233c5;
 0x26fcf8eeebb1ea7b1754c047bac9ad888edbece428440fe2102d46969daae640;
 0x2731ccbaf234079c1038e6ab182efe0f1dba3c47effc3e21d2e195e3f0319503;
 0xc785f0fe165d5d26f6b5f2a0ffb7ded4408eb4a92f3eb3d13947eb094290d97;
 0x2581c7faa23de18b2596cfc15ff01dbc84bea0fa4806c7d1a0abc43e76ee0f3c;
 0x27e3f76b7335ff9fccffc865fffb83b368995521e989bd4dd6a86cf595d4a17e;
 0x13234d0fe49f03c4a28ed5ec2b8044e9c7dd20cb831e541b7c540db6c1800637;
 0x11a6eaf2aa5518374eea4199c11f3d937a426494ba614ddbc6ac6ea1dc804ff3;
 0x1fcc367b6de0eac68cb524cf8008e6adbd783e8c13821889031f886647664a0c;
 0x1458038bfbc93c12974f7474afe5bdc94cbd539c913100169cccbdd143151a2c;
 0xf24afffaaa9f04e88599ed696dbd4eae28447c2f05b997194ec832189cdfe25;
 0x7c8e157325437ae945c3c67c4c757493076bae3ae720b00d0c35c36453f6826;
 0x11198181950b4a2475dc01088b72115a94285ffec4c2a5ca614d13b1a14fb319;
 0xed57c8d4abec5e290ca22be70bc5e754e135771d5348f7d711d7383617ecf36;
 0xcec6b37e0709d4c9d5a8ce252840ada6dd5fb95603720af648319370941bfc3;
 0x192f0b18cf17855bfe94214aa47604eecc598f8df429d9c7a9f0c807a467511c;
 0x10323d6e384414dda110f50d67bd06633361960a357f9c6de63f837553cb58b5;
 0xadd901bde5b672bead23855ffaa43194e666b932d604f47000f08d1d2640511;
 0x16dd65f412cf9f1325a3cf4e9a8f02c27371b2c3d90888e7d4ee82713dbebaaf;
 0x196b76cefdcc7f6a54c71d40114a0bb82694c936f1573ac7ac1ea3fcce1fe938;
 0xc86afa39353edb39b52bbff89c5c1a2bfbe2b4100df0895fa7c82d8e77c482e;
 0xc46613d67d66e8ae31191ad6e5bbae2539169134c5311d25c06ca54e9f3ab77;
 0x395678f2449c3e1a76b5b9df068e5dabe76e15ba8589e0703efa3fc1244184a;
 0x19cdd035008146af2718d7c2ea72fa725be2d10efb070b303c809b861b788b51;
 0x1a047c51c9647354891ea4acb582296dfb90bc65c97e8889f1d075fcf217cb48;
 0xc6cdfe9a0d4271a15018a2e3f2d80dfb7468e216397e85e138d20be790b2307;
 0xbc59105470408a58ed2e8816aaed1c29dd3af469e2e7eaf3e1ac366d40d312;
 0x2bd71a360bc27ecd0f2ceddb797ffc5a662dc96cc64cf15e03e2e63a19aa0453;
 0x45e127feeab8d5df95789dfd96426ae84c34723fc735865f80d98ee53eadd5d;
 0x153dfcb519caee780dbcf85d14af1fd03d6888a8f8f35e0f5d16fede2fc3be20;
 0x14e6a09539291352d800dcc6d07e0d0a15b544460b6a00c00b236fe5befec431;
 0x2eb026a3350a6d92b399aafa7e52a5e1730d63b9212e6431473dec34b227eb63;
 0x1641bb238c520d7b2da80d743f6325b013f7f2af04f83162314ca4554e4c034a;
 0x2e2b3857032c8659c4533fdbd59d3e118d810ef879943988e6239fa808bafb4d;
 0x2c37d689e22b1f332dc12fcb8490ec1b679a5e15b1f4b9b5edcc16507adbfd92;
 0x3025a60ca5e0d56b9507310cc9a8a7a6dac7bf6e942883c6f73356f8a0c2afb7;
 0x7f9e146e6c775ceee72b28edabe0f4735ac136ef900a6147570f0ea6de0782a;
 0x318bc71cb7dc9d5f8b099c165d26545fe0bbf112167860825c84c180493c6bf;
 0x2c6fe3f7e18010025df5e6b84648d0669067a473d849b4e181c3f4e03d42b128;
 0x2bfa2ee15d1c06192533994513500e6386bd767c78391160dc4ed7ec323e57a9;
 0x12f7e0085d724c9e28547f4fb7583a6b0fd4685f1fa9d8c012baf4701786270b;
 0x58f27cb9e4bb8bc4df8b66ea9b5a5f8b90cdc72b345c4b0a300b1ecb6e2aa63;
 0x1f34ca32f956eb4e099ab646d95af278ad8db5cd00ddb1c8a44593ea2fef03ec;
 0xc73343dbd1d62046a2df0d555812babf2ee35b1fc103bf6938d783ad0b44499;
 0x18e5fde3115a19d207ac2b687e135e438d915cb495c74a0069fda3370f46083;
 0x120fde4dcc6a7447775ff4e871e321ebdfea69a589ac90714ea4f9a9608e1e23;
 0x2d4601dddfecfe13175df8d48155e9aff8fcf449dafa39a245b8d6cb1706f490;
 0x173632b4f61f2083cbb3e04853acb5bafeec8c75dc4407123e2133c060905ed5;
 0x26b288e1ff854948e38cff794996597108b335f67b1fa2598c5ab2691a927730;
 0x2a688ae162bad939c6de4d889910df138d1f7dcc8989d48caf72e1e22b956422;
 0x160f4b8f49b226f36e72359509e3dac329b1372a7fb63f055d7f9b004d5734a;
 0xddb062d06f99f34542ed03bcaf07a59a456201d26f15d45b8f122e9565d4044;
 0x196b76cefdcc7f6a54c71d40114a0bb82694c936f1573ac7ac1ea3fcce1fe938;
 0x13785c4968bb97c8c769257653ae58a73b94a24553fae0e00988b29f47ab549c;
 0xec91cce07b1e9b778fdac5cb9ff8d8e6438292781351bedc3dda454afee474a;
 0x22ad585fe3ddddb3233f390ec3cf43a570cc4f56076ed366a63a50b493a6d655;
 0x11f51cd707f519aa4d0f07de79bd18a1f7b65d2b96b6023d18a87459396cffd6;
 0x16d2290bff342fae3e0f6366c4a3ccb44c611797e77ebc27d7f5ac31fdc6cb51;
 0x16d4e47f82ee3b3d81d48a335be28f4521f90a935641a451097b8298daf0a26c;
 0x269e6a80d58dbc19ef71e682b1faa7dc7394636fc15c747d04ac950496f6e118;
 0x2c1684229f0eae24af14f894023cebcab0e384703e71ad56199c4c8c70e2dd06;
 0x2d9ede2e8993c45794928190781b626fcc406ac3a977235f9d6e50267ef18fb0;
 0x11d67805271cb5d86a927303acd7fc45218098ab99eeef9756e62135bf77da70;
 0x170206f9a4e4e0d7ef55c5cd644aacce231f7727c7f98d97417b720bc37c7881;
 0x14a30c6b5536c74f98f7fc57d004129d4f887cf18ba9f869bd5630d66d341324;
 0x25804cc693b0e118e811f3a191a9d6e47a537cb64129293c947206d9290e7d10;
 0x1a7a17b400934be92901d4e91ad3cfc98231aa841e09627cce975bab7c15f2db;
 0x2c0632973f605ced6998435a7d0cad76c8c9c223c280080fb6a8c922ad09dae5;
 0x3044b16721e5ed81d39f2abd29d5f0a761c13fe26bb4f53d09d5a05620997fc1;
 0xe2cb4e18b26e4ea445c704748bc7682bc2834cef35ce6bdc043beee286025d2;
 0x1c033ddc1a9720312cc3541e886cb227d2d37eac1cf86c4588e98203692941f1;
 0x1ef28ce82fab806a49fa311c6f4e8d0423d051e0a3500db978ff731a9378bee2;
 0x51d7d3785234a09db1939ae4ceaaf14a46928189efc8ea0fa1889e5ad0d1224;
 0x462c9e533e4745c52df23623b0b72f3c9eb8e3a9f2a22a71b5ce6ca41927425;
 0x26a33280331d48e2aa9c5f8f63c4423a6dc8019b9633f49aebbdb6a55ea5cc93;
 0x8ed8b1b9618a2db7e4746115d96cc25ec51411bcb07985e9529b6111039e90f;
 0x18fe5d991dea77a7b18f1bd5c183a377cb9e5c9c2591867eb2f8e876c40c41f;
 0x25a3f5cf66d0e82be05ea92e3a982a6b3289d9a8e51618f9b21ea0e39a30e5b6;
 0x6182fd61e1b35b6f008e9909fe99904bfaef6519618e435130155d28d1dea2e;
 0x1af6ad164424b6c90ca4241382ca0cd2660ca388775973b08e6728570a22d844;
 0x6b534601619e55889aaa855c063a2ced889c6b4ba4190da327c8a612c255544;
 0x50555bc03cbfafbaaa38191f0cde54e8dcf4fde1ccafb5af5c7e00c316d655c;
 0x579cf40adfc069a0b3cac02a495fbaab0175fe948dc97ac85f7699ec9be97a4;
 0x1d9670b720e7af8fcf67b3c832d43a0e9b36c1ce11b679554086d3ebd3743815;
 0xb9f1b4372ddf2b552fb55e7d029267a0ed4f09c4f95d1b99a08c1d6585a6e74;
 0x196b76cefdcc7f6a54c71d40114a0bb82694c936f1573ac7ac1ea3fcce1fe938;
 0x80610bf8946c2cc782c83ec3eaea36684a2cb66366a9a801b63fad3332e8ec1;
 0x2837c8ba7f104dbc7503abda031731b4a7a1dee3ee8fdc708651a7385e56fc72;
 0xe4348619aa405bdc4f9fd965dac265ae73dcdfc0f71bfa3a943cf98965610fd;
 0x199e9e250ce12b1667cb730f801334157f29044410b1d98b2d6f2a261a2f7768;
 0xa0409a4aedc8480df4a99f9bd0bdb0151e5ec3cbb6707a594d8aad6334d4c75;
 0x2719d9f1e85015ea06b50d406af582c36d5e937522c974727b1e7a4eeaefdbf3;
 0x1066a17fec5e6cd2202792015dae55345167ea35b6a65ab7a7f2af91da59ca1f;
 0xe4b0a49c371457ba0eda6cd95fdc3cb81264ad715202e43e2dec5699fbe4d82;
 0x24b58a924ae3bf6ac96fc11ffab9221a2283830e95377deb2e5002c2bdd1323;
 0x259c8606be0c6467b6ef056c6a4192776c6c3536ffa82c89f038c856862af24c;
 0x21d6c0a2a54c5ae9ef9dd5f2aa73764f38df1e923aafd242e5f523b5332bbd05;
 0x3c099cdc3f61caaa2e49d484abb2b30e969416f4e1a5678bb025318e416678d;
 0x1d4d4b8c552ef0d318a9a8edd80a2f363c1c0a1dcdab35880dcc6bf3c548262f;
 0x7e4cf648e92c276185c416d6ce6f5b0c0e7cbc2eef1e250555699afdfec0a0;
 0x2992b02301dd18e00482a9940d59a69068127f06aaa50a32322dfa2af211f3d9;
 0x16871531e6fe81173d8082d8059270e70ac4125d0951616ff37e4b4aa6975598;
 0x221c08a0b7dc5aca357a52f0127797f9e9e01eb05d73655f6c779ff43f295f1e;
 0x2756a3d44e88bd6547d02fa4460c09a2e982a4d505a3421625b9bca2604bd862;
 0x2923fde3bde5751d8eac7a9a156d2444db92b629185e01e5600c4fb5a2ea53ac;
 0x179ebe0d2b17128a67f8fce5fc42ee26c654d2a892c4eb3c6577448d5fd556ba;
 0xa1814edd4f8466f7221dd98f8ef29107a18c66320825acdddd8de64feb0275b;
 0x1cf03d03226c78b2369f79beef10f08fde37c150d4e7aa197978365ad0bd316c;
 0x2fd3e923ee39fabc387d2170ea6b9a629b0a7e28296c84ba8843f8f03ec3bbc2;
 0x12c6bd4f25c2d042e4d0ed3a1e5cc01247c78ae90e49ae722d32a584286e1b4d;
 0x11b78a0b243bd45aaa4f3cdb1c79ab206e95c4011289c44ed4d8ca99686c9b9e;
 0x8945308107ba56486011898e6bb26a99ec0f0b9071ad9ce0af820d2727f459d;
 0x2172f85afc450cd67c1efebd6becbc01114bc8b3b62b4081e4cca3418693b323;
 0x2db81bcc85e548bef5059b2595b4f06b55386b9aeba12f483f49978ec6a9cfbd;
 0xef5d0ab806be48c7d0b46a2cec1766083eef4ba4373a16abb2226803305207d;
 0x17caf822e96f4cb68325943442e65736c0f1e01b845aa970824a3b193ccf8b30;
 0x2315b8f0ee989b11b9835d8ad7adb67e035f85c24835a4d53cc7d7b59ff15041;
 0x1f5c7dea1a88280a88e2a57c1015af5c5d4e84da900bb30de5fb8c5258b46794;
 0x196b76cefdcc7f6a54c71d40114a0bb82694c936f1573ac7ac1ea3fcce1fe938;
 0x92a67467c379af9424ffdcd9a81657b04289992027e3a841bfe322924e000b1;
 0x8c70f58f02446463906891b2604d2faf312cac00e6c254f30ae85874c112546;
 0xf4af67e5395b62af989d01c1fa9fbd219ad1aa4aa2be4624460940bc0c12a3c;
 0x17f7da080a7159316a1994a87177f0a4676e249247a2a577c3fc54ea8cf7fb27;
 0x1591bba9c620f87132b8ceea1de4c4c5f09872714fe1d63259e0ef80b5f333a8;
 0xcc30f15280abea47abe01145e5f35bd877550b79ae4262f61be65a5ed0cb24d;
 0x1fc9cb670a57f842d47bb906223b02a9ab6352ba622804ffa51ee99da3edaac3;
 0x8e8b798ab602d16910a34edf3f093333041aed6704a66d782d7a319dcda091;
 0x1548714c734096e2cadef4ae88dde9c8886029e21e9ff5696971f11dce6ca6e2;
 0xa133a39d296d427598f8acf721bdc057f2cd639a3317bfef3eed1bf38c610dd;
 0xa4190ed0b3c966b6d7d0bf0bfe4d586e77b84cd55bbf322dd62c4ce7a262914;
 0x26447ee04686542296d06c8f53902672e79514770b3d6490735ee9f5df35859e;
 0x2d1d51cdb7a8fdb0cd7da5fdc33db94bdd8d5128123693ab1f4aa3e78e177870;
 0x17b204236b11bd5c5c48edfde61d817b73d7cf2f5a32a888144c7b088d3ffdd9;
 0x1915106b66fdf208607ed6888d503f44723c87a5c5aec9eed658514f3692828f;
 0x1c171f06ea82d218b24213479856d66394e160dbe0b27e659a7294e07faa69c;
 0x2a4c40c22e17c0bc9f509eb1e30acebedd18ebdda1825e391523a74d4ab23f50;
 0x20515a5d86581b02f9176d72bec69e785a77c41a16fac68e1beb2ad41ee21f12;
 0xc401945dd3d8dbcca89faf8e58b0469e7e7520f2e8982214a4dc244dcca5cd1;
 0x28bf080eaf7736338ce614a62cbb2805eea22b0bfaeac1d0cd2cdeb2830ae0df;
 0x20ed87ececd54dc49ce955a83fd4db61891865b24bd09c3eac85037bd69c52c3;
 0x2baf7d6e7863aa68555f8bfd7648d1b4426f6c39fed82bac197368b3d22eaff6;
 0x1fcf69944cc889569269c5031cc1fe8a1efb0b1953ec7f9573bf63671ec7a947;
 0x980bdeb30e0498f3c45ed4e17a4ae4c8c3bee91095a6340207b69b4ddabb83a;
 0x2455522726c3c95dc14e7fcb5fc1c008b5736e569f80505e71454f8aaacfaac5;
 0x23541590ac6650296ea9c3b935009e79c446280d9bf1010b8e66cdda9f8970d9;
 0x1d14af4f4b54f0c9398e051d2a223193c78997d591a639109818b8cdd02f556c;
 0x22a747877bd35dcb97520a0f4a812c7b78702bad181237c01a05fee842840e4d;
 0x2eafe1740ca67f80d8ae595e84c17039a0560bcb9628b084a97d9ff4afaf6b2;
 0x1dba84e994a54a21666def22befb81abf49fec76c43c3f20da9043c9874ef2d8;
 0x137b47cf2f3d3afc02f3469e9d165e49a212ac255691a1bd3565bce046fcf153;
 0x1eeb1a0edc33a3e69b8445581ee8f0ddf84748fd901547d49440c863ca10caea;
 0x196b76cefdcc7f6a54c71d40114a0bb82694c936f1573ac7ac1ea3fcce1fe938;
 0x3e5726f2b2c60906deb00a314337a9c6e4eee70497a4a953ea206d200db8d69;
 0x528d0374310dd042d5f80b2e720b61c4200539fd1e1a23ee1f8f347041af0db;
 0x1da41de720a61ccf6e3b9b97ca36d7439da12c92549a11d238475e05f9037a03;
 0x21c1d92ba962ab12631e4f710fc9b066c369ef4aed709fd5f6992f57be251b99;
 0x2ebcb6f494b7d06a34d2d097c0f46ef929646c529f6efca0edeae7e733b0278d;
 0x26ba18bcbe43ee1a2ae6e1b4dd89151ec17e1341839b94e4b2bfbd70761aaf49;
 0xf05d9b39c0b9b3ca177ee5a8b12de457d00643d5a668a8fb30d6cba0266ae31;
 0xdbb12012ec467271d189184d086eacb530c1bc906895850bc80af72eb6e49a4;
 0x1e3d63755488479f0502c34e097c74fed1926b613e979d53a5353ea959ee6c9f;
 0x2939fe43f4690de6ecc251b7cbfffca082fdf3c841d5ec1aa77de64016d23c0d;
 0x29b304c4af9503a5a1ed74cfb37c9e98235404a851e915f9b476f96cf97208e9;
 0x17f58faffdddb92894ca7cdad4cd379da8c174076a250c3a69441d649ce04bc6;
 0x191456fee87886a7ae3d41901a05e755d8a3cc2a2519cc011a80724d430e918a;
 0x4301fbb26093e59eb5818971467c137eb7633a00e8d1f51856f2e38596f3d2f;
 0x127fe9f3329bc33759114950d8afe484a98e33011da6e40a41dc1f4ca2ce87a6;
 0x201ad991da475d146d85daa85c5ca3d2d9ca48ff7886b06e37dbacfb7ef69664;
 0x24a3d85006e0ccdd3d6fc62623fc5b36b1827ad57f7511a9677cc36327cebe65;
 0x273193d9b2986767b8934849938c7d1157ebc32578efcc7528d9a6a18a354953;
 0x2bb64a3b825a61f6c8b577993aa63ac00659221cafe92405be881026da729676;
 0xf656e73593dd090547fb5b3b8361d172c93f94a334e5feddc059fd03890690e;
 0x2889c18fa2eb572d474b6eee810b750942586f2792b146f455a023b89542d353;
 0x10ed5f7f60bab5b473285acbd59f0e3dd299f6d2d1e6412322ebf9378f4aa031;
 0x94d0f2d2dac4b549a1ac6b1e112ecb6e9eb337c0086cb2c39c5b98a180391cc;
 0x1b6950296c9a98930d2acc173d41e4788e70e42e3f568a97daa0fb7ad8d2eeb9;
 0x227c2f6979d9ca34ed1716207f3d70e78b9b76b1fdbf3ea97ae4b54826190e21;
 0x33ee70ee09fc264ff1cfa9060778cf77b725d24c55967846f6aeb468189f68e;
 0x103ab98622a6dd1bd90094a3b69b635873a4bfb0b1645964b8d03390192a264a;
 0x46f5bb0ba2b9a8cc19af50bd1fe9d3e73e4df3036ee569beef19fb47bba174e;
 0x1955685f6f6f936a887f4892fd66ae962f38fec2286788bd246f7eca45b5d7f3;
 0x7eaa9de669ef1442dc6d616ec080d6c921f95e73b87b7c3752782d7846d5a16;
 0x1103c98bc60cb276ac254178b668e743b6793de46309ff72291767e697516522;
 0x14e1141e0163ad2a79522578c5025149d4ad0b484ea0837c427ffd798b5c211c;
 0x196b76cefdcc7f6a54c71d40114a0bb82694c936f1573ac7ac1ea3fcce1fe938;
 0x4b913e824903a4b78ffbfa9043117402f816d24b695be147d26fb633ace8fb6;
 0x11b959c95a4da45d9da05602f07e696b8ac0ce6781702a1368d807d21eaab72f;
 0x1fbfc86fc58e1fa4032309165184ac8b6dc81dc1f81c09ff100758347243f289;
 0xfa7865327aef8246f45ac73dba9666a853fa8e71e1edc2409647207922a9041;
 0x3020170de7b6e86b2b0fcd04439ebdaaa8ce01089600b801945dded0c906d83d;
 0x10e72d8e4629ac7c8fffddca3f8374759040f8f61e1b2419cf266255d68496d3;
 0x5e90f1892363b99161345ab49317e3792eb9a536f473e85fa47480b90dd2a86;
 0x240e190d0b92f9aa7cd7bce008719c3f8d5fff587df3958c85f5a1286288f63;
 0x16e841b2ee682513db27e23b983f5fabbe6ad3a3d44303962910302eaf30840f;
 0x8a397b575fb86fad288ceb48f43315d70399c8bd9cf4af25faead935d02277a;
 0x2edad52145b10b3d0bcbd0216574b52cc2b442f9308ab528a018a78ae97067f1;
 0x1caca2ec3c3d6617fefbe6901c4252ec01ec7cdda757bdbd5f9cc62e911cda61;
 0x157303e9fe11497049ecf530db42fea5c87d7b14cc153120babb743935f30de0;
 0x20d93803a35f06d76ab5daeec28e4591d0066271d84edf26660e0350d30a9049;
 0x970dae33627a299a9cbf049505d94ce6cd1256c80a6322ad47479448bc808a2;
 0x178b6678bfc5c1d9fad6fa7aea247cb6b4facffbd49fd846c64f1411b2c2f6b0;
 0x6503b98a6cc525bd286b56e7ec81ab36835c969d4101ac249d3dd65834fd99c;
 0x21218ec0a783dc924ae7d9f38260750f0a0e039a4004cc095d5bb88e1f9be771;
 0xc0289c9220673997f0393267b29ab048761034a16f6b6e076b063ec6031846d;
 0x1984f03779ff4d9b4ccfd87d23700f204b38c3a606b0279327ca81ff9560b48d;
 0x17aa6042676f383383262058e28ab7c70d3d19b4f8ad4f54a43869e037470258;
 0x2ee1b009aa9a1ba5894110394a79e739754d9f2356ccf9293b2d851ddb6a6c52;
 0x22a586eb8ef3b8257479bca2d919afc56fd0846dbff4f3a9db9e42e4334b8727;
 0x643b1de630b4b9a250b0eb1857c4323bce1701afdb02ff2c6537a04847ac5b4;
 0x125bab28f5eb5c15dc0b3e9ce2b1e6bb246ebc56c44fe9943dc1ea4915830033;
 0x1bc10af70f7125d85f34ad4ef6e7347eeba2a11321da19894c5f826880d770ad;
 0xf6baa6289cf76db86d915ac19af0535773157e39b5423b43b1f3d0df2a4ef5c;
 0x2e80ef76053f6d815f5a779fba74e9b03bf8dbb8a19d40550c519a35f391301c;
 0x31efdb5d245fd16283ceaab1fb5d4ac1cd08918c0c22265f7f114a9ef22058a;
 0x25efb8eac91f3ab3d77ea8ef523c86fa555516d32798397a6ad00622095b9b0;
 0x14cdcee9150e86793e59fd2690a2aa102c2ec7f78d1da286826a37068c8859b5;
 0x101320abf4ad5bfdd7bf37fd1b5e5afa8f1b472c02e062a7058780fc215396c4;
 0x196b76cefdcc7f6a54c71d40114a0bb82694c936f1573ac7ac1ea3fcce1fe938;
 0x4d0659feee688cc4dbaaea4f05b259f7614cf5a5d970087016cb2f2eb343bf4;
 0x291dcb25510a3655066e860ade461e23fa4f89bc26f523b65b88aad5a753623c;
 0x1c40b5589a51a5bc3e746f93c18ee86f51331e8da3a246909b6a3063393a1b6e;
 0x50535d58a6b20676d9dde187a15c9676781eb6c1e46159f9e63d7db750c6410;
 0x1532765d3af5aad33c7cae523592894cf354ad9890479d662ce3cd51721178c1;
 0x8a6818b3d448d43c1b5ef357488c00883e342690a21d3fed21f7d62142dd589;
 0x17db4c5c59ff1ade79c01c45dbc7b6134c929ca5292cd7893a016573e7696756;
 0x2a7e1f2d365ce9b5abd3eeaf983c6f6434cdba5ea59222f6bd3a5d3ecd763f5a;
 0x6261e5b4d7188ac9e84d341f1152a4518f88d3e701ed5bfd7110577ce1dfa8f;
 0x199c5a8f0703767fe32daa280419f8c6793bb0888ecdfcbb4eb16332fbc028a9;
 0x13388d9d87929845924e078243a8d7e2476d77ccf84f1c05f7fb7c7da371bdee;
 0x7d044bf7a4fd698a6757c186c08d7c39c2083c8cbc5be29964e481592ee6684;
 0x283cd95f4743d216af04c17591b192367280dd2440ef47349a8f384f63887cd8;
 0x1356391f7516db1ad0481ebffa73034416caa2362bd2612a9f42034e35e93e27;
 0x26fd7e1f6d657b1bd8333e3f9b548f54941b9d13830bc88b8210e5b359b00f68;
 0x27ec948ca2028850a977addd6a9cccc697404d4d4b47eaadb54558c57435f916;
 0x27529d815efdab4fa4f21829ba3103982ab79e6052fa863044394fb5fc8d5dc7;
 0x1dce3f61f34639eefa0a344fea750a5751da0695e577434f20a38658cee96f09;
 0x917c97d46d5b4ff89b5cce4bd785c4b68f38c53beae9cec7e8ce31f7b11ab5e;
 0x1f389f75cde06c7ca3105a2b5769cf3915292ebb44e5819229fe3f33ff11d03a;
 0x2d9aac1c72b0a36a067ec7776c0ce2138eed3e90c3c381d13b28c43f297ff300;
 0xb8f7a8e4c0d2d5757c501e44a51e5f5160a01440281ebd4479b858614cfc09d;
 0xaa15536df2ec5905877e2ebf9d07d3763a3f94e9b4deb5c6639bd89efb86aca;
 0xb03dd77a7424fa8d945440f077f848e4137323442e11e1b4a2efe97df3214ae;
 0x70898a71952afad3ef0062e8420e92d94fa7bddc55beb355dcd1d3526f538d2;
 0x29d5413ba2416a2db49c14b165cb247362821494d738b57897a0bbe6cb53a287;
 0x7f3f807872bb8ec72dd2ccb223407a19c5b64e086cdb0c38a7b92458c5f7c8d;
 0x2f69330924f5ca89e8ea41b0334796a9961df24ad0abaef5106d89963a038f0a;
 0x2abdcf1940bf24e67ab4c8c0942df7d3440d04359da428541b0f128f6f53184e;
 0x209de37635d57f9ff0ea8a6be7cec5c70d701156bb34e25c0948c7090b319ec1;
 0x79b485de26ad58268a3b1bd5cdf3a1dbce291e7e30a1d645a7268d340a8f1f;
 0x2da731b7942de735663698b5d20570402d266df448d8a80110557643a906ba3f;
 0x196b76cefdcc7f6a54c71d40114a0bb82694c936f1573ac7ac1ea3fcce1fe938;
 0x2c8f848a56c338afe1290f12b67b57d00ff8e974e804ac53b174ea42c9970efd;
 0x2d02f17717bf0db48ac36ad0a19e621cbf73b049364d945ad2a962d481001430;
 0x2150b09c7e10ab5208e632f8dfd30bc323807c5c6b122a6783b9fe5458a859c8;
 0x5b10ef00e618a270ddc6f313e86197af2bb111ec623f2964518938e4d1ab8ce;
 0x813aef08c1ab8116f2ed8caa7eac00762afad0fcf0fed79077845b2b81888a3;
 0x217798429df3f4efe0b8010a3305f618cfa40b31226a7f01aacf05750f85e308;
 0x13dddd98f07da3c85a8a7e584a541a3d1c30131e58fd19a79d3583e1eab08db9;
 0x200c75e95d154cd5d9f42b940fd7090764594e0179db56e462c80da1b57e0826;
 0x24c60aa77eec80da564202803e367806e84056ea84571e7702e708eff20350bc;
 0x2008060f910cd57bd018a7fe79edc508e11897199106323a04369c0b2f110193;
 0x154b1730e35711d6b5e0596a7e9fdf40a369c96e9889573772e35153780d06a5;
 0x20b48f4a5019ab0f0229c8613c44f40d6ca7ff80ebc6bd6f4f595947c9e3e9a6;
 0x8da6678cb4513c79e70618c7f6a247376292a28f4b8a26d7b22cfe89262422f;
 0x1e32944ecb0c8e538be8b702f45748cbd910c621ba8c0462a03a6d536e8f3cf8;
 0x130383065e342214003bef6cd7ac224dfc22a799b13a089cefed9c8872c056c4;
 0x2bb1e946f9019e0f0a3a6f31c54d13d900e95b92657fb49a0bb1d8b085aa7bdc;
 0x12c6706724626b4a2511d5ef4cdc22e569da5743363f598b0985da3f74ebcc66;
 0x105f4876b371512fdd868e75e02332cb49f228f7f6c3ce9012fca57b9587fda7;
 0x1ecdf6fcce9eea60179494be5317b761a337f5c1eea7d4bd7b36c4b136ba893c;
 0x9cd2ef6d45dbbca0dc657384ddb563f367042010debc24bf026a4b9c59f0da7;
 0x254ac6855d05046745889295c485aa0d141421c2e7e46907c6ae60a50ee2f8ba;
 0xa99c054b9a38bbe19930906e64c1126c9f0aaeb16ab6c33d1e0e29418edcca4;
 0x220b4016fade57782896ac3ac88e5c69dca5e58f1d6ebe25f7caee67371b85a4;
 0xb1979da1c048f6ef5e0232ef793f134dbb2a9e2c8f83a710944e1ccbdb08da5;
 0x2eef2d924b88414b5f89ffa9dfd4b62047a12d0e08118d0d39a1a1fa99dd91e5;
 0x126ae3d2dcacca892ec8b9b2338953d3bd2a0b341b7ed5986138dae14b6bab77;
 0x19e7c32cf6e235f95e2ff6e9537b23f8fb2ef50b5a1f734eb757352a74eaf498;
 0x2f9bcb5e0cd5660350ea6151e4a514ac84dc6064adac393e9bc4daa628297fc6;
 0x1aa496f96372589a74cdb1523691b1fd072bd35560d30b8c48109d86c7776b75;
 0x2ea5a8d0da13d3a0051a7f1b186b35d6f0eb986a2769aee850d3945ee2409439;
 0xa633c25ff6bbbd07e365ee018c76dc3be74b40619892f106cdecf3cc4ff8372;
 0xf412148158955c69a302b9b42e5fedb330d5ab4a6cf31b25d4fd1d8135c9900;
 0x196b76cefdcc7f6a54c71d40114a0bb82694c936f1573ac7ac1ea3fcce1fe938;
 0x2f2ed1486990b9431be8fc1485b6eac869fef5cd8fd2a94c7d4d5da7e496db12;
 0xd5140886c23f2671e698c3733a296be1f4ecb97f7520b027d906189fd755860;
 0xd1b9427080a9865543b6fbe5502899198b228d02f2ee9287bd1bc1b71680370;
 0x25f14784419e0d86eba62a9cf2cb22f063caeca529be18af1fa084c73287c3fd;
 0x1cdf7679aeb1784cd81e69e41807377671163372ca50143e5b30eef5a31abea9;
 0x7abd6f3a4c53c8d3aefe49b257b3e7c0aace886107a6168a9f93e33733c1224;
 0x198e8dde62e4b800e4a5081cc43fffce5ba02ddb349795a9ba8d2ca36eaeceff;
 0x2a10fcbbc185ff7ae275115f56640a9ab88dfee8d2f371e21fade31ff9e7d249;
 0x3f74e702559a149c3ccb5dd839b3f80ce100c26671929236a4d703c6e53d53b;
 0x1e9cd241f96559366079809b034d98dc345a4814a7e947e17b41a19b4a119b75;
 0x7640b3b48b2cec9061c87ce4740d281ccaea62d865d0b3da726ffcd67d2d426;
 0xf224f2a3eeb002452e25fa54b360804dc9dd1a065655a31230e91a1f7896eda;
 0x296b25652ffb82041356634b505aec0d11bc8ffeab06b6ee76f97d3e90e11316;
 0x24b1e852a6168ca05bfe0e823f4a984b3b99ed9bf3f651cdd3ca31a2d93a21e9;
 0x1170380f35b0c131ca5d2ea71f42fed8b3caefc4ae2ddb42ffce4c72df975521;
 0x2a21146458a9b5cd2232544ec84b9c2e3c07b75cbc4a2e27f1458995a5cf7665;
 0x2cf40c380da1e84026e58bca73fc8821a6956f7866bbc6591330c7b0876d1e48;
 0xa4e5a8c25c79291e6e7906a8bb9897dbd91567061abbe4eb2b80f7e591abad5;
 0x219cccac1ff828ee50d9413629c80b870ed290d5b2197a0b9db61960913eb29e;
 0x18a4a743a05448844b46abe129001953306236ecccce1b8c885e712084ae40d9;
 0x23f5c0a65d6d3f4b017a68d513413e702ab2195a12d3007589a7ad4230792a99;
 0x248649d22bbd35db3c317fb6f1e20944adf80720fd085394e606fe58c93b227e;
 0x1da45cba740db4b50fc4b2571e40590ad20c725af7393d2e2096f782ca8451b0;
 0x59c9894d39a728ce35f569c8b59acff2a98903a73d6935236ac6ab8bb65e7d7;
 0x137afc1da2a1dd16e4049c3e23951f23e5324e12fe046652beb4cda449a21cd3;
 0x1c67f00b6836091d6642592a40c27b9b875f51cc9eb804221130d3f883d29765;
 0xbeacd79129b9b6c793b29450ce6458c86475951ca6f0941ffaaa73622709bc;
 0x1d7194f0b9970b103e3d4bd5a46b5054ab45bd42f537324cb6fec3c672cd5f0a;
 0x38c741f8607a78f328725ad18d2baf8642c005429c53f5b7f9b8be51c8a507b;
 0x1d32ee86d0a10d113b8400a3301ee9df0b4f9666c4c962073bab7f02f0c55e7;
 0xec78e82ba602f4ab67e987ff3eb4562b0818c481c6e8febf4a4a157ecea15a;
 0x2e0de6aecd184a6d47a6a7ae42b76346f15f98bc4f0f68ee1a55929939a7842a;
 0x196b76cefdcc7f6a54c71d40114a0bb82694c936f1573ac7ac1ea3fcce1fe938;
 0x93d13cd9b043a5b6a5acb2de0bc54de68b71c88e8d61c2c3c3bd52febfab688;
 0x80fab4e2e36da9276e4610197b32d28ecff28dcf155f5db596037e41a2888ae;
 0x7d2d245764c856372297c49ff64365a99137acfa81041932b4324877e33d9b6;
 0xab6a369f3d47ab68ba9add80b46b610d39531e22a75a30df3f32f4bede18a73;
 0x7a683cd3c4e68622283858eff121cf3a5ec2cb48763c290a4984f7e75a86139;
 0x1fd44c84d9e254b1c6e60cb8c1682f5e78a5c9f9cc88e53b8bd1d8e9bf20638f;
 0x2ac2bdddae01ecad6c097ec139f7d442b7a5c48c491c0a83a006e9dd1c44c9b9;
 0x24a03800df78ab8dac3b172aba870efde663176598e2489fe1371f1b8fd9ce09;
 0x12e453652194ddc8ff5f249f04214d2e0571ae46eda251ed66c9de6f412e08bf;
 0x592a798f42fe58f27f503f2ac512286fc9a0271edbbb43d263358697b731668;
 0xa92a96d55b5e02c8fe846f8cfef92f2243cbd535b6b3c0e44d3c6fcafc01963;
 0x2f43e2c6e8af0638e163e2f4d34aadf2debdb3a5df531296ee2bc5dfd2aa8d41;
 0x3117e986130d1c25eed39ddb3e1e4afef783e031d60bc17e0681288f2d910ca;
 0x25cafbb434aee06df5f90241702018c6fe677ba0bfac46f6b5b8314ef8f5d407;
 0x28b797a499c2b1082b6a674ac02ef5cc2440d6eee1ea1be1ed5a527a6e5ccc95;
 0x23bf393a579394003e64cc399506807aa684314a29992e3bbb3b67fee7f50e24;
 0x28656564d677d58df440de43115089a1790d1aa95183b390349688e8c8aa3e32;
 0x241a69500f5e134c993252fe1052c9cd7e235d501b3b2343ee0e4857e2d0209;
 0x3744e02ce85e599147162a48b8095c61ef582bd1b4027649a4b706e9d99f355;
 0x59b7a17e1c0e884def789033664d88ba112980ee5d7ce4320f4b59092a493ea;
 0x2a6efd68e5dabc912ec2b5f7814e6e1b7b8893acd10e93d8e88af5cece9e433f;
 0x20826fe980809fbe57d7af7d60262abd566278d70e03c7dbd24798c9c991ce5b;
 0x181e562d37922bad979ac96f562011311f09187613e196398d3cea64e7fcc7ca;
 0x1c4e70fbd4c9e09d3b341e1a9ff87d088e6bc4d88a5cb20bc39a2216e9a2e78b;
 0x170c6ee37a8fae5a940388717c1ed8237f9c2c51e0771fe1c5114f020720b1c2;
 0x68712f00eae99b3109162c3a1c8a6b836031f7b3fea61477d274fc39cf53b53;
 0x1937a02e7c8e39d7f3a88a82c38dc1b2b6a7f4326ceaf7aca3f8a2fd163f1388;
 0x8b99b6b338adaaec87f0f4e4106e1a76938bdcb0b55d66b9af257f46da5c6de;
 0x136d1108a8d4bcea80090baee33556f59dcf26a8365b6f657a6625029b73f354;
 0x2d8a56738cf6dc4785fdbc68f440fa3b2d4de0d5ab6d2d7c6c11649ec2e4da65;
 0x27f16feaf6fe1525cd67eef458297d1696dc45bf5f8f1ea18e17801399f3ca4f;
 0x340f8d664a1afe4fbd06793842133cd43ee4e0b2173405efa10445f43a1836a;
 0x196b76cefdcc7f6a54c71d40114a0bb82694c936f1573ac7ac1ea3fcce1fe938;
 0x14ad435cf9a9f41fbfaa62698ea2b01d778fa6ad3e6d75d628e535cec66f6183;
 0x229f1484514708285cb6c866fab78878bbc39aec362b9db5e258c101a7382806;
 0x55104ec0dfbeb910aa081864bd59497cfe65acc2091c2cc675ebb7c7b2a318f;
 0xd75b1f18144371f5a0de32dc9124230448f17584ef93ed84300270b6ef3d4cf;
 0xa1da3a581de2337e823d10c00af64ed8152a3375abc7c8e038592893e02f879;
 0x15ce644c9c753f2b508595d24c0905b3712411f8bd78c1dddb60a61e3574f50a;
 0x249251029b3a7d83a4442ef27a2f3bca3edbdfca88c33095f557cececa23fa7;
 0x2190e0657b7f4592ed17884e486aa0983f96d05d497f12d9bb08fcba65e146a2;
 0x18e7e7d031ea4b865475eca9cfa2f156d2bebd8f57c6c66630f2b3e9bdf3aa1b;
 0xc23dd68ce397790fa9d48e22108072ad02df0f80f684926ffa4b66e8871b1ee;
 0x1346be394582712818b12e409e1a2f80f258be08e8f5273e4223048a6ec68596;
 0x227413a36ae6153e431c4dc592eeb597ad18b0a119f1c644d8741c5d1302bf5d;
 0xb0ae3714255eb9abec3c60d3e9d3852c33db950e87bc17818ff0242955aa594;
 0x1f65fc46116912553c6c9bde179a09288bc29ab001fa7f58b2b36e10049da7a1;
 0x1c35284edba1cd391d618754b17f642eebed4127382b82f7c28b2e70a8f70d40;
 0x1080a3fde0e42ad7dd86de041cab7fdd025951641942374c1abcf62626f48a3;
 0x1428eb2a1f2d91707f546af2e0a14fd6f11eee2ca12eff4d36634a08a2501d8b;
 0x33503c434487731d754e92d6e8ce327ceecbae661711045060e165ed284fd29;
 0x137a5d67d8c2d7d92f83451a20d0698f3ec69d9bedca8fdf23e4cc761c30895c;
 0x33ff54a0543a859d10d23919d9353eb1c7df8c37cf77d71c033427f8785ef7f;
 0x2ef45d95ea7a2a6ebf7cd42d1bb3eede45cceeb3c13124fe3e4bf9bd43919aef;
 0x1503cc2c9f6869e97c3f356fc0888cee11b122576b7ac19e53e22e64541b864c;
 0x13b7e00bb153de07cecadd2525f0400ec81c7f3f01b2f8c0d4d923626f5074db;
 0x1560e82a44438c75cbe5e7bf4242e9b318e84d0f70c247b4941214a54e2ecbdd;
 0x16e6cbda059ea98cd388bc97b407a150d03cbc54db44314acd2fdcb856ed59ea;
 0x224e1109c1eb450d665db9aa5a324754e9de0f3645c36a4f42c06525a6a02f17;
 0x1fae1e95cc145b1b611ae98352921e5621563019bcec54ef9aa0a006c5ca9c0f;
 0x29c2c9268343afc2448493205d8efe3ca12ff4ba45195e125b1a585b3c15362c;
 0x1745aa01a6decfbf4742ca4eb4fb46936c593a8fbb1753e4b1bd8ac26107dcb6;
 0x2b8e149f0ad40ad21c74ba35026dddbf89dce7c2227dfcfc94a55130b282348d;
 0x21eb20b36f906d2693f37e6b25f10a251dae88ee9e5bed97d0bfea9d95eb6155;
 0x2e2d367ebd03ab9e863a272a0cb40240222f32d1ef3f7a79de99160236cde439;
 0x196b76cefdcc7f6a54c71d40114a0bb82694c936f1573ac7ac1ea3fcce1fe938;
 0x2e142d51bb3c63e11687bea27b03d2c1f47ff4617dcf1784fcb06139718bdc;
 0x2f9a0d8d22bb17dc91fb40146ab611c24fd7aff2721139eebc67f103abaa8abe;
 0x1cd3446fe74bd3cf4e8790869ca502315e2cb5e61bfd569b79e4bceba7dd18c5;
 0x4882cdf369a6b624cdcdf140521e2f5d4f056d5be8938eafdab02b2b6b28365;
 0xdaabd96d080089cc09b753a113f03c79cddb879fcd4fe92f64086af355320af;
 0x11fada765d840371159d393d9383846a758452164778b156ad07d2f97b1c81d5;
 0xf1bb77c65687d588f3afdd2e81ed31b0b14e7a6b34b3f194013310a430e72ff;
 0x1b6cbbda2504b6c7157070cab18a64cfa67b25174430ae34f88f41d06a5df61c;
 0x2caadb9815edd0b00891c8952f439654bff61c480d34304a559b2ee106e8555b;
 0x29d647c2ff17d90d8ac500cd862bc7cf3bcd63cae45d13ba2b2f5bd819cdf00a;
 0xf9577281c0113be755056c5a200c03b651cd175ef4c1c51526a262db78b6012;
 0x1c7a4104b1eb344a9d10ae34fe9f0d9b944b1f27b9ad60e78d076f14b1579dd1;
 0x28833764307c07236b8d64f1e872a15f26b93cbaa63062c5728b6a6126a2b3d8;
 0x245ff91d36df9a9301cc998a11ea027605aea0dac30a20a32fc5b9546ff5f22d;
 0x9c3b8ddc3c8a83b3dbc098cf547b51d197fa16571ca6ce1bfa603f23474188b;
 0x23123b0f1690f3c61a3d7877f26f33c4c26feb8579966b878f9313f2a7bb0724;
 0x2f42ef2f174748c44f63767b95d5e66b2554f75a164e00833336a9d990fe4279;
 0x1d8000747e03e93c37fe21b889bdbefdc234baa290a68aba51d3517a260e6944;
 0x103f779b0899d4250da3fc25d27e0444a18498ffc0bf0ce7ad7fb106ba311a18;
 0x7f4c9eacabf180b840cc30448d4926692e4a4d4b6c970e0e818c5e11d7a984b;
 0x17e5e03ecf01408a520c1c5bb8e1a4477b011178aec18404e414554fd78da779;
 0x116cd1a5deb317ac2200d91721cb4c794fd1bdb9e04c80d222b2ae77cdfe0412;
 0x259847fcd69413a8b787a452950cb9970981ce86ace933112f205b18b20af1ac;
 0x7244b4174980899193f70318c4c09239a011431b1f0bd3f5c79e8e36347e52c;
 0x27a6122c5882996b8b87923a9b66a2a4970c9844cd3034e847fecd91d6b13fcc;
 0x2c0bef6885d9a4d76f43a29ddde616fa8174cd24ab58d4dc707ba5f924739c41;
 0x2d0cd48e3952f4d64e4f37477e2c0ac65fcb78682dcd8fa4c4e9d744c1205af9;
 0x8d8edc9e81dfba6cd7305c1bfe73f42d7252dbb19889e125c5c9aef137804c7;
 0x20860a731c157ac1b7ad854b3b851d0c739f111995a8122aaa7147ce61355a1b;
 0x2b242cf51e3fc841f925153bac6ae94b84c0e4839da70c3639ae554a2ffb538b;
 0x71642f8fb008ca366c562ce0755bd0edc2cb3b1851d91871f7c217c6c17b812;
 0x10628390eb8c9489dd00520c4d1f3bcb7917ee849eaec5d03d662192e40e4c05;
 0x196b76cefdcc7f6a54c71d40114a0bb82694c936f1573ac7ac1ea3fcce1fe938;
 0x2c657cf556552ac00d3c6a312f941c21752d80f6fb971f6f237b9f067f55ef50;
 0x2274e5afd41f484d4bb846c23f4d15eec892ed12abfc57aadc71c431dec0ec94;
 0x21e3eead8292384cd4e9ab89698674acf899b310c4fb1474a50ed68ab15ee79b;
 0x275b0e09088d1a143b3834ed09babfca45694301eb39680c7e01456918596140;
 0x129eae0d0efd6629f2846e2659d11190f995e7f7976dba6706d5275f8ae42e2b;
 0x23c3296abead985b298d2f7359d6fc6b66428469efef7f33cce72f7d261e200e;
 0x120eb3949a1bc6dadb99eb797c5089f6c81b8489e8d2fdb648759f9b7d950c92;
 0x277b28338565bebe62ad1128dfd277e71dcc0f5cbf15884f3f4431aaa022ae2c;
 0x4f36e389ff9ebb3bcd6810d8b233c0cccd2d0a9a86f0c6eced01bccdf453a94;
 0x2548fa65475658066e282e043fb7e3a2e5916ad635f27977d292b0ad3ef3e4e5;
 0x4565577c55373eed95c9aaf5c9d202c270ce37dc1a1a2232c856f88dff9364f;
 0x233e72784c11da8ade7b9f172935e44a748c8cb94959122f9da6c7ed65a6cf10;
 0x158b72f3087e0267336e27fc3921ee3a3a534b925fecb827ca25f7dc77523334;
 0x15c260f3c32020be493ac81d6969ece9c8e8aab39cb11ad8c69bd97516886522;
 0x2396362d574b22bf4f2b162ddb6879ae4aee803609c5af81b0cc96e1dd77fb69;
 0x2d0bdfbd9147195907ed3568ae8309feb349fdff397c36b567099ae14a3770ff;
 0x2cd487c6239575748dce9a1b1e9cbaaaa9df4bdbbfa64f68ab6ed9f9685898ec;
 0x1e73a3297684b098cfd3e270ec4299fc88d970a924596014e9a7f602ee9b081b;
 0x248862b26667bf9e71255c8473c4d4f498bf02d6fe6c554e9d6a8194b443c7b1;
 0x12daded6502d15cc7ccfd3998e01c39851611629fd9a6562f628ef83c7910b8d;
 0x15e998f00cc4dd24ff559089cd43bec5566f2505b8136c5ab74d9a426d875c75;
 0x217fa23d5b14a9ffa837fcc744c4a64fd13e6fe162777fc834bf119df306c8c7;
 0xcadcf98c06aba7c6f354cd05bb28857f3798b83111652ddda6e2f8fad6a0518;
 0x1c5c0906f02d4a6e3fe315f26891dae1132436b3cfd048f897a2988abb14e005;
 0x8452c4131a7a4f5730e877519de1b927a02260f56ab0e7cf23dd41010093ced;
 0x72e4518998bb2aa7df1a094e4a1032a4f1651403a006aff7d8d3f8e0431b39a;
 0xab9888d29232bea4dcd77c9627693a4f292375d6ab81482eb0cd718adcc4752;
 0xfc2e5df60bb4a189253e73f07025b34dac9f8f6c215a26c53fa5b3b1482e105;
 0x50e82e90a419f91e690625c51ad3da156afca51ed13531b0e67a3b89385273b;
 0x2f88a4415d7e88cfd3cdf0a5b4bbc26b243319e20d0e4ce861a2f2a5042e93cb;
 0x1e10e776d5e15e0786cd5d0ef96d1ab332eb05773833ea20cd5a19891df8da96;
 0x17de64722cd216df23ac5fc20f4298bc5c23f17de82c80d361a1cc10c3f3b7a3;
 0x196b76cefdcc7f6a54c71d40114a0bb82694c936f1573ac7ac1ea3fcce1fe938;
 0x1b9c2c4eebbe7516481522714ccefbcf9f46b1d9acd32a7074f6e247ad6cc86c;
 0x1b40c39dbad124c570125eb0b2586ec99e260411e0dd871cff7869ec3864df9;
 0x33cd9b171a83f21a643c9db6174fdb0a12ed70e96e4dbcd7cd13888c4b3eb55;
 0x19cb8e0c054400347facfff66eacd97d794bd61b59323af411ad0fbe2f380942;
 0x26c218511f870b55f305e1787e4b19e1ab682b8c823153abf87d6b93d808e4d9;
 0x29e12c794848bfe525ab81ce659d2cf1111feb3fd7118f94e22a86b6f88b53cf;
 0x3a6658a834c4e3616dc5f917fa062d251c8ba4cccd09532eca0d77981b0170;
 0x168adabd67838fadbbf46c9d9716f71494ab077f42cacf9c45e489d342a3e15a;
 0x11742863039a6788df3464d2644c239b1929c3f16f43efaf505e2416f5e23a1c;
 0x126abad95e2b51fd989173eb24d170db35879d2ed95aeb53fc43f37b92e0da48;
 0x23c212335569ce5f39553eb328159fefbdba99ea37be97365fe8049e550c93da;
 0x2f4dd1170cd5681dd49cffa2b31105e7f1772c10277da6436208aa1a496c0ca3;
 0x1f1add5db460502e7d77a5abe06b5391bfd9363ec845f737ca6c072f46d26164;
 0xde4648c15ee1c296f4bbc50fcf033680afe8764c93b524d0c7f96a17c8fa0c1;
 0x2940f3f803b79a69ec13670c3bcef58b3aa6225c5ff1b9fd8bcf1ce7d9da83a9;
 0x6022a2c0e67a56ca21f209520eb78989c32443d6d66a659def8fb09e41dc3b;
 0x2614b22ed71c1ebf563048afad7b64934e51c6c1787f79d6cacb0cfa401692f3;
 0xae0351a3f38218d3f64682ea5b4bbd19c9da2312b6d66c98a4e5793f56037b6;
 0x2acb14246a8372f36e96bae26d0298d0dec2a8037325848540d092927b247af7;
 0x4ac1f3bf59ff8258755878919911219c901e45d368e485fd581702935e593b8;
 0x637c3722f5a87f3c148453456b4bd91dde864a8d689b73b12379558e5fe427;
 0x2ed10f87c57e6e4d78f31e18f1c7e9ee7c0b59117a6d034e2ead2aae114caa32;
 0x2db539eff29b1c4e93218c6e10e9552179fb7b03fc7308882fa9ada5a9eb4776;
 0xcaedc62eb88ea19a6ea5fde158da87c74f591099c56a110467fcbb2dcd21f79;
 0x485d5824b4d88b5c32a715605487a6b58ae93461b15110f2a7f71887069940e;
 0x20fa1c1846393fc776c5868c6eb0b841e64eaf613c2005ea361b317dabbca53e;
 0x2e17fb34208254172d03928de8c56b8cc29f87e29e8aef1f79b13bfb5e7ae90d;
 0x1d45f577db25f490276008376cf8b59a08f20d469d8676010f7f281d5cd1aeb1;
 0x48ea8cd9295a1a3e48cb22507e7237d0a6566b58e4747c0896fbefd7aa0c7c2;
 0x3059196428e054d558d0e6a091559ff419ddfeab8e2aa1ba796e98849098f404;
 0x1170eb002f68247115722d0638fcea7c2b7f70024953c733bc8cd94a86c23ca7;
 0x25fcb5f375ff3d5cc49ca2936b121d9591be3e09fc88efeea4cf90521aa04b97;
 0x196b76cefdcc7f6a54c71d40114a0bb82694c936f1573ac7ac1ea3fcce1fe938;
 0x23444707325fc7683a461c2dea2173d8472c0b5b13701b34b87203bffe8f4aa4;
 0x2b272e00da1d1d1d764b7da9384cd2efb8db8604c01b9f2b833a7c1520369e3b;
 0x17b59a35bca179afddf24993a2a28466862328d66cf18d77e8be5f950d7f957c;
 0x20460d5c7e4548772c619dbe8a220b477882005180887377c0ecb4b4c20ce625;
 0xd1346ae8fcfaefc96496235e8a4b6cac300a284f97be68f0a453c55569e2e1c;
 0x29d5c8e901d6f659e2c9b51f5da873c776a55de9fe0a95910c5893d9d64c180d;
 0x109297c57950d5ec34e371af14fe40615e26d74a4fd2562dbaf8b0cfc0da67b5;
 0xafa294b0b8973e74c6bcbcdf0953726679268df4b7ab3a0af0496d80f4e915a;
 0x1ccdae789483414efc596b7a74d20cc5af2de7595d53c80c6762e599c4c19918;
 0x7d80df4e972d5962e8447454033d912127d2930fd5229d1274aacb93ab35467;
 0x19e7ddd05077b3710fc6cf15a1746ff3f2ce7b0ad9355bdcc599e882881b7812;
 0x19c52a43b8a53bb146faf681e98fc8670800b6b9dde47ea38a849b82c1f17920;
 0x2ed2fd2f3a2f78c35d4ec54a41b9941d4040bf4f0766985c776b6726746efeb7;
 0x117e9b92ef305e1cecef90cb404f6b178b1d2c216e8c3bf650ad5b9f675a2446;
 0x27dbe49809655461a2940850aa8c41ce6dbd5221400a9dce49f9f3ff9b04dd57;
 0x8bc85ab2f7b9d3152fec37fd1c66ef688e2d71e325dba40eeed84dced4ea11;
 0x18550a78308e47e5ac75a3cd82d4389a37c6918ed42bffa89dd128c6b4cd6f53;
 0x22d06c4fb6f2b725a93cb9e97f08f466c2d2078953f43f4159bdafe3a9bbc2d2;
 0x1f3f2ff5ea4b6044d0d142c2850a8907dece24a9e7c508c09b3b7cbf1d2db33a;
 0x2985a2e4d66f1b2c18c3f647d444474d432fd597dc23671ccb3bf61c1351e990;
 0x177e8a83bcc683805e1af7e744206e05fc99f85b605b10f3f0867913ff45a521;
 0x97666874717688dba3d9546ff71cb3fa829d101f2bec9a191b5915ec120b658;
 0x15055d2177bd83ae6ef36e4f113f7a53fff218984f73588988acb7f890461698;
 0xe0197b38f1671c3fb6a078cb443ece122bfdd9f47486f3fc5ddcdafefdc9c5c;
 0x78b8c01a67c4e5cb15738416497b1d4b3d8fce7631cef919eb4a39015bb5b8e;
 0x26f58171d43f5d52535468f97f3f4a76a56d43bb0c8560ac98ad6fc409c6895b;
 0x2db3d892f554ae8b1b5819fbd4ae79f23a1f4627383656c93be2e3ff42f7e7c1;
 0x196b74fdd43c9fa4f77111911dced6856b397b19da47474fe1a8f0de62bc57fc;
 0x6238d5e3cdaa238c7670efd64dbcce481815965fdd55efa8ab1706d7a43aa38;
 0x22332a4ce6b7a223d45c777c7bdc960669e4a801b4a76b88b66d05039a53eea0;
 0x1f88fecb08e0101e470f5dcee2c8b846d2562f89cd27d92e6b00faacae30389f;
 0xc2ada53a5fcfb484d0a65c509305fa3f00db8a2f961d4515c149c85e677c8d4;
 0x196b76cefdcc7f6a54c71d40114a0bb82694c936f1573ac7ac1ea3fcce1fe938;
 0x1b28926cd83b4658afd2d9cfdfdce6b87aa9a072634889320a35cdcb9215e5b9;
 0x15d6448f76cf1b20262428f1e416bbd1af8630fb361d7f644639ad5b60d8f180;
 0x2af5dfa19ccc918de449d5d3b592e6d04d78bd796e6f07098e64630f2079d1c9;
 0x19d0ff169994b50d9ca896bffbd91f7f3b5c7d9ad51363fe5f0d2fb6185c2410;
 0x2755fe866df7e2d95bc2c8072e5402ca6f588b7f2734a2a54a4c519ca8297474;
 0x77a07258bfa21e2ac255e20a0d31d9a01cc85cad4bc02e6921a507ed5df4728;
 0x2ece250f68cd231dfbbdd343c367626f3cc413a32be08ebaf996dc8150003b5f;
 0x28d5f29f5df2a1b4fb5dc798dd2fb2d9099a9bb15e06933ccb382d3f712abc56;
 0x2af8e1fcf37dcf5f55699d9929ef5fc6505dfa79e061782ebc6a4bda3100fec5;
 0x1a391e08a393750010adbdfa7c621d382a29b98886d241cfe0c567bb37748954;
 0x1da3f4058cc2ce6554842588dafe5f4517661730183f0b99f9aeacabfc7acfcd;
 0x1e3b1802005fe7296d11441c07cbea61e32baf5484d40e315cb49e2063bb4942;
 0x1eca6728a58b997d09ac9d9eae05bcd86afaeec5800dfd73fb0280edc996d61b;
 0x2991dada2697975e05e0f74b4a69560557d34bef132ff73f3ecce501461f59c1;
 0x13a9e49e7875c154539d20cfef506535c91422054cd04aa195e12695a073487b;
 0xe97ef3325ec39935456c2a330435ef106d50b3d24a74e55045c58da778d2733;
 0x234fd4e50ddc42b1a40b1410ad7d9bbe27d21eb61d1b4ab05516422214059ee6;
 0xce167e175eb021fe2b91b0abb90c94667ea76c9a1139b958ecf14d64c617722;
 0x15871010759972a879b18a4d18bac0870013ee1f646d63f4bc63fcde2847ae87;
 0x168d81f62839ab0e29c4e03c0f570f9e44bd75eecde371611e98bac9a78c51cb;
 0x2c0c157479d4268e5a40179ab0a915072b91889b1eb06e1bb0e30c5936deac3b;
 0x2c1c6ea12c4f9343a80fd53d4169686705ffb51d3ff2766fd4c61f803e648e85;
 0x12c2c9b7086ab39752ea4a0afbd8703ba2ff66c309d48f404d7eb4edb90aadfa;
 0x16a90e916477870cb13cfc1ecfa73fe9365d36854efe87db94a2d8f019a3ee83;
 0x1e5674b6f90be35ef343540b191b0ee45707bdd34452407ad9035dd3bd282799;
 0x2daf0fbad1fe6737f7bca405e34dd0432a4bcd5acaaae29ddf9ed8ffc1f0c336;
 0x2908cd47730b9b031d14f778c53b64aec2838f3370f8832ac1fd7ab2d10a32e1;
 0x1385230fd1095a5c478a798071294b8a11c9805d10d4f27b670a868deff0a451;
 0x1d163c58cf48bb8e02eb3193cdfee3ef9c85133c14f87db1829663e74d10620a;
 0x2e557c38674c410f4d7c72ee1a36898f9c16ccbf5bf4709f49e1e727dffa2a55;
 0x1c05ef08c0686e237cccd7c9f7279e5abdbc39f7a27dda7238e73f37526346df;
 0x2527d4d7449be5d202aec33259a43c5daf25db035ba558b03308203a0e33f717;
 0x196b76cefdcc7f6a54c71d40114a0bb82694c936f1573ac7ac1ea3fcce1fe938;
 0x10a492ae5b487f258651a3aed0227cc02f6c7a8761586894c74e50b84ad8081a;
 0x2403d5c045640a3867d3fff22c33d5a7d4cc9c86fb7f746f0cfaa6cf0009165;
 0x2d5d1d7a9af2b5a434066ba829ad51a9d596c775d77dce9bb5e539df0869093d;
 0x9a863c700ddced174ab9a2f52feab6a6fc50d640f7cda128d3e0db7cc6d5421;
 0x2aab180f6e316fad89afe18cac953fe0795ad3b267d632d4192cdf7a7f09fb6f;
 0xd96040a550ca9da53410c291bb03f2597546be222c18ecc3ce1a6b934c9e79c;
 0x162f27f588a7684b059dcfe87e6f50d77e0b2b7c2a04d6b2bfea5e6677c07124;
 0xb923196444f67bb7b9a3549947da0d1d65c2d863062820159e7b8a15763fbe2;
 0x2004eab7ce64ce5a33d093bffdb3f5c8c062629a82df11c1b9d0237219653ab7;
 0x1227bf877742b79ae1f3f94f4a7d99e2ed3a6a9e531f224f865ef504a5bcaea0;
 0x20f776f86d93c05c559f42775c914befee8b6a77ce89e137ee9faf414a0985d7;
 0x172aa65c733a6035cda4bd931733ecb05f160dea5fac191c85b7f96c03c76ff;
 0x8be42f0fb8d0bd0918ae0c9a23d6c350992a03652a1443e10676ef0aab7758f;
 0x1fd0be6c49952151cd278ae5631d6760f0b7faa1da5cf1f86e88f04332962b0d;
 0xf9ac50342fd157a0cf0acac7bceaf4498140817dfb573e81bc6b455122abc7;
 0xcb3dfddba8d704f6abe9c8d4c31c36ba7aabd8b33866d5c34920a61a0971ca6;
 0xe770f3147cb0e321701d76e1090173d30171d6cb47618e96f0391cfe89a857c;
 0x737d887efe6fe8f9472901487cce5dd61e60b27b3a3987a5107cc0c747c73d3;
 0x1a385e2fdbacefe3fc505c0e8866ed36657ae93f963f4d8b9af435a98cc91fab;
 0x47765901d35e5b9c88c43dd5f4141cba4debe6bc675e49a08069b787252a3c1;
 0x1da4a4ede36f08e2b6f0000760e022e4c87b4828f5df067037e07ed0a3db70aa;
 0x847d2c6657d2fa009b736d83e33c9861b0192212fe8edd90dd9dfe16f52f861;
 0x3039ed5a92b2b6ac7e0dda476285292ccd649442508936442d4d3cc1d552383;
 0x77951dcf1d2ed93be5b91b720b5387db3a4097e55cc7781b69c27f5eeefe04;
 0xb585622b1f5eb8fdfcaad1c3cd7f944255a4618ebfc9f9dacf339e874df620a;
 0x1a2a7bbd62d97bb265d127d44fe34b17d9da8ee75813b5c51b9e16ee8dd7b402;
 0xdc48ec2dabd95e06d2987fd1824a959e084d4e62d1b2c5e503b33dbe6b30d02;
 0x290de95aae65845be12406a4585f7187d3d6528bf7daf00a84da01e8dfb69e1f;
 0xc017e46a4f39a1669a350ee495e7ad68562b222de7114a6c101adef47853293;
 0x2f0b5fb02d18a781e744403921d82e54c4919d1686d824bf4e62b2e4cc088cf9;
 0xe7e699b1dd9c60f0018d874e9364210eb920583d0d2d71567d38f4333bfa474;
 0x9472c6ed2b6494433a9319f2b093f2fd1923059b6002a6e896fee03e19546b8;
 0x196b76cefdcc7f6a54c71d40114a0bb82694c936f1573ac7ac1ea3fcce1fe938;
 0x2a8a40093e2bc9627fe39aa84ab78c1ce1265e8cbe28569136f8b83dbf1e1a0e;
 0x21d9b9f7094b3462aaa61148b272fba6556514dcb39cfb47b5414ac776944f82;
 0x22be02328bc62605ca6d890565b9726e83b9d8f925e702412edf291b777df027;
 0x27b5d7ddef018e17569d33d8c4e9003ae36382bb57caf96bb224b724cf237254;
 0x54ec141c594bace5c88a41767e82517f8dcd8e02dd54f8fdc1c7223d3614982;
 0x17f76454a7d3b049dc34c09012706560351dd12ff052187ba5228c9fd5abc646;
 0x189a082f5c10117ffb6b064329b31026c852cd41e01352e6c7b9d12686200598;
 0xc597daf1c2a8f602322f2796a1bca2aa3101cb8c9a876ee195a9bda90da5d5b;
 0x2ac2e1037357e29885d73882899652c5cdaf8560ae356bbdf7ded11c139dc663;
 0x6ca950f38af807cac3b6d74cb2937af0a2287576b78fddfd7200f06e66e5f22;
 0x736209bdf8c1ac643b8ecd0950d2bb4dcd8745be7c8cf64432da264fc4c6a33;
 0x1e96d9fd0f2db5bcee16ce782403a3a33acad70b237106686ad0bbd8bbc00d1f;
 0x2d7f5635e4b127aab06795499bb1a6c97c54806d79823ff7871e519f4081cc1c;
 0x1d8d18b18dd07bb89fe0c84a7740faed098c6a2b0cde5f426fb8c8b7643bf95c;
 0x28d51d4551904bbf04ec169bed853453358042ef76a08ea8d155f8677a051ccd;
 0x189be365face10b9a4183d6f21048d6c36ca9c28b0720c71d72ed529654aa624;
 0x130fc54477fd953377fc23abbd7a41be6764892a8787c759c1440fe0133c852d;
 0x2c9c91f48661771baeef6774578a78f69c355c8e907156fdf26db39d2446413f;
 0x1dec0bafa3e8190621e5e095ef751ea03c836dbb8045b2a73f8d397cfb815192;
 0xa5f52ad6ec4a8aa377d8dd2ae3aaf6eea0c68c63a1d034fbda67133ca0b85cb;
 0x20ab7394bfdab344cbb6f2123800a0e23508e2125bfe795ab4a767cecb4d9306;
 0x110ea322b0c26476c67bfa2c1b9d1713f93b3b9cf8320ce0dcd4b64288bda07a;
 0x54eabe6131681fa01fbc6dbf3e7d53595d0f8809987182142b890ac8af89cbe;
 0x224d811fbdef8ec0a006d376a019e57c93bd596213a07823b7d4abce1fd8e621;
 0xe691fca423128a7d4afcaa582b1a94799ba1f5d2a5d53bc2bba56bbecb227a1;
 0x189e279c92de0bab66707e6e6e310524e615cd4c6aacc665372a3b8e372d8ce6;
 0x1d9bcbbd17b93b1913d2f79cdf12844441237206f0294746d93f8e5bdceb4725;
 0x1179184635a9780ee1312dcc3d15c7ef042b18ae9409670e28c4c7f0fb9b608e;
 0xe48466182ae8333af1891a6aa19736741ed0680d57c931ede13fc07ae82e88b;
 0x1c9d56f71c2f22c44d3a8c17bf5b40452e05471f0b6dfe9ffe4725eb29f73464;
 0x2234546f5e8541e8f72ad794891950b32b1cd891cc66775c5b635961642e9c15;
 0x14c09d155c5d428198c234b553da338f227cbc12b0e42f2b9ce71563ee1495c0].
